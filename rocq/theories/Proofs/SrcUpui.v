(** The source text of epcpy/epc_schemes/upui.py on the machine. *)
From Coq Require Import String Lia.
From Verif.Model Require Import Py PyFloat Re Sre PyFormat Syntax Machine Regexes Common Base Others.
From Verif.Source Require Import World.
From Verif.Proofs Require Import Basics Num SreTexts SreUse SrcUse SrcBase.

Ltac start := let k := fresh "k" in intros k; cbv [upui_obj]; enter.

Lemma g_init u : builds "upui.UPUI" (fun u => result upui_obj (upui_init u)) u.
Proof. intros k. inits. full agree_UPUI_URI. unfold upui_init, field4, tail4, idx, cp_len_ok, unpack2, unpack3, unpack1_rest, unpack2_rest, unpack4_rest. consts. runs. Qed.
Lemma g_from_epc_uri u : gives "base_scheme.EPCScheme.from_epc_uri" [VClass "upui.UPUI"; VStr u] (result upui_obj (upui_init u)).
Proof. intros k. enter. tailcall g_init. done. Qed.
Lemma g_gs1_element_string x : gives "upui.UPUI.gs1_element_string" [upui_obj x] (result VStr (upui_gs1_element_string x)).
Proof. start. unfold upui_gs1_element_string, idx. runs. Qed.
Lemma g_from_gs1_element_string s n : gives "upui.UPUI.from_gs1_element_string" [VClass "upui.UPUI"; VStr s; VInt n]
  (result upui_obj (upui_from_gs1_element_string s n)).
Proof. start. full agree_UPUI_GS1_ELEMENT_STRING. unfold upui_from_gs1_element_string, unpack2, unpack3, idx; consts. runs. tailcall g_init. done. Qed.

(** * The claims *)

Lemma upui_construct :
  (forall u args kws, passed1 "epc_uri" (VStr u) args kws -> calls W (VClass "upui.UPUI") args kws (result upui_obj (upui_init u))) /\
  (forall u args kws, passed1 "epc_uri" (VStr u) args kws -> invokes W (VClass "upui.UPUI") "from_epc_uri" args kws (result upui_obj (upui_init u))).
Proof.
  split; intros u args kws P; ways P; first [called (g_init u) | invoked (g_from_epc_uri u)].
Qed.
Lemma upui_gs1 :
  (forall x, invokes W (upui_obj x) "gs1_element_string" [] [] (result VStr (upui_gs1_element_string x))) /\
  (forall s n args kws, passed2 "gs1_element_string" "company_prefix_length" (VStr s) (VInt n) args kws ->
     invokes W (VClass "upui.UPUI") "from_gs1_element_string" args kws (result upui_obj (upui_from_gs1_element_string s n))).
Proof.
  repeat apply conj.
  - intros x. cbv [upui_obj]. invoked (g_gs1_element_string x).
  - intros s n args kws P. ways P; invoked (g_from_gs1_element_string s n).
Qed.
