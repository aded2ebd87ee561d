(** The source text of epcpy/epc_schemes/pgln.py on the machine. *)
From Coq Require Import String Lia.
From Verif.Model Require Import Py PyFloat Re Sre PyFormat Syntax Machine Regexes Common Base Others.
From Verif.Source Require Import World.
From Verif.Proofs Require Import Basics Num SreTexts SreUse SrcUse SrcBase.

Ltac start := let k := fresh "k" in intros k; cbv [pgln_obj]; enter.

Lemma g_init u : builds "pgln.PGLN" (fun u => result pgln_obj (pgln_init u)) u.
Proof. intros k. inits. full agree_PGLN_URI. unfold pgln_init, field4, tail4, idx, cp_len_ok, unpack2, unpack3, unpack1_rest, unpack2_rest, unpack4_rest. consts. runs. Qed.
Lemma g_from_epc_uri u : gives "base_scheme.EPCScheme.from_epc_uri" [VClass "pgln.PGLN"; VStr u] (result pgln_obj (pgln_init u)).
Proof. intros k. enter. tailcall g_init. done. Qed.
Lemma g_gs1_key x : gives "pgln.PGLN.gs1_key" [pgln_obj x] (Returned (VStr (pgln_gs1_key x))).
Proof. start. done. Qed.
Lemma g_gs1_element_string x : gives "pgln.PGLN.gs1_element_string" [pgln_obj x] (Returned (VStr (pgln_gs1_element_string x))).
Proof. start; runs; try done. Qed.
Lemma g_from_gs1_element_string s n : gives "pgln.PGLN.from_gs1_element_string" [VClass "pgln.PGLN"; VStr s; VInt n]
  (result pgln_obj (pgln_from_gs1_element_string s n)).
Proof. start. full agree_PGLN_GS1_ELEMENT_STRING. unfold pgln_from_gs1_element_string, unpack2, unpack3, idx; consts. runs. tailcall g_init. done. Qed.

(** * The claims *)

Lemma pgln_construct :
  (forall u args kws, passed1 "epc_uri" (VStr u) args kws -> calls W (VClass "pgln.PGLN") args kws (result pgln_obj (pgln_init u))) /\
  (forall u args kws, passed1 "epc_uri" (VStr u) args kws -> invokes W (VClass "pgln.PGLN") "from_epc_uri" args kws (result pgln_obj (pgln_init u))).
Proof.
  split; intros u args kws P; ways P; first [called (g_init u) | invoked (g_from_epc_uri u)].
Qed.
Lemma pgln_gs1 :
  (forall x, invokes W (pgln_obj x) "gs1_key" [] [] (Returned (VStr (pgln_gs1_key x)))) /\
  (forall x, invokes W (pgln_obj x) "gs1_element_string" [] [] (Returned (VStr (pgln_gs1_element_string x)))) /\
  (forall s n args kws, passed2 "gs1_element_string" "company_prefix_length" (VStr s) (VInt n) args kws ->
     invokes W (VClass "pgln.PGLN") "from_gs1_element_string" args kws (result pgln_obj (pgln_from_gs1_element_string s n))).
Proof.
  repeat apply conj.
  - intros x. cbv [pgln_obj]. invoked (g_gs1_key x).
  - intros x. cbv [pgln_obj]. invoked (g_gs1_element_string x).
  - intros s n args kws P. ways P; invoked (g_from_gs1_element_string s n).
Qed.
