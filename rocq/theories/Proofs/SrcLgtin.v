(** The source text of epcpy/epc_schemes/lgtin.py on the machine. *)
From Coq Require Import String Lia.
From Verif.Model Require Import Py PyFloat Re Sre PyFormat Syntax Machine Regexes Common Base Lgtin.
From Verif.Source Require Import World.
From Verif.Proofs Require Import Basics Num SreTexts SreUse SrcUse SrcBase.

Ltac start := let k := fresh "k" in intros k; cbv [lgtin_obj gtin_member gtin_name]; enter.

Lemma g_init u : builds "lgtin.LGTIN" (fun u => result lgtin_obj (lgtin_init u)) u.
Proof. intros k. inits. full agree_LGTIN_CLASS. unfold lgtin_init, field4, tail4, idx, cp_len_ok, unpack2, unpack3, unpack1_rest, unpack2_rest, unpack4_rest. consts. runs. Qed.
Lemma g_from_epc_uri u : gives "base_scheme.EPCScheme.from_epc_uri" [VClass "lgtin.LGTIN"; VStr u] (result lgtin_obj (lgtin_init u)).
Proof. intros k. enter. tailcall g_init. done. Qed.
Lemma g_gtin c x t : gtin_class c -> gives "lgtin.LGTIN.gtin" [lgtin_obj x; gtin_member c t] (result VStr (lgtin_gtin x t)).
Proof.
  intros [-> | ->]; destruct t; start; (unfold lgtin_gtin, gtin_view;
    match goal with |- context [Z.of_nat (gtin_len ?t)] =>
      let v := eval vm_compute in (Z.of_nat (gtin_len t)) in change (Z.of_nat (gtin_len t)) with v end; consts; runs).
Qed.
Lemma g_gs1_key c x t : gtin_class c -> gives "lgtin.LGTIN.gs1_key" [lgtin_obj x; gtin_member c t] (result VStr (lgtin_gs1_key x t)).
Proof. intros G. start. tailalike (g_gtin c x t G). done. Qed.
Lemma g_gs1_element_string x : gives "lgtin.LGTIN.gs1_element_string" [lgtin_obj x] (Returned (VStr (lgtin_gs1_element_string x))).
Proof. start; runs; try done. Qed.
Lemma g_from_gs1_element_string s n : gives "lgtin.LGTIN.from_gs1_element_string" [VClass "lgtin.LGTIN"; VStr s; VInt n]
  (result lgtin_obj (lgtin_from_gs1_element_string s n)).
Proof. start. full agree_LGTIN_GS1_ELEMENT_STRING. cut_at cut_paren2. unfold lgtin_from_gs1_element_string, unpack3, idx; consts. change lgtin_m_paren2 with Sgtin.m_paren2. runs. tailcall g_init. done. Qed.

(** * The claims *)

Lemma lgtin_construct :
  (forall u args kws, passed1 "epc_class" (VStr u) args kws -> calls W (VClass "lgtin.LGTIN") args kws (result lgtin_obj (lgtin_init u))) /\
  (forall u args kws, passed1 "epc_uri" (VStr u) args kws -> invokes W (VClass "lgtin.LGTIN") "from_epc_uri" args kws (result lgtin_obj (lgtin_init u))).
Proof.
  split; intros u args kws P; ways P; first [called (g_init u) | invoked (g_from_epc_uri u)].
Qed.
Lemma lgtin_gs1 :
  (forall x c t args kws, gtin_class c -> passed1 "gtin_type" (gtin_member c t) args kws \/ (args = [] /\ kws = [] /\ t = GTIN14) ->
     invokes W (lgtin_obj x) "gs1_key" args kws (result VStr (lgtin_gs1_key x t))) /\
  (forall x c t args kws, gtin_class c -> passed1 "gtin_type" (gtin_member c t) args kws \/ (args = [] /\ kws = [] /\ t = GTIN14) ->
     invokes W (lgtin_obj x) "gtin" args kws (result VStr (lgtin_gtin x t))) /\
  (forall x, invokes W (lgtin_obj x) "gs1_element_string" [] [] (Returned (VStr (lgtin_gs1_element_string x)))) /\
  (forall s n args kws, passed2 "gs1_element_string" "company_prefix_length" (VStr s) (VInt n) args kws ->
     invokes W (VClass "lgtin.LGTIN") "from_gs1_element_string" args kws (result lgtin_obj (lgtin_from_gs1_element_string s n))).
Proof.
  repeat apply conj.
  - intros x c t args kws G P. cbv [lgtin_obj]. ways P; [invoked (g_gs1_key c x t G)|invoked (g_gs1_key c x t G)|invoked (g_gs1_key "lgtin.GTIN_TYPE" x GTIN14 ltac:(cbv; tauto))].
  - intros x c t args kws G P. cbv [lgtin_obj]. ways P; [invoked (g_gtin c x t G)|invoked (g_gtin c x t G)|invoked (g_gtin "lgtin.GTIN_TYPE" x GTIN14 ltac:(cbv; tauto))].
  - intros x. cbv [lgtin_obj]. invoked (g_gs1_element_string x).
  - intros s n args kws P. ways P; invoked (g_from_gs1_element_string s n).
Qed.
