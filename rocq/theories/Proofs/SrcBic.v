(** The source text of epcpy/epc_schemes/bic.py on the machine. *)
From Coq Require Import String Lia.
From Verif.Model Require Import Py PyFloat Re Sre PyFormat Syntax Machine Regexes Common Base Others.
From Verif.Source Require Import World.
From Verif.Proofs Require Import Basics Num SreTexts SreUse SrcUse SrcBase.

Ltac start := let k := fresh "k" in intros k; cbv [bic_obj]; enter.

Lemma g_init u : builds "bic.BIC" (fun u => result bic_obj (bic_init u)) u.
Proof. intros k. inits. full agree_BIC_URI. unfold bic_init, field4, tail4, idx, cp_len_ok, unpack2, unpack3, unpack1_rest, unpack2_rest, unpack4_rest. consts. runs. Qed.
Lemma g_from_epc_uri u : gives "base_scheme.EPCScheme.from_epc_uri" [VClass "bic.BIC"; VStr u] (result bic_obj (bic_init u)).
Proof. intros k. enter. tailcall g_init. done. Qed.

(** * The claims *)

Lemma bic_construct :
  (forall u args kws, passed1 "epc_uri" (VStr u) args kws -> calls W (VClass "bic.BIC") args kws (result bic_obj (bic_init u))) /\
  (forall u args kws, passed1 "epc_uri" (VStr u) args kws -> invokes W (VClass "bic.BIC") "from_epc_uri" args kws (result bic_obj (bic_init u))).
Proof.
  split; intros u args kws P; ways P; first [called (g_init u) | invoked (g_from_epc_uri u)].
Qed.
