(** From runs of the machine to the claims about calls. *)
From Coq Require Import String Lia.
From Verif.Model Require Import Py PyFormat Syntax Machine Loader.
From Verif.Source Require Import Program World.
From Verif.Proofs Require Export RunTac.

Lemma calls_of f args r : (forall k, reach W (StCall f args [] false k) (StDone r k)) -> calls W f args [] r.
Proof. intros H. apply (H []). Qed.
Lemma calls_kw_of f args kws r : (forall k, reach W (StCall f args kws false k) (StDone r k)) -> calls W f args kws r.
Proof. intros H. apply (H []). Qed.
Lemma calls_once f args kws r r' : calls W f args kws r -> calls W f args kws r' -> r = r'.
Proof. intros H H'. assert (E : StDone r [] = StDone r' []) by (apply (reach_unique W (StCall f args kws false [])); [exact I|exact I|exact H|exact H']).
  injection E. auto. Qed.
Lemma loading : exists W', load modules (empty_world codes) = Some W' /\
  w_code W' = w_code W /\ w_ns W' = w_ns W /\ w_cls W' = w_cls W /\ w_def W' = w_def W.
Proof. eexists. split; [vm_compute; reflexivity|]. repeat split; vm_compute; reflexivity. Qed.
