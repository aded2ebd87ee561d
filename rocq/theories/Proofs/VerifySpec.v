(** Concrete cases of the escape check. *)
From Coq Require Import String.
From Verif.Model Require Import Py Re Regexes Common.
From Verif.Spec Require Import Spec SpecEscapes.
From Verif.Proofs Require Import Basics Verify Verify2.

Lemma vscan_not_misread t : vscan AtStart t = true -> ~ misread t.
Proof. intros H M. apply misread_start in M. apply vscan_misread in M. congruence. Qed.
Lemma vscan_is_misread t : vscan AtStart t = false -> misread t.
Proof. intros H. apply misread_start, vscan_misread, H. Qed.

Lemma accepted_case : ai82_text (lit "12/3%45/") /\ ~ misread (lit "12/3%45/") /\
  escape (lit "12/3%45/") = lit "12%2F3%2545%2F".
Proof.
  split; [apply ai82_text_iff; reflexivity|]. split; [apply vscan_not_misread; reflexivity|reflexivity].
Qed.

Lemma refusal_cases :
  (misread (lit "/12") /\ verify_gs3a3_component (lit "%2F12") = Raise ConvertException) /\
  (misread (lit "/xyz") /\ verify_gs3a3_component (lit "%2Fxyz") = Raise ValueError) /\
  (misread (lit "/00000000") /\ verify_gs3a3_component (lit "%2F00000000") = Raise OverflowError) /\
  (misread (lit "12%?a") /\ verify_gs3a3_component (lit "12%25%3Fa") = Raise ConvertException).
Proof. repeat split; first [apply vscan_is_misread; reflexivity | vm_compute; reflexivity]. Qed.
