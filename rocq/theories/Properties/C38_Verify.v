(** Escape verification: C38. *)
From Coq Require Import String.
From Verif.Model Require Import Py Common.
From Verif.Spec Require Import Spec SpecEscapes.
From Verif.Proofs Require Import Verify2 VerifySpec.

(** C38.  Exactly which canonically escaped serials of the GS1 alphabet pass. *)
Theorem C38_verify_accepts_exactly : forall t, t <> [] -> ai82_text t ->
  (verify_gs3a3_component (escape t) = Ok tt <-> ~ misread t).
Proof. exact verify_canonical. Qed.
Print Assumptions C38_verify_accepts_exactly.
Example C38_case_accepted : ai82_text (lit "12/3%45/") /\ ~ misread (lit "12/3%45/") /\
  escape (lit "12/3%45/") = lit "12%2F3%2545%2F".
Proof. exact accepted_case. Qed.

(** C38.  A misread serial is refused, with one of three exceptions. *)
Theorem C38_verify_refusal : forall t, t <> [] -> ai82_text t -> misread t ->
  exists e, verify_gs3a3_component (escape t) = Raise e /\
    (e = ConvertException \/ e = ValueError \/ e = OverflowError).
Proof. exact verify_canonical_refusal. Qed.
Print Assumptions C38_verify_refusal.

(** C38.  Each of the three occurs on a standard serial. *)
Theorem C38_verify_refuses_standard_serials :
  (misread (lit "/12") /\ verify_gs3a3_component (lit "%2F12") = Raise ConvertException) /\
  (misread (lit "/xyz") /\ verify_gs3a3_component (lit "%2Fxyz") = Raise ValueError) /\
  (misread (lit "/00000000") /\ verify_gs3a3_component (lit "%2F00000000") = Raise OverflowError) /\
  (misread (lit "12%?a") /\ verify_gs3a3_component (lit "12%25%3Fa") = Raise ConvertException).
Proof. exact refusal_cases. Qed.
Print Assumptions C38_verify_refuses_standard_serials.

(** C38.  Serials without letter escapes always pass. *)
Theorem C38_verify_accepts_without_letter_escapes : forall t, t <> [] -> ai82_text t ->
  (forall c, In c t -> ~ letter_escaped c) -> verify_gs3a3_component (escape t) = Ok tt.
Proof. exact verify_no_letter. Qed.
Print Assumptions C38_verify_accepts_without_letter_escapes.
Example C38_case_no_letter : verify_gs3a3_component (escape (lit "a%b&c(1)")) = Ok tt /\
  escape (lit "a%b&c(1)") = lit "a%25b%26c(1)".
Proof. split; reflexivity. Qed.

(** C38.  Whatever the text, the check returns or raises one of the three exceptions. *)
Theorem C38_verify_total : forall s, verify_gs3a3_component s = Ok tt \/
  exists e, verify_gs3a3_component s = Raise e /\ (e = ConvertException \/ e = ValueError \/ e = OverflowError).
Proof. exact Verify.verify_result. Qed.
Print Assumptions C38_verify_total.
