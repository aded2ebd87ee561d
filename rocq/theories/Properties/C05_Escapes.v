(** URI escapes: C05. *)
From Coq Require Import String.
From Verif.Model Require Import Py Common.
From Verif.Spec Require Import Spec.
From Verif.Proofs Require Import Escapes.

(** C05.  Escaping works character by character and touches exactly the seven reserved characters. *)
Theorem C05_revert_escapes_each_reserved_character : forall s, revert_uri_escapes s = escape s.
Proof. exact revert_uri_escapes_spec. Qed.
Print Assumptions C05_revert_escapes_each_reserved_character.
Example C05_case_escape : revert_uri_escapes (lit "10%/<a>") = lit "10%25%2F%3Ca%3E".
Proof. reflexivity. Qed.

(** C05.  Unescaping undoes escaping, for every text. *)
Theorem C05_unescape_escape : forall s, replace_uri_escapes (revert_uri_escapes s) = s.
Proof. exact replace_revert. Qed.
Print Assumptions C05_unescape_escape.

(** C05.  Escaping undoes unescaping, for every canonically escaped text. *)
Theorem C05_escape_unescape : forall t, revert_uri_escapes (replace_uri_escapes (escape t)) = escape t.
Proof. exact revert_replace_escape. Qed.
Print Assumptions C05_escape_unescape.
Example C05_case_percent : replace_uri_escapes (lit "%2522%25") = lit "%22%" /\ escape (lit "%22%") = lit "%2522%25".
Proof. split; reflexivity. Qed.

(** C05.  Escaping is injective. *)
Theorem C05_escape_injective : forall s t, revert_uri_escapes s = revert_uri_escapes t -> s = t.
Proof. exact revert_inj. Qed.
Print Assumptions C05_escape_injective.

(** Unescaping a text with other escapes is not undone: the canonical hypothesis is needed. *)
Theorem C05_escape_unescape_noncanonical_refuted : exists t, revert_uri_escapes (replace_uri_escapes t) <> t.
Proof. exact revert_replace_refuted. Qed.
Print Assumptions C05_escape_unescape_noncanonical_refuted.
