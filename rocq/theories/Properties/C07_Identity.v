(** Objects keep their URI, and equality is equality of URIs: C07. *)
From Coq Require Import String.
From Verif.Model Require Import Py Common Base Parsers.
From Verif.Spec Require Import Spec SpecSchemes.
From Verif.Proofs Require Import CtorAll.

Theorem C07_uri_kept : forall c u e, init_of c u = Ok e -> class_of e = c /\ epc_uri e = u.
Proof. exact init_class. Qed.
Print Assumptions C07_uri_kept.
Example C07_uri_kept_case :
  match init_of C_SGTIN (lit "urn:epc:id:sgtin:0614141.812345.6789") with
  | Ok e => str_eqb (epc_uri e) (lit "urn:epc:id:sgtin:0614141.812345.6789")
  | Raise _ => false
  end = true.
Proof. vm_compute. reflexivity. Qed.

Theorem C07_equality_is_equivalence : 
  (forall a, epc_eqb a a = true) /\ (forall a b, epc_eqb a b = epc_eqb b a) /\
  (forall a b c, epc_eqb a b = true -> epc_eqb b c = true -> epc_eqb a c = true).
Proof. exact epc_eqb_equiv. Qed.
Print Assumptions C07_equality_is_equivalence.

Theorem C07_equality_is_uri_equality : forall c c' u u' e e', 
  init_of c u = Ok e -> init_of c' u' = Ok e' ->
  (epc_eqb e e' = true <-> u = u') /\ (epc_eqb e e' = true -> c = c' /\ e = e').
Proof. exact epc_eqb_uri. Qed.
Print Assumptions C07_equality_is_uri_equality.
Example C07_equality_case :
  match init_of C_SGTIN (lit "urn:epc:id:sgtin:0614141.812345.6789"),
        init_of C_SGTIN (lit "urn:epc:id:sgtin:0614141.812345.06789"),
        init_of C_GRAI (lit "urn:epc:id:grai:0614141.12345.6789") with
  | Ok a, Ok b, Ok c => epc_eqb a a && negb (epc_eqb a b) && negb (epc_eqb a c)
  | _, _, _ => false
  end = true.
Proof. vm_compute. reflexivity. Qed.
