(** Which objects share an element string or a GS1 key: C54.  [content c u d t] (Spec/SpecCollide.v): [u] is a URI of class [c] whose
    digit groups run together are [d] and whose serial as plain text is [t]. *)
From Coq Require Import String.
From Verif.Model Require Import Py Common Base Parsers.
From Verif.Model Require Import Adi Cpi Gdti Giai Gid Grai Gsrn Gsrnp Itip Lgtin Sgcn Sgln Sgtin Sscc Usdod Others.
From Verif.Spec Require Import Spec SpecEscapes SpecGrammar SpecCollide.
From Verif.Proofs Require Import CtorA CtorB CtorC Collide.

(** two objects, of whatever classes, share an element string exactly if they are of one class with the same digits and text *)
Theorem C54_element : forall c c' u u' e e' g g',
  init_of c u = Ok e -> init_of c' u' = Ok e' -> epc_gs1_element_string e = Ok g -> epc_gs1_element_string e' = Ok g' ->
  (g = g' <-> c = c' /\ exists d t, content c u d t /\ content c' u' d t).
Proof. exact element_kernel. Qed.
Print Assumptions C54_element.
Definition C54_uri : str := lit "urn:epc:id:sgtin:0614141.812345.32a%2Fb".
Definition C54_uri2 : str := lit "urn:epc:id:sgtin:061414.8112345.32a%2Fb".
Example C54_element_case : content C_SGTIN C54_uri (lit "8061414112345") (lit "32a/b") /\ content C_SGTIN C54_uri2 (lit "8061414112345") (lit "32a/b") /\
  exists x y, init_of C_SGTIN C54_uri = Ok x /\ init_of C_SGTIN C54_uri2 = Ok y /\ x <> y /\
    epc_gs1_element_string x = Ok (lit "(01)80614141123458(21)32a/b") /\ epc_gs1_element_string y = Ok (lit "(01)80614141123458(21)32a/b").
Proof.
  pose (x := mkSgtin C54_uri (lit "0614141") (lit "812345") (lit "32a%2Fb") (lit "80614141123458")).
  pose (y := mkSgtin C54_uri2 (lit "061414") (lit "8112345") (lit "32a%2Fb") (lit "80614141123458")).
  assert (X : sgtin_init C54_uri = Ok x) by (vm_compute; reflexivity). assert (Y : sgtin_init C54_uri2 = Ok y) by (vm_compute; reflexivity).
  split. { apply sgtin_iff in X as (U & _). exists (lit "0614141"), 56, (lit "12345"), (lit "32a%2Fb"). split; [exact U|split; reflexivity]. }
  split. { apply sgtin_iff in Y as (U & _). exists (lit "061414"), 56, (lit "112345"), (lit "32a%2Fb"). split; [exact U|split; reflexivity]. }
  exists (E_SGTIN x), (E_SGTIN y). cbn [init_of]. rewrite X, Y. split; [reflexivity|]. split; [reflexivity|]. split; [discriminate|]. split; vm_compute; reflexivity.
Qed.

(** with the same length of company prefix and serials spelled the standard way, the element string identifies the URI *)
Theorem C54_identified : forall c u u' cp cp' e e' g,
  plainly_spelled c u cp -> plainly_spelled c u' cp' -> init_of c u = Ok e -> init_of c u' = Ok e' ->
  epc_gs1_element_string e = Ok g -> epc_gs1_element_string e' = Ok g -> length cp = length cp' -> u = u'.
Proof. exact same_object. Qed.
Print Assumptions C54_identified.
Example C54_identified_case : plainly_spelled C_SGTIN C54_uri (lit "0614141") /\ plainly_spelled C_SGTIN C54_uri2 (lit "061414").
Proof.
  assert (K : canonical_serial (lit "32a%2Fb")).
  { exists (lit "32a/b"). split; [discriminate|]. split; [|reflexivity]. intros c H. cbn in H. repeat destruct H as [<-|H]; try (vm_compute; tauto). }
  split.
  - assert (X : sgtin_init C54_uri = Ok (mkSgtin C54_uri (lit "0614141") (lit "812345") (lit "32a%2Fb") (lit "80614141123458"))) by (vm_compute; reflexivity).
    apply sgtin_iff in X as (U & _). exists (lit "812345"), (lit "32a%2Fb"). exact (conj U K).
  - assert (X : sgtin_init C54_uri2 = Ok (mkSgtin C54_uri2 (lit "061414") (lit "8112345") (lit "32a%2Fb") (lit "80614141123458"))) by (vm_compute; reflexivity).
    apply sgtin_iff in X as (U & _). exists (lit "8112345"), (lit "32a%2Fb"). exact (conj U K).
Qed.

(** two objects of one class share a GS1 key exactly if they have the same digits and, unless the key leaves it out, the same text *)
Theorem C54_key : forall c u u' e e' k k',
  init_of c u = Ok e -> init_of c u' = Ok e' -> epc_gs1_key e None = Ok k -> epc_gs1_key e' None = Ok k' ->
  (k = k' <-> exists d t, key_content c u d t /\ key_content c u' d t).
Proof. exact key_kernel. Qed.
Print Assumptions C54_key.
Example C54_key_case : 
  match init_of C_SGTIN C54_uri, init_of C_SGTIN (lit "urn:epc:id:sgtin:06141411.82345.7"), init_of C_SGTIN (lit "urn:epc:id:sgtin:0614141.812346.32a%2Fb") with
  | Ok x, Ok y, Ok z => epc_gs1_key x None = Ok (lit "80614141123458") /\ epc_gs1_key y None = Ok (lit "80614141123458") /\ epc_gs1_key z None = Ok (lit "80614141123465")
  | _, _, _ => False end.
Proof. vm_compute. repeat split. Qed.

(** so no element string of an SGTIN determines the object: another one has its company prefix a digit longer *)
Theorem C54_element_injective_refuted : forall u cp i x rest serial,
  sgtin_uri u cp (i :: x :: rest) serial -> (length cp < 12)%nat ->
  exists u' e e' g, sgtin_uri u' (cp ++ [x]) (i :: rest) serial /\ u' <> u /\ init_of C_SGTIN u = Ok e /\ init_of C_SGTIN u' = Ok e' /\
    epc_gs1_element_string e = Ok g /\ epc_gs1_element_string e' = Ok g /\ epc_eqb e e' = false.
Proof. exact next_split. Qed.
Print Assumptions C54_element_injective_refuted.
Example C54_split_case : sgtin_uri C54_uri (lit "0614141") (lit "812345") (lit "32a%2Fb").
Proof.
  assert (X : sgtin_init C54_uri = Ok (mkSgtin C54_uri (lit "0614141") (lit "812345") (lit "32a%2Fb") (lit "80614141123458"))) by (vm_compute; reflexivity).
  apply sgtin_iff in X. exact (proj1 X).
Qed.
(** nor does it with the company prefix length known, if an escape is spelled in small letters, *)
Theorem C54_escape_refuted : exists e e' g,
  init_of C_SGTIN (lit "urn:epc:id:sgtin:0614141.812345.a%2f") = Ok e /\ init_of C_SGTIN (lit "urn:epc:id:sgtin:0614141.812345.a%252f") = Ok e' /\
  e <> e' /\ epc_gs1_element_string e = Ok g /\ epc_gs1_element_string e' = Ok g.
Proof. exact escape_collision. Qed.
Print Assumptions C54_escape_refuted.
(** nor for an ITIP, whose piece and total run together *)
Theorem C54_piece_refuted : exists e e' g,
  init_of C_ITIP (lit "urn:epc:id:itip:4012345.012345.01.02.987") = Ok e /\ init_of C_ITIP (lit "urn:epc:id:itip:4012345.012345.0.102.987") = Ok e' /\
  e <> e' /\ epc_gs1_element_string e = Ok g /\ epc_gs1_element_string e' = Ok g.
Proof. exact piece_collision. Qed.
Print Assumptions C54_piece_refuted.
(** a GS1 key does not determine the class *)
Theorem C54_class_refuted : exists e e' e'' k,
  init_of C_SSCC (lit "urn:epc:id:sscc:6141411.0234567890") = Ok e /\ init_of C_GSRN (lit "urn:epc:id:gsrn:0614141.1234567890") = Ok e' /\
  init_of C_GIAI (lit "urn:epc:id:giai:0614141.12345678902") = Ok e'' /\
  epc_gs1_key e None = Ok k /\ epc_gs1_key e' None = Ok k /\ epc_gs1_key e'' None = Ok k.
Proof. exact class_collision. Qed.
Print Assumptions C54_class_refuted.
