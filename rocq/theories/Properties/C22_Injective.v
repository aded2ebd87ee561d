(** Different requests give different tags: C22. *)
From Coq Require Import String.
From Verif.Model Require Import Py Common Base.
From Verif.Model Require Import Adi Cpi Gdti Giai Gid Grai Gsrn Gsrnp Itip Lgtin Sgcn Sgln Sgtin Sscc Usdod Others Parsers.
From Verif.Spec Require Import Spec SpecEscapes SpecGrammar SpecSchemes SpecTags SpecLayout SpecCoding.
From Verif.Proofs Require Import Inject.

Theorem C22_binary_injective : forall q q' u u', 
  proper_request q u -> proper_request q' u' -> req_binary q = req_binary q' -> q = q' /\ u = u'.
Proof. exact binary_injective. Qed.
Print Assumptions C22_binary_injective.
(** two proper requests, and their tags differ *)
Example C22_case :
  match sgtin_init (lit "urn:epc:id:sgtin:0614141.812345.6789"), sgtin_init (lit "urn:epc:id:sgtin:0614141.812345.6790") with
  | Ok x, Ok y => match sgtin_tag_uri x SGTIN_96 3, sgtin_tag_uri y SGTIN_96 3, sgtin_binary x SGTIN_96 3, sgtin_binary y SGTIN_96 3 with
                  | Ok _, Ok _, Ok b, Ok b' => negb (str_eqb b b')
                  | _, _, _, _ => false
                  end
  | _, _ => false
  end = true.
Proof. vm_compute. reflexivity. Qed.
Example C22_proper : exists x, proper_request (T_ADI x ADI_VAR 3) (lit "urn:epc:id:adi:2S194..12345678901").
Proof.
  eexists. split; [cbn [req_epc class_of init_of]; vm_compute; reflexivity|]. split; [intros c J; apply N.ltb_lt; revert c J; apply (proj1 (forallb_forall (fun c => c <? 128) _)); vm_compute; reflexivity|].
  split; [eexists; vm_compute; reflexivity|]. repeat split. discriminate.
Qed.
(** without canonical escapes two URIs share a tag *)
Theorem C22_noncanonical_refuted : 
  exists u u' x x' b, u <> u' /\ sgtin_init u = Ok x /\ sgtin_init u' = Ok x' /\
  sgtin_binary x SGTIN_198 0 = Ok b /\ sgtin_binary x' SGTIN_198 0 = Ok b.
Proof. exact escapes_collide. Qed.
Print Assumptions C22_noncanonical_refuted.
