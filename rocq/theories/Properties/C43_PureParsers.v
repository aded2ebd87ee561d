(** The generic parsers of pure identity URIs: C43. *)
From Coq Require Import String.
From Verif.Model Require Import Py Common Base.
From Verif.Model Require Import Adi Cpi Gdti Giai Gid Grai Gsrn Gsrnp Itip Lgtin Sgcn Sgln Sgtin Sscc Usdod Others Parsers.
From Verif.Spec Require Import Spec SpecEscapes SpecGrammar SpecSchemes.
From Verif.Proofs Require Import PureParsers.

Theorem C43_scheme_is_constructor : forall c u, 
  fourth_field u (scheme_name c) -> epc_pure_identity_to_scheme u = init_of c u.
Proof. exact scheme_known. Qed.
Print Assumptions C43_scheme_is_constructor.
Example C43_scheme_is_constructor_case :
  epc_pure_identity_to_scheme (lit "urn:epc:class:lgtin:0614141.812345.6789") =
  init_of C_LGTIN (lit "urn:epc:class:lgtin:0614141.812345.6789") /\
  match epc_pure_identity_to_scheme (lit "urn:epc:class:lgtin:0614141.812345.6789") with Ok (E_LGTIN _) => True | _ => False end.
Proof. split; vm_compute; auto. Qed.

Theorem C43_unknown_scheme : forall u name, 
  fourth_field u name -> (forall c, name <> scheme_name c) ->
  epc_pure_identity_to_scheme u = Raise ConvertException.
Proof. exact scheme_unknown. Qed.
Print Assumptions C43_unknown_scheme.
Example C43_unknown_scheme_case :
  epc_pure_identity_to_scheme (lit "urn:epc:id:sgtn:0614141.812345.6789") = Raise ConvertException.
Proof. vm_compute. reflexivity. Qed.

Theorem C43_too_few_fields : forall u, 
  (colons u < 3)%nat -> epc_pure_identity_to_scheme u = Raise IndexError.
Proof. exact scheme_short. Qed.
Print Assumptions C43_too_few_fields.
Example C43_too_few_fields_case : epc_pure_identity_to_scheme (lit "urn:epc:sgtin") = Raise IndexError.
Proof. vm_compute. reflexivity. Qed.

Theorem C43_element_variant : restricted element_classes epc_pure_identity_to_gs1_element.
Proof. exact restricted_element. Qed.
Print Assumptions C43_element_variant.

Theorem C43_keyed_variant : restricted keyed_classes epc_pure_identity_to_gs1_keyed.
Proof. exact restricted_keyed. Qed.
Print Assumptions C43_keyed_variant.

Theorem C43_tag_variant : restricted tag_classes epc_pure_identity_to_tag_encodable.
Proof. exact restricted_tag. Qed.
Print Assumptions C43_tag_variant.

Example C43_variants_case :
  let u := lit "urn:epc:id:itip:4012345.012345.01.02.987" in
  (exists e, epc_pure_identity_to_gs1_element u = Ok e /\ epc_pure_identity_to_tag_encodable u = Ok e) /\
  epc_pure_identity_to_gs1_keyed u = Raise ConvertException.
Proof. split; [eexists|]; vm_compute; auto. Qed.

Theorem C43_element_string : forall c u e, 
  init_of c u = Ok e -> In c element_classes -> epc_pure_identity_to_gs1_element_string u = epc_gs1_element_string e.
Proof. exact element_string_of. Qed.
Print Assumptions C43_element_string.

Theorem C43_key : forall c u e g, 
  init_of c u = Ok e -> In c keyed_classes -> epc_pure_identity_to_gs1_key u g = epc_gs1_key e g.
Proof. exact key_of. Qed.
Print Assumptions C43_key.
