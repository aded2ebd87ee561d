(** Foreign URIs are refused: C42. *)
From Coq Require Import String.
From Verif.Model Require Import Py Common Base.
From Verif.Model Require Import Adi Cpi Gdti Giai Gid Grai Gsrn Gsrnp Itip Lgtin Sgcn Sgln Sgtin Sscc Usdod Others Parsers.
From Verif.Spec Require Import Spec SpecEscapes SpecGrammar SpecSchemes.
From Verif.Proofs Require Import CtorAll TagUri TagUri2.

Theorem C42_other_pure_identity : forall c c' body, 
  c <> c' -> init_of c (scheme_prefix c' ++ body) = Raise ConvertException.
Proof. exact init_other. Qed.
Print Assumptions C42_other_pure_identity.
Example C42_other_pure_identity_case :
  gsrn_init (lit "urn:epc:id:gsrnp:0614141.1234567890") = Raise ConvertException.
Proof. vm_compute. reflexivity. Qed.

Theorem C42_foreign_text : forall c u, 
  (forall body, u <> scheme_prefix c ++ body) -> init_of c u = Raise ConvertException.
Proof. exact init_foreign. Qed.
Print Assumptions C42_foreign_text.

Theorem C42_other_tag_uri : forall c c' nm r, 
  In nm (coding_names c') -> c <> c' -> is_tag_encodable c = true ->
  from_tag_uri_of c (lit "urn:epc:tag:" ++ nm ++ lit ":" ++ r) = Raise ConvertException.
Proof. exact from_tag_other. Qed.
Print Assumptions C42_other_tag_uri.
Example C42_other_tag_uri_case :
  gsrn_from_tag_uri (lit "urn:epc:tag:gsrnp-96:0.0614141.1234567890") = Raise ConvertException /\
  match gsrnp_from_tag_uri (lit "urn:epc:tag:gsrnp-96:0.0614141.1234567890") with Ok _ => True | Raise _ => False end.
Proof. split; vm_compute; auto. Qed.

(** what from_tag_uri() accepts names one of its class's coding schemes, and the object is of the class *)
Theorem C42_tag_uri_names_class : forall c t e, 
  from_tag_uri_of c t = Ok e ->
  exists nm r, In nm (coding_names c) /\ t = lit "urn:epc:tag:" ++ nm ++ lit ":" ++ r /\ class_of e = c.
Proof. exact from_tag_shape. Qed.
Print Assumptions C42_tag_uri_names_class.
