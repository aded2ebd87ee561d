(** A tag read back from its binary, hexadecimal or base64 form. *)
From Coq Require Import String.
From Verif.Model Require Import Py Re Regexes Common Base.
From Verif.Model Require Import Adi Cpi Gdti Giai Gid Grai Gsrn Gsrnp Itip Sgcn Sgln Sgtin Sscc Usdod Parsers.
From Verif.Spec Require Import Spec SpecEscapes SpecGrammar SpecSchemes SpecTags SpecLayout SpecCoding SpecHex.
From Verif.Proofs Require Import Basics Num Uni Layout CtorAll BinAll Decode DecodeA Filter Hex.

Theorem forms_roundtrip q u : proper_request q u ->
  (forall x s f, q = T_ADI x s f -> no_early_zeros (adi_part x)) ->
  exists b h s, req_binary q = Ok b /\ req_hex q = Ok h /\ req_base64 q = Ok s /\
    binary_to_tag_encodable b = Ok (req_epc q) /\ hex_to_tag_encodable h = Ok (req_epc q) /\ base64_to_tag_encodable s = Ok (req_epc q) /\
    from_hex (from_binary_of (class_of (req_epc q))) h = Ok (req_epc q) /\ from_base64 (from_binary_of (class_of (req_epc q))) s = Ok (req_epc q).
Proof.
  intros (I & A & (t & T) & K & F & P & G) Z. destruct (binary_written q u t I T K F P) as (b & B1 & _ & B3 & _ & B5).
  destruct (tag_forms q b B1 B3) as (h & s & pad & H1 & H2 & H3 & H4 & H5 & H6 & H7 & H8 & H9). cbn zeta in H9.
  assert (R : forall extra, bitstring extra -> from_binary_of (class_of (req_epc q)) (b ++ extra) = Ok (req_epc q)).
  { intros extra BE. destruct (B5 extra BE) as [C1 C2]. destruct (class_of (req_epc q)) eqn:Q;
      try (rewrite C1 by discriminate; rewrite (core_uri_eq q u), ascii_form_id by (rewrite ?Q; assumption); exact I).
    destruct q; try discriminate Q. cbn [from_binary_of req_epc]. rewrite (proj2 (C2 x s0 f eq_refl) (Z x s0 f eq_refl)). reflexivity. }
  exists b, h, s. destruct H9 as (X1 & X2 & X3 & X4 & X5). rewrite X1, X2, X4, X5.
  assert (BP : bitstring (repeat 48 pad)) by (intros c J; apply repeat_spec in J; auto).
  rewrite (R _ BP). pose proof (dispatch_own q b [] B1) as D. pose proof (R [] ltac:(intros c [])) as R0. rewrite app_nil_r in D, R0. rewrite D, R0. auto 10.
Qed.
