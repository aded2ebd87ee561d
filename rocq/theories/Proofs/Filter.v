(** What binary() puts in front: header and filter value. *)
From Coq Require Import String.
From Verif.Model Require Import Py Re Regexes Common Base.
From Verif.Model Require Import Adi Cpi Gdti Giai Gid Grai Gsrn Gsrnp Itip Sgcn Sgln Sgtin Sscc Usdod Parsers.
From Verif.Spec Require Import Spec SpecEscapes SpecGrammar SpecSchemes SpecTags SpecLayout SpecCoding.
From Verif.Proofs Require Import Basics Num Uni Layout Decode DecodeA.

Lemma header_of q : class_of (req_epc q) = tag_class (req_kind q).
Proof. destruct q; try destruct s; reflexivity. Qed.

Lemma kind_filter f q : req_kind (with_filter f q) = req_kind q.
Proof. destruct q; try destruct s; reflexivity. Qed.

Lemma firstn_header k r : firstn 8 (tag_header k ++ r) = tag_header k.
Proof. destruct k; reflexivity. Qed.

(** the part of a tag after the filter value does not depend on it *)
Definition rest_of (q : tagreq) (r : res str) : Prop :=
  forall f, f < 2 ^ N.of_nat (filter_width (req_kind q)) ->
    req_binary (with_filter f q) = (let* s := r in Ok (tag_header (req_kind q) ++ bits (filter_width (req_kind q)) f ++ s)).

Lemma filter_rest q : rest_of q (let* b := req_binary (with_filter 0 q) in Ok (skipn (8 + filter_width (req_kind q)) b)).
Proof.
  intros f Hf.
  destruct q; destruct s; cbn [req_kind filter_width with_filter req_binary] in *;
  unfold adi_binary, cpi_binary, gdti_binary, giai_binary, gid_binary, grai_binary, gsrn_binary, gsrnp_binary, itip_binary,
    sgcn_binary, sgln_binary, sgtin_binary, sscc_binary, usdod_binary;
  rewrite ?(filter_encode f), ?(filter_encode 0) by (exact Hf || lia); cbn [bind];
  repeat match goal with |- context [bind ?r _] =>
    match r with bind _ _ => fail 1 | Ok _ => fail 1 | _ => destruct r; cbn [bind]; [|reflexivity] end end;
  reflexivity.
Qed.

(** the header of whatever binary() returns *)
Lemma binary_header q b : req_binary q = Ok b -> firstn 8 b = tag_header (req_kind q).
Proof.
  destruct q; destruct s; cbn [req_kind req_binary];
  unfold adi_binary, cpi_binary, gdti_binary, giai_binary, gid_binary, grai_binary, gsrn_binary, gsrnp_binary, itip_binary,
    sgcn_binary, sgln_binary, sgtin_binary, sscc_binary, usdod_binary;
  intros H;
  repeat match type of H with bind ?r _ = _ => destruct r; cbn [bind] in H; [|discriminate H] end;
  injection H as <-; reflexivity.
Qed.

Theorem filter_only q :
  (exists s, forall f, f < 2 ^ N.of_nat (filter_width (req_kind q)) ->
     exists fb, length fb = filter_width (req_kind q) /\ bitstring fb /\ binary_number fb = f /\
       req_binary (with_filter f q) = Ok (tag_header (req_kind q) ++ fb ++ s)) \/
  (exists e, forall f, f < 2 ^ N.of_nat (filter_width (req_kind q)) -> req_binary (with_filter f q) = Raise e).
Proof.
  pose proof (filter_rest q) as R. unfold rest_of in R. destruct (let* b := _ in _) as [s|e]; cbn [bind] in R; [left|right].
  - exists s. intros f Hf. exists (bits (filter_width (req_kind q)) f). rewrite length_bits, (R f Hf).
    split; [reflexivity|]. split; [apply bitstring_iff, bits_bit|]. split; [|reflexivity].
    rewrite binary_number_sval by apply bits_bit. now apply sval_bits.
  - exists e. intros f Hf. now rewrite (R f Hf).
Qed.

Theorem dispatch_own q b extra : req_binary q = Ok b ->
  binary_to_tag_encodable (b ++ extra) = from_binary_of (class_of (req_epc q)) (b ++ extra).
Proof.
  intros H. rewrite header_of. apply dispatch. pose proof (binary_header q b H) as F. rewrite <- F, firstn_app.
  assert (L : length (firstn 8 b) = 8%nat) by (rewrite F; destruct (req_kind q); reflexivity). rewrite firstn_length in L.
  replace (8 - length b)%nat with 0%nat by lia. now rewrite firstn_O, app_nil_r.
Qed.
