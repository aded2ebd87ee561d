(** Which exceptions decoding can raise. *)
From Coq Require Import String.
From Verif.Model Require Import Py Re Regexes Common Base.
From Verif.Model Require Import Adi Cpi Gdti Giai Gid Grai Gsrn Gsrnp Itip Sgcn Sgln Sgtin Sscc Usdod Parsers.
From Verif.Spec Require Import Spec SpecEscapes SpecGrammar SpecSchemes SpecTags SpecLayout SpecCoding.
From Verif.Proofs Require Import Basics Num Uni Layout CtorAll Decode DecodeA DecodeB Reencode.

Lemma header_dec b : (exists k, firstn 8 b = tag_header k) \/ (forall k, firstn 8 b <> tag_header k).
Proof.
  destruct (existsb (fun k => str_eqb (firstn 8 b) (tag_header k)) all_codings) eqn:E.
  - left. apply existsb_exists in E as (k & _ & E). exists k. now apply str_eqb_eq.
  - right. intros k H. assert (X : existsb (fun k => str_eqb (firstn 8 b) (tag_header k)) all_codings = true); [|congruence].
    apply existsb_exists. exists k. split; [apply all_codings_in|]. rewrite H. apply str_eqb_refl.
Qed.

Theorem parser_exn b e : bitstring b -> binary_to_tag_encodable b = Raise e ->
  e = ConvertException \/
  (exists k, firstn 8 b = tag_header k /\ seven_bit k = true /\ (e = ValueError \/ e = OverflowError)) \/
  (firstn 8 b = tag_header K_CPI_VAR /\ e = ValueError /\ (length b < 15)%nat).
Proof.
  intros B E. apply bitstring_iff in B. destruct (header_dec b) as [(k & H)|H].
  - rewrite (dispatch k b H) in E. destruct (decode_exn k b e B H E) as [->|[[S X]|(-> & X)]]; eauto 10.
  - rewrite (unknown_header b H) in E. left. congruence.
Qed.

(** a tag whose text is the given characters, company prefix and reference all zeros *)
Definition text_tag (k : coding) (t : str) : str :=
  let pre := match k with
             | K_SGTIN_198 | K_GRAI_170 => 44 | K_ITIP_212 => 58 | K_GIAI_202 => 24 | _ => 41
             end%nat in
  let s := tag_header k ++ lit "000101" ++ repeat 48 pre ++ flat_map (bits 7) t in
  padr 48 (match tag_size k with Some n => n | None => O end) s.

Theorem seven_bit_exn k : seven_bit k = true -> exists b b' n, tag_size k = Some n /\
  bitstring b /\ length b = n /\ firstn 8 b = tag_header k /\ binary_to_tag_encodable b = Raise ValueError /\
  bitstring b' /\ length b' = n /\ firstn 8 b' = tag_header k /\ binary_to_tag_encodable b' = Raise OverflowError.
Proof.
  intros S. destruct k; try discriminate S;
  (match goal with |- context [tag_size ?k] => exists (text_tag k (lit "/G")), (text_tag k (lit "/AAAAAAAA")) end;
   eexists; split; [reflexivity|];
   split; [apply bitstring_iff; vm_compute; reflexivity|]; split; [reflexivity|]; split; [reflexivity|]; split; [vm_compute; reflexivity|];
   split; [apply bitstring_iff; vm_compute; reflexivity|]; split; [reflexivity|]; split; [reflexivity|]; vm_compute; reflexivity).
Qed.

(** * What cannot be written again *)

Definition blank_tag : str := tag_header K_USDOD_96 ++ lit "0000" ++ flat_map (bits 8) (lit "2S1 94") ++ repeat 48 36.
Definition piece_tag : str := tag_header K_ITIP_110 ++ lit "000101" ++ repeat 48 44 ++ bits 7 99 ++ bits 7 99 ++ repeat 48 38.

Theorem blank_moves : exists b e b', bitstring b /\ length b = 96%nat /\ firstn 8 b = tag_header K_USDOD_96 /\
  binary_to_tag_encodable b = Ok e /\
  (forall q, req_epc q = e -> req_kind q = K_USDOD_96 -> req_filter q = Some 0 -> req_binary q = Ok b') /\ b' <> b /\ length b' = 96%nat.
Proof.
  exists blank_tag. eexists. eexists. split; [apply bitstring_iff; vm_compute; reflexivity|]. split; [reflexivity|]. split; [reflexivity|].
  split; [vm_compute; reflexivity|]. split.
  - intros q E K F. destruct q; try discriminate E. destruct s. injection E as ->. injection F as ->. vm_compute. reflexivity.
  - split; [|reflexivity]. intros X. vm_compute in X. discriminate X.
Qed.

Theorem piece_99 : exists b e, bitstring b /\ length b = 110%nat /\ firstn 8 b = tag_header K_ITIP_110 /\
  binary_to_tag_encodable b = Ok e /\
  (forall q f, req_epc q = e -> req_filter q = Some f -> f < 8 -> req_binary q = Raise ConvertException).
Proof.
  exists piece_tag. eexists. split; [apply bitstring_iff; vm_compute; reflexivity|]. split; [reflexivity|]. split; [reflexivity|].
  split; [vm_compute; reflexivity|].
  intros q f E F L. destruct q; try discriminate E. injection E as ->. injection F as ->.
  assert (X : In f [0;1;2;3;4;5;6;7]) by (cbn; lia). cbn in X. destruct s; repeat destruct X as [<-|X]; try contradiction; vm_compute; reflexivity.
Qed.

(** * As properties *)

Theorem filter_bits_ignored k f1 f2 r : bitstring f1 -> bitstring f2 -> bitstring r ->
  length f1 = filter_width k -> length f2 = filter_width k ->
  binary_to_tag_encodable (tag_header k ++ f1 ++ r) = binary_to_tag_encodable (tag_header k ++ f2 ++ r).
Proof.
  intros H1 H2 H3 L1 L2. apply bitstring_iff in H1, H2, H3.
  rewrite !(dispatch k) by (destruct k; reflexivity). now apply filter_ignored.
Qed.
Theorem reencode_bits k n b e : numeric_coding k -> tag_size k = Some n -> bitstring b -> firstn 8 b = tag_header k ->
  binary_to_tag_encodable b = Ok e -> writable_again k b ->
  exists q b', req_epc q = e /\ req_kind q = k /\
    req_filter q = match filter_width k with O => None | w => Some (binary_number (firstn w (skipn 8 b))) end /\
    req_binary q = Ok b' /\ length b' = n /\
    forall i, (i < n)%nat -> (unused_bit k b i -> nth i b' 0 = 48) /\ (~ unused_bit k b i -> nth i b' 0 = nth i b 0).
Proof. intros N S B H E W. apply bitstring_iff in B. rewrite (dispatch k b H) in E. now apply reencode. Qed.
Theorem cpi_var_truncated b : firstn 8 b = tag_header K_CPI_VAR -> bitstring b -> (length b < 15)%nat ->
  skipn 11 b <> lit "111" -> binary_to_tag_encodable b = Raise ValueError.
Proof.
  intros H B L S. apply bitstring_iff in B. rewrite (dispatch K_CPI_VAR b H). cbn [tag_class from_binary_of].
  now rewrite (cpi_var_short b H B L S).
Qed.
