(** The codec results in the vocabulary of the specification. *)
From Coq Require Import String.
From Verif.Model Require Import Py Re Regexes Common Base.
From Verif.Spec Require Import Spec.
From Verif.Proofs Require Import Basics Num Uni Escapes ReLemmas Codecs Codecs2.

Ltac Zify.zify_post_hook ::= Z.div_mod_to_equations.

Lemma sl_flat_map (w : nat) (f : N -> str) t rest i c :
  (forall x, length (f x) = w) -> nth_error t i = Some c ->
  sl (w * i) (w * i + w) (flat_map f t ++ rest) = f c.
Proof.
  intros Hf. revert i; induction t as [|x t IH]; intros [|i] H; try discriminate.
  - injection H as ->. cbn [flat_map]. rewrite <- app_assoc.
    change (f c ++ flat_map f t ++ rest) with ([] ++ f c ++ (flat_map f t ++ rest)).
    apply sl_mid; [cbn; lia|]. rewrite Hf. cbn; lia.
  - cbn [flat_map nth_error] in *. rewrite <- app_assoc. specialize (IH i H).
    unfold sl in *. replace (w * S i + w - w * S i)%nat with w by lia.
    replace (w * i + w - w * i)%nat with w in IH by lia.
    replace (w * S i)%nat with (w * i + w)%nat by lia. rewrite <- skipn_skipn'.
    rewrite (skipn_exact (f x)) by apply Hf. exact IH.
Qed.

Lemma seven_bit t n : ascii t -> ~ In 0 t -> exists b, encode_string (escape t) n = Ok b /\
  bitstring b /\ length b = Nat.max n (7 * length t) /\
  (forall i c, nth_error t i = Some c -> binary_number (sl (7 * i) (7 * i + 7) b) = c) /\
  decode_string b = Ok (escape t).
Proof.
  intros Ha H0. eexists. split; [now apply encode_string_escape|]. repeat split.
  - apply bitstring_iff. unfold padr. rewrite forallb_app, text7_bit, forallb_repeat; reflexivity.
  - rewrite length_padr, length_text7. reflexivity.
  - intros i c Hc. unfold padr, text7. rewrite (sl_flat_map 7 (bits 7)) with (c := c); [|apply length_bits|exact Hc].
    rewrite binary_number_sval by apply bits_bit. apply sval_bits. apply Ha. eapply nth_error_In; eauto.
  - now apply decode_encode_7bit.
Qed.

Lemma six_bit_text_iff t : six_bit_text t <-> forallb six_char t = true.
Proof.
  unfold six_bit_text. rewrite forallb_forall. split; intros H c Hc; specialize (H c Hc);
    unfold six_char, is_digit, is_upper, inr in *; lia.
Qed.

Lemma code_six_spec c : six_char c = true -> code_six c = code6 c.
Proof. unfold six_char, code_six, code6, is_digit, is_upper, inr. intros H. destruct ((65 <=? c) && (c <=? 90)) eqn:E; lia. Qed.

Lemma six_bit t rest k : six_bit_text t -> bitstring rest -> (length t <= k)%nat -> exists b,
  encode_string_six_bits (escape6 t) = Ok (b ++ lit "000000") /\
  bitstring b /\ length b = (6 * length t)%nat /\
  (forall i c, nth_error t i = Some c -> binary_number (sl (6 * i) (6 * i + 6) b) = code_six c) /\
  decode_string_six_bits (b ++ lit "000000" ++ rest) k = Ok (escape6 t).
Proof.
  intros Ht Hr Hk. apply six_bit_text_iff in Ht. exists (text6 t). split; [now apply encode_six_escape|]. repeat split.
  - apply bitstring_iff, text6_bit.
  - apply length_text6.
  - intros i c Hc. rewrite <- (app_nil_r (text6 t)). unfold text6.
    rewrite (sl_flat_map 6 (fun c => bits 6 (code6 c))) with (c := c); [|intros; apply length_bits|exact Hc].
    rewrite binary_number_sval by apply bits_bit.
    assert (Hs : six_char c = true) by (eapply forallb_In; [exact Ht|eapply nth_error_In; eauto]).
    rewrite code_six_spec by exact Hs. apply sval_bits. apply code6_spec in Hs. change (2 ^ N.of_nat 6) with 64. lia.
  - apply decode_encode_6bit; [exact Ht|now apply bitstring_iff|exact Hk].
Qed.

Lemma cage_text_iff s : cage_text s <-> (5 <= length s <= 6)%nat /\ forallb cage_char s = true.
Proof.
  unfold cage_text. rewrite forallb_forall. split; intros [Hl H]; (split; [exact Hl|]); intros c Hc; specialize (H c Hc);
    unfold cage_char, is_digit, inr in *; lia.
Qed.

Lemma cage8 s : cage_text s -> exists b, encode_cage_code (repeat 32 (6 - length s) ++ s) = b /\
  bitstring b /\ length b = 48%nat /\ decode_cage_code b = Ok s.
Proof.
  intros H. apply cage_text_iff in H. destruct H as [Hl H]. destruct (cage_roundtrip s H) as [E D].
  change (repeat 32 (6 - length s) ++ s) with (padl c_space 6 s). eexists. split; [exact E|]. repeat split.
  - apply bitstring_iff, text8_bit.
  - rewrite length_text8, length_padl. lia.
  - exact D.
Qed.

Lemma cage6_codec s : cage_text s -> exists b, encode_cage_code_six_bits s = Ok b /\
  bitstring b /\ length b = 36%nat /\ decode_cage_code_six_bits b = Ok s.
Proof.
  intros H. apply cage_text_iff in H. destruct H as [Hl H]. exists (cage6 s). repeat split.
  - now apply encode_cage6_ok.
  - apply bitstring_iff, cage6_bit.
  - now apply length_cage6.
  - now apply decode_cage6_ok.
Qed.

Lemma numeric_string s n : s <> [] -> ascii_digits s -> N.of_nat (length s) < 4300 ->
  (2 * 10 ^ N.of_nat (length s) < 2 ^ N.of_nat n ->
     exists b, encode_numeric_string s n = Ok b /\ bitstring b /\ length b = n /\
     binary_number b = 10 ^ N.of_nat (length s) + decimal s /\ decode_numeric_string b = Ok s) /\
  (2 ^ N.of_nat n <= 2 * 10 ^ N.of_nat (length s) -> encode_numeric_string s n = Raise ConvertException).
Proof.
  intros Hn Hs Hl. apply ascii_digits_iff in Hs. split; intros H; [|now apply encode_numeric_refused].
  assert (Hi : intable (c_1 :: s)) by (unfold intable, int_max_str_digits; cbn [length]; lia).
  exists (bits n (num1 s)). repeat split.
  - apply encode_numeric_ok; [now apply forallb_digit_d|exact Hi|exact H].
  - apply bitstring_iff, bits_bit.
  - apply length_bits.
  - rewrite binary_number_sval by apply bits_bit. apply sval_bits. unfold num1. pose proof (decimal_bound s). lia.
  - now apply decode_numeric_ok.
Qed.

Lemma fixed_width s n : (1 <= n <= 4300)%nat -> ascii_digits s -> s <> [] -> N.of_nat (length s) <= 4300 ->
  (decimal s + 1 < 10 ^ N.of_nat (fixed_width_digits n) ->
     exists b, encode_fixed_width_integer s n = Ok b /\ bitstring b /\ length b = n /\ binary_number b = decimal s /\
     (length s = fixed_width_digits n -> decode_fixed_width_integer b = Ok s)) /\
  (10 ^ N.of_nat (fixed_width_digits n) <= decimal s + 1 -> encode_fixed_width_integer s n = Raise ConvertException).
Proof.
  intros [Hn Hm] Hs Hne Hi. apply ascii_digits_iff in Hs. split; intros H; [|now apply encode_fixed_refused; [|apply forallb_digit_d| |]].
  exists (bits n (decimal s)). repeat split.
  - apply encode_fixed_ok; [exact Hne|now apply forallb_digit_d|exact Hi|lia|exact H].
  - apply bitstring_iff, bits_bit.
  - apply length_bits.
  - rewrite binary_number_sval by apply bits_bit. apply sval_bits. pose proof (pow10_fixed n Hm). lia.
  - intros Hl. rewrite decimal_ascii by exact Hs. apply decode_fixed_ok; try assumption.
    destruct s; [congruence|cbn; lia].
Qed.

(** integers padded with zeros to a number of bits and back to a number of digits *)
Lemma padded_integer s n : s <> [] -> ascii_digits s -> N.of_nat (length s) <= 4300 -> (1 <= n)%nat -> decimal s < 2 ^ N.of_nat n ->
  exists b z, str_to_binary s n = Ok b /\ bitstring b /\ length b = n /\ binary_number b = decimal s /\
    binary_to_int b = Ok z /\ padl c_0 (length s) (dec z) = s.
Proof.
  intros Hne Hs Hi Hn H. apply ascii_digits_iff in Hs. exists (bits n (sval 10 s)), (Z.of_N (sval 10 s)).
  rewrite decimal_ascii in * by exact Hs. repeat split.
  - now apply str_to_binary_spec.
  - apply bitstring_iff, bits_bit.
  - apply length_bits.
  - rewrite binary_number_sval by apply bits_bit. now apply sval_bits.
  - rewrite binary_to_int_spec; [|intros E; apply (f_equal (@length N)) in E; rewrite length_bits in E; cbn in E; lia|apply bits_bit].
    now rewrite sval_bits.
  - rewrite dec_of_N. apply padl_ndec_sval; [exact Hs|reflexivity|]. destruct s; [congruence|cbn; lia].
Qed.

Lemma fixed_width_digits_spec n D : (n <= 4300)%nat -> 10 ^ N.of_nat D <= 2 ^ N.of_nat n < 10 ^ N.of_nat (S D) -> fixed_width_digits n = D.
Proof.
  intros Hn [H1 H2]. destruct (fixed_digits n Hn) as [F1 F2].
  assert (A : 10 ^ N.of_nat D < 10 ^ N.of_nat (S (fixed_width_digits n))) by (eapply N.le_lt_trans; eassumption).
  assert (B : 10 ^ N.of_nat (fixed_width_digits n) < 10 ^ N.of_nat (S D)) by (eapply N.le_lt_trans; eassumption).
  apply N.pow_lt_mono_r_iff in A; [|lia]. apply N.pow_lt_mono_r_iff in B; lia.
Qed.

Lemma fixed_width_D s n D : (1 <= n <= 4300)%nat -> ascii_digits s -> s <> [] -> N.of_nat (length s) <= 4300 -> 10 ^ N.of_nat D <= 2 ^ N.of_nat n < 10 ^ N.of_nat (S D) ->
  (decimal s + 1 < 10 ^ N.of_nat D ->
     exists b, encode_fixed_width_integer s n = Ok b /\ bitstring b /\ length b = n /\ binary_number b = decimal s /\
     (length s = D -> decode_fixed_width_integer b = Ok s)) /\
  (10 ^ N.of_nat D <= decimal s + 1 -> encode_fixed_width_integer s n = Raise ConvertException).
Proof. intros Hn Hs Hne Hi HD. apply fixed_width_digits_spec in HD; [|lia]. subst D. now apply fixed_width. Qed.
