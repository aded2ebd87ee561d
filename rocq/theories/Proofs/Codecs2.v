(** Numeric strings, fixed-width integers and CAGE codes. *)
From Coq Require Import String.
From Verif.Model Require Import Py Re Regexes Common Base.
From Verif.Spec Require Import Spec.
From Verif.Proofs Require Import Floats Basics Num Uni Escapes ReLemmas Codecs.

Ltac Zify.zify_post_hook ::= Z.div_mod_to_equations.

Lemma zpow10 k : (10 ^ Z.of_nat k)%Z = Z.of_N (10 ^ N.of_nat k).
Proof. rewrite N2Z.inj_pow, nat_N_Z. reflexivity. Qed.
Lemma zpow2 k : (2 ^ Z.of_nat k)%Z = Z.of_N (2 ^ N.of_nat k).
Proof. rewrite N2Z.inj_pow, nat_N_Z. reflexivity. Qed.

(** * Numeric strings *)

(** a leading 1 keeps the zeros *)
Definition num1 (s : str) : N := 10 ^ N.of_nat (length s) + decimal s.

Lemma decimal_1 s : decimal (c_1 :: s) = num1 s.
Proof. change (c_1 :: s) with ([c_1] ++ s). rewrite decimal_app. unfold num1. change (decimal [c_1]) with 1. lia. Qed.

Lemma encode_numeric_ok s n : forallb is_d s = true -> intable (c_1 :: s) -> 2 * 10 ^ N.of_nat (length s) < 2 ^ N.of_nat n ->
  encode_numeric_string s n = Ok (bits n (num1 s)).
Proof.
  intros Hs Hi Hn. unfold encode_numeric_string. rewrite zpow10, zpow2.
  replace (Z.of_N (2 ^ N.of_nat n) <=? 2 * Z.of_N (10 ^ N.of_nat (length s)))%Z with false by lia.
  cbn [raise_if bind]. rewrite <- decimal_1. apply str_to_binary_digits.
  - discriminate.
  - exact Hs.
  - exact Hi.
  - destruct n; [|lia]. change (2 ^ N.of_nat 0) with 1 in Hn. lia.
  - rewrite decimal_1. unfold num1. pose proof (decimal_bound s). lia.
Qed.

Lemma encode_numeric_refused s n : 2 ^ N.of_nat n <= 2 * 10 ^ N.of_nat (length s) ->
  encode_numeric_string s n = Raise ConvertException.
Proof.
  intros Hn. unfold encode_numeric_string. rewrite zpow10, zpow2.
  replace (Z.of_N (2 ^ N.of_nat n) <=? 2 * Z.of_N (10 ^ N.of_nat (length s)))%Z with true by lia. reflexivity.
Qed.

Lemma decode_numeric_ok s n : s <> [] -> forallb is_digit s = true -> intable (c_1 :: s) -> 2 * 10 ^ N.of_nat (length s) < 2 ^ N.of_nat n ->
  decode_numeric_string (bits n (num1 s)) = Ok s.
Proof.
  intros Hne Hs Hi Hn. pose proof (decimal_bound s) as HB. unfold decode_numeric_string.
  assert (n <> 0%nat) by (intros ->; change (2 ^ N.of_nat 0) with 1 in Hn; lia).
  rewrite int2_spec; [|intros E; apply (f_equal (@length N)) in E; rewrite length_bits in E; cbn in E; lia|apply bits_bit].
  cbn [bind]. rewrite sval_bits by (unfold num1; lia).
  assert (E : ndec (num1 s) = c_1 :: s).
  { rewrite <- decimal_1, decimal_ascii by exact Hs. apply ndec_sval; [exact Hs|]. right. exists c_1, s. split; [reflexivity|discriminate]. }
  rewrite str_int_spec by (rewrite E; exact Hi). rewrite E. cbn [bind].
  destruct s as [|c s]; [congruence|]. cbn [length Nat.leb raise_if bind idx nth_error of_option].
  rewrite N.eqb_refl. reflexivity.
Qed.

Lemma intable_bits b : forallb is_bit b = true -> intable b -> intable (ndec (sval 2 b)).
Proof.
  intros Hb Hi. apply (intable_ndec _ (length b)); [apply sval_bound, forallb_bit_in_base2, Hb|].
  unfold intable, int_max_str_digits in Hi. lia.
Qed.
(** what decoding accepts *)
Lemma decode_numeric_bits b : b <> [] -> forallb is_bit b = true -> intable b ->
  decode_numeric_string b =
    match ndec (sval 2 b) with
    | c :: d :: s => if c =? c_1 then Ok (d :: s) else Raise ConvertException
    | _ => Raise ConvertException
    end.
Proof.
  intros Hne Hb Hi. unfold decode_numeric_string. rewrite int2_spec by assumption. cbn [bind].
  rewrite str_int_spec by now apply intable_bits. cbn [bind].
  destruct (ndec (sval 2 b)) as [|c [|d s]]; [reflexivity|reflexivity|].
  cbn [length Nat.leb raise_if bind idx nth_error of_option]. destruct (c =? c_1); reflexivity.
Qed.

(** * Fixed-width integers *)

Lemma fixed_digits n : (n <= 4300)%nat ->
  10 ^ N.of_nat (fixed_width_digits n) <= 2 ^ N.of_nat n < 10 ^ N.of_nat (S (fixed_width_digits n)).
Proof.
  intros H. destruct (digits_exact n H) as (D & E & B). unfold fixed_width_digits. rewrite E.
  replace (N.of_nat (S (Z.to_nat (Z.of_N D)))) with (D + 1) by lia. replace (N.of_nat (Z.to_nat (Z.of_N D))) with D by lia. exact B.
Qed.
Lemma pow10_fixed n : (n <= 4300)%nat -> 10 ^ N.of_nat (fixed_width_digits n) <= 2 ^ N.of_nat n.
Proof. intros H. now apply fixed_digits. Qed.

Lemma encode_fixed_ok s n : s <> [] -> forallb is_d s = true -> intable s -> (1 <= n <= 4300)%nat ->
  decimal s + 1 < 10 ^ N.of_nat (fixed_width_digits n) -> encode_fixed_width_integer s n = Ok (bits n (decimal s)).
Proof.
  intros Hne Hs Hi Hn Hb. unfold encode_fixed_width_integer. rewrite int10_digits by assumption. cbn [bind].
  rewrite zpow10. replace (_ <=? _)%Z with false by lia. cbn [raise_if bind].
  apply str_to_binary_digits; try assumption; [lia|]. pose proof (pow10_fixed n ltac:(lia)). lia.
Qed.
Lemma encode_fixed_refused s n : s <> [] -> forallb is_d s = true -> intable s ->
  10 ^ N.of_nat (fixed_width_digits n) <= decimal s + 1 -> encode_fixed_width_integer s n = Raise ConvertException.
Proof.
  intros Hne Hs Hi Hb. unfold encode_fixed_width_integer. rewrite int10_digits by assumption. cbn [bind].
  rewrite zpow10. replace (_ <=? _)%Z with true by lia. reflexivity.
Qed.

Lemma decode_fixed_bits b : b <> [] -> forallb is_bit b = true -> intable b ->
  decode_fixed_width_integer b =
    if 10 ^ N.of_nat (fixed_width_digits (length b)) <=? sval 2 b then Raise ConvertException
    else Ok (padl c_0 (fixed_width_digits (length b)) (ndec (sval 2 b))).
Proof.
  intros Hne Hb Hi. unfold decode_fixed_width_integer. rewrite int2_spec by assumption. cbn [bind].
  rewrite zpow10, str_int_spec by now apply intable_bits. pose proof (N.pow_nonzero 10 (N.of_nat (fixed_width_digits (length b)))).
  destruct (N.leb_spec (10 ^ N.of_nat (fixed_width_digits (length b))) (sval 2 b)).
  - replace (_ <? _)%Z with true by lia. reflexivity.
  - replace (_ <? _)%Z with false by lia. reflexivity.
Qed.

Lemma decode_fixed_ok s n : (1 <= n)%nat -> forallb is_digit s = true -> length s = fixed_width_digits n -> (1 <= length s)%nat ->
  (n <= 4300)%nat -> decode_fixed_width_integer (bits n (sval 10 s)) = Ok s.
Proof.
  intros Hn Hs Hl H1 H43. assert (B : sval 10 s < 10 ^ N.of_nat (fixed_width_digits n))
    by (rewrite <- Hl; apply sval_bound, forallb_digit_in_base10, Hs).
  pose proof (pow10_fixed n H43).
  rewrite decode_fixed_bits; [|intros E; apply (f_equal (@length N)) in E; rewrite length_bits in E; cbn in E; lia|apply bits_bit|apply (intable_le _ n); [rewrite length_bits; reflexivity|exact H43]].
  rewrite length_bits, sval_bits by lia.
  replace (_ <=? _) with false by lia. rewrite padl_ndec_sval by (assumption || lia). reflexivity.
Qed.

(** * CAGE codes *)

Definition text8 (t : str) : str := flat_map (bits 8) t.
Lemma length_text8 t : length (text8 t) = (8 * length t)%nat.
Proof. unfold text8. induction t; cbn [flat_map length]; [reflexivity|]. rewrite app_length, length_bits, IHt. lia. Qed.
Lemma text8_bit t : forallb is_bit (text8 t) = true.
Proof. unfold text8. induction t; cbn [flat_map]; [reflexivity|]. now rewrite forallb_app, bits_bit, IHt. Qed.

Lemma encode_cage_ok s : (forall c, In c s -> c < 256) -> encode_cage_code s = text8 s.
Proof.
  intros H. unfold encode_cage_code, text8. induction s as [|c s IH]; [reflexivity|]. cbn [flat_map].
  rewrite IH by (intros; apply H; now right). f_equal. apply padl_nbin; [lia|]. apply H. now left.
Qed.

Definition cage_piece (g : str) : res str :=
  match g with [] => Ok [] | _ => let* v := int_base 2 g in let* c := chr v in Ok [c] end.

Lemma cage_piece_bits g : g <> [] -> forallb is_bit g = true -> (length g <= 8)%nat -> cage_piece g = Ok [sval 2 g].
Proof.
  intros Hne Hb Hl. unfold cage_piece. rewrite int2_spec by assumption. cbn [bind].
  assert (B : sval 2 g < 2 ^ 8).
  { eapply N.lt_le_trans; [apply sval_bound, forallb_bit_in_base2, Hb|]. apply N.pow_le_mono_r; lia. }
  change (2 ^ 8) with 256 in B. unfold chr.
  replace (_ || _) with false by lia. replace (_ || _) with false by lia. rewrite N2Z.id. destruct g; [congruence|reflexivity].
Qed.

Lemma decode_cage_whole b : forallb is_bit b = true -> (length b mod 8 = 0)%nat ->
  decode_cage_code b = Ok (replace (lit " ") [] (map (sval 2) (chunks 8 b))).
Proof.
  intros Hb Hm. change (decode_cage_code b) with (let* r := concat_map_res cage_piece (re_split_cap (m_bits 8) b) in Ok (replace (lit " ") [] r)).
  enough (E : concat_map_res cage_piece (re_split_cap (m_bits 8) b) = Ok (map (sval 2) (chunks 8 b))) by now rewrite E.
  revert b Hb Hm. refine (chunks_ind 8 _ _ _ _); [lia|intros s H Hb Hm|intros a s Ha IH Hb Hm].
  - unfold m_bits. rewrite split_short, chunks_short by (assumption || lia).
    destruct s; [reflexivity|]. cbn [length] in *. lia.
  - rewrite forallb_app in Hb. apply andb_true_iff in Hb. destruct Hb as [Hba Hbs].
    unfold m_bits in *. rewrite split_chunk, chunks_app by (assumption || lia). cbn [concat_map_res].
    change (cage_piece []) with (@Ok str []). rewrite cage_piece_bits by (assumption || lia || (intros ->; discriminate Ha)).
    cbn [bind]. rewrite IH; [reflexivity|exact Hbs|]. rewrite app_length, Ha in Hm.
    rewrite <- (Nat.mod_add (length s) 1 8) by lia. rewrite Nat.mul_1_l, Nat.add_comm. exact Hm.
Qed.

Lemma chunks_text8 t s : chunks 8 (text8 t ++ s) = map (bits 8) t ++ chunks 8 s.
Proof.
  unfold text8. induction t as [|c t IH]; [reflexivity|]. cbn [flat_map map app].
  rewrite <- app_assoc, chunks_app, IH; [reflexivity|lia|apply length_bits].
Qed.

Lemma replace_space s : replace (lit " ") [] s = filter (fun c => negb (c =? c_space)) s.
Proof.
  change (lit " ") with [c_space]. rewrite replace_char. induction s as [|c s IH]; [reflexivity|].
  cbn [flat_map filter]. destruct (c =? c_space); cbn [negb app]; now rewrite IH.
Qed.

Lemma decode_text8 t : (forall c, In c t -> c < 256) ->
  decode_cage_code (text8 t) = Ok (filter (fun c => negb (c =? c_space)) t).
Proof.
  intros H. rewrite decode_cage_whole.
  - rewrite replace_space. do 2 f_equal. rewrite <- (app_nil_r (text8 t)), chunks_text8, app_nil_r.
    rewrite map_map. rewrite <- (map_id t) at 2. apply map_ext_in. intros c Hc. apply sval_bits. now apply H.
  - apply text8_bit.
  - rewrite length_text8, Nat.mul_comm. apply Nat.mod_mul. lia.
Qed.

Lemma cage_char_not_space c : cage_char c = true -> c < 256 /\ negb (c =? c_space) = true.
Proof. unfold cage_char, is_digit, inr, c_space. lia. Qed.

Lemma cage_roundtrip s : forallb cage_char s = true ->
  encode_cage_code (padl c_space 6 s) = text8 (padl c_space 6 s) /\
  decode_cage_code (text8 (padl c_space 6 s)) = Ok s.
Proof.
  intros H. assert (A : forall c, In c (padl c_space 6 s) -> c < 256).
  { intros c Hc. unfold padl in Hc. apply in_app_or in Hc. destruct Hc as [Hc|Hc].
    - apply repeat_spec in Hc. subst. reflexivity.
    - apply cage_char_not_space, (forallb_In _ _ _ H Hc). }
  split; [now apply encode_cage_ok|]. rewrite decode_text8 by exact A. f_equal. unfold padl.
  rewrite filter_app.
  assert (E1 : forall k, filter (fun c => negb (c =? c_space)) (repeat c_space k) = []).
  { intros k. induction k as [|k IH]; [reflexivity|exact IH]. }
  rewrite E1. cbn [app]. clear A E1. induction s as [|c s IH]; [reflexivity|]. cbn [filter forallb] in *.
  apply andb_true_iff in H. destruct H as [Hc H]. apply cage_char_not_space in Hc. destruct Hc as [_ ->].
  f_equal. now apply IH.
Qed.

(** six-bit CAGE codes *)
Lemma cage_six c : cage_char c = true -> six_char c = true.
Proof. unfold cage_char, six_char, is_digit, is_upper, inr. lia. Qed.

Lemma cpi_escape_id t : (forall c, In c t -> c <> 35 /\ c <> 47) -> cpi_escape t = t.
Proof.
  unfold cpi_escape. induction t as [|c t IH]; intros H; [reflexivity|]. cbn [flat_map].
  rewrite IH by (intros; apply H; now right). destruct (H c (or_introl eq_refl)) as [H1 H2].
  unfold cpi_esc_char. apply N.eqb_neq in H1, H2. now rewrite H1, H2.
Qed.

Lemma cage_cpi_escape s : forallb cage_char s = true -> cpi_escape s = s.
Proof.
  intros H. apply cpi_escape_id. intros c Hc. pose proof (forallb_In _ _ _ H Hc) as G.
  unfold cage_char, is_digit, inr in G. lia.
Qed.

Definition cage6 (s : str) : str := (if (length s =? 5)%nat then lit "100000" else []) ++ text6 s.

Lemma encode_cage6_ok s : forallb cage_char s = true -> encode_cage_code_six_bits s = Ok (cage6 s).
Proof.
  intros H. unfold encode_cage_code_six_bits. rewrite <- (cage_cpi_escape s H) at 1.
  rewrite encode_six_escape by (revert H; apply forallb_imp, cage_six). cbn [bind].
  unfold drop_last. rewrite app_length. change (length (lit "000000")) with 6%nat.
  replace (length (text6 s) + 6 - 6)%nat with (length (text6 s)) by lia.
  rewrite firstn_exact by reflexivity. rewrite length_text6. unfold cage6.
  destruct (Nat.eqb_spec (length s) 5) as [->|E]; [reflexivity|].
  replace (6 * length s =? 30)%nat with false by lia. reflexivity.
Qed.

Lemma length_cage6 s : (5 <= length s <= 6)%nat -> length (cage6 s) = 36%nat.
Proof.
  intros H. unfold cage6. rewrite app_length, length_text6.
  destruct (Nat.eqb_spec (length s) 5) as [E|E].
  - change (length (lit "100000")) with 6%nat. lia.
  - cbn [length]. lia.
Qed.
Lemma cage6_bit s : forallb is_bit (cage6 s) = true.
Proof. unfold cage6. rewrite forallb_app, text6_bit. destruct (length s =? 5)%nat; reflexivity. Qed.

Lemma six_stop_all t : forallb six_char t = true -> six_stop (map (sval 2) (chunks 6 (text6 t))) = t.
Proof.
  intros H. rewrite <- (app_nil_r (text6 t)), chunks_text6. cbn [chunks length chunks_aux]. rewrite app_nil_r.
  induction t as [|c t IH]; [reflexivity|]. cbn [forallb map six_stop] in *. apply andb_true_iff in H.
  destruct H as [Hc H]. destruct (code6_spec c Hc) as [H1 H2].
  rewrite sval_bits by (change (2 ^ N.of_nat 6) with 64; lia). replace (code6 c =? 0) with false by lia.
  rewrite H2. f_equal. now apply IH.
Qed.

Lemma cage_first_bits c : cage_char c = true -> startswith (lit "100000") (bits 6 (code6 c)) = false.
Proof.
  intros H. assert (Hc : c < N.of_nat 128) by (apply six_char_lt, cage_six, H).
  assert (A : forallb (fun c => implb (cage_char c) (negb (startswith (lit "100000") (bits 6 (code6 c))))) (map N.of_nat (seq 0 128)) = true)
    by (vm_compute; reflexivity).
  pose proof (upto_forallb _ _ A _ Hc) as G. cbv beta in G. rewrite H in G. cbn [implb] in G. now apply negb_true_iff in G.
Qed.

Lemma startswith_app_exact p a b : length p = length a -> startswith p (a ++ b) = startswith p a.
Proof. revert a; induction p as [|x p IH]; intros [|y a] H; try discriminate; [destruct b; reflexivity|]. cbn in *. rewrite IH by lia. reflexivity. Qed.

Lemma decode_cage6_ok s : (5 <= length s <= 6)%nat -> forallb cage_char s = true ->
  decode_cage_code_six_bits (cage6 s) = Ok s.
Proof.
  intros Hl H. unfold decode_cage_code_six_bits.
  assert (E : (if startswith (lit "100000") (cage6 s) then skipn 6 (cage6 s) else cage6 s) = text6 s).
  { unfold cage6. destruct (Nat.eqb_spec (length s) 5) as [E|E].
    - rewrite startswith_app. apply skipn_exact. reflexivity.
    - cbn [app]. destruct s as [|c s]; [cbn in Hl; lia|]. unfold text6. cbn [flat_map].
      cbn [forallb] in H. apply andb_true_iff in H.
      rewrite startswith_app_exact by (rewrite length_bits; reflexivity). rewrite cage_first_bits by tauto. reflexivity. }
  rewrite E, decode_six_bits by apply text6_bit. rewrite six_stop_all by (revert H; apply forallb_imp, cage_six).
  cbv zeta. replace (6 <? length s)%nat with false by lia. f_equal. now apply cage_cpi_escape.
Qed.
