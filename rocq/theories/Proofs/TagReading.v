(** from_binary() and the decoding procedure of the Tag Data Standard. *)
From Coq Require Import String.
From Verif.Model Require Import Py Re Regexes Common Base.
From Verif.Model Require Import Adi Cpi Gdti Giai Gid Grai Gsrn Gsrnp Itip Sgcn Sgln Sgtin Sscc Usdod Parsers.
From Verif.Spec Require Import Spec SpecEscapes SpecGrammar SpecSchemes SpecTags SpecLayout SpecCoding SpecReading.
From Verif.Proofs Require Import Basics Num ReLemmas Uni Escapes Codecs Codecs2 Partition Grammar Ctor CtorA CtorB CtorC CtorAll TagUri TagFits Layout CodecSpec BinC BinD Decode DecodeA DecodeB Reencode Exact.

Lemma plain_iff v s : plain_number v s <-> s = ndec v.
Proof.
  unfold plain_number. split.
  - intros (A & Nu & <-). apply ascii_digits_iff in A. rewrite decimal_ascii by exact A. symmetry. apply ndec_sval; [exact A|].
    destruct Nu as [->|(c & s' & -> & C & _)]; [left; reflexivity|]. right. exists c, s'. split; [reflexivity|]. intros ->. vm_compute in C. destruct C as [C _]. now apply C.
  - intros ->. destruct (ndec_spec v) as (V & D & L). split; [now apply ascii_digits_iff|]. split; [|now rewrite decimal_ascii].
    destruct L as [L|(c & s & E & C)]; [left; exact L|]. right. exists c, s. rewrite E in *. split; [reflexivity|]. cbn [forallb] in D.
    apply andb_true_iff in D as [D1 D2]. apply is_digit_iff in D1. split; [|apply digits_iff, forallb_digit_d, D2].
    assert (c <> 48) by exact C. lia.
Qed.
Lemma padded_iff w v s : (1 <= w)%nat -> padded_number w v s <-> v < 10 ^ N.of_nat w /\ s = padl c_0 w (ndec v).
Proof.
  intros W. unfold padded_number. split.
  - intros (A & L & <-). apply ascii_digits_iff in A. split; [rewrite <- L; apply decimal_bound|].
    rewrite decimal_ascii by exact A. symmetry. now apply padl_ndec_sval.
  - intros (B & ->). assert (D : forallb is_digit (padl c_0 w (ndec v)) = true) by (apply forallb_padl; [reflexivity|apply ndec_digits]).
    split; [now apply ascii_digits_iff|]. split.
    + rewrite length_padl. pose proof (ndec_length v w W B). lia.
    + rewrite decimal_ascii by exact D. rewrite sval_padl0. apply ndec_spec.
Qed.

Lemma bits_at_sval p i w : forallb is_bit p = true -> bits_at p i w = sval 2 (sl i (i + w) p).
Proof. intros B. unfold bits_at, sl. replace (i + w - i)%nat with w by lia. apply binary_number_sval. apply forallb_firstn, forallb_skipn, B. Qed.
Lemma bits_at_cut b n m k i w : (i + w <= k)%nat -> (m + k <= n)%nat -> bits_at (firstn k (skipn m (firstn n b))) i w = bits_at b (m + i) w.
Proof. intros H1 H2. unfold bits_at. now rewrite slice_cut. Qed.
Lemma bits_at_rest b n m i w : (m + i + w <= n)%nat -> bits_at (skipn m (firstn n b)) i w = bits_at b (m + i) w.
Proof.
  intros H. rewrite <- (firstn_all2 (n := n - m) (skipn m (firstn n b))) by (rewrite skipn_length, firstn_length; lia). apply bits_at_cut; lia.
Qed.

(** chunks of a text *)
Lemma chunks_seq n (p : str) : (1 <= n)%nat -> chunks n p = map (fun j => firstn n (skipn (n * j) p)) (seq 0 (length p / n)).
Proof.
  intros Hn. revert p. refine (chunks_ind n _ Hn _ _); [intros s H|intros a s Ha IH].
  - rewrite chunks_short, Nat.div_small by assumption. reflexivity.
  - rewrite chunks_app by assumption. rewrite app_length, Ha. replace (n + length s)%nat with (length s + 1 * n)%nat by lia.
    rewrite Nat.div_add by lia. rewrite Nat.add_1_r. cbn [seq map]. rewrite Nat.mul_0_r. cbn [skipn]. f_equal.
    + rewrite firstn_app, Ha, Nat.sub_diag. cbn [firstn]. rewrite app_nil_r, firstn_all2 by lia. reflexivity.
    + rewrite <- seq_shift, map_map, IH. apply map_ext. intros j. f_equal. rewrite Nat.mul_succ_r, skipn_app, Ha, (skipn_all2 a) by (rewrite ?Ha; lia). cbn [app]. f_equal. lia.
Qed.
Lemma flat_dec7 l : (forall g, In g l -> forallb is_bit g = true) -> flat_map dec7 l = text_of (map binary_number l).
Proof.
  unfold text_of, characters, escape. induction l as [|g l IH]; intros H; [reflexivity|]. cbn [flat_map map filter]. rewrite IH by (intros; apply H; now right).
  unfold dec7. rewrite binary_number_sval by (apply H; now left). destruct (sval 2 g =? 0); reflexivity.
Qed.
Lemma string_at p m : forallb is_bit p = true -> (length p / 7)%nat = m -> decode_string p = Ok (text_of (codes_at p 0 7 m)).
Proof.
  intros B <-. rewrite decode_string_bits by exact B. f_equal. rewrite flat_dec7.
  - f_equal. rewrite chunks_seq, map_map by lia. reflexivity.
  - intros g I. apply (chunks_forallb is_bit) in I; [tauto|lia|exact B].
Qed.
Lemma codes_at_ext b b' i i' w m : (forall j, (j < m)%nat -> bits_at b (i + w * j) w = bits_at b' (i' + w * j) w) -> codes_at b i w m = codes_at b' i' w m.
Proof. intros H. apply map_ext_in. intros j I. apply in_seq in I. apply H. lia. Qed.

(** partition, company prefix, reference *)
Definition part_text (width tot : nat) (unp : bool) (p s : str) : Prop :=
  exists n cp ref, (6 <= n <= 12)%nat /\ bits_at p 0 3 = partition_value n /\ padded_number n (bits_at p 3 (prefix_bits n)) cp /\
    (if unp then plain_number (bits_at p (3 + prefix_bits n) (width - prefix_bits n)) ref
     else if (n =? tot)%nat then ref = [] else padded_number (tot - n) (bits_at p (3 + prefix_bits n) (width - prefix_bits n)) ref) /\ s = two cp ref.
Lemma std_lookup rows width tot v : rows_std rows width tot = true -> v < 8 ->
  match lookup (Z.of_N v) (table_P rows) with
  | Some r => In r rows /\ (6 <= rL r <= 12)%nat /\ v = partition_value (rL r) /\ rM r = prefix_bits (rL r) /\ rN r = (width - prefix_bits (rL r))%nat /\ (rL r + rK r = tot)%nat /\ (1 <= rM r)%nat
  | None => forall n, (6 <= n <= 12)%nat -> v <> partition_value n
  end.
Proof.
  intros R V. pose proof (proj1 (std_small _ _ _ R)) as R1. destruct (lookup _ _) as [r|] eqn:E.
  - apply lookup_P in E as (I & P & LL & F); [|exact R1]. destruct F as (F1 & F2 & F3 & F4 & F5).
    destruct (std_row rows width tot (rL r) R F2) as (r' & I' & A1 & A2 & A3 & A4 & A5 & A6 & A7 & A8 & A9). assert (r' = r) by congruence. subst r'.
    repeat split; try assumption; try lia.
  - intros n Hn Q. destruct (lookup_P_lt rows (Z.of_N v) R1) as (r & Er); [unfold partition_value in Q; lia|]. congruence.
Qed.
Lemma partition_value_inj n m : (6 <= n <= 12)%nat -> (6 <= m <= 12)%nat -> partition_value n = partition_value m -> n = m.
Proof. unfold partition_value. lia. Qed.
Lemma three_bits p : forallb is_bit p = true -> bits_at p 0 3 < 8.
Proof.
  intros B. unfold bits_at. cbn [skipn]. rewrite binary_number_sval by now apply forallb_firstn.
  pose proof (sval_bound 2 (firstn 3 p) (forallb_bit_in_base2 _ (forallb_firstn _ 3 _ B))) as X. eapply N.lt_le_trans; [exact X|].
  change 8 with (2 ^ 3). apply N.pow_le_mono_r; [lia|]. rewrite firstn_length. lia.
Qed.
Lemma part_iff rows width tot p (unp : bool) s : rows_std rows width tot = true -> (unp = true -> (12 < tot)%nat) ->
  forallb is_bit p = true -> length p = (3 + width)%nat ->
  decode_partition_table p (table_P rows) unp false false = Ok s <-> part_text width tot unp p s.
Proof.
  intros R U B L. pose proof (proj1 (std_small _ _ _ R)) as R1.
  rewrite (decode_num rows p unp width) by (exact R1 || exact B || exact (std_w _ _ _ R) || exact (proj1 (proj2 (std_small _ _ _ R))) || lia).
  assert (V3 : sval 2 (firstn 3 p) = bits_at p 0 3) by (unfold bits_at; cbn [skipn]; symmetry; apply binary_number_sval; now apply forallb_firstn).
  rewrite V3. pose proof (std_lookup rows width tot _ R (three_bits p B)) as K. destruct (lookup _ _) as [r|].
  2:{ split; [discriminate|]. intros (n & cp & ref & Hn & P & _). exfalso. exact (K n Hn P). }
  destruct K as (I & LL & P & M & Nr & T & _). cbn zeta. rewrite <- (bits_at_sval p 3 (rM r) B), <- (bits_at_sval p (3 + rM r) (rN r) B), M, Nr.
  set (c := bits_at p 3 (prefix_bits (rL r))). set (d := bits_at p (3 + prefix_bits (rL r)) (width - prefix_bits (rL r))).
  split.
  - destruct (_ && _) eqn:Q; [|discriminate]. intros E. apply ok_inj in E. subst s. apply andb_true_iff in Q as [Q1 Q2]. apply N.ltb_lt in Q1.
    exists (rL r), (padl c_0 (rL r) (ndec c)), (if (rK r =? 0)%nat then [] else padl c_0 (if unp then 0 else rK r)%nat (ndec d)).
    split; [exact LL|]. split; [exact P|]. split; [apply padded_iff; [lia|split; [exact Q1|reflexivity]]|]. split; [|reflexivity].
    destruct unp.
    + specialize (U eq_refl). replace (rK r =? 0)%nat with false by (symmetry; apply Nat.eqb_neq; lia). apply plain_iff. apply padl_ge. lia.
    + cbn [orb] in Q2. destruct (Nat.eqb_spec (rL r) tot) as [Et|Et].
      * replace (rK r =? 0)%nat with true by (symmetry; apply Nat.eqb_eq; lia). reflexivity.
      * replace (rK r =? 0)%nat with false in * by (symmetry; apply Nat.eqb_neq; lia). cbn [orb] in Q2. apply N.ltb_lt in Q2.
        replace (tot - rL r)%nat with (rK r) by lia. apply padded_iff; [lia|]. split; [exact Q2|reflexivity].
  - intros (n & cp & ref & Hn & Pn & C & D & ->). rewrite P in Pn. apply partition_value_inj in Pn; [|exact LL|exact Hn]. subst n.
    apply padded_iff in C as [C ->]; [|lia]. fold c in C |- *. replace (c <? 10 ^ N.of_nat (rL r)) with true by (symmetry; now apply N.ltb_lt). cbn [andb]. fold d in D.
    destruct unp; cbn [orb].
    + specialize (U eq_refl). replace (rK r =? 0)%nat with false by (symmetry; apply Nat.eqb_neq; lia). apply plain_iff in D. subst ref. rewrite (padl_ge c_0 0) by lia. reflexivity.
    + destruct (Nat.eqb_spec (rL r) tot) as [Et|Et].
      * replace (rK r =? 0)%nat with true by (symmetry; apply Nat.eqb_eq; lia). cbn [orb]. subst ref. reflexivity.
      * replace (rK r =? 0)%nat with false by (symmetry; apply Nat.eqb_neq; lia). cbn [orb]. replace (tot - rL r)%nat with (rK r) in D by lia.
        apply padded_iff in D as [D ->]; [|lia]. replace (d <? 10 ^ N.of_nat (rK r)) with true by (symmetry; now apply N.ltb_lt). reflexivity.
Qed.
Lemma string_part_iff rows width tot p s : rows_std rows width tot = true -> forallb is_bit p = true -> length p = (3 + width)%nat ->
  decode_partition_table p (table_P rows) false true false = Ok s <->
  exists n cp, (6 <= n <= 12)%nat /\ bits_at p 0 3 = partition_value n /\ padded_number n (bits_at p 3 (prefix_bits n)) cp /\
    s = two cp (text_of (codes_at p (3 + prefix_bits n) 7 ((width - prefix_bits n) / 7))).
Proof.
  intros R B L. pose proof (proj1 (std_small _ _ _ R)) as R1. unfold decode_partition_table.
  rewrite binary_to_int_spec by (try (apply nonempty_len; rewrite firstn_length; lia); now apply forallb_firstn). cbn [bind].
  assert (V3 : sval 2 (firstn 3 p) = bits_at p 0 3) by (unfold bits_at; cbn [skipn]; symmetry; apply binary_number_sval; now apply forallb_firstn).
  rewrite V3. pose proof (std_lookup rows width tot _ R (three_bits p B)) as K. destruct (lookup _ _) as [r|]; cbn [of_option bind].
  2:{ split; [discriminate|]. intros (n & cp & Hn & P & _). exfalso. exact (K n Hn P). }
  destruct K as (I & LL & P & M & Nr & T & M1). pose proof (std_w _ _ _ R r I) as W.
  rewrite binary_to_int_spec by (try (apply nonempty_len; rewrite length_sl; lia); now apply forallb_sl). cbn [bind].
  rewrite (string_at _ ((width - prefix_bits (rL r)) / 7)) by (try (now apply forallb_sl); f_equal; rewrite length_sl; lia). cbn [bind orb negb].
  rewrite andb_false_r. cbn [bind]. replace (3 + rM r)%nat with (3 + prefix_bits (rL r))%nat by lia. rewrite <- (bits_at_sval p 3 (prefix_bits (rL r)) B).
  set (c := bits_at p 3 (prefix_bits (rL r))). rewrite dec_of_N, (padl_ge c_0 0) by lia.
  assert (Q : codes_at (sl (3 + prefix_bits (rL r)) (3 + prefix_bits (rL r) + rN r) p) 0 7 ((width - prefix_bits (rL r)) / 7) =
              codes_at p (3 + prefix_bits (rL r)) 7 ((width - prefix_bits (rL r)) / 7)).
  { apply codes_at_ext. intros j Hj. pose proof (Nat.mul_div_le (width - prefix_bits (rL r)) 7 ltac:(lia)). unfold bits_at, sl. f_equal.
    rewrite skipn_firstn_comm, firstn_firstn, skipn_skipn'. f_equal. lia. }
  rewrite Q. split.
  - destruct (Z.of_N c <? 10 ^ Z.of_nat (rL r))%Z eqn:C; [|discriminate]. intros E. apply ok_inj in E. subst s.
    exists (rL r), (padl c_0 (rL r) (ndec c)). split; [exact LL|]. split; [exact P|]. split; [|reflexivity]. apply padded_iff; [lia|]. split; [|reflexivity].
    fold c. apply Z.ltb_lt in C. rewrite zpow10 in C. lia.
  - intros (n & cp & Hn & Pn & C & ->). rewrite P in Pn. apply partition_value_inj in Pn; [|exact LL|exact Hn]. subst n.
    apply padded_iff in C as [C ->]; [|lia]. fold c in C |- *. replace (Z.of_N c <? 10 ^ Z.of_nat (rL r))%Z with true; [reflexivity|].
    symmetry. apply Z.ltb_lt. rewrite zpow10. lia.
Qed.

Lemma number_iff p s : (0 < length p)%nat -> forallb is_bit p = true -> numeric_text p = Ok s <-> plain_number (bits_at p 0 (length p)) s.
Proof.
  intros L B. rewrite numeric_text_bits by auto using nonempty_len. rewrite plain_iff. unfold bits_at. cbn [skipn]. rewrite firstn_all, binary_number_sval by exact B.
  split; [intros E; now apply ok_inj in E|now intros ->].
Qed.
Lemma fixed_iff p s : length p = 7%nat -> forallb is_bit p = true -> decode_fixed_width_integer p = Ok s <-> padded_number 2 (bits_at p 0 7) s.
Proof.
  intros L B. rewrite decode_fixed_bits by (try (apply nonempty_len; lia); try assumption; unfold intable; rewrite L; vm_compute; discriminate).
  rewrite padded_iff by lia. unfold bits_at. cbn [skipn]. rewrite L. rewrite <- L, firstn_all, L, binary_number_sval by exact B.
  change (fixed_width_digits 7) with 2%nat. destruct (N.leb_spec (10 ^ N.of_nat 2) (sval 2 p)) as [Q|Q].
  - split; [discriminate|]. lia.
  - split; [intros E; apply ok_inj in E; now subst|]. now intros (_ & ->).
Qed.
Lemma numeric_string_iff p s : (0 < length p)%nat -> (length p <= 100)%nat -> forallb is_bit p = true ->
  decode_numeric_string p = Ok s <-> s <> [] /\ plain_number (bits_at p 0 (length p)) (lit "1" ++ s).
Proof.
  intros L L' B. rewrite decode_numeric_bits by (try (apply nonempty_len; lia); try assumption; unfold intable, int_max_str_digits; lia).
  rewrite plain_iff. unfold bits_at. cbn [skipn]. rewrite firstn_all, binary_number_sval by exact B.
  destruct (ndec (sval 2 p)) as [|c [|d t]].
  - split; [discriminate|]. intros (_ & Q). discriminate Q.
  - split; [discriminate|]. intros (Q1 & Q). change (lit "1" ++ s) with (c_1 :: s) in Q. injection Q as _ Q. congruence.
  - destruct (N.eqb_spec c c_1) as [->|Q].
    + split; [intros E; apply ok_inj in E; subst s; split; [discriminate|reflexivity]|]. intros (_ & E). change (lit "1" ++ s) with (c_1 :: s) in E. injection E as ->. reflexivity.
    + split; [discriminate|]. intros (_ & E). change (lit "1" ++ s) with (c_1 :: s) in E. injection E as E _. congruence.
Qed.
Lemma cage_at p : forallb is_bit p = true -> length p = 48%nat -> decode_cage_code p = Ok (filter (fun c => negb (c =? 32)) (codes_at p 0 8 6)).
Proof.
  intros B L. rewrite decode_cage_whole by (try exact B; rewrite L; reflexivity). rewrite replace_space. f_equal. change c_space with 32. f_equal.
  rewrite chunks_seq, L, map_map by lia. change (48 / 8)%nat with 6%nat. apply map_ext. intros j. unfold bits_at. symmetry. apply binary_number_sval. now apply forallb_firstn, forallb_skipn.
Qed.

Lemma dotted2_iff a b s : dotted2 a b = Ok s <-> exists x y, a = Ok x /\ b = Ok y /\ s = two x y.
Proof.
  split; [intros H; now apply dotted2_ok in H|]. intros (x & y & -> & -> & ->). reflexivity.
Qed.
Lemma two_assoc a b c : two (two a b) c = two a (two b c).
Proof. unfold two. now rewrite <- !app_assoc. Qed.
Lemma prefix_bits_le n : (6 <= n <= 12)%nat -> (prefix_bits n <= 40)%nat.
Proof. intros H. do 13 (destruct n as [|n]; [cbn; lia|]). lia. Qed.
Lemma part_at b n k width tot s : (40 <= width)%nat -> k = (3 + width)%nat -> (11 + k <= n)%nat ->
  part_text width tot false (firstn k (skipn 11 (firstn n b))) s <-> exists cp ref, prefix_and_reference width tot b cp ref /\ s = two cp ref.
Proof.
  intros W -> N. unfold part_text, prefix_and_reference, prefix_of. split.
  - intros (m & cp & ref & Hm & P & C & D & E). pose proof (prefix_bits_le m Hm). rewrite !bits_at_cut in P, C, D by lia. exists cp, ref. split; [|exact E]. exists m. auto.
  - intros (cp & ref & (m & (Hm & P & C) & D) & E). pose proof (prefix_bits_le m Hm). exists m, cp, ref. rewrite !bits_at_cut by lia. auto.
Qed.
Lemma part_at_number b n k width tot s : (40 <= width)%nat -> k = (3 + width)%nat -> (11 + k <= n)%nat ->
  part_text width tot true (firstn k (skipn 11 (firstn n b))) s <-> exists cp ref, prefix_and_number width b cp ref /\ s = two cp ref.
Proof.
  intros W -> N. unfold part_text, prefix_and_number, prefix_of. split.
  - intros (m & cp & ref & Hm & P & C & D & E). pose proof (prefix_bits_le m Hm). rewrite !bits_at_cut in P, C, D by lia. exists cp, ref. split; [|exact E]. exists m. auto.
  - intros (cp & ref & (m & (Hm & P & C) & D) & E). pose proof (prefix_bits_le m Hm). exists m, cp, ref. rewrite !bits_at_cut by lia. auto.
Qed.

Lemma prefix_at b n s : (11 + 191 <= n)%nat ->
  (exists m cp, (6 <= m <= 12)%nat /\ bits_at (firstn 191 (skipn 11 (firstn n b))) 0 3 = partition_value m /\
     padded_number m (bits_at (firstn 191 (skipn 11 (firstn n b))) 3 (prefix_bits m)) cp /\
     s = two cp (text_of (codes_at (firstn 191 (skipn 11 (firstn n b))) (3 + prefix_bits m) 7 ((188 - prefix_bits m) / 7)))) <->
  exists m cp, prefix_of b m cp /\ s = two cp (text_of (codes_at b (14 + prefix_bits m) 7 ((188 - prefix_bits m) / 7))).
Proof.
  intros N. unfold prefix_of.
  assert (Q : forall m, (6 <= m <= 12)%nat -> codes_at (firstn 191 (skipn 11 (firstn n b))) (3 + prefix_bits m) 7 ((188 - prefix_bits m) / 7) =
     codes_at b (14 + prefix_bits m) 7 ((188 - prefix_bits m) / 7)).
  { intros m Hm. pose proof (prefix_bits_le m Hm). apply codes_at_ext. intros j Hj. pose proof (Nat.mul_div_le (188 - prefix_bits m) 7 ltac:(lia)).
    rewrite bits_at_cut by lia. reflexivity. }
  split; intros (m & cp & H); exists m, cp.
  - destruct H as (Hm & P & C & E). pose proof (prefix_bits_le m Hm). rewrite !bits_at_cut in P, C by lia. rewrite Q in E by exact Hm. auto.
  - destruct H as ((Hm & P & C) & E). pose proof (prefix_bits_le m Hm). rewrite !bits_at_cut by lia. rewrite Q by exact Hm. auto.
Qed.

(** pieces of a tag *)
Lemma piece_rest (b : str) n m j i w : (m + j + w = n)%nat -> i = (m + j)%nat -> skipn j (skipn m (firstn n b)) = firstn w (skipn i b).
Proof. intros <- ->. rewrite skipn_skipn', skipn_firstn_comm. f_equal. lia. Qed.
Lemma piece_first (b : str) n m w : (m + w <= n)%nat -> firstn w (skipn m (firstn n b)) = firstn w (skipn m b).
Proof. intros H. rewrite skipn_firstn_comm, firstn_firstn. f_equal. lia. Qed.
Lemma piece_mid (b : str) n m i j w p : (m + j <= n)%nat -> j = (i + w)%nat -> p = (m + i)%nat -> sl i j (skipn m (firstn n b)) = firstn w (skipn p b).
Proof. intros H -> ->. unfold sl. rewrite skipn_skipn', skipn_firstn_comm, firstn_firstn. f_equal. lia. Qed.
Lemma piece_length (b : str) i w : (i + w <= length b)%nat -> length (firstn w (skipn i b)) = w.
Proof. intros H. rewrite firstn_length, skipn_length. lia. Qed.
Lemma piece_bits (b : str) i w : forallb is_bit b = true -> forallb is_bit (firstn w (skipn i b)) = true.
Proof. intros H. now apply forallb_firstn, forallb_skipn. Qed.
Lemma piece_at b i w : bits_at (firstn w (skipn i b)) 0 w = bits_at b i w.
Proof. unfold bits_at. cbn [skipn]. now rewrite firstn_firstn, Nat.min_id. Qed.
Lemma piece_codes b i w e m : (e * m <= w)%nat -> codes_at (firstn w (skipn i b)) 0 e m = codes_at b i e m.
Proof. intros H. apply codes_at_ext. intros j Hj. unfold bits_at. rewrite skipn_firstn_comm, firstn_firstn, skipn_skipn'. do 2 f_equal. nia. Qed.
Lemma number_at b i w y : forallb is_bit b = true -> (0 < w)%nat -> (i + w <= length b)%nat -> numeric_text (firstn w (skipn i b)) = Ok y <-> plain_number (bits_at b i w) y.
Proof. intros B W L. rewrite number_iff by (rewrite ?piece_length by exact L; auto using piece_bits). now rewrite piece_length, piece_at. Qed.
Lemma fixed_at b i y : forallb is_bit b = true -> (i + 7 <= length b)%nat -> decode_fixed_width_integer (firstn 7 (skipn i b)) = Ok y <-> padded_number 2 (bits_at b i 7) y.
Proof. intros B L. rewrite fixed_iff by (rewrite ?piece_length by exact L; auto using piece_bits). now rewrite piece_at. Qed.
Lemma numeric_string_at b i w y : forallb is_bit b = true -> (0 < w <= 100)%nat -> (i + w <= length b)%nat ->
  decode_numeric_string (firstn w (skipn i b)) = Ok y <-> y <> [] /\ plain_number (bits_at b i w) (lit "1" ++ y).
Proof. intros B W L. rewrite numeric_string_iff by (rewrite ?piece_length by exact L; auto using piece_bits; lia). now rewrite piece_length, piece_at. Qed.
Lemma text_at b i w m y : forallb is_bit b = true -> (i + w <= length b)%nat -> (w / 7)%nat = m ->
  decode_string (firstn w (skipn i b)) = Ok y <-> y = text_of (codes_at b i 7 m).
Proof.
  intros B L Hm. rewrite (string_at _ m) by (rewrite ?piece_length by exact L; auto using piece_bits). rewrite piece_codes.
  - split; [intros E; now apply ok_inj in E|now intros ->].
  - subst m. apply Nat.mul_div_le. lia.
Qed.
Lemma cage_code_at b i y : forallb is_bit b = true -> (i + 48 <= length b)%nat ->
  decode_cage_code (firstn 48 (skipn i b)) = Ok y <-> y = filter (fun c => negb (c =? 32)) (codes_at b i 8 6).
Proof.
  intros B L. rewrite cage_at by (rewrite ?piece_length by exact L; auto using piece_bits). rewrite piece_codes by lia.
  split; [intros E; now apply ok_inj in E|now intros ->].
Qed.
Lemma part_piece rows width tot b n k s : rows_std rows width tot = true -> (40 <= width)%nat -> k = (3 + width)%nat -> (11 + k <= n)%nat -> (n <= length b)%nat ->
  forallb is_bit b = true -> decode_partition_table (firstn k (skipn 11 (firstn n b))) (table_P rows) false false false = Ok s <->
  exists cp ref, prefix_and_reference width tot b cp ref /\ s = two cp ref.
Proof.
  intros R W K N L B. rewrite (part_iff rows width tot); [now apply part_at|exact R|discriminate|now apply forallb_firstn, forallb_skipn, forallb_firstn|].
  rewrite firstn_length, skipn_length, firstn_length. lia.
Qed.
Lemma part_piece_number rows width tot b n k s : rows_std rows width tot = true -> (12 < tot)%nat -> (40 <= width)%nat -> k = (3 + width)%nat -> (11 + k <= n)%nat -> (n <= length b)%nat ->
  forallb is_bit b = true -> decode_partition_table (firstn k (skipn 11 (firstn n b))) (table_P rows) true false false = Ok s <->
  exists cp ref, prefix_and_number width b cp ref /\ s = two cp ref.
Proof.
  intros R T W K N L B. rewrite (part_iff rows width tot); [now apply part_at_number|exact R|auto|now apply forallb_firstn, forallb_skipn, forallb_firstn|].
  rewrite firstn_length, skipn_length, firstn_length. lia.
Qed.

Lemma dot_iff a d (Q : str -> str -> Prop) (R : str -> Prop) s : (forall x, a = Ok x <-> exists cp ref, Q cp ref /\ x = two cp ref) -> (forall y, d = Ok y <-> R y) ->
  dotted2 a d = Ok s <-> exists cp ref v, Q cp ref /\ R v /\ s = two cp (two ref v).
Proof.
  intros A D. rewrite dotted2_iff. split.
  - intros (x & y & X & Y & ->). apply A in X as (cp & ref & X & ->). apply D in Y. exists cp, ref, y. now rewrite two_assoc.
  - intros (cp & ref & v & X & Y & ->). exists (two cp ref), v. split; [apply A; eauto|]. split; [now apply D|]. now rewrite two_assoc.
Qed.
Lemma dot_text_iff a d (Q : str -> str -> Prop) t s : (forall x, a = Ok x <-> exists cp ref, Q cp ref /\ x = two cp ref) -> (forall y, d = Ok y <-> y = t) ->
  dotted2 a d = Ok s <-> exists cp ref, Q cp ref /\ s = two cp (two ref t).
Proof.
  intros A D. rewrite (dot_iff a d Q (fun y => y = t)) by assumption. split.
  - intros (cp & ref & v & X & -> & ->). eauto.
  - intros (cp & ref & X & ->). exists cp, ref, t. auto.
Qed.
Theorem body_iff k n b s : tag_size k = Some n -> forallb is_bit b = true -> (n <= length b)%nat ->
  k_body k (after_filter k b) = Ok s <-> tag_body k b s.
Proof.
  intros Sz B L. unfold after_filter, cut. rewrite Sz.
  Ltac pre L B rows w t := rewrite (part_piece rows w t) by (exact B || exact L || lia || (vm_compute; reflexivity)); reflexivity.
  Ltac pren L B rows w t := rewrite (part_piece_number rows w t) by (exact B || exact L || lia || (vm_compute; reflexivity)); reflexivity.
  destruct k; try discriminate Sz; injection Sz as <-; cbn [filter_width Nat.add Nat.sub]; cbn [k_body tag_body].
  all: rewrite ?(piece_rest b 96 11 47 58 38), ?(piece_rest b 96 11 44 55 41), ?(piece_rest b 96 11 54 65 31), ?(piece_rest b 96 8 52 60 36), ?(piece_rest b 96 12 48 60 36),
    ?(piece_rest b 198 11 47 58 140), ?(piece_rest b 195 11 44 55 140), ?(piece_rest b 170 11 47 58 112), ?(piece_rest b 174 11 44 55 119),
    ?(piece_rest b 110 11 61 72 38), ?(piece_rest b 212 11 61 72 140),
    ?(piece_mid b 110 11 47 54 7 58), ?(piece_mid b 110 11 54 61 7 65), ?(piece_mid b 212 11 47 54 7 58), ?(piece_mid b 212 11 54 61 7 65), ?(piece_mid b 96 8 28 52 24 36),
    ?(piece_first b 96 8 28), ?(piece_first b 96 12 48) by lia.
  all: lazymatch goal with
    | |- dotted2 (decode_partition_table _ _ false _ _) (numeric_text _) = _ <-> _ => apply dot_iff; [intros x|intros y; apply number_at; (exact B || lia)]
    | |- dotted2 (decode_partition_table _ _ true _ _) (numeric_text _) = _ <-> _ => apply dot_iff; [intros x|intros y; apply number_at; (exact B || lia)]
    | |- dotted2 (decode_partition_table _ _ _ _ _) (decode_string _) = _ <-> _ => apply dot_text_iff; [intros x|intros y; apply text_at; (exact B || reflexivity || lia)]
    | |- _ => idtac end.
  - pre L B gdti_rows 41%nat 12%nat.
  - pre L B gsrn_rows 58%nat 17%nat.
  - pre L B gsrnp_rows 58%nat 17%nat.
  - rewrite dotted2_iff. split.
    + intros (x & y & X & Y & ->). apply cage_code_at in X; [|exact B|lia]. apply number_at in Y; [|exact B|lia|lia]. exists y. now subst x.
    + intros (v & Y & ->). eexists _, v. rewrite cage_code_at, number_at by (exact B || lia). split; [reflexivity|]. split; [exact Y|reflexivity].
  - pre L B sgtin_rows 44%nat 13%nat.
  - pre L B sscc_rows 58%nat 17%nat.
  - pre L B sgln_rows 41%nat 12%nat.
  - pre L B grai_rows 44%nat 12%nat.
  - rewrite <- (firstn_all2 (n := 85) (skipn 11 (firstn 96 b))) by (rewrite skipn_length, firstn_length; lia). pren L B giai_rows_96 82%nat 25%nat.
  - rewrite dotted2_iff. split.
    + intros (x & y & X & Y & ->). apply dotted2_iff in Y as (o & v & O & V & ->). apply number_at in X; [|exact B|lia|lia]. apply number_at in O; [|exact B|lia|lia].
      apply number_at in V; [|exact B|lia|lia]. exists x, o, v. auto.
    + intros (x & o & v & X & O & V & ->). exists x, (two o v). rewrite dotted2_iff, number_at by (exact B || lia). split; [exact X|]. split; [|reflexivity].
      exists o, v. rewrite !number_at by (exact B || lia). auto.
  - pre L B sgtin_rows 44%nat 13%nat.
  - pre L B grai_rows 44%nat 12%nat.
  - rewrite <- (prefix_at b 202) by lia. rewrite <- (firstn_all2 (n := 191) (skipn 11 (firstn 202 b))) at 1 by (rewrite skipn_length, firstn_length; lia).
    apply (string_part_iff giai_rows_202 188 30); [vm_compute; reflexivity|now apply forallb_firstn, forallb_skipn, forallb_firstn|].
    rewrite firstn_length, skipn_length, firstn_length. lia.
  - pre L B sgln_rows 41%nat 12%nat.
  - pren L B cpi_rows_96 51%nat 15%nat.
  - pre L B gdti_rows 41%nat 12%nat.
  - rewrite (dot_iff _ _ (prefix_and_reference 41 12 b) (fun y => y <> [] /\ plain_number (bits_at b 55 41) (lit "1" ++ y))).
    + split; intros (cp & ref & v & H); exists cp, ref, v; tauto.
    + intros x. pre L B sgcn_rows 41%nat 12%nat.
    + intros y. apply numeric_string_at; (exact B || lia).
  - rewrite (dot_iff _ _ (prefix_and_reference 44 13 b) (fun y => exists p t v, padded_number 2 (bits_at b 58 7) p /\ padded_number 2 (bits_at b 65 7) t /\
       plain_number (bits_at b 72 38) v /\ y = two p (two t v))).
    + split; [intros (cp & ref & y & H & (p & t & v & P & T & V & ->) & ->); exists cp, ref, p, t, v; auto|].
      intros (cp & ref & p & t & v & H & P & T & V & ->). exists cp, ref, (two p (two t v)). split; [exact H|]. split; [|reflexivity]. exists p, t, v. auto.
    + intros x. pre L B itip_rows 44%nat 13%nat.
    + intros y. rewrite dotted2_iff. split.
      * intros (p & z & P & Z & ->). apply dotted2_iff in Z as (t & v & T & V & ->). apply fixed_at in P; [|exact B|lia]. apply fixed_at in T; [|exact B|lia].
        apply number_at in V; [|exact B|lia|lia]. exists p, t, v. auto.
      * intros (p & t & v & P & T & V & ->). exists p, (two t v). rewrite fixed_at by (exact B || lia). split; [exact P|]. split; [|reflexivity].
        apply dotted2_iff. exists t, v. rewrite fixed_at, number_at by (exact B || lia). auto.
  - rewrite (dot_iff _ _ (prefix_and_reference 44 13 b) (fun y => exists p t, padded_number 2 (bits_at b 58 7) p /\ padded_number 2 (bits_at b 65 7) t /\
       y = two p (two t (text_of (codes_at b 72 7 20))))).
    + split; [intros (cp & ref & y & H & (p & t & P & T & ->) & ->); exists cp, ref, p, t; auto|].
      intros (cp & ref & p & t & H & P & T & ->). exists cp, ref, (two p (two t (text_of (codes_at b 72 7 20)))). split; [exact H|]. split; [|reflexivity]. exists p, t. auto.
    + intros x. pre L B itip_rows 44%nat 13%nat.
    + intros y. rewrite dotted2_iff. split.
      * intros (p & z & P & Z & ->). apply dotted2_iff in Z as (t & v & T & V & ->). apply fixed_at in P; [|exact B|lia]. apply fixed_at in T; [|exact B|lia].
        apply (text_at b 72 140 20) in V; [|exact B|lia|reflexivity]. subst v. exists p, t. auto.
      * intros (p & t & P & T & ->). eexists p, (two t _). rewrite fixed_at by (exact B || lia). split; [exact P|]. split; [|reflexivity].
        apply dotted2_iff. eexists t, _. rewrite fixed_at, (text_at b 72 140 20) by (exact B || lia || reflexivity). auto.
Qed.
