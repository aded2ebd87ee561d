(** Bits of fields: general lemmas for binary() and from_binary(). *)
From Coq Require Import String.
From Verif.Model Require Import Py Re Regexes Common Base Parsers.
From Verif.Spec Require Import Spec SpecEscapes SpecGrammar SpecSchemes SpecTags SpecLayout.
From Verif.Proofs Require Import Basics Num ReLemmas Uni Escapes Codecs Codecs2 Partition Grammar Ctor CtorC CtorAll TagUri TagFits.

Definition tobits (l : list field) : str := flat_map (fun f => bits (fst f) (snd f)) l.
Definition in_range (l : list field) : Prop := Forall (fun f => snd f < 2 ^ N.of_nat (fst f)) l.

Lemma tobits_app a b : tobits (a ++ b) = tobits a ++ tobits b.
Proof. apply flat_map_app. Qed.
Lemma length_tobits l : length (tobits l) = total_bits l.
Proof.
  unfold total_bits, tobits. induction l as [|[w v] l IH]; [reflexivity|].
  cbn [flat_map map fst snd list_sum fold_right]. rewrite app_length, length_bits. unfold list_sum in IH. now rewrite IH.
Qed.
Lemma tobits_bit l : forallb is_bit (tobits l) = true.
Proof. unfold tobits. induction l as [|[w v] l IH]; [reflexivity|]. cbn [flat_map]. now rewrite forallb_app, bits_bit. Qed.
Lemma spells_tobits l : in_range l -> spells l (tobits l).
Proof.
  induction 1 as [|[w v] l H F IH]; [reflexivity|]. cbn [fst snd] in H. cbn [spells tobits flat_map fst snd].
  exists (bits w v), (tobits l). repeat split; auto using length_bits.
  - apply bitstring_iff, bits_bit.
  - rewrite binary_number_sval by apply bits_bit. now apply sval_bits.
Qed.
Lemma spells_eq l b : spells l b -> b = tobits l.
Proof.
  revert b; induction l as [|[w v] l IH]; intros b; cbn [spells]; [trivial|].
  intros (a & r & -> & L & B & V & S). cbn [tobits flat_map fst snd]. rewrite (IH r S). f_equal.
  apply bitstring_iff in B. rewrite binary_number_sval in V by exact B. rewrite <- L, <- V. symmetry. now apply bits_sval.
Qed.
Lemma spells_range l b : spells l b -> in_range l.
Proof.
  revert b; induction l as [|[w v] l IH]; intros b; cbn [spells]; [constructor|].
  intros (a & r & -> & L & B & V & S). constructor; [|eapply IH; eauto]. cbn [fst snd].
  apply bitstring_iff in B. rewrite binary_number_sval in V by exact B. rewrite <- L, <- V.
  apply sval_bound, forallb_bit_in_base2, B.
Qed.
Lemma in_range_app a b : in_range (a ++ b) <-> in_range a /\ in_range b.
Proof. apply Forall_app. Qed.

(** * Header *)

Lemma parse_fixed {S} (value : S -> str) tbl (h rest : str) s nm size n :
  length h = 8%nat -> assoc_str h tbl = Some s -> split c_dash (value s) = [nm; size] ->
  isnumeric size = true -> int10 size = Ok (Z.of_nat n) -> (0 < n)%nat ->
  parse_header_and_truncate_binary value (h ++ rest) tbl =
    if (length (h ++ rest) <? n)%nat then Raise ConvertException else Ok (s, firstn n (h ++ rest)).
Proof.
  intros H A E I J P. unfold parse_header_and_truncate_binary. rewrite firstn_exact by exact H. rewrite A. cbn [of_option bind].
  rewrite E, I, J. cbn [bind]. set (b := h ++ rest).
  replace (negb (Z.of_nat n =? 0)%Z) with true by (symmetry; apply negb_true_iff, Z.eqb_neq; lia). cbn [andb].
  destruct (Nat.ltb_spec (length b) n) as [L|L].
  - replace (Z.of_nat (length b) <? Z.of_nat n)%Z with true by (symmetry; apply Z.ltb_lt; lia). reflexivity.
  - replace (Z.of_nat (length b) <? Z.of_nat n)%Z with false by (symmetry; apply Z.ltb_ge; lia). cbn [raise_if bind].
    f_equal. f_equal. unfold slz, norm_idx. cbn [Z.to_nat skipn].
    f_equal. rewrite Z.sub_0_r. destruct (Z.ltb_spec (Z.of_nat n) 0); lia.
Qed.
Lemma parse_var {S} (value : S -> str) tbl (h rest : str) s nm size :
  length h = 8%nat -> assoc_str h tbl = Some s -> split c_dash (value s) = [nm; size] -> isnumeric size = false ->
  parse_header_and_truncate_binary value (h ++ rest) tbl = Ok (s, h ++ rest).
Proof.
  intros H A E I. unfold parse_header_and_truncate_binary. rewrite firstn_exact by exact H. rewrite A. cbn [of_option bind].
  rewrite E, I. cbn [bind raise_if]. f_equal. f_equal. unfold slz. cbn [Z.to_nat skipn]. rewrite Z.sub_0_r, Nat2Z.id. apply firstn_all.
Qed.

(** * Partition tables *)

Definition rows_std (rows : list row) (width tot : nat) : bool :=
  rows_ok rows && ((N.of_nat width <=? 4300) && (N.of_nat tot <=? 4300)) &&
  forallb (fun r => (Z.to_N (rP r) =? partition_value (rL r)) && (rM r =? prefix_bits (rL r))%nat &&
                    (rN r =? width - prefix_bits (rL r))%nat && (rM r + rN r =? width)%nat && (rL r + rK r =? tot)%nat) rows.
Lemma std_row rows width tot len : rows_std rows width tot = true -> (6 <= len <= 12)%nat ->
  exists r, In r rows /\ lookup (Z.of_nat len) (table_L rows) = Some r /\ lookup (rP r) (table_P rows) = Some r /\ rL r = len /\
    row_fine r /\ Z.to_N (rP r) = partition_value len /\ rM r = prefix_bits len /\ rN r = (width - prefix_bits len)%nat /\
    (rM r + rN r = width)%nat /\ (len + rK r = tot)%nat.
Proof.
  intros H L. apply andb_true_iff in H as [H1 H2]. apply andb_true_iff in H1 as [H1 _]. destruct (lookup_L rows len H1 L) as (r & I & A & B & E & F).
  exists r. rewrite forallb_forall in H2. specialize (H2 r I). rewrite !andb_true_iff in H2.
  destruct H2 as ((((A1 & A2) & A3) & A4) & A5). apply N.eqb_eq in A1. apply Nat.eqb_eq in A2, A3, A4, A5.
  rewrite E in A1, A2, A3, A5. repeat (split; [assumption|]). assumption.
Qed.
Lemma std_w rows width tot : rows_std rows width tot = true -> forall r, In r rows -> (rM r + rN r <= width)%nat.
Proof.
  intros H r I. apply andb_true_iff in H as [H1 H2]. rewrite forallb_forall in H2. specialize (H2 r I). rewrite !andb_true_iff in H2.
  destruct H2 as ((((A1 & A2) & A3) & A4) & A5). apply Nat.eqb_eq in A4. lia.
Qed.
Lemma std_small rows width tot : rows_std rows width tot = true -> rows_ok rows = true /\ (width <= 4300)%nat /\ (tot <= 4300)%nat.
Proof.
  intros H. apply andb_true_iff in H as [H1 _]. apply andb_true_iff in H1 as [H1 H2]. apply andb_true_iff in H2 as [H2 H3].
  apply N.leb_le in H2, H3. split; [exact H1|]. lia.
Qed.
Lemma prefix_fits len C : (6 <= len <= 12)%nat -> length C = len -> decimal C < 2 ^ N.of_nat (prefix_bits len).
Proof.
  intros H <-. eapply N.lt_le_trans; [apply decimal_bound|].
  assert (E : (length C = 6 \/ length C = 7 \/ length C = 8 \/ length C = 9 \/ length C = 10 \/ length C = 11 \/ length C = 12)%nat) by lia.
  repeat destruct E as [E|E]; rewrite E; vm_compute; discriminate.
Qed.

Lemma std_encode rows width tot C D : rows_std rows width tot = true -> company_prefix C -> digits D -> intable D ->
  (D = [] <-> length C = tot) -> decimal D < 2 ^ N.of_nat (width - prefix_bits (length C)) ->
  encode_partition_table C D (table_L rows) false false = Ok (tobits (partition_fields width C D)).
Proof.
  intros H [DC LC] DD J E B. destruct (std_row _ _ _ _ H LC) as (r & I & A1 & A2 & A3 & F & P & M & Nn & W & K).
  apply digits_iff in DC, DD. apply std_small in H as [H1 H2].
  rewrite (encode_num rows r C D); auto.
  - rewrite P, M, Nn. unfold partition_fields, tobits. cbn [flat_map fst snd]. now rewrite app_nil_r.
  - now rewrite Nn.
  - rewrite E. lia.
Qed.
Lemma std_fits rows width tot C D : rows_std rows width tot = true -> company_prefix C ->
  forallb (fun r => 10 ^ N.of_nat (rK r) <=? 2 ^ N.of_nat (rN r)) rows = true -> (length C + length D = tot)%nat ->
  decimal D < 2 ^ N.of_nat (width - prefix_bits (length C)) /\ (D = [] <-> length C = tot).
Proof.
  intros H [DC LC] F T. destruct (std_row _ _ _ _ H LC) as (r & I & A1 & A2 & A3 & _ & P & M & Nn & W & K).
  rewrite forallb_forall in F. specialize (F r I). apply N.leb_le in F. split.
  - rewrite <- Nn. eapply N.lt_le_trans; [apply decimal_bound|]. replace (length D) with (rK r) by lia. exact F.
  - split; [intros ->; cbn in T; lia|]. intros E. destruct D; [reflexivity|cbn in T; lia].
Qed.
Lemma partition_range rows width tot C D : rows_std rows width tot = true -> company_prefix C ->
  decimal D < 2 ^ N.of_nat (width - prefix_bits (length C)) ->
  in_range (partition_fields width C D) /\ total_bits (partition_fields width C D) = (3 + width)%nat.
Proof.
  intros H [DC LC] B. destruct (std_row _ _ _ _ H LC) as (r & I & A1 & A2 & A3 & F & P & M & Nn & W & K). split.
  - unfold partition_fields. repeat constructor; cbn [fst snd].
    + unfold partition_value. change (2 ^ N.of_nat 3) with 8. lia.
    + now apply prefix_fits.
    + exact B.
  - unfold partition_fields, total_bits. cbn [map fst list_sum fold_right]. lia.
Qed.

Lemma length_ascii s : length (ascii_form s) = length s.
Proof. apply map_length. Qed.
Lemma ascii_form_digits s : forallb is_d s = true -> ascii_form s = to_ascii_digits s.
Proof.
  intros H. unfold ascii_form, to_ascii_digits. apply map_ext_in. intros c I. apply (forallb_In _ _ _ H) in I.
  unfold ascii_digit. apply is_d_udigit in I. now rewrite I.
Qed.
Lemma ascii_form_digit s : forallb is_d s = true -> forallb is_digit (ascii_form s) = true.
Proof. intros H. rewrite (ascii_form_digits s H). apply to_ascii_digits_digit. Qed.
Lemma ascii_form_decimal s : forallb is_d s = true -> sval 10 (ascii_form s) = decimal s.
Proof. intros H. rewrite (ascii_form_digits s H). symmetry. apply decimal_sval. Qed.
Lemma ascii_form_app a b : ascii_form (a ++ b) = ascii_form a ++ ascii_form b.
Proof. apply map_app. Qed.
Lemma ascii_form_id s : ascii s -> ascii_form s = s.
Proof.
  intros A. unfold ascii_form. rewrite <- (map_id s) at 2. apply map_ext_in. intros c I. apply A in I.
  unfold ascii_digit. destruct (udigit c) eqn:E; [|reflexivity]. apply udigit_ascii in E; [|exact I]. lia.
Qed.
Lemma ascii_form_nil s : ascii_form s = [] <-> s = [].
Proof. destruct s; cbn; split; congruence. Qed.

Lemma std_decode rows width tot C D (unp : bool) : rows_std rows width tot = true -> company_prefix C -> digits D ->
  (D = [] <-> length C = tot) -> decimal D < 2 ^ N.of_nat (width - prefix_bits (length C)) ->
  (if unp then (D <> [] -> no_lead0 (ascii_form D)) else (length C + length D = tot)%nat) ->
  decode_partition_table (tobits (partition_fields width C D)) (table_P rows) unp false false =
    Ok (ascii_form C ++ [c_dot] ++ ascii_form D).
Proof.
  intros H [DC LC] DD E B U. destruct (std_row _ _ _ _ H LC) as (r & I & A1 & A2 & A3 & F & P & M & Nn & W & K).
  pose proof (std_w _ _ _ H) as HW.
  apply digits_iff in DC, DD. apply std_small in H as (H1 & H2 & _).
  pose proof (decode_encode_num rows r (ascii_form C) (ascii_form D) [] unp width H1 I A2) as Q.
  rewrite !ascii_form_decimal, P, M, Nn in Q by assumption. rewrite <- Q; clear Q.
  - unfold partition_fields, tobits. cbn [flat_map fst snd]. reflexivity.
  - now rewrite length_ascii.
  - exact F.
  - now apply ascii_form_digit.
  - now apply ascii_form_digit.
  - exact HW.
  - exact H2.
  - cbn [length]. lia.
  - reflexivity.
  - exact B.
  - rewrite ascii_form_nil, E. lia.
  - destruct unp; [rewrite ascii_form_nil; exact U|rewrite length_ascii; lia].
Qed.

(** * Slices *)

Lemma slice_at {A} (a b c : list A) i n : length a = i -> length b = n -> sl i (i + n) (a ++ b ++ c) = b.
Proof. intros <- <-. now apply sl_mid. Qed.

(** * Numbers *)

Lemma filter_encode f w : (1 <= w <= 4300)%nat -> f < 2 ^ N.of_nat w -> str_to_binary (filter_value f) w = Ok (bits w f).
Proof.
  intros W F. unfold filter_value. destruct (ndec_spec f) as (V & D & _).
  rewrite str_to_binary_spec; rewrite ?V; auto using ndec_nonempty; [|lia]. apply (intable_ndec f w); [exact F|lia].
Qed.
Lemma bits_int w n : (1 <= w)%nat -> n < 2 ^ N.of_nat w -> binary_to_int (bits w n) = Ok (Z.of_N n).
Proof.
  intros W H. rewrite binary_to_int_spec; [now rewrite sval_bits| |apply bits_bit].
  intros E. apply (f_equal (@length N)) in E. rewrite length_bits in E. cbn in E. lia.
Qed.
Lemma numeral_no_lead0 s : nc_shape s = true -> no_lead0 (ascii_form s).
Proof.
  intros H. apply numeral_iff in H as [->|(c & s' & -> & R & _)]; [now left|]. right. cbn [ascii_form map].
  exists (ascii_digit c), (map ascii_digit s'). split; [reflexivity|]. unfold ascii_digit. rewrite udigit_digit by lia. lia.
Qed.
Lemma numeral_back s : numeral s -> ndec (decimal s) = ascii_form s.
Proof.
  intros H. apply numeral_iff in H. pose proof (numeral_no_lead0 _ H) as L. apply numeral_digits in H as [D _].
  rewrite <- (ascii_form_decimal _ D). apply ndec_sval; [now apply ascii_form_digit|exact L].
Qed.

Lemma numeral_intable s w : numeral s -> decimal s < 2 ^ N.of_nat w -> (w <= 4300)%nat -> intable s.
Proof.
  intros H B W. pose proof (intable_ndec _ _ B W) as J. rewrite (numeral_back _ H) in J. unfold intable in *. now rewrite length_ascii in J.
Qed.

(** * Text *)

Lemma text_bits width s : tobits (text_fields width s) = padr c_0 width (text7 (unescape s)).
Proof.
  unfold text_fields. rewrite tobits_app. unfold padr, text7. f_equal.
  - unfold tobits. now rewrite flat_map_concat_map, map_map, <- flat_map_concat_map.
  - unfold tobits. cbn [flat_map fst snd]. rewrite app_nil_r, bits_0. f_equal. fold (text7 (unescape s)). now rewrite length_text7.
Qed.
Lemma escape_ascii t : ascii (escape t) -> ~ In 0 (escape t) -> ascii t /\ ~ In 0 t.
Proof.
  intros A Z.
  assert (H : forall c, In c t -> reserved c \/ In c (escape t)).
  { intros c I. destruct (reserved_dec c) as [R|R]; [now left|right]. apply in_flat_map. exists c. split; [exact I|].
    rewrite (escape_char_other _ R). now left. }
  split.
  - intros c I. destruct (H c I) as [R|R]; [|auto]. cbn in R. repeat (destruct R as [<-|R]; [reflexivity|]). destruct R.
  - intros I. destruct (H 0 I) as [R|R]; [|auto]. cbn in R. repeat (destruct R as [R|R]; [discriminate|]). destruct R.
Qed.
Lemma component_chars s : component s -> ascii s /\ ~ In 0 s.
Proof.
  intros (_ & U & _). induction U as [|c s P U [IH1 IH2]|h s P U [IH1 IH2]].
  - split; [intros c []|intros []].
  - assert (X : 0 < c < 128) by (destruct P as [P|[P|[P|P]]]; try lia; cbn in P; repeat (destruct P as [<-|P]; [lia|]); destruct P).
    split; [intros d [<-|I]; [lia|auto]|intros [E|I]; [lia|auto]].
  - assert (X : 0 < h < 128) by (destruct P as [P|[P|P]]; lia).
    split; [intros d [<-|[<-|I]]; [lia|lia|auto]|intros [E|[E|I]]; [lia|lia|auto]].
Qed.
Lemma text_codec width s : component s -> canonical_text s ->
  encode_string s width = Ok (tobits (text_fields width s)) /\
  decode_string (tobits (text_fields width s)) = Ok s.
Proof.
  intros C (t & ->). apply component_chars in C as [A Z]. destruct (escape_ascii t A Z) as [A' Z'].
  rewrite text_bits, unescape_escape. split; [now apply encode_string_escape|now apply decode_encode_7bit].
Qed.
Lemma text_range width s : component s -> canonical_text s -> (7 * length (unescape s) <= width)%nat ->
  in_range (text_fields width s) /\ total_bits (text_fields width s) = width.
Proof.
  intros C (t & ->) L. apply component_chars in C as [A Z]. destruct (escape_ascii t A Z) as [A' Z'].
  rewrite unescape_escape in L. unfold text_fields. rewrite unescape_escape. split.
  - apply in_range_app. split.
    + apply Forall_map. apply Forall_forall. intros c I. cbn [fst snd]. now apply A'.
    + repeat constructor. cbn [fst snd]. apply N.neq_0_lt_0, N.pow_nonzero. discriminate.
  - unfold total_bits. rewrite map_app, list_sum_app, map_map. cbn [map list_sum fold_right fst].
    assert (X : forall l : str, list_sum (map (fun _ => 7%nat) l) = (7 * length l)%nat)
      by (induction l as [|c l IH]; cbn [map length list_sum fold_right] in *; unfold list_sum in *; lia).
    rewrite X. lia.
Qed.

(** * Tags *)

Lemma header_cons (v : N) l extra : tobits ((8%nat, v) :: l) ++ extra = bits 8 v ++ tobits l ++ extra.
Proof. unfold tobits. cbn [flat_map fst snd]. now rewrite <- app_assoc. Qed.
Lemma tobits_cons w v l : tobits ((w, v) :: l) = bits w v ++ tobits l.
Proof. reflexivity. Qed.

(** the fixed-size head of from_binary: header, truncation and the slices *)
Lemma parse_tag {S} (value : S -> str) tbl v l extra s nm size n :
  assoc_str (bits 8 v) tbl = Some s -> split c_dash (value s) = [nm; size] ->
  isnumeric size = true -> int10 size = Ok (Z.of_nat n) -> (0 < n)%nat -> total_bits ((8%nat, v) :: l) = n ->
  parse_header_and_truncate_binary value (tobits ((8%nat, v) :: l) ++ extra) tbl = Ok (s, tobits ((8%nat, v) :: l)).
Proof.
  intros A E I J P T. rewrite header_cons. rewrite (parse_fixed value tbl (bits 8 v) (tobits l ++ extra) s nm size n); auto using length_bits.
  rewrite <- header_cons. rewrite app_length, length_tobits, T.
  replace (n + length extra <? n)%nat with false by (symmetry; apply Nat.ltb_ge; lia).
  rewrite firstn_exact; [reflexivity|]. now rewrite length_tobits.
Qed.
Lemma slice_tag (a b c : list field) i j : total_bits a = i -> (total_bits a + total_bits b = j)%nat ->
  sl i j (tobits (a ++ b ++ c)) = tobits b.
Proof. intros A B. rewrite !tobits_app. apply sl_mid; rewrite !length_tobits; auto. Qed.
Lemma skip_tag (a b : list field) i : total_bits a = i -> skipn i (tobits (a ++ b)) = tobits b.
Proof. intros A. rewrite tobits_app. apply skipn_exact. now rewrite length_tobits. Qed.
Lemma total_app a b : total_bits (a ++ b) = (total_bits a + total_bits b)%nat.
Proof. unfold total_bits. now rewrite map_app, list_sum_app. Qed.

Lemma tobits_one w v : tobits [(w, v)] = bits w v.
Proof. unfold tobits. cbn [flat_map fst snd]. apply app_nil_r. Qed.
Lemma filter_int w f : (1 <= w)%nat -> f < 2 ^ N.of_nat w -> binary_to_int (tobits [(w, f)]) = Ok (Z.of_N f).
Proof. intros. rewrite tobits_one. now apply bits_int. Qed.

(** * Fields *)

(** a field list [l], its [n] bits, what writes them and what they are read back as *)
Definition written {A} (l : list field) (n : nat) (enc : res str) (dec : str -> res A) (v : A) : Prop :=
  in_range l /\ total_bits l = n /\ enc = Ok (tobits l) /\ dec (tobits l) = Ok v.

Lemma numeric_written s k : (1 <= k <= 4300)%nat -> serial_fits s (N.of_nat k) ->
  written [(k, decimal s)] k (str_to_binary s k) (fun b => let* i := binary_to_int b in Ok (dec i)) (ascii_form s).
Proof.
  intros K1 [Nu B]. pose proof (numeral_intable _ k Nu B (proj2 K1)) as J. pose proof (numeral_back _ Nu) as E. apply numeral_iff in Nu. apply numeral_digits in Nu as [D X].
  unfold written. rewrite tobits_one. split; [repeat constructor; exact B|]. split; [unfold total_bits; cbn; lia|]. split.
  - apply str_to_binary_digits; auto. lia.
  - rewrite bits_int by (lia || exact B). cbn [bind]. now rewrite dec_of_N, E.
Qed.
Lemma text_written s w : component s -> canonical_text s -> (7 * length (unescape s) <= w)%nat ->
  written (text_fields w s) w (encode_string s w) decode_string (ascii_form s).
Proof.
  intros C K L. destruct (text_range w _ C K L) as [T1 T2]. destruct (text_codec w _ C K) as [E1 E2].
  unfold written. rewrite (ascii_form_id _ (proj1 (component_chars _ C))). auto.
Qed.
Lemma partition_written rows width tot C D : rows_std rows width tot = true ->
  forallb (fun r => 10 ^ N.of_nat (rK r) <=? 2 ^ N.of_nat (rN r)) rows = true ->
  company_prefix C -> digits D -> (length C + length D = tot)%nat ->
  written (partition_fields width C D) (3 + width) (encode_partition_table C D (table_L rows) false false)
    (fun b => decode_partition_table b (table_P rows) false false false) (ascii_form C ++ [c_dot] ++ ascii_form D).
Proof.
  intros S Fi C0 D0 T. destruct (std_fits _ _ _ _ _ S C0 Fi T) as [B E]. destruct (partition_range _ _ _ _ _ S C0 B) as [R1 R2].
  unfold written. split; [exact R1|]. split; [exact R2|]. split.
  - eapply std_encode; eauto. apply std_small in S as (_ & _ & S). apply (intable_le _ tot); [lia|exact S].
  - eapply std_decode; eauto.
Qed.

Lemma filter_written f w : (1 <= w <= 4300)%nat -> f < 2 ^ N.of_nat w ->
  written [(w, f)] w (str_to_binary (filter_value f) w) binary_to_int (Z.of_N f).
Proof.
  intros W H. unfold written. rewrite tobits_one. split; [repeat constructor; exact H|]. split; [unfold total_bits; cbn; lia|].
  split; [now apply filter_encode|apply bits_int; [lia|exact H]].
Qed.

(** what binary() and from_binary() do for one request *)
Definition coded {T} (l : list field) (n : nat) (bin : res str) (from : str -> res T) (init : str -> res T) (u : str) : Prop :=
  in_range l /\ total_bits l = n /\ bin = Ok (tobits l) /\ forall extra, from (tobits l ++ extra) = init (ascii_form u).

Lemma total_cons w v l : total_bits ((w, v) :: l) = (w + total_bits l)%nat.
Proof. reflexivity. Qed.
Lemma slice_tag1 h (f p : list field) (c : list field) i : total_bits (h :: f) = i ->
  sl i (i + total_bits p) (tobits (h :: f ++ p ++ c)) = tobits p.
Proof. intros A. change (h :: f ++ p ++ c) with ((h :: f) ++ p ++ c). apply slice_tag; [exact A|]. lia. Qed.

Lemma ascii_lit (l : string) : forallb (fun c => c <? 128) (lit l) = true -> ascii_form (lit l) = lit l.
Proof. intros H. apply ascii_form_id. intros c I. apply (forallb_In _ _ _ H) in I. now apply N.ltb_lt. Qed.

(** header, three-bit filter, one field group of [n1] bits, the rest *)
Lemma slices3 v f (p c : list field) : let t := tobits ((8%nat, v) :: [(3%nat, f)] ++ p ++ c) in
  sl 8 11 t = tobits [(3%nat, f)] /\ (forall j, (11 + total_bits p = j)%nat -> sl 11 j t = tobits p /\ skipn j t = tobits c).
Proof.
  cbv zeta. split.
  - apply (slice_tag [(8%nat, v)] [(3%nat, f)] (p ++ c)); reflexivity.
  - intros j <-. split.
    + apply (slice_tag [(8%nat, v); (3%nat, f)] p c); reflexivity.
    + change ((8%nat, v) :: [(3%nat, f)] ++ p ++ c) with ([(8%nat, v); (3%nat, f)] ++ p ++ c).
      rewrite app_assoc. apply skip_tag. rewrite total_app. reflexivity.
Qed.

Ltac nomatch i := let u := fresh in let H := fresh in intros u H; unfold i; cbn [uri_re] in H; rewrite H; reflexivity.

