(** Decoding a numeric tag and encoding the result again. *)
From Coq Require Import String.
From Verif.Model Require Import Py Re Regexes Common Base.
From Verif.Model Require Import Adi Cpi Gdti Giai Gid Grai Gsrn Gsrnp Itip Sgcn Sgln Sgtin Sscc Usdod Parsers.
From Verif.Spec Require Import Spec SpecEscapes SpecGrammar SpecSchemes SpecTags SpecLayout SpecCoding.
From Verif.Proofs Require Import Basics Num ReLemmas Uni Escapes Codecs Codecs2 Partition Grammar Ctor CtorA CtorB CtorC CtorAll TagUri TagFits Layout CodecSpec BinC BinD Decode DecodeA DecodeB.

(** the reference field is cleared when it holds no digit *)
Definition again (width tot : nat) (p : str) : str :=
  if (12 - N.to_nat (sval 2 (firstn 3 p)) =? tot)%nat then firstn (3 + prefix_bits tot) p ++ repeat c_0 (width - prefix_bits tot) else p.

Lemma part_again rows width tot p (unp : bool) s : rows_std rows width tot = true -> (unp = true -> (12 < tot)%nat) ->
  forallb is_bit p = true -> length p = (3 + width)%nat -> decode_partition_table p (table_P rows) unp false false = Ok s ->
  exists C D, s = C ++ [c_dot] ++ D /\ forallb is_digit C = true /\ forallb is_digit D = true /\
    encode_partition_table C D (table_L rows) false false = Ok (again width tot p).
Proof.
  intros R U B L H. pose proof R as R0. apply std_small in R0 as (R1 & R2 & R3).
  rewrite (decode_num rows p unp width) in H by (exact R1 || exact B || exact (std_w _ _ _ R) || lia).
  destruct (lookup _ _) as [r|] eqn:E; [|discriminate H]. cbn zeta in H.
  apply lookup_P in E as (I & P & LL & F); [|exact R1].
  destruct F as (F1 & F2 & F3 & F4 & F5). 
  destruct (std_row rows width tot (rL r) R F2) as (r' & I' & A1 & A2 & A3 & A4 & A5 & A6 & A7 & A8 & A9).
  assert (r' = r) by congruence. subst r'. clear A1 A3 A4.
  destruct (_ && _) eqn:Q; [|discriminate H]. apply andb_true_iff in Q as [Q1 Q2]. apply N.ltb_lt in Q1. injection H as <-.
  set (c := sval 2 (sl 3 (3 + rM r) p)) in *. set (d := sval 2 (sl (3 + rM r) (3 + rM r + rN r) p)) in *.
  assert (Bc : sl 3 (3 + rM r) p = bits (rM r) c).
  { unfold c. rewrite <- (bits_sval (sl 3 (3 + rM r) p)) at 1 by now apply forallb_sl. f_equal. rewrite length_sl. lia. }
  assert (Bd : sl (3 + rM r) (3 + rM r + rN r) p = bits (rN r) d).
  { unfold d. rewrite <- (bits_sval (sl (3 + rM r) (3 + rM r + rN r) p)) at 1 by now apply forallb_sl. f_equal. rewrite length_sl. lia. }
  assert (Bp : firstn 3 p = bits 3 (partition_value (rL r))).
  { rewrite <- (bits_sval (firstn 3 p)) by now apply forallb_firstn. rewrite firstn_length, L. replace (Nat.min 3 (3 + width)) with 3%nat by lia. f_equal. rewrite <- A5. lia. }
  assert (dN : d < 2 ^ N.of_nat (rN r)).
  { unfold d. pose proof (sval_bound 2 (sl (3 + rM r) (3 + rM r + rN r) p)) as Y.
    replace (N.of_nat (rN r)) with (N.of_nat (length (sl (3 + rM r) (3 + rM r + rN r) p))) by (rewrite length_sl; lia). apply Y. apply forallb_bit_in_base2. now apply forallb_sl. }
  assert (Pp : p = bits 3 (partition_value (rL r)) ++ bits (rM r) c ++ bits (rN r) d).
  { rewrite <- Bp, <- Bc, <- Bd. unfold sl. rewrite <- (firstn_skipn 3 p) at 1. f_equal.
    replace (3 + rM r - 3)%nat with (rM r) by lia. rewrite <- (firstn_skipn (rM r) (skipn 3 p)) at 1. f_equal.
    rewrite skipn_skipn'. rewrite firstn_all2; [reflexivity|]. rewrite skipn_length. lia. }
  assert (T : (12 - N.to_nat (sval 2 (firstn 3 p)))%nat = rL r).
  { rewrite Bp, sval_bits; unfold partition_value; [lia|]. apply N.lt_le_trans with 7; [lia|]. cbn. lia. }
  exists (padl c_0 (rL r) (ndec c)), (if (rK r =? 0)%nat then [] else padl c_0 (if unp then 0%nat else rK r) (ndec d)).
  split; [reflexivity|].
  assert (DC : forallb is_digit (padl c_0 (rL r) (ndec c)) = true) by (apply forallb_padl; [reflexivity|apply ndec_digits]).
  assert (DD : forallb is_digit (if (rK r =? 0)%nat then [] else padl c_0 (if unp then 0%nat else rK r) (ndec d)) = true)
    by (destruct (rK r =? 0)%nat; [reflexivity|apply forallb_padl; [reflexivity|apply ndec_digits]]).
  split; [exact DC|]. split; [exact DD|].
  assert (LC : length (padl c_0 (rL r) (ndec c)) = rL r) by (rewrite length_padl; pose proof (ndec_length c (rL r) ltac:(lia) Q1); lia).
  assert (VC : decimal (padl c_0 (rL r) (ndec c)) = c) by (rewrite decimal_ascii by exact DC; rewrite sval_padl0; apply ndec_spec).
  rewrite (std_encode rows width tot); [| exact R | | | | |].
  - f_equal. unfold partition_fields. rewrite LC, VC. unfold tobits. cbn [flat_map fst snd]. rewrite app_nil_r, <- A7, <- A6.
    unfold again. rewrite T. destruct (Nat.eqb_spec (rL r) tot) as [Et|Et].
    + replace (rK r =? 0)%nat with true by (symmetry; apply Nat.eqb_eq; lia). rewrite <- Et, <- A7, <- A6.
      assert (X : firstn (3 + rM r) p = bits 3 (partition_value (rL r)) ++ bits (rM r) c).
      { rewrite Pp at 1. rewrite app_assoc, firstn_app, app_length, !length_bits, Nat.sub_diag. cbn [firstn].
        rewrite app_nil_r. apply firstn_all2. rewrite app_length, !length_bits. lia. }
      rewrite X. change (decimal []) with 0. rewrite bits_0. now rewrite <- app_assoc.
    + replace (rK r =? 0)%nat with false by (symmetry; apply Nat.eqb_neq; lia).
      rewrite decimal_ascii. 2:{ apply forallb_padl; [reflexivity|apply ndec_digits]. }
      rewrite sval_padl0. rewrite (proj1 (ndec_spec d)). symmetry. exact Pp.
  - split; [apply digits_iff, forallb_digit_d, DC|lia].
  - apply digits_iff, forallb_digit_d, DD.
  - destruct (rK r =? 0)%nat; [apply (intable_le _ 0); cbn; lia|]. pose proof (intable_ndec d (rN r) dN ltac:(lia)) as J.
    unfold intable, int_max_str_digits in *. rewrite length_padl. destruct unp; lia.
  - rewrite LC. destruct (Nat.eqb_spec (rK r) 0) as [Ek|Ek]; [split; [lia|reflexivity]|].
    split; [|lia]. intros X. exfalso. apply (f_equal (@length N)) in X. rewrite length_padl in X. pose proof (ndec_nonempty d). destruct (ndec d); [contradiction|cbn in X; lia].
  - rewrite LC, <- A7. destruct (rK r =? 0)%nat.
    + change (decimal []) with 0. apply N.neq_0_lt_0, N.pow_nonzero. lia.
    + rewrite decimal_ascii by (apply forallb_padl; [reflexivity|apply ndec_digits]). rewrite sval_padl0, (proj1 (ndec_spec d)). exact dN.
Qed.

Lemma dot_split a b a' b' : ~ In c_dot a -> ~ In c_dot a' -> a ++ [c_dot] ++ b = a' ++ [c_dot] ++ b' -> a = a' /\ b = b'.
Proof.
  revert a'. induction a as [|x a IH]; intros [|x' a'] H H' E; cbn in E.
  - injection E as <-. auto.
  - injection E as E _. exfalso. apply H'. left. congruence.
  - injection E as E _. exfalso. apply H. left. congruence.
  - injection E as <- E. destruct (IH a') as [-> ->]; auto; intros I; [apply H|apply H']; now right.
Qed.
Lemma dot_split_last a b a' b' : ~ In c_dot b -> ~ In c_dot b' -> a ++ [c_dot] ++ b = a' ++ [c_dot] ++ b' -> a = a' /\ b = b'.
Proof.
  intros H H' E. apply (f_equal (@rev N)) in E. rewrite !rev_app_distr, <- !app_assoc in E. cbn [rev app] in E.
  change (rev b ++ [c_dot] ++ rev a = rev b' ++ [c_dot] ++ rev a') in E.
  apply dot_split in E as [E1 E2]; [|rewrite <- in_rev; assumption..].
  apply (f_equal (@rev N)) in E1, E2. now rewrite !rev_involutive in E1, E2.
Qed.
Lemma digit_no_dot s : forallb is_digit s = true -> ~ In c_dot s.
Proof. intros H. apply digits_no_dot, forallb_digit_d, H. Qed.
Lemma ndec_no_dot n : ~ In c_dot (ndec n).
Proof. apply digit_no_dot, ndec_digits. Qed.
Lemma digits_spec_no_dot s : digits s -> ~ In c_dot s.
Proof. intros H. apply digits_no_dot, digits_iff, H. Qed.
Lemma numeral_no_dot s : numeral s -> ~ In c_dot s.
Proof. intros H. apply numeral_iff in H. apply numeral_digits in H as [D _]. now apply digits_no_dot. Qed.

(** two and three dotted pieces *)
Lemma dots2 pre a b a' b' : ~ In c_dot a -> ~ In c_dot a' -> pre ++ a ++ [c_dot] ++ b = pre ++ a' ++ lit "." ++ b' -> a' = a /\ b' = b.
Proof. intros H H' E. apply app_inv_head in E. apply dot_split in E as [-> ->]; auto. Qed.
Lemma dots3 pre a b c a' b' c' : ~ In c_dot a -> ~ In c_dot b -> ~ In c_dot a' -> ~ In c_dot b' ->
  pre ++ (a ++ [c_dot] ++ b) ++ [c_dot] ++ c = pre ++ a' ++ lit "." ++ b' ++ lit "." ++ c' -> a' = a /\ b' = b /\ c' = c.
Proof.
  intros H1 H2 H3 H4 E. rewrite <- !app_assoc in E. apply app_inv_head in E. apply dot_split in E as [-> E]; auto. apply dot_split in E as [-> ->]; auto.
Qed.

Lemma again_id width tot p : (12 < tot)%nat -> again width tot p = p.
Proof. intros H. unfold again. destruct (Nat.eqb_spec (12 - N.to_nat (sval 2 (firstn 3 p))) tot); [lia|reflexivity]. Qed.
Lemma number_again p w : length p = w -> (1 <= w <= 4300)%nat -> forallb is_bit p = true -> str_to_binary (ndec (sval 2 p)) w = Ok p.
Proof.
  intros L W B. rewrite str_to_binary_spec; [|apply ndec_nonempty|apply ndec_digits| |lia|].
  - rewrite (proj1 (ndec_spec _)). rewrite <- L. now rewrite bits_sval.
  - apply (intable_ndec _ w); [|lia]. rewrite <- L. apply sval_bound. now apply forallb_bit_in_base2.
  - rewrite (proj1 (ndec_spec _)), <- L. apply sval_bound. now apply forallb_bit_in_base2.
Qed.
Lemma filter_again p w : length p = w -> (1 <= w <= 4300)%nat -> forallb is_bit p = true -> str_to_binary (filter_value (sval 2 p)) w = Ok p.
Proof. apply number_again. Qed.

Definition again_body (k : coding) (r : str) : str :=
  match k with
  | K_SSCC_96 | K_GSRN_96 | K_GSRNP_96 => firstn 61 r ++ repeat c_0 24
  | K_SGLN_96 | K_GDTI_96 | K_SGCN_96 => again 41 12 (firstn 44 r) ++ skipn 44 r
  | K_GRAI_96 => again 44 12 (firstn 47 r) ++ skipn 47 r
  | _ => r
  end.

Lemma cage_codes (p : str) n : forallb is_bit p = true -> length p = (8 * n)%nat -> p = text8 (map (sval 2) (chunks 8 p)) /\ length (chunks 8 p) = n /\
  forall i, (i < n)%nat -> nth i (map (sval 2) (chunks 8 p)) 0 = sval 2 (firstn 8 (skipn (8 * i) p)).
Proof.
  revert p. induction n as [|n IH]; intros p B L.
  - destruct p; [|discriminate L]. repeat split. intros i Hi. lia.
  - rewrite <- (firstn_skipn 8 p). set (a := firstn 8 p). set (q := skipn 8 p).
    assert (La : length a = 8%nat) by (unfold a; rewrite firstn_length; lia).
    assert (Lq : length q = (8 * n)%nat) by (unfold q; rewrite skipn_length; lia).
    assert (Ba : forallb is_bit a = true) by now apply forallb_firstn.
    assert (Bq : forallb is_bit q = true) by now apply forallb_skipn.
    destruct (IH q Bq Lq) as (E1 & E2 & E3). rewrite chunks_app by (lia || exact La). cbn [map length].
    split; [|split; [now rewrite E2|]].
    + unfold text8. cbn [flat_map]. rewrite <- La at 1. rewrite bits_sval by exact Ba. f_equal. exact E1.
    + intros [|i] Hi.
      * cbn [nth Nat.mul Nat.add skipn]. f_equal. rewrite firstn_app, La, Nat.sub_diag. rewrite (firstn_O q), app_nil_r. symmetry. apply firstn_all2. lia.
      * cbn [nth]. rewrite E3 by lia. f_equal. f_equal. replace (8 * S i)%nat with (8 + 8 * i)%nat by lia.
        rewrite <- skipn_skipn'. f_equal. rewrite skipn_app, La, Nat.sub_diag. rewrite (skipn_O q). rewrite skipn_all2 by lia. reflexivity.
Qed.
Lemma blank_front vs : length vs = 6%nat -> (forall i, (i < 6)%nat -> nth i vs 0 = 32 -> i = 0%nat) ->
  forall cage, cage = filter (fun c => negb (c =? c_space)) vs -> (5 <= length cage)%nat -> padl c_space 6 cage = vs.
Proof.
  intros L H cage E Lc. destruct vs as [|a vs]; [discriminate L|]. cbn [length] in L. injection L as L.
  assert (Q : filter (fun c => negb (c =? c_space)) vs = vs).
  { assert (forall c, In c vs -> c <> 32).
    { intros c I ->. apply (In_nth _ _ 0) in I as (i & Li & Ei). specialize (H (S i)). cbn [nth] in H. specialize (H ltac:(lia) Ei). discriminate. }
    clear - H0. induction vs as [|c vs IH]; [reflexivity|]. cbn [filter]. destruct (N.eqb_spec c c_space) as [->|]; [exfalso; apply (H0 c_space); [now left|reflexivity]|].
    cbn [negb]. f_equal. apply IH. intros d I. apply H0. now right. }
  cbn [filter] in E. destruct (N.eqb_spec a c_space) as [->|]; cbn [negb] in E; rewrite Q in E; subst cage.
  - unfold padl. rewrite L. reflexivity.
  - apply padl_ge. cbn [length]. lia.
Qed.
(** * The theorem *)
Lemma head_split k b w : firstn 8 b = tag_header k -> firstn (8 + w) b = tag_header k ++ sl 8 (8 + w) b.
Proof.
  intros H. rewrite <- H. unfold sl. replace (8 + w - 8)%nat with w by lia.
  rewrite <- (firstn_skipn 8 b) at 1. assert (L : length (firstn 8 b) = 8%nat) by (rewrite H; destruct k; reflexivity).
  rewrite firstn_app, L. replace (8 + w - 8)%nat with w by lia. f_equal. rewrite firstn_all2 by lia. reflexivity.
Qed.
Lemma sl_head w (b : str) n : (8 + w <= n)%nat -> (n <= length b)%nat -> length (sl 8 (8 + w) b) = w.
Proof. intros. rewrite length_sl. lia. Qed.

Lemma slice_cut {A} (b : list A) n m i w k : (i + w <= k)%nat -> (m + k <= n)%nat ->
  firstn w (skipn i (firstn k (skipn m (firstn n b)))) = firstn w (skipn (m + i) b).
Proof.
  intros H1 H2. rewrite (skipn_firstn_comm m n), firstn_firstn, skipn_firstn_comm, firstn_firstn, skipn_skipn'. f_equal. lia.
Qed.
Lemma ok_inj {A} (a b : A) : Ok a = Ok b -> b = a.
Proof. intros H. now injection H. Qed.
Theorem reencode_eq k b e : numeric_coding k -> forallb is_bit b = true -> firstn 8 b = tag_header k ->
  from_binary_of (tag_class k) b = Ok e -> writable_again k b ->
  exists q, req_epc q = e /\ req_kind q = k /\
    req_filter q = match filter_width k with O => None | w => Some (sval 2 (sl 8 (8 + w) b)) end /\
    req_binary q = Ok (firstn (8 + filter_width k) b ++ again_body k (after_filter k b)).
Proof.
  intros [Nk Sk] B H E Wr. rewrite (from_binary_body k b B H) in E. destruct (too_short k b) eqn:T; [discriminate E|].
  pose proof (after_filter_bit k b B) as Br.
  destruct (tag_size k) as [n|] eqn:Sz; [|contradiction]. clear Sk. pose proof (after_filter_length k n b Sz T) as Lr.
  assert (Lb : (n <= length b)%nat) by (unfold too_short in T; rewrite Sz in T; now apply Nat.ltb_ge).
  rewrite (head_split k b) by exact H. pose proof (sl_head (filter_width k) b n) as Lf.
  assert (Bf : forallb is_bit (sl 8 (8 + filter_width k) b) = true) by now apply forallb_sl.
  assert (Rd : after_filter k b = skipn (8 + filter_width k) (firstn n b)) by (unfold after_filter, cut; now rewrite Sz).
  set (r := after_filter k b) in *. set (fb := sl 8 (8 + filter_width k) b) in *.
  destruct (k_body k r) as [s|] eqn:K; [|discriminate E]. cbn [bind] in E.
  Ltac pa rows w tot G C D DC DD EN := apply (part_again rows w tot) in G as (C & D & -> & DC & DD & EN); [|vm_compute; reflexivity|(discriminate || (intros _; lia))|bits|rewrite ?firstn_length; lia].
  Ltac nz := apply nonempty_len; rewrite ?firstn_length, ?skipn_length, ?length_sl; lia.
  Ltac ln := rewrite ?firstn_length, ?skipn_length, ?length_sl; lia.
  destruct k; try discriminate Nk; try discriminate Sz; injection Sz as <-; cbn [tag_class init_of filter_width k_body again_body Nat.sub Nat.add] in *;
    apply lift_ok in E as (x & I & ->); try specialize (Lf ltac:(lia) Lb).
  - (* gdti *) apply dotted2_ok in K as (g & v & G & V & ->). pa gdti_rows 41%nat 12%nat G C D DC DD EN. 
    rewrite numeric_text_bits in V by (bits || nz). apply ok_inj in V. subst.
    apply gdti_iff in I as (U & _). destruct U as (U & (CP & _) & IT & _).
    apply dots3 in U as (U1 & U2 & U3); auto using digit_no_dot, digits_spec_no_dot.
    exists (T_GDTI x GDTI_96 (sval 2 fb)). repeat split. cbn [req_binary]. unfold gdti_binary.
    rewrite (filter_again fb 3 Lf) by (exact Bf || lia). cbn [bind]. rewrite U1, U2, U3.
    change gdti_table_L with (table_L gdti_rows). rewrite EN. cbn [bind]. rewrite (number_again (skipn 44 r) 41) by (bits || ln || lia). cbn [bind].
    rewrite <- !app_assoc. reflexivity.
  - (* gsrn *) pa gsrn_rows 58%nat 17%nat K C D DC DD EN. rewrite again_id in EN by lia.
    apply gsrn_iff in I as (U & _). destruct U as (U & (CP & _) & IT & _).
    apply dots2 in U as (U1 & U2); auto using digit_no_dot, digits_spec_no_dot.
    exists (T_GSRN x GSRN_96 (sval 2 fb)). repeat split. cbn [req_binary]. unfold gsrn_binary.
    rewrite (filter_again fb 3 Lf) by (exact Bf || lia). cbn [bind]. rewrite U1, U2.
    change gsrn_table_L with (table_L gsrn_rows). rewrite EN. cbn [bind]. rewrite <- !app_assoc. reflexivity.
  - (* gsrnp *) pa gsrnp_rows 58%nat 17%nat K C D DC DD EN. rewrite again_id in EN by lia.
    apply gsrnp_iff in I as (U & _). destruct U as (U & (CP & _) & IT & _).
    apply dots2 in U as (U1 & U2); auto using digit_no_dot, digits_spec_no_dot.
    exists (T_GSRNP x GSRNP_96 (sval 2 fb)). repeat split. cbn [req_binary]. unfold gsrnp_binary.
    rewrite (filter_again fb 3 Lf) by (exact Bf || lia). cbn [bind]. rewrite U1, U2.
    change gsrnp_table_L with (table_L gsrnp_rows). rewrite EN. cbn [bind]. rewrite <- !app_assoc. reflexivity.
  - (* usdod *) apply dotted2_ok in K as (g & v & G & V & ->).
    rewrite numeric_text_bits in V by (bits || nz). apply ok_inj in V. subst.
    rewrite decode_cage_whole in G by (bits || (rewrite firstn_length, Lr; reflexivity)). apply ok_inj in G. subst. rewrite replace_space in I.
    apply usdod_iff in I as (U & _). destruct U as (U & CT & NU & _).
    change (scheme_prefix C_USDOD) with (lit "urn:epc:id:usdod:") in U. apply app_inv_head in U.
    apply dot_split_last in U as (U1 & U2); auto using ndec_no_dot, numeral_no_dot.
    destruct (cage_codes (firstn 48 r) 6) as (P1 & P2 & P3); [bits|ln|].
    set (vs := map (sval 2) (chunks 8 (firstn 48 r))) in *.
    exists (T_USDOD x USDOD_96 (sval 2 fb)). repeat split. cbn [req_binary]. unfold usdod_binary.
    rewrite (filter_again fb 4 Lf) by (exact Bf || lia). cbn [bind].
    rewrite <- U2, (number_again (skipn 48 r) 36) by (bits || ln || lia). cbn [bind].
    pose proof CT as CT0. apply cage_text_iff in CT0 as [CT2 CT1].
    rewrite (proj1 (cage_roundtrip _ CT1)).
    rewrite (blank_front vs); [| | |symmetry; exact U1|lia].
    + rewrite <- P1, <- !app_assoc. do 3 f_equal. apply firstn_skipn.
    + unfold vs. now rewrite map_length.
    + intros i Hi V. apply Wr; [exact Hi|]. rewrite P3 in V by exact Hi. rewrite <- V. rewrite binary_number_sval by (apply forallb_firstn, forallb_skipn, B). f_equal.
      rewrite Rd. symmetry. apply (slice_cut b 96 12 (8 * i) 8 48); lia.
  - (* sgtin *) apply dotted2_ok in K as (g & v & G & V & ->). pa sgtin_rows 44%nat 13%nat G C D DC DD EN. rewrite again_id in EN by lia. 
    rewrite numeric_text_bits in V by (bits || nz). apply ok_inj in V. subst.
    apply sgtin_iff in I as (U & _). destruct U as (U & (CP & _) & IT & _).
    apply dots3 in U as (U1 & U2 & U3); auto using digit_no_dot, digits_spec_no_dot.
    exists (T_SGTIN x SGTIN_96 (sval 2 fb)). repeat split. cbn [req_binary]. unfold sgtin_binary.
    rewrite (filter_again fb 3 Lf) by (exact Bf || lia). cbn [bind]. rewrite U1, U2, U3.
    change sgtin_table_L with (table_L sgtin_rows). rewrite EN. cbn [bind]. rewrite (number_again (skipn 47 r) 38) by (bits || ln || lia). cbn [bind].
    rewrite <- !app_assoc. do 3 f_equal. apply firstn_skipn.
  - (* sscc *) pa sscc_rows 58%nat 17%nat K C D DC DD EN. rewrite again_id in EN by lia.
    apply sscc_iff in I as (U & _). destruct U as (U & (CP & _) & IT & _).
    apply dots2 in U as (U1 & U2); auto using digit_no_dot, digits_spec_no_dot.
    exists (T_SSCC x SSCC_96 (sval 2 fb)). repeat split. cbn [req_binary]. unfold sscc_binary.
    rewrite (filter_again fb 3 Lf) by (exact Bf || lia). cbn [bind]. rewrite U1, U2.
    change sscc_table_L with (table_L sscc_rows). rewrite EN. cbn [bind]. rewrite <- !app_assoc. reflexivity.
  - (* sgln *) apply dotted2_ok in K as (g & v & G & V & ->). pa sgln_rows 41%nat 12%nat G C D DC DD EN. 
    rewrite numeric_text_bits in V by (bits || nz). apply ok_inj in V. subst.
    apply sgln_iff in I as (U & _). destruct U as (U & (CP & _) & IT & _).
    apply dots3 in U as (U1 & U2 & U3); auto using digit_no_dot, digits_spec_no_dot.
    exists (T_SGLN x SGLN_96 (sval 2 fb)). repeat split. cbn [req_binary]. unfold sgln_binary.
    rewrite (filter_again fb 3 Lf) by (exact Bf || lia). cbn [bind]. rewrite U1, U2, U3.
    change sgln_table_L with (table_L sgln_rows). rewrite EN. cbn [bind]. rewrite (number_again (skipn 44 r) 41) by (bits || ln || lia). cbn [bind].
    rewrite <- !app_assoc. reflexivity.
  - (* grai *) apply dotted2_ok in K as (g & v & G & V & ->). pa grai_rows 44%nat 12%nat G C D DC DD EN. 
    rewrite numeric_text_bits in V by (bits || nz). apply ok_inj in V. subst.
    apply grai_iff in I as (U & _). destruct U as (U & (CP & _) & IT & _).
    apply dots3 in U as (U1 & U2 & U3); auto using digit_no_dot, digits_spec_no_dot.
    exists (T_GRAI x GRAI_96 (sval 2 fb)). repeat split. cbn [req_binary]. unfold grai_binary.
    rewrite (filter_again fb 3 Lf) by (exact Bf || lia). cbn [bind]. rewrite U1, U2, U3.
    change grai_table_L with (table_L grai_rows). rewrite EN. cbn [bind]. rewrite (number_again (skipn 47 r) 38) by (bits || ln || lia). cbn [bind].
    rewrite <- !app_assoc. reflexivity.
  - (* giai *) pa giai_rows_96 82%nat 25%nat K C D DC DD EN. rewrite again_id in EN by lia.
    apply giai_iff in I as ((ig & U) & _). destruct U as (U & (CP & _) & CA & NC & _ & IG).
    apply dots2 in U as (U1 & U2); auto using digit_no_dot, digits_spec_no_dot.
    assert (ig = []) as ->.
    { destruct IG as [->|(i & -> & _)]; [reflexivity|]. exfalso. assert (X : In 58 D) by (rewrite <- U2; apply in_or_app; right; now left).
      rewrite forallb_forall in DD. apply DD in X. discriminate. }
    rewrite app_nil_r in U2.
    exists (T_GIAI x GIAI_96 (sval 2 fb)). repeat split. cbn [req_binary]. unfold giai_binary.
    rewrite (filter_again fb 3 Lf) by (exact Bf || lia). cbn [bind]. rewrite U1, U2.
    change giai_table_L_96 with (table_L giai_rows_96). rewrite EN. cbn [bind]. rewrite <- !app_assoc. reflexivity.
  - (* gid *) apply dotted2_ok in K as (m & v & M & V & ->). apply dotted2_ok in V as (o & v' & O & V & ->).
    rewrite numeric_text_bits in M, O, V by (bits || nz). apply ok_inj in M. subst. apply ok_inj in O. subst. apply ok_inj in V. subst.
    apply gid_iff in I as (U & _). destruct U as (U & N1 & N2 & _).
    change (scheme_prefix C_GID) with (lit "urn:epc:id:gid:") in U. apply app_inv_head in U.
    apply dot_split in U as [U1 U]; auto using ndec_no_dot, numeral_no_dot. apply dot_split in U as [U2 U3]; auto using ndec_no_dot, numeral_no_dot.
    exists (T_GID x GID_96). repeat split. cbn [req_binary]. unfold gid_binary. rewrite <- U1, <- U2, <- U3.
    rewrite (number_again (firstn 28 r) 28), (number_again (sl 28 52 r) 24), (number_again (skipn 52 r) 36) by (bits || ln || lia). cbn [bind].
    rewrite <- !app_assoc. replace fb with (@nil N); [|symmetry; apply length_zero_iff_nil; exact Lf].
    f_equal. change (gid_header GID_96) with (tag_header K_GID_96). f_equal. cbn [app].
    rewrite <- (firstn_skipn 28 r) at 4. f_equal. unfold sl. cbn [Nat.sub]. rewrite <- (firstn_skipn 24 (skipn 28 r)) at 2. f_equal. now rewrite skipn_skipn'.
  - (* cpi *) apply dotted2_ok in K as (g & v & G & V & ->). pa cpi_rows_96 51%nat 15%nat G C D DC DD EN. rewrite again_id in EN by lia. 
    rewrite numeric_text_bits in V by (bits || nz). apply ok_inj in V. subst.
    apply cpi_iff in I as (U & _). destruct U as (U & (CP & _) & IT & _).
    apply dots3 in U as (U1 & U2 & U3); auto using digit_no_dot, digits_spec_no_dot.
    exists (T_CPI x CPI_96 (sval 2 fb)). repeat split. cbn [req_binary]. unfold cpi_binary.
    rewrite (filter_again fb 3 Lf) by (exact Bf || lia). cbn [bind]. rewrite U1, U2, U3.
    change cpi_table_L_96 with (table_L cpi_rows_96). rewrite EN. cbn [bind]. rewrite (number_again (skipn 54 r) 31) by (bits || ln || lia). cbn [bind].
    rewrite <- !app_assoc. do 3 f_equal. apply firstn_skipn.
    destruct IT as (t & _ & T6 & ->). intros X. unfold escape6 in X. apply in_flat_map in X as (c & X & Y). apply T6 in X.
    destruct (N.eqb_spec c 35) as [->|]; [now repeat destruct Y as [Y|Y]|]. destruct (N.eqb_spec c 47) as [->|]; [now repeat destruct Y as [Y|Y]|].
    destruct Y as [Y|[]]. unfold c_dot in Y. lia.
  - (* sgcn *) apply dotted2_ok in K as (g & v & G & V & ->). pa sgcn_rows 41%nat 12%nat G C D DC DD EN.
    rewrite decode_numeric_bits in V by (bits || nz || (apply (intable_le _ 100); [ln|lia])). destruct (ndec (sval 2 (skipn 44 r))) as [|c0 [|d0 s0]] eqn:ED; try discriminate V.
    destruct (N.eqb_spec c0 c_1) as [->|]; [|discriminate V]. apply ok_inj in V. subst v.
    apply sgcn_iff in I as (U & _). destruct U as (U & (CP & _) & IT & _ & SD & SL).
    apply dots3 in U as (U1 & U2 & U3); auto using digit_no_dot, digits_spec_no_dot. rewrite U3 in SL.
    assert (DS : forallb is_digit (d0 :: s0) = true).
    { pose proof (ndec_digits (sval 2 (skipn 44 r))) as Q. rewrite ED in Q. cbn [forallb] in Q. now apply andb_true_iff in Q as [_ Q]. }
    assert (VS : num1 (d0 :: s0) = sval 2 (skipn 44 r)).
    { rewrite <- decimal_1. rewrite <- (proj1 (ndec_spec (sval 2 (skipn 44 r)))), ED. apply decimal_ascii. change (forallb is_digit (c_1 :: d0 :: s0) = true). cbn [forallb] in *. exact DS. }
    exists (T_SGCN x SGCN_96 (sval 2 fb)). repeat split. cbn [req_binary]. unfold sgcn_binary.
    rewrite (filter_again fb 3 Lf) by (exact Bf || lia). cbn [bind]. rewrite U1, U2, U3.
    change sgcn_table_L with (table_L sgcn_rows). rewrite EN. cbn [bind].
    rewrite encode_numeric_ok; [|apply forallb_digit_d, DS|apply (intable_le _ 13); cbn [length] in *; lia|].
    2:{ apply N.le_lt_trans with (2 * 10 ^ 12); [|reflexivity]. apply N.mul_le_mono_l, N.pow_le_mono_r; lia. }
    cbn [bind]. rewrite VS. assert (L41 : length (skipn 44 r) = 41%nat) by ln. rewrite <- (bits_sval (skipn 44 r)) at 2 by bits. rewrite L41.
    rewrite <- !app_assoc. reflexivity.
  - (* itip *) apply dotted2_ok in K as (g & v & G & V & ->). apply dotted2_ok in V as (pc & v' & Pc & V & ->). apply dotted2_ok in V as (tt' & v & Tt & V & ->).
    pa itip_rows 44%nat 13%nat G C D DC DD EN. rewrite again_id in EN by lia.
    rewrite numeric_text_bits in V by (bits || nz). apply ok_inj in V. subst v.
    assert (W7 : forall q, q = sl 47 54 r \/ q = sl 54 61 r -> q <> [] /\ forallb is_bit q = true /\ length q = 7%nat).
    { intros q [->| ->]; (split; [nz|]); (split; [bits|ln]). }
    assert (F7 : forall q z, q = sl 47 54 r \/ q = sl 54 61 r -> decode_fixed_width_integer q = Ok z -> sval 2 q < 99 ->
       forallb is_digit z = true /\ encode_fixed_width_integer z 7 = Ok q).
    { intros q z Q Z L99. destruct (W7 q Q) as (Q1 & Q2 & Q3). rewrite decode_fixed_bits in Z by (assumption || (apply (intable_le _ 7); lia)). rewrite Q3 in Z.
      destruct (_ <=? _) in Z; [discriminate Z|]. apply ok_inj in Z. subst z. change (fixed_width_digits 7) with 2%nat.
      assert (DZ : forallb is_digit (padl c_0 2 (ndec (sval 2 q))) = true) by (apply forallb_padl; [reflexivity|apply ndec_digits]).
      assert (VZ : decimal (padl c_0 2 (ndec (sval 2 q))) = sval 2 q) by (rewrite decimal_ascii, sval_padl0 by exact DZ; apply ndec_spec).
      split; [exact DZ|]. rewrite encode_fixed_ok; [| |apply forallb_digit_d, DZ| |lia|].
      - rewrite VZ, <- Q3. now rewrite bits_sval.
      - apply nonempty_len. rewrite length_padl. lia.
      - apply (intable_le _ 2); [|lia]. rewrite length_padl. pose proof (ndec_length (sval 2 q) 2 ltac:(lia)) as Y. change (10 ^ N.of_nat 2) with 100 in Y. lia.
      - rewrite VZ. change (10 ^ N.of_nat (fixed_width_digits 7)) with 100. lia. }
    destruct Wr as [W1 W2].
    assert (SL : forall i, (i + 7 <= 99)%nat -> firstn 7 (skipn i r) = firstn 7 (skipn (11 + i) b)).
    { intros i Hi. rewrite Rd, <- (slice_cut b 110 11 i 7 99) by lia.
      now rewrite (firstn_all2 (n := 99) (skipn 11 (firstn 110 b))) by (rewrite skipn_length, firstn_length; lia). }
    assert (S1 : sval 2 (sl 47 54 r) < 99).
    { rewrite binary_number_sval in W1 by (apply forallb_firstn, forallb_skipn, B). unfold sl. cbn [Nat.sub]. rewrite SL by lia. exact W1. }
    assert (S2 : sval 2 (sl 54 61 r) < 99).
    { rewrite binary_number_sval in W2 by (apply forallb_firstn, forallb_skipn, B). unfold sl. cbn [Nat.sub]. rewrite SL by lia. exact W2. }
    destruct (F7 _ _ (or_introl eq_refl) Pc S1) as [D1 E1]. destruct (F7 _ _ (or_intror eq_refl) Tt S2) as [D2 E2].
    apply itip_iff in I as (U & _). destruct U as (U & (CP & _) & IT & PI & TO & _).
    change (scheme_prefix C_ITIP) with (lit "urn:epc:id:itip:") in U. apply app_inv_head in U. rewrite <- !app_assoc in U.
    apply dot_split in U as [U1 U]; auto using digit_no_dot, digits_spec_no_dot.
    apply dot_split in U as [U2 U]; auto using digit_no_dot, digits_spec_no_dot.
    apply dot_split in U as [U3 U]; auto using digit_no_dot, digits_spec_no_dot.
    apply dot_split in U as [U4 U5]; auto using digit_no_dot, digits_spec_no_dot.
    exists (T_ITIP x ITIP_110 (sval 2 fb)). repeat split. cbn [req_binary]. unfold itip_binary.
    rewrite (filter_again fb 3 Lf) by (exact Bf || lia). cbn [bind]. rewrite <- U1, <- U2, <- U3, <- U4, <- U5.
    change itip_table_L with (table_L itip_rows). rewrite EN. cbn [bind]. rewrite E1, E2. cbn [bind].
    rewrite (number_again (skipn 61 r) 38) by (bits || ln || lia). cbn [bind].
    rewrite <- !app_assoc. f_equal. f_equal. f_equal.
    rewrite <- (firstn_skipn 47 r) at 5. f_equal. rewrite <- (firstn_skipn 7 (skipn 47 r)) at 1. unfold sl. cbn [Nat.sub]. f_equal.
    rewrite skipn_skipn'. cbn [Nat.add]. rewrite <- (firstn_skipn 7 (skipn 54 r)) at 2. f_equal. now rewrite skipn_skipn'.
Qed.

(** * Bit by bit *)

Lemma nth_firstn' {A} (l : list A) i n d : (i < n)%nat -> nth i (firstn n l) d = nth i l d.
Proof. revert i n. induction l as [|x l IH]; intros [|i] [|n] H; cbn [firstn nth]; auto; try lia. apply IH. lia. Qed.
Lemma nth_skipn' {A} (l : list A) i n d : nth i (skipn n l) d = nth (n + i) l d.
Proof. revert l. induction n as [|n IH]; intros l; [reflexivity|]. destruct l as [|x l]; [now destruct i|]. cbn [skipn Nat.add nth]. apply IH. Qed.
Lemma nth_repeat_in {A} (x d : A) m i : (i < m)%nat -> nth i (repeat x m) d = x.
Proof. revert i. induction m as [|m IH]; intros [|i] H; cbn; auto; try lia. apply IH. lia. Qed.

(** [b] with the bits from [lo] up to [hi] cleared *)
Definition cleared (lo hi n : nat) (b b' : str) : Prop :=
  length b' = n /\ forall i, (i < n)%nat -> ((lo <= i < hi)%nat -> nth i b' 0 = 48) /\ (~ (lo <= i < hi)%nat -> nth i b' 0 = nth i b 0).

Lemma cleared_ok b lo hi n : (lo <= hi <= n)%nat -> (n <= length b)%nat ->
  cleared lo hi n b (firstn lo b ++ repeat c_0 (hi - lo) ++ skipn hi (firstn n b)).
Proof.
  intros H1 H2. split.
  { rewrite !app_length, repeat_length, skipn_length, !firstn_length. lia. }
  intros i Hi. assert (L : length (firstn lo b) = lo) by (rewrite firstn_length; lia). split; intros H.
  - rewrite app_nth2, L by lia. rewrite app_nth1 by (rewrite repeat_length; lia). apply nth_repeat_in. lia.
  - destruct (Nat.lt_ge_cases i lo).
    + rewrite app_nth1 by lia. now apply nth_firstn'.
    + rewrite app_nth2, L by lia. rewrite app_nth2 by (rewrite repeat_length; lia). rewrite repeat_length, nth_skipn'.
      rewrite nth_firstn' by lia. f_equal. lia.
Qed.

Lemma take_again width b n : (11 + 3 + width <= n)%nat -> (n <= length b)%nat -> (40 <= width)%nat -> forallb is_bit b = true ->
  let r := skipn 11 (firstn n b) in
  firstn 11 b ++ again width 12 (firstn (3 + width) r) ++ skipn (3 + width) r =
    if binary_number (firstn 3 (skipn 11 b)) =? 0 then firstn 54 b ++ repeat c_0 (14 + width - 54) ++ skipn (14 + width) (firstn n b)
    else firstn n b.
Proof.
  intros H1 H2 H3 B r.
  assert (P : firstn 3 (firstn (3 + width) r) = firstn 3 (skipn 11 b)).
  { unfold r. rewrite firstn_firstn. replace (Nat.min 3 (3 + width)) with 3%nat by lia. rewrite skipn_firstn_comm, firstn_firstn. f_equal. lia. }
  rewrite binary_number_sval by (apply forallb_firstn, forallb_skipn, B). unfold again. rewrite P.
  assert (E : firstn 11 b ++ r = firstn n b).
  { unfold r. rewrite <- (firstn_skipn 11 (firstn n b)) at 2. f_equal. rewrite firstn_firstn. f_equal. lia. }
  assert (D : sval 2 (firstn 3 (skipn 11 b)) < 8).
  { pose proof (sval_bound 2 (firstn 3 (skipn 11 b))) as Y. rewrite firstn_length, skipn_length in Y.
    replace (Nat.min 3 (length b - 11)) with 3%nat in Y by lia. change (2 ^ N.of_nat 3) with 8 in Y. apply Y. apply forallb_bit_in_base2, forallb_firstn, forallb_skipn, B. }
  destruct (N.eqb_spec (sval 2 (firstn 3 (skipn 11 b))) 0) as [Z|Z].
  - rewrite Z. change (12 - N.to_nat 0 =? 12)%nat with true. cbn iota. change (prefix_bits 12) with 40%nat.
    rewrite firstn_firstn. replace (Nat.min (3 + 40) (3 + width)) with 43%nat by lia. rewrite <- app_assoc, app_assoc. f_equal; [|f_equal].
    + unfold r. replace (firstn 43 (skipn 11 (firstn n b))) with (skipn 11 (firstn 54 (firstn n b))) by (now rewrite skipn_firstn_comm).
      rewrite firstn_firstn. replace (Nat.min 54 n) with 54%nat by lia. rewrite <- (firstn_skipn 11 (firstn 54 b)) at 2. now rewrite firstn_firstn.
    + unfold r. now rewrite skipn_skipn'.
  - replace (12 - N.to_nat (sval 2 (firstn 3 (skipn 11 b))) =? 12)%nat with false by (symmetry; apply Nat.eqb_neq; lia).
    rewrite firstn_skipn. exact E.
Qed.

Lemma kept b n : (n <= length b)%nat -> cleared 0 0 n b (firstn n b).
Proof. intros H. pose proof (cleared_ok b 0 0 n ltac:(lia) H) as Y. exact Y. Qed.

Theorem reencode k n b e : numeric_coding k -> tag_size k = Some n -> forallb is_bit b = true -> firstn 8 b = tag_header k ->
  from_binary_of (tag_class k) b = Ok e -> writable_again k b ->
  exists q b', req_epc q = e /\ req_kind q = k /\
    req_filter q = match filter_width k with O => None | w => Some (binary_number (firstn w (skipn 8 b))) end /\
    req_binary q = Ok b' /\ length b' = n /\
    forall i, (i < n)%nat -> (unused_bit k b i -> nth i b' 0 = 48) /\ (~ unused_bit k b i -> nth i b' 0 = nth i b 0).
Proof.
  intros Nk Sz B H E Wr. destruct (reencode_eq k b e Nk B H E Wr) as (q & Q1 & Q2 & Q3 & Q4).
  assert (Lb : (n <= length b)%nat).
  { rewrite (from_binary_body k b B H) in E. destruct (too_short k b) eqn:T; [discriminate E|]. unfold too_short in T. rewrite Sz in T. now apply Nat.ltb_ge. }
  eexists q, _. split; [exact Q1|]. split; [exact Q2|]. split.
  { rewrite Q3. destruct (filter_width k) as [|w]; [reflexivity|]. f_equal. rewrite binary_number_sval by (apply forallb_firstn, forallb_skipn, B). unfold sl. reflexivity. }
  split; [exact Q4|]. clear Q1 Q2 Q3 Q4 E Wr q.
  assert (Rd : after_filter k b = skipn (8 + filter_width k) (firstn n b)) by (unfold after_filter, cut; now rewrite Sz). rewrite Rd. clear Rd.
  destruct Nk as [N1 N2].
  assert (W : forall w, (w <= n)%nat -> firstn w b ++ skipn w (firstn n b) = firstn n b).
  { intros w Hw. rewrite <- (firstn_skipn w (firstn n b)) at 2. f_equal. rewrite firstn_firstn. f_equal. lia. }
  assert (Y24 : n = 96%nat -> firstn 11 b ++ firstn 61 (skipn 11 (firstn n b)) ++ repeat c_0 24 = firstn 72 b ++ repeat c_0 (96 - 72) ++ skipn 96 (firstn n b)).
  { intros ->. rewrite (skipn_all2 (n := 96) (firstn 96 b)) by (rewrite firstn_length; lia). rewrite app_nil_r, app_assoc. f_equal.
    rewrite <- (firstn_skipn 11 (firstn 72 b)). rewrite firstn_firstn. f_equal. replace 61%nat with (72 - 11)%nat by lia. rewrite <- skipn_firstn_comm, firstn_firstn. reflexivity. }
  assert (F : forall lo hi b', cleared lo hi n b b' -> (forall i, (i < n)%nat -> (unused_bit k b i <-> (lo <= i < hi)%nat)) ->
    length b' = n /\ forall i, (i < n)%nat -> (unused_bit k b i -> nth i b' 0 = 48) /\ (~ unused_bit k b i -> nth i b' 0 = nth i b 0)).
  { intros lo hi b' [L K] U. split; [exact L|]. intros i Hi. rewrite (U i Hi). now apply K. }
  assert (F0 : (forall i, (i < n)%nat -> ~ unused_bit k b i) -> forall b', b' = firstn n b ->
    length b' = n /\ forall i, (i < n)%nat -> (unused_bit k b i -> nth i b' 0 = 48) /\ (~ unused_bit k b i -> nth i b' 0 = nth i b 0)).
  { intros U b' ->. apply (F 0%nat 0%nat); [now apply kept|]. intros i Hi. split; [intros X; now apply U in X|lia]. }
  destruct k; try discriminate N1; try discriminate Sz; injection Sz as <-; cbn [filter_width again_body Nat.add];
    try (apply F0; [intros i Hi []|apply W; lia]);
    try (rewrite Y24 by reflexivity; apply (F 72%nat 96%nat); [apply cleared_ok; lia|intros i Hi; cbn [unused_bit]; lia]);
    (match goal with |- context [again ?w 12 _] => pose proof (take_again w b 96 ltac:(lia) Lb ltac:(lia) B) as Y; cbn zeta in Y; cbn [Nat.add] in Y; rewrite Y; clear Y end;
      destruct (N.eqb_spec (binary_number (firstn 3 (skipn 11 b))) 0) as [Z|Z];
      [|apply F0; [intros i Hi [U _]; contradiction|reflexivity]]).
  - apply (F 54%nat 55%nat); [apply cleared_ok; lia|]. intros i Hi. cbn [unused_bit]. split; [intros [_ ->]; lia|intros X; split; [exact Z|lia]].
  - apply (F 54%nat 55%nat); [apply cleared_ok; lia|]. intros i Hi. cbn [unused_bit]. split; [intros [_ ->]; lia|intros X; split; [exact Z|lia]].
  - apply (F 54%nat 58%nat); [apply cleared_ok; lia|]. intros i Hi. cbn [unused_bit]. split; [intros [_ X]; lia|intros X; split; [exact Z|lia]].
  - apply (F 54%nat 55%nat); [apply cleared_ok; lia|]. intros i Hi. cbn [unused_bit]. split; [intros [_ ->]; lia|intros X; split; [exact Z|lia]].
Qed.
