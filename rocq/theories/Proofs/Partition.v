(** Partition tables. *)
From Coq Require Import String.
From Verif.Model Require Import Py Re Regexes Common Base.
From Verif.Spec Require Import Spec.
From Verif.Proofs Require Import Basics Num Uni.

Ltac Zify.zify_post_hook ::= Z.div_mod_to_equations.

(** the i-th row is for partition value i and prefixes of 12-i digits, which fit its M bits *)
Fixpoint rows_ok_from (i : nat) (rows : list row) : bool :=
  match rows with
  | [] => (i =? 7)%nat
  | r :: rows' =>
      (rP r =? Z.of_nat i)%Z && (rL r + i =? 12)%nat && (1 <=? rM r)%nat && (1 <=? rN r)%nat &&
      (10 ^ N.of_nat (rL r) <=? 2 ^ N.of_nat (rM r)) && rows_ok_from (S i) rows'
  end.
Definition rows_ok (rows : list row) : bool := rows_ok_from 0 rows.

Definition row_fine (r : row) : Prop :=
  (0 <= rP r < 7)%Z /\ (6 <= rL r <= 12)%nat /\ (1 <= rM r)%nat /\ (1 <= rN r)%nat /\
  10 ^ N.of_nat (rL r) <= 2 ^ N.of_nat (rM r).

Lemma rows_ok_fine i rows : rows_ok_from i rows = true -> (i + length rows = 7)%nat /\
     (forall r, In r rows -> row_fine r).
Proof.
  revert i; induction rows as [|r rows IH]; intros i H; cbn [rows_ok_from] in H.
  - split; [cbn; lia|intros r []].
  - repeat (apply andb_true_iff in H; destruct H as [H ?]).
    match goal with G : rows_ok_from _ _ = true |- _ => apply IH in G; destruct G as [G1 G2] end.
    cbn in G1. split; [cbn; lia|]. intros r' [<-|Hr]; [|now apply G2]. unfold row_fine. lia.
Qed.

Lemma rows_ok_shape rows : rows_ok rows = true -> exists r0 r1 r2 r3 r4 r5 r6,
  rows = [r0; r1; r2; r3; r4; r5; r6] /\
  (rP r0 = 0 /\ rP r1 = 1 /\ rP r2 = 2 /\ rP r3 = 3 /\ rP r4 = 4 /\ rP r5 = 5 /\ rP r6 = 6)%Z /\
  (rL r0 = 12 /\ rL r1 = 11 /\ rL r2 = 10 /\ rL r3 = 9 /\ rL r4 = 8 /\ rL r5 = 7 /\ rL r6 = 6)%nat /\
  forall r, In r rows -> row_fine r.
Proof.
  unfold rows_ok. intros H. destruct (rows_ok_fine _ _ H) as [Hl Hf].
  do 7 (destruct rows as [|? rows]; [cbn in Hl; lia|]). destruct rows; [|cbn in Hl; lia].
  do 7 eexists. split; [reflexivity|]. cbn [rows_ok_from] in H.
  split; [repeat split; lia|]. split; [repeat split; lia|]. exact Hf.
Qed.

Lemma lookup_L rows len : rows_ok rows = true -> (6 <= len <= 12)%nat ->
  exists r, In r rows /\ lookup (Z.of_nat len) (table_L rows) = Some r /\
    lookup (rP r) (table_P rows) = Some r /\ rL r = len /\ row_fine r.
Proof.
  intros H Hl. destruct (rows_ok_shape _ H) as (r0 & r1 & r2 & r3 & r4 & r5 & r6 & -> & HP & HL & HF).
  assert (len = 6 \/ len = 7 \/ len = 8 \/ len = 9 \/ len = 10 \/ len = 11 \/ len = 12)%nat as D by lia.
  decompose [and] HP. decompose [and] HL.
  repeat destruct D as [D|D]; subst len;
    (eexists; split; [|split; [reflexivity|split; [|split; [eassumption|apply HF]]]]); 
    try (cbn; tauto);
    match goal with E : rP ?r = _ |- lookup (rP ?r) _ = _ => rewrite E; reflexivity end.
Qed.

Lemma lookup_P rows p r : rows_ok rows = true -> lookup p (table_P rows) = Some r ->
  In r rows /\ p = rP r /\ lookup (Z.of_nat (rL r)) (table_L rows) = Some r /\ row_fine r.
Proof.
  intros H. destruct (rows_ok_shape _ H) as (r0 & r1 & r2 & r3 & r4 & r5 & r6 & -> & HP & HL & HF).
  decompose [and] HP. decompose [and] HL. unfold table_P. cbn [combine lookup].
  repeat match goal with |- (if (?x =? ?y)%Z then _ else _) = _ -> _ => destruct (Z.eqb_spec x y) as [->|] end;
    intros [= <-];
    (split; [cbn; tauto|]); (split; [congruence|]);
    (split; [match goal with E : rL ?r = _ |- lookup (Z.of_nat (rL ?r)) _ = _ => rewrite E; reflexivity end|]);
    apply HF; cbn; tauto.
Qed.

Lemma lookup_P_lt rows p : rows_ok rows = true -> (0 <= p < 7)%Z -> exists r, lookup p (table_P rows) = Some r.
Proof.
  intros H Hp. destruct (rows_ok_shape _ H) as (r0 & r1 & r2 & r3 & r4 & r5 & r6 & -> & _).
  assert (p = 0 \/ p = 1 \/ p = 2 \/ p = 3 \/ p = 4 \/ p = 5 \/ p = 6)%Z as D by lia.
  repeat destruct D as [D|D]; subst p; eexists; reflexivity.
Qed.
Lemma lookup_P_ge rows p : rows_ok rows = true -> ~ (0 <= p < 7)%Z -> lookup p (table_P rows) = None.
Proof.
  intros H Hp. destruct (rows_ok_shape _ H) as (r0 & r1 & r2 & r3 & r4 & r5 & r6 & -> & _).
  unfold table_P. cbn [combine lookup].
  repeat match goal with |- context [(?x =? ?y)%Z] => destruct (Z.eqb_spec x y); [lia|] end. reflexivity.
Qed.

Lemma bits_0 w : bits w 0 = repeat c_0 w.
Proof.
  induction w as [|w IH]; [reflexivity|]. cbn [bits]. change (0 / 2) with 0. rewrite IH.
  change [48 + 0 mod 2] with [c_0]. symmetry. apply repeat_cons.
Qed.

(** numeric encoding *)
Lemma encode_num rows r C D : rows_ok rows = true ->
  lookup (Z.of_nat (length C)) (table_L rows) = Some r -> rL r = length C -> row_fine r ->
  forallb is_d C = true -> forallb is_d D = true -> intable D ->
  decimal D < 2 ^ N.of_nat (rN r) -> (D = [] <-> rK r = 0%nat) ->
  encode_partition_table C D (table_L rows) false false =
    Ok (bits 3 (Z.to_N (rP r)) ++ bits (rM r) (decimal C) ++ bits (rN r) (decimal D)).
Proof.
  intros Hr Hl HL (FP & FL & FM & FN & FB) HC HD HI Hb HK. unfold encode_partition_table.
  rewrite Hl. cbn [of_option bind]. rewrite str_to_binary_digits; [|now destruct C; cbn in HL; try lia|exact HC|apply (intable_le _ 12); lia|exact FM|].
  2:{ eapply N.lt_le_trans; [apply decimal_bound|]. rewrite <- HL. exact FB. }
  cbn [bind]. 
  assert (EP : int_to_binary (rP r) 3 = bits 3 (Z.to_N (rP r))).
  { unfold int_to_binary. rewrite <- fmt_bin_bits by (change (2 ^ N.of_nat 3) with 8; lia). f_equal. lia. }
  rewrite EP. destruct (Nat.eqb_spec (rK r) 0) as [E|E]; cbn [negb bind].
  - apply HK in E. subst D. change (decimal []) with 0. now rewrite bits_0.
  - rewrite str_to_binary_digits; [reflexivity|tauto|exact HD|exact HI|exact FN|exact Hb].
Qed.

(** numeric decoding of any 0/1 string that is long enough *)
Lemma decode_num rows b unp w : rows_ok rows = true -> forallb is_bit b = true ->
  (forall r, In r rows -> (rM r + rN r <= w)%nat) -> (w <= 4300)%nat -> (3 + w <= length b)%nat ->
  decode_partition_table b (table_P rows) unp false false =
    match lookup (Z.of_N (sval 2 (firstn 3 b))) (table_P rows) with
    | None => Raise ConvertException
    | Some r =>
        let c := sval 2 (sl 3 (3 + rM r) b) in
        let d := sval 2 (sl (3 + rM r) (3 + rM r + rN r) b) in
        if (c <? 10 ^ N.of_nat (rL r)) && (unp || (rK r =? 0)%nat || (d <? 10 ^ N.of_nat (rK r)))
        then Ok (padl c_0 (rL r) (ndec c) ++ [c_dot] ++
                 (if (rK r =? 0)%nat then [] else padl c_0 (if unp then 0 else rK r)%nat (ndec d)))
        else Raise ConvertException
    end.
Proof.
  intros Hr Hb Hw H43 Hlen. unfold decode_partition_table.
  rewrite binary_to_int_spec; [|destruct b; cbn in *; [lia|discriminate]|now apply forallb_firstn].
  cbn [bind]. destruct (lookup _ _) as [r|] eqn:E; [|reflexivity]. cbn [of_option bind].
  destruct (lookup_P _ _ _ Hr E) as (Hin & _ & _ & (FP & FL & FM & FN & FB)). specialize (Hw _ Hin).
  assert (forall i j, forallb is_bit (sl i j b) = true) as Hsl by (intros; apply forallb_firstn, forallb_skipn, Hb).
  assert (forall i j, (i < j)%nat -> (j <= length b)%nat -> sl i j b <> []) as Hne.
  { intros i j H1 H2 Hc. apply (f_equal (@length N)) in Hc. rewrite length_sl in Hc by lia. cbn in Hc. lia. }
  rewrite binary_to_int_spec by (auto; apply Hne; lia). cbn [bind].
  rewrite binary_to_int_spec by (auto; apply Hne; lia). cbn [bind].
  set (c := sval 2 (sl 3 (3 + rM r) b)). set (d := sval 2 (sl (3 + rM r) (3 + rM r + rN r) b)).
  rewrite !dec_of_N, orb_false_r.
  assert (ZP : forall (x : N) (k : nat), (Z.of_N x <? 10 ^ Z.of_nat k)%Z = (x <? 10 ^ N.of_nat k)).
  { intros x k. replace (10 ^ Z.of_nat k)%Z with (Z.of_N (10 ^ N.of_nat k)) by (rewrite N2Z.inj_pow, nat_N_Z; reflexivity). lia. }
  rewrite ZP. destruct (c <? 10 ^ N.of_nat (rL r)); [|destruct (rK r =? 0)%nat; reflexivity]. cbn [negb raise_if bind andb].
  destruct (rK r =? 0)%nat eqn:EK; cbn [negb bind].
  - cbn [andb bind]. rewrite orb_true_r. cbn [orb]. destruct unp; cbn [negb padl repeat Nat.sub length app]; [reflexivity|].
    apply Nat.eqb_eq in EK. rewrite EK. reflexivity.
  - rewrite orb_false_r. destruct unp; cbn [negb andb orb bind].
    + rewrite andb_false_r. cbn [bind]. reflexivity.
    + destruct (ndec d) eqn:ED; [now apply ndec_nonempty in ED|]. rewrite <- ED. cbn [negb andb].
      rewrite int10_spec; [|apply ndec_nonempty|apply ndec_digits|].
      2:{ apply (intable_ndec _ (rN r)); [|lia]. unfold d. eapply N.lt_le_trans; [apply (sval_bound 2); [apply forallb_bit_in_base2, Hsl]|].
          apply N.pow_le_mono_r; [lia|]. rewrite length_sl by lia. lia. }
      cbn [bind]. destruct (ndec_spec d) as [-> _]. rewrite ZP.
      destruct (d <? 10 ^ N.of_nat (rK r)); reflexivity.
Qed.

(** decoding what [encode_num] produced *)
Lemma decode_encode_num rows r (C D extra : str) (unp : bool) (w : nat) : rows_ok rows = true -> In r rows ->
  lookup (rP r) (table_P rows) = Some r -> rL r = length C -> row_fine r ->
  forallb is_digit C = true -> forallb is_digit D = true ->
  (forall r, In r rows -> (rM r + rN r <= w)%nat) -> (w <= 4300)%nat -> (w <= rM r + rN r + length extra)%nat -> forallb is_bit extra = true ->
  sval 10 D < 2 ^ N.of_nat (rN r) -> (D = [] <-> rK r = 0%nat) ->
  (if unp then (D <> [] -> no_lead0 D) else length D = rK r) ->
  decode_partition_table (bits 3 (Z.to_N (rP r)) ++ bits (rM r) (sval 10 C) ++ bits (rN r) (sval 10 D) ++ extra)
    (table_P rows) unp false false = Ok (C ++ [c_dot] ++ D).
Proof.
  intros Hr Hin HlP HL (FP & FL & FM & FN & FB) HC HD Hw H43 Hx Hxb Hb HK HDl.
  rewrite (decode_num rows _ unp w); auto.
  2:{ rewrite !forallb_app, !bits_bit. exact Hxb. }
  2:{ rewrite !app_length, !length_bits. lia. }
  rewrite firstn_exact by apply length_bits.
  rewrite sval_bits by (change (2 ^ N.of_nat 3) with 8; lia).
  replace (Z.of_N (Z.to_N (rP r))) with (rP r) by lia. rewrite HlP. cbv zeta.
  assert (HCb : sval 10 C < 10 ^ N.of_nat (rL r)) by (rewrite HL; apply sval_bound, forallb_digit_in_base10, HC).
  assert (E1 : sl 3 (3 + rM r) (bits 3 (Z.to_N (rP r)) ++ bits (rM r) (sval 10 C) ++ bits (rN r) (sval 10 D) ++ extra) = bits (rM r) (sval 10 C))
    by (apply sl_mid; rewrite ?length_bits; lia).
  rewrite E1. rewrite sval_bits by (eapply N.lt_le_trans; eauto).
  assert (E2 : sl (3 + rM r) (3 + rM r + rN r) (bits 3 (Z.to_N (rP r)) ++ bits (rM r) (sval 10 C) ++ bits (rN r) (sval 10 D) ++ extra) = bits (rN r) (sval 10 D)).
  { rewrite app_assoc. apply sl_mid; rewrite ?app_length, ?length_bits; lia. }
  rewrite E2, (sval_bits (rN r)) by exact Hb.
  replace (sval 10 C <? 10 ^ N.of_nat (rL r)) with true by lia. cbn [andb].
  rewrite (padl_ndec_sval (rL r) C) by (auto; lia).
  destruct (Nat.eqb_spec (rK r) 0) as [E|E].
  - apply HK in E. subst D. rewrite orb_true_r. reflexivity.
  - rewrite orb_false_r. assert (HDn : D <> []) by tauto.
    destruct unp; cbn [orb].
    + rewrite ndec_sval by auto. reflexivity.
    + replace (sval 10 D <? 10 ^ N.of_nat (rK r)) with true
        by (symmetry; apply N.ltb_lt; rewrite <- HDl; apply sval_bound, forallb_digit_in_base10, HD).
      rewrite padl_ndec_sval by (auto; lia). reflexivity.
Qed.
