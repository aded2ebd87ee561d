(** Numerals: positional notation, [int(s, base)], [str(n)] and [f"{n:0{w}b}"]. *)
From Verif.Model Require Import Py Re Common.
From Verif.Proofs Require Import Basics.

(** * Positional values *)

Definition val (b : N) (l : list N) : N := fold_left (fun a d => a * b + d) l 0.

Lemma val_acc b l acc : fold_left (fun a d => a * b + d) l acc = acc * b ^ N.of_nat (length l) + val b l.
Proof.
  unfold val. revert acc; induction l as [|d l IH]; intros acc; cbn [fold_left length].
  - cbn. lia.
  - rewrite IH, (IH (0 * b + d)).
    replace (N.of_nat (S (length l))) with (N.succ (N.of_nat (length l))) by lia.
    rewrite N.pow_succ_r'. lia.
Qed.

Lemma val_cons b d l : val b (d :: l) = d * b ^ N.of_nat (length l) + val b l.
Proof. unfold val. cbn [fold_left]. rewrite val_acc. unfold val. lia. Qed.

Lemma val_app b l1 l2 : val b (l1 ++ l2) = val b l1 * b ^ N.of_nat (length l2) + val b l2.
Proof. unfold val at 1. rewrite fold_left_app, val_acc. reflexivity. Qed.

Lemma val_snoc b l d : val b (l ++ [d]) = val b l * b + d.
Proof. unfold val. rewrite fold_left_app. reflexivity. Qed.

Lemma val_zeros b k l : val b (repeat 0 k ++ l) = val b l.
Proof. induction k; cbn [repeat app]; [reflexivity|]. rewrite val_cons, IHk. lia. Qed.

Lemma val_bound b l : Forall (fun d => d < b) l -> val b l < b ^ N.of_nat (length l).
Proof.
  induction l as [|d l IH]; intros H; [cbn; lia|].
  inversion_clear H. specialize (IH H1). rewrite val_cons. cbn [length].
  replace (N.of_nat (S (length l))) with (N.succ (N.of_nat (length l))) by lia.
  rewrite N.pow_succ_r'. nia.
Qed.

Lemma val_inj b l1 l2 : length l1 = length l2 -> Forall (fun d => d < b) l1 -> Forall (fun d => d < b) l2 ->
  val b l1 = val b l2 -> l1 = l2.
Proof.
  revert l2; induction l1 as [|d l1 IH]; intros [|e l2]; intros Hlen H1 H2 Hv; try discriminate; [reflexivity|].
  inversion_clear H1. inversion_clear H2. injection Hlen as Hlen.
  rewrite !val_cons, Hlen in Hv.
  pose proof (val_bound _ _ H0). pose proof (val_bound _ _ H3). rewrite Hlen in H2.
  assert (d = e) by nia. subst e. f_equal. apply IH; auto. lia.
Qed.

(** canonical digit lists: no superfluous leading zero *)
Definition canonical (l : list N) : Prop := l = [0] \/ exists d l', l = d :: l' /\ d <> 0.

Lemma canonical_lower b l : canonical l -> l <> [0] -> b ^ (N.of_nat (length l) - 1) <= val b l.
Proof.
  intros [->|(d & l' & -> & Hd)] H; [congruence|].
  rewrite val_cons. cbn [length].
  replace (N.of_nat (S (length l')) - 1) with (N.of_nat (length l')) by lia. nia.
Qed.

Lemma canonical_nonempty l : canonical l -> l <> [].
Proof. intros [->|(d & l' & -> & _)]; discriminate. Qed.

Lemma canonical_zero b l : 1 < b -> canonical l -> val b l = 0 -> l = [0].
Proof.
  intros Hb Hc Hv. destruct Hc as [->|(d & l' & -> & Hd)]; [reflexivity|].
  rewrite val_cons in Hv. assert (0 < b ^ N.of_nat (length l')) by (apply N.neq_0_lt_0, N.pow_nonzero; lia). nia.
Qed.

Lemma canonical_inj b l1 l2 : 1 < b -> canonical l1 -> canonical l2 ->
  Forall (fun d => d < b) l1 -> Forall (fun d => d < b) l2 -> val b l1 = val b l2 -> l1 = l2.
Proof.
  intros Hb C1 C2 F1 F2 Hv.
  destruct (list_eq_dec N.eq_dec l1 [0]) as [->|N1].
  { symmetry. apply (canonical_zero b); [exact Hb|exact C2|]. rewrite <- Hv. reflexivity. }
  destruct (list_eq_dec N.eq_dec l2 [0]) as [->|N2].
  { apply (canonical_zero b); [exact Hb|exact C1|]. rewrite Hv. reflexivity. }
  apply (val_inj b); try assumption.
  pose proof (canonical_lower b _ C1 N1). pose proof (canonical_lower b _ C2 N2).
  pose proof (val_bound _ _ F1). pose proof (val_bound _ _ F2).
  pose proof (canonical_nonempty _ C1). pose proof (canonical_nonempty _ C2).
  assert (Hl : forall x y : N, b ^ (x - 1) < b ^ y -> 0 < x -> x <= y).
  { intros x y Hp Hx. apply N.pow_lt_mono_r_iff in Hp; lia. }
  destruct l1; [congruence|]. destruct l2; [congruence|].
  assert (N.of_nat (length (n :: l1)) <= N.of_nat (length (n0 :: l2))).
  { apply Hl; [|cbn; lia]. eapply N.le_lt_trans; [exact H|]. rewrite Hv. exact H2. }
  assert (N.of_nat (length (n0 :: l2)) <= N.of_nat (length (n :: l1))).
  { apply Hl; [|cbn; lia]. eapply N.le_lt_trans; [exact H0|]. rewrite <- Hv. exact H1. }
  lia.
Qed.

(** * to_base *)

Lemma to_base_aux_spec b : 1 < b -> forall fuel n acc, n < 2 ^ N.of_nat (S fuel) ->
  exists l, to_base_aux (S fuel) b n acc = l ++ acc /\ val b l = n /\ Forall (fun d => d < b) l /\ canonical l.
Proof.
  intros Hb fuel; induction fuel as [|fuel IH]; intros n acc Hn.
  - change (2 ^ N.of_nat 1) with 2 in Hn. cbn [to_base_aux].
    assert (n / b = 0) by (apply N.div_small; lia). rewrite H. cbn [N.eqb].
    exists [n mod b]. rewrite N.mod_small by lia. split; [reflexivity|].
      split; [unfold val; cbn [fold_left]; lia|]. split; [constructor; [lia|constructor]|].
    destruct (N.eq_dec n 0) as [->|Hn0]; [now left|]. right. exists n, []. auto.
  - remember (S fuel) as f. cbn [to_base_aux]. destruct (N.eqb_spec (n / b) 0) as [E|E].
    + exists [n mod b]. assert (n < b) by (apply N.div_small_iff in E; lia).
      rewrite N.mod_small by lia. split; [reflexivity|].
      split; [unfold val; cbn [fold_left]; lia|]. split; [constructor; [lia|constructor]|].
      destruct (N.eq_dec n 0) as [->|Hn0]; [now left|]. right. exists n, []. auto.
    + destruct (IH (n / b) (n mod b :: acc)) as (l & -> & Hv & Hf & Hc).
      * rewrite Heqf in Hn.
        replace (N.of_nat (S (S fuel))) with (N.succ (N.of_nat (S fuel))) in Hn by lia.
        rewrite N.pow_succ_r' in Hn. subst f.
        apply N.div_lt_upper_bound; [lia|].
        remember (2 ^ N.of_nat (S fuel)) as p. nia.
      * exists (l ++ [n mod b]). rewrite <- app_assoc. repeat split.
        -- rewrite val_snoc, Hv. pose proof (N.div_mod n b ltac:(lia)). lia.
        -- apply Forall_app. split; [exact Hf|]. repeat constructor. apply N.mod_lt. lia.
        -- destruct Hc as [->|(d & l' & -> & Hd)].
           ++ exfalso. cbn in Hv. lia.
           ++ right. exists d, (l' ++ [n mod b]). auto.
Qed.

Lemma to_base_spec b n : 1 < b ->
  val b (to_base b n) = n /\ Forall (fun d => d < b) (to_base b n) /\ canonical (to_base b n).
Proof.
  intros Hb. unfold to_base.
  destruct (to_base_aux_spec b Hb (N.to_nat (N.size n)) n []) as (l & -> & H).
  - eapply N.lt_le_trans; [apply N.size_gt|]. apply N.pow_le_mono_r; lia.
  - rewrite app_nil_r. exact H.
Qed.

Lemma to_base_val b l : 1 < b -> Forall (fun d => d < b) l -> canonical l -> to_base b (val b l) = l.
Proof.
  intros Hb Hf Hc. destruct (to_base_spec b (val b l) Hb) as (Hv & Hf' & Hc').
  apply (canonical_inj b); assumption.
Qed.

Lemma to_base_length b n k : 1 < b -> (1 <= k)%nat -> n < b ^ N.of_nat k -> (length (to_base b n) <= k)%nat.
Proof.
  intros Hb Hk Hn. destruct (to_base_spec b n Hb) as (Hv & Hf & Hc).
  destruct (list_eq_dec N.eq_dec (to_base b n) [0]) as [E|E]; [rewrite E; cbn; lia|].
  pose proof (canonical_lower b _ Hc E) as Hl. rewrite Hv in Hl.
  pose proof (canonical_nonempty _ Hc).
  assert (Hp : b ^ (N.of_nat (length (to_base b n)) - 1) < b ^ N.of_nat k) by lia.
  apply N.pow_lt_mono_r_iff in Hp; lia.
Qed.

(** * Digit characters *)

(** value of a digit character, 0 for anything else *)
Definition dv (c : N) : N := match digit_val c with Some d => d | None => 0 end.
Definition in_base (b c : N) : bool := match digit_in b c with Some _ => true | None => false end.
Definition sval (b : N) (s : str) : N := val b (map dv s).

Lemma dv_digit c : is_digit c = true -> dv c = c - 48.
Proof. unfold is_digit, inr, dv, digit_val. intros ->. reflexivity. Qed.

Lemma in_base_lt b c : in_base b c = true -> dv c < b.
Proof.
  unfold in_base, digit_in, dv. destruct (digit_val c) as [d|]; [|discriminate].
  destruct (N.ltb_spec d b); [auto|discriminate].
Qed.

Lemma in_base_range b c : in_base b c = true ->
  (48 <= c <= 57) \/ (65 <= c <= 90) \/ (97 <= c <= 122).
Proof.
  unfold in_base, digit_in, digit_val.
  destruct ((48 <=? c) && (c <=? 57)) eqn:E1; [lia|].
  destruct ((65 <=? c) && (c <=? 90)) eqn:E2; [lia|].
  destruct ((97 <=? c) && (c <=? 122)) eqn:E3; [lia|discriminate].
Qed.

Lemma is_digit_in_base10 c : is_digit c = true -> in_base 10 c = true.
Proof.
  unfold is_digit, inr, in_base, digit_in, digit_val. intros H. rewrite H.
  destruct (N.ltb_spec (c - 48) 10); [reflexivity|]. lia.
Qed.
Lemma is_digit_iff c : is_digit c = true <-> 48 <= c <= 57.
Proof. unfold is_digit, inr. lia. Qed.
Lemma in_base10_is_digit c : in_base 10 c = true -> is_digit c = true.
Proof.
  intros H. pose proof (in_base_lt _ _ H) as Hlt. apply in_base_range in H.
  apply is_digit_iff. revert Hlt. unfold dv, digit_val.
  destruct ((48 <=? c) && (c <=? 57)) eqn:E1; [lia|].
  destruct ((65 <=? c) && (c <=? 90)) eqn:E2; [lia|].
  destruct ((97 <=? c) && (c <=? 122)) eqn:E3; lia.
Qed.
Lemma is_bit_iff c : is_bit c = true <-> c = 48 \/ c = 49.
Proof. unfold is_bit, inr. lia. Qed.
Lemma is_bit_is_digit c : is_bit c = true -> is_digit c = true.
Proof. unfold is_bit, is_digit, inr. lia. Qed.
Lemma is_bit_in_base2 c : is_bit c = true -> in_base 2 c = true.
Proof. intros H. apply is_bit_iff in H. destruct H as [->| ->]; reflexivity. Qed.

Lemma sval_bound b s : forallb (in_base b) s = true -> sval b s < b ^ N.of_nat (length s).
Proof.
  intros H. unfold sval. rewrite <- (map_length dv s). apply val_bound.
  apply Forall_map, Forall_forall. intros c Hc. apply in_base_lt, (forallb_In _ _ _ H Hc).
Qed.

Lemma sval_app b s t : sval b (s ++ t) = sval b s * b ^ N.of_nat (length t) + sval b t.
Proof. unfold sval. rewrite map_app, val_app, map_length. reflexivity. Qed.

(** [s] starts with no superfluous zero *)
Definition no_lead0 (s : str) : Prop := s = [48] \/ exists c s', s = c :: s' /\ c <> 48.

Lemma map_dv_inj s t : forallb is_digit s = true -> forallb is_digit t = true ->
  map dv s = map dv t -> s = t.
Proof.
  revert t; induction s as [|c s IH]; intros [|d t] Hs Ht E; try discriminate; [reflexivity|].
  cbn in *. apply andb_true_iff in Hs, Ht. destruct Hs as [Hc Hs], Ht as [Hd Ht].
  injection E as E1 E2. rewrite !dv_digit in E1 by assumption.
  apply is_digit_iff in Hc, Hd. f_equal; [lia|]. now apply IH.
Qed.

Definition digits_below (b : N) (s : str) : Prop := forallb is_digit s = true /\ forallb (in_base b) s = true.

Lemma Forall_dv b s : forallb (in_base b) s = true -> Forall (fun d => d < b) (map dv s).
Proof.
  intros H. apply Forall_map, Forall_forall. intros c Hc. apply in_base_lt, (forallb_In _ _ _ H Hc).
Qed.

Lemma sval_inj b s t : digits_below b s -> digits_below b t -> length s = length t ->
  sval b s = sval b t -> s = t.
Proof.
  intros [Hs Hs'] [Ht Ht'] Hl Hv. apply map_dv_inj; auto.
  apply (val_inj b); auto using Forall_dv. now rewrite !map_length.
Qed.

(** rendered numbers *)

Lemma dchar_up_spec d : d < 10 -> dchar_up d = 48 + d.
Proof. unfold dchar_up. intros H. destruct (N.ltb_spec d 10); lia. Qed.

Lemma map_dchar_up_digits l b : b <= 10 -> Forall (fun d => d < b) l ->
  forallb is_digit (map dchar_up l) = true /\ forallb (in_base b) (map dchar_up l) = true /\
  map dv (map dchar_up l) = l.
Proof.
  intros Hb H. induction H as [|d l Hd H IH]; [auto|]. destruct IH as (I1 & I2 & I3).
  cbn [map forallb]. rewrite I1, I2, I3. rewrite dchar_up_spec by lia.
  assert (E : is_digit (48 + d) = true) by (apply is_digit_iff; lia). rewrite E.
  rewrite dv_digit by exact E. replace (48 + d - 48) with d by lia. repeat split.
  unfold in_base, digit_in, digit_val. replace ((48 <=? 48 + d) && (48 + d <=? 57)) with true by lia.
  replace (48 + d - 48) with d by lia. destruct (N.ltb_spec d b); [reflexivity|lia].
Qed.

Lemma ndec_spec n : sval 10 (ndec n) = n /\ forallb is_digit (ndec n) = true /\ no_lead0 (ndec n).
Proof.
  destruct (to_base_spec 10 n ltac:(lia)) as (Hv & Hf & Hc).
  destruct (map_dchar_up_digits _ 10 ltac:(lia) Hf) as (I1 & I2 & I3).
  unfold ndec, sval. rewrite I3. repeat split; [exact Hv|exact I1|].
  destruct Hc as [->|(d & l' & E & Hd)]; [now left|]. right.
  rewrite E in *. exists (dchar_up d), (map dchar_up l'). split; [reflexivity|].
  inversion_clear Hf. rewrite dchar_up_spec by lia. lia.
Qed.

Lemma nbin_spec n : sval 2 (nbin n) = n /\ forallb is_bit (nbin n) = true /\ nbin n <> [].
Proof.
  destruct (to_base_spec 2 n ltac:(lia)) as (Hv & Hf & Hc).
  destruct (map_dchar_up_digits _ 2 ltac:(lia) Hf) as (I1 & I2 & I3).
  unfold nbin, sval. rewrite I3. repeat split; [exact Hv| |].
  - apply forallb_forall. intros c Hc'. pose proof (forallb_In _ _ _ I1 Hc') as D.
    pose proof (in_base_lt _ _ (forallb_In _ _ _ I2 Hc')) as Lt. rewrite (dv_digit _ D) in Lt.
    apply is_digit_iff in D. apply is_bit_iff. lia.
  - intros E. apply map_eq_nil in E. now apply (canonical_nonempty _ Hc).
Qed.

Lemma ndec_nonempty n : ndec n <> [].
Proof. destruct (ndec_spec n) as (_ & _ & [->|(c & s & -> & _)]); discriminate. Qed.

Lemma ndec_digits n : forallb is_digit (ndec n) = true.
Proof. apply ndec_spec. Qed.

Lemma ndec_length n k : (1 <= k)%nat -> n < 10 ^ N.of_nat k -> (length (ndec n) <= k)%nat.
Proof. unfold ndec. rewrite map_length. apply to_base_length. lia. Qed.
Lemma nbin_length n k : (1 <= k)%nat -> n < 2 ^ N.of_nat k -> (length (nbin n) <= k)%nat.
Proof. unfold nbin. rewrite map_length. apply to_base_length. lia. Qed.

Lemma forallb_digit_in_base10 s : forallb is_digit s = true -> forallb (in_base 10) s = true.
Proof. apply forallb_imp, is_digit_in_base10. Qed.
Lemma forallb_bit_in_base2 s : forallb is_bit s = true -> forallb (in_base 2) s = true.
Proof. apply forallb_imp, is_bit_in_base2. Qed.
Lemma forallb_bit_digit s : forallb is_bit s = true -> forallb is_digit s = true.
Proof. apply forallb_imp, is_bit_is_digit. Qed.

(** [str(int(s)) == s] when there is no superfluous zero *)
Lemma ndec_sval s : forallb is_digit s = true -> no_lead0 s -> ndec (sval 10 s) = s.
Proof.
  intros Hd Hn. unfold ndec, sval. rewrite to_base_val.
  - clear Hn. induction s as [|c s IH]; [reflexivity|]. cbn in *.
    apply andb_true_iff in Hd. destruct Hd as [Hc Hs]. rewrite IH by exact Hs. f_equal.
    rewrite dv_digit by exact Hc. apply is_digit_iff in Hc. rewrite dchar_up_spec by lia. lia.
  - lia.
  - apply Forall_dv, forallb_digit_in_base10, Hd.
  - destruct Hn as [->|(c & s' & -> & Hc)]; [now left|]. right.
    exists (dv c), (map dv s'). split; [reflexivity|]. cbn in Hd. apply andb_true_iff in Hd.
    destruct Hd as [Hd _]. rewrite dv_digit by exact Hd. apply is_digit_iff in Hd. lia.
Qed.

Lemma sval_padl0 b w s : sval b (padl c_0 w s) = sval b s.
Proof.
  unfold sval, padl. rewrite map_app.
  assert (E : forall k, map dv (repeat c_0 k) = repeat 0 k)
    by (intros k; induction k as [|k IH]; cbn; [|f_equal]; auto).
  rewrite E. apply val_zeros.
Qed.

Lemma forallb_padl (p : N -> bool) c w s : p c = true -> forallb p s = true -> forallb p (padl c w s) = true.
Proof. intros Hc Hs. unfold padl. rewrite forallb_app, forallb_repeat, Hs by exact Hc. reflexivity. Qed.

(** [f"{int(s):0{w}}" == s] for [w] digits *)
Lemma padl_ndec_sval w s : forallb is_digit s = true -> length s = w -> (1 <= w)%nat ->
  padl c_0 w (ndec (sval 10 s)) = s.
Proof.
  intros Hd Hl Hw. apply (sval_inj 10).
  - split; [|apply forallb_digit_in_base10]; apply forallb_padl; try reflexivity; apply ndec_digits.
  - split; [|apply forallb_digit_in_base10]; exact Hd.
  - rewrite length_padl. assert (length (ndec (sval 10 s)) <= w)%nat; [|lia].
    apply ndec_length; [exact Hw|]. rewrite <- Hl. apply sval_bound, forallb_digit_in_base10, Hd.
  - rewrite sval_padl0. apply ndec_spec.
Qed.

Lemma dec_of_N n : dec (Z.of_N n) = ndec n.
Proof. unfold dec, signed. destruct (Z.ltb_spec (Z.of_N n) 0); [lia|]. now rewrite N2Z.id. Qed.

(** * Fixed width bit strings *)

(** the [w] low bits of [n], most significant first *)
Fixpoint bits (w : nat) (n : N) : str :=
  match w with O => [] | S w' => bits w' (n / 2) ++ [48 + n mod 2] end.

Lemma length_bits w n : length (bits w n) = w.
Proof. revert n; induction w; intros n; cbn [bits]; [reflexivity|]. rewrite app_length, IHw. cbn [length]. lia. Qed.

Lemma bits_bit w n : forallb is_bit (bits w n) = true.
Proof.
  revert n; induction w; intros n; cbn [bits]; [reflexivity|].
  rewrite forallb_app, IHw. cbn [forallb andb]. rewrite andb_true_r. apply is_bit_iff. lia.
Qed.

Lemma sval_bits w n : n < 2 ^ N.of_nat w -> sval 2 (bits w n) = n.
Proof.
  revert n; induction w as [|w IH]; intros n Hn.
  - cbn in Hn. assert (n = 0) by lia. subst. reflexivity.
  - cbn [bits]. rewrite sval_app, IH.
    + change (N.of_nat (length [48 + n mod 2])) with 1.
      assert (E : sval 2 [48 + n mod 2] = n mod 2).
      { assert (n mod 2 = 0 \/ n mod 2 = 1) as [->| ->] by lia; reflexivity. }
      rewrite E. lia.
    + replace (N.of_nat (S w)) with (N.succ (N.of_nat w)) in Hn by lia.
      rewrite N.pow_succ_r' in Hn. lia.
Qed.

Lemma padl_nbin w n : (1 <= w)%nat -> n < 2 ^ N.of_nat w -> padl c_0 w (nbin n) = bits w n.
Proof.
  intros Hw Hn. destruct (nbin_spec n) as (Hv & Hb & _). apply (sval_inj 2).
  - split; [apply forallb_bit_digit|apply forallb_bit_in_base2]; apply forallb_padl; try reflexivity; exact Hb.
  - split; [apply forallb_bit_digit|apply forallb_bit_in_base2]; apply bits_bit.
  - rewrite length_padl, length_bits. pose proof (nbin_length n w Hw Hn). lia.
  - rewrite sval_padl0, Hv, sval_bits; auto.
Qed.

Lemma bits_sval s : forallb is_bit s = true -> bits (length s) (sval 2 s) = s.
Proof.
  intros H. apply (sval_inj 2).
  - split; [apply forallb_bit_digit|apply forallb_bit_in_base2]; apply bits_bit.
  - split; [apply forallb_bit_digit|apply forallb_bit_in_base2]; exact H.
  - apply length_bits.
  - apply sval_bits, sval_bound, forallb_bit_in_base2, H.
Qed.

Lemma fmt_bin_bits w n : (1 <= w)%nat -> n < 2 ^ N.of_nat w -> fmt_bin w (Z.of_N n) = bits w n.
Proof.
  intros Hw Hn. unfold fmt_bin. destruct (Z.ltb_spec (Z.of_N n) 0); [lia|].
  rewrite N2Z.id. now apply padl_nbin.
Qed.

Lemma bits_inj w m n : m < 2 ^ N.of_nat w -> n < 2 ^ N.of_nat w -> bits w m = bits w n -> m = n.
Proof. intros Hm Hn E. rewrite <- (sval_bits w m Hm), E. now apply sval_bits. Qed.

(** * int(s, base) *)

Lemma scan_digits_spec b s seen acc : forallb (in_base b) s = true -> (s <> [] \/ seen = true) ->
  scan_digits b s false seen acc = Some (fold_left (fun a d => a * b + d) (map dv s) acc).
Proof.
  revert seen acc; induction s as [|c s IH]; intros seen acc H Hs.
  - destruct Hs as [Hs| ->]; [congruence|reflexivity].
  - cbn in H. apply andb_true_iff in H. destruct H as [Hc H]. cbn [scan_digits map fold_left].
    pose proof Hc as Hc'. unfold in_base in Hc. destruct (digit_in b c) as [d|] eqn:E; [|discriminate].
    rewrite IH by auto. f_equal. f_equal. unfold digit_in in E. unfold dv.
    destruct (digit_val c) as [d'|]; [|discriminate]. destruct (d' <? b); congruence.
Qed.

Lemma py_int_spec b s : b = 2 \/ b = 10 \/ b = 16 -> s <> [] -> forallb (in_base b) s = true ->
  py_int b s = Some (Z.of_N (sval b s)).
Proof.
  intros Hb Hne H. unfold py_int, to_ascii_num.
  assert (A : forallb is_ascii s = true).
  { revert H. apply forallb_imp. intros c Hc. apply in_base_range in Hc. unfold is_ascii. lia. }
  rewrite A. destruct s as [|c s]; [congruence|]. clear A Hne.
  pose proof H as H'. cbn in H. apply andb_true_iff in H. destruct H as [Hc Hs].
  pose proof (in_base_range _ _ Hc) as R.
  cbn [skip_space]. unfold is_ascii_space.
  replace ((9 <=? c) && (c <=? 13) || (c =? 32)) with false by lia.
  replace (c =? 43) with false by lia. replace (c =? 45) with false by lia.
  unfold parse_unsigned.
  assert (P : skip_prefix b (c :: s) = c :: s).
  { destruct s as [|x s]; [reflexivity|]. cbn [skip_prefix].
    cbn in Hs. apply andb_true_iff in Hs. destruct Hs as [Hx _].
    destruct ((c =? 48) && _) eqn:E; [|reflexivity]. exfalso.
    apply andb_true_iff in E. destruct E as [_ E]. apply orb_true_iff in E.
    destruct E as [E|E]; apply andb_true_iff in E; destruct E as [E1 E2]; apply N.eqb_eq in E1; subst b;
      apply orb_true_iff in E2; destruct E2 as [E2|E2]; apply N.eqb_eq in E2; subst x; discriminate Hx. }
  rewrite P. unfold c_us. replace (c =? 95) with false by lia.
  rewrite scan_digits_spec; [reflexivity|exact H'|left; discriminate].
Qed.

Lemma binary_to_int_spec s : s <> [] -> forallb is_bit s = true -> binary_to_int s = Ok (Z.of_N (sval 2 s)).
Proof.
  intros Hne H. unfold binary_to_int, int_base. rewrite py_int_spec; auto using forallb_bit_in_base2.
Qed.

Lemma int2_spec s : s <> [] -> forallb is_bit s = true -> int_base 2 s = Ok (Z.of_N (sval 2 s)).
Proof. apply binary_to_int_spec. Qed.

(** short enough for [int()] *)
Definition intable (s : str) : Prop := N.of_nat (length s) <= int_max_str_digits.
Lemma filter_length_le {A} (f : A -> bool) l : (length (filter f l) <= length l)%nat.
Proof. induction l as [|a l IH]; [reflexivity|]. cbn. destruct (f a); cbn; lia. Qed.
Lemma to_ascii_num_length s : length (to_ascii_num s) = length s.
Proof. unfold to_ascii_num. destruct (forallb is_ascii s); [reflexivity|apply map_length]. Qed.
Lemma int10_short s : intable s -> int10 s = int_base 10 s.
Proof.
  unfold intable, int10, too_many_digits. intros H.
  pose proof (filter_length_le is_base10 (to_ascii_num s)) as L. rewrite to_ascii_num_length in L.
  destruct (N.ltb_spec int_max_str_digits (N.of_nat (length (filter is_base10 (to_ascii_num s))))) as [K|K]; [lia|reflexivity].
Qed.
Lemma intable_le s n : (length s <= n)%nat -> (n <= 4300)%nat -> intable s.
Proof. unfold intable, int_max_str_digits. lia. Qed.
Lemma intable_ndec n w : n < 2 ^ N.of_nat w -> (w <= 4300)%nat -> intable (ndec n).
Proof.
  intros H Hw. destruct (N.eq_dec n 0) as [->|Hn]; [discriminate|].
  destruct w as [|w]; [change (2 ^ N.of_nat 0) with 1 in H; lia|].
  apply (intable_le _ (S w)); [apply ndec_length; [lia|]|exact Hw].
  eapply N.lt_le_trans; [exact H|]. apply N.pow_le_mono_l. lia.
Qed.
Lemma str_int_spec n : intable (ndec n) -> str_int (Z.of_N n) = Ok (ndec n).
Proof.
  unfold intable, str_int. intros H. rewrite dec_of_N. replace (Z.abs_N (Z.of_N n)) with n by lia.
  destruct (N.ltb_spec int_max_str_digits (N.of_nat (length (ndec n)))); [lia|reflexivity].
Qed.
Lemma int10_spec s : s <> [] -> forallb is_digit s = true -> intable s -> int10 s = Ok (Z.of_N (sval 10 s)).
Proof.
  intros Hne H Hi. rewrite int10_short by exact Hi. unfold int_base. rewrite py_int_spec; auto using forallb_digit_in_base10.
Qed.

Lemma str_to_binary_spec s w : s <> [] -> forallb is_digit s = true -> intable s -> (1 <= w)%nat ->
  sval 10 s < 2 ^ N.of_nat w -> str_to_binary s w = Ok (bits w (sval 10 s)).
Proof.
  intros Hne H Hi Hw Hv. unfold str_to_binary. rewrite int10_spec by auto. cbn [bind].
  unfold int_to_binary. now rewrite fmt_bin_bits.
Qed.
