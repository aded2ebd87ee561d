(** The mod-10 check digit. *)
From Verif.Model Require Import Py Re Common Others.
From Verif.Spec Require Import Spec.
From Verif.Proofs Require Import Basics Num Uni.

Lemma map_res_int10 s : forallb is_d s = true ->
  map_res (fun d => int10 [d]) s = Ok (map (fun c => Z.of_N (digit_value c)) s).
Proof.
  induction s as [|c s IH]; intros H; [reflexivity|]. cbn [map_res forallb map] in *.
  apply andb_true_iff in H. destruct H as [Hc H]. rewrite int10_char by exact Hc. cbn [bind].
  rewrite IH by exact H. reflexivity.
Qed.

Lemma weighted_app b l1 l2 :
  weighted b (l1 ++ l2) = weighted b l1 + weighted (if Nat.even (length l1) then b else negb b) l2.
Proof.
  revert b; induction l1 as [|d l1 IH]; intros b; [reflexivity|].
  cbn [app weighted length]. rewrite IH. rewrite Nat.even_succ, <- Nat.negb_even.
  destruct (Nat.even (length l1)); cbn [negb]; rewrite ?negb_involutive; lia.
Qed.

(** the two sums of the code *)
Lemma sums_weighted (s : list N) (l := map Z.of_N s) :
  (let '(v1, v2) := if Nat.even (length s) then (zsum (odds l), zsum (evens l))
                    else (zsum (evens l), zsum (odds l)) in 3 * v1 + v2)%Z
  = Z.of_N (weighted true (rev s)).
Proof.
  subst l. induction s as [|d s IH]; [reflexivity|].
  cbn [rev]. rewrite weighted_app, rev_length. cbn [length map evens odds].
  rewrite Nat.even_succ, <- Nat.negb_even.
  destruct (Nat.even (length s)) eqn:E; cbn [negb]; cbn [weighted zsum fold_right negb] in *.
  - fold (zsum (odds (map Z.of_N s))). lia.
  - fold (zsum (odds (map Z.of_N s))). lia.
Qed.

Definition check_digit_of (ds : list N) : N := (10 - weighted true (rev ds) mod 10) mod 10.

Lemma checksum_ok s : forallb is_d s = true ->
  calculate_checksum s = Ok (Z.of_N (check_digit_of (digit_values s))).
Proof.
  intros H. unfold calculate_checksum. rewrite map_res_int10 by exact H. cbn [bind].
  pose proof (sums_weighted (digit_values s)) as G. unfold digit_values in G.
  rewrite map_length, map_map in G.
  destruct (Nat.even (length s)); f_equal; rewrite G; unfold check_digit_of, digit_values; lia.
Qed.

Lemma gsin_checksum_ok s : forallb is_d s = true -> Nat.even (length s) = true ->
  gsin_calculate_checksum s = calculate_checksum s.
Proof.
  intros H E. unfold gsin_calculate_checksum, calculate_checksum. rewrite map_res_int10 by exact H.
  cbn [bind]. rewrite E. reflexivity.
Qed.

Lemma check_digit_lt ds : check_digit_of ds < 10.
Proof. unfold check_digit_of. lia. Qed.

Lemma law_snoc ds d : mod10_law (ds ++ [d]) <-> (d + weighted true (rev ds)) mod 10 = 0.
Proof. unfold mod10_law. rewrite rev_app_distr. reflexivity. Qed.

Lemma law_iff ds d : d < 10 -> (mod10_law (ds ++ [d]) <-> d = check_digit_of ds).
Proof. intros Hd. rewrite law_snoc. unfold check_digit_of. lia. Qed.

(** errors *)

Lemma set_nth_app_l i d a b : (i < length a)%nat -> set_nth i d (a ++ b) = set_nth i d a ++ b.
Proof.
  revert i; induction a as [|x a IH]; intros i H; [cbn in H; lia|].
  destruct i; [reflexivity|]. cbn in *. now rewrite IH by lia.
Qed.

Lemma set_nth_split i d l : (i < length l)%nat ->
  exists a x b, l = a ++ x :: b /\ length a = i /\ nth i l 0 = x /\ set_nth i d l = a ++ d :: b.
Proof.
  revert i; induction l as [|y l IH]; intros i H; [cbn in H; lia|].
  destruct i as [|i].
  - exists [], y, l. auto.
  - cbn in H. destruct (IH i ltac:(lia)) as (a & x & b & -> & Hl & Hn & Hs).
    exists (y :: a), x, b. cbn. rewrite Hs. auto.
Qed.

Lemma swap_at_split i l : (S i < length l)%nat ->
  exists a x y b, l = a ++ x :: y :: b /\ length a = i /\ nth i l 0 = x /\ nth (S i) l 0 = y /\
    swap_at i l = a ++ y :: x :: b.
Proof.
  revert i; induction l as [|z l IH]; intros i H; [cbn in H; lia|].
  destruct i as [|i].
  - destruct l as [|y l]; [cbn in H; lia|]. exists [], z, y, l. auto.
  - cbn in H. destruct (IH i ltac:(lia)) as (a & x & y & b & E & Hl & Hn & Hm & Hs).
    exists (z :: a), x, y, b. destruct l as [|w l]; [cbn in H; lia|].
    change (swap_at (S i) (z :: w :: l)) with (z :: swap_at i (w :: l)). rewrite Hs, E.
    rewrite E in Hn, Hm. cbn. auto 6.
Qed.

Definition weight_at (b : list N) : N := if Nat.even (length b) then 1 else 3.

Lemma weighted_mid a x b :
  weighted false (rev (a ++ x :: b)) = weighted false (rev (a ++ 0 :: b)) + weight_at b * x.
Proof.
  rewrite !rev_app_distr. cbn [rev]. rewrite <- !app_assoc. cbn [app]. rewrite !weighted_app.
  cbn [weighted]. unfold weight_at. rewrite rev_length.
  destruct (Nat.even (length b)); cbn [negb]; lia.
Qed.

Lemma single_error ds i d : Forall (fun x => x < 10) ds -> mod10_law ds -> (i < length ds)%nat -> d < 10 ->
  d <> nth i ds 0 -> ~ mod10_law (set_nth i d ds).
Proof.
  intros Hf Hl Hi Hd Hn. destruct (set_nth_split i d ds Hi) as (a & x & b & -> & Ha & Hx & ->).
  rewrite Hx in Hn. unfold mod10_law in *. rewrite weighted_mid in Hl |- *.
  apply Forall_app in Hf. destruct Hf as [_ Hf]. inversion_clear Hf.
  remember (weighted false (rev (a ++ 0 :: b))) as k. unfold weight_at in *.
  destruct (Nat.even (length b)); lia.
Qed.

Lemma transposition ds i : Forall (fun x => x < 10) ds -> mod10_law ds -> (S i < length ds)%nat ->
  (mod10_law (swap_at i ds) <->
   (nth i ds 0 = nth (S i) ds 0 \/ nth i ds 0 = nth (S i) ds 0 + 5 \/ nth i ds 0 + 5 = nth (S i) ds 0)).
Proof.
  intros Hf Hl Hi. destruct (swap_at_split i ds Hi) as (a & x & y & b & -> & Ha & Hx & Hy & ->).
  rewrite Hx, Hy. unfold mod10_law in *.
  apply Forall_app in Hf. destruct Hf as [_ Hf]. inversion_clear Hf. inversion_clear H0.
  assert (G : forall u v, weighted false (rev (a ++ u :: v :: b)) =
    weighted false (rev (a ++ 0 :: 0 :: b)) + weight_at (0 :: b) * u + weight_at b * v).
  { intros u v. rewrite (weighted_mid a u). replace (a ++ 0 :: v :: b) with ((a ++ [0]) ++ v :: b) by (rewrite <- app_assoc; reflexivity).
    rewrite (weighted_mid (a ++ [0]) v b). rewrite <- app_assoc. cbn [app].
    assert (W : weight_at (v :: b) = weight_at (0 :: b)) by reflexivity. rewrite W. lia. }
  rewrite G in Hl |- *. remember (weighted false (rev (a ++ 0 :: 0 :: b))) as k.
  unfold weight_at in *. cbn [length] in *. rewrite Nat.even_succ, <- Nat.negb_even in *.
  destruct (Nat.even (length b)); cbn [negb] in *; lia.
Qed.

(** strings *)
Lemma digit_values_lt s : Forall (fun x => x < 10) (digit_values s).
Proof. apply Forall_map, Forall_forall. intros c _. apply digit_value_lt. Qed.

Lemma dec_digit d : d < 10 -> dec (Z.of_N d) = [48 + d].
Proof.
  intros H. rewrite dec_of_N.
  assert (d = 0 \/ d = 1 \/ d = 2 \/ d = 3 \/ d = 4 \/ d = 5 \/ d = 6 \/ d = 7 \/ d = 8 \/ d = 9) as D by lia.
  repeat destruct D as [D|D]; subst d; reflexivity.
Qed.

Lemma digit_values_app a b : digit_values (a ++ b) = digit_values a ++ digit_values b.
Proof. apply map_app. Qed.

Lemma digit_values_digit d : d < 10 -> digit_values [48 + d] = [d].
Proof. intros H. unfold digit_values. cbn [map]. rewrite digit_value_digit by (apply is_digit_iff; lia). f_equal. lia. Qed.

(** * The statements of C01..C03 *)

Lemma check_digit_law s : digits s ->
  exists d, d < 10 /\ calculate_checksum s = Ok (Z.of_N d) /\ mod10_law (digit_values s ++ [d]) /\
    forall d', d' < 10 -> mod10_law (digit_values s ++ [d']) -> d' = d.
Proof.
  intros H. apply digits_iff in H. exists (check_digit_of (digit_values s)).
  split; [apply check_digit_lt|]. split; [now apply checksum_ok|]. split.
  - apply law_iff; [apply check_digit_lt|reflexivity].
  - intros d' Hd. now apply law_iff.
Qed.

Lemma Forall_digits_snoc s d : d < 10 -> Forall (fun x => x < 10) (digit_values s ++ [d]).
Proof. intros H. apply Forall_app. split; [apply digit_values_lt|auto]. Qed.

Lemma checksum_value s z : digits s -> calculate_checksum s = Ok z ->
  Z.to_N z < 10 /\ mod10_law (digit_values s ++ [Z.to_N z]).
Proof.
  intros H E. destruct (check_digit_law s H) as (d & Hd & E' & HL & _).
  rewrite E in E'. injection E' as ->. rewrite N2Z.id. auto.
Qed.

Lemma single_digit_error s z i d : digits s -> calculate_checksum s = Ok z ->
  (i < length s + 1)%nat -> d < 10 -> d <> nth i (digit_values s ++ [Z.to_N z]) 0 ->
  ~ mod10_law (set_nth i d (digit_values s ++ [Z.to_N z])).
Proof.
  intros H E Hi Hd Hn. destruct (checksum_value s z H E) as [Hz HL].
  apply single_error; auto using Forall_digits_snoc.
  rewrite app_length. unfold digit_values. rewrite map_length. exact Hi.
Qed.

Lemma adjacent_transposition s z i (full := digit_values s ++ [Z.to_N z]) : digits s -> calculate_checksum s = Ok z ->
  (S i < length s + 1)%nat ->
  (mod10_law (swap_at i full) <->
   (nth i full 0 = nth (S i) full 0 \/ nth i full 0 = nth (S i) full 0 + 5 \/ nth i full 0 + 5 = nth (S i) full 0)).
Proof.
  intros H E Hi. destruct (checksum_value s z H E) as [Hz HL]. subst full.
  apply transposition; auto using Forall_digits_snoc.
  rewrite app_length. cbn [length]. unfold digit_values. rewrite map_length. exact Hi.
Qed.

Lemma gsin_law s : digits s -> Nat.even (length s) = true -> gsin_calculate_checksum s = calculate_checksum s.
Proof. intros H. apply gsin_checksum_ok. now apply digits_iff. Qed.

Lemma gsin_odd : exists s, digits s /\ gsin_calculate_checksum s <> calculate_checksum s.
Proof. exists [49]. split; [apply digits_iff; reflexivity|vm_compute; discriminate]. Qed.
