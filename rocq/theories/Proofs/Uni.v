(** Unicode decimal digits. *)
From Verif.Model Require Import Py Re Common.
From Verif.Spec Require Import Spec.
From Verif.Proofs Require Import Basics Num.

Lemma find_decade_some zs c d : find_decade zs c = Some d -> exists z, In z zs /\ z <= c < z + 10 /\ d = c - z.
Proof.
  induction zs as [|z zs IH]; [discriminate|]. cbn.
  destruct ((z <=? c) && (c <? z + 10)) eqn:E.
  - intros [= <-]. exists z. split; [now left|]. lia.
  - intros H. destruct (IH H) as (z' & Hz & H'). exists z'. auto.
Qed.

Lemma udigit_lt c d : udigit c = Some d -> d < 10.
Proof. intros H. apply find_decade_some in H. destruct H as (z & _ & H1 & ->). lia. Qed.

Lemma nd_zeros_ascii : forallb (fun z => (z =? 48) || (128 <=? z)) nd_zeros = true.
Proof. reflexivity. Qed.

Lemma udigit_ascii c d : c < 128 -> udigit c = Some d -> 48 <= c <= 57 /\ d = c - 48.
Proof.
  intros Hc H. apply find_decade_some in H. destruct H as (z & Hz & H1 & ->).
  pose proof (forallb_In _ _ _ nd_zeros_ascii Hz) as Hz'. cbv beta in Hz'. lia.
Qed.

Lemma udigit_digit c : 48 <= c <= 57 -> udigit c = Some (c - 48).
Proof.
  intros H. unfold udigit, nd_zeros. cbn [find_decade].
  replace ((48 <=? c) && (c <? 48 + 10)) with true by lia. reflexivity.
Qed.

Lemma is_d_udigit c : is_d c = true -> udigit c = Some (digit_value c).
Proof. unfold is_d, digit_value. destruct (udigit c); [reflexivity|discriminate]. Qed.

Lemma is_d_iff c : is_d c = true <-> udigit c <> None.
Proof. unfold is_d. destruct (udigit c); split; congruence. Qed.

Lemma is_digit_is_d c : is_digit c = true -> is_d c = true.
Proof. intros H. apply is_digit_iff in H. apply is_d_iff. rewrite udigit_digit by exact H. discriminate. Qed.

Lemma is_d_ascii c : is_d c = true -> c < 128 -> is_digit c = true.
Proof. intros H Hc. apply is_d_udigit in H. apply udigit_ascii in H; [|exact Hc]. apply is_digit_iff. tauto. Qed.

Lemma digit_value_lt c : digit_value c < 10.
Proof. unfold digit_value. destruct (udigit c) eqn:E; [now apply udigit_lt in E|lia]. Qed.

Lemma digit_value_digit c : is_digit c = true -> digit_value c = c - 48.
Proof. intros H. apply is_digit_iff in H. unfold digit_value. now rewrite udigit_digit. Qed.

Lemma digits_iff s : digits s <-> forallb is_d s = true.
Proof.
  unfold digits. rewrite forallb_forall. split; intros H c Hc; apply is_d_iff; auto.
Qed.
Lemma ascii_digits_iff s : ascii_digits s <-> forallb is_digit s = true.
Proof.
  unfold ascii_digits. rewrite forallb_forall. split; intros H c Hc; apply is_digit_iff; auto.
Qed.
Lemma bitstring_iff s : bitstring s <-> forallb is_bit s = true.
Proof.
  unfold bitstring. rewrite forallb_forall. split; intros H c Hc; apply is_bit_iff; auto.
Qed.
Lemma ascii_iff s : ascii s <-> forallb is_ascii s = true.
Proof.
  unfold ascii, is_ascii. rewrite forallb_forall. split; intros H c Hc; specialize (H c Hc); lia.
Qed.
Lemma ascii_app a b : ascii (a ++ b) <-> ascii a /\ ascii b.
Proof.
  unfold ascii. split.
  - intros H. split; intros c Hc; apply H, in_or_app; auto.
  - intros [H1 H2] c Hc. apply in_app_or in Hc. destruct Hc; auto.
Qed.

Lemma digits_ascii s : forallb is_d s = true -> ascii s -> forallb is_digit s = true.
Proof.
  intros H A. apply forallb_forall. intros c Hc. apply is_d_ascii; [|now apply A].
  eapply forallb_In; eauto.
Qed.

Lemma forallb_digit_d s : forallb is_digit s = true -> forallb is_d s = true.
Proof. apply forallb_imp, is_digit_is_d. Qed.

Lemma is_d_not_space c : is_d c = true -> is_uni_space c = false.
Proof.
  intros H. destruct (is_uni_space c) eqn:E; [|reflexivity]. exfalso. unfold is_uni_space in E.
  assert (c = 133 \/ c = 160 \/ c = 5760 \/ c = 8192 \/ c = 8193 \/ c = 8194 \/ c = 8195 \/ c = 8196 \/
          c = 8197 \/ c = 8198 \/ c = 8199 \/ c = 8200 \/ c = 8201 \/ c = 8202 \/ c = 8232 \/ c = 8233 \/
          c = 8239 \/ c = 8287 \/ c = 12288) as D by lia.
  clear E. repeat destruct D as [D|D]; subst c; discriminate H.
Qed.

(** the ASCII form of a digit string *)
Definition to_ascii_digits (s : str) : str := map (fun c => 48 + digit_value c) s.

Lemma to_ascii_digits_digit s : forallb is_digit (to_ascii_digits s) = true.
Proof.
  unfold to_ascii_digits. apply forallb_forall. intros c Hc. apply in_map_iff in Hc.
  destruct Hc as (x & <- & _). pose proof (digit_value_lt x). apply is_digit_iff. lia.
Qed.

Lemma to_ascii_digits_id s : forallb is_digit s = true -> to_ascii_digits s = s.
Proof.
  unfold to_ascii_digits. induction s as [|c s IH]; intros H; [reflexivity|].
  cbn [map forallb] in *. apply andb_true_iff in H. destruct H as [Hc H]. rewrite (IH H), digit_value_digit by exact Hc.
  f_equal. apply is_digit_iff in Hc. lia.
Qed.

Lemma to_ascii_num_digits s : forallb is_d s = true -> to_ascii_num s = to_ascii_digits s.
Proof.
  intros H. unfold to_ascii_num. destruct (forallb is_ascii s) eqn:E.
  - symmetry. apply to_ascii_digits_id. apply digits_ascii; [exact H|]. now apply ascii_iff.
  - clear E. induction s as [|c s IH]; [reflexivity|]. unfold to_ascii_digits in *. cbn [map forallb] in *. apply andb_true_iff in H.
    destruct H as [Hc H]. f_equal; [|now apply IH]. unfold to_ascii_char.
    rewrite (is_d_not_space _ Hc), (is_d_udigit _ Hc). destruct (N.ltb_spec c 127); [|reflexivity].
    pose proof (is_d_ascii _ Hc ltac:(lia)) as Hd. rewrite digit_value_digit by exact Hd.
    apply is_digit_iff in Hd. lia.
Qed.

Lemma sval_number b s : forallb is_digit s = true -> sval b s = number b (digit_values s).
Proof.
  intros H. unfold sval, val, number, digit_values.
  assert (G : forall l acc, fold_left (fun a d => a * b + d) l acc = number_acc b acc l)
    by (intros l; induction l as [|d l IH]; intros acc; [reflexivity|]; apply IH).
  rewrite G. f_equal. apply map_ext_in. intros c Hc. pose proof (forallb_In _ _ _ H Hc) as D.
  now rewrite dv_digit, digit_value_digit.
Qed.

Lemma digit_values_to_ascii s : digit_values (to_ascii_digits s) = digit_values s.
Proof.
  unfold digit_values, to_ascii_digits. rewrite map_map. apply map_ext. intros c.
  pose proof (digit_value_lt c). rewrite digit_value_digit by (apply is_digit_iff; lia). lia.
Qed.

Lemma decimal_sval s : decimal s = sval 10 (to_ascii_digits s).
Proof. unfold decimal. rewrite sval_number by apply to_ascii_digits_digit. now rewrite digit_values_to_ascii. Qed.

Lemma decimal_ascii s : forallb is_digit s = true -> decimal s = sval 10 s.
Proof. intros H. now rewrite decimal_sval, to_ascii_digits_id. Qed.

Lemma binary_number_sval s : forallb is_bit s = true -> binary_number s = sval 2 s.
Proof. intros H. symmetry. apply sval_number, forallb_bit_digit, H. Qed.

Lemma int10_digits s : s <> [] -> forallb is_d s = true -> intable s -> int10 s = Ok (Z.of_N (decimal s)).
Proof.
  intros Hne H Hi. assert (E : py_int 10 s = py_int 10 (to_ascii_digits s)).
  { unfold py_int. rewrite to_ascii_num_digits by exact H.
    rewrite to_ascii_num_digits by apply forallb_digit_d, to_ascii_digits_digit.
    now rewrite (to_ascii_digits_id (to_ascii_digits s)) by apply to_ascii_digits_digit. }
  rewrite int10_short by exact Hi. unfold int_base. rewrite E. rewrite py_int_spec.
  - cbn. now rewrite decimal_sval.
  - auto.
  - destruct s; [congruence|discriminate].
  - apply forallb_digit_in_base10, to_ascii_digits_digit.
Qed.

Lemma int10_long s : forallb is_d s = true -> int_max_str_digits < N.of_nat (length s) -> int10 s = Raise ValueError.
Proof.
  intros H L. unfold int10, too_many_digits. rewrite to_ascii_num_digits by exact H.
  assert (F : forall t, forallb is_digit t = true -> filter is_base10 t = t).
  { induction t as [|c t IH]; [reflexivity|]. cbn [forallb filter]. intros G. apply andb_true_iff in G as [G1 G2].
    assert (is_base10 c = true) as ->; [|now rewrite IH].
    apply is_digit_iff in G1. unfold is_base10, digit_in, digit_val.
    replace ((48 <=? c) && (c <=? 57)) with true by lia. replace (c - 48 <? 10) with true by lia. reflexivity. }
  rewrite F by apply to_ascii_digits_digit. unfold to_ascii_digits. rewrite map_length.
  apply N.ltb_lt in L. rewrite L. reflexivity.
Qed.
Lemma int10_all s : s <> [] -> forallb is_d s = true ->
  int10 s = if int_max_str_digits <? N.of_nat (length s) then Raise ValueError else Ok (Z.of_N (decimal s)).
Proof.
  intros Hne H. destruct (N.ltb_spec int_max_str_digits (N.of_nat (length s))) as [L|L]; [now apply int10_long|now apply int10_digits].
Qed.
Lemma int10_char c : is_d c = true -> int10 [c] = Ok (Z.of_N (digit_value c)).
Proof.
  intros H. rewrite int10_digits; [|discriminate|cbn; now rewrite H|discriminate].
  do 2 f_equal.
Qed.

Lemma decimal_app a b : decimal (a ++ b) = decimal a * 10 ^ N.of_nat (length b) + decimal b.
Proof. rewrite !decimal_sval. unfold to_ascii_digits. rewrite map_app, sval_app, map_length. reflexivity. Qed.

Lemma decimal_bound s : decimal s < 10 ^ N.of_nat (length s).
Proof.
  rewrite decimal_sval. replace (length s) with (length (to_ascii_digits s)) by apply map_length.
  apply sval_bound, forallb_digit_in_base10, to_ascii_digits_digit.
Qed.

Lemma str_to_binary_digits s w : s <> [] -> forallb is_d s = true -> intable s -> (1 <= w)%nat ->
  decimal s < 2 ^ N.of_nat w -> str_to_binary s w = Ok (bits w (decimal s)).
Proof.
  intros Hne H Hi Hw Hv. unfold str_to_binary. rewrite int10_digits by auto. cbn [bind].
  unfold int_to_binary. now rewrite fmt_bin_bits.
Qed.

Lemma isnumeric_iff s : isnumeric s = true <-> s <> [] /\ forallb is_d s = true.
Proof. destruct s; cbn; split; try (intros [H _]; congruence); try discriminate; [intros H; split; [discriminate|exact H]|now intros [_ H]]. Qed.
