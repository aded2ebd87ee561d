(** The float computation of the number of digits is exact for every n up to 4300. *)
From Coq Require Import ZArith NArith Lia List.
From Verif.Model Require Import PyFloat.
Local Open Scope N_scope.

(** counts n from [n] on, with p = 2^n, d the number sought and t = 10^d *)
Fixpoint walk (steps n : nat) (p : N) (d : N) (t : N) : bool :=
  let (d, t) := if (10 * t <=? p) then (d + 1, 10 * t) else (d, t) in
  (t <=? p) && (p <? 10 * t) && (int_n_log2_log10 n =? Z.of_N d)%Z &&
  match steps with O => true | S steps => walk steps (S n) (2 * p) d t end.
Lemma walk_sound steps : forall n p d t, p = 2 ^ N.of_nat n -> t = 10 ^ d -> walk steps n p d t = true ->
  forall m, (n <= m <= n + steps)%nat -> exists D, int_n_log2_log10 m = Z.of_N D /\ 10 ^ D <= 2 ^ N.of_nat m < 10 ^ (D + 1).
Proof.
  induction steps as [|steps IH]; intros n p d t P T W m M; cbn [walk] in W;
    (assert (X : exists d' t', (if 10 * t <=? p then (d + 1, 10 * t) else (d, t)) = (d', t') /\ t' = 10 ^ d')
      by (destruct (10 * t <=? p); eexists _, _; (split; [reflexivity|]); [rewrite N.add_1_r, N.pow_succ_r'; lia|exact T]));
    destruct X as (d' & t' & E & T'); rewrite E in W;
    apply andb_prop in W as [W W4]; apply andb_prop in W as [W W3]; apply andb_prop in W as [W1 W2];
    apply N.leb_le in W1; apply N.ltb_lt in W2; apply Z.eqb_eq in W3;
    (assert (H : exists D, int_n_log2_log10 n = Z.of_N D /\ 10 ^ D <= 2 ^ N.of_nat n < 10 ^ (D + 1))
      by (exists d'; rewrite N.add_1_r, N.pow_succ_r', <- T', <- P; auto)).
  - assert (m = n) by lia. now subst m.
  - destruct (Nat.eq_dec m n) as [->|NE]; [exact H|]. apply (IH (S n) (2 * p) d' t'); [|exact T'|exact W4|lia].
    rewrite P, Nat2N.inj_succ, N.pow_succ_r'. reflexivity.
Qed.
Lemma walk_4300 : walk 4300 0 1 0 1 = true.
Proof. vm_compute. reflexivity. Qed.
Theorem digits_exact n : (n <= 4300)%nat ->
  exists D, int_n_log2_log10 n = Z.of_N D /\ 10 ^ D <= 2 ^ N.of_nat n < 10 ^ (D + 1).
Proof. intros H. apply (walk_sound 4300 0 1 0 1 eq_refl eq_refl walk_4300). lia. Qed.
