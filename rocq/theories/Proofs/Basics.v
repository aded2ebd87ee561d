(** Elementary facts about the runtime model. *)
From Coq Require Export Lia ZifyBool ZifyN ZifyNat.
From Verif.Model Require Import Py Re.

Ltac Zify.zify_post_hook ::= Z.div_mod_to_equations.

(** * Results *)

Lemma bind_ok {A B} (x : res A) (f : A -> res B) b :
  bind x f = Ok b <-> exists a, x = Ok a /\ f a = Ok b.
Proof.
  destruct x as [a|e]; cbn; split.
  - eauto.
  - intros (a' & [= ->] & H). exact H.
  - discriminate.
  - intros (a' & H & _). discriminate.
Qed.

Lemma bind_raise {A B} (x : res A) (f : A -> res B) e :
  bind x f = Raise e <-> x = Raise e \/ exists a, x = Ok a /\ f a = Raise e.
Proof.
  destruct x as [a|e']; cbn; split.
  - eauto.
  - intros [H|(a' & [= ->] & H)]; [discriminate|exact H].
  - intros [= ->]. auto.
  - intros [[= ->]|(a' & H & _)]; [reflexivity|discriminate].
Qed.

Lemma raise_if_ok b e u : raise_if b e = Ok u <-> b = false.
Proof. destruct b, u; cbn; split; congruence. Qed.
Lemma raise_if_raise b e e' : raise_if b e = Raise e' <-> b = true /\ e' = e.
Proof. destruct b; cbn; split; [now intros [= ->]|intros [_ ->]; reflexivity|discriminate|now intros [H _]]. Qed.

Lemma of_option_ok {A} e (o : option A) a : of_option e o = Ok a <-> o = Some a.
Proof. destruct o; cbn; split; congruence. Qed.
Lemma of_option_raise {A} e (o : option A) e' : of_option e o = Raise e' <-> o = None /\ e' = e.
Proof. destruct o; cbn; split; [discriminate|now intros [H _]|now intros [= ->]|intros [_ ->]; reflexivity]. Qed.

(** peel the binds of a successful computation *)
Ltac inv_ok H :=
  lazymatch type of H with
  | bind ?x ?f = Ok _ =>
      let a := fresh "a" in let E := fresh "E" in
      apply bind_ok in H; destruct H as (a & E & H); cbv beta in H
  | Ok _ = Ok _ => injection H as H
  | Raise _ = Ok _ => discriminate H
  end.

Lemma bind_Ok {A B} (a : A) (f : A -> res B) : bind (Ok a) f = f a.
Proof. reflexivity. Qed.

(** * Boolean equality *)

Lemma str_eqb_eq s t : str_eqb s t = true <-> s = t.
Proof.
  revert t; induction s as [|x s IH]; intros [|y t]; cbn; split; try congruence; try easy.
  - intros H. apply andb_true_iff in H. destruct H as [H1 H2].
    apply N.eqb_eq in H1. apply IH in H2. congruence.
  - intros [= -> ->]. rewrite N.eqb_refl. apply IH. reflexivity.
Qed.

Lemma str_eqb_refl s : str_eqb s s = true.
Proof. apply str_eqb_eq. reflexivity. Qed.

Lemma str_eqb_neq s t : str_eqb s t = false <-> s <> t.
Proof.
  destruct (str_eqb s t) eqn:E.
  - apply str_eqb_eq in E. split; congruence.
  - split; [|easy]. intros _ ->. rewrite str_eqb_refl in E. discriminate.
Qed.

Lemma str_eq_dec (s t : str) : {s = t} + {s <> t}.
Proof. apply list_eq_dec, N.eq_dec. Qed.

Lemma startswith_app p t : startswith p (p ++ t) = true.
Proof. induction p; cbn; [reflexivity|]. now rewrite N.eqb_refl. Qed.

Lemma startswith_spec p s : startswith p s = true <-> exists t, s = p ++ t.
Proof.
  split.
  - revert s; induction p as [|x p IH]; intros s H; [now exists s|].
    destruct s as [|y s]; [discriminate|]. cbn in H.
    apply andb_true_iff in H. destruct H as [H1 H2]. apply N.eqb_eq in H1. subst y.
    destruct (IH _ H2) as (t & ->). now exists t.
  - intros (t & ->). apply startswith_app.
Qed.

Lemma forallb_app' {A} (p : A -> bool) a b : forallb p (a ++ b) = forallb p a && forallb p b.
Proof. apply forallb_app. Qed.

Lemma forallb_In {A} (p : A -> bool) l x : forallb p l = true -> In x l -> p x = true.
Proof. intros H. revert x. now apply forallb_forall. Qed.

Lemma forallb_imp {A} (p q : A -> bool) l :
  (forall x, p x = true -> q x = true) -> forallb p l = true -> forallb q l = true.
Proof. intros H. rewrite !forallb_forall. auto. Qed.

Lemma forallb_repeat {A} (p : A -> bool) x n : p x = true -> forallb p (repeat x n) = true.
Proof. intros H. induction n; cbn; [reflexivity|]. now rewrite H. Qed.

Lemma forallb_firstn {A} (p : A -> bool) n l : forallb p l = true -> forallb p (firstn n l) = true.
Proof.
  rewrite !forallb_forall. intros H x Hx. apply H. rewrite <- (firstn_skipn n l).
  apply in_or_app. now left.
Qed.
Lemma forallb_skipn {A} (p : A -> bool) n l : forallb p l = true -> forallb p (skipn n l) = true.
Proof.
  rewrite !forallb_forall. intros H x Hx. apply H. rewrite <- (firstn_skipn n l).
  apply in_or_app. now right.
Qed.

Lemma notin_forallb (p : N -> bool) c l : forallb p l = true -> p c = false -> ~ In c l.
Proof. intros H Hc Hin. rewrite (forallb_In _ _ _ H Hin) in Hc. discriminate. Qed.

(** * split and join *)

Lemma split_nonempty c s : split c s <> [].
Proof.
  destruct s as [|x s]; cbn; [discriminate|].
  destruct (x =? c); [discriminate|]. destruct (split c s); discriminate.
Qed.

Lemma split_nosep c s : ~ In c s -> split c s = [s].
Proof.
  induction s as [|x s IH]; intros H; [reflexivity|].
  cbn. destruct (N.eqb_spec x c) as [->|Hx].
  - exfalso. apply H. now left.
  - rewrite IH; [reflexivity|]. intros Hin. apply H. now right.
Qed.

Lemma split_app c a b : ~ In c a -> split c (a ++ c :: b) = a :: split c b.
Proof.
  induction a as [|x a IH]; intros H; cbn [app split].
  - now rewrite N.eqb_refl.
  - destruct (N.eqb_spec x c) as [->|Hx].
    + exfalso. apply H. now left.
    + rewrite IH; [reflexivity|]. intros Hin. apply H. now right.
Qed.

Lemma split_app1 c a b : ~ In c a -> split c (a ++ [c] ++ b) = a :: split c b.
Proof. apply split_app. Qed.

Lemma join_cons sep x l : l <> [] -> join sep (x :: l) = x ++ sep ++ join sep l.
Proof. destruct l; [congruence|reflexivity]. Qed.

Lemma join_split c s : join [c] (split c s) = s.
Proof.
  induction s as [|x s IH]; [reflexivity|].
  cbn [split]. destruct (N.eqb_spec x c) as [->|Hx].
  - rewrite join_cons by apply split_nonempty. now rewrite IH.
  - destruct (split c s) as [|p ps] eqn:E; [now apply split_nonempty in E|].
    rewrite <- IH. destruct ps; reflexivity.
Qed.

Lemma split_parts_nosep c s p : In p (split c s) -> ~ In c p.
Proof.
  revert p; induction s as [|x s IH]; intros p Hp; cbn in Hp.
  - destruct Hp as [<-|[]]. intros [].
  - destruct (N.eqb_spec x c) as [->|Hx].
    + destruct Hp as [<-|Hp]; [intros []|now apply IH].
    + destruct (split c s) as [|q qs] eqn:E; [now apply split_nonempty in E|].
      destruct Hp as [<-|Hp].
      * intros [Heq|Hin]; [congruence|]. apply (IH q); [now left|exact Hin].
      * apply IH. now right.
Qed.

(** * slices *)

Lemma firstn_exact {A} (a b : list A) n : length a = n -> firstn n (a ++ b) = a.
Proof. intros <-. rewrite firstn_app, Nat.sub_diag, firstn_all. cbn. apply app_nil_r. Qed.
Lemma skipn_exact {A} (a b : list A) n : length a = n -> skipn n (a ++ b) = b.
Proof. intros <-. rewrite skipn_app, Nat.sub_diag, skipn_all. reflexivity. Qed.

Lemma sl_mid {A} (a b c : list A) i j :
  length a = i -> (length a + length b)%nat = j -> sl i j (a ++ b ++ c) = b.
Proof. intros Ha Hb. unfold sl. rewrite skipn_exact by exact Ha. apply firstn_exact. lia. Qed.

Lemma length_sl {A} i j (l : list A) : (i <= j)%nat -> (j <= length l)%nat -> length (sl i j l) = (j - i)%nat.
Proof. intros. unfold sl. rewrite firstn_length, skipn_length. lia. Qed.

Lemma skipn_skipn' {A} (l : list A) a b : skipn a (skipn b l) = skipn (a + b) l.
Proof.
  revert l; induction b as [|b IH]; intros l; [now rewrite Nat.add_0_r|].
  rewrite Nat.add_succ_r. destruct l; [now rewrite !skipn_nil|]. cbn. apply IH.
Qed.

Lemma firstn_add {A} (l : list A) a b : firstn (a + b) l = firstn a l ++ firstn b (skipn a l).
Proof.
  revert l; induction a as [|a IH]; intros l; [reflexivity|].
  destruct l; cbn; [now rewrite firstn_nil|]. now rewrite IH.
Qed.

Lemma sl_app_split {A} (l : list A) i j : (i <= j)%nat -> skipn i l = sl i j l ++ skipn j l.
Proof.
  intros H. unfold sl.
  replace (skipn j l) with (skipn (j - i) (skipn i l)).
  - now rewrite firstn_skipn.
  - rewrite skipn_skipn'. f_equal. lia.
Qed.

Lemma firstn_sl {A} (l : list A) i j : (i <= j)%nat -> firstn j l = firstn i l ++ sl i j l.
Proof.
  intros H. unfold sl. rewrite <- firstn_add. f_equal. lia.
Qed.

(** * padding *)

Lemma length_padl c w s : length (padl c w s) = Nat.max w (length s).
Proof. unfold padl. rewrite app_length, repeat_length. lia. Qed.
Lemma length_padr c w s : length (padr c w s) = Nat.max w (length s).
Proof. unfold padr. rewrite app_length, repeat_length. lia. Qed.
Lemma padl_ge c w s : (w <= length s)%nat -> padl c w s = s.
Proof. intros H. unfold padl. replace (w - length s)%nat with 0%nat by lia. reflexivity. Qed.
Lemma padr_ge c w s : (w <= length s)%nat -> padr c w s = s.
Proof. intros H. unfold padr. replace (w - length s)%nat with 0%nat by lia. apply app_nil_r. Qed.
