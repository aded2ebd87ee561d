(** [replace_uri_escapes] and [revert_uri_escapes] as one-pass functions. *)
From Coq Require Import String.
From Verif.Model Require Import Py Re Common Cpi.
From Verif.Spec Require Import Spec.
From Verif.Proofs Require Import Basics.

(** * One-character patterns *)

Lemma replace_char c new s : replace [c] new s = flat_map (fun x => if x =? c then new else [x]) s.
Proof.
  unfold replace. induction s as [|x s IH]; [reflexivity|].
  cbn [replace_aux flat_map startswith length]. rewrite N.eqb_sym, andb_true_r.
  destruct (x =? c); cbn [Nat.sub]; rewrite IH; reflexivity.
Qed.

Lemma flat_map_flat_map {A B C} (g : B -> list C) (f : A -> list B) l :
  flat_map g (flat_map f l) = flat_map (fun x => flat_map g (f x)) l.
Proof. induction l; cbn; [reflexivity|]. now rewrite flat_map_app, IHl. Qed.

Lemma flat_map_ext' {A B} (f g : A -> list B) l : (forall x, f x = g x) -> flat_map f l = flat_map g l.
Proof. intros H. induction l; cbn; [reflexivity|]. now rewrite H, IHl. Qed.

(** does not compare equal to any of the seven *)
Lemma escape_char_other c : ~ reserved c -> escape_char c = [c].
Proof.
  intros H. unfold escape_char.
  unfold reserved in H. cbn [In] in H.
  assert (c <> 34 /\ c <> 37 /\ c <> 38 /\ c <> 47 /\ c <> 60 /\ c <> 62 /\ c <> 63) as (? & ? & ? & ? & ? & ? & ?)
    by (repeat split; intros ->; apply H; tauto).
  clear H.
  destruct c as [|p]; [reflexivity|].
  repeat (destruct p as [p|p|]; try reflexivity; try congruence).
Qed.

Lemma reserved_dec c : reserved c \/ ~ reserved c.
Proof. unfold reserved. destruct (in_dec N.eq_dec c [34; 37; 38; 47; 60; 62; 63]); auto. Qed.

Theorem revert_uri_escapes_spec s : revert_uri_escapes s = escape s.
Proof.
  unfold revert_uri_escapes, escape.
  change (lit "%") with [37]. change (lit "&") with [38]. change (lit "/") with [47].
  change (lit "<") with [60]. change (lit ">") with [62]. change (lit "?") with [63].
  cbv zeta. rewrite !replace_char, !flat_map_flat_map. apply flat_map_ext'. intros c.
  destruct (reserved_dec c) as [H|H].
  - unfold reserved in H. cbn in H. repeat destruct H as [<-|H]; try reflexivity. destruct H.
  - rewrite escape_char_other by exact H. unfold reserved in H. cbn in H.
    assert (E : forall k, In k [34; 37; 38; 47; 60; 62; 63] -> (c =? k) = false).
    { intros k Hk. apply N.eqb_neq. intros ->. apply H. exact Hk. }
    repeat match goal with
    | |- context [c =? ?k] => rewrite (E k) by (cbn; tauto); cbn [flat_map app]
    end.
    reflexivity.
Qed.

(** * Unescaping *)

(** one pass over the text, replacing [%ab] by [x] for each [(a, b, x)] of the table *)
Definition table := list (N * N * N).
Fixpoint tfind (t : table) (a b : N) : option N :=
  match t with
  | [] => None
  | (a', b', x) :: t' => if (a =? a') && (b =? b') then Some x else tfind t' a b
  end.
Fixpoint unesc (t : table) (s : str) : str :=
  match s with
  | [] => []
  | c :: s' =>
      if c =? c_pct then
        match s' with
        | a :: s1 =>
            match s1 with
            | b :: s2 => match tfind t a b with Some x => x :: unesc t s2 | None => c :: unesc t s' end
            | [] => c :: unesc t s'
            end
        | [] => c :: unesc t s'
        end
      else c :: unesc t s'
  end.

(** the characters of the patterns, and the results, of a table *)
Definition tchars (t : table) : list N := flat_map (fun e => match e with (a, b, _) => [a; b] end) t.
Definition tresults (t : table) : list N := map snd t.

Lemma tfind_chars t a b x : tfind t a b = Some x -> In a (tchars t) /\ In b (tchars t) /\ In x (tresults t).
Proof.
  induction t as [|[[a' b'] x'] t IH]; [discriminate|]. cbn.
  destruct ((a =? a') && (b =? b')) eqn:E.
  - intros [= ->]. apply andb_true_iff in E. destruct E as [E1 E2]. apply N.eqb_eq in E1, E2. subst. auto.
  - intros H. destruct (IH H) as (H1 & H2 & H3). auto.
Qed.

Lemma tfind_app t u a b : tfind (t ++ u) a b = match tfind t a b with Some x => Some x | None => tfind u a b end.
Proof.
  induction t as [|[[a' b'] x'] t IH]; [reflexivity|]. cbn.
  destruct ((a =? a') && (b =? b')); [reflexivity|exact IH].
Qed.

Lemma str_ind2 (P : str -> Prop) :
  (forall s, (forall t, (length t < length s)%nat -> P t) -> P s) -> forall s, P s.
Proof.
  intros H s. assert (G : forall n s, (length s < n)%nat -> P s).
  { induction n as [|n IH]; intros t Ht; [lia|]. apply H. intros u Hu. apply IH. lia. }
  apply (G (S (length s))). lia.
Qed.

Lemma unesc_nonpct t c s : c <> c_pct -> unesc t (c :: s) = c :: unesc t s.
Proof. intros H. cbn. apply N.eqb_neq in H. now rewrite H. Qed.
Lemma unesc_hit t a b x s : tfind t a b = Some x -> unesc t (c_pct :: a :: b :: s) = x :: unesc t s.
Proof. intros H. cbn [unesc]. rewrite H. reflexivity. Qed.
Lemma unesc_miss t a b s : tfind t a b = None -> unesc t (c_pct :: a :: b :: s) = c_pct :: unesc t (a :: b :: s).
Proof. intros H. cbn [unesc]. rewrite H. reflexivity. Qed.

(** head of an unescaped text *)
Lemma unesc_head t s : unesc t s = [] \/ exists c r, unesc t s = c :: r /\
  (In c (tresults t) \/ c = c_pct \/ exists s', s = c :: s' /\ r = unesc t s').
Proof.
  destruct s as [|c s]; [now left|]. right. destruct (N.eq_dec c c_pct) as [->|Hc].
  - destruct s as [|a [|b s]].
    + exists c_pct, []. split; [reflexivity|auto].
    + exists c_pct, (unesc t [a]). split; [reflexivity|auto].
    + destruct (tfind t a b) as [x|] eqn:E.
      * exists x, (unesc t s). rewrite (unesc_hit _ _ _ _ _ E). split; [reflexivity|].
        left. apply tfind_chars in E. tauto.
      * exists c_pct, (unesc t (a :: b :: s)). rewrite (unesc_miss _ _ _ _ E). auto.
  - exists c, (unesc t s). rewrite unesc_nonpct by exact Hc. split; [reflexivity|]. right. right. eauto.
Qed.

(** unescaping with [t], then with [u], is unescaping with both when nothing [t] produces can take
    part in a pattern of [u] *)
Lemma unesc_compose t u :
  (forall x, In x (tresults t) -> ~ In x (tchars u) /\ x <> c_pct) -> ~ In c_pct (tchars u) -> ~ In c_pct (tchars t) ->
  forall s, unesc u (unesc t s) = unesc (t ++ u) s.
Proof.
  intros Ht Hu Ht' s. induction s as [s IH] using str_ind2.
  destruct s as [|c s]; [reflexivity|].
  destruct (N.eq_dec c c_pct) as [->|Hc].
  2:{ rewrite !unesc_nonpct by exact Hc. f_equal. apply IH. cbn. lia. }
  assert (Miss : forall r, (forall a b r', r = a :: b :: r' -> tfind t a b = None /\ tfind u a b = None) ->
    (length r < length (c_pct :: s))%nat ->
    unesc u (c_pct :: unesc t r) = c_pct :: unesc (t ++ u) r).
  { intros r Hr Hlen. rewrite <- (IH r Hlen).
    destruct (unesc_head t r) as [E|(x & q & E & Hx)]; [rewrite E; reflexivity|].
    rewrite E. destruct q as [|y q]; [reflexivity|].
    rewrite unesc_miss; [reflexivity|].
    destruct (tfind u x y) as [z|] eqn:F; [exfalso|reflexivity].
    apply tfind_chars in F as F'. destruct F' as (F1 & F2 & _).
    destruct Hx as [Hx|[->|(r' & -> & Eq)]].
    - now destruct (Ht _ Hx).
    - auto.
    - destruct (unesc_head t r') as [E'|(y' & q' & E' & Hy)]; [congruence|].
      rewrite E' in Eq. injection Eq as <- <-.
      destruct Hy as [Hy|[->|(r'' & -> & _)]].
      + now destruct (Ht _ Hy).
      + auto.
      + destruct (Hr x y r'' eq_refl). congruence. }
  destruct s as [|a [|b s]].
  - reflexivity.
  - change (unesc t [c_pct; a]) with (c_pct :: unesc t [a]).
    change (unesc (t ++ u) [c_pct; a]) with (c_pct :: unesc (t ++ u) [a]).
    apply Miss; [discriminate|cbn; lia].
  - destruct (tfind t a b) as [x|] eqn:E.
    + rewrite (unesc_hit t _ _ _ _ E).
      rewrite (unesc_hit (t ++ u) a b x) by (rewrite tfind_app, E; reflexivity).
      apply tfind_chars in E. rewrite unesc_nonpct by (apply Ht; tauto). f_equal. apply IH. cbn. lia.
    + rewrite (unesc_miss t _ _ _ E).
      destruct (tfind u a b) as [x|] eqn:F.
      * rewrite (unesc_hit (t ++ u) a b x) by (rewrite tfind_app, E; exact F).
        apply tfind_chars in F as F'. destruct F' as (F1 & F2 & _).
        rewrite (unesc_nonpct t a) by congruence. rewrite (unesc_nonpct t b) by congruence.
        rewrite (unesc_hit u _ _ _ _ F). f_equal. apply IH. cbn. lia.
      * rewrite (unesc_miss (t ++ u)) by (rewrite tfind_app, E; exact F).
        apply Miss; [|cbn; lia]. intros a' b' r' [= <- <- <-]. auto.
Qed.

Lemma replace_escape a b x s : a <> c_pct -> b <> c_pct ->
  replace [c_pct; a; b] [x] s = unesc [(a, b, x)] s.
Proof.
  intros Ha Hb. unfold replace. induction s as [s IH] using str_ind2.
  destruct s as [|c s]; [reflexivity|].
  destruct (N.eq_dec c c_pct) as [->|Hc].
  2:{ rewrite unesc_nonpct by exact Hc. cbn [replace_aux startswith]. 
      rewrite N.eqb_sym. apply N.eqb_neq in Hc. rewrite Hc. cbn [andb]. f_equal. apply IH. cbn. lia. }
  destruct s as [|a' [|b' s]].
  - cbn. reflexivity.
  - cbn [replace_aux startswith]. rewrite N.eqb_refl. cbn [andb].
    replace ((a =? a') && false) with false by (destruct (a =? a'); reflexivity).
    change (unesc [(a, b, x)] [c_pct; a']) with (c_pct :: unesc [(a, b, x)] [a']). f_equal.
    rewrite <- IH by (cbn; lia). reflexivity.
  - cbn [replace_aux startswith]. rewrite N.eqb_refl. cbn [andb].
    rewrite andb_true_r. destruct ((a =? a') && (b =? b')) eqn:E.
    + rewrite (unesc_hit _ a' b' x); [|cbn; rewrite (N.eqb_sym a'), (N.eqb_sym b'), E; reflexivity].
      cbn [length Nat.sub app]. f_equal. apply IH. cbn. lia.
    + rewrite unesc_miss; [|cbn; rewrite (N.eqb_sym a'), (N.eqb_sym b'), E; reflexivity].
      f_equal. rewrite <- IH by (cbn; lia). reflexivity.
Qed.

(** 22 26 2F 3C 3E 3F 25 *)
Definition uri_table : table :=
  [(50, 50, 34); (50, 54, 38); (50, 70, 47); (51, 67, 60); (51, 69, 62); (51, 70, 63); (50, 53, 37)].

Ltac notin := let H := fresh in intros H; cbn in H; repeat destruct H as [H|H]; try discriminate H; destruct H.
Ltac tcond := let x := fresh in let H := fresh in
  intros x H; cbn in H; repeat (destruct H as [<-|H]; [split; [notin|discriminate]|]); destruct H.

Theorem replace_uri_escapes_spec s : replace_uri_escapes s = unesc uri_table s.
Proof.
  unfold replace_uri_escapes. cbv zeta.
  change (lit "%22") with [c_pct; 50; 50]. change (lit "%26") with [c_pct; 50; 54].
  change (lit "%2F") with [c_pct; 50; 70]. change (lit "%3C") with [c_pct; 51; 67].
  change (lit "%3E") with [c_pct; 51; 69]. change (lit "%3F") with [c_pct; 51; 70].
  change (lit "%25") with [c_pct; 50; 53].
  change (lit "&") with [38]. change (lit "/") with [47]. change (lit "<") with [60].
  change (lit ">") with [62]. change (lit "?") with [63]. change (lit "%") with [37].
  rewrite !replace_escape by discriminate.
  do 6 (rewrite unesc_compose; [|tcond|notin|notin]).
  reflexivity.
Qed.

(** unescaping an escaped text *)
Lemma unesc_escape s : unesc uri_table (escape s) = s.
Proof.
  induction s as [|c s IH]; [reflexivity|]. unfold escape. cbn [flat_map]. fold (escape s).
  destruct (reserved_dec c) as [H|H].
  - unfold reserved in H. cbn in H.
    repeat (destruct H as [<-|H]; [cbn [escape_char lit app]; cbn; f_equal; exact IH|]). destruct H.
  - rewrite escape_char_other by exact H. cbn [app]. rewrite unesc_nonpct, IH; [reflexivity|].
    intros ->. apply H. right. now left.
Qed.

Theorem replace_revert s : replace_uri_escapes (revert_uri_escapes s) = s.
Proof. rewrite revert_uri_escapes_spec, replace_uri_escapes_spec. apply unesc_escape. Qed.

Theorem revert_replace_escape s : revert_uri_escapes (replace_uri_escapes (escape s)) = escape s.
Proof. rewrite revert_uri_escapes_spec, replace_uri_escapes_spec. now rewrite unesc_escape. Qed.

Lemma escape_inj s t : escape s = escape t -> s = t.
Proof. intros H. rewrite <- (unesc_escape s), H. apply unesc_escape. Qed.

Lemma replace_uri_escapes_escape s : replace_uri_escapes (escape s) = s.
Proof. rewrite replace_uri_escapes_spec. apply unesc_escape. Qed.

Lemma escape_app s t : escape (s ++ t) = escape s ++ escape t.
Proof. apply flat_map_app. Qed.

(** * The six-bit escapes of CPI (and ADI): # and / *)

Definition cpi_table : table := [(50, 51, 35); (50, 70, 47)].

Definition cpi_esc_char (c : N) : str := if c =? 35 then lit "%23" else if c =? 47 then lit "%2F" else [c].
Definition cpi_escape (t : str) : str := flat_map cpi_esc_char t.

Lemma replace_cpi_escapes_spec s : replace_cpi_escapes s = unesc cpi_table s.
Proof.
  unfold replace_cpi_escapes.
  change (lit "%23") with [c_pct; 50; 51]. change (lit "%2F") with [c_pct; 50; 70].
  change (lit "#") with [35]. change (lit "/") with [47].
  rewrite !replace_escape by discriminate. rewrite unesc_compose; [reflexivity|tcond|notin|notin].
Qed.

Lemma revert_cpi_escapes_spec s : revert_cpi_escapes s = cpi_escape s.
Proof.
  unfold revert_cpi_escapes, cpi_escape. change (lit "#") with [35]. change (lit "/") with [47].
  rewrite !replace_char, !flat_map_flat_map. apply flat_map_ext'. intros c. unfold cpi_esc_char.
  destruct (N.eqb_spec c 35) as [->|H]; [reflexivity|]. cbn [flat_map app].
  rewrite app_nil_r. reflexivity.
Qed.

Lemma unesc_cpi_escape s : ~ In c_pct s -> unesc cpi_table (cpi_escape s) = s.
Proof.
  induction s as [|c s IH]; intros Hp; [reflexivity|]. unfold cpi_escape. cbn [flat_map]. fold (cpi_escape s).
  assert (IH' : unesc cpi_table (cpi_escape s) = s) by (apply IH; intros H; apply Hp; now right).
  unfold cpi_esc_char. destruct (N.eqb_spec c 35) as [->|H1]; [cbn; f_equal; exact IH'|].
  destruct (N.eqb_spec c 47) as [->|H2]; [cbn; f_equal; exact IH'|].
  cbn [app]. rewrite unesc_nonpct, IH'; [reflexivity|]. intros ->. apply Hp. now left.
Qed.

Lemma revert_inj s t : revert_uri_escapes s = revert_uri_escapes t -> s = t.
Proof. rewrite !revert_uri_escapes_spec. apply escape_inj. Qed.

Lemma revert_replace_refuted : exists t, revert_uri_escapes (replace_uri_escapes t) <> t.
Proof. exists (lit "%2f"). vm_compute. discriminate. Qed.
