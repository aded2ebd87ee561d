(** The backtracking search finds a match exactly when there is one. *)
From Coq Require Import Lia.
From Verif.Model Require Import Py Re Sre.
From Verif.Spec Require Import SpecSre.
From Verif.Proofs Require Import Basics.

Definition ok_k (k : cont) (s : str) : Prop := fst (k s) <> None.

(** what a search step must satisfy *)
Definition sound (m : cont -> cont) (M : str -> str -> Prop) : Prop :=
  forall k s r, fst (m k s) = Some r -> exists u t, s = u ++ t /\ M u t /\ fst (k t) = Some r.
Definition complete (m : cont -> cont) (M : str -> str -> Prop) : Prop :=
  forall k u t, M u t -> ok_k k t -> ok_k (m k) (u ++ t).

Lemma orelse_fst x y : fst (orelse x y) = match fst x with Some r => Some r | None => fst (y tt) end.
Proof. unfold orelse. destruct (fst x) eqn:E; [exact E|reflexivity]. Qed.
Lemma tick_fst x : fst (tick x) = fst x.
Proof. reflexivity. Qed.

Lemma rounds_app m n1 n2 u v t :
  rounds m n1 u (v ++ t) -> rounds m n2 v t -> rounds m (n1 + n2) (u ++ v) t.
Proof.
  intros H. remember (v ++ t) as w eqn:E. induction H as [w|n a b w Ha Hb IH]; intros H2; subst w.
  - exact H2.
  - rewrite <- app_assoc. cbn [Nat.add]. constructor; [rewrite <- app_assoc; exact Ha|apply IH; auto].
Qed.

Lemma at_least_sound m M n : sound m M -> sound (at_least m n) (fun u t => rounds M n u t).
Proof.
  intros S. induction n as [|n IH]; intros k s r H; cbn [at_least] in H.
  - exists [], s. repeat split; [constructor|exact H].
  - destruct (S _ _ _ H) as (u & t & -> & Hu & Hk).
    destruct (IH _ _ _ Hk) as (v & w & -> & Hv & Hw).
    exists (u ++ v), w. split; [now rewrite app_assoc|]. split; [constructor; assumption|exact Hw].
Qed.

Lemma at_least_complete m M n : complete m M -> complete (at_least m n) (fun u t => rounds M n u t).
Proof.
  intros C. induction n as [|n IH]; intros k u t H Hk; cbn [at_least].
  - inversion H; subst. exact Hk.
  - inversion H as [|n' a b t' Ha Hb]; subst. rewrite <- app_assoc. apply C; [exact Ha|].
    apply IH; assumption.
Qed.

Lemma at_most_sound m M n : sound m M ->
  forall k s r, fst (at_most m n k s) = Some r ->
  exists i u t, (i <= n)%nat /\ s = u ++ t /\ rounds M i u t /\ fst (k t) = Some r.
Proof.
  intros S. induction n as [|n IH]; intros k s r H; cbn [at_most] in H.
  - exists 0%nat, [], s. repeat split; [lia|constructor|exact H].
  - rewrite tick_fst, orelse_fst in H. destruct (fst (m _ s)) eqn:E.
    + rewrite H in E. destruct (S _ _ _ E) as (u & t & -> & Hu & Hk).
      destruct (Nat.ltb _ _).
      * destruct (IH _ _ _ Hk) as (i & v & w & Hi & -> & Hv & Hw).
        exists (Datatypes.S i), (u ++ v), w. split; [lia|]. split; [now rewrite app_assoc|].
        split; [constructor; assumption|exact Hw].
      * exists 1%nat, u, t. split; [lia|]. split; [reflexivity|]. split; [|exact Hk].
        rewrite <- (app_nil_r u). constructor; [exact Hu|constructor].
    + exists 0%nat, [], s. repeat split; [lia|constructor|exact H].
Qed.

Lemma at_most_complete m M : complete m M ->
  forall i n k u t, (i <= n \/ length (u ++ t) <= n)%nat -> rounds M i u t -> ok_k k t ->
  ok_k (at_most m n k) (u ++ t).
Proof.
  intros C. induction i as [|i IH]; intros n k u t Hn H Hk.
  - inversion H; subst. cbn [app]. unfold ok_k in *.
    destruct n; cbn [at_most]; [exact Hk|]. rewrite tick_fst, orelse_fst.
    destruct (fst (m _ t)); [discriminate|exact Hk].
  - inversion H as [|i' a b t' Ha Hb]; subst. rewrite <- app_assoc.
    destruct a as [|c a].
    + cbn [app]. apply IH; [|exact Hb|exact Hk]. rewrite <- app_assoc in Hn. cbn [app] in Hn. lia.
    + destruct n as [|n].
      { exfalso. cbn [app length] in Hn. lia. }
      unfold ok_k. cbn [at_most]. rewrite tick_fst, orelse_fst.
      match goal with |- match fst (m ?K ?s) with _ => _ end <> None =>
        assert (X : ok_k (m K) s) end.
      { apply C; [exact Ha|]. unfold ok_k.
        replace (Nat.ltb _ _) with true.
        - apply IH; [|exact Hb|exact Hk]. rewrite <- app_assoc in Hn. cbn [app length] in Hn.
          rewrite app_length in Hn. lia.
        - symmetry. apply Nat.ltb_lt. cbn [app length]. rewrite !app_length. lia. }
      unfold ok_k in X. destruct (fst (m _ _)); [discriminate|congruence].
Qed.

Lemma cls_match_in l c : cls_match l c = true <-> exists i, In i l /\ citem_match i c = true.
Proof. unfold cls_match. apply existsb_exists. Qed.

Theorem run_sound p : wf p -> sound (run p) (matches p).
Proof.
  induction p as [|l| | |a IHa b IHb|a IHa b IHb|lo hi a IHa]; intros W k s r H; cbn [run] in H; cbn [matches]; cbn [wf] in W.
  - exists [], s. auto.
  - destruct s as [|c t]; [discriminate|]. destruct (cls_match l c) eqn:E; [|discriminate].
    exists [c], t. repeat split; [|exact H]. exists c. split; [reflexivity|]. now apply cls_match_in.
  - destruct s as [|c t]; [discriminate|]. destruct (dotc c) eqn:E; [|discriminate].
    exists [c], t. repeat split; [|exact H]. exists c. split; [reflexivity|].
    unfold dotc, c_nl in E. intros ->. discriminate E.
  - destruct (str_eqb s [] || str_eqb s [c_nl])%bool eqn:E; [|discriminate].
    exists [], s. repeat split; [|exact H]. apply orb_true_iff in E.
    destruct E as [E|E]; apply str_eqb_eq in E; auto.
  - destruct W as [Wa Wb]. specialize (IHa Wa). specialize (IHb Wb).
    destruct (IHa _ _ _ H) as (u & t & -> & Hu & Hk). destruct (IHb _ _ _ Hk) as (v & w & -> & Hv & Hw).
    exists (u ++ v), w. split; [now rewrite app_assoc|]. split; [|exact Hw]. now exists u, v.
  - destruct W as [Wa Wb]. specialize (IHa Wa). specialize (IHb Wb).
    rewrite tick_fst, orelse_fst in H. destruct (fst (run a k s)) eqn:E.
    + rewrite H in E. destruct (IHa _ _ _ E) as (u & t & -> & Hu & Hk). exists u, t. auto.
    + destruct (IHb _ _ _ H) as (u & t & -> & Hu & Hk). exists u, t. auto.
  - destruct W as [Wh Wa]. specialize (IHa Wa).
    destruct (at_least_sound _ _ lo IHa _ _ _ H) as (u & t & -> & Hu & Hk).
    destruct (at_most_sound _ _ _ IHa _ _ _ Hk) as (i & v & w & Hi & -> & Hv & Hw).
    exists (u ++ v), w. split; [now rewrite app_assoc|]. split; [|exact Hw].
    exists (lo + i)%nat. split; [lia|]. split; [|now apply rounds_app].
    intros h ->. specialize (Wh h eq_refl). lia.
Qed.

Lemma rounds_split m n1 n2 u t : rounds m (n1 + n2) u t ->
  exists v w, u = v ++ w /\ rounds m n1 v (w ++ t) /\ rounds m n2 w t.
Proof.
  revert u. induction n1 as [|n1 IH]; intros u H.
  - exists [], u. repeat split; [constructor|exact H].
  - cbn [Nat.add] in H. inversion H as [|n a b t' Ha Hb]; subst.
    destruct (IH _ Hb) as (v & w & -> & Hv & Hw).
    exists (a ++ v), w. split; [now rewrite app_assoc|]. split; [|exact Hw].
    constructor; [rewrite <- app_assoc in Ha; exact Ha|exact Hv].
Qed.

Theorem run_complete p : wf p -> complete (run p) (matches p).
Proof.
  induction p as [|l| | |a IHa b IHb|a IHa b IHb|lo hi a IHa]; intros W k u t H Hk; cbn [matches] in H; cbn [wf] in W; unfold ok_k; cbn [run].
  - subst u. exact Hk.
  - destruct H as (c & -> & H). cbn [app]. apply cls_match_in in H. rewrite H. exact Hk.
  - destruct H as (c & -> & H). cbn [app].
    replace (dotc c) with true; [exact Hk|]. unfold dotc, c_nl.
    destruct (N.eqb_spec c 10); [contradiction|reflexivity].
  - destruct H as [-> H]. cbn [app].
    replace (str_eqb t [] || str_eqb t [c_nl])%bool with true; [exact Hk|].
    destruct H as [-> | ->]; reflexivity.
  - destruct W as [Wa Wb]. destruct H as (v & w & -> & Hv & Hw). rewrite <- app_assoc.
    apply (IHa Wa); [exact Hv|]. apply (IHb Wb); assumption.
  - destruct W as [Wa Wb]. rewrite tick_fst, orelse_fst.
    destruct (fst (run a k (u ++ t))) eqn:E; [discriminate|].
    destruct H as [H|H]; [|exact (IHb Wb k u t H Hk)].
    pose proof (IHa Wa k u t H Hk) as X. unfold ok_k in X. congruence.
  - destruct W as [Wh Wa]. destruct H as (n & Hlo & Hhi & Hr).
    replace n with (lo + (n - lo))%nat in Hr by lia.
    destruct (rounds_split _ _ _ _ _ Hr) as (v & w & -> & Hv & Hw). rewrite <- app_assoc.
    apply (at_least_complete _ _ lo (IHa Wa)); [exact Hv|]. unfold ok_k.
    apply (at_most_complete _ _ (IHa Wa) (n - lo)); [|exact Hw|exact Hk].
    destruct hi as [h|]; [left|right; lia]. specialize (Hhi h eq_refl). lia.
Qed.

(** the two entry points *)
Theorem sre_fullmatch_iff p s : wf p -> sre_fullmatch p s = true <-> matches p s [].
Proof.
  intros W. unfold sre_fullmatch. destruct (fst (run p k_full s)) as [r|] eqn:E; split; intros H.
  - destruct (run_sound p W _ _ _ E) as (u & t & -> & Hu & Hk).
    destruct t; [|discriminate Hk]. now rewrite app_nil_r.
  - reflexivity.
  - discriminate.
  - pose proof (run_complete p W k_full s [] H) as X. rewrite app_nil_r in X.
    exfalso. apply X; [discriminate|exact E].
Qed.

Theorem sre_match_iff p s : wf p ->
  (exists t, sre_match p s = Some t) <-> exists u t, s = u ++ t /\ matches p u t.
Proof.
  intros W. unfold sre_match. split.
  - intros [r E]. destruct (run_sound p W _ _ _ E) as (u & t & -> & Hu & Hk). now exists u, t.
  - intros (u & t & -> & H). pose proof (run_complete p W k_match u t H) as X.
    destruct (fst (run p k_match (u ++ t))) as [r|] eqn:E; [now exists r|].
    exfalso. apply X; [discriminate|exact E].
Qed.

Theorem sre_match_some p s t : wf p -> sre_match p s = Some t -> exists u, s = u ++ t /\ matches p u t.
Proof.
  intros W E. destruct (run_sound p W _ _ _ E) as (u & t' & -> & Hu & Hk).
  injection Hk as ->. now exists u.
Qed.
