(** Parsed patterns as regular expressions, and comparison of two regular expressions. *)
From Coq Require Import Lia Setoid.
From Verif.Model Require Import Py Re Sre.
From Verif.Spec Require Import SpecSre.
From Verif.Proofs Require Import Basics ReLemmas SreSound.

(** * The parser only lets well-formed repetitions through *)

Lemma quantifier_wf a s q r : wf a -> quantifier a s = Some (q, r) -> wf q.
Proof.
  intros W. unfold quantifier.
  assert (F : forall lo hi t, (forall h, hi = Some h -> (lo <= h)%nat) ->
     (if starts_repeat t then None else Some (PRep lo hi a, t)) = Some (q, r) -> wf q).
  { intros lo hi t Hh H. destruct (starts_repeat t); [discriminate|]. injection H as <- <-.
    cbn [wf]. auto. }
  destruct s as [|c t]; [intros H; injection H as <- <-; exact W|].
  destruct (c =? c_star); [apply F; discriminate|].
  destruct (c =? c_plus); [apply F; discriminate|].
  destruct (c =? c_quest); [apply F; intros h E; injection E as <-; lia|].
  destruct (c =? c_lbrc); [|intros H; injection H as <- <-; exact W].
  destruct (take_digits t) as [lo r1]. destruct r1 as [|d r2]; [discriminate|].
  destruct (d =? c_rbrc).
  { destruct lo as [|x lo]; [discriminate|]. apply F. intros h E. injection E as <-. lia. }
  destruct (d =? c_comma); [|discriminate].
  destruct (take_digits r2) as [hi r3]. destruct r3 as [|e r4]; [discriminate|].
  destruct (e =? c_rbrc); [|discriminate].
  destruct hi as [|x hi]; [apply F; discriminate|].
  destruct (Nat.ltb_spec (digits_nat (x :: hi)) (digits_nat lo)); [discriminate|].
  apply F. intros h E. injection E as <-. assumption.
Qed.

Lemma parse_wf n :
  (forall s p r, parse_alt n s = Some (p, r) -> wf p) /\
  (forall s p r, parse_seq n s = Some (p, r) -> wf p) /\
  (forall s p r, parse_atom n s = Some (p, r) -> wf p).
Proof.
  induction n as [|n (IA & IS & IT)]; [repeat split; discriminate|]. repeat split; intros s p r H.
  - cbn [parse_alt] in H. destruct (parse_seq n s) as [[a r1]|] eqn:E; [|discriminate].
    destruct r1 as [|c r1]; [injection H as <- <-; eapply IS; exact E|].
    destruct (c =? c_bar); [|injection H as <- <-; eapply IS; exact E].
    destruct (parse_alt n r1) as [[b r2]|] eqn:E2; [|discriminate]. injection H as <- <-.
    cbn [wf]. split; [eapply IS; exact E|eapply IA; exact E2].
  - cbn [parse_seq] in H. destruct s as [|c s]; [injection H as <- <-; exact I|].
    destruct ((c =? c_bar) || (c =? c_rpar))%bool; [injection H as <- <-; exact I|].
    destruct (parse_atom n (c :: s)) as [[a r1]|] eqn:E; [|discriminate].
    destruct (quantifier a r1) as [[q r2]|] eqn:E2; [|discriminate].
    destruct (parse_seq n r2) as [[b r3]|] eqn:E3; [|discriminate]. injection H as <- <-.
    cbn [wf]. split; [|eapply IS; exact E3]. eapply quantifier_wf; [|exact E2]. eapply IT. exact E.
  - cbn [parse_atom] in H. destruct s as [|c s]; [discriminate|].
    destruct (c =? c_bsl).
    { destruct s as [|e s]; [discriminate|]. destruct (escape_item e); [|discriminate].
      injection H as <- <-. exact I. }
    destruct (c =? c_lpar).
    { destruct s as [|q s]; [discriminate|]. destruct (q =? c_quest); [discriminate|].
      destruct (parse_alt n (q :: s)) as [[a r1]|] eqn:E; [|discriminate].
      destruct r1 as [|d r1]; [discriminate|]. destruct (d =? c_rpar); [|discriminate].
      injection H as <- <-. eapply IA. exact E. }
    destruct (c =? c_lbrk).
    { destruct s as [|h s]; [discriminate|]. destruct (h =? c_hat); [discriminate|].
      destruct (class_body _ _ _) as [[l r1]|]; [|discriminate]. injection H as <- <-. exact I. }
    destruct (c =? c_dot); [injection H as <- <-; exact I|].
    destruct (c =? c_dollar); [injection H as <- <-; exact I|].
    destruct (_ || _)%bool; [discriminate|]. injection H as <- <-. exact I.
Qed.

Theorem re_compile_wf text p : re_compile text = Some p -> wf p.
Proof.
  unfold re_compile. destruct (parse_alt _ text) as [[q r]|] eqn:E; [|discriminate].
  destruct r; [|discriminate]. intros H. injection H as <-. eapply (proj1 (parse_wf _)). exact E.
Qed.

(** * As regular expressions *)

Fixpoint erase (p : pat) : re :=
  match p with
  | PEps => REps
  | PSet l => RSet (cls_match l)
  | PAny => RSet dotc
  | PEnd => REmp
  | PSeq a b => RSeq (erase a) (erase b)
  | PAlt a b => RAlt (erase a) (erase b)
  | PRep lo None a => RSeq (rrep lo (erase a)) (RStar (erase a))
  | PRep lo (Some h) a => rrange lo h (erase a)
  end.

Fixpoint no_anchor (p : pat) : bool :=
  match p with
  | PEnd => false
  | PSeq a b | PAlt a b => no_anchor a && no_anchor b
  | PRep _ _ a => no_anchor a
  | _ => true
  end.

Section Rounds.
  Variable r : re.
  Variable m : str -> str -> Prop.
  Hypothesis H : forall u t, m u t <-> lang r u.

  Lemma rounds_rep n u t : rounds m n u t <-> lang (rrep n r) u.
  Proof.
    revert u. induction n as [|n IH]; intros u; cbn [rrep lang].
    - split; [inversion 1; reflexivity|intros ->; constructor].
    - split.
      + inversion 1 as [|n' a b t' Ha Hb]; subst. exists a, b. split; [reflexivity|].
        split; [apply H in Ha; exact Ha|now apply IH].
      + intros (a & b & -> & Ha & Hb). constructor; [now apply H|now apply IH].
  Qed.

  Lemma rounds_star u t : (exists n, rounds m n u t) <-> lang (RStar r) u.
  Proof.
    cbn [lang]. split.
    - intros [n R]. induction R as [t|n a b t Ha Hb IH]; [now exists []|].
      destruct IH as (l & -> & Hl). exists (a :: l). split; [reflexivity|].
      constructor; [apply H in Ha; exact Ha|exact Hl].
    - intros (l & -> & Hl). induction Hl as [|a l Ha Hl IH]; [exists 0%nat; constructor|].
      destruct IH as [n R]. exists (S n). cbn [concat]. constructor; [now apply H|exact R].
  Qed.

  Lemma rounds_upto k u t : (exists n, (n <= k)%nat /\ rounds m n u t) <-> lang (rupto k r) u.
  Proof.
    revert u. induction k as [|k IH]; intros u; cbn [rupto lang].
    - split.
      + intros (n & Hn & R). assert (n = 0%nat) by lia. subst n. now inversion R.
      + intros ->. exists 0%nat. split; [lia|constructor].
    - split.
      + intros (n & Hn & R). inversion R as [|n' a b t' Ha Hb]; subst; [now left|right].
        exists a, b. split; [reflexivity|]. split; [apply H in Ha; exact Ha|].
        apply IH. exists n'. split; [lia|exact Hb].
      + intros [->|(a & b & -> & Ha & Hb)]; [exists 0%nat; split; [lia|constructor]|].
        apply IH in Hb. destruct Hb as (n & Hn & R). exists (S n). split; [lia|].
        constructor; [now apply H|exact R].
  Qed.
End Rounds.

Theorem erase_lang p : wf p -> no_anchor p = true -> forall u t, matches p u t <-> lang (erase p) u.
Proof.
  induction p as [|l| | |a IHa b IHb|a IHa b IHb|lo hi a IHa]; intros W NA u t; cbn [wf no_anchor] in W, NA.
  - reflexivity.
  - cbn [matches erase lang]. split; intros (c & -> & Hc); exists c; (split; [reflexivity|]); now apply cls_match_in.
  - cbn [matches erase lang]. split; intros (c & -> & Hc); exists c; (split; [reflexivity|]); unfold dotc, c_nl in *.
    + destruct (N.eqb_spec c 10); [contradiction|reflexivity].
    + destruct (N.eqb_spec c 10); [discriminate|assumption].
  - discriminate.
  - apply andb_true_iff in NA. destruct NA as [Na Nb], W as [Wa Wb].
    cbn [matches erase lang]. split; intros (v & w & -> & Hv & Hw); exists v, w; (split; [reflexivity|]).
    + split; [apply IHa in Hv; auto|apply IHb in Hw; auto].
    + split; [apply IHa; auto|apply IHb; auto].
  - apply andb_true_iff in NA. destruct NA as [Na Nb], W as [Wa Wb].
    cbn [matches erase lang]. rewrite (IHa Wa Na u t), (IHb Wb Nb u t). reflexivity.
  - destruct W as [Wh Wa]. specialize (IHa Wa NA). cbn [matches]. destruct hi as [h|]; cbn [erase].
    + specialize (Wh h eq_refl). unfold rrange. cbn [lang]. split.
      * intros (n & Hlo & Hhi & R). specialize (Hhi h eq_refl).
        replace n with (lo + (n - lo))%nat in R by lia.
        destruct (rounds_split _ _ _ _ _ R) as (v & w & -> & Hv & Hw). exists v, w.
        split; [reflexivity|]. split; [apply (rounds_rep _ _ IHa) in Hv; exact Hv|].
        apply (rounds_upto _ _ IHa _ _ t). exists (n - lo)%nat. split; [lia|exact Hw].
      * intros (v & w & -> & Hv & Hw). apply (rounds_upto _ _ IHa _ _ t) in Hw.
        destruct Hw as (n & Hn & Hw). exists (lo + n)%nat. split; [lia|].
        split; [intros h' E; injection E as <-; lia|].
        apply rounds_app; [apply (rounds_rep _ _ IHa); exact Hv|exact Hw].
    + cbn [lang]. split.
      * intros (n & Hlo & _ & R). replace n with (lo + (n - lo))%nat in R by lia.
        destruct (rounds_split _ _ _ _ _ R) as (v & w & -> & Hv & Hw). exists v, w.
        split; [reflexivity|]. split; [apply (rounds_rep _ _ IHa) in Hv; exact Hv|].
        apply (rounds_star _ _ IHa _ t). now exists (n - lo)%nat.
      * intros (v & w & -> & Hv & Hw). apply (rounds_star _ _ IHa _ t) in Hw.
        destruct Hw as (n & Hw). exists (lo + n)%nat. split; [lia|]. split; [discriminate|].
        apply rounds_app; [apply (rounds_rep _ _ IHa); exact Hv|exact Hw].
Qed.

(** * Comparing two regular expressions *)

(** sequences associated to the right *)
Fixpoint nfs (r k : re) : re :=
  match r with
  | REmp => RSeq REmp k
  | REps => k
  | RSet p => RSeq (RSet p) k
  | RSeq a b => nfs a (nfs b k)
  | RAlt a b => RSeq (RAlt (nfs a REps) (nfs b REps)) k
  | RStar a => RSeq (RStar (nfs a REps)) k
  end.

Definition same (a b : re) : Prop := forall s, lang a s <-> lang b s.
Lemma same_refl a : same a a. Proof. intros s. reflexivity. Qed.
Lemma same_sym a b : same a b -> same b a. Proof. intros H s. symmetry. apply H. Qed.
Lemma same_trans a b c : same a b -> same b c -> same a c.
Proof. intros H K s. rewrite (H s). apply K. Qed.
Lemma same_seq a b c d : same a b -> same c d -> same (RSeq a c) (RSeq b d).
Proof.
  intros H K s. cbn [lang]. split; intros (u & v & -> & Hu & Hv); exists u, v; repeat split; (apply H || apply K); assumption.
Qed.
Lemma same_alt a b c d : same a b -> same c d -> same (RAlt a c) (RAlt b d).
Proof. intros H K s. cbn [lang]. rewrite (H s), (K s). reflexivity. Qed.
Lemma same_star a b : same a b -> same (RStar a) (RStar b).
Proof.
  intros H s. cbn [lang]. split; intros (l & -> & Hl); exists l; (split; [reflexivity|]);
  (eapply Forall_impl; [|exact Hl]); intros x Hx; apply H; exact Hx.
Qed.
Lemma same_set p q : (forall c, p c = q c) -> same (RSet p) (RSet q).
Proof. intros H s. cbn [lang]. split; intros (c & -> & Hc); exists c; (split; [reflexivity|]); [rewrite <- H|rewrite H]; exact Hc. Qed.
Lemma same_assoc a b c : same (RSeq (RSeq a b) c) (RSeq a (RSeq b c)).
Proof.
  intros s. cbn [lang]. split.
  - intros (x & w & -> & (u & v & -> & Hu & Hv) & Hw). exists u, (v ++ w).
    split; [now rewrite app_assoc|]. split; [exact Hu|]. now exists v, w.
  - intros (u & x & -> & Hu & v & w & -> & Hv & Hw). exists (u ++ v), w.
    split; [now rewrite app_assoc|]. split; [|exact Hw]. now exists u, v.
Qed.
Lemma same_eps_l a : same (RSeq REps a) a.
Proof.
  intros s. cbn [lang]. split; [intros (u & v & -> & -> & H); exact H|intros H; now exists [], s].
Qed.
Lemma same_eps_r a : same (RSeq a REps) a.
Proof.
  intros s. cbn [lang]. split.
  - intros (u & v & -> & H & ->). now rewrite app_nil_r.
  - intros H. exists s, []. now rewrite app_nil_r.
Qed.

Lemma nfs_same r : forall k, same (nfs r k) (RSeq r k).
Proof.
  induction r as [| |p|a IHa b IHb|a IHa b IHb|a IHa]; intros k; cbn [nfs].
  - apply same_refl.
  - apply same_sym, same_eps_l.
  - apply same_refl.
  - eapply same_trans; [apply IHa|]. eapply same_trans; [|apply same_sym, same_assoc].
    apply same_seq; [apply same_refl|apply IHb].
  - apply same_seq; [|apply same_refl]. apply same_alt;
    (eapply same_trans; [(apply IHa || apply IHb)|apply same_eps_r]).
  - apply same_seq; [|apply same_refl]. apply same_star.
    eapply same_trans; [apply IHa|apply same_eps_r].
Qed.

Lemma nf_same a b : nfs a REps = nfs b REps -> same a b.
Proof.
  intros H. eapply same_trans; [apply same_sym, same_eps_r|].
  eapply same_trans; [apply same_sym, nfs_same|]. rewrite H.
  eapply same_trans; [apply nfs_same|apply same_eps_r].
Qed.

(** a pattern text and a regular expression of [Regexes] *)
Theorem text_agrees text r p :
  re_compile text = Some p -> no_anchor p = true -> same (erase p) r ->
  (forall s, sre_fullmatch p s = fullmatch r s) /\
  (forall s, match sre_match p s with Some _ => true | None => false end = rmatch r s).
Proof.
  intros C NA S. pose proof (re_compile_wf _ _ C) as W. split; intros s.
  - apply eq_iff_eq_true. rewrite (sre_fullmatch_iff p s W), fullmatch_lang.
    rewrite (erase_lang p W NA). apply S.
  - apply eq_iff_eq_true. rewrite rmatch_lang.
    transitivity (exists t, sre_match p s = Some t).
    { destruct (sre_match p s) as [t|]; split; intros H; auto; [now exists t|discriminate|].
      destruct H as [t H]. discriminate. }
    rewrite (sre_match_iff p s W). split; intros (u & t & -> & H); exists u, t; (split; [reflexivity|]).
    + apply S. apply (erase_lang p W NA u t). exact H.
    + apply (erase_lang p W NA u t). apply S. exact H.
Qed.
