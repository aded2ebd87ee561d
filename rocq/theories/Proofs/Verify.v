(** [verify_gs3a3_component]. *)
From Coq Require Import String Setoid.
From Verif.Model Require Import Py Re Regexes Common.
From Verif.Spec Require Import Spec SpecEscapes.
From Verif.Proofs Require Import Basics Num Uni Escapes ReLemmas Codecs.

Ltac Zify.zify_post_hook ::= Z.div_mod_to_equations.

Definition vpiece (g : str) : res str :=
  match g with
  | [] => Ok []
  | c :: g' => if negb (c =? c_pct) then Ok g
               else let* v := int_base 16 g' in let* c := chr v in Ok [c]
  end.
Definition vpieces (s : str) : list str := re_split_cap m_escape_dd s.
Definition good (g : str) : Prop := exists y, vpiece g = Ok y /\ forallb gs1_elem_char y = true.

Lemma ai82_iff c : In c ai82 <-> gs1_elem_char c = true.
Proof.
  assert (A : forallb (fun c => Bool.eqb (mem c ai82) (gs1_elem_char c)) (map N.of_nat (seq 0 128)) = true)
    by (vm_compute; reflexivity).
  assert (M : In c ai82 <-> mem c ai82 = true).
  { unfold mem. rewrite existsb_exists. split.
    - intros H. exists c. rewrite N.eqb_refl. auto.
    - intros (x & Hx & E). apply N.eqb_eq in E. now subst. }
  rewrite M. destruct (N.lt_ge_cases c 128) as [H|H].
  - pose proof (upto_forallb _ _ A c H) as E. cbv beta in E. apply Bool.eqb_prop in E. rewrite E. reflexivity.
  - split; intros E; exfalso.
    + apply M in E. assert (B : forallb (fun c => c <? 128) ai82 = true) by reflexivity.
      pose proof (forallb_In _ _ _ B E). cbv beta in *. lia.
    + unfold gs1_elem_char, gs3a3_plain, is_lower, is_upper, is_digit, inr in E. lia.
Qed.

Lemma ai82_text_iff s : ai82_text s <-> forallb gs1_elem_char s = true.
Proof.
  unfold ai82_text. rewrite forallb_forall. split; intros H c Hc; apply ai82_iff; auto.
Qed.

Lemma cmr_forall (f : str -> res str) (p : N -> bool) l r : concat_map_res f l = Ok r -> forallb p r = true ->
  Forall (fun g => exists y, f g = Ok y /\ forallb p y = true) l.
Proof.
  revert r; induction l as [|x l IH]; intros r H Hr; [constructor|]. cbn in H.
  inv_ok H. inv_ok H. inv_ok H. subst. rewrite forallb_app in Hr. apply andb_true_iff in Hr. constructor; [|eapply IH; eauto; tauto].
  exists a. tauto.
Qed.
Lemma cmr_forall' (f : str -> res str) (p : N -> bool) l :
  Forall (fun g => exists y, f g = Ok y /\ forallb p y = true) l -> exists r, concat_map_res f l = Ok r /\ forallb p r = true.
Proof.
  induction 1 as [|x l (y & Hy & Hp) _ (r & Hr & Hpr)]; [exists []; auto|]. cbn. rewrite Hy, Hr. cbn.
  exists (y ++ r). split; [reflexivity|]. rewrite forallb_app, Hp, Hpr. reflexivity.
Qed.

Lemma decoded_eq s : gs3a3_decoded s = concat_map_res vpiece (vpieces s).
Proof. reflexivity. Qed.

Lemma vpiece_nonempty g y : g <> [] -> vpiece g = Ok y -> y <> [].
Proof.
  destruct g as [|c g]; [congruence|]. intros _ H. cbn in H. destruct (negb (c =? c_pct)); [injection H as <-; discriminate|].
  inv_ok H. inv_ok H. inv_ok H. subst. discriminate.
Qed.

(** ** The split *)

Lemma m_dd_some s n : m_escape_dd s = Some n <-> n = 3%nat /\ exists d1 d2 s', s = c_pct :: d1 :: d2 :: s' /\ is_d d1 = true /\ is_d d2 = true.
Proof.
  unfold m_escape_dd, m_seq. destruct s as [|c [|d1 [|d2 s]]]; cbn [seqmatch];
    rewrite ?andb_false_r.
  1,2,3: split; [discriminate|intros (_ & ? & ? & ? & E & _); discriminate E].
  rewrite andb_true_r. destruct ((c_pct =? c) && (is_d d1 && is_d d2)) eqn:E.
  - apply andb_true_iff in E. destruct E as [E1 E2]. apply andb_true_iff in E2. apply N.eqb_eq in E1. subst c.
    split; [intros [= <-]; split; [reflexivity|]; do 3 eexists; split; [reflexivity|tauto]|]. intros (-> & _). reflexivity.
  - split; [discriminate|]. intros (_ & x & y & z & [= -> -> -> ->] & H1 & H2). rewrite N.eqb_refl, H1, H2 in E. discriminate E.
Qed.
Lemma m_dd_hit d1 d2 s : is_d d1 = true -> is_d d2 = true -> m_escape_dd (c_pct :: d1 :: d2 :: s) = Some 3%nat.
Proof. intros. apply m_dd_some. split; [reflexivity|]. eauto 10. Qed.

(** [m_escape_dd] hits nowhere inside [p], in the text [p ++ s] *)
Fixpoint nohit (p s : str) : Prop :=
  match p with [] => True | c :: p' => m_escape_dd (c :: p' ++ s) = None /\ nohit p' s end.
Definition opens (s : str) : Prop :=
  s = [] \/ exists d1 d2 s', s = c_pct :: d1 :: d2 :: s' /\ is_d d1 = true /\ is_d d2 = true.

Lemma split_run p s cur : nohit p s -> split_aux true m_escape_dd (p ++ s) cur 0 = split_aux true m_escape_dd s (rev p ++ cur) 0.
Proof.
  revert cur; induction p as [|c p IH]; intros cur H; [reflexivity|]. cbn [nohit] in H. destruct H as [H1 H2].
  cbn [app split_aux]. rewrite H1. rewrite IH by exact H2. cbn [rev]. now rewrite <- app_assoc.
Qed.

Lemma vpieces_end p : nohit p [] -> vpieces p = [p].
Proof.
  intros H. unfold vpieces, re_split_cap. rewrite <- (app_nil_r p) at 1. rewrite split_run by exact H. cbn [split_aux].
  now rewrite app_nil_r, rev_involutive.
Qed.
Lemma vpieces_hit p d1 d2 s : is_d d1 = true -> is_d d2 = true -> nohit p (c_pct :: d1 :: d2 :: s) ->
  vpieces (p ++ c_pct :: d1 :: d2 :: s) = p :: [c_pct; d1; d2] :: vpieces s.
Proof.
  intros H1 H2 H. unfold vpieces, re_split_cap. rewrite split_run by exact H. cbn [split_aux].
  rewrite m_dd_hit by assumption. cbn [firstn]. now rewrite app_nil_r, rev_involutive.
Qed.

(** every text is a run without hit, followed by the end or a hit *)
Lemma decompose s : exists p t, s = p ++ t /\ nohit p t /\ opens t.
Proof.
  induction s as [|c s (p & t & -> & Hn & Ho)]; [exists [], []; repeat split; now left|].
  destruct (m_escape_dd (c :: p ++ t)) as [n|] eqn:E.
  - apply m_dd_some in E. destruct E as (_ & d1 & d2 & s' & E & H). exists [], (c :: p ++ t). repeat split.
    right. eauto.
  - exists (c :: p), t. repeat split; auto.
Qed.

Lemma nohit_iff p s : opens s -> (nohit p s <-> ~ exists a d1 d2 b, p = a ++ c_pct :: d1 :: d2 :: b /\ is_d d1 = true /\ is_d d2 = true).
Proof.
  intros Ho. induction p as [|c p IH].
  - split; [intros _ (a & ? & ? & ? & E & _); destruct a; discriminate E|constructor].
  - cbn [nohit]. rewrite IH. split.
    + intros [H1 H2] (a & d1 & d2 & b & E & Hd1 & Hd2). destruct a as [|x a].
      * cbn in E. injection E as -> ->. cbn [app] in H1. rewrite m_dd_hit in H1 by assumption. discriminate H1.
      * injection E as -> ->. apply H2. eauto 10.
    + intros H. split.
      * destruct (m_escape_dd _) as [n|] eqn:E; [exfalso|reflexivity]. apply m_dd_some in E.
        destruct E as (_ & d1 & d2 & s' & E & Hd1 & Hd2). injection E as -> E.
        destruct p as [|x [|y p]].
        -- cbn in E. subst s. destruct Ho as [Ho|(? & ? & ? & Ho & _)]; [discriminate|]. injection Ho as -> _. discriminate Hd1.
        -- cbn in E. injection E as -> ->. destruct Ho as [Ho|(? & ? & ? & Ho & _)]; [discriminate|]. injection Ho as -> _. discriminate Hd2.
        -- cbn in E. injection E as -> -> _. apply H. exists [], d1, d2, p. auto.
      * intros (a & d1 & d2 & b & -> & Hd). apply H. exists (c :: a), d1, d2, b. auto.
Qed.

(** ** The check *)

Lemma verify_ok_iff s : verify_gs3a3_component s = Ok tt <-> s <> [] /\ Forall good (vpieces s).
Proof.
  unfold verify_gs3a3_component. rewrite decoded_eq. split.
  - intros H. inv_ok H. apply raise_if_ok in H. apply negb_false_iff in H. apply fullmatch_lang in H.
    apply lang_plus_set in H. destruct H as [Hne H]. split.
    + intros ->. cbn in E. injection E as <-. congruence.
    + eapply cmr_forall; eauto.
  - intros [Hne H]. destruct (cmr_forall' _ _ _ H) as (r & E & Hr). rewrite E. cbn [bind].
    apply raise_if_ok. apply negb_false_iff. apply fullmatch_lang, lang_plus_set. split; [|exact Hr].
    intros ->. destruct (decompose s) as (p & t & -> & Hn & Ho). destruct Ho as [->|(d1 & d2 & s' & -> & H1 & H2)].
    + rewrite app_nil_r in *. rewrite vpieces_end in E by exact Hn. cbn in E. inv_ok E. rewrite app_nil_r in E.
      injection E as E. subst. now apply vpiece_nonempty in E0.
    + rewrite vpieces_hit in E by assumption. cbn in E. inv_ok E. inv_ok E. injection E as E.
      apply app_eq_nil in E. destruct E as [_ E]. subst. inv_ok E1. change (vpiece [c_pct; d1; d2] = Ok a0) in E.
      inv_ok E1. injection E1 as E1. apply app_eq_nil in E1. destruct E1 as [-> _]. now apply vpiece_nonempty in E.
Qed.

Lemma verify_result s : (verify_gs3a3_component s = Ok tt) \/
  exists e, verify_gs3a3_component s = Raise e /\ (e = ConvertException \/ e = ValueError \/ e = OverflowError).
Proof.
  unfold verify_gs3a3_component. rewrite decoded_eq. destruct (concat_map_res vpiece (vpieces s)) as [r|e] eqn:E; cbn [bind].
  - destruct (fullmatch VERIFY_GS3A3_CHARS r); cbn; eauto.
  - right. exists e. split; [reflexivity|]. revert E. generalize (vpieces s) as l. induction l as [|g l IH]; [discriminate|].
    cbn. intros H. apply bind_raise in H. destruct H as [H|(y & _ & H)].
    + destruct g as [|c g]; [discriminate|]. cbn in H. destruct (negb (c =? c_pct)); [discriminate|].
      apply bind_raise in H. destruct H as [H|(v & _ & H)].
      * unfold int_base in H. apply of_option_raise in H. tauto.
      * apply bind_raise in H. destruct H as [H|(v' & _ & H)]; [|discriminate]. unfold chr in H.
        destruct ((v <? _)%Z || _); [injection H; auto|]. destruct ((v <? _)%Z || _); [injection H; auto|discriminate].
    + apply bind_raise in H. destruct H as [H|(y' & _ & H)]; [auto|discriminate].
Qed.

Lemma good_plain c g : c <> c_pct -> good (c :: g) <-> forallb gs1_elem_char (c :: g) = true.
Proof.
  intros Hc. unfold good, vpiece. apply N.eqb_neq in Hc. rewrite Hc. cbn [negb]. split.
  - intros (y & [= <-] & H). exact H.
  - eauto.
Qed.

Lemma good_pct g : good (c_pct :: g) <-> exists v, py_int 16 g = Some (Z.of_N v) /\ In v ai82.
Proof.
  unfold good, vpiece. rewrite N.eqb_refl. cbn [negb]. unfold int_base. split.
  - intros (y & H & Hy). inv_ok H. apply of_option_ok in E. inv_ok H. unfold chr in E0.
    destruct ((a <? _)%Z || _) eqn:E1 in E0; [discriminate|]. destruct ((a <? _)%Z || _) eqn:E2 in E0; [discriminate|].
    injection E0 as <-. injection H as <-. cbn [forallb] in Hy. rewrite andb_true_r in Hy. apply ai82_iff in Hy.
    exists (Z.to_N a). rewrite Z2N.id by lia. auto.
  - intros (v & -> & H). cbn [of_option bind]. unfold chr.
    assert (Hv : v < 128) by (assert (B : forallb (fun c => c <? 128) ai82 = true) by reflexivity;
      pose proof (forallb_In _ _ _ B H); cbv beta in *; lia).
    replace ((Z.of_N v <? _)%Z || _) with false by lia. replace ((Z.of_N v <? _)%Z || _) with false by lia.
    cbn [bind]. exists [v]. rewrite N2Z.id. split; [reflexivity|]. cbn. apply ai82_iff in H. now rewrite H.
Qed.

Lemma py_int_16_dd d1 d2 : 48 <= d1 <= 57 -> 48 <= d2 <= 57 -> py_int 16 [d1; d2] = Some (Z.of_N (16 * (d1 - 48) + (d2 - 48))).
Proof.
  intros H1 H2.
  rewrite py_int_spec; [|auto|discriminate|].
  - f_equal. f_equal. unfold sval. cbn [map]. rewrite !dv_digit by (apply is_digit_iff; lia). unfold val. cbn [fold_left]. lia.
  - cbn [forallb]. unfold in_base, digit_in, digit_val.
    replace ((48 <=? d1) && (d1 <=? 57)) with true by lia. replace ((48 <=? d2) && (d2 <=? 57)) with true by lia.
    replace (d1 - 48 <? 16) with true by lia. replace (d2 - 48 <? 16) with true by lia. reflexivity.
Qed.

(** ** On components of the right shape *)

Definition elem_pct (c : N) : bool := gs1_elem_char c.
Lemma shape_chars s : gs3a3_shape s = true -> forallb gs1_elem_char s = true.
Proof.
  induction s as [s IH] using str_ind2. destruct s as [|c s]; [reflexivity|]. cbn [gs3a3_shape].
  destruct (N.eqb_spec c c_pct) as [->|Hc].
  - destruct s as [|h s]; [discriminate|]. intros H. apply andb_true_iff in H. destruct H as [H1 H2]. cbn [forallb].
    rewrite (IH s) by (cbn; try lia; exact H2). unfold is_hex, is_digit, inr in H1.
    assert (E : gs1_elem_char h = true) by (unfold gs1_elem_char, gs3a3_plain, is_lower, is_upper, is_digit, inr; lia).
    rewrite E. reflexivity.
  - intros H. apply andb_true_iff in H. destruct H as [H1 H2]. cbn [forallb]. rewrite (IH s) by (cbn; try lia; exact H2).
    unfold gs1_elem_char. rewrite H1. reflexivity.
Qed.

Lemma elem_ascii s : forallb gs1_elem_char s = true -> ascii s.
Proof. intros H. apply ai82_ascii. now apply ai82_text_iff. Qed.

Lemma opens_spec s : ascii s -> (opens s <-> ends_or_digit_escape s).
Proof.
  intros Ha. unfold opens, ends_or_digit_escape. split; (intros [->|(d1 & d2 & s' & -> & H1 & H2)]; [now left|right]).
  - exists d1, d2, s'. split; [reflexivity|]. split; apply is_digit_iff, is_d_ascii; auto; apply Ha; cbn; auto.
  - exists d1, d2, s'. split; [reflexivity|]. split; apply is_digit_is_d, is_digit_iff; lia.
Qed.
Lemma hit_spec p : ascii p ->
  ((exists a d1 d2 b, p = a ++ c_pct :: d1 :: d2 :: b /\ is_d d1 = true /\ is_d d2 = true) <-> digit_escape_in p).
Proof.
  intros Ha. unfold digit_escape_in. split; intros (a & d1 & d2 & b & -> & H1 & H2); exists a, d1, d2, b; (split; [reflexivity|]).
  - split; apply is_digit_iff, is_d_ascii; auto; apply Ha; apply in_or_app; cbn; auto.
  - split; apply is_digit_is_d, is_digit_iff; lia.
Qed.

Lemma Forall_good_spec s : forallb gs1_elem_char s = true -> (Forall good (vpieces s) <-> escapes_ok s).
Proof.
  revert s. refine (str_ind2 _ _). intros s IH Hs.
  destruct (decompose s) as (p & t & -> & Hn & Ho).
  assert (Hap : ascii p) by (apply elem_ascii; rewrite forallb_app in Hs; apply andb_true_iff in Hs; tauto).
  assert (Hat : ascii t) by (apply elem_ascii; rewrite forallb_app in Hs; apply andb_true_iff in Hs; tauto).
  assert (Hp : ~ digit_escape_in p) by (rewrite <- hit_spec by exact Hap; now apply (nohit_iff p t Ho)).
  (* the piece alone *)
  assert (Hgood : good p <-> p = [] \/ (exists c p', p = c :: p' /\ c <> 37) \/
    (exists p' v, p = 37 :: p' /\ py_int 16 p' = Some (Z.of_N v) /\ In v ai82)).
  { destruct p as [|c p]; [split; [auto|intros _; exists []; auto]|]. destruct (N.eq_dec c c_pct) as [->|Hc].
    - rewrite good_pct. split.
      + intros (v & H). right. right. exists p, v. split; [reflexivity|exact H].
      + intros [H|[(c & p' & [= <- <-] & H)|(p' & v & [= <-] & H)]]; [discriminate| |eauto]. now contradiction H.
    - rewrite good_plain by exact Hc. split; [intros _; right; left; eauto|]. intros _.
      rewrite forallb_app in Hs. apply andb_true_iff in Hs. tauto. }
  assert (Hpieces : Forall good (vpieces (p ++ t)) <-> good p /\ (t = [] \/ exists d1 d2 s', t = 37 :: d1 :: d2 :: s' /\
    48 <= d1 <= 57 /\ 48 <= d2 <= 57 /\ In (16 * (d1 - 48) + (d2 - 48)) ai82 /\ escapes_ok s')).
  { destruct Ho as [->|(d1 & d2 & s' & -> & H1 & H2)].
    - rewrite app_nil_r, vpieces_end by exact Hn. split.
      + intros H. inversion H; subst. auto.
      + intros [H _]. auto.
    - rewrite vpieces_hit by assumption.
      assert (D1 : 48 <= d1 <= 57) by (apply is_digit_iff, is_d_ascii; [exact H1|apply Hat; cbn; auto]).
      assert (D2 : 48 <= d2 <= 57) by (apply is_digit_iff, is_d_ascii; [exact H2|apply Hat; cbn; auto]).
      assert (Hs' : forallb gs1_elem_char s' = true).
      { rewrite forallb_app in Hs. cbn [forallb] in Hs. rewrite !andb_true_iff in Hs. tauto. }
      split.
      + intros H. inversion H as [|? ? Hg H']; subst. inversion H' as [|? ? Hg' H'']; subst. split; [exact Hg|]. right.
        exists d1, d2, s'. repeat split; try lia.
        * apply good_pct in Hg'. destruct Hg' as (v & Hv & Hin). rewrite py_int_16_dd in Hv by assumption.
          apply (f_equal (fun o => match o with Some z => Z.to_N z | None => 0 end)) in Hv. cbv beta iota in Hv.
          rewrite !N2Z.id in Hv. rewrite Hv. exact Hin.
        * apply IH; [rewrite app_length; cbn; lia|exact Hs'|exact H''].
      + intros [Hg [H|(x & y & z & [= <- <- <-] & _ & _ & Hin & Hok)]]; [discriminate|].
        constructor; [exact Hg|]. constructor.
        * apply good_pct. eexists. split; [now apply py_int_16_dd|exact Hin].
        * apply IH; [rewrite app_length; cbn; lia|exact Hs'|exact Hok]. }
  rewrite Hpieces. clear Hpieces. split.
  - intros [Hg Ht].
    assert (Hokt : escapes_ok t) by (destruct Ht as [->|(d1 & d2 & s' & -> & ? & ? & ? & ?)]; constructor; assumption).
    apply Hgood in Hg. destruct Hg as [->|[(c & p' & -> & Hc)|(p' & v & -> & Hv & Hin)]].
    + exact Hokt.
    + apply escapes_ok_plain; auto. now apply opens_spec.
    + eapply escapes_ok_hex; eauto. now apply opens_spec.
  - (* the decomposition of a derivation is this one *)
    intros H.
    assert (U : forall p1 t1 p2 t2, p1 ++ t1 = p2 ++ t2 -> opens t1 -> opens t2 -> nohit p1 t1 -> nohit p2 t2 -> p1 = p2 /\ t1 = t2).
    { clear. induction p1 as [|c p1 IH]; intros t1 [|c' p2] t2 E O1 O2 N1 N2; cbn in E.
      - auto.
      - subst t1. cbn [nohit] in N2. destruct N2 as [N2 _]. destruct O1 as [O1|(d1 & d2 & s' & O1 & H1 & H2)]; [discriminate|].
        rewrite O1, m_dd_hit in N2 by assumption. discriminate.
      - subst t2. cbn [nohit] in N1. destruct N1 as [N1 _]. destruct O2 as [O2|(d1 & d2 & s' & O2 & H1 & H2)]; [discriminate|].
        rewrite O2, m_dd_hit in N1 by assumption. discriminate.
      - injection E as -> E. cbn [nohit] in *. destruct (IH _ _ _ E O1 O2) as [-> ->]; tauto. }
    assert (Hfin : forall s', escapes_ok s' -> (length s' < length (p ++ t))%nat \/ p = [] -> s' = t ->
      (t = [] \/ exists d1 d2 s', t = 37 :: d1 :: d2 :: s' /\ 48 <= d1 <= 57 /\ 48 <= d2 <= 57 /\
        In (16 * (d1 - 48) + (d2 - 48)) ai82 /\ escapes_ok s')).
    { intros s' Hok _ ->. destruct Ho as [->|(d1 & d2 & s' & -> & H1 & H2)]; [now left|right].
      assert (D1 : 48 <= d1 <= 57) by (apply is_digit_iff, is_d_ascii; [exact H1|apply Hat; cbn; auto]).
      assert (D2 : 48 <= d2 <= 57) by (apply is_digit_iff, is_d_ascii; [exact H2|apply Hat; cbn; auto]).
      remember (c_pct :: d1 :: d2 :: s') as w eqn:Ew. unfold c_pct in *.
      destruct Hok as [|e1 e2 s1 ? ? Hin Hok'|c q s1 Hc Hd He Hok'|q v s1 Hd He Hv Hin Hok'].
      - discriminate Ew.
      - injection Ew as -> -> ->. exists d1, d2, s'. auto.
      - injection Ew as -> _. congruence.
      - exfalso. injection Ew as Eq. destruct q as [|x [|y q]].
        + cbn in Hv. discriminate Hv.
        + cbn in Eq. injection Eq as -> ->. destruct He as [He|(? & ? & ? & He & _)]; [discriminate|]. injection He as -> _. lia.
        + cbn in Eq. injection Eq as -> -> _. apply Hd. exists [], d1, d2, q. auto. }
    destruct p as [|c p].
    + split; [apply Hgood; now left|]. apply (Hfin t); auto.
    + remember ((c :: p) ++ t) as w eqn:Ew. clear IH.
      destruct H as [|d1 d2 s' D1 D2 Hin Hok|c' q s' Hc Hd He Hok|q v s' Hd He Hv Hin Hok].
      * discriminate Ew.
      * exfalso. cbn [nohit] in Hn. destruct Hn as [Hn _].
        assert (Hh : m_escape_dd (c_pct :: d1 :: d2 :: s') = Some 3%nat) by (apply m_dd_hit; apply is_digit_is_d, is_digit_iff; lia).
        unfold c_pct in Hh. rewrite Ew in Hh. cbn [app] in Hh. congruence.
      * apply elem_ascii in Hs. apply ascii_app in Hs. destruct Hs as [Hs1 Hs2]. apply opens_spec in He; [|exact Hs2].
        destruct (U (c' :: q) s' (c :: p) t) as [E1 E2]; auto.
        { apply nohit_iff; [exact He|]. rewrite hit_spec by exact Hs1. exact Hd. }
        injection E1 as -> ->. subst s'. split; [apply Hgood; right; left; eauto|].
        apply (Hfin t); auto. left. rewrite app_length. cbn. lia.
      * apply elem_ascii in Hs. apply ascii_app in Hs. destruct Hs as [Hs1 Hs2]. apply opens_spec in He; [|exact Hs2].
        destruct (U (37 :: q) s' (c :: p) t) as [E1 E2]; auto.
        { apply nohit_iff; [exact He|]. rewrite hit_spec by exact Hs1. exact Hd. }
        injection E1 as <- ->. subst s'. split; [apply Hgood; right; right; eauto|].
        apply (Hfin t); auto. left. rewrite app_length. cbn. lia.
Qed.

Theorem verify_shape s : gs3a3_shape s = true -> s <> [] -> (verify_gs3a3_component s = Ok tt <-> escapes_ok s).
Proof.
  intros Hs Hne. rewrite verify_ok_iff, Forall_good_spec by now apply shape_chars. tauto.
Qed.
