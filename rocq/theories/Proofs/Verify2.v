(** [verify_gs3a3_component] on canonical spellings. *)
From Coq Require Import String Setoid.
From Verif.Model Require Import Py Re Regexes Common.
From Verif.Spec Require Import Spec SpecEscapes.
From Verif.Proofs Require Import Basics Num Uni Escapes ReLemmas Codecs Verify.

Ltac Zify.zify_post_hook ::= Z.div_mod_to_equations.

Lemma scan16_ge r pu acc v : forallb gs1_elem_char r = true -> scan_digits 16 r pu true acc = Some v ->
  acc <= v /\ (r <> [] -> 16 * acc <= v).
Proof.
  revert pu acc; induction r as [|c r IH]; intros pu acc Hr H.
  - cbn in H. destruct pu; [discriminate|]. injection H as ->. split; [lia|congruence].
  - cbn [forallb] in Hr. apply andb_true_iff in Hr. destruct Hr as [Hc Hr]. cbn [scan_digits] in H.
    destruct (digit_in 16 c) as [d|].
    + apply IH in H; [|exact Hr]. lia.
    + destruct (c =? c_us) eqn:E.
      * destruct pu; [discriminate|]. destruct r as [|c' r]; [discriminate H|].
        apply IH in H; [|exact Hr]. destruct H as [H1 H2]. split; [exact H1|]. intros _. apply H2. discriminate.
      * destruct pu; [discriminate|]. cbn [negb] in H. cbn [skip_space] in H.
        assert (Es : is_ascii_space c = false).
        { unfold gs1_elem_char, gs3a3_plain, is_lower, is_upper, is_digit, inr in Hc. unfold is_ascii_space. lia. }
        rewrite Es in H. discriminate H.
Qed.

Definition is_letter_esc (c : N) : bool := mem c [47; 60; 62; 63].
Definition is_digit_esc (c : N) : bool := mem c [34; 37; 38].
Lemma letter_esc_iff c : letter_escaped c <-> is_letter_esc c = true.
Proof. unfold letter_escaped, is_letter_esc, mem. cbn. lia. Qed.
Lemma digit_esc_iff c : digit_escaped c <-> is_digit_esc c = true.
Proof. unfold digit_escaped, is_digit_esc, mem. cbn. lia. Qed.

Lemma letter_esc_cases c : is_letter_esc c = true -> exists h1 h2, escape_char c = [c_pct; h1; h2] /\
  is_digit h1 = true /\ 49 < h1 /\ inr 65 70 h2 = true /\ py_int 16 [h1; h2] = Some (Z.of_N c) /\ In c ai82.
Proof.
  unfold is_letter_esc, mem. cbn [existsb]. intros H.
  assert (c = 47 \/ c = 60 \/ c = 62 \/ c = 63) as [->|[->|[->| ->]]] by lia;
    (do 2 eexists; split; [reflexivity|]; repeat split; try reflexivity; cbn; tauto).
Qed.
Lemma digit_esc_cases c : is_digit_esc c = true -> exists h1 h2, escape_char c = [c_pct; h1; h2] /\
  is_d h1 = true /\ is_d h2 = true /\ good [c_pct; h1; h2].
Proof.
  unfold is_digit_esc, mem. cbn [existsb]. intros H.
  assert (c = 34 \/ c = 37 \/ c = 38) as [->|[->| ->]] by lia;
    (do 2 eexists; split; [reflexivity|]; repeat split; try reflexivity; eexists; split; vm_compute; reflexivity).
Qed.
Lemma other_esc c : In c ai82 -> is_letter_esc c = false -> is_digit_esc c = false -> escape_char c = [c] /\ c <> c_pct.
Proof.
  intros _ H1 H2. unfold is_letter_esc, is_digit_esc, mem in *. cbn [existsb] in *. split.
  - apply escape_char_other. unfold reserved. cbn. lia.
  - unfold c_pct. lia.
Qed.

Inductive vstate := AtStart | OneLetter | Inside.
(** reads a text; [false] as soon as a piece opening with a letter escape goes on *)
Fixpoint vscan (st : vstate) (t : str) : bool :=
  match t with
  | [] => true
  | c :: t' =>
      if is_digit_esc c then vscan AtStart t'
      else match st with
           | AtStart => if is_letter_esc c then vscan OneLetter t' else vscan Inside t'
           | OneLetter => false
           | Inside => vscan Inside t'
           end
  end.

(** what has been read of the current piece, for each state; the last form is a piece that is lost *)
Definition cur_state (st : vstate) (p : str) : Prop :=
  match st with
  | AtStart => p = []
  | OneLetter => exists c, is_letter_esc c = true /\ p = escape_char c
  | Inside => exists c p', p = c :: p' /\ c <> c_pct
  end.
Definition lost (p : str) : Prop :=
  exists h1 h2 r, p = c_pct :: h1 :: h2 :: r /\ r <> [] /\ is_digit h1 = true /\ 49 < h1 /\ inr 65 70 h2 = true /\
    forallb gs1_elem_char r = true.

Lemma lost_not_good p : lost p -> ~ good p.
Proof.
  intros (h1 & h2 & r & -> & Hne & D1 & L1 & D2 & Hr) H. apply good_pct in H. destruct H as (v & Hv & Hin).
  assert (Hv128 : v < 128).
  { assert (B : forallb (fun c => c <? 128) ai82 = true) by reflexivity. pose proof (forallb_In _ _ _ B Hin). cbv beta in *. lia. }
  unfold py_int in Hv.
  assert (Ha : to_ascii_num (h1 :: h2 :: r) = h1 :: h2 :: r).
  { unfold to_ascii_num. apply is_digit_iff in D1. unfold inr in D2.
    assert (E : forallb is_ascii (h1 :: h2 :: r) = true); [|now rewrite E].
    apply ascii_iff. intros c [<-|[<-|Hc]]; [lia|lia|]. exact (elem_ascii _ Hr c Hc). }
  rewrite Ha in Hv. apply is_digit_iff in D1. unfold inr in D2.
  cbn [skip_space] in Hv. replace (is_ascii_space h1) with false in Hv by (unfold is_ascii_space; lia).
  replace (h1 =? 43) with false in Hv by lia. replace (h1 =? 45) with false in Hv by lia.
  unfold parse_unsigned, skip_prefix in Hv. replace (h1 =? 48) with false in Hv by lia. cbn [andb] in Hv.
  replace (h1 =? c_us) with false in Hv by (unfold c_us; lia).
  assert (E1 : digit_in 16 h1 = Some (h1 - 48)).
  { unfold digit_in, digit_val. replace ((48 <=? h1) && (h1 <=? 57)) with true by lia. replace (h1 - 48 <? 16) with true by lia. reflexivity. }
  assert (E2 : digit_in 16 h2 = Some (h2 - 55)).
  { unfold digit_in, digit_val. replace ((48 <=? h2) && (h2 <=? 57)) with false by lia.
    replace ((65 <=? h2) && (h2 <=? 90)) with true by lia. replace (h2 - 55 <? 16) with true by lia. reflexivity. }
  cbn [scan_digits] in Hv. rewrite E1, E2 in Hv.
  destruct (scan_digits _ _ _ _ _) as [w|] eqn:E in Hv; [|discriminate].
  apply scan16_ge in E; [|exact Hr]. destruct E as [_ E]. specialize (E Hne). cbn [option_map] in Hv.
  apply (f_equal (fun o => match o with Some z => Z.to_N z | None => 0 end)) in Hv. cbv beta iota in Hv.
  rewrite !N2Z.id in Hv. lia.
Qed.

Lemma escape_elem t : ai82_text t -> forallb gs1_elem_char (escape t) = true.
Proof.
  intros H. induction t as [|c t IH]; [reflexivity|]. unfold escape. cbn [flat_map]. fold (escape t).
  rewrite forallb_app, IH by (intros x Hx; apply H; now right). rewrite andb_true_r.
  assert (Hc : gs1_elem_char c = true) by (apply ai82_iff, H; now left).
  destruct (reserved_dec c) as [Hr|Hr].
  - unfold reserved in Hr. cbn in Hr. repeat destruct Hr as [<-|Hr]; try reflexivity. destruct Hr.
  - rewrite escape_char_other by exact Hr. cbn. now rewrite Hc.
Qed.

Lemma m_dd_nonpct c s : c <> c_pct -> m_escape_dd (c :: s) = None.
Proof. intros H. destruct (m_escape_dd (c :: s)) eqn:E; [|reflexivity]. apply m_dd_some in E. destruct E as (_ & ? & ? & ? & E & _). congruence. Qed.
Lemma m_dd_letter h1 h2 s : inr 65 70 h2 = true -> m_escape_dd (c_pct :: h1 :: h2 :: s) = None.
Proof.
  intros H. destruct (m_escape_dd _) eqn:E; [|reflexivity]. apply m_dd_some in E. destruct E as (_ & ? & ? & ? & E & _ & E2).
  injection E as -> -> ->. apply is_d_ascii in E2; [|unfold inr in H; lia]. apply is_digit_iff in E2. unfold inr in H. lia.
Qed.

(** the pieces, read with a partly read piece [p] *)
Definition vpieces_from (p t : str) : list str := split_aux true m_escape_dd t (rev p) 0.

Lemma from_plain p c s : c <> c_pct -> vpieces_from p (c :: s) = vpieces_from (p ++ [c]) s.
Proof. intros H. unfold vpieces_from. cbn [split_aux]. rewrite m_dd_nonpct by exact H. now rewrite rev_app_distr. Qed.
Lemma from_letter p h1 h2 s : h1 <> c_pct -> inr 65 70 h2 = true ->
  vpieces_from p (c_pct :: h1 :: h2 :: s) = vpieces_from (p ++ [c_pct; h1; h2]) s.
Proof.
  intros H1 H2. unfold vpieces_from. cbn [split_aux]. rewrite m_dd_letter by exact H2. rewrite m_dd_nonpct by exact H1.
  rewrite m_dd_nonpct by (unfold inr, c_pct in *; lia). rewrite rev_app_distr. reflexivity.
Qed.
Lemma from_digits p h1 h2 s : is_d h1 = true -> is_d h2 = true ->
  vpieces_from p (c_pct :: h1 :: h2 :: s) = p :: [c_pct; h1; h2] :: vpieces_from [] s.
Proof. intros H1 H2. unfold vpieces_from. cbn [split_aux]. rewrite m_dd_hit by assumption. cbn [firstn]. now rewrite rev_involutive. Qed.

Lemma lost_app p q : lost p -> forallb gs1_elem_char q = true -> lost (p ++ q).
Proof.
  intros (h1 & h2 & r & -> & Hne & D1 & L1 & D2 & Hr) Hq. exists h1, h2, (r ++ q). repeat split; auto.
  - destruct r; [congruence|discriminate].
  - rewrite forallb_app, Hr, Hq. reflexivity.
Qed.
Lemma escape_char_elem c : In c ai82 -> forallb gs1_elem_char (escape_char c) = true /\ escape_char c <> [].
Proof.
  intros H. split.
  - pose proof (escape_elem [c] ltac:(intros x [<-|[]]; exact H)) as E. unfold escape in E. cbn [flat_map] in E. now rewrite app_nil_r in E.
  - destruct (reserved_dec c) as [Hr|Hr].
    + unfold reserved in Hr. cbn in Hr. repeat destruct Hr as [<-|Hr]; try discriminate. destruct Hr.
    + rewrite escape_char_other by exact Hr. discriminate.
Qed.

Lemma lost_from t p : lost p -> ai82_text t -> ~ Forall good (vpieces_from p (escape t)).
Proof.
  revert p; induction t as [|c t IH]; intros p Hp Ht H.
  - cbn in H. unfold vpieces_from in H. cbn in H. rewrite rev_involutive in H. inversion H; subst. now apply lost_not_good in Hp.
  - assert (Hc : In c ai82) by (apply Ht; now left). assert (Ht' : ai82_text t) by (intros x Hx; apply Ht; now right).
    unfold escape in H. cbn [flat_map] in H. fold (escape t) in H.
    destruct (is_digit_esc c) eqn:D; [|destruct (is_letter_esc c) eqn:L].
    + destruct (digit_esc_cases c D) as (h1 & h2 & E & H1 & H2 & Hg). rewrite E in H. cbn [app] in H.
      rewrite from_digits in H by assumption. inversion H; subst. now apply lost_not_good in Hp.
    + destruct (letter_esc_cases c L) as (h1 & h2 & E & H1 & H1' & H2 & Hg). rewrite E in H. cbn [app] in H.
      rewrite from_letter in H by (try exact H2; intros ->; discriminate H1). revert H. apply IH; [|exact Ht'].
      apply lost_app; [exact Hp|]. rewrite <- E. now apply escape_char_elem.
    + destruct (other_esc c Hc L D) as [E Hn]. rewrite E in H. cbn [app] in H. rewrite from_plain in H by exact Hn.
      revert H. apply IH; [|exact Ht']. apply lost_app; [exact Hp|]. rewrite <- E. now apply escape_char_elem.
Qed.

Lemma scan_pieces t st p : ai82_text t -> forallb gs1_elem_char p = true -> cur_state st p ->
  (Forall good (vpieces_from p (escape t)) <-> vscan st t = true).
Proof.
  revert st p; induction t as [|c t IH]; intros st p Ht Hpe Hp.
  - cbn [vscan]. unfold vpieces_from. cbn [escape flat_map split_aux]. rewrite rev_involutive.
    split; [reflexivity|]. intros _. constructor; [|constructor]. destruct st; cbn in Hp.
    + subst p. exists []. auto.
    + destruct Hp as (c & Hc & ->). destruct (letter_esc_cases c Hc) as (h1 & h2 & -> & _ & _ & _ & E & Hin).
      apply good_pct. eauto.
    + destruct Hp as (c & p' & -> & Hc). apply good_plain; assumption.
  - assert (Hc : In c ai82) by (apply Ht; now left). assert (Ht' : ai82_text t) by (intros x Hx; apply Ht; now right).
    unfold escape. cbn [flat_map vscan]. fold (escape t).
    assert (Hgood : good p).
    { destruct st; cbn in Hp.
      - subst p. exists []. auto.
      - destruct Hp as (c' & Hc' & ->). destruct (letter_esc_cases c' Hc') as (h1 & h2 & -> & _ & _ & _ & E & Hin).
        apply good_pct. eauto.
      - destruct Hp as (c' & p' & -> & Hc'). apply good_plain; assumption. }
    destruct (escape_char_elem c Hc) as [Hce Hcn].
    destruct (is_digit_esc c) eqn:D; [|destruct (is_letter_esc c) eqn:L].
    + destruct (digit_esc_cases c D) as (h1 & h2 & E & H1 & H2 & Hg). rewrite E. cbn [app].
      rewrite from_digits by assumption. rewrite <- (IH AtStart []); [|exact Ht'|reflexivity|reflexivity]. split.
      * intros H. inversion H as [|? ? ? H']; subst. inversion H'; subst. assumption.
      * intros H. auto.
    + destruct (letter_esc_cases c L) as (h1 & h2 & E & H1 & H1' & H2 & Hg). rewrite E. cbn [app].
      rewrite from_letter by (try exact H2; intros ->; discriminate H1).
      assert (Hpe' : forallb gs1_elem_char (p ++ [c_pct; h1; h2]) = true) by (rewrite forallb_app, Hpe, <- E, Hce; reflexivity).
      destruct st; cbn in Hp.
      * subst p. apply IH; [exact Ht'|exact Hpe'|]. cbn. exists c. auto.
      * split; [|discriminate]. intros H. exfalso. revert H. apply lost_from; [|exact Ht'].
        destruct Hp as (c' & Hc' & ->). destruct (letter_esc_cases c' Hc') as (k1 & k2 & Ek & K1 & K1' & K2 & _). rewrite Ek.
        exists k1, k2, [c_pct; h1; h2]. repeat split; auto. discriminate. rewrite <- E. exact Hce.
      * apply IH; [exact Ht'|exact Hpe'|]. destruct Hp as (c' & p' & -> & Hc'). cbn. eauto.
    + destruct (other_esc c Hc L D) as [E Hn]. rewrite E. cbn [app]. rewrite from_plain by exact Hn.
      assert (Hpe' : forallb gs1_elem_char (p ++ [c]) = true) by (rewrite forallb_app, Hpe, <- E, Hce; reflexivity).
      destruct st; cbn in Hp.
      * subst p. apply IH; [exact Ht'|exact Hpe'|]. cbn. eauto.
      * split; [|discriminate]. intros H. exfalso. revert H. apply lost_from; [|exact Ht'].
        destruct Hp as (c' & Hc' & ->). destruct (letter_esc_cases c' Hc') as (k1 & k2 & Ek & K1 & K1' & K2 & _). rewrite Ek.
        exists k1, k2, [c]. repeat split; auto. discriminate. rewrite <- E. exact Hce.
      * apply IH; [exact Ht'|exact Hpe'|]. destruct Hp as (c' & p' & -> & Hc'). cbn. eauto.
Qed.

(** ** The scanner and the specification *)

Definition misread_from (st : vstate) (t : str) : Prop :=
  (st = OneLetter /\ exists e b, t = e :: b /\ ~ digit_escaped e) \/
  exists a c e b, t = a ++ c :: e :: b /\ letter_escaped c /\ ~ digit_escaped e /\
    ((a = [] /\ st = AtStart) \/ exists a' d, a = a' ++ [d] /\ digit_escaped d).

Lemma not_digit_letter c : letter_escaped c -> ~ digit_escaped c.
Proof. rewrite letter_esc_iff, digit_esc_iff. unfold is_letter_esc, is_digit_esc, mem. cbn. lia. Qed.

Lemma snoc_cons {A} (x : A) a a' d : x :: a = a' ++ [d] -> (a = [] /\ a' = [] /\ d = x) \/ exists a'', a = a'' ++ [d].
Proof. destruct a' as [|y a']; cbn; intros [= -> E]; [left; subst; auto|right; eauto]. Qed.

Lemma vscan_misread t st : vscan st t = false <-> misread_from st t.
Proof.
  revert st; induction t as [|c t IH]; intros st.
  - split; [discriminate|]. intros [(_ & e & b & E & _)|(a & c & e & b & E & _)]; [discriminate|destruct a; discriminate].
  - cbn [vscan]. destruct (is_digit_esc c) eqn:D.
    + apply digit_esc_iff in D. rewrite IH. split.
      * intros [(E & _)|(a & x & e & b & -> & Hx & He & Ha)]; [discriminate|]. right. exists (c :: a), x, e, b. repeat split; auto.
        right. destruct Ha as [[-> _]|(a' & d & -> & Hd)]; [exists [], c; auto|exists (c :: a'), d; auto].
      * intros [(_ & e & b & [= <- <-] & H)|(a & x & e & b & E & Hx & He & Ha)]; [contradiction|].
        destruct a as [|y a]; [injection E as -> _; now apply not_digit_letter in Hx|]. injection E as <- ->. right.
        exists a, x, e, b. repeat split; auto. destruct Ha as [[Ha _]|(a' & d & Ha & Hd)]; [discriminate|].
        apply snoc_cons in Ha. destruct Ha as [(-> & _)|(a'' & ->)]; [left; auto|right; eauto].
    + assert (D' : ~ digit_escaped c) by (rewrite digit_esc_iff, D; discriminate).
      (* positions after the first character *)
      assert (Hstep : forall st', st' <> AtStart ->
         (exists a x e b, c :: t = (c :: a) ++ x :: e :: b /\ letter_escaped x /\ ~ digit_escaped e /\
            exists a' d, c :: a = a' ++ [d] /\ digit_escaped d) <->
         exists a x e b, t = a ++ x :: e :: b /\ letter_escaped x /\ ~ digit_escaped e /\
            ((a = [] /\ st' = AtStart) \/ exists a' d, a = a' ++ [d] /\ digit_escaped d)).
      { intros st' Hst. split.
        - intros (a & x & e & b & [= E] & Hx & He & a' & d & Ha & Hd). exists a, x, e, b. repeat split; auto. right.
          apply snoc_cons in Ha. destruct Ha as [(_ & _ & ->)|(a'' & ->)]; [contradiction|eauto].
        - intros (a & x & e & b & -> & Hx & He & [[_ Ha]|(a' & d & -> & Hd)]); [congruence|].
          exists (a' ++ [d]), x, e, b. repeat split; auto. exists (c :: a'), d. auto. }
      destruct st.
      * destruct (is_letter_esc c) eqn:L.
        -- apply letter_esc_iff in L. rewrite IH. unfold misread_from at 1. rewrite <- (Hstep OneLetter) by discriminate. split.
           ++ intros [(_ & e & b & -> & He)|(a & x & e & b & E & Hx & He & Ha)].
              ** right. exists [], c, e, b. repeat split; auto.
              ** right. exists (c :: a), x, e, b. repeat split; auto.
           ++ intros [(H & _)|(a & x & e & b & E & Hx & He & Ha)]; [discriminate|]. destruct a as [|y a].
              ** injection E as -> ->. left. eauto.
              ** injection E as <- ->. right. exists a, x, e, b. repeat split; auto. destruct Ha as [[Ha _]|Ha]; [discriminate|exact Ha].
        -- rewrite IH. unfold misread_from at 1. rewrite <- (Hstep Inside) by discriminate. split.
           ++ intros [(H & _)|(a & x & e & b & E & Hx & He & Ha)]; [discriminate|].
              right. exists (c :: a), x, e, b. repeat split; auto.
           ++ intros [(H & _)|(a & x & e & b & E & Hx & He & Ha)]; [discriminate|]. destruct a as [|y a].
              ** injection E as -> ->. apply letter_esc_iff in Hx. congruence.
              ** injection E as <- ->. right. exists a, x, e, b. repeat split; auto. destruct Ha as [[Ha _]|Ha]; [discriminate|exact Ha].
      * split; [|reflexivity]. intros _. left. eauto.
      * rewrite IH. unfold misread_from at 1. rewrite <- (Hstep Inside) by discriminate. split.
        -- intros [(H & _)|(a & x & e & b & E & Hx & He & Ha)]; [discriminate|].
           right. exists (c :: a), x, e, b. repeat split; auto.
        -- intros [(H & _)|(a & x & e & b & E & Hx & He & Ha)]; [discriminate|]. destruct a as [|y a].
           ++ destruct Ha as [[_ Ha]|(a' & d & Ha & _)]; [discriminate|destruct a'; discriminate].
           ++ injection E as <- ->. right. exists a, x, e, b. repeat split; auto. destruct Ha as [[Ha _]|Ha]; [discriminate|exact Ha].
Qed.

Lemma misread_start t : misread_from AtStart t <-> misread t.
Proof.
  unfold misread_from, misread. split.
  - intros [(H & _)|(a & c & e & b & E & Hc & He & Ha)]; [discriminate|]. exists a, c, e, b. repeat split; auto.
    destruct Ha as [[-> _]|Ha]; auto.
  - intros (a & c & e & b & E & Hc & He & Ha). right. exists a, c, e, b. repeat split; auto. destruct Ha; auto.
Qed.

Lemma escape_nonempty t : t <> [] -> ai82_text t -> escape t <> [].
Proof.
  destruct t as [|c t]; [congruence|]. intros _ H. unfold escape. cbn [flat_map].
  destruct (escape_char_elem c ltac:(apply H; now left)) as [_ Hn]. destruct (escape_char c); [congruence|discriminate].
Qed.

Theorem verify_canonical t : t <> [] -> ai82_text t -> (verify_gs3a3_component (escape t) = Ok tt <-> ~ misread t).
Proof.
  intros Hne Ht. rewrite verify_ok_iff. change (vpieces (escape t)) with (vpieces_from [] (escape t)).
  rewrite (scan_pieces t AtStart []) by (assumption || reflexivity).
  rewrite <- misread_start, <- vscan_misread. pose proof (escape_nonempty t Hne Ht). destruct (vscan AtStart t).
  - split; [discriminate|auto].
  - split; [intros [_ H1]; discriminate|congruence].
Qed.

Theorem verify_canonical_refusal t : t <> [] -> ai82_text t -> misread t ->
  exists e, verify_gs3a3_component (escape t) = Raise e /\ (e = ConvertException \/ e = ValueError \/ e = OverflowError).
Proof.
  intros Hne Ht Hm. destruct (verify_result (escape t)) as [H|H]; [|exact H].
  apply verify_canonical in H; [contradiction|exact Hne|exact Ht].
Qed.

Theorem verify_no_letter t : t <> [] -> ai82_text t -> (forall c, In c t -> ~ letter_escaped c) -> verify_gs3a3_component (escape t) = Ok tt.
Proof.
  intros Hne Ht H. apply verify_canonical; [exact Hne|exact Ht|]. intros (a & c & e & b & -> & Hc & _).
  apply (H c); [apply in_or_app; right; now left|exact Hc].
Qed.
