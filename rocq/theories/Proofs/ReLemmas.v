(** Regular expressions: the derivative matcher decides the usual language, and
    characterisations of the pattern shapes epcpy uses. *)
From Coq Require Import String Setoid.
From Verif.Model Require Import Py Re Regexes.
From Verif.Proofs Require Import Basics.

(** * Language semantics *)

Fixpoint lang (r : re) (s : str) : Prop :=
  match r with
  | REmp => False
  | REps => s = []
  | RSet p => exists c, s = [c] /\ p c = true
  | RSeq a b => exists s1 s2, s = s1 ++ s2 /\ lang a s1 /\ lang b s2
  | RAlt a b => lang a s \/ lang b s
  | RStar a => exists l, s = concat l /\ Forall (lang a) l
  end.

Lemma lang_mk_seq a b s : lang (mk_seq a b) s <-> lang (RSeq a b) s.
Proof.
  assert (C : mk_seq a b = RSeq a b \/ ((a = REmp \/ b = REmp) /\ mk_seq a b = REmp) \/ (a = REps /\ mk_seq a b = b))
    by (destruct a, b; cbn; auto 6).
  destruct C as [->|[[[->| ->] ->]|[-> ->]]]; cbn [lang].
  - tauto.
  - split; [intros []|intros (?&?&?&[]&?)].
  - split; [intros []|intros (?&?&?&?&[])].
  - split; [intros H; exists [], s; auto|intros (s1 & s2 & -> & -> & H); exact H].
Qed.

Lemma lang_mk_alt a b s : lang (mk_alt a b) s <-> lang (RAlt a b) s.
Proof. unfold mk_alt; destruct a; cbn; try tauto; destruct b; cbn; tauto. Qed.

Lemma nullable_lang r : nullable r = true <-> lang r [].
Proof.
  induction r; cbn.
  - split; [discriminate|intros []].
  - tauto.
  - split; [discriminate|]. intros (c & H & _). discriminate.
  - rewrite andb_true_iff, IHr1, IHr2. split.
    + intros [H1 H2]. exists [], []. auto.
    + intros (s1 & s2 & H & H1 & H2). symmetry in H. apply app_eq_nil in H. destruct H; subst. auto.
  - now rewrite orb_true_iff, IHr1, IHr2.
  - split; [|auto]. intros _. exists []. auto.
Qed.

Lemma star_cons a c s : lang (RStar a) (c :: s) <->
  exists s1 s2, s = s1 ++ s2 /\ lang a (c :: s1) /\ lang (RStar a) s2.
Proof.
  split.
  - intros (l & Hs & Hl). revert Hs. induction Hl as [|x l Hx Hl IH]; intros Hs; [discriminate|].
    destruct x as [|c' x]; cbn in Hs.
    + apply IH, Hs.
    + injection Hs as <- ->. exists x, (concat l). split; [reflexivity|]. split; [exact Hx|].
      exists l. auto.
  - intros (s1 & s2 & -> & H1 & (l & -> & Hl)). exists ((c :: s1) :: l). cbn. auto.
Qed.

Lemma deriv_lang c r s : lang (deriv c r) s <-> lang r (c :: s).
Proof.
  revert s; induction r; intros s; cbn [deriv].
  - cbn. tauto.
  - cbn. split; [intros []|discriminate].
  - cbn. destruct (p c) eqn:E; cbn.
    + split; [intros ->; now exists c|]. intros (c' & [= -> ->] & _). reflexivity.
    + split; [intros []|]. intros (c' & [= -> ->] & H). congruence.
  - assert (Hseq : (exists s1 s2, s = s1 ++ s2 /\ lang (deriv c r1) s1 /\ lang r2 s2) <->
                   (exists s1 s2, s = s1 ++ s2 /\ lang r1 (c :: s1) /\ lang r2 s2)).
    { split; intros (s1 & s2 & H & H1 & H2); exists s1, s2; (split; [exact H|]; split; [now apply IHr1|exact H2]). }
    destruct (nullable r1) eqn:E.
    + rewrite lang_mk_alt. cbn [lang]. rewrite lang_mk_seq. cbn [lang]. rewrite Hseq, IHr2.
      apply nullable_lang in E. split.
      * intros [(s1 & s2 & -> & H1 & H2)|H].
        -- exists (c :: s1), s2. auto.
        -- exists [], (c :: s). auto.
      * intros (s1 & s2 & H & H1 & H2). destruct s1 as [|c' s1].
        -- cbn in H. subst. auto.
        -- injection H as <- ->. left. exists s1, s2. auto.
    + rewrite lang_mk_seq. cbn [lang]. rewrite Hseq. split.
      * intros (s1 & s2 & -> & H1 & H2). exists (c :: s1), s2. auto.
      * intros (s1 & s2 & H & H1 & H2). destruct s1 as [|c' s1].
        -- apply nullable_lang in H1. congruence.
        -- injection H as <- ->. exists s1, s2. auto.
  - rewrite lang_mk_alt. cbn. now rewrite IHr1, IHr2.
  - rewrite lang_mk_seq, star_cons. cbn [lang].
    split; intros (s1 & s2 & H & H1 & H2); exists s1, s2; (split; [exact H|]; split; [now apply IHr|exact H2]).
Qed.

Theorem fullmatch_lang r s : fullmatch r s = true <-> lang r s.
Proof.
  revert r; induction s as [|c s IH]; intros r; cbn.
  - apply nullable_lang.
  - now rewrite IH, deriv_lang.
Qed.

Theorem rmatch_lang r s : rmatch r s = true <-> exists p q, s = p ++ q /\ lang r p.
Proof.
  revert r; induction s as [|c s IH]; intros r; cbn; rewrite orb_true_iff, nullable_lang.
  - split.
    + intros [H|H]; [|discriminate]. exists [], []. auto.
    + intros (p & q & H & Hp). symmetry in H. apply app_eq_nil in H. destruct H; subst. auto.
  - rewrite IH. split.
    + intros [H|(p & q & -> & H)].
      * exists [], (c :: s). auto.
      * exists (c :: p), q. split; [reflexivity|]. now apply deriv_lang.
    + intros (p & q & H & Hp). destruct p as [|c' p]; [now left|]. injection H as <- ->.
      right. exists p, q. split; [reflexivity|]. now apply deriv_lang.
Qed.

Lemma rmatch_fullmatch r s t : fullmatch r s = true -> rmatch r (s ++ t) = true.
Proof. intros H. apply rmatch_lang. exists s, t. split; [reflexivity|]. now apply fullmatch_lang. Qed.

Lemma fullmatch_false r s : fullmatch r s = false <-> ~ lang r s.
Proof. rewrite <- fullmatch_lang. destruct (fullmatch r s); split; congruence. Qed.

(** * Shapes *)

Lemma lang_rchar c s : lang (rchar c) s <-> s = [c].
Proof.
  cbn. split.
  - intros (x & -> & H). apply N.eqb_eq in H. now subst.
  - intros ->. exists c. split; [reflexivity|apply N.eqb_refl].
Qed.

Lemma lang_rlit_l t s : lang (rlit_l t) s <-> s = t.
Proof.
  revert s; induction t as [|c t IH]; intros s; [cbn; tauto|].
  cbn [rlit_l lang]. split.
  - intros (s1 & s2 & -> & H1 & H2). apply lang_rchar in H1. apply IH in H2. now subst.
  - intros ->. exists [c], t. split; [reflexivity|]. split; [now apply lang_rchar|now apply IH].
Qed.
Lemma lang_rlit t s : lang (rlit t) s <-> s = lit t.
Proof. apply lang_rlit_l. Qed.

Lemma lang_star_set p s : lang (RStar (RSet p)) s <-> forallb p s = true.
Proof.
  split.
  - intros (l & -> & Hl). induction Hl as [|x l (c & -> & Hc) Hl IH]; [reflexivity|]. cbn. now rewrite Hc.
  - induction s as [|c s IH]; intros H; [exists []; auto|].
    cbn in H. apply andb_true_iff in H. destruct H as [Hc Hs].
    apply star_cons. exists [], s. split; [reflexivity|]. split; [|now apply IH]. now exists c.
Qed.

Lemma lang_plus_set p s : lang (rplus (RSet p)) s <-> s <> [] /\ forallb p s = true.
Proof.
  unfold rplus. cbn [lang]. fold (lang (RStar (RSet p))). split.
  - intros (s1 & s2 & -> & (c & -> & Hc) & H). split; [discriminate|].
    cbn. rewrite Hc. apply lang_star_set, H.
  - intros [Hne H]. destruct s as [|c s]; [congruence|]. cbn in H. apply andb_true_iff in H.
    exists [c], s. split; [reflexivity|]. split; [exists c; tauto|]. apply lang_star_set. tauto.
Qed.

Lemma lang_seq a b s : lang (RSeq a b) s <-> exists s1 s2, s = s1 ++ s2 /\ lang a s1 /\ lang b s2.
Proof. reflexivity. Qed.

Lemma lang_lit_seq t b s : lang (RSeq (rlit t) b) s <-> exists s', s = lit t ++ s' /\ lang b s'.
Proof.
  rewrite lang_seq. split.
  - intros (s1 & s2 & -> & H1 & H2). apply lang_rlit in H1. subst. eauto.
  - intros (s' & -> & H). exists (lit t), s'. split; [reflexivity|]. split; [now apply lang_rlit|exact H].
Qed.

Lemma lang_rep_set n p s : lang (rrep n (RSet p)) s <-> length s = n /\ forallb p s = true.
Proof.
  revert s; induction n as [|n IH]; intros s; cbn [rrep lang].
  - split; [intros ->; auto|]. intros [H _]. now apply length_zero_iff_nil.
  - split.
    + intros (s1 & s2 & -> & (c & -> & Hc) & H). apply IH in H. destruct H as [Hl H]. cbn. rewrite Hc.
      split; [now rewrite Hl|exact H].
    + intros [Hl H]. destruct s as [|c s]; [discriminate|]. cbn in H. apply andb_true_iff in H.
      exists [c], s. split; [reflexivity|]. split; [exists c; tauto|]. apply IH. split; [now injection Hl|tauto].
Qed.

Lemma lang_upto_set n p s : lang (rupto n (RSet p)) s <-> (length s <= n)%nat /\ forallb p s = true.
Proof.
  revert s; induction n as [|n IH]; intros s; cbn [rupto lang].
  - split; [intros ->; cbn; auto|]. intros [H _]. apply length_zero_iff_nil. lia.
  - split.
    + intros [->|(s1 & s2 & -> & (c & -> & Hc) & H)]; [cbn; split; [lia|reflexivity]|].
      apply IH in H. destruct H as [Hl H]. cbn. rewrite Hc. split; [lia|exact H].
    + intros [Hl H]. destruct s as [|c s]; [now left|]. right. cbn in H. apply andb_true_iff in H.
      exists [c], s. split; [reflexivity|]. split; [exists c; tauto|]. apply IH. cbn in Hl. split; [lia|tauto].
Qed.

Lemma lang_range_set lo hi p s : (lo <= hi)%nat ->
  lang (rrange lo hi (RSet p)) s <-> (lo <= length s <= hi)%nat /\ forallb p s = true.
Proof.
  intros Hlh. unfold rrange. rewrite lang_seq. split.
  - intros (s1 & s2 & -> & H1 & H2). apply lang_rep_set in H1. apply lang_upto_set in H2.
    destruct H1 as [L1 H1], H2 as [L2 H2]. rewrite app_length, forallb_app, H1, H2. split; [lia|reflexivity].
  - intros [Hl H]. exists (firstn lo s), (skipn lo s). split; [now rewrite firstn_skipn|].
    rewrite lang_rep_set, lang_upto_set, firstn_length, skipn_length. split.
    + split; [lia|now apply forallb_firstn].
    + split; [lia|now apply forallb_skipn].
Qed.

(** sequences separated by dots *)
Lemma lang_dot_seq a r s : lang (RSeq a (RSeq dot r)) s <->
  exists x y, s = x ++ [c_dot] ++ y /\ lang a x /\ lang r y.
Proof.
  rewrite lang_seq. split.
  - intros (s1 & s2 & -> & H1 & (s3 & s4 & -> & H3 & H4)). apply lang_rchar in H3. subst. eauto 6.
  - intros (x & y & -> & H1 & H2). exists x, ([c_dot] ++ y). split; [reflexivity|]. split; [exact H1|].
    exists [c_dot], y. split; [reflexivity|]. split; [now apply lang_rchar|exact H2].
Qed.

Lemma lang_dot2 a b s : lang (rseq [a; dot; b]) s <->
  exists x y, s = x ++ [c_dot] ++ y /\ lang a x /\ lang b y.
Proof. apply (lang_dot_seq a b). Qed.

Lemma lang_dot3 a b c s : lang (rseq [a; dot; b; dot; c]) s <->
  exists x y z, s = x ++ [c_dot] ++ y ++ [c_dot] ++ z /\ lang a x /\ lang b y /\ lang c z.
Proof.
  change (rseq [a; dot; b; dot; c]) with (RSeq a (RSeq dot (rseq [b; dot; c]))).
  rewrite lang_dot_seq. split.
  - intros (x & y & -> & H1 & H2). apply lang_dot2 in H2. destruct H2 as (y' & z & -> & H2 & H3). eauto 10.
  - intros (x & y & z & -> & H1 & H2 & H3). exists x, (y ++ [c_dot] ++ z).
    split; [reflexivity|]. split; [exact H1|]. apply lang_dot2. eauto 6.
Qed.

Lemma lang_dot4 a b c d s : lang (rseq [a; dot; b; dot; c; dot; d]) s <->
  exists x y z w, s = x ++ [c_dot] ++ y ++ [c_dot] ++ z ++ [c_dot] ++ w /\
    lang a x /\ lang b y /\ lang c z /\ lang d w.
Proof.
  change (rseq [a; dot; b; dot; c; dot; d]) with (RSeq a (RSeq dot (rseq [b; dot; c; dot; d]))).
  rewrite lang_dot_seq. split.
  - intros (x & y & -> & H1 & H2). apply lang_dot3 in H2. destruct H2 as (y' & z & w & -> & H2). exists x, y', z, w. tauto.
  - intros (x & y & z & w & -> & H1 & H2). exists x, (y ++ [c_dot] ++ z ++ [c_dot] ++ w).
    split; [reflexivity|]. split; [exact H1|]. apply lang_dot3. exists y, z, w. tauto.
Qed.

(** * epcpy's components *)

Lemma lang_PNC s : lang PNC s <-> s <> [] /\ forallb is_d s = true.
Proof. apply lang_plus_set. Qed.
Lemma lang_PNCE s : lang PNCE s <-> forallb is_d s = true.
Proof. apply lang_star_set. Qed.
Lemma lang_DIGITS n s : lang (rrep n DIGIT) s <-> length s = n /\ forallb is_d s = true.
Proof. apply lang_rep_set. Qed.

(** 0, or a string of digits whose first is an ASCII 1..9 *)
Definition nc_shape (s : str) : bool :=
  match s with
  | [] => false
  | c :: s' => (str_eqb s [c_0]) || (inr 49 57 c && forallb is_d s')
  end.
Lemma lang_NC s : lang NC s <-> nc_shape s = true.
Proof.
  unfold NC, NUMERIC_COMPONENT. change (lang (RAlt (rchar c_0) ?r) s) with (lang (rchar c_0) s \/ lang r s).
  rewrite lang_rchar, lang_seq. split.
  - intros [->|(s1 & s2 & -> & (c & -> & Hc) & H)]; [reflexivity|].
    apply lang_star_set in H. unfold nc_shape. cbn [app]. rewrite Hc, H. apply orb_true_r.
  - destruct s as [|c s]; [discriminate|]. unfold nc_shape. intros H. apply orb_true_iff in H.
    destruct H as [H|H]; [left; now apply str_eqb_eq|]. right. apply andb_true_iff in H.
    exists [c], s. split; [reflexivity|]. split; [exists c; tauto|]. apply lang_star_set. tauto.
Qed.

(** a GS3A3 component read left to right: [%] must be followed by a hexadecimal digit *)
Fixpoint gs3a3_shape (s : str) : bool :=
  match s with
  | [] => true
  | c :: s' =>
      if c =? c_pct then match s' with h :: s'' => is_hex h && gs3a3_shape s'' | [] => false end
      else gs3a3_plain c && gs3a3_shape s'
  end.

Lemma plain_not_pct c : gs3a3_plain c = true -> (c =? c_pct) = false.
Proof. unfold gs3a3_plain, is_lower, is_upper, is_digit, inr, c_pct. lia. Qed.

Lemma lang_GS3A3_CHAR s : lang GS3A3_CHAR s <->
  (exists h, s = [c_pct; h] /\ is_hex h = true) \/ (exists c, s = [c] /\ gs3a3_plain c = true).
Proof.
  unfold GS3A3_CHAR. cbn [lang]. split.
  - intros [(s1 & s2 & -> & H1 & (h & -> & Hh))|H]; [|now right].
    destruct H1 as (c & -> & Hc). apply N.eqb_eq in Hc. subst c. left. exists h. auto.
  - intros [(h & -> & Hh)|H]; [left|now right]. exists [c_pct], [h]. split; [reflexivity|]. split.
    + exists c_pct. split; reflexivity.
    + exists h. auto.
Qed.

Lemma gs3a3_shape_app_pct h s : is_hex h = true -> gs3a3_shape s = true -> gs3a3_shape (c_pct :: h :: s) = true.
Proof. intros Hh Hs. cbn. now rewrite Hh, Hs. Qed.

Lemma lang_star_GS3A3 s : lang (RStar GS3A3_CHAR) s <-> gs3a3_shape s = true.
Proof.
  split.
  - intros (l & -> & Hl). induction Hl as [|x l Hx Hl IH]; [reflexivity|].
    apply lang_GS3A3_CHAR in Hx. destruct Hx as [(h & -> & Hh)|(c & -> & Hc)]; cbn.
    + now rewrite Hh.
    + rewrite (plain_not_pct c Hc), Hc. exact IH.
  - remember (length s) as n eqn:Hn. assert (Hle : (length s <= n)%nat) by lia. clear Hn.
    revert s Hle; induction n as [|n IH]; intros s Hle H.
    + destruct s; [exists []; auto|cbn in Hle; lia].
    + destruct s as [|c s]; [exists []; auto|]. cbn in H, Hle.
      apply star_cons. destruct (N.eqb_spec c c_pct) as [->|Hc].
      * destruct s as [|h s]; [discriminate|]. apply andb_true_iff in H. destruct H as [Hh H].
        exists [h], s. split; [reflexivity|]. split; [apply lang_GS3A3_CHAR; left; eauto|].
        apply IH; [cbn in Hle; lia|exact H].
      * apply andb_true_iff in H. destruct H as [Hp H].
        exists [], s. split; [reflexivity|]. split; [apply lang_GS3A3_CHAR; right; eauto|].
        apply IH; [lia|exact H].
Qed.

Lemma lang_GS3A3 s : lang GS3A3_COMPONENT s <-> s <> [] /\ gs3a3_shape s = true.
Proof.
  unfold GS3A3_COMPONENT, rplus. rewrite lang_seq. split.
  - intros (s1 & s2 & -> & H1 & H2). apply lang_star_GS3A3 in H2. apply lang_GS3A3_CHAR in H1.
    destruct H1 as [(h & -> & Hh)|(c & -> & Hc)]; (split; [discriminate|]); cbn.
    + now rewrite Hh.
    + now rewrite (plain_not_pct c Hc), Hc.
  - intros [Hne H]. destruct s as [|c s]; [congruence|]. cbn in H.
    destruct (N.eqb_spec c c_pct) as [->|Hc].
    + destruct s as [|h s]; [discriminate|]. apply andb_true_iff in H. destruct H as [Hh H].
      exists [c_pct; h], s. split; [reflexivity|]. split; [apply lang_GS3A3_CHAR; left; eauto|].
      now apply lang_star_GS3A3.
    + apply andb_true_iff in H. destruct H as [Hp H].
      exists [c], s. split; [reflexivity|]. split; [apply lang_GS3A3_CHAR; right; eauto|].
      now apply lang_star_GS3A3.
Qed.

(** characters, [%2F] and (if [hash]) [%23] *)
Fixpoint esc_shape (hash : bool) (s : str) : bool :=
  match s with
  | [] => true
  | c :: s' =>
      if c =? c_pct
      then match s' with
           | a :: b :: s'' => (((a =? 50) && (b =? 70)) || (hash && (a =? 50) && (b =? 51))) && esc_shape hash s''
           | _ => false
           end
      else cpref_char c && esc_shape hash s'
  end.

Lemma cpref_char_not_pct c : cpref_char c = true -> (c =? c_pct) = false.
Proof. unfold cpref_char, is_upper, is_digit, inr, c_pct, c_dash. lia. Qed.

Lemma lang_star_esc hash r s :
  (forall t, lang r t <-> (exists c, t = [c] /\ cpref_char c = true) \/ t = lit "%2F" \/ (hash = true /\ t = lit "%23")) ->
  lang (RStar r) s <-> esc_shape hash s = true.
Proof.
  intros Hr. split.
  - intros (l & -> & Hl). induction Hl as [|x l Hx Hl IH]; [reflexivity|].
    apply Hr in Hx. destruct Hx as [(c & -> & Hc)|[->|[Hh ->]]].
    + cbn. rewrite (cpref_char_not_pct c Hc), Hc. exact IH.
    + cbn. exact IH.
    + subst hash. cbn. exact IH.
  - remember (length s) as n eqn:Hn. assert (Hle : (length s <= n)%nat) by lia. clear Hn.
    revert s Hle; induction n as [|n IH]; intros s Hle H.
    + destruct s; [exists []; auto|cbn in Hle; lia].
    + destruct s as [|c s]; [exists []; auto|]. cbn in H, Hle.
      apply star_cons. destruct (N.eqb_spec c c_pct) as [->|Hc].
      * destruct s as [|a [|b s]]; try discriminate. apply andb_true_iff in H. destruct H as [Hab H].
        exists [a; b], s. split; [reflexivity|]. split.
        -- apply Hr. apply orb_true_iff in Hab. destruct Hab as [Hab|Hab].
           ++ apply andb_true_iff in Hab. destruct Hab as [H1 H2]. apply N.eqb_eq in H1, H2. subst. auto.
           ++ apply andb_true_iff in Hab. destruct Hab as [Hab H2]. apply andb_true_iff in Hab.
              destruct Hab as [H0 H1]. apply N.eqb_eq in H1, H2. subst. auto.
        -- apply IH; [cbn in Hle; lia|exact H].
      * apply andb_true_iff in H. destruct H as [Hp H].
        exists [], s. split; [reflexivity|]. split; [apply Hr; left; eauto|].
        apply IH; [lia|exact H].
Qed.

Lemma lang_plus_esc hash r s :
  (forall t, lang r t <-> (exists c, t = [c] /\ cpref_char c = true) \/ t = lit "%2F" \/ (hash = true /\ t = lit "%23")) ->
  lang (rplus r) s <-> s <> [] /\ esc_shape hash s = true.
Proof.
  intros Hr. unfold rplus. rewrite lang_seq. rewrite <- (lang_star_esc hash r s Hr). split.
  - intros (s1 & s2 & -> & H1 & H2). split.
    + apply Hr in H1. destruct H1 as [(c & -> & Hc)|[->|[Hh ->]]]; discriminate.
    + destruct H2 as (l & -> & Hl). exists (s1 :: l). auto.
  - intros [Hne H]. destruct s as [|c s]; [congruence|]. apply star_cons in H.
    destruct H as (s1 & s2 & -> & H1 & H2). exists (c :: s1), s2. auto.
Qed.

Lemma lang_CPREF s : lang CPREF_COMPONENT s <-> s <> [] /\ esc_shape true s = true.
Proof.
  apply lang_plus_esc. intros t.
  change (lang (ralt [RSet cpref_char; rlit "%2F"; rlit "%23"]) t)
    with (lang (RSet cpref_char) t \/ (lang (rlit "%2F") t \/ lang (rlit "%23") t)).
  rewrite !lang_rlit. cbn [lang]. tauto.
Qed.

Lemma lang_ADI_CHAR t : lang ADI_CHAR t <->
  (exists c, t = [c] /\ cpref_char c = true) \/ t = lit "%2F" \/ (false = true /\ t = lit "%23").
Proof.
  change (lang ADI_CHAR t) with (lang (RSet cpref_char) t \/ lang (rlit "%2F") t).
  rewrite !lang_rlit. cbn [lang]. split; [tauto|]. intros [H|[H|[H _]]]; [tauto|tauto|discriminate].
Qed.

Lemma lang_star_ADI s : lang (RStar ADI_CHAR) s <-> esc_shape false s = true.
Proof. apply lang_star_esc, lang_ADI_CHAR. Qed.
Lemma lang_plus_ADI s : lang (rplus ADI_CHAR) s <-> s <> [] /\ esc_shape false s = true.
Proof. apply lang_plus_esc, lang_ADI_CHAR. Qed.

Lemma lang_CAGE s : lang CAGE_CODE_OR_DODAAC s <-> (5 <= length s <= 6)%nat /\ forallb cage_char s = true.
Proof. apply lang_range_set. lia. Qed.

(** * No separators inside components *)

Lemma is_d_not_dot : is_d c_dot = false. Proof. reflexivity. Qed.
Lemma is_d_not_colon : is_d c_colon = false. Proof. reflexivity. Qed.

Lemma digits_no_dot s : forallb is_d s = true -> ~ In c_dot s.
Proof. intros H. eapply notin_forallb; [exact H|reflexivity]. Qed.
Lemma digits_no_colon s : forallb is_d s = true -> ~ In c_colon s.
Proof. intros H. eapply notin_forallb; [exact H|reflexivity]. Qed.
Lemma cage_no_dot s : forallb cage_char s = true -> ~ In c_dot s.
Proof. intros H. eapply notin_forallb; [exact H|reflexivity]. Qed.
Lemma cage_no_colon s : forallb cage_char s = true -> ~ In c_colon s.
Proof. intros H. eapply notin_forallb; [exact H|reflexivity]. Qed.

Lemma nc_no_sep s c : c = c_dot \/ c = c_colon -> nc_shape s = true -> ~ In c s.
Proof.
  intros Hc H. destruct s as [|x s]; [discriminate|]. unfold nc_shape in H. apply orb_true_iff in H.
  destruct H as [H|H].
  - apply str_eqb_eq in H. injection H as -> ->. intros [E|[]]. destruct Hc; subst; discriminate.
  - apply andb_true_iff in H. destruct H as [H1 H2]. intros [->|E].
    + destruct Hc; subst; discriminate H1.
    + pose proof (forallb_In _ _ _ H2 E) as H3. destruct Hc; subst; discriminate H3.
Qed.

Definition esc_char (c : N) : bool := cpref_char c || (c =? c_pct).
Lemma esc_shape_chars hash s : esc_shape hash s = true -> forallb esc_char s = true.
Proof.
  remember (length s) as n eqn:Hn. assert (Hle : (length s <= n)%nat) by lia. clear Hn.
  revert s Hle; induction n as [|n IH]; intros s Hle H; destruct s as [|c s]; cbn in Hle; try lia; try reflexivity.
  cbn in H. destruct (N.eqb_spec c c_pct) as [->|Hc].
  - destruct s as [|a [|b s]]; try discriminate. apply andb_true_iff in H. destruct H as [Hab H].
    cbn. rewrite (IH s) by (cbn in Hle; auto; lia).
    assert (Ha : a = 50) by (apply orb_true_iff in Hab; destruct Hab as [E|E]; lia).
    assert (Hb : b = 70 \/ b = 51) by (apply orb_true_iff in Hab; destruct Hab as [E|E]; lia).
    subst a. destruct Hb; subst b; reflexivity.
  - apply andb_true_iff in H. destruct H as [Hp H]. cbn. unfold esc_char at 1. rewrite Hp. cbn. apply IH; auto. lia.
Qed.
Lemma esc_no_sep hash s c : c = c_dot \/ c = c_colon -> esc_shape hash s = true -> ~ In c s.
Proof.
  intros Hc H. apply esc_shape_chars in H. eapply notin_forallb; [exact H|]. destruct Hc; subst; reflexivity.
Qed.
