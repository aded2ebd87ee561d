(** GS1 element strings: their grammar, and slicing them. *)
From Coq Require Import String Lia Setoid.
From Verif.Model Require Import Py Re Regexes Common Base Parsers.
From Verif.Spec Require Import Spec SpecEscapes SpecGrammar SpecSchemes SpecElements.
From Verif.Proofs Require Import Basics Num ReLemmas Uni Escapes Verify Grammar Ctor TagUri.

Lemma elem_cpi_iff c : gs1_elem_char_cpi c = true <-> 65 <= c <= 90 \/ 48 <= c <= 57 \/ c = 45 \/ c = 35 \/ c = 47.
Proof.
  unfold gs1_elem_char_cpi, is_digit, is_upper, inr. rewrite !orb_true_iff, !andb_true_iff, !N.leb_le, !N.eqb_eq. lia.
Qed.
Lemma elem_cpi_text t : six_bit_text t <-> forallb gs1_elem_char_cpi t = true.
Proof.
  rewrite forallb_forall. unfold six_bit_text. split; intros H c I; apply elem_cpi_iff, H, I.
Qed.

Lemma lang_ndigits n s : lang (rrep n DIGIT) s <-> ndigits n s.
Proof. rewrite lang_DIGITS. unfold ndigits. rewrite digits_iff. tauto. Qed.
Lemma lang_udigits lo hi s : (lo <= hi)%nat -> lang (rrange lo hi DIGIT) s <-> digits s /\ (lo <= length s <= hi)%nat.
Proof. intros H. unfold DIGIT. rewrite lang_range_set by exact H. rewrite digits_iff. tauto. Qed.
Lemma lang_ai82 hi s : (1 <= hi)%nat -> lang (rrange 1 hi GS1_ELEM_CHARS) s <-> ai82_upto hi s.
Proof. intros H. unfold GS1_ELEM_CHARS. rewrite lang_range_set by exact H. unfold ai82_upto. rewrite ai82_text_iff. tauto. Qed.

Lemma lang_d p n s : lang (rseq [rlit p; rrep n DIGIT]) s <-> exists d, s = lit p ++ d /\ ndigits n d.
Proof.
  cbn [rseq]. rewrite lang_lit_seq. split; intros (d & E & H); exists d; (split; [exact E|]); apply lang_ndigits, H.
Qed.
Lemma lang_dt p n hi s : (1 <= hi)%nat ->
  lang (rseq [rlit p; rrep n DIGIT; rrange 1 hi GS1_ELEM_CHARS]) s <->
  exists d t, s = lit p ++ d ++ t /\ ndigits n d /\ ai82_upto hi t.
Proof.
  intros L. cbn [rseq]. rewrite lang_lit_seq. split.
  - intros (r & -> & H). apply lang_seq in H as (d & t & -> & D & T). exists d, t.
    apply lang_ndigits in D. apply lang_ai82 in T; [|exact L]. auto.
  - intros (d & t & -> & D & T). exists (d ++ t). split; [reflexivity|]. apply lang_seq. exists d, t.
    apply lang_ndigits in D. apply lang_ai82 in T; [|exact L]. auto.
Qed.
Lemma lang_dqt p q n hi s : (1 <= hi)%nat ->
  lang (rseq [rlit p; rrep n DIGIT; rlit q; rrange 1 hi GS1_ELEM_CHARS]) s <->
  exists d t, s = lit p ++ d ++ lit q ++ t /\ ndigits n d /\ ai82_upto hi t.
Proof.
  intros L. cbn [rseq]. rewrite lang_lit_seq. split.
  - intros (r & -> & H). apply lang_seq in H as (d & r2 & -> & D & T). apply lang_lit_seq in T as (t & -> & T).
    exists d, t. apply lang_ndigits in D. apply lang_ai82 in T; [|exact L]. auto.
  - intros (d & t & -> & D & T). exists (d ++ lit q ++ t). split; [reflexivity|]. apply lang_seq. exists d, (lit q ++ t).
    apply lang_ndigits in D. apply lang_ai82 in T; [|exact L]. split; [reflexivity|]. split; [exact D|].
    apply lang_lit_seq. eauto.
Qed.
Lemma lang_rt p hi s : (1 <= hi)%nat ->
  lang (rseq [rlit p; rrange 6 12 DIGIT; rrange 1 hi GS1_ELEM_CHARS]) s <->
  exists d t, s = lit p ++ d ++ t /\ digits d /\ (6 <= length d <= 12)%nat /\ ai82_upto hi t.
Proof.
  intros L. cbn [rseq]. rewrite lang_lit_seq. split.
  - intros (r & -> & H). apply lang_seq in H as (d & t & -> & D & T). exists d, t.
    apply lang_udigits in D; [|lia]. apply lang_ai82 in T; [|exact L]. tauto.
  - intros (d & t & -> & D & D' & T). exists (d ++ t). split; [reflexivity|]. apply lang_seq. exists d, t.
    apply lang_ai82 in T; [|exact L]. split; [reflexivity|]. split; [apply lang_udigits; [lia|auto]|exact T].
Qed.

Theorem element_regex c s : fullmatch (gs1_element_string_regex c) s = true <-> element_string c s.
Proof.
  rewrite fullmatch_lang.
  destruct c; cbn [gs1_element_string_regex element_string lang]; try reflexivity;
    try (apply lang_d); try (apply lang_dt; lia); try (apply lang_dqt; lia); try (apply lang_rt; lia).
  unfold CPI_GS1_ELEMENT_STRING. cbn [rseq]. rewrite lang_lit_seq. split.
  - intros (r & -> & H). apply lang_seq in H as (d & r1 & -> & D & H). apply lang_seq in H as (t & r2 & -> & T & H).
    apply lang_lit_seq in H as (n & -> & N). apply lang_udigits in D; [|lia]. apply lang_udigits in N; [|lia].
    unfold GS1_ELEM_CHARS_CPI in T. apply lang_range_set in T; [|lia]. exists d, t, n. rewrite elem_cpi_text. intuition lia.
  - intros (d & t & n & -> & D & D' & T & T' & N & N'). exists (d ++ t ++ lit "(8011)" ++ n). split; [reflexivity|].
    apply lang_seq. exists d, (t ++ lit "(8011)" ++ n). split; [reflexivity|]. split; [apply lang_udigits; [lia|auto]|].
    apply lang_seq. exists t, (lit "(8011)" ++ n). split; [reflexivity|].
    split; [unfold GS1_ELEM_CHARS_CPI; apply lang_range_set; [lia|]; split; [lia|apply elem_cpi_text, T]|].
    apply lang_lit_seq. exists n. split; [reflexivity|]. apply lang_udigits; [lia|auto].
Qed.

(** the alternation of parsers.py is the union *)
Lemma gs1_element_any s : fullmatch GS1_ELEMENT_STRING s = true <-> exists c, element_string c s.
Proof.
  rewrite fullmatch_lang.
  assert (E : GS1_ELEMENT_STRING = ralt (map gs1_element_string_regex
    [C_SGTIN; C_SSCC; C_SGLN; C_GRAI; C_GIAI; C_GSRN; C_GSRNP; C_GDTI; C_CPI; C_SGCN; C_GINC; C_GSIN; C_ITIP; C_UPUI;
     C_PGLN; C_LGTIN])) by reflexivity.
  rewrite E, lang_ralt. split.
  - intros (r & I & L). apply in_map_iff in I as (c & <- & I). exists c. apply element_regex, fullmatch_lang, L.
  - intros (c & S). exists (gs1_element_string_regex c). split; [|apply fullmatch_lang, element_regex, S].
    apply in_map_iff. exists c. split; [reflexivity|]. destruct c; cbn in S |- *; tauto.
Qed.

(** * Which class: the opening characters decide *)

Definition opener (c : cls) : str :=
  match c with
  | C_SGTIN | C_LGTIN | C_UPUI => lit "(01)" | C_SSCC => lit "(00)" | C_SGLN => lit "(414)" | C_GRAI => lit "(8003)"
  | C_GDTI => lit "(253)" | C_SGCN => lit "(255)" | C_GIAI => lit "(8004)" | C_GINC => lit "(401)" | C_GSRN => lit "(8018)"
  | C_GSRNP => lit "(8017)" | C_GSIN => lit "(402)" | C_PGLN => lit "(417)" | C_ITIP => lit "(8006)" | C_CPI => lit "(8010)"
  | _ => []
  end.
Definition closer (c : cls) : str :=
  match c with C_SGTIN => lit "(21)" | C_LGTIN => lit "(10)" | C_UPUI => lit "(235)" | _ => [] end.
Lemma element_opener c s : element_string c s -> exists r, s = opener c ++ r.
Proof.
  destruct c; cbn [element_string]; try tauto; intros H; repeat match type of H with ex _ => destruct H as (? & H) end;
    destruct H as [-> _]; cbn [opener]; eexists; reflexivity.
Qed.
Lemma element_closer c s : opener c = lit "(01)" -> element_string c s -> exists d r, s = lit "(01)" ++ d ++ closer c ++ r /\ length d = 14%nat.
Proof.
  intros O S. destruct c; try discriminate O; cbn [element_string] in S; destruct S as (d & t & -> & [_ L] & _); exists d, t; auto.
Qed.
Lemma app_cut' {A} (a a' b b' : list A) : length a = length a' -> a ++ b = a' ++ b' -> a = a' /\ b = b'.
Proof. revert a'. induction a as [|x a IH]; intros [|y a'] L E; try discriminate L; [auto|]. cbn in E. injection E as -> E. destruct (IH a' ltac:(cbn in L; lia) E) as [-> ->]. auto. Qed.
Theorem element_class c c' s : element_string c s -> element_string c' s -> c = c'.
Proof.
  intros S S'. destruct (element_opener _ _ S) as (r & E). destruct (element_opener _ _ S') as (r' & E').
  assert (O : opener c = opener c' \/ opener c <> opener c') by (destruct (str_eq_dec (opener c) (opener c')); auto).
  destruct O as [O|O].
  - destruct (str_eq_dec (opener c) (lit "(01)")) as [O1|O1].
    + destruct (element_closer _ _ O1 S) as (d & q & E1 & L). destruct (element_closer c' s ltac:(congruence) S') as (d' & q' & E2 & L').
      rewrite E1 in E2. apply app_inv_head in E2. apply app_cut' in E2 as [-> E2]; [|lia].
      clear - O1 O E2 S S'. destruct c; try discriminate O1; destruct c'; try discriminate O; try reflexivity; discriminate E2.
    + clear - O O1 S S'. destruct c; try (cbn in S; tauto); try (exfalso; apply O1; reflexivity);
      destruct c'; try reflexivity; try (cbn in S'; tauto); discriminate O.
  - exfalso. rewrite E in E'. clear - O E' S S'.
    destruct c; try (cbn in S; tauto); destruct c'; try (cbn in S'; tauto); try (apply O; reflexivity); discriminate E'.
Qed.

(** * Slices of a known decomposition *)

Lemma slz_mid {A} (a b c : list A) lo hi :
  lo = Z.of_nat (length a) -> hi = Z.of_nat (length a + length b) -> slz (Some lo) (Some hi) (a ++ b ++ c) = b.
Proof.
  intros -> ->. unfold slz, norm_idx. rewrite !app_length.
  replace (Z.of_nat (length a) <? 0)%Z with false by (symmetry; apply Z.ltb_ge; lia).
  replace (Z.of_nat (length a + length b) <? 0)%Z with false by (symmetry; apply Z.ltb_ge; lia).
  rewrite !Z.min_l, !Z.max_r by lia. rewrite Nat2Z.id.
  replace (Z.to_nat (Z.of_nat (length a + length b) - Z.of_nat (length a))) with (length b) by lia.
  rewrite skipn_exact by reflexivity. apply firstn_exact. reflexivity.
Qed.
Lemma slz_mid_neg {A} (a b c : list A) lo hi :
  lo = Z.of_nat (length a) -> hi = (- Z.of_nat (length c))%Z -> c <> [] -> slz (Some lo) (Some hi) (a ++ b ++ c) = b.
Proof.
  intros -> -> N. assert (C : (1 <= length c)%nat) by (destruct c; [congruence|cbn [length]; lia]).
  unfold slz, norm_idx. rewrite !app_length.
  replace (Z.of_nat (length a) <? 0)%Z with false by (symmetry; apply Z.ltb_ge; lia).
  replace (- Z.of_nat (length c) <? 0)%Z with true by (symmetry; apply Z.ltb_lt; lia).
  rewrite !Z.min_l, !Z.max_r by lia. rewrite Nat2Z.id.
  replace (Z.to_nat _) with (length b) by lia.
  rewrite skipn_exact by reflexivity. apply firstn_exact. reflexivity.
Qed.
Lemma slz_head {A} (b c : list A) hi : hi = Z.of_nat (length b) -> slz None (Some hi) (b ++ c) = b.
Proof.
  intros ->. unfold slz, norm_idx. rewrite !app_length.
  replace (Z.of_nat (length b) <? 0)%Z with false by (symmetry; apply Z.ltb_ge; lia).
  rewrite !Z.min_l, !Z.max_r by lia. cbn [Z.to_nat skipn]. rewrite Z.sub_0_r, Nat2Z.id. apply firstn_exact. reflexivity.
Qed.
Lemma slz_tail {A} (a b : list A) lo : lo = Z.of_nat (length a) -> slz (Some lo) None (a ++ b) = b.
Proof.
  intros ->. unfold slz, norm_idx. rewrite !app_length.
  replace (Z.of_nat (length a) <? 0)%Z with false by (symmetry; apply Z.ltb_ge; lia).
  rewrite !Z.min_l, !Z.max_r by lia. rewrite Nat2Z.id.
  replace (Z.to_nat _) with (length b) by lia. rewrite skipn_exact by reflexivity. apply firstn_all.
Qed.
Lemma slz_mid_negneg {A} (a b c : list A) lo hi :
  lo = (- Z.of_nat (length (b ++ c)))%Z -> hi = (- Z.of_nat (length c))%Z -> c <> [] -> slz (Some lo) (Some hi) (a ++ b ++ c) = b.
Proof.
  intros -> -> N. assert (C : (1 <= length c)%nat) by (destruct c; [congruence|cbn [length]; lia]).
  unfold slz, norm_idx. rewrite !app_length.
  replace (- Z.of_nat (length b + length c) <? 0)%Z with true by (symmetry; apply Z.ltb_lt; lia).
  replace (- Z.of_nat (length c) <? 0)%Z with true by (symmetry; apply Z.ltb_lt; lia).
  rewrite !Z.min_l, !Z.max_r by lia.
  match goal with |- firstn (Z.to_nat ?x) (skipn (Z.to_nat ?y) _) = _ => replace (Z.to_nat y) with (length a) by lia; replace (Z.to_nat x) with (length b) by lia end.
  rewrite skipn_exact by reflexivity. apply firstn_exact. reflexivity.
Qed.
Lemma slz_tail_neg {A} (a b : list A) lo : lo = (- Z.of_nat (length b))%Z -> b <> [] -> slz (Some lo) None (a ++ b) = b.
Proof.
  intros -> N. assert (C : (1 <= length b)%nat) by (destruct b; [congruence|cbn [length]; lia]).
  unfold slz, norm_idx. rewrite !app_length.
  replace (- Z.of_nat (length b) <? 0)%Z with true by (symmetry; apply Z.ltb_lt; lia).
  rewrite !Z.min_l, !Z.max_r by lia.
  match goal with |- firstn (Z.to_nat ?x) (skipn (Z.to_nat ?y) _) = _ => replace (Z.to_nat y) with (length a) by lia; replace (Z.to_nat x) with (length b) by lia end.
  rewrite skipn_exact by reflexivity. apply firstn_all.
Qed.

Lemma slz_in {A} lo hi (l : list A) x : In x (slz lo hi l) -> In x l.
Proof.
  assert (F : forall n (l : list A), In x (firstn n l) -> In x l).
  { intros n k H. rewrite <- (firstn_skipn n k). apply in_or_app. auto. }
  assert (S : forall n (l : list A), In x (skipn n l) -> In x l).
  { intros n k H. rewrite <- (firstn_skipn n k). apply in_or_app. auto. }
  unfold slz. intros H. apply F, S in H. exact H.
Qed.

(** * Splitting at bracketed groups *)

(** the pattern "\(.{n}\)" *)
Definition m_group (n : nat) : str -> option nat := m_seq (N.eqb 40 :: repeat dotc n ++ [N.eqb 41]).
Lemma seqmatch_app ps qs s : seqmatch (ps ++ qs) s = true <-> exists a b, s = a ++ b /\ length a = length ps /\ seqmatch ps a = true /\ seqmatch qs b = true.
Proof.
  revert s. induction ps as [|p ps IH]; intros s; cbn [app seqmatch].
  - split; [intros H; exists [], s; auto|]. intros (a & b & -> & L & _ & H). destruct a; [exact H|discriminate L].
  - destruct s as [|c s]; [split; [discriminate|]; intros (a & b & E & L & _); destruct a; [discriminate L|discriminate E]|].
    rewrite andb_true_iff, IH. split.
    + intros (P & a & b & -> & L & A & B). exists (c :: a), b. cbn [app length seqmatch]. rewrite P, A. auto.
    + intros (a & b & E & L & A & B). destruct a as [|x a]; [discriminate L|]. cbn [app] in E. injection E as <- ->.
      cbn [seqmatch] in A. apply andb_true_iff in A as [P A]. split; [exact P|]. exists a, b. cbn [length] in L. auto.
Qed.
Lemma seqmatch_dots n s : length s = n -> seqmatch (repeat dotc n) s = true <-> ~ In c_nl s.
Proof.
  revert s. induction n as [|n IH]; intros [|c s] L; try discriminate L; cbn [repeat seqmatch].
  - split; [intros _ []|reflexivity].
  - rewrite andb_true_iff, IH by (cbn in L; lia). unfold dotc. rewrite negb_true_iff, N.eqb_neq. cbn [In]. intuition congruence.
Qed.
Lemma m_group_some n s k : m_group n s = Some k <-> k = (n + 2)%nat /\ exists g r, s = 40 :: g ++ 41 :: r /\ length g = n /\ ~ In c_nl g.
Proof.
  unfold m_group, m_seq. cbn [length]. rewrite app_length, repeat_length. cbn [length].
  destruct (seqmatch (N.eqb 40 :: repeat dotc n ++ [N.eqb 41]) s) eqn:E.
  - split.
    + intros H. injection H as <-. split; [lia|]. destruct s as [|c s]; [discriminate E|]. cbn [seqmatch] in E.
      apply andb_true_iff in E as [C E]. apply N.eqb_eq in C. subst c. apply seqmatch_app in E as (a & b & -> & L & A & B).
      rewrite repeat_length in L. destruct b as [|y b]; [discriminate B|]. cbn [seqmatch] in B. rewrite andb_true_r in B.
      apply N.eqb_eq in B. subst y. exists a, b. rewrite (seqmatch_dots n a L) in A. auto.
    + intros [-> _]. f_equal. lia.
  - split; [discriminate|]. intros (_ & g & r & -> & L & A). exfalso. apply not_true_iff_false in E. apply E.
    cbn [seqmatch]. rewrite N.eqb_refl. cbn [andb]. apply seqmatch_app. exists g, (41 :: r).
    rewrite repeat_length. split; [reflexivity|]. split; [exact L|]. split; [apply seqmatch_dots; assumption|reflexivity].
Qed.
Lemma m_group_nonparen n c s : c <> 40 -> m_group n (c :: s) = None.
Proof. intros C. unfold m_group, m_seq. cbn [seqmatch]. replace (40 =? c) with false by (symmetry; apply N.eqb_neq; congruence). reflexivity. Qed.
Lemma bracketed_cons n c s : bracketed n (c :: s) <-> (exists g b, c :: s = 40 :: g ++ 41 :: b /\ length g = n) \/ bracketed n s.
Proof.
  unfold bracketed. change (lit "(") with [40]. change (lit ")") with [41]. split.
  - intros (a & g & b & E & L). destruct a as [|x a]; [left; exists g, b; auto|]. injection E as -> ->. right. exists a, g, b. auto.
  - intros [(g & b & E & L)|(a & g & b & -> & L)]; [exists [], g, b; auto|exists (c :: a), g, b; auto].
Qed.

Section Split.
Variable n : nat.
Let m := m_group n.
Lemma re_split_run p s cur : ~ In 40 p -> split_aux false m (p ++ s) cur 0 = split_aux false m s (rev p ++ cur) 0.
Proof.
  revert cur. induction p as [|c p IH]; intros cur H; [reflexivity|]. cbn [app split_aux].
  unfold m at 1. rewrite m_group_nonparen by (intros ->; apply H; left; reflexivity).
  rewrite IH by (intros I; apply H; right; exact I). cbn [rev]. rewrite <- app_assoc. reflexivity.
Qed.
Lemma re_split_skip p s cur : split_aux false m (p ++ s) cur (length p) = split_aux false m s cur 0.
Proof. revert cur. induction p as [|c p IH]; intros cur; [destruct s; reflexivity|]. cbn [app length split_aux]. apply IH. Qed.
Lemma re_split_hit g s cur : length g = n -> ~ In c_nl g ->
  split_aux false m (40 :: g ++ 41 :: s) cur 0 = rev cur :: split_aux false m s [] 0.
Proof.
  intros L G. assert (M : m (40 :: g ++ 41 :: s) = Some (S (n + 1))).
  { unfold m. apply m_group_some. split; [lia|]. eauto 10. }
  cbn [split_aux]. rewrite M. f_equal.
  change (g ++ 41 :: s) with (g ++ [41] ++ s). rewrite app_assoc.
  replace (n + 1)%nat with (length (g ++ [41])) by (rewrite app_length; cbn [length]; lia). apply re_split_skip.
Qed.
Lemma re_split_none s cur : ~ In c_nl s -> ~ bracketed n s -> split_aux false m s cur 0 = [rev cur ++ s].
Proof.
  revert cur. induction s as [|c s IH]; intros cur NL B; [cbn; rewrite app_nil_r; reflexivity|].
  rewrite bracketed_cons in B. cbn [split_aux]. destruct (m (c :: s)) as [k|] eqn:M.
  - exfalso. apply B. left. unfold m in M. apply m_group_some in M as (_ & g & r & E & L & _). eauto 10.
  - rewrite IH by (cbn [In] in NL; tauto). cbn [rev]. rewrite <- app_assoc. reflexivity.
Qed.
Lemma re_split_some s cur : ~ In c_nl s -> bracketed n s -> exists a b l, split_aux false m s cur 0 = a :: b :: l.
Proof.
  revert cur. induction s as [|c s IH]; intros cur NL B.
  - destruct B as ([|] & g & b & E & _); discriminate E.
  - destruct (m (c :: s)) as [k|] eqn:M.
    + pose proof M as M'. unfold m in M'. apply m_group_some in M' as (_ & g & r & E & L & G). rewrite E, re_split_hit by assumption.
      destruct (split_aux false m r [] 0) eqn:Q; [|eauto].
      exfalso. revert Q. clear. assert (X : forall s cur k, split_aux false m s cur k <> []).
      { induction s as [|c s IH]; intros cur k; cbn [split_aux]; [discriminate|]. destruct k; [|apply IH]. destruct (m (c :: s)) as [[|]|]; [apply IH|discriminate|apply IH]. }
      apply X.
    + apply bracketed_cons in B as [(g & b & E & L)|B].
      * exfalso. assert (X : m (c :: s) = Some (n + 2)%nat); [|congruence]. unfold m. apply m_group_some. split; [reflexivity|].
        exists g, b. split; [exact E|]. split; [exact L|]. intros I. apply NL. rewrite E. right. apply in_or_app. auto.
      * cbn [split_aux]. rewrite M. apply IH; [cbn [In] in NL; tauto|exact B].
Qed.
End Split.

(** head "(xx)", digits, "(yy)", text *)
Lemma digits_noparen d : digits d -> ~ In 40 d.
Proof. rewrite digits_iff. intros D. eapply notin_forallb; [exact D|reflexivity]. Qed.
Lemma ai82_no_nl t : ai82_text t -> ~ In c_nl t.
Proof. rewrite ai82_text_iff. intros D. eapply notin_forallb; [exact D|reflexivity]. Qed.
Lemma split3 n g d g' t : length g = n -> length g' = n -> ~ In c_nl g -> ~ In c_nl g' -> digits d -> ai82_text t ->
  unpack3 (re_split (m_group n) ((40 :: g ++ [41]) ++ d ++ (40 :: g' ++ [41]) ++ t)) = Ok ([], d, t) /\ ~ bracketed n t \/
  unpack3 (re_split (m_group n) ((40 :: g ++ [41]) ++ d ++ (40 :: g' ++ [41]) ++ t)) = Raise ValueError /\ bracketed n t.
Proof.
  intros L L' G G' D T. unfold re_split. cbn [app]. rewrite <- !app_assoc. cbn [app]. rewrite re_split_hit by assumption.
  rewrite re_split_run by apply digits_noparen, D. rewrite re_split_hit by assumption.
  rewrite app_nil_r, rev_involutive. cbn [rev].
  assert (B : bracketed n t \/ ~ bracketed n t).
  { clear - T. apply ai82_no_nl in T. induction t as [|c t IH]; [right; intros ([|] & g & b & E & _); discriminate E|].
    destruct IH as [IH|IH]; [cbn [In] in T; tauto|left; apply bracketed_cons; auto|].
    destruct (m_group n (c :: t)) as [k|] eqn:M.
    - left. apply bracketed_cons. left. apply m_group_some in M as (_ & g & r & E & L & _). eauto.
    - right. rewrite bracketed_cons. intros [(g & b & E & L)|X]; [|tauto].
      assert (X : m_group n (c :: t) = Some (n + 2)%nat); [|congruence]. apply m_group_some. split; [reflexivity|].
      exists g, b. split; [exact E|]. split; [exact L|]. intros I. apply T. rewrite E. right. apply in_or_app. auto. }
  destruct B as [B|B].
  - right. destruct (re_split_some n t [] (ai82_no_nl _ T) B) as (a & b & l & ->). auto.
  - left. rewrite re_split_none by (try apply ai82_no_nl; assumption). auto.
Qed.
