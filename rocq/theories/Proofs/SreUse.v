(** The patterns given to re.split, re.findall and re.sub, and the step bounds. *)
From Coq Require Import String Lia.
From Verif.Model Require Import Py Re Regexes RegexText Sre Common Cpi Sgln Sgtin Sscc Lgtin Adi Parsers.
From Verif.Spec Require Import SpecSre.
From Verif.Proofs Require Import Basics ReLemmas SreSound SreLang SreTexts SreCost.

(** * Cutting *)

Lemma wmatch_length w s : wmatch w s = true -> (length w <= length s)%nat.
Proof.
  revert s. induction w as [|x w IH]; intros [|c s] H; cbn [length]; try lia; [discriminate H|].
  cbn [wmatch] in H. apply andb_true_iff in H. destruct H as [_ H]. apply IH in H. lia.
Qed.

(** the first word that fits *)
Fixpoint first_word (ws : list word) (s : str) : option nat :=
  match ws with
  | [] => None
  | w :: ws' => if wmatch w s then Some (length w) else first_word ws' s
  end.

Lemma match_length_words p ws c : words p = Some (ws, c) ->
  forall s, match_length p s = first_word ws s.
Proof.
  intros H s. unfold match_length, sre_match. destruct (words_ok p ws c H k_match s) as [E _]. rewrite E. clear E.
  induction ws as [|w ws IH] in |- *; [reflexivity|]. rewrite ends_cons. cbn [first_word].
  destruct (wmatch w s) eqn:M; [|exact (IH)].
  cbn [app tries orelse k_match fst]. rewrite skipn_length. apply wmatch_length in M. f_equal. lia.
Qed.

(** a word and a list of character sets *)
Definition cls_of (x : wclass) : N -> bool := match x with Some l => named l | None => dotc end.
Lemma wmatch_seqmatch w s : wmatch w s = seqmatch (map cls_of w) s.
Proof.
  revert s. induction w as [|x w IH]; intros [|c s]; try reflexivity. cbn [wmatch map seqmatch].
  rewrite IH. f_equal. destruct x as [l|]; [|reflexivity]. symmetry. apply named_ok.
Qed.

Definition cuts (text : str) (m : str -> option nat) : Prop :=
  exists p, re_compile text = Some p /\ forall s, match_length p s = m s.

Lemma cuts_one text p w c ps : re_compile text = Some p -> words p = Some ([w], c) ->
  map cls_of w = ps -> cuts text (m_seq ps).
Proof.
  intros C W E. exists p. split; [exact C|]. intros s. rewrite (match_length_words p _ c W).
  cbn [first_word]. unfold m_seq. rewrite wmatch_seqmatch, E. subst ps. now rewrite map_length.
Qed.
Lemma cuts_two text p w1 w2 c ps qs : re_compile text = Some p -> words p = Some ([w1; w2], c) ->
  map cls_of w1 = ps -> map cls_of w2 = qs ->
  cuts text (fun s => match m_seq ps s with Some n => Some n | None => m_seq qs s end).
Proof.
  intros C W E F. exists p. split; [exact C|]. intros s. rewrite (match_length_words p _ c W).
  cbn [first_word]. unfold m_seq. rewrite !wmatch_seqmatch, E, F. subst ps qs. rewrite !map_length.
  destruct (seqmatch _ s); reflexivity.
Qed.

Ltac cut_one :=
  lazymatch goal with |- cuts ?text _ =>
    let c := eval vm_compute in (re_compile text) in
    lazymatch c with
    | Some ?p =>
        let x := eval vm_compute in (words p) in
        lazymatch x with
        | Some ([?w], ?n) =>
            apply (cuts_one text p w n);
            [vm_compute; reflexivity | vm_compute; reflexivity
            | cbv -[is_d is_hex inr N.eqb dotc]; exact eq_refl]
        | Some ([?w1; ?w2], ?n) =>
            apply (cuts_two text p w1 w2 n);
            [vm_compute; reflexivity | vm_compute; reflexivity
            | cbv -[is_d is_hex inr N.eqb dotc]; exact eq_refl | cbv -[is_d is_hex inr N.eqb dotc]; exact eq_refl]
        end
    end
  end.

Theorem cutting_agree : Forall (fun x => cuts (fst x) (snd x)) cutting_patterns.
Proof.
  unfold cutting_patterns. repeat (apply Forall_cons; [cbn [fst snd]|]); [..|apply Forall_nil].
  - unfold m_escape. cut_one.
  - unfold m_bits. cut_one.
  - unfold m_escape_or_dash, m_escape. cut_one.
  - cut_one.
  - unfold m_bits. cut_one.
  - unfold m_escape_dd. cut_one.
  - unfold m_zeros6. cut_one.
  - unfold m_paren4. cut_one.
  - unfold m_paren3. cut_one.
  - unfold m_paren2. cut_one.
  - unfold sscc_m_paren2. cut_one.
  - unfold lgtin_m_paren2. cut_one.
Qed.

(** * adi.py:203 *)

Lemma agree_adi_terminator : agree (lit ".*([0]{6})+.*") adi_terminator.
Proof. agree_tac. Qed.

(** * parsers.py:304 *)

Theorem sub_agrees : exists p, re_compile (lit "\.\*$") = Some p /\
  forall s, sre_sub1 p (lit ".0") s = sub_dot_star s.
Proof.
  eexists. split; [vm_compute; reflexivity|]. intros s.
  induction s as [|c s IH]; [reflexivity|].
  cbn [sre_sub1 sub_dot_star]. rewrite IH. clear IH.
  unfold sre_match. cbn [run]. rewrite cls_one.
  destruct (N.eqb_spec 46 c) as [<-|H1].
  2:{ cbn [fst]. replace (str_eqb (c :: s) (lit ".*")) with false.
      - replace (str_eqb (c :: s) (lit ".*" ++ [c_nl])) with false; [reflexivity|].
        symmetry. change (lit ".*" ++ [c_nl]) with [46; 42; 10]. cbn [str_eqb].
        destruct (N.eqb_spec c 46); [congruence|reflexivity].
      - symmetry. change (lit ".*") with [46; 42]. cbn [str_eqb].
        destruct (N.eqb_spec c 46); [congruence|reflexivity]. }
  destruct s as [|d s]; [reflexivity|]. rewrite cls_one.
  destruct (N.eqb_spec 42 d) as [<-|H2].
  2:{ cbn [fst tick]. change (lit ".*" ++ [c_nl]) with [46; 42; 10]. change (lit ".*") with [46; 42].
      cbn [str_eqb]. rewrite N.eqb_refl. destruct (N.eqb_spec d 42); [congruence|]. reflexivity. }
  change (lit ".*" ++ [c_nl]) with [46; 42; 10]. change (lit ".*") with [46; 42].
  change (lit ".0" ++ [c_nl]) with [46; 48; 10]. change (lit ".0") with [46; 48].
  destruct s as [|e s]; [reflexivity|]. cbn [str_eqb andb]. rewrite !N.eqb_refl. cbn [andb].
  unfold c_nl. destruct (N.eqb_spec e 10) as [->|H3]; [|reflexivity].
  destruct s as [|f s]; reflexivity.
Qed.

(** * Steps *)

Definition bounded (text : str) (a b : N) : Prop :=
  exists p, re_compile text = Some p /\ forall s, fullmatch_steps p s <= a * N.of_nat (length s) + b.

Definition bound_check (x : str * N * N) : bool :=
  match re_compile (fst (fst x)) with
  | Some p => match analyse p full_desc with
              | Some d => (d_a d =? snd (fst x)) && (d_b d =? snd x)
              | None => false
              end
  | None => false
  end.

Lemma bound_check_ok x : bound_check x = true -> bounded (fst (fst x)) (snd (fst x)) (snd x).
Proof.
  unfold bound_check. destruct (re_compile _) as [p|] eqn:C; [|discriminate].
  destruct (analyse p full_desc) as [d|] eqn:A; [|discriminate]. rewrite andb_true_iff, !N.eqb_eq.
  intros [<- <-]. exists p. split; [exact C|]. exact (fullmatch_bound p d A).
Qed.

Theorem all_bounded : Forall (fun x => bounded (fst (fst x)) (snd (fst x)) (snd x)) step_bounds.
Proof.
  apply Forall_forall. intros x H. apply bound_check_ok. revert x H. apply forallb_forall.
  vm_compute; reflexivity.
Qed.

Theorem tag_uri_match_bounded : exists p, re_compile T_TAG_URI = Some p /\
  forall s, match_steps p s <= 103 * N.of_nat (length s) + 539.
Proof.
  assert (X : match re_compile T_TAG_URI with
              | Some p => match analyse p match_desc with
                          | Some d => (d_a d =? 103) && (d_b d =? 539)
                          | None => false end
              | None => false end = true) by (vm_compute; reflexivity).
  destruct (re_compile T_TAG_URI) as [p|]; [|discriminate]. exists p. split; [reflexivity|].
  destruct (analyse p match_desc) as [d|] eqn:A; [|discriminate].
  apply andb_true_iff in X. rewrite !N.eqb_eq in X. destruct X as [X1 X2]. rewrite <- X1, <- X2.
  exact (match_bound p d A).
Qed.

(** every place where a text is cut is found in constant time *)
Theorem cutting_constant : Forall (fun x => exists p, re_compile (fst x) = Some p /\
  forall s, match_steps p s <= 9) cutting_patterns.
Proof.
  assert (X : forallb (fun t => match re_compile t with
                 | Some p => match analyse p match_desc with
                             | Some d => (d_a d =? 0) && (d_b d <=? 9)
                             | None => false end
                 | None => false end) (map fst cutting_patterns) = true)
    by (vm_compute; reflexivity).
  rewrite forallb_forall in X. apply Forall_forall. intros x H.
  specialize (X (fst x) (in_map fst _ _ H)). destruct (re_compile (fst x)) as [p|]; [|discriminate].
  exists p. split; [reflexivity|]. destruct (analyse p match_desc) as [d|] eqn:A; [|discriminate].
  apply andb_true_iff in X. rewrite N.eqb_eq, N.leb_le in X. destruct X as [X1 X2]. intros s.
  pose proof (match_bound p d A s) as B. rewrite X1 in B. lia.
Qed.

(** ** adi.py:203: the search starts at every position, from the last one backwards *)

(** a greedy [.]-star before a search that fails quickly wherever it fails *)
Lemma star_weak m ws c k a b e : wspec m ws c -> all_nonempty ws = true -> exclusive ws = true ->
  (forall t, snd (k t) <= a * len t + b) -> (forall t, fst (k t) = None -> snd (k t) <= e) ->
  forall n s,
    (fst (at_most m n k s) = None -> snd (at_most m n k s) <= (c + e + 1) * (len s + 1)) /\
    snd (at_most m n k s) <= (c + e + 1 + a) * (len s + 1) + b.
Proof.
  intros W NE EX A E. induction n as [|n IH]; intros s.
  - cbn [at_most]. pose proof (A s) as As. split; [intros H0; specialize (E s H0)|]; nia.
  - cbn [at_most]. match goal with |- context [m ?f s] => set (K := f) end.
    rewrite tick_fst, orelse_fst. cbn [tick snd]. unfold orelse.
    destruct (W K s) as [W1 W2]. destruct (exclusive_ends ws s EX) as [X|(w & Hw & M & X)]; rewrite X in W1, W2.
    + cbn [tries fst snd] in W1, W2. rewrite W1. cbn [snd]. pose proof (A s) as As.
      split; [intros H0; specialize (E s H0)|]; nia.
    + cbn [tries] in W1, W2. set (t := skipn (length w) s) in *.
      assert (Lt : (length t < length s)%nat).
      { unfold t. rewrite skipn_length. unfold all_nonempty in NE. rewrite forallb_forall in NE.
        specialize (NE w Hw). destruct w as [|x w]; [discriminate|]. destruct s; [discriminate|]. cbn [length]. lia. }
      assert (KE : K t = at_most m n k t).
      { unfold K. now rewrite (proj2 (Nat.ltb_lt _ _) Lt). }
      rewrite KE in W1, W2. destruct (IH t) as [I1 I2].
      assert (LL : len t + 1 <= len s) by (unfold len; lia).
      unfold orelse in W1, W2. destruct (fst (at_most m n k t)) as [r|] eqn:F.
      * rewrite F in W1. rewrite W1. split; [discriminate|]. nia.
      * cbn [fst snd] in W1, W2. rewrite W1. cbn [snd]. specialize (I1 eq_refl). pose proof (A s) as As.
        split; [intros H0; specialize (E s H0)|]; nia.
Qed.

Theorem adi_terminator_bounded : exists p, re_compile (lit ".*([0]{6})+.*") = Some p /\
  forall s, match_steps p s <= 17 * N.of_nat (length s) + 33.
Proof.
  set (z6 := PSeq (PRep 6 (Some 6%nat) (PSet [CRange 48 48])) PEps).
  set (tail := PSeq (PRep 0 None PAny) PEps).
  exists (PSeq (PRep 0 None PAny) (PSeq (PRep 1 None z6) tail)). split; [vm_compute; reflexivity|]. intros s.
  set (k := run (PSeq (PRep 1 None z6) tail) k_match).
  change (match_steps _ s) with (snd (at_most (run PAny) (length s) k s)).
  assert (A : forall t, snd (k t) <= 9 * len t + 16).
  { destruct (analyse (PSeq (PRep 1 None z6) tail) match_desc) as [d|] eqn:D; [|vm_compute in D; discriminate].
    pose proof (proj1 (analyse_ok _ _ _ _ match_ok D)) as X.
    assert (Y : match analyse (PSeq (PRep 1 None z6) tail) match_desc with
                | Some d => (d_a d, d_b d) | None => (0, 0) end = (9, 16)) by (vm_compute; reflexivity).
    rewrite D in Y. injection Y as Y1 Y2. rewrite Y1, Y2 in X. exact X. }
  destruct (words z6) as [[ws c]|] eqn:Wz; [|vm_compute in Wz; discriminate].
  pose proof (words_ok z6 ws c Wz) as WS.
  assert (C6 : c = 6 /\ exclusive ws = true).
  { vm_compute in Wz. injection Wz as <- <-. split; reflexivity. }
  destruct C6 as [-> EX].
  destruct (analyse tail match_desc) as [d|] eqn:D; [|vm_compute in D; discriminate].
  pose proof (analyse_ok _ _ _ _ match_ok D) as OKt.
  destruct (star_desc ws 6 d) as [d'|] eqn:SD.
  2:{ vm_compute in Wz. injection Wz as <-. vm_compute in D. injection D as <-. vm_compute in SD. discriminate. }
  pose proof (star_ok (run z6) ws 6 d d' _ WS OKt SD) as (_ & _ & TOT).
  assert (DT : d_t d' = true).
  { vm_compute in Wz. injection Wz as <-. vm_compute in D. injection D as <-. vm_compute in SD. injection SD as <-. reflexivity. }
  specialize (TOT DT).
  assert (E : forall t, fst (k t) = None -> snd (k t) <= 6).
  { intros t H. unfold k in *. cbn [run at_least] in *.
    match type of H with fst (?M ?K t) = None => destruct (WS K t) as [W1 W2]; set (KK := K) in * end.
    change (fst (run z6 KK t) = None) in H. change (snd (run z6 KK t) <= 6).
    destruct (exclusive_ends ws t EX) as [X|(w & Hw & M & X)]; rewrite X in W1, W2; cbn [tries] in W1, W2.
    - cbn [fst snd] in W2. lia.
    - exfalso. rewrite orelse_fst in W1. specialize (TOT (skipn (length w) t)).
      change (fst (KK (skipn (length w) t)) <> None) in TOT. rewrite H in W1.
      destruct (fst (KK _)); [discriminate|congruence]. }
  pose proof (star_weak (run PAny) [[None]] 1 k 9 16 6) as X.
  specialize (X ltac:(apply (words_ok PAny); reflexivity) eq_refl eq_refl A E (length s) s).
  destruct X as [_ X]. unfold len in X. lia.
Qed.

(** ** Not every pattern is harmless *)

(** "(\d|\d\d)+\." on a row of digits: the steps more than double with every two digits *)
Theorem exponential : exists p, re_compile (lit "(\d|\d\d)+\.") = Some p /\
  forall n, N.of_nat (2 ^ n) <= fullmatch_steps p (repeat 49 (2 * n + 1)).
Proof.
  set (body := PAlt (PSeq (PSet [CDigit]) PEps) (PSeq (PSet [CDigit]) (PSeq (PSet [CDigit]) PEps))).
  set (tl := PSeq (PSet [CRange 46 46]) PEps).
  exists (PSeq (PRep 1 None body) tl). split; [vm_compute; reflexivity|].
  set (k := run tl k_full).
  assert (D : cls_match [CDigit] 49 = true) by (vm_compute; reflexivity).
  assert (KF : forall j, fst (k (repeat 49 j)) = None) by (intros [|j]; reflexivity).
  (* one round, by one digit or by two *)
  assert (RB : forall K u, run body K (49 :: u) =
     tick (orelse (tick (K u)) (fun _ => match u with
                                         | c :: t => tick (if cls_match [CDigit] c then tick (K t) else (None, 1))
                                         | [] => (None, 2)
                                         end))).
  { intros K u. unfold body. cbn [run]. rewrite D. destruct u as [|c t]; reflexivity. }
  assert (ST : forall n u, fst (at_most (run body) n k (49 :: u)) = None ->
     fst (at_most (run body) n k u) = None -> fst (k (49 :: 49 :: u)) = None ->
     fst (at_most (run body) (S n) k (49 :: 49 :: u)) = None /\
     snd (at_most (run body) n k (49 :: u)) + snd (at_most (run body) n k u)
       <= snd (at_most (run body) (S n) k (49 :: 49 :: u))).
  { intros n u H1 H2 H3. cbn [at_most]. rewrite RB, D.
    replace (Nat.ltb (length (49 :: u)) (length (49 :: 49 :: u))) with true
      by (symmetry; apply Nat.ltb_lt; cbn [length]; lia).
    replace (Nat.ltb (length u) (length (49 :: 49 :: u))) with true
      by (symmetry; apply Nat.ltb_lt; cbn [length]; lia).
    unfold orelse. cbn [tick fst snd]. rewrite H1. cbn [fst snd]. rewrite H2. cbn [fst snd].
    split; [exact H3|lia]. }
  (* the star fails on digits, and its steps grow *)
  assert (G : forall j n, (j <= n)%nat ->
     fst (at_most (run body) n k (repeat 49 j)) = None /\
     forall i, (2 * i <= j)%nat -> N.of_nat (2 ^ i) <= snd (at_most (run body) n k (repeat 49 j))).
  { intros j. induction j as [j IH] using (well_founded_induction lt_wf). intros n Hn.
    destruct j as [|[|j]].
    - split.
      + destruct n; reflexivity.
      + intros i Hi. replace i with 0%nat by lia. destruct n; vm_compute; discriminate.
    - destruct n as [|n]; [lia|]. split.
      + cbn [at_most repeat]. rewrite RB. destruct n; reflexivity.
      + intros i Hi. replace i with 0%nat by lia. cbn [at_most]. cbn [tick snd]. change (N.of_nat (2 ^ 0)) with 1. lia.
    - destruct n as [|n]; [lia|].
      destruct (IH (S j) ltac:(lia) n ltac:(lia)) as [F1 L1].
      destruct (IH j ltac:(lia) n ltac:(lia)) as [F0 L0].
      destruct (ST n (repeat 49 j) F1 F0 (KF (S (S j)))) as [S1 S2].
      split; [exact S1|]. intros i Hi.
      destruct i as [|i].
      + cbn [repeat at_most]. cbn [tick snd]. change (N.of_nat (2 ^ 0)) with 1. lia.
      + specialize (L1 i ltac:(lia)). specialize (L0 i ltac:(lia)).
        change (repeat 49 (S (S j))) with (49 :: 49 :: repeat 49 j).
        change (repeat 49 (S j)) with (49 :: repeat 49 j) in L1.
        replace (N.of_nat (2 ^ S i)) with (N.of_nat (2 ^ i) + N.of_nat (2 ^ i)); [lia|].
        rewrite Nat.pow_succ_r'. lia. }
  intros n. replace (2 * n + 1)%nat with (S (2 * n)) by lia. unfold fullmatch_steps.
  change (run (PSeq (PRep 1 None body) tl) k_full (repeat 49 (S (2 * n))))
    with (run body (fun t => at_most (run body) (length t) k t) (49 :: repeat 49 (2 * n))).
  rewrite RB. rewrite repeat_length. destruct (G (2 * n)%nat (2 * n)%nat (le_n _)) as [F L]. specialize (L n ltac:(lia)).
  unfold orelse. cbn [tick fst snd]. rewrite F. cbn [snd]. lia.
Qed.

(** * The search in general *)

Lemma search_full text p s : re_compile text = Some p -> sre_fullmatch p s = true <-> matches p s [].
Proof. intros C. apply sre_fullmatch_iff. exact (re_compile_wf text p C). Qed.
Lemma search_prefix text p s : re_compile text = Some p ->
  ((exists t, sre_match p s = Some t) <-> exists u t, s = u ++ t /\ matches p u t) /\
  forall t, sre_match p s = Some t -> exists u, s = u ++ t /\ matches p u t.
Proof.
  intros C. pose proof (re_compile_wf text p C) as W. split; [exact (sre_match_iff p s W)|].
  intros t. exact (sre_match_some p s t W).
Qed.
