(** How many steps the backtracking search takes: an analysis of patterns, proved correct once,
    that yields a bound linear in the length of the text. *)
From Coq Require Import Lia Btauto.
From Verif.Model Require Import Py Re Sre.
From Verif.Proofs Require Import Basics SreSound.

Definition len (s : str) : N := N.of_nat (length s).

(** * Sets of first characters *)

Notation range := (N * N)%type.
Definition in_ranges (l : list range) (c : N) : bool := existsb (fun r => inr (fst r) (snd r) c) l.

Definition item_ranges (i : citem) : list range :=
  match i with CRange lo hi => [(lo, hi)] | CDigit => map (fun z => (z, z + 9)) nd_zeros end.
Definition ranges (l : list citem) : list range := flat_map item_ranges l.

Lemma find_decade_ranges zs c :
  match find_decade zs c with Some _ => true | None => false end =
  in_ranges (map (fun z => (z, z + 9)) zs) c.
Proof.
  induction zs as [|z zs IH]; [reflexivity|]. cbn [find_decade map in_ranges existsb fst snd].
  unfold inr. replace (c <=? z + 9) with (c <? z + 10).
  - destruct ((z <=? c) && (c <? z + 10))%bool; [reflexivity|exact IH].
  - destruct (N.ltb_spec c (z + 10)), (N.leb_spec c (z + 9)); try reflexivity; lia.
Qed.

Lemma ranges_ok l c : in_ranges (ranges l) c = cls_match l c.
Proof.
  induction l as [|i l IH]; [reflexivity|].
  change (ranges (i :: l)) with (item_ranges i ++ ranges l).
  change (cls_match (i :: l) c) with (citem_match i c || cls_match l c)%bool.
  unfold in_ranges in *. rewrite existsb_app. f_equal; [|exact IH].
  destruct i as [lo hi|]; cbn [item_ranges citem_match].
  - cbn [existsb fst snd]. apply orb_false_r.
  - unfold is_d, udigit. rewrite find_decade_ranges. reflexivity.
Qed.

Record fset := { f_any : bool; f_end : bool; f_rng : list range }.

Definition head (s : str) : option N := match s with [] => None | c :: _ => Some c end.
Definition fmem (F : fset) (h : option N) : bool :=
  match h with None => f_end F | Some c => f_any F || in_ranges (f_rng F) c end.

Definition funion (F G : fset) : fset :=
  {| f_any := f_any F || f_any G; f_end := f_end F || f_end G; f_rng := f_rng F ++ f_rng G |}.
Definition apart (r q : range) : bool := (snd r <? fst q) || (snd q <? fst r).
Definition no_chars (F : fset) : bool := negb (f_any F) && match f_rng F with [] => true | _ => false end.
Definition disjoint (F G : fset) : bool :=
  negb (f_end F && f_end G) &&
  (no_chars F || no_chars G ||
   (negb (f_any F) && negb (f_any G) && forallb (fun r => forallb (apart r) (f_rng G)) (f_rng F))).

Lemma fmem_union F G h : fmem (funion F G) h = (fmem F h || fmem G h)%bool.
Proof.
  destruct h as [c|]; [|reflexivity]. cbn [fmem funion f_any f_rng]. unfold in_ranges.
  rewrite existsb_app. btauto.
Qed.

Lemma disjoint_ok F G h : disjoint F G = true -> fmem F h = true -> fmem G h = false.
Proof.
  unfold disjoint. rewrite andb_true_iff. intros [He H] HF. destruct h as [c|]; cbn [fmem] in *.
  - assert (Z : forall X, no_chars X = true -> (f_any X || in_ranges (f_rng X) c = false)%bool).
    { intros X HX. unfold no_chars in HX. apply andb_true_iff in HX. destruct HX as [H1 H2].
      destruct (f_any X); [discriminate|]. destruct (f_rng X); [reflexivity|discriminate]. }
    apply orb_true_iff in H. destruct H as [H|H].
    + apply orb_true_iff in H. destruct H as [H|H]; [rewrite (Z F H) in HF; discriminate|now apply Z].
    + apply andb_true_iff in H. destruct H as [H H2]. apply andb_true_iff in H. destruct H as [H H1].
      destruct (f_any F); [discriminate|]. destruct (f_any G); [discriminate|]. cbn [orb] in *.
      destruct (in_ranges (f_rng G) c) eqn:E; [|reflexivity]. exfalso.
      unfold in_ranges in HF, E. apply existsb_exists in HF, E.
      destruct HF as (r & Hr & Hrc), E as (q & Hq & Hqc).
      rewrite forallb_forall in H2. specialize (H2 r Hr). rewrite forallb_forall in H2. specialize (H2 q Hq).
      unfold inr in Hrc, Hqc. apply andb_true_iff in Hrc, Hqc. unfold apart in H2. apply orb_true_iff in H2.
      rewrite !N.leb_le in Hrc, Hqc. rewrite !N.ltb_lt in H2. lia.
  - rewrite HF in He. destruct (f_end G); [discriminate|reflexivity].
Qed.

(** * Patterns that stand for finitely many words *)

(** a word: one class per character; [None] stands for [.] *)
Definition wclass := option (list citem).
Definition wc_match (w : wclass) (c : N) : bool := match w with Some l => cls_match l c | None => dotc c end.
Definition word := list wclass.

Fixpoint wmatch (w : word) (s : str) : bool :=
  match w, s with
  | [], _ => true
  | x :: w', c :: s' => wc_match x c && wmatch w' s'
  | _ :: _, [] => false
  end.

Fixpoint wpow (n : nat) (ws : list word) : list word :=
  match n with O => [[]] | S n' => flat_map (fun u => map (app u) (wpow n' ws)) ws end.

Definition wprod (a b : list word) : list word := flat_map (fun u => map (app u) b) a.

(** the words of a pattern in the order in which they are tried, and a bound for the steps that
    are not spent in the continuation *)
Fixpoint words (p : pat) : option (list word * N) :=
  match p with
  | PEps => Some ([[]], 0)
  | PSet l => Some ([[Some l]], 1)
  | PAny => Some ([[None]], 1)
  | PEnd => None
  | PSeq a b =>
      match words a, words b with
      | Some (u, m), Some (v, n) => Some (wprod u v, m + N.of_nat (length u) * n)
      | _, _ => None
      end
  | PAlt a b =>
      match words a, words b with
      | Some (u, m), Some (v, n) => Some (u ++ v, m + n + 1)
      | _, _ => None
      end
  | PRep n (Some h) a =>
      if (n =? h)%nat then
        match words a with
        | Some (u, m) =>
            (fix pow (j : nat) : option (list word * N) :=
               match j with
               | O => Some ([[]], 0)
               | S j' => match pow j' with
                         | Some (v, k) => Some (wprod u v, m + N.of_nat (length u) * k)
                         | None => None
                         end
               end) n
        | None => None
        end
      else None
  | PRep _ None _ => None
  end.

(** the continuation is tried at the end of every word that fits, until it succeeds *)
Definition ends (ws : list word) (s : str) : list str :=
  flat_map (fun w => if wmatch w s then [skipn (length w) s] else []) ws.
Fixpoint tries (k : cont) (l : list str) : option str * N :=
  match l with
  | [] => (None, 0)
  | t :: l' => orelse (k t) (fun _ => tries k l')
  end.

Definition wspec (m : cont -> cont) (ws : list word) (c : N) : Prop :=
  forall k s, fst (m k s) = fst (tries k (ends ws s)) /\ snd (m k s) <= c + snd (tries k (ends ws s)).

Lemma tries_app k a b : fst (tries k (a ++ b)) = match fst (tries k a) with Some r => Some r | None => fst (tries k b) end
  /\ snd (tries k (a ++ b)) = match fst (tries k a) with Some r => snd (tries k a) | None => snd (tries k a) + snd (tries k b) end.
Proof.
  induction a as [|t a [IH1 IH2]]; [cbn; auto|]. cbn [app tries]. unfold orelse.
  destruct (fst (k t)) eqn:E; [rewrite E; auto|]. cbn [fst snd]. rewrite IH1, IH2.
  destruct (fst (tries k a)); cbn; split; auto; lia.
Qed.

Lemma ends_cons u a s : ends (u :: a) s = (if wmatch u s then [skipn (length u) s] else []) ++ ends a s.
Proof. reflexivity. Qed.
Lemma ends_app a b s : ends (a ++ b) s = ends a s ++ ends b s.
Proof. apply flat_map_app. Qed.

Lemma wmatch_app u v s : wmatch (u ++ v) s = (wmatch u s && wmatch v (skipn (length u) s))%bool.
Proof.
  revert s. induction u as [|x u IH]; intros s; [reflexivity|]. destruct s as [|c s].
  - cbn [app wmatch andb]. destruct v; reflexivity.
  - cbn [app wmatch length skipn]. rewrite IH. apply andb_assoc.
Qed.

Lemma skipn_skipn' (n m : nat) (s : str) : skipn n (skipn m s) = skipn (m + n) s.
Proof.
  revert s. induction m as [|m IH]; intros s; [reflexivity|]. destruct s; cbn [skipn Nat.add]; [now destruct n|apply IH].
Qed.

Lemma ends_prod a b s : ends (wprod a b) s = flat_map (ends b) (ends a s).
Proof.
  unfold wprod. induction a as [|u a IH]; [reflexivity|].
  change (flat_map (fun u => map (app u) b) (u :: a)) with (map (app u) b ++ flat_map (fun u => map (app u) b) a).
  change (ends (u :: a) s) with ((if wmatch u s then [skipn (length u) s] else []) ++ ends a s).
  rewrite ends_app, IH, flat_map_app. f_equal. clear IH.
  induction b as [|v b IH]; [destruct (wmatch u s); reflexivity|].
  change (ends (map (app u) (v :: b)) s)
    with ((if wmatch (u ++ v) s then [skipn (length (u ++ v)) s] else []) ++ ends (map (app u) b) s).
  rewrite IH, wmatch_app, app_length. destruct (wmatch u s); [|reflexivity].
  cbn [andb flat_map]. rewrite !app_nil_r.
  change (ends (v :: b) (skipn (length u) s))
    with ((if wmatch v (skipn (length u) s) then [skipn (length v) (skipn (length u) s)] else []) ++ ends b (skipn (length u) s)).
  now rewrite skipn_skipn'.
Qed.

Lemma ends_length a s : (length (ends a s) <= length a)%nat.
Proof.
  induction a as [|u a IH]; [apply le_n|]. rewrite ends_cons. destruct (wmatch u s); cbn [app length].
  - apply le_n_S. exact IH.
  - apply le_S. exact IH.
Qed.

(** nesting of searches *)
Lemma tries_flat (m2 : cont -> cont) k vs c l :
  (forall t, fst (m2 k t) = fst (tries k (ends vs t)) /\ snd (m2 k t) <= c + snd (tries k (ends vs t))) ->
  fst (tries (m2 k) l) = fst (tries k (flat_map (ends vs) l)) /\
  snd (tries (m2 k) l) <= N.of_nat (length l) * c + snd (tries k (flat_map (ends vs) l)).
Proof.
  intros H. induction l as [|t l [IH1 IH2]]; [split; [reflexivity|apply N.le_0_l]|]. cbn [tries flat_map length].
  destruct (H t) as [H1 H2]. destruct (tries_app k (ends vs t) (flat_map (ends vs) l)) as [T1 T2].
  rewrite T1, T2. unfold orelse. rewrite <- H1. destruct (fst (m2 k t)) eqn:E.
  - rewrite E. split; [reflexivity|]. rewrite Nat2N.inj_succ. nia.
  - cbn [fst snd]. split; [exact IH1|]. rewrite Nat2N.inj_succ. nia.
Qed.

Lemma wspec_seq m1 m2 us vs c1 c2 : wspec m1 us c1 -> wspec m2 vs c2 ->
  wspec (fun k => m1 (m2 k)) (wprod us vs) (c1 + N.of_nat (length us) * c2).
Proof.
  intros H1 H2 k s. destruct (H1 (m2 k) s) as [A1 A2]. rewrite ends_prod.
  destruct (tries_flat m2 k vs c2 (ends us s) (H2 k)) as [B1 B2]. split; [congruence|].
  pose proof (ends_length us s). nia.
Qed.

Lemma wspec_one (l : wclass) m :
  (forall k s, m k s = match s with c :: t => if wc_match l c then tick (k t) else (None, 1) | [] => (None, 1) end) ->
  wspec m [[l]] 1.
Proof.
  intros H k s. rewrite H. unfold ends. cbn [flat_map wmatch].
  destruct s as [|c t]; [split; [reflexivity|apply N.le_refl]|]. rewrite andb_true_r.
  destruct (wc_match l c); [|split; [reflexivity|apply N.le_refl]].
  cbn [app length skipn tries]. unfold orelse. destruct (fst (k t)) eqn:E; cbn [tick fst snd].
  - rewrite E. split; [reflexivity|lia].
  - rewrite E. split; [reflexivity|lia].
Qed.

Lemma wspec_eps m : (forall k s, m k s = k s) -> wspec m [[]] 0.
Proof.
  intros H k s. rewrite H. unfold ends. cbn. unfold orelse. destruct (fst (k s)) eqn:E.
  - rewrite E. split; [reflexivity|lia].
  - cbn. rewrite ?E. split; [reflexivity|lia].
Qed.

Lemma wspec_ext m m' ws c : (forall k s, m k s = m' k s) -> wspec m ws c -> wspec m' ws c.
Proof. intros E H k s. rewrite <- E. apply H. Qed.

Lemma words_ok p : forall ws c, words p = Some (ws, c) -> wspec (run p) ws c.
Proof.
  induction p as [|l| | |a IHa b IHb|a IHa b IHb|lo hi a IHa]; intros ws c H; cbn [words] in H.
  - injection H as <- <-. now apply wspec_eps.
  - injection H as <- <-. apply wspec_one. intros k [|x t]; reflexivity.
  - injection H as <- <-. apply wspec_one. intros k [|x t]; reflexivity.
  - discriminate.
  - destruct (words a) as [[u m]|]; [|discriminate]. destruct (words b) as [[v n]|]; [|discriminate].
    injection H as <- <-. exact (wspec_seq _ _ _ _ _ _ (IHa _ _ eq_refl) (IHb _ _ eq_refl)).
  - destruct (words a) as [[u m]|]; [|discriminate]. destruct (words b) as [[v n]|]; [|discriminate].
    injection H as <- <-. intros k s. cbn [run]. rewrite tick_fst, orelse_fst, ends_app.
    destruct (IHa _ _ eq_refl k s) as [A1 A2]. destruct (IHb _ _ eq_refl k s) as [B1 B2].
    destruct (tries_app k (ends u s) (ends v s)) as [T1 T2]. rewrite T1, T2, <- A1. split.
    + destruct (fst (run a k s)); [reflexivity|exact B1].
    + cbn [tick snd]. unfold orelse. destruct (fst (run a k s)) eqn:E; cbn [snd]; lia.
  - destruct hi as [h|]; [|discriminate]. destruct (Nat.eqb_spec lo h) as [->|]; [|discriminate].
    destruct (words a) as [[u m]|]; [|discriminate]. specialize (IHa _ _ eq_refl).
    apply (wspec_ext (at_least (run a) h)).
    { intros k s. cbn [run]. rewrite Nat.sub_diag.
      cut (forall k s, at_least (run a) h k s = at_least (run a) h (fun t => k t) s).
      - intros X. rewrite X. reflexivity.
      - intros k' s'. reflexivity. }
    revert ws c H. induction h as [|h IH]; intros ws c H.
    + injection H as <- <-. now apply wspec_eps.
    + destruct ((fix pow (j : nat) : option (list word * N) := _) h) as [[v n]|] eqn:E; [|discriminate].
      injection H as <- <-. exact (wspec_seq (run a) (at_least (run a) h) u v m n IHa (IH _ _ eq_refl)).
Qed.

(** no two of the words fit the same text *)
Definition wc_ranges (w : wclass) : fset :=
  match w with
  | Some l => {| f_any := false; f_end := false; f_rng := ranges l |}
  | None => {| f_any := true; f_end := false; f_rng := [] |}
  end.
Fixpoint clash (u v : word) : bool :=
  match u, v with
  | x :: u', y :: v' => disjoint (wc_ranges x) (wc_ranges y) || clash u' v'
  | _, _ => false
  end.
Fixpoint exclusive (ws : list word) : bool :=
  match ws with [] => true | w :: ws' => forallb (clash w) ws' && exclusive ws' end.

Lemma wc_match_mem x c : wc_match x c = true -> fmem (wc_ranges x) (Some c) = true.
Proof.
  destruct x as [l|]; cbn [wc_match wc_ranges fmem f_any f_rng orb]; [|reflexivity].
  intros H. now rewrite ranges_ok.
Qed.

Lemma clash_ok u v s : clash u v = true -> wmatch u s = true -> wmatch v s = false.
Proof.
  revert v s. induction u as [|x u IH]; intros [|y v] s H M; cbn [clash] in H; try discriminate.
  destruct s as [|c s]; [discriminate M|]. cbn [wmatch] in *. apply andb_true_iff in M. destruct M as [M1 M2].
  apply orb_true_iff in H. destruct H as [H|H].
  - apply wc_match_mem in M1. pose proof (disjoint_ok _ _ _ H M1) as D.
    destruct (wc_match y c) eqn:E; [|reflexivity]. apply wc_match_mem in E. congruence.
  - rewrite (IH v s H M2). apply andb_false_r.
Qed.

Lemma exclusive_ends ws s : exclusive ws = true ->
  ends ws s = [] \/ exists w, In w ws /\ wmatch w s = true /\ ends ws s = [skipn (length w) s].
Proof.
  induction ws as [|w ws IH]; intros H; [now left|]. cbn [exclusive] in H. apply andb_true_iff in H.
  destruct H as [H1 H2]. rewrite ends_cons.
  destruct (wmatch w s) eqn:E.
  - right. exists w. split; [now left|]. split; [exact E|].
    replace (ends ws s) with (@nil str); [reflexivity|]. symmetry.
    rewrite forallb_forall in H1. clear IH H2. induction ws as [|v ws IH]; [reflexivity|].
    rewrite ends_cons, (clash_ok w v s (H1 v (or_introl eq_refl)) E). cbn [app].
    apply IH. intros x Hx. apply H1. now right.
  - destruct (IH H2) as [->|(v & Hv & M & ->)]; [now left|right]. exists v. split; [now right|]. auto.
Qed.

Definition words_first (ws : list word) : fset :=
  fold_right (fun w F => match w with x :: _ => funion (wc_ranges x) F | [] => F end)
             {| f_any := false; f_end := false; f_rng := [] |} ws.
Definition all_nonempty (ws : list word) : bool := forallb (fun w => match w with [] => false | _ => true end) ws.

Lemma words_first_ok ws w s : In w ws -> all_nonempty ws = true -> wmatch w s = true ->
  fmem (words_first ws) (head s) = true.
Proof.
  induction ws as [|v ws IH]; intros H NE M; [contradiction|]. cbn [all_nonempty forallb] in NE.
  apply andb_true_iff in NE. destruct NE as [N1 N2]. destruct v as [|x v]; [discriminate|].
  change (words_first ((x :: v) :: ws)) with (funion (wc_ranges x) (words_first ws)).
  rewrite fmem_union. apply orb_true_iff. destruct H as [<-|H].
  - left. destruct s as [|c s]; [discriminate|]. cbn [wmatch] in M. apply andb_true_iff in M.
    destruct M as [M _]. now apply wc_match_mem.
  - right. now apply IH.
Qed.

(** * The analysis *)

(** what is known about a continuation: its steps are at most [d_a * length + d_b]; before a text
    that does not start in [d_f] it fails within [d_e] steps; if [d_t] it never fails *)
Record desc := { d_a : N; d_b : N; d_f : fset; d_e : N; d_t : bool }.

Definition ok (d : desc) (k : cont) : Prop :=
  (forall s, snd (k s) <= d_a d * len s + d_b d) /\
  (forall s, fmem (d_f d) (head s) = false -> fst (k s) = None /\ snd (k s) <= d_e d) /\
  (d_t d = true -> forall s, fst (k s) <> None).

Definition alt_desc (x y : desc) : desc :=
  if disjoint (d_f x) (d_f y)
  then {| d_a := N.max (d_a x) (d_a y); d_b := N.max (d_b x + d_e y) (d_e x + d_b y) + 1;
          d_f := funion (d_f x) (d_f y); d_e := d_e x + d_e y + 1; d_t := d_t x || d_t y |}
  else {| d_a := d_a x + d_a y; d_b := d_b x + d_b y + 1;
          d_f := funion (d_f x) (d_f y); d_e := d_e x + d_e y + 1; d_t := d_t x || d_t y |}.

Definition join_desc (x y : desc) : desc :=
  {| d_a := N.max (d_a x) (d_a y); d_b := N.max (d_b x) (d_b y);
     d_f := funion (d_f x) (d_f y); d_e := N.max (d_e x) (d_e y); d_t := d_t x && d_t y |}.

Definition char_desc (F : fset) (d : desc) : desc :=
  {| d_a := d_a d; d_b := d_b d + 1; d_f := F; d_e := 1; d_t := false |}.

Definition star_desc (ws : list word) (c : N) (d : desc) : option desc :=
  if all_nonempty ws && exclusive ws && (d_t d || disjoint (words_first ws) (d_f d))
  then Some {| d_a := N.max (d_a d) (d_e d + c + 1); d_b := d_b d + c + 1;
               d_f := funion (words_first ws) (d_f d); d_e := d_e d + c + 1; d_t := d_t d |}
  else None.

Fixpoint least (an : desc -> option desc) (n : nat) (d : desc) : option desc :=
  match n with O => Some d | S n' => match least an n' d with Some x => an x | None => None end end.
Fixpoint most (an : desc -> option desc) (n : nat) (d : desc) : option desc :=
  match n with
  | O => Some d
  | S n' => match most an n' d with
            | Some x => match an (join_desc x d) with Some y => Some (alt_desc y d) | None => None end
            | None => None
            end
  end.

Fixpoint analyse (p : pat) (d : desc) : option desc :=
  match p with
  | PEps => Some d
  | PSet l => Some (char_desc {| f_any := false; f_end := false; f_rng := ranges l |} d)
  | PAny => Some (char_desc {| f_any := true; f_end := false; f_rng := [] |} d)
  | PEnd => Some (char_desc {| f_any := false; f_end := true; f_rng := [(c_nl, c_nl)] |} d)
  | PSeq a b => match analyse b d with Some x => analyse a x | None => None end
  | PAlt a b => match analyse a d, analyse b d with
                | Some x, Some y => Some (alt_desc x y)
                | _, _ => None
                end
  | PRep lo (Some h) a =>
      match most (analyse a) (h - lo) d with Some x => least (analyse a) lo x | None => None end
  | PRep lo None a =>
      match words a with
      | Some (ws, c) => match star_desc ws c d with Some x => least (analyse a) lo x | None => None end
      | None => None
      end
  end.

Lemma alt_ok x y (k1 k2 : cont) : ok x k1 -> ok y k2 ->
  ok (alt_desc x y) (fun s => tick (orelse (k1 s) (fun _ => k2 s))).
Proof.
  intros (A1 & A2 & A3) (B1 & B2 & B3).
  assert (P2 : forall s, fmem (funion (d_f x) (d_f y)) (head s) = false ->
     fst (tick (orelse (k1 s) (fun _ => k2 s))) = None /\ snd (tick (orelse (k1 s) (fun _ => k2 s))) <= d_e x + d_e y + 1).
  { intros s H. rewrite fmem_union in H. apply orb_false_iff in H. destruct H as [H1 H2].
    destruct (A2 s H1) as [E1 L1], (B2 s H2) as [E2 L2]. rewrite tick_fst, orelse_fst, E1. split; [exact E2|].
    cbn [tick snd]. unfold orelse. rewrite E1. cbn [snd]. lia. }
  assert (P3 : (d_t x || d_t y)%bool = true -> forall s, fst (tick (orelse (k1 s) (fun _ => k2 s))) <> None).
  { intros H s. rewrite tick_fst, orelse_fst. apply orb_true_iff in H. destruct H as [H|H].
    - specialize (A3 H s). destruct (fst (k1 s)); [discriminate|congruence].
    - specialize (B3 H s). destruct (fst (k1 s)); [discriminate|exact B3]. }
  assert (P1 : forall s, snd (tick (orelse (k1 s) (fun _ => k2 s))) <= snd (k1 s) + snd (k2 s) + 1).
  { intros s. cbn [tick snd]. unfold orelse. destruct (fst (k1 s)); cbn [snd]; lia. }
  unfold alt_desc. destruct (disjoint (d_f x) (d_f y)) eqn:D; split; cbn [d_a d_b d_f d_e d_t]; [|auto| |auto]; intros s.
  - specialize (P1 s). specialize (A1 s). specialize (B1 s).
    destruct (fmem (d_f x) (head s)) eqn:E.
    + pose proof (disjoint_ok _ _ _ D E) as E2. destruct (B2 s E2) as [_ L]. nia.
    + destruct (A2 s E) as [_ L]. nia.
  - specialize (P1 s). specialize (A1 s). specialize (B1 s). nia.
Qed.

Lemma ok_ext d k k' : (forall s, k s = k' s) -> ok d k -> ok d k'.
Proof.
  intros E (H1 & H2 & H3). repeat split; intros; rewrite <- E; [apply H1|now apply H2|now apply H2|now apply H3].
Qed.

Lemma char_ok F d k (test : N -> bool) (m : cont) : ok d k ->
  (forall c, test c = true -> fmem F (Some c) = true) ->
  (forall s, m s = match s with c :: t => if test c then tick (k t) else (None, 1) | [] => (None, 1) end) ->
  ok (char_desc F d) m.
Proof.
  intros (A1 & A2 & A3) T E. repeat split; cbn [char_desc d_a d_b d_f d_e d_t].
  - intros s. rewrite E. destruct s as [|c t]; [cbn [snd]; lia|]. destruct (test c); [|cbn [snd]; lia].
    cbn [tick snd]. specialize (A1 t). unfold len in *. cbn [length]. nia.
  - rewrite E. destruct s as [|c t]; [reflexivity|]. destruct (test c) eqn:X; [|reflexivity].
    change (fmem F (Some c) = false) in H. pose proof (T c X). congruence.
  - rewrite E. destruct s as [|c t]; [cbn [snd]; lia|]. destruct (test c) eqn:X; [|cbn [snd]; lia].
    change (fmem F (Some c) = false) in H. pose proof (T c X). congruence.
  - discriminate.
Qed.

Lemma join_ok x y (k1 k2 : cont) (b : str -> bool) : ok x k1 -> ok y k2 ->
  ok (join_desc x y) (fun s => if b s then k1 s else k2 s).
Proof.
  intros (A1 & A2 & A3) (B1 & B2 & B3). repeat split; cbn [join_desc d_a d_b d_f d_e d_t] in *.
  - intros s. specialize (A1 s). specialize (B1 s). destruct (b s); nia.
  - rewrite fmem_union in H. apply orb_false_iff in H. destruct H as [H1 H2].
    destruct (b s); [now apply A2|now apply B2].
  - rewrite fmem_union in H. apply orb_false_iff in H. destruct H as [H1 H2].
    destruct (A2 s H1), (B2 s H2). destruct (b s); lia.
  - intros H s. apply andb_true_iff in H. destruct H as [H1 H2]. destruct (b s); [now apply A3|now apply B3].
Qed.

Definition sound_an (m : cont -> cont) (an : desc -> option desc) : Prop :=
  forall d d' k, ok d k -> an d = Some d' -> ok d' (m k).

Lemma least_ok m an n : sound_an m an -> sound_an (at_least m n) (least an n).
Proof.
  intros S. induction n as [|n IH]; intros d d' k H E; cbn [least at_least] in *.
  - injection E as <-. exact H.
  - destruct (least an n d) as [x|] eqn:X; [|discriminate]. apply (S x); [|exact E]. now apply (IH d).
Qed.

Lemma most_ok m an n : sound_an m an -> sound_an (at_most m n) (most an n).
Proof.
  intros S. induction n as [|n IH]; intros d d' k H E; cbn [most] in E.
  - injection E as <-. exact H.
  - destruct (most an n d) as [x|] eqn:X; [|discriminate].
    destruct (an (join_desc x d)) as [y|] eqn:Y; [|discriminate]. injection E as <-.
    pose proof (IH _ _ _ H X) as Hx.
    (* the continuation of a round depends on where the round started *)
    assert (Q : forall s0 : str, ok y (m (fun t => if (length t <? length s0)%nat then at_most m n k t else k t))).
    { intros s0. apply (S (join_desc x d)); [|exact Y].
      exact (join_ok x d _ _ (fun t => (length t <? length s0)%nat) Hx H). }
    assert (R : forall s0 : str, ok (alt_desc y d)
       (fun s => tick (orelse (m (fun t => if (length t <? length s0)%nat then at_most m n k t else k t) s) (fun _ => k s)))).
    { intros s0. exact (alt_ok y d _ _ (Q s0) H). }
    repeat split; cbn [at_most]; intros.
    + exact (proj1 (R s) s).
    + exact (proj1 (proj1 (proj2 (R s)) s H0)).
    + exact (proj2 (proj1 (proj2 (R s)) s H0)).
    + exact (proj2 (proj2 (R s)) H0 s).
Qed.

Lemma star_ok m ws c d d' k : wspec m ws c -> ok d k -> star_desc ws c d = Some d' ->
  ok d' (fun t => at_most m (length t) k t).
Proof.
  intros W (A1 & A2 & A3) E. unfold star_desc in E.
  destruct (all_nonempty ws && exclusive ws && (d_t d || disjoint (words_first ws) (d_f d)))%bool eqn:C; [|discriminate].
  injection E as <-. apply andb_true_iff in C. destruct C as [C C3]. apply andb_true_iff in C. destruct C as [C1 C2].
  set (B := {| d_a := _; d_b := _ |}).
  (* one round *)
  assert (RD : forall K s,
    (fst (m K s) = None /\ snd (m K s) <= c) \/
    (exists t, (length t < length s)%nat /\ fmem (words_first ws) (head s) = true /\
               fst (m K s) = fst (K t) /\ snd (m K s) <= c + snd (K t))).
  { intros K s. destruct (W K s) as [W1 W2]. destruct (exclusive_ends ws s C2) as [E|(w & Hw & M & E)].
    - left. rewrite E in W1, W2. cbn in W1, W2. split; [exact W1|lia].
    - right. exists (skipn (length w) s). rewrite E in W1, W2. cbn [tries] in W1, W2. unfold orelse in W1, W2.
      split.
      { rewrite skipn_length.
        assert (length w <> 0%nat).
        { unfold all_nonempty in C1. rewrite forallb_forall in C1. specialize (C1 w Hw). now destruct w. }
        destruct w as [|x w]; [contradiction|]. destruct s; [discriminate|]. cbn [length]. lia. }
      split; [now apply (words_first_ok ws w)|].
      destruct (fst (K (skipn (length w) s))) eqn:F; [rewrite ?F in W1; split; [exact W1|exact W2]|].
      cbn [fst snd] in W1, W2. split; [exact W1|lia]. }
  assert (G : forall n s, (length s <= n)%nat ->
    snd (at_most m n k s) <= d_a B * len s + d_b B /\
    (fmem (d_f B) (head s) = false -> fst (at_most m n k s) = None /\ snd (at_most m n k s) <= d_e B) /\
    (d_t d = true -> fst (at_most m n k s) <> None)).
  { induction n as [|n IH]; intros s L; cbn [at_most].
    - split; [|split].
      + specialize (A1 s). subst B. cbn [d_a d_b]. nia.
      + intros H. subst B. cbn [d_f d_e] in *. rewrite fmem_union in H. apply orb_false_iff in H.
        destruct (A2 s (proj2 H)). split; [assumption|lia].
      + intros H. now apply A3.
    - match goal with |- context [m ?f s] => set (K := f) end.
      assert (KE : forall t, (length t < length s)%nat -> K t = at_most m n k t).
      { intros t Ht. unfold K. now rewrite (proj2 (Nat.ltb_lt _ _) Ht). }
      cbn [tick fst snd]. rewrite orelse_fst. unfold orelse.
      destruct (RD K s) as [[R1 R2]|(t & Lt & Hd & R1 & R2)].
      + rewrite R1. cbn [snd]. split; [|split].
        * specialize (A1 s). subst B. cbn [d_a d_b]. nia.
        * intros H. subst B. cbn [d_f d_e] in *. rewrite fmem_union in H. apply orb_false_iff in H.
          destruct (A2 s (proj2 H)). split; [assumption|lia].
        * intros H. now apply A3.
      + rewrite (KE t Lt) in R1, R2. destruct (IH t ltac:(lia)) as (I1 & I2 & I3).
        assert (LL : len t + 1 <= len s) by (unfold len; lia).
        split; [|split].
        * destruct (fst (m K s)) eqn:F.
          -- cbn [snd]. subst B. cbn [d_a d_b] in *. nia.
          -- cbn [snd].
             assert (DT : d_t d = false).
             { destruct (d_t d) eqn:T; [|reflexivity]. exfalso. apply (I3 eq_refl). congruence. }
             rewrite DT in C3. cbn [orb] in C3.
             destruct (A2 s (disjoint_ok _ _ _ C3 Hd)) as [_ L2]. subst B. cbn [d_a d_b] in *. nia.
        * intros H. subst B. cbn [d_f] in H. rewrite fmem_union, Hd in H. discriminate.
        * intros H. specialize (I3 H). rewrite <- R1 in I3.
          destruct (fst (m K s)); [discriminate|congruence]. }
  repeat split; intros.
  - exact (proj1 (G (length s) s (le_n _))).
  - exact (proj1 (proj1 (proj2 (G (length s) s (le_n _))) H)).
  - exact (proj2 (proj1 (proj2 (G (length s) s (le_n _))) H)).
  - exact (proj2 (proj2 (G (length s) s (le_n _))) H).
Qed.

Theorem analyse_ok p : sound_an (run p) (analyse p).
Proof.
  induction p as [|l| | |a IHa b IHb|a IHa b IHb|lo hi a IHa]; intros d d' k H E; cbn [analyse] in E.
  - injection E as <-. exact H.
  - injection E as <-. apply (char_ok _ d k (cls_match l)); [exact H| |intros [|c t]; reflexivity].
    intros c Hc. cbn [fmem f_any f_rng orb]. now rewrite ranges_ok.
  - injection E as <-. apply (char_ok _ d k dotc); [exact H| |intros [|c t]; reflexivity].
    intros c Hc. reflexivity.
  - injection E as <-. destruct H as (A1 & A2 & A3).
    assert (Q : forall s, (str_eqb s [] || str_eqb s [c_nl])%bool = true -> s = [] \/ s = [c_nl]).
    { intros s X. apply orb_true_iff in X. destruct X as [X|X]; apply str_eqb_eq in X; auto. }
    repeat split; cbn [char_desc d_a d_b d_f d_e d_t run].
    + intros s. destruct (_ || _)%bool; [|cbn [snd]; lia]. cbn [tick snd]. specialize (A1 s). lia.
    + destruct (_ || _)%bool eqn:X; [|reflexivity]. destruct (Q s X) as [-> | ->]; discriminate.
    + destruct (_ || _)%bool eqn:X; [|cbn [snd]; lia]. destruct (Q s X) as [-> | ->]; discriminate.
    + discriminate.
  - destruct (analyse b d) as [x|] eqn:X; [|discriminate]. apply (IHa x); [|exact E]. now apply (IHb d).
  - destruct (analyse a d) as [x|] eqn:X; [|discriminate]. destruct (analyse b d) as [y|] eqn:Y; [|discriminate].
    injection E as <-. apply (alt_ok x y); [now apply (IHa d)|now apply (IHb d)].
  - destruct hi as [h|].
    + destruct (most (analyse a) (h - lo) d) as [x|] eqn:X; [|discriminate].
      refine (least_ok (run a) (analyse a) lo IHa x d' _ _ E).
      exact (most_ok (run a) (analyse a) (h - lo) IHa d x k H X).
    + destruct (words a) as [[ws c]|] eqn:Wd; [|discriminate].
      destruct (star_desc ws c d) as [x|] eqn:X; [|discriminate].
      refine (least_ok (run a) (analyse a) lo IHa x d' _ _ E).
      exact (star_ok (run a) ws c d x k (words_ok a ws c Wd) H X).
Qed.

(** * The two ways to start *)

Definition full_desc : desc :=
  {| d_a := 0; d_b := 1; d_f := {| f_any := false; f_end := true; f_rng := [] |}; d_e := 1; d_t := false |}.
Definition match_desc : desc :=
  {| d_a := 0; d_b := 1; d_f := {| f_any := true; f_end := true; f_rng := [] |}; d_e := 0; d_t := true |}.

Lemma full_ok : ok full_desc k_full.
Proof.
  repeat split; cbn; intros.
  - destruct s; cbn; lia.
  - destruct s; [discriminate|reflexivity].
  - destruct s; cbn; lia.
  - discriminate.
Qed.
Lemma match_ok : ok match_desc k_match.
Proof.
  repeat split; cbn; intros.
  - lia.
  - destruct s; discriminate.
  - destruct s; discriminate.
  - discriminate.
Qed.

Theorem fullmatch_bound p d : analyse p full_desc = Some d ->
  forall s, fullmatch_steps p s <= d_a d * N.of_nat (length s) + d_b d.
Proof. intros E s. exact (proj1 (analyse_ok p _ _ _ full_ok E) s). Qed.
Theorem match_bound p d : analyse p match_desc = Some d ->
  forall s, match_steps p s <= d_a d * N.of_nat (length s) + d_b d.
Proof. intros E s. exact (proj1 (analyse_ok p _ _ _ match_ok E) s). Qed.
