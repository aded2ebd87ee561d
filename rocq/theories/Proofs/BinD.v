(** binary() and from_binary(): ADI. *)
From Coq Require Import String.
From Verif.Model Require Import Py Re Regexes Common Base.
From Verif.Model Require Import Adi Cpi Parsers.
From Verif.Spec Require Import Spec SpecEscapes SpecGrammar SpecSchemes SpecTags SpecLayout.
From Verif.Proofs Require Import Basics Num ReLemmas Uni Escapes Codecs Codecs2 CodecSpec Partition Grammar Ctor CtorA CtorB CtorC CtorAll TagUri TagUri2 TagFits Layout BinC.



Lemma concat_split m s cur k : concat (split_aux true m s cur k) = rev cur ++ skipn k s.
Proof.
  revert cur k. induction s as [|c s IH]; intros cur k.
  - cbn [split_aux concat]. now rewrite skipn_nil.
  - cbn [split_aux]. destruct k as [|k].
    + destruct (m (c :: s)) as [[|n]|].
      * rewrite IH. cbn [rev]. rewrite <- app_assoc. reflexivity.
      * cbn [concat]. rewrite IH. cbn [rev app skipn firstn]. rewrite <- (firstn_skipn n s) at 3. reflexivity.
      * rewrite IH. cbn [rev]. rewrite <- app_assoc. reflexivity.
    + rewrite IH. reflexivity.
Qed.
Lemma split_pass m a s cur : (forall i, (i < length a)%nat -> m (skipn i (a ++ s)) = None) ->
  split_aux true m (a ++ s) cur 0 = split_aux true m s (rev a ++ cur) 0.
Proof.
  revert cur. induction a as [|c a IH]; intros cur H; [reflexivity|].
  pose proof (H 0%nat ltac:(cbn; lia)) as H0. cbn [app skipn] in H0. cbn [app split_aux]. rewrite H0, IH.
  - cbn [rev]. now rewrite <- app_assoc.
  - intros i L. apply (H (S i)). cbn [length]. lia.
Qed.
Lemma split_first m n i s cur : m [] = None -> m (skipn i s) = Some (S n) ->
  exists p y l, (p <= i)%nat /\ split_aux true m s cur 0 = (rev cur ++ firstn p s) :: y :: l.
Proof.
  intros N. revert s cur. induction i as [|i IH]; intros s cur H; (destruct s as [|c s]; [rewrite ?skipn_nil in H; cbn in H; congruence|]).
  - cbn [skipn] in H. cbn [split_aux]. rewrite H. exists 0%nat, (firstn (S n) (c :: s)), (split_aux true m s [] n). split; [lia|].
    cbn [firstn]. now rewrite app_nil_r.
  - cbn [split_aux]. assert (D : (exists k, m (c :: s) = Some (S k)) \/ match m (c :: s) with Some (S _) => False | _ => True end).
    { destruct (m (c :: s)) as [[|k]|]; [now right|left; now exists k|now right]. }
    destruct D as [[k D]|D].
    + rewrite D. exists 0%nat, (firstn (S k) (c :: s)), (split_aux true m s [] k). split; [lia|]. cbn [firstn]. now rewrite app_nil_r.
    + destruct (IH s (c :: cur) H) as (p & y & l & L & E). exists (S p), y, l. split; [lia|].
      cbn [firstn]. cbn [rev] in E. rewrite <- app_assoc in E. cbn [app] in E. destruct (m (c :: s)) as [[|k]|]; [exact E|destruct D|exact E].
Qed.
Lemma seqmatch_app ps s r : (length ps <= length s)%nat -> seqmatch ps (s ++ r) = seqmatch ps s.
Proof.
  revert s. induction ps as [|p ps IH]; intros s L; [reflexivity|]. destruct s as [|c s]; [cbn in L; lia|].
  cbn [app seqmatch]. rewrite IH; [reflexivity|cbn in L; lia].
Qed.

Definition across (c d : N) : bool := existsb (fun k => (c mod 2 ^ k =? 0) && (d <? 2 ^ k)) [1; 2; 3; 4; 5].
Lemma across_iff c d : across c d = true <-> six_zeros_across c d.
Proof.
  unfold across, six_zeros_across. rewrite existsb_exists. split.
  - intros (k & I & H). apply andb_true_iff in H as [A B]. apply N.eqb_eq in A. apply N.ltb_lt in B. exists k.
    split; [|auto]. cbn [In] in I. lia.
  - intros (k & L & A & B). exists k. rewrite (proj2 (N.eqb_eq _ _) A), (proj2 (N.ltb_lt _ _) B). split; [|reflexivity].
    cbn [In]. lia.
Qed.
Definition zeros_at (i : nat) (s : str) : bool := seqmatch (repeat (N.eqb c_0) 6) (skipn i s).
Definition upto64 : list N := map N.of_nat (seq 0 64).
Lemma upto64_all (p : N -> bool) : forallb p upto64 = true -> forall c, c < 64 -> p c = true.
Proof. intros H c L. now apply (upto_forallb p 64 H). Qed.
Lemma windows_check : forallb (fun c => forallb (fun d => (c =? 0) ||
  Bool.eqb (existsb (fun i => zeros_at i (bits 6 c ++ bits 6 d)) (seq 0 6)) (across c d)) upto64) upto64 = true.
Proof. vm_compute. reflexivity. Qed.
Lemma windows c d : 0 < c < 64 -> d < 64 -> existsb (fun i => zeros_at i (bits 6 c ++ bits 6 d)) (seq 0 6) = across c d.
Proof.
  intros C D. pose proof (upto64_all _ (upto64_all _ windows_check c (proj2 C)) d D) as H. apply orb_true_iff in H as [H|H].
  - apply N.eqb_eq in H. lia.
  - now apply Bool.eqb_prop.
Qed.
Lemma zeros_window c d rest i : (i < 6)%nat ->
  m_zeros6 (skipn i (bits 6 c ++ bits 6 d ++ rest)) = if zeros_at i (bits 6 c ++ bits 6 d) then Some 6%nat else None.
Proof.
  intros L. unfold m_zeros6, m_seq, zeros_at. rewrite app_assoc, skipn_app.
  replace (i - length (bits 6 c ++ bits 6 d))%nat with 0%nat by (rewrite app_length, !length_bits; lia). cbn [skipn].
  rewrite seqmatch_app; [reflexivity|]. rewrite skipn_length, app_length, !length_bits, repeat_length. lia.
Qed.
Lemma pass_code c d rest cur : 0 < c < 64 -> d < 64 -> ~ six_zeros_across c d ->
  split_aux true m_zeros6 (bits 6 c ++ bits 6 d ++ rest) cur 0 = split_aux true m_zeros6 (bits 6 d ++ rest) (rev (bits 6 c) ++ cur) 0.
Proof.
  intros C D H. apply split_pass. rewrite length_bits. intros i L. rewrite zeros_window by exact L.
  destruct (zeros_at i (bits 6 c ++ bits 6 d)) eqn:Z; [|reflexivity]. destruct H. apply across_iff. rewrite <- (windows c d C D).
  apply existsb_exists. exists i. split; [apply in_seq; lia|exact Z].
Qed.

Definition codes_ok (l : list N) : Prop := Forall (fun c => 0 < c < 64) l.
Lemma six_codes t : forallb six_char t = true -> codes_ok (map code_six t) /\ flat_map (bits 6) (map code_six t) = text6 t.
Proof.
  induction t as [|c t IH]; intros H; [split; [constructor|reflexivity]|]. cbn [forallb] in H. apply andb_true_iff in H as [A B].
  destruct (IH B) as [I1 I2]. cbn [map flat_map]. rewrite I2, (code_six_spec _ A). split; [constructor; [now apply code6_spec|exact I1]|reflexivity].
Qed.
Lemma split_clean l rest cur : codes_ok l -> (forall a c d b, l ++ [0] = a ++ c :: d :: b -> ~ six_zeros_across c d) ->
  split_aux true m_zeros6 (flat_map (bits 6) l ++ lit "000000" ++ rest) cur 0 =
  (rev cur ++ flat_map (bits 6) l) :: lit "000000" :: re_split_cap m_zeros6 rest.
Proof.
  revert cur. induction l as [|c l IH]; intros cur K H.
  - cbn [flat_map app]. rewrite app_nil_r. cbn [split_aux].
    change (lit "000000" ++ rest) with (c_0 :: c_0 :: c_0 :: c_0 :: c_0 :: c_0 :: rest). reflexivity.
  - inversion K as [|? ? C K' E1]; subst. cbn [flat_map]. rewrite <- app_assoc.
    assert (N : exists d l', l ++ [0] = d :: l' /\ d < 64 /\ flat_map (bits 6) l ++ lit "000000" ++ rest = bits 6 d ++ (flat_map (bits 6) l' ++ rest)).
    { destruct l as [|d l]; [exists 0, []; repeat split|]. inversion K' as [|? ? D K'' E2]; subst. exists d, (l ++ [0]). repeat split; [lia|].
      cbn [flat_map]. rewrite flat_map_app, <- !app_assoc. reflexivity. }
    destruct N as (d & l' & E & D & F). rewrite F, pass_code; auto.
    + rewrite <- F, IH; auto.
      * rewrite rev_app_distr, rev_involutive, <- app_assoc. reflexivity.
      * intros a c' d' b E'. apply (H (c :: a) c' d' b). cbn [app]. now rewrite E'.
    + apply (H [] c d l'). cbn [app]. now rewrite E.
Qed.
Lemma split_early l rest : codes_ok l -> (exists a c d b, l ++ [0] = a ++ c :: d :: b /\ six_zeros_across c d) ->
  exists p y r, (p < 6 * length l)%nat /\
    re_split_cap m_zeros6 (flat_map (bits 6) l ++ lit "000000" ++ rest) = firstn p (flat_map (bits 6) l ++ lit "000000" ++ rest) :: y :: r.
Proof.
  intros K (a & c & d & b & E & Z).
  assert (LB : forall l : list N, length (flat_map (bits 6) l) = (6 * length l)%nat).
  { clear. induction l as [|x l IH]; [reflexivity|]. cbn [flat_map length]. rewrite app_length, length_bits, IH. lia. }
  assert (LA : (S (length a) <= length l)%nat).
  { apply (f_equal (@length N)) in E. rewrite !app_length in E. cbn [length] in E. lia. }
  assert (S1 : flat_map (bits 6) l ++ lit "000000" ++ rest = flat_map (bits 6) a ++ bits 6 c ++ bits 6 d ++ (flat_map (bits 6) b ++ rest)).
  { transitivity (flat_map (bits 6) (l ++ [0]) ++ rest); [rewrite flat_map_app, <- app_assoc; reflexivity|]. rewrite E, flat_map_app. cbn [flat_map]. now rewrite <- !app_assoc. }
  assert (C : 0 < c < 64 /\ d < 64).
  { assert (I : forall x, In x (l ++ [0]) -> x < 64).
    { intros x I. apply in_app_iff in I as [I|[<-|[]]]; [|lia]. unfold codes_ok in K. rewrite Forall_forall in K. now apply K in I. }
    split; [|apply I; rewrite E; apply in_or_app; right; right; now left].
    assert (Ic : In c l).
    { replace l with (removelast (l ++ [0])) by apply removelast_last. rewrite E. rewrite removelast_app by discriminate. apply in_or_app. right. cbn [removelast]. now left. }
    unfold codes_ok in K. rewrite Forall_forall in K. now apply K. }
  destruct C as [C D]. apply across_iff in Z. rewrite <- (windows c d C D) in Z. apply existsb_exists in Z as (i & I & Z). apply in_seq in I.
  rewrite S1.
  destruct (split_first m_zeros6 5 (length (flat_map (bits 6) a) + i) (flat_map (bits 6) a ++ bits 6 c ++ bits 6 d ++ (flat_map (bits 6) b ++ rest)) []) as (p & y & r & P & Q).
  - reflexivity.
  - rewrite skipn_app, skipn_all2 by lia. cbn [app]. replace (_ + i - _)%nat with i by lia. rewrite zeros_window by lia. now rewrite Z.
  - exists p, y, r. rewrite LB in P. split; [lia|]. exact Q.
Qed.
Lemma decode_cut t p rest k : forallb six_char t = true -> forallb is_bit rest = true -> (p < 6 * length t)%nat -> (length t <= k)%nat ->
  exists r, forallb six_char r = true /\ (length r < length t)%nat /\ decode_string_six_bits (firstn p (text6 t ++ rest)) k = Ok (escape6 r).
Proof.
  intros H R P K. exists (firstn (p / 6) t).
  assert (Q : (p / 6 < length t)%nat) by (apply Nat.div_lt_upper_bound; lia).
  assert (SC : forallb six_char (firstn (p / 6) t) = true).
  { rewrite <- (firstn_skipn (p / 6) t), forallb_app in H. now apply andb_true_iff in H. }
  split; [exact SC|]. split; [rewrite firstn_length; lia|].
  assert (E : exists e, (length e < 6)%nat /\ firstn p (text6 t ++ rest) = text6 (firstn (p / 6) t) ++ e /\ forallb is_bit e = true).
  { exists (firstn (p mod 6) (text6 (skipn (p / 6) t) ++ rest)).
    pose proof (Nat.mod_upper_bound p 6 ltac:(lia)). pose proof (Nat.div_mod p 6 ltac:(lia)).
    split; [rewrite firstn_length; lia|]. split.
    - rewrite <- (firstn_skipn (p / 6) t) at 1. unfold text6 at 1. rewrite flat_map_app, <- app_assoc. fold (text6 (firstn (p / 6) t)) (text6 (skipn (p / 6) t)).
      rewrite firstn_app. rewrite firstn_all2 by (rewrite length_text6, firstn_length; lia). rewrite length_text6, firstn_length. do 2 f_equal. lia.
    - assert (B : forallb is_bit (text6 (skipn (p / 6) t) ++ rest) = true) by (rewrite forallb_app, text6_bit; exact R).
      rewrite <- (firstn_skipn (p mod 6) (_ ++ rest)), forallb_app in B. now apply andb_true_iff in B. }
  destruct E as (e & Le & -> & Be). rewrite decode_six_bits by (rewrite forallb_app, text6_bit; exact Be). cbv zeta.
  rewrite chunks_text6, (chunks_short 6 e) by lia.
  replace (six_stop (map (sval 2) (map (fun c => bits 6 (code6 c)) (firstn (p / 6) t) ++ []))) with (firstn (p / 6) t).
  - replace (k <? length (firstn (p / 6) t))%nat with false; [reflexivity|]. symmetry. apply Nat.ltb_ge. rewrite firstn_length. lia.
  - symmetry. pose proof (chunks_text6 (firstn (p / 6) t) []) as G. rewrite app_nil_r, (chunks_short 6 []) in G by (cbn; lia).
    rewrite <- G. now apply six_stop_all.
Qed.
Lemma cage6_written s : cage_text s ->
  written (cage_fields 6 code_six s) 36 (encode_cage_code_six_bits s) decode_cage_code_six_bits s.
Proof.
  intros H. apply cage_text_iff in H as [L H].
  assert (A : in_range (map (fun c => (6%nat, code_six c)) s) /\ tobits (map (fun c => (6%nat, code_six c)) s) = text6 s).
  { clear L. induction s as [|c s IH]; [split; [constructor|reflexivity]|]. cbn [forallb] in H. apply andb_true_iff in H as [A B].
    destruct (IH B) as [I1 I2]. apply cage_six in A. cbn [map]. rewrite tobits_cons, I2, (code_six_spec _ A). split; [|reflexivity].
    constructor; [now apply code6_spec|exact I1]. }
  destruct A as [A1 A2].
  assert (B : in_range (cage_fields 6 code_six s) /\ tobits (cage_fields 6 code_six s) = cage6 s).
  { unfold cage_fields, cage6. rewrite map_app, in_range_app, tobits_app, A2.
    assert (E : (length s = 5 \/ length s = 6)%nat) by lia. destruct E as [E|E]; rewrite E; (split; [split; [|exact A1]; repeat constructor|reflexivity]). }
  destruct B as [B1 B2]. split; [exact B1|]. split; [rewrite <- length_tobits, B2; now apply length_cage6|]. rewrite B2.
  split; [now apply encode_cage6_ok|now apply decode_cage6_ok].
Qed.

Lemma rmatch_zeros a r : forallb dotc a = true -> rmatch adi_terminator (a ++ lit "000000" ++ r) = true.
Proof.
  intros H. apply rmatch_lang. exists (a ++ lit "000000"), r. split; [now rewrite <- app_assoc|].
  unfold adi_terminator, rseq. cbn [fold_right]. exists a, (lit "000000"). split; [reflexivity|]. split; [now apply lang_star_set|].
  apply lang_seq. exists (lit "000000"), []. split; [reflexivity|]. split.
  - apply fullmatch_lang. reflexivity.
  - apply fullmatch_lang. reflexivity.
Qed.

Theorem adi_coded u x s f : adi_init u = Ok x -> f < 64 ->
  let l := tag_layout (T_ADI x s f) in
  in_range l /\ adi_binary x s f = Ok (tobits l) /\
  total_bits l = (62 + 6 * (length (unescape6 (adi_part x)) + length (unescape6 (adi_serial x))))%nat /\
  forall extra, bitstring extra -> (adi_from_binary (tobits l ++ extra) = Ok x <-> no_early_zeros (adi_part x)).
Proof.
  intros I F. destruct s. pose proof I as I0. apply adi_iff in I as ((U & C & (t & T & TH & TE & TL) & (w & w' & W & _ & WN & WC & WE & WL)) & XU).
  apply six_bit_text_iff in T, W.
  destruct (filter_written f 6) as (F1 & F2 & F3 & F4); [lia|exact F|]. destruct (cage6_written _ C) as (C1 & C2 & C3 & C4).
  destruct (six_fields_bits t T) as (P1 & P2 & P3). destruct (six_fields_bits w W) as (S1 & S2 & S3). rewrite <- TE in P1, P2, P3. rewrite <- WE in S1, S2, S3.
  assert (UT : unescape6 (adi_part x) = t) by (rewrite TE; now apply unescape6_escape6).
  assert (UW : unescape6 (adi_serial x) = w) by (rewrite WE; now apply unescape6_escape6). rewrite UT, UW.
  set (a := [(6%nat, f)] : list field) in *. set (b := cage_fields 6 code_six (adi_cage x)) in *. set (p := six_fields (adi_part x)) in *. set (c := six_fields (adi_serial x)) in *.
  assert (E : tag_layout (T_ADI x ADI_VAR f) = (8%nat, 0x3B) :: a ++ b ++ p ++ c) by reflexivity. cbv zeta. rewrite E.
  split; [constructor; [reflexivity|]; rewrite !in_range_app; auto|]. split; [|split].
  - unfold adi_binary. rewrite F3, C3. cbn [bind]. rewrite TE, WE, !escape6_eq, !encode_six_escape by assumption. cbn [bind].
    rewrite (tobits_cons 8), !tobits_app, P3, S3. reflexivity.
  - rewrite total_cons, !total_app, F2, C2, P2, S2. lia.
  - intros extra B. apply bitstring_iff in B. unfold adi_from_binary. rewrite header_cons.
    rewrite (parse_var adi_scheme_value adi_header_to_schemes (bits 8 0x3B) _ ADI_VAR (lit "adi") (lit "var")) by reflexivity.
    cbn [bind]. rewrite !tobits_app, <- !app_assoc, P3, S3, <- !app_assoc.
    set (h := bits 8 0x3B). assert (Lh : length h = 8%nat) by reflexivity.
    assert (La : length (tobits a) = 6%nat) by (rewrite length_tobits; exact F2). assert (Lb : length (tobits b) = 36%nat) by (rewrite length_tobits; exact C2).
    set (rest := text6 w ++ lit "000000" ++ extra).
    rewrite (sl_mid h (tobits a)) by (auto; lia).
    assert (E1 : sl 14 50 (h ++ tobits a ++ tobits b ++ text6 t ++ lit "000000" ++ rest) = tobits b).
    { rewrite app_assoc. apply sl_mid; rewrite ?app_length; lia. }
    assert (E2 : skipn 50 (h ++ tobits a ++ tobits b ++ text6 t ++ lit "000000" ++ rest) = text6 t ++ lit "000000" ++ rest).
    { rewrite (app_assoc h), (app_assoc (h ++ _)). apply skipn_exact. rewrite !app_length. lia. }
    rewrite E1, E2, rmatch_zeros by apply is_bit_dotc, text6_bit. cbn [negb raise_if bind]. rewrite F4, C4. cbn [bind].
    destruct (six_codes t T) as [K1 K2].
    assert (BR : forallb is_bit (lit "000000" ++ rest) = true) by (unfold rest; rewrite !forallb_app, text6_bit, B; reflexivity).
    split.
    + intros R a' c' d' b' Q Z. rewrite UT in Q.
      destruct (split_early (map code_six t) rest K1) as (k & y & r & KL & KE). { exists a', c', d', b'. auto. }
      rewrite map_length in KL. rewrite K2 in KE. rewrite KE in R. cbn [unpack2_rest bind] in R.
      destruct (decode_cut t k (lit "000000" ++ rest) 32 T BR KL TL) as (v & V1 & V2 & V3). rewrite V3 in R. cbn [bind] in R.
      inv_ok R. rewrite dec_of_N in R.
      assert (R' : adi_init (scheme_prefix C_ADI ++ adi_cage x ++ [c_dot] ++ escape6 v ++ [c_dot] ++ a0) = Ok x).
      { rewrite <- R. symmetry. apply (from_tag_gen adi_init C_ADI (adi_scheme_value ADI_VAR) (ndec f)); [nomatch adi_init|cbn; auto|discriminate|apply ndec_nc]. }
      apply adi_iff in R' as [_ XU']. rewrite XU' in XU. rewrite U in XU. change (scheme_prefix C_ADI) with (lit "urn:epc:id:adi:") in XU.
      apply app_inv_head in XU. apply app_inv_head in XU. injection XU as XU. rewrite TE in XU.
      assert (ND : forall q, forallb six_char q = true -> ~ In c_dot (escape6 q)).
      { intros q Hq In1. unfold escape6 in In1. apply in_flat_map in In1 as (z & Iz & In1). rewrite forallb_forall in Hq. apply Hq in Iz.
        destruct (z =? 35); [cbn in In1; intuition discriminate|]. destruct (z =? 47); [cbn in In1; intuition discriminate|].
        destruct In1 as [->|[]]. discriminate. }
      assert (EV : escape6 v = escape6 t).
      { pose proof (ND v V1) as N1. pose proof (ND t T) as N2. clear - XU N1 N2. revert XU N1 N2. generalize (escape6 v) as g, (escape6 t) as g'.
        induction g as [|g0 g IH]; intros [|g0' g'] X N1 N2; cbn [app] in X; try reflexivity.
        - injection X as X _. destruct N2. now left.
        - injection X as X _. destruct N1. now left.
        - injection X as -> X. f_equal. apply IH; auto; intros J; [apply N1|apply N2]; now right. }
      apply (f_equal unescape6) in EV. rewrite !unescape6_escape6 in EV by assumption. subst v. lia.
    + intros NZ. unfold no_early_zeros in NZ. rewrite UT in NZ.
      pose proof (split_clean (map code_six t) rest [] K1 NZ) as SP. rewrite K2 in SP. unfold re_split_cap at 1. rewrite SP.
      cbn [rev app unpack2_rest bind]. unfold re_split_cap. rewrite concat_split. cbn [rev app skipn].
      assert (DP : decode_string_six_bits (text6 t) 32 = Ok (escape6 t)).
      { rewrite decode_six_bits by apply text6_bit. cbv zeta. rewrite six_stop_all by exact T. destruct (32 <? length t)%nat eqn:L; [apply Nat.ltb_lt in L; lia|reflexivity]. }
      rewrite DP. cbn [bind].
      assert (DS : decode_string_six_bits (drop_last 6 rest) 30 = Ok (escape6 w)).
      { unfold rest, drop_last. rewrite !app_length, length_text6. change (length (lit "000000")) with 6%nat.
        destruct (Nat.le_gt_cases 6 (length extra)) as [LE|LE].
        - replace (firstn _ _) with (text6 w ++ lit "000000" ++ firstn (length extra - 6) extra).
          + rewrite decode_encode_6bit; [reflexivity|exact W| |exact WL].
            rewrite <- (firstn_skipn (length extra - 6) extra), forallb_app in B. now apply andb_true_iff in B.
          + rewrite !app_assoc, firstn_app, (firstn_all2 (text6 w ++ lit "000000")) by (rewrite app_length, length_text6; cbn; lia). f_equal. rewrite app_length, length_text6. f_equal. cbn; lia.
        - assert (EZ : exists e, (length e < 6)%nat /\ forallb is_bit e = true /\ firstn (6 * length w + (6 + length extra) - 6) (text6 w ++ lit "000000" ++ extra) = text6 w ++ e).
          { exists (firstn (length extra) (lit "000000" ++ extra)). split; [rewrite firstn_length; lia|]. split.
            - assert (B' : forallb is_bit (lit "000000" ++ extra) = true) by (rewrite forallb_app, B; reflexivity).
              rewrite <- (firstn_skipn (length extra) (_ ++ extra)), forallb_app in B'. now apply andb_true_iff in B'.
            - rewrite firstn_app, firstn_all2 by (rewrite length_text6; lia). f_equal. f_equal. rewrite length_text6. lia. }
          destruct EZ as (e & Le & Be & ->). rewrite decode_six_bits by (rewrite forallb_app, text6_bit; exact Be). cbv zeta.
          rewrite chunks_text6, (chunks_short 6 e) by lia. pose proof (chunks_text6 w []) as G. rewrite app_nil_r, (chunks_short 6 []) in G by (cbn; lia).
          rewrite <- G, six_stop_all by exact W. destruct (30 <? length w)%nat eqn:L; [apply Nat.ltb_lt in L; lia|reflexivity]. }
      rewrite DS. cbn [bind]. rewrite dec_of_N, <- I0. etransitivity.
      * apply (from_tag_gen adi_init C_ADI (adi_scheme_value ADI_VAR) (ndec f)); [nomatch adi_init|cbn; auto|discriminate|apply ndec_nc].
      * f_equal. rewrite U, TE, WE. reflexivity.
Qed.
