(** from_binary() and the decoding procedure of the Tag Data Standard: the coding schemes of no fixed size. *)
From Coq Require Import String.
From Verif.Model Require Import Py Re Regexes Common Base.
From Verif.Model Require Import Adi Cpi Gdti Giai Gid Grai Gsrn Gsrnp Itip Sgcn Sgln Sgtin Sscc Usdod Parsers.
From Verif.Spec Require Import Spec SpecEscapes SpecGrammar SpecSchemes SpecTags SpecLayout SpecCoding SpecRespell SpecReading SpecVarReading.
From Verif.Proofs Require Import Basics Num ReLemmas Uni Escapes Codecs Codecs2 CodecSpec Partition Verify Verify2 Grammar Ctor CtorA CtorB CtorC CtorAll TagUri TagUri2 TagFits Layout BinC BinD Decode DecodeA DecodeB Reencode Exact TagReading TagReading2.

Lemma piece_is b i w : forallb is_bit b = true -> (i + w <= length b)%nat -> firstn w (skipn i b) = bits w (bits_at b i w).
Proof.
  intros B L. unfold bits_at. assert (X : forallb is_bit (firstn w (skipn i b)) = true) by now apply piece_bits.
  rewrite binary_number_sval by exact X. rewrite <- (piece_length b i w L) at 2. symmetry. now apply bits_sval.
Qed.
Lemma cut_at {A} i w (b : list A) : skipn i b = firstn w (skipn i b) ++ skipn (i + w) b.
Proof. rewrite <- skipn_skipn'. symmetry. apply firstn_skipn. Qed.
Lemma codes_cons b i w m : codes_at b i w (S m) = bits_at b i w :: codes_at b (i + w) w m.
Proof.
  unfold codes_at. cbn [seq map]. rewrite Nat.mul_0_r, Nat.add_0_r. f_equal. rewrite <- seq_shift, map_map. apply map_ext. intros j. f_equal. lia.
Qed.
Lemma text_split b t : forall i, forallb is_bit b = true -> (i + 6 * length t <= length b)%nat -> forallb six_char t = true ->
  codes_at b i 6 (length t) = map code_six t -> skipn i b = text6 t ++ skipn (i + 6 * length t) b.
Proof.
  induction t as [|c t IH]; intros i B L T C.
  - cbn [length]. rewrite Nat.mul_0_r, Nat.add_0_r. reflexivity.
  - cbn [length] in *. rewrite codes_cons in C. cbn [map] in C. injection C as C1 C2. cbn [forallb] in T. apply andb_true_iff in T as [T1 T2].
    change (text6 (c :: t)) with (bits 6 (code6 c) ++ text6 t). rewrite (cut_at i 6 b), (piece_is b i 6 B) by lia. rewrite C1, (code_six_spec _ T1), <- app_assoc.
    f_equal. rewrite (IH (i + 6)%nat B) by (auto; lia). do 2 f_equal. lia.
Qed.
Lemma closed_split b i t : forallb is_bit b = true -> closed_text b i t ->
  forallb six_char t = true /\ skipn i b = text6 t ++ lit "000000" ++ skipn (i + 6 * length t + 6) b.
Proof.
  intros B (L & T & C & Z). apply six_bit_text_iff in T. split; [exact T|]. rewrite (text_split b t i B) by (auto; lia). f_equal.
  rewrite (cut_at (i + 6 * length t) 6 b), (piece_is b _ 6 B), Z by lia. reflexivity.
Qed.
Lemma skip_bits b i : forallb is_bit b = true -> forallb is_bit (skipn i b) = true.
Proof. apply forallb_skipn. Qed.

Lemma stop_text t e : forallb six_char t = true -> six_stop (map (sval 2) (chunks 6 (text6 t ++ e))) = t ++ six_stop (map (sval 2) (chunks 6 e)).
Proof.
  intros T. rewrite chunks_text6, map_app. induction t as [|c t IH]; [reflexivity|]. cbn [forallb] in T. apply andb_true_iff in T as [T1 T2].
  cbn [map app six_stop]. destruct (code6_spec _ T1) as [R D]. rewrite sval_bits by (change (2 ^ N.of_nat 6) with 64; lia).
  replace (code6 c =? 0) with false by (symmetry; apply N.eqb_neq; lia). rewrite D. f_equal. now apply IH.
Qed.
Lemma stop_zeros e : six_stop (map (sval 2) (chunks 6 (lit "000000" ++ e))) = [].
Proof. rewrite chunks_app by (cbn; lia). reflexivity. Qed.
Lemma stop_short e : (length e < 6)%nat -> six_stop (map (sval 2) (chunks 6 e)) = [].
Proof. intros L. rewrite chunks_short by lia. reflexivity. Qed.
Lemma decode_window t e k n : forallb six_char t = true -> forallb is_bit e = true -> n = (6 * k + 6)%nat ->
  decode_string_six_bits (firstn n (text6 t ++ lit "000000" ++ e)) k = if (k <? length t)%nat then Raise ConvertException else Ok (escape6 t).
Proof.
  intros T B ->. assert (X : forallb is_bit (text6 t ++ lit "000000" ++ e) = true) by (rewrite !forallb_app, text6_bit, B; reflexivity).
  rewrite decode_six_bits by now apply forallb_firstn. cbv zeta. destruct (k <? length t)%nat eqn:K.
  - apply Nat.ltb_lt in K.
    assert (E : firstn (6 * k + 6) (text6 t ++ lit "000000" ++ e) = text6 (firstn (S k) t)).
    { rewrite <- (firstn_skipn (S k) t) at 1. unfold text6 at 1. rewrite flat_map_app, <- app_assoc. fold (text6 (firstn (S k) t)). apply firstn_exact.
      rewrite length_text6, firstn_length. lia. }
    rewrite E. assert (S1 : forallb six_char (firstn (S k) t) = true) by now apply forallb_firstn. rewrite six_stop_all by exact S1.
    rewrite firstn_length. replace (k <? _)%nat with true; [reflexivity|]. symmetry. apply Nat.ltb_lt. lia.
  - apply Nat.ltb_ge in K.
    assert (E : firstn (6 * k + 6) (text6 t ++ lit "000000" ++ e) = text6 t ++ lit "000000" ++ firstn (6 * k + 6 - (6 * length t + 6)) e).
    { rewrite !app_assoc, firstn_app, firstn_all2; [|rewrite app_length, length_text6; cbn; lia]. rewrite app_length, length_text6. reflexivity. }
    rewrite E, stop_text, stop_zeros, app_nil_r by exact T. replace (k <? length t)%nat with false by (symmetry; now apply Nat.ltb_ge). reflexivity.
Qed.

(** * CPI-var *)
Lemma prefix_split b n cp : forallb is_bit b = true -> (14 + prefix_bits n <= length b)%nat -> prefix_of b n cp ->
  skipn 11 b = tobits (prefix_fields cp) ++ skipn (14 + prefix_bits n) b.
Proof.
  intros B L (Hn & P & A & LC & D). unfold prefix_fields. rewrite !tobits_cons, LC, D, <- P. cbn [tobits flat_map]. rewrite app_nil_r, <- app_assoc.
  rewrite <- (piece_is b 11 3 B) by lia. rewrite (cut_at 11 3 b) at 1. f_equal. rewrite (cut_at (11 + 3) (prefix_bits n) b). f_equal. apply piece_is; [exact B|lia].
Qed.
Lemma cpi_refused s : ~ accepted C_CPI s -> init_of C_CPI (scheme_prefix C_CPI ++ s) = Raise ConvertException.
Proof.
  intros N. destruct (init_of C_CPI (scheme_prefix C_CPI ++ s)) as [e|x] eqn:E; [destruct N; now exists e|]. f_equal.
  exact (init_plain_class C_CPI _ ltac:(cbn; tauto) _ E).
Qed.
Lemma dot_unique (a a' x x' : str) : ~ In c_dot a -> ~ In c_dot a' -> a ++ lit "." ++ x = a' ++ lit "." ++ x' -> a = a' /\ x = x'.
Proof.
  revert a'. induction a as [|c a IH]; intros [|c' a'] N N' E; cbn [app] in E; try (injection E as E1 E2).
  - injection E as E. auto.
  - exfalso. apply N'. left. now rewrite <- E1.
  - exfalso. apply N. left. now rewrite E1.
  - subst c'. destruct (IH a') as [-> ->]; auto; intros I; [apply N|apply N']; now right.
Qed.
Lemma escape6_inj t t' : forallb six_char t = true -> forallb six_char t' = true -> escape6 t = escape6 t' -> t = t'.
Proof. intros T T' E. apply (f_equal unescape6) in E. now rewrite !unescape6_escape6 in E. Qed.
Lemma six_dot t : forallb six_char t = true -> ~ In c_dot (escape6 t).
Proof. intros T. apply six_no_dot. now apply six_bit_text_iff. Qed.
Lemma cpi_var_acc cp t v : company_prefix cp -> forallb six_char t = true -> numeral v ->
  accepted C_CPI (two cp (two (escape6 t) v)) <-> t <> [] /\ (length cp + length (escape6 t) <= 30)%nat /\ (length v <= 12)%nat.
Proof.
  intros C T V. unfold accepted. cbn [init_of]. split.
  - intros (e & E). apply lift_ok in E as (x & E & _). apply cpi_iff in E as ((U & CP & (t' & N & T' & R) & L & S & SL) & _).
    apply two_dots2 in U as (U1 & U2); [|exact (proj1 C)|exact (proj1 CP)]. apply six_bit_text_iff in T'. rewrite R in U2, L. apply dot_unique in U2 as (U2 & U3); [|now apply six_dot|now apply six_dot].
    apply escape6_inj in U2; [|exact T'|exact T]. subst t'. rewrite U1 in L. rewrite U3 in SL. auto.
  - intros (N & L & K). exists (E_CPI (mkCpi (scheme_prefix C_CPI ++ two cp (two (escape6 t) v)) cp (escape6 t) v)). apply lift_ok. eexists. split; [|reflexivity].
    apply cpi_iff. cbn [cpi_cp cpi_ref cpi_serial cpi_epc_uri]. split; [|reflexivity]. split; [reflexivity|]. split; [exact C|]. split; [|auto].
    exists t. split; [exact N|]. split; [now apply six_bit_text_iff|reflexivity].
Qed.
Lemma cpi_row n : (6 <= n <= 12)%nat -> exists r, In r cpi_rows_var /\ lookup (rP r) (table_P cpi_rows_var) = Some r /\ rL r = n /\
  row_fine r /\ Z.to_N (rP r) = partition_value n /\ rM r = prefix_bits n /\ rN r = (6 * rK r + 6)%nat /\ rK r = (30 - n)%nat.
Proof.
  intros L. assert (H : rows_text cpi_rows_var = true) by (vm_compute; reflexivity).
  destruct (text_row _ _ H L) as (r & Ir & A1 & A2 & A3 & Fi & P & M). exists r. repeat (split; [assumption|]).
  rewrite <- A3. clear - Ir. cbn in Ir. repeat (destruct Ir as [<-|Ir]; [cbn [rN rK rL]; lia|]). destruct Ir.
Qed.
Lemma cpi_var_body b cp t v : forallb is_bit b = true -> cpi_var_fields b cp t v ->
  k_body K_CPI_VAR (skipn 11 b) = if (30 - length cp <? length t)%nat then Raise ConvertException else Ok (two cp (two (escape6 t) v)).
Proof.
  intros B (n & P & T & L & V). pose proof P as (Hn & PV & A & LC & D). destruct (closed_split b _ t B T) as (T6 & S). destruct (prefix_facts b n cp P) as (C & _).
  assert (L14 : (14 + prefix_bits n <= length b)%nat) by lia.
  assert (E : skipn 11 b = tobits (prefix_fields cp) ++ text6 t ++ lit "000000" ++ skipn (14 + prefix_bits n + 6 * length t + 6) b).
  { rewrite (prefix_split b n cp B L14 P), S. reflexivity. }
  set (rest := skipn (14 + prefix_bits n + 6 * length t + 6) b) in *. assert (BR : forallb is_bit rest = true) by now apply skip_bits.
  destruct (cpi_row n Hn) as (r & Ir & A2 & A3 & Fi & Pr & M & RN & RK).
  cbn [k_body]. change cpi_table_P_var with (table_P cpi_rows_var). rewrite E.
  rewrite (decode_head cp _ cpi_rows_var r false true); [|exact C|exact A2|exact Fi|congruence|congruence|congruence|reflexivity].
  rewrite decode_window by assumption. rewrite RK, LC. destruct (30 - n <? length t)%nat; [reflexivity|]. cbn [bind].
  assert (E3 : firstn 3 (tobits (prefix_fields cp) ++ text6 t ++ lit "000000" ++ rest) = bits 3 (partition_value n)).
  { unfold prefix_fields. rewrite (tobits_cons 3), <- app_assoc, LC. apply firstn_exact. reflexivity. }
  rewrite E3, bits_int; [|lia|unfold partition_value; change (2 ^ N.of_nat 3) with 8; lia]. cbn [bind].
  replace (Z.of_N (partition_value n)) with (rP r) by (destruct Fi as (? & _); lia). rewrite A2. cbn [of_option bind].
  assert (EM : skipn (3 + rM r) (tobits (prefix_fields cp) ++ text6 t ++ lit "000000" ++ rest) = text6 t ++ lit "000000" ++ rest).
  { apply skipn_exact. rewrite length_tobits. destruct (prefix_range _ C) as [_ ->]. rewrite LC, M. reflexivity. }
  rewrite EM, cpi_serial_after by assumption.
  assert (LR : (40 <= length rest)%nat) by (unfold rest; rewrite skipn_length; lia).
  replace (0 <? length rest)%nat with true by (symmetry; apply Nat.ltb_lt; lia).
  assert (E40 : firstn 40 rest = bits 40 (bits_at b (14 + prefix_bits n + 6 * length t + 6) 40)) by (apply piece_is; [exact B|lia]).
  pose proof (bits_at_lt b (14 + prefix_bits n + 6 * length t + 6) 40 B) as Lt.
  rewrite E40, bits_int; [|lia|exact Lt]. cbn [bind]. apply plain_iff in V. rewrite dec_of_N, <- V.
  assert (AF : ascii_form cp = cp) by (apply ascii_form_id; intros x I; specialize (A x I); unfold is_ascii; lia). rewrite AF. unfold two. rewrite <- ?app_assoc. reflexivity.
Qed.
Theorem cpi_var_reading b u : forallb is_bit b = true -> firstn 8 b = tag_header K_CPI_VAR -> cpi_var_text b u -> binary_to_tag_encodable b = init_of C_CPI u.
Proof.
  intros B H (cp & t & v & F & ->). rewrite (dispatch K_CPI_VAR b H), (from_binary_body K_CPI_VAR b B H). change (too_short K_CPI_VAR b) with false. cbv iota.
  change (after_filter K_CPI_VAR b) with (skipn 11 b). change (tag_class K_CPI_VAR) with C_CPI. change (lit "urn:epc:id:cpi:") with (scheme_prefix C_CPI).
  rewrite (cpi_var_body b cp t v B F). destruct (30 - length cp <? length t)%nat eqn:K; [|reflexivity]. cbn [bind]. symmetry. apply cpi_refused. apply Nat.ltb_lt in K.
  destruct F as (n & P & T & L & V). destruct (prefix_facts b n cp P) as (C & LC). destruct (closed_split b _ t B T) as (T6 & _).
  intros A. apply cpi_var_acc in A as (_ & A & _); [|exact C|exact T6|exact (proj1 (proj2 V))]. pose proof (length_escape6 t). lia.
Qed.

(** * ADI-var *)
Lemma cage_split b c : forallb is_bit b = true -> (50 <= length b)%nat -> cage_code_from b 14 c -> firstn 36 (skipn 14 b) = cage6 c.
Proof.
  intros B L (CT & E). apply cage_text_iff in CT as [LC CC].
  assert (T6 : forallb six_char c = true) by (apply forallb_forall; intros x I; apply cage_six; rewrite forallb_forall in CC; now apply CC).
  assert (ST : forall i, (i + 6 * length c <= length b)%nat -> codes_at b i 6 (length c) = map code_six c -> skipn i b = text6 c ++ skipn (i + 6 * length c) b).
  { intros i Li Ei. now apply text_split. }
  unfold cage6. assert (X : (length c = 5 \/ length c = 6)%nat) by lia. destruct X as [X|X]; rewrite X in E |- *.
  - change (repeat 32 (6 - 5) ++ c) with (32 :: c) in E. rewrite codes_cons in E. cbn [map] in E. injection E as E1 E2. rewrite X in ST.
    pose proof (ST (14 + 6)%nat ltac:(lia) E2) as S. change (5 =? 5)%nat with true. cbv iota.
    rewrite (cut_at 14 6 b), (piece_is b 14 6 B) by lia. rewrite E1, S, app_assoc. apply firstn_exact. rewrite app_length, length_text6, X. reflexivity.
  - change (repeat 32 (6 - 6) ++ c) with c in E. rewrite X in ST. pose proof (ST 14%nat ltac:(lia) E) as S. change (6 =? 5)%nat with false. cbv iota. cbn [app].
    rewrite S. apply firstn_exact. rewrite length_text6. lia.
Qed.
Lemma decode_text t k : forallb six_char t = true -> decode_string_six_bits (text6 t) k = if (k <? length t)%nat then Raise ConvertException else Ok (escape6 t).
Proof. intros T. rewrite decode_six_bits by apply text6_bit. cbv zeta. rewrite six_stop_all by exact T. reflexivity. Qed.
Lemma decode_last w e k : forallb six_char w = true -> forallb is_bit e = true ->
  decode_string_six_bits (drop_last 6 (text6 w ++ lit "000000" ++ e)) k = if (k <? length w)%nat then Raise ConvertException else Ok (escape6 w).
Proof.
  intros W B. assert (X : forallb is_bit (text6 w ++ lit "000000" ++ e) = true) by (rewrite !forallb_app, text6_bit, B; reflexivity).
  unfold drop_last. rewrite decode_six_bits by now apply forallb_firstn. cbv zeta. rewrite !app_length, length_text6. change (length (lit "000000")) with 6%nat.
  assert (E : six_stop (map (sval 2) (chunks 6 (firstn (6 * length w + (6 + length e) - 6) (text6 w ++ lit "000000" ++ e)))) = w); [|rewrite E; reflexivity].
  rewrite firstn_app, firstn_all2, length_text6 by (rewrite length_text6; lia). rewrite stop_text by exact W.
  match goal with |- _ ++ ?x = _ => assert (Z : x = []) end; [|rewrite Z; apply app_nil_r].
  destruct (Nat.le_gt_cases 6 (length e)) as [LE|LE].
  - rewrite firstn_app, firstn_all2 by (cbn; lia). apply stop_zeros.
  - apply stop_short. rewrite firstn_length. lia.
Qed.
Lemma adi_var_body b c t w : forallb is_bit b = true -> adi_var_fields b c t w -> no_early_zeros (escape6 t) ->
  k_body K_ADI_VAR (skipn 14 b) =
  if (32 <? length t)%nat then Raise ConvertException else if (30 <? length w)%nat then Raise ConvertException else Ok (two c (two (escape6 t) (escape6 w))).
Proof.
  intros B (C & T & W) NZ. pose proof T as (LT & _). pose proof C as (CT & _). apply cage_text_iff in CT as [LC CC].
  destruct (closed_split b _ t B T) as (T6 & S). destruct (closed_split b _ w B W) as (W6 & S').
  set (e := skipn (50 + 6 * length t + 6 + 6 * length w + 6) b) in *. assert (BE : forallb is_bit e = true) by now apply skip_bits.
  cbn [k_body]. rewrite skipn_skipn'. change (14 + 36)%nat with 50%nat. rewrite S, rmatch_zeros by apply is_bit_dotc, text6_bit. cbn [negb raise_if bind].
  destruct (six_codes t T6) as [K1 K2]. unfold no_early_zeros in NZ. rewrite unescape6_escape6 in NZ by exact T6.
  pose proof (split_clean (map code_six t) (skipn (50 + 6 * length t + 6) b) [] K1 NZ) as SP. rewrite K2 in SP. unfold re_split_cap at 1. rewrite SP.
  cbn [rev app unpack2_rest bind]. unfold re_split_cap. rewrite concat_split. cbn [rev app]. rewrite skipn_O, S'.
  rewrite (cage_split b c B) by (auto; lia). rewrite decode_cage6_ok by assumption. unfold dotted2. cbn [bind]. rewrite decode_text by exact T6.
  destruct (32 <? length t)%nat; [reflexivity|]. cbn [bind]. rewrite decode_last by assumption. destruct (30 <? length w)%nat; reflexivity.
Qed.
Lemma adi_acc c t w : cage_text c -> forallb six_char t = true -> forallb six_char w = true ->
  accepted C_ADI (two c (two (escape6 t) (escape6 w))) <->
  ~ In 35 t /\ (length t <= 32)%nat /\ (length w <= 30)%nat /\ exists w', w' <> [] /\ ~ In 35 w' /\ (w = w' \/ w = 35 :: w').
Proof.
  intros C T W. unfold accepted. cbn [init_of].
  assert (CD : forall x, cage_text x -> ~ In c_dot x) by (intros x (_ & X) I; destruct (X _ I) as ([Y|Y] & _); unfold c_dot in Y; lia).
  split.
  - intros (e & E). apply lift_ok in E as (x & E & _). apply adi_iff in E as ((U & CX & (t' & T' & N & P & TL) & (q & q' & Q & N' & QN & QC & S & QL)) & _).
    apply six_bit_text_iff in T', Q. unfold two in U. apply app_inv_head in U. apply dot_unique in U as (_ & U); auto.
    rewrite P, S in U. apply dot_unique in U as (U1 & U2); [|now apply six_dot|now apply six_dot].
    apply escape6_inj in U1; auto. apply escape6_inj in U2; auto. subst t' q. split; [exact N|]. split; [exact TL|]. split; [exact QL|]. exists q'. auto.
  - intros (N & L & L' & w' & WN & N' & WC). exists (E_ADI (mkAdi (scheme_prefix C_ADI ++ two c (two (escape6 t) (escape6 w))) c (escape6 t) (escape6 w))). apply lift_ok. eexists. split; [|reflexivity].
    apply adi_iff. cbn [adi_cage adi_part adi_serial adi_epc_uri]. split; [|reflexivity]. split; [reflexivity|]. split; [exact C|]. split.
    + exists t. split; [now apply six_bit_text_iff|]. auto.
    + exists w, w'. split; [now apply six_bit_text_iff|]. auto 8.
Qed.
Lemma adi_refused s : ~ accepted C_ADI s -> init_of C_ADI (scheme_prefix C_ADI ++ s) = Raise ConvertException.
Proof.
  intros N. destruct (init_of C_ADI (scheme_prefix C_ADI ++ s)) as [e|x] eqn:E; [destruct N; now exists e|]. f_equal.
  exact (init_plain_class C_ADI _ ltac:(cbn; tauto) _ E).
Qed.
Theorem adi_var_reading b u : forallb is_bit b = true -> firstn 8 b = tag_header K_ADI_VAR -> adi_var_text b u -> binary_to_tag_encodable b = init_of C_ADI u.
Proof.
  intros B H (c & t & w & F & NZ & ->). rewrite (dispatch K_ADI_VAR b H), (from_binary_body K_ADI_VAR b B H). change (too_short K_ADI_VAR b) with false. cbv iota.
  change (after_filter K_ADI_VAR b) with (skipn 14 b). change (tag_class K_ADI_VAR) with C_ADI. change (lit "urn:epc:id:adi:") with (scheme_prefix C_ADI).
  rewrite (adi_var_body b c t w B F NZ). destruct F as ((CT & _) & T & W). destruct (closed_split b _ t B T) as (T6 & _). destruct (closed_split b _ w B W) as (W6 & _).
  destruct (32 <? length t)%nat eqn:K; [|destruct (30 <? length w)%nat eqn:K'; [|reflexivity]]; cbn [bind]; symmetry; apply adi_refused; intros A;
    apply adi_acc in A as (_ & A1 & A2 & _); auto; [apply Nat.ltb_lt in K|apply Nat.ltb_lt in K']; lia.
Qed.

(** * A tag stands for one URI *)
Lemma closed_stop b i t : forallb is_bit b = true -> closed_text b i t -> six_stop (map (sval 2) (chunks 6 (skipn i b))) = t.
Proof. intros B T. destruct (closed_split b i t B T) as (T6 & ->). rewrite stop_text, stop_zeros by exact T6. apply app_nil_r. Qed.
Lemma closed_once b i t t' : forallb is_bit b = true -> closed_text b i t -> closed_text b i t' -> t = t'.
Proof. intros B T T'. rewrite <- (closed_stop b i t B T). now apply closed_stop. Qed.
Lemma cpi_var_once b cp t v cp' t' v' : forallb is_bit b = true -> cpi_var_fields b cp t v -> cpi_var_fields b cp' t' v' -> cp = cp' /\ t = t' /\ v = v'.
Proof.
  intros B (n & (Hn & P & C) & T & _ & V) (n' & (Hn' & P' & C') & T' & _ & V'). rewrite P in P'. apply partition_value_inj in P'; auto. subst n'.
  apply padded_iff in C as [_ ->]; [|lia]. apply padded_iff in C' as [_ ->]; [|lia]. pose proof (closed_once b _ t t' B T T'). subst t'.
  apply plain_iff in V, V'. subst. auto.
Qed.
Lemma cage_once b c c' : forallb is_bit b = true -> (50 <= length b)%nat -> cage_code_from b 14 c -> cage_code_from b 14 c' -> c = c'.
Proof.
  intros B L C C'. pose proof (cage_split b c B L C) as E. rewrite (cage_split b c' B L C') in E. destruct C as (C & _). destruct C' as (C' & _).
  apply cage_text_iff in C as [LC C], C' as [LC' C']. apply (f_equal decode_cage_code_six_bits) in E. rewrite !decode_cage6_ok in E by assumption. now injection E.
Qed.
Lemma adi_var_once b c t w c' t' w' : forallb is_bit b = true -> adi_var_fields b c t w -> adi_var_fields b c' t' w' -> c = c' /\ t = t' /\ w = w'.
Proof.
  intros B (C & T & W) (C' & T' & W'). pose proof T as (L & _). rewrite (cage_once b c c' B ltac:(lia) C C'). pose proof (closed_once b _ t t' B T T'). subst t'.
  rewrite (closed_once b _ w w' B W W'). auto.
Qed.
Theorem var_once b u u' : var_tag b u -> var_tag b u' -> u = u'.
Proof.
  intros (Bs & V) (_ & V'). apply bitstring_iff in Bs. destruct V as [(H & cp & t & v & F & ->)|(H & c & t & w & F & _ & ->)];
    destruct V' as [(H' & cp' & t' & v' & F' & ->)|(H' & c' & t' & w' & F' & _ & ->)]; try (rewrite H in H'; discriminate H').
  - destruct (cpi_var_once b _ _ _ _ _ _ Bs F F') as (-> & -> & ->). reflexivity.
  - destruct (adi_var_once b _ _ _ _ _ _ Bs F F') as (-> & -> & ->). reflexivity.
Qed.
Theorem var_reading b u : var_tag b u -> exists c s, u = scheme_prefix c ++ s /\ binary_to_tag_encodable b = init_of c u.
Proof.
  intros (Bs & [(H & T)|(H & T)]); apply bitstring_iff in Bs.
  - exists C_CPI. pose proof T as (cp & t & v & _ & E). eexists. split; [exact E|now apply cpi_var_reading].
  - exists C_ADI. pose proof T as (c & t & w & _ & _ & E). eexists. split; [exact E|now apply adi_var_reading].
Qed.
Theorem var_readable b u : var_tag b u -> (exists e, binary_to_tag_encodable b = Ok e) <-> readable_var b.
Proof.
  intros (Bs & V). apply bitstring_iff in Bs. destruct V as [(H & T)|(H & T)].
  - rewrite (cpi_var_reading b u Bs H T). destruct T as (cp & t & v & F & ->). pose proof F as (n & P & T & _ & V).
    destruct (prefix_facts b n cp P) as (C & _). destruct (closed_split b _ t Bs T) as (T6 & _). change (lit "urn:epc:id:cpi:") with (scheme_prefix C_CPI).
    fold (accepted C_CPI (two cp (two (escape6 t) v))). rewrite cpi_var_acc by (assumption || exact (proj1 (proj2 V))). split.
    + intros R. split; [|intros H'; rewrite H in H'; discriminate H']. intros _ cp' t' v' F'. destruct (cpi_var_once b _ _ _ _ _ _ Bs F F') as (<- & <- & <-). exact R.
    + intros (R & _). exact (R H _ _ _ F).
  - rewrite (adi_var_reading b u Bs H T). destruct T as (c & t & w & F & NZ & ->). pose proof F as ((C & _) & T & W).
    destruct (closed_split b _ t Bs T) as (T6 & _). destruct (closed_split b _ w Bs W) as (W6 & _). change (lit "urn:epc:id:adi:") with (scheme_prefix C_ADI).
    fold (accepted C_ADI (two c (two (escape6 t) (escape6 w)))). rewrite adi_acc by assumption. split.
    + intros R. split; [intros H'; rewrite H in H'; discriminate H'|]. intros _ c' t' w' F'. destruct (adi_var_once b _ _ _ _ _ _ Bs F F') as (<- & <- & <-). exact R.
    + intros (_ & R). exact (R H _ _ _ F).
Qed.
