(** binary() and from_binary(): CPI, GIAI, GID, USDOD. *)
From Coq Require Import String.
From Verif.Model Require Import Py Re Regexes Common Base.
From Verif.Model Require Import Cpi Giai Gid Usdod Parsers.
From Verif.Spec Require Import Spec SpecEscapes SpecGrammar SpecSchemes SpecTags SpecLayout.
From Verif.Proofs Require Import Basics Num ReLemmas Uni Escapes Codecs Codecs2 CodecSpec Partition Grammar Ctor CtorA CtorB CtorC CtorAll TagUri TagUri2 TagFits Layout.


Lemma unpadded_written rows width tot C D : rows_std rows width tot = true -> (12 < tot)%nat ->
  company_prefix C -> numeral D -> decimal D < 2 ^ N.of_nat (width - prefix_bits (length C)) ->
  written (partition_fields width C D) (3 + width) (encode_partition_table C D (table_L rows) false false)
    (fun b => decode_partition_table b (table_P rows) true false false) (ascii_form C ++ [c_dot] ++ ascii_form D).
Proof.
  intros S T C0 D0 B. destruct (partition_range _ _ _ _ _ S C0 B) as [R1 R2].
  assert (J : intable D) by (eapply numeral_intable; [exact D0|exact B|]; apply std_small in S; lia). apply numeral_iff in D0.
  pose proof (numeral_no_lead0 _ D0) as Z. apply numeral_digits in D0 as [D1 D2]. apply digits_iff in D1.
  assert (E : D = [] <-> length C = tot) by (destruct C0; split; [congruence|lia]).
  unfold written. split; [exact R1|]. split; [exact R2|]. split.
  - eapply std_encode; eauto.
  - eapply (std_decode rows width tot C D true); eauto.
Qed.

(** text after the company prefix *)
Definition prefix_fields (C : str) : list field := [(3%nat, partition_value (length C)); (prefix_bits (length C), decimal C)].
Lemma prefix_range C : company_prefix C -> in_range (prefix_fields C) /\ total_bits (prefix_fields C) = (3 + prefix_bits (length C))%nat.
Proof.
  intros [D L]. split.
  - repeat constructor; cbn [fst snd]; [unfold partition_value; change (2 ^ N.of_nat 3) with 8; lia|now apply prefix_fits].
  - unfold prefix_fields, total_bits. cbn. lia.
Qed.
Definition rows_text (rows : list row) : bool :=
  rows_ok rows && forallb (fun r => (Z.to_N (rP r) =? partition_value (rL r)) && (rM r =? prefix_bits (rL r))%nat) rows.
Lemma text_row rows len : rows_text rows = true -> (6 <= len <= 12)%nat ->
  exists r, In r rows /\ lookup (Z.of_nat len) (table_L rows) = Some r /\ lookup (rP r) (table_P rows) = Some r /\ rL r = len /\
    row_fine r /\ Z.to_N (rP r) = partition_value len /\ rM r = prefix_bits len.
Proof.
  intros H L. apply andb_true_iff in H as [H1 H2]. destruct (lookup_L rows len H1 L) as (r & I & A & B & E & F).
  exists r. rewrite forallb_forall in H2. specialize (H2 r I). rewrite !andb_true_iff in H2.
  destruct H2 as [A1 A2]. apply N.eqb_eq in A1. apply Nat.eqb_eq in A2.
  rewrite E in A1, A2. repeat (split; [assumption|]). assumption.
Qed.
Lemma encode_head C D tbl r (sp six : bool) : company_prefix C -> lookup (Z.of_nat (length C)) tbl = Some r ->
  row_fine r -> Z.to_N (rP r) = partition_value (length C) -> rM r = prefix_bits (length C) -> rL r = length C ->
  (sp || six = true) ->
  encode_partition_table C D tbl sp six =
  let* d := (if sp then encode_string D (rN r) else encode_string_six_bits D) in Ok (tobits (prefix_fields C) ++ d).
Proof.
  intros [DC LC] Lk (F1 & F2 & F3 & F4 & F5) P M L Hs. unfold encode_partition_table. rewrite Lk. cbn [of_option bind].
  apply digits_iff in DC. pose proof (prefix_fits _ C LC eq_refl) as B. rewrite M.
  rewrite str_to_binary_digits; auto; [|destruct C; [cbn in LC; lia|discriminate]|apply (intable_le _ 12); lia|lia]. cbn [bind].
  unfold int_to_binary. replace (rP r) with (Z.of_N (partition_value (length C))) by lia.
  rewrite fmt_bin_bits; [|lia|unfold partition_value; change (2 ^ N.of_nat 3) with 8; lia].
  unfold prefix_fields, tobits. cbn [flat_map fst snd]. rewrite app_nil_r.
  destruct sp; [|destruct six; [|discriminate]].
  - destruct (encode_string D (rN r)); [|reflexivity]. cbn [bind]. now rewrite <- app_assoc.
  - destruct (encode_string_six_bits D); [|reflexivity]. cbn [bind]. now rewrite <- app_assoc.
Qed.
Lemma decode_head C rest rows r (sp six : bool) : company_prefix C -> lookup (rP r) (table_P rows) = Some r ->
  row_fine r -> Z.to_N (rP r) = partition_value (length C) -> rM r = prefix_bits (length C) -> rL r = length C ->
  (sp || six = true) ->
  decode_partition_table (tobits (prefix_fields C) ++ rest) (table_P rows) false sp six =
  let* d := (if sp then decode_string (firstn (rN r) rest) else decode_string_six_bits (firstn (rN r) rest) (rK r)) in
  Ok (ascii_form C ++ [c_dot] ++ d).
Proof.
  intros [DC LC] Lk (F1 & F2 & F3 & F4 & F5) P M L Hs. unfold decode_partition_table.
  pose proof (prefix_fits _ C LC eq_refl) as B. apply digits_iff in DC.
  assert (E : tobits (prefix_fields C) ++ rest = bits 3 (partition_value (length C)) ++ bits (rM r) (decimal C) ++ rest).
  { unfold prefix_fields, tobits. cbn [flat_map fst snd]. rewrite app_nil_r, M. now rewrite <- app_assoc. }
  rewrite E. rewrite firstn_exact by apply length_bits.
  rewrite bits_int; [|lia|unfold partition_value; change (2 ^ N.of_nat 3) with 8; lia]. cbn [bind].
  replace (Z.of_N (partition_value (length C))) with (rP r) by lia. rewrite Lk. cbn [of_option bind].
  rewrite (sl_mid (bits 3 _) (bits (rM r) (decimal C)) rest) by (rewrite ?length_bits; lia).
  rewrite bits_int; [|lia|now rewrite M]. cbn [bind].
  assert (E2 : sl (3 + rM r) (3 + rM r + rN r) (bits 3 (partition_value (length C)) ++ bits (rM r) (decimal C) ++ rest) = firstn (rN r) rest).
  { unfold sl. rewrite app_assoc. rewrite skipn_exact by (rewrite app_length, !length_bits; lia). f_equal. lia. }
  rewrite E2.
  assert (E3 : (Z.of_N (decimal C) <? 10 ^ Z.of_nat (rL r))%Z = true).
  { apply Z.ltb_lt. rewrite zpow10, L. pose proof (decimal_bound C). lia. }
  rewrite E3, dec_of_N. cbn [negb].
  assert (E4 : padl c_0 (rL r) (ndec (decimal C)) = ascii_form C).
  { rewrite <- (ascii_form_decimal _ DC). apply padl_ndec_sval; [now apply ascii_form_digit|now rewrite length_ascii|lia]. }
  rewrite E4. cbn [raise_if].
  destruct sp; [|destruct six; [|discriminate]].
  - destruct (decode_string _); [|reflexivity]. cbn [bind orb negb raise_if]. rewrite andb_false_r. cbn [bind]. now rewrite padl_ge by lia.
  - destruct (decode_string_six_bits _ _); [|reflexivity]. cbn [bind orb negb raise_if]. rewrite andb_false_r. cbn [bind]. now rewrite padl_ge by lia.
Qed.

(** * GIAI *)

Lemma giai_96_written C D : company_prefix C -> serial_fits D (giai_96_bits (length C)) ->
  written (partition_fields 82 C D) 85 (encode_partition_table C D giai_table_L_96 false false)
    (fun b => decode_partition_table b giai_table_P_96 true false false) (ascii_form C ++ [c_dot] ++ ascii_form D).
Proof.
  intros C0 [D0 B]. apply (unpadded_written giai_rows_96 82 25); auto; [lia|].
  destruct C0 as [_ L]. assert (E : (length C = 6 \/ length C = 7 \/ length C = 8 \/ length C = 9 \/ length C = 10 \/ length C = 11 \/ length C = 12)%nat) by lia.
  repeat destruct E as [E|E]; rewrite E in *; exact B.
Qed.
Lemma giai_202_written C D : company_prefix C -> component D -> canonical_text D -> (length C + length D <= 30)%nat ->
  written (prefix_fields C ++ text_fields (188 - prefix_bits (length C)) D) 191 (encode_partition_table C D giai_table_L_202 true false)
    (fun b => decode_partition_table b giai_table_P_202 false true false) (ascii_form C ++ [c_dot] ++ ascii_form D).
Proof.
  intros C0 D0 K L. destruct (prefix_range C C0) as [R1 R2]. pose proof C0 as [DC LC].
  assert (H : rows_text giai_rows_202 = true) by (vm_compute; reflexivity).
  destruct (text_row _ _ H LC) as (r & I & A1 & A2 & A3 & F & P & M).
  assert (W : rN r = (188 - prefix_bits (length C))%nat /\ (7 * length D <= rN r)%nat /\ (prefix_bits (length C) <= 40)%nat).
  { rewrite <- A3 in L |- *. cbn in I. repeat (destruct I as [<-|I]; [cbn [rN rL prefix_bits] in *; cbn [rL] in L; lia|]). destruct I. }
  destruct W as (W1 & W2 & W3).
  destruct (text_written D (rN r) D0 K) as (T1 & T2 & T3 & T4). { rewrite unescape_spec. pose proof (replace_length D). lia. }
  rewrite <- W1. unfold written. split; [apply in_range_app; auto|]. split; [rewrite total_app, R2, T2; lia|]. split.
  - rewrite (encode_head C D giai_table_L_202 r true false); auto. rewrite T3. cbn [bind]. now rewrite tobits_app.
  - rewrite tobits_app. change giai_table_P_202 with (table_P giai_rows_202). rewrite (decode_head C _ giai_rows_202 r true false); auto.
    rewrite firstn_all2 by (rewrite length_tobits, T2; lia). rewrite T4. reflexivity.
Qed.
Definition giai_size (s : giai_scheme) : nat := match s with GIAI_96 => 96 | GIAI_202 => 202 end.
Definition giai_core (x : giai) : str := lit "urn:epc:id:giai:" ++ giai_cp x ++ lit "." ++ giai_asset x.
Lemma giai_coded u x s f : giai_init u = Ok x ->
  coding_has_room (T_GIAI x s f) -> canonical_request (T_GIAI x s f) -> f < 8 ->
  coded (tag_layout (T_GIAI x s f)) (giai_size s) (giai_binary x s f) giai_from_binary giai_init (giai_core x).
Proof.
  intros I R K F. pose proof I as I0. apply giai_iff in I as ((ig & U & C & S & N & L & G) & _).
  destruct (filter_written f 3) as (F1 & F2 & F3 & F4); [lia|exact F|].
  assert (W : exists (p : list field) v, tag_layout (T_GIAI x s f) = (8%nat, v) :: [(3%nat, f)] ++ p ++ [] /\
     v < 2 ^ 8 /\ bits 8 v = giai_header s /\ assoc_str (bits 8 v) giai_header_to_schemes = Some s /\
     written p (giai_size s - 11) (match s with GIAI_96 => encode_partition_table (giai_cp x) (giai_asset x) giai_table_L_96 false false
                                              | GIAI_202 => encode_partition_table (giai_cp x) (giai_asset x) giai_table_L_202 true false end)
       (fun b => match s with GIAI_96 => decode_partition_table b giai_table_P_96 true false false
                            | GIAI_202 => decode_partition_table b giai_table_P_202 false true false end)
       (ascii_form (giai_cp x) ++ [c_dot] ++ ascii_form (giai_asset x))).
  { destruct s; [exists (partition_fields 82 (giai_cp x) (giai_asset x))|exists (prefix_fields (giai_cp x) ++ text_fields (188 - prefix_bits (length (giai_cp x))) (giai_asset x))];
    eexists; (split; [rewrite app_nil_r; reflexivity|]); (split; [reflexivity|]); (split; [reflexivity|]); (split; [reflexivity|]).
    - apply giai_96_written; [exact C|]. apply R.
    - apply giai_202_written; auto. }
  destruct W as (p & v & -> & V & H & A & (S1 & S2 & S3 & S4)).
  assert (T : total_bits ((8%nat, v) :: [(3%nat, f)] ++ p ++ []) = giai_size s).
  { rewrite total_cons, !total_app, F2, S2. destruct s; reflexivity. }
  split; [constructor; [exact V|]; rewrite !in_range_app; repeat split; auto; constructor|]. split; [exact T|]. split.
  - unfold giai_binary. rewrite F3. cbn [bind]. rewrite S3. cbn [bind]. rewrite (tobits_cons 8), !tobits_app, H. cbn [tobits flat_map]. now rewrite !app_nil_r.
  - intros extra. unfold giai_from_binary.
    rewrite (parse_tag giai_scheme_value giai_header_to_schemes v _ extra s (lit "giai") (match s with GIAI_96 => lit "96" | GIAI_202 => lit "202" end) (giai_size s)); auto;
      try (destruct s; reflexivity). 2:{ destruct s; cbn; lia. }
    cbn [bind]. destruct (slices3 v f p []) as [E1 _]. destruct (slices3 v f [] (p ++ [])) as [_ E2]. destruct (E2 11%nat eq_refl) as [_ E3].
    cbv zeta in E1. cbn [app] in E1, E3 |- *. rewrite E1, E3, F4, app_nil_r. cbn [bind]. rewrite S4. cbn [bind].
    rewrite dec_of_N. etransitivity.
    + apply (from_tag_gen giai_init C_GIAI (giai_scheme_value s) (ndec f)); [nomatch giai_init|destruct s; cbn; auto|discriminate|apply ndec_nc].
    + f_equal. unfold giai_core. rewrite !ascii_form_app, (ascii_lit "urn:epc:id:giai:"), (ascii_lit ".") by reflexivity. rewrite <- ?app_assoc. reflexivity.
Qed.

(** * Six-bit text *)

Lemma unescape6_plain c s : c <> 37 -> unescape6 (c :: s) = c :: unescape6 s.
Proof.
  intros H. cbn [unescape6]. destruct s as [|a [|b s]]; [reflexivity|reflexivity|].
  assert (E : forall l, str_eqb [c; a; b] (37 :: l) = false).
  { intros l. cbn. destruct (c =? 37) eqn:E; [apply N.eqb_eq in E; contradiction|reflexivity]. }
  change (lit "%23") with (37 :: lit "23"). change (lit "%2F") with (37 :: lit "2F"). now rewrite !E.
Qed.
Lemma unescape6_escape6 t : forallb six_char t = true -> unescape6 (escape6 t) = t.
Proof.
  induction t as [|c t IH]; [reflexivity|]. cbn [forallb]. intros H. apply andb_true_iff in H as [A B]. specialize (IH B).
  change (escape6 (c :: t)) with ((if c =? 35 then lit "%23" else if c =? 47 then lit "%2F" else [c]) ++ escape6 t).
  destruct (c =? 35) eqn:E1; [apply N.eqb_eq in E1 as ->; cbn - [escape6]; now rewrite IH|].
  destruct (c =? 47) eqn:E2; [apply N.eqb_eq in E2 as ->; cbn - [escape6]; now rewrite IH|].
  cbn [app]. rewrite unescape6_plain, IH; [reflexivity|]. intros ->. discriminate.
Qed.
Lemma six_fields_bits t : forallb six_char t = true ->
  in_range (six_fields (escape6 t)) /\ total_bits (six_fields (escape6 t)) = (6 * length t + 6)%nat /\
  tobits (six_fields (escape6 t)) = text6 t ++ lit "000000".
Proof.
  intros H. unfold six_fields. rewrite (unescape6_escape6 _ H).
  assert (A : in_range (map (fun c => (6%nat, code_six c)) t) /\ tobits (map (fun c => (6%nat, code_six c)) t) = text6 t).
  { induction t as [|c t IH]; [split; [constructor|reflexivity]|]. cbn [forallb] in H. apply andb_true_iff in H as [A B].
    destruct (IH B) as [I1 I2]. cbn [map]. split; [constructor; [|exact I1]|].
    - cbn [fst snd]. rewrite code_six_spec by exact A. now apply code6_spec.
    - rewrite tobits_cons, I2, code_six_spec by exact A. reflexivity. }
  destruct A as [A1 A2]. split; [|split].
  - apply in_range_app. split; [exact A1|]. repeat constructor.
  - rewrite <- length_tobits, tobits_app, A2, app_length, length_text6. reflexivity.
  - rewrite tobits_app, A2. reflexivity.
Qed.
Lemma six_ascii t : forallb six_char t = true -> ascii (escape6 t).
Proof.
  intros H c I. unfold escape6 in I. apply in_flat_map in I as (a & Ia & I). rewrite forallb_forall in H. specialize (H a Ia). apply six_char_lt in H.
  destruct (a =? 35); [cbn in I; repeat destruct I as [<-|I]; easy|]. destruct (a =? 47); [cbn in I; repeat destruct I as [<-|I]; easy|].
  destruct I as [<-|[]]. exact H.
Qed.
Lemma length_escape6 t : (length t <= length (escape6 t))%nat.
Proof.
  induction t as [|c t IH]; [cbn; lia|]. change (escape6 (c :: t)) with ((if c =? 35 then lit "%23" else if c =? 47 then lit "%2F" else [c]) ++ escape6 t).
  rewrite app_length. cbn [length]. destruct (c =? 35); [cbn; lia|]. destruct (c =? 47); cbn; lia.
Qed.

(** * CPI *)

Lemma concat_groups r : forallb is_bit r = true -> concat (re_split_cap (m_bits 6) r) = r.
Proof.
  unfold m_bits. revert r. apply (chunks_ind 6 (fun r => forallb is_bit r = true -> concat (re_split_cap (m_seq (repeat is_bit 6)) r) = r)); [lia| |].
  - intros s H _. rewrite split_short by lia. cbn. now rewrite app_nil_r.
  - intros a s L IH H. rewrite forallb_app in H. apply andb_true_iff in H as [A B].
    rewrite split_chunk by (auto; lia). cbn [concat app]. now rewrite IH.
Qed.
Lemma serial_loop_true l : cpi_serial_loop l true = concat l.
Proof. induction l as [|g l IH]; [reflexivity|]. cbn [cpi_serial_loop concat orb]. now rewrite IH. Qed.
Lemma bits6_nonzero c : six_char c = true -> str_eqb (bits 6 (code6 c)) (lit "000000") = false.
Proof.
  intros H. apply code6_spec in H as [H _].
  assert (B : forallb is_bit (bits 6 (code6 c)) = true) by apply bits_bit.
  destruct (six_group (bits 6 (code6 c)) (length_bits _ _) B) as [-> _]. apply N.eqb_neq. rewrite sval_bits by (change (2 ^ N.of_nat 6) with 64; lia). lia.
Qed.
Lemma cpi_serial_after t r : forallb six_char t = true -> forallb is_bit r = true ->
  cpi_serial_loop (re_split_cap (m_bits 6) (text6 t ++ lit "000000" ++ r)) false = r.
Proof.
  intros H R. induction t as [|c t IH].
  - unfold m_bits. change (text6 []) with (@nil N). cbn [app]. rewrite split_chunk by (auto; lia).
    cbn [cpi_serial_loop orb app str_eqb]. replace (str_eqb (lit "000000") (lit "000000")) with true by reflexivity.
    rewrite serial_loop_true. now apply concat_groups.
  - cbn [forallb] in H. apply andb_true_iff in H as [A B]. specialize (IH B).
    change (text6 (c :: t)) with (bits 6 (code6 c) ++ text6 t). rewrite <- app_assoc. unfold m_bits in *.
    rewrite split_chunk; [|lia|apply length_bits|apply bits_bit].
    cbn [cpi_serial_loop orb app]. rewrite (bits6_nonzero _ A). replace (str_eqb [] (lit "000000")) with false by reflexivity. cbn [orb]. exact IH.
Qed.
Lemma cpi_96_bound C D : company_prefix C -> (length C + length D <= 15)%nat ->
  decimal D < 2 ^ N.of_nat (51 - prefix_bits (length C)).
Proof.
  intros C0 L. eapply N.lt_le_trans; [apply decimal_bound|]. destruct C0 as [_ LC].
  transitivity (10 ^ N.of_nat (15 - length C)); [apply N.pow_le_mono_r; lia|].
  assert (E : (length C = 6 \/ length C = 7 \/ length C = 8 \/ length C = 9 \/ length C = 10 \/ length C = 11 \/ length C = 12)%nat) by lia.
  repeat destruct E as [E|E]; rewrite E; vm_compute; discriminate.
Qed.
Lemma cpi_96_coded_gen u x f : cpi_init u = Ok x -> numeral (cpi_ref x) ->
  decimal (cpi_ref x) < 2 ^ N.of_nat (51 - prefix_bits (length (cpi_cp x))) -> decimal (cpi_serial x) < 2 ^ 31 -> f < 8 ->
  coded (tag_layout (T_CPI x CPI_96 f)) 96 (cpi_binary x CPI_96 f) cpi_from_binary cpi_init u.
Proof.
  intros I R1 R2 R3 F. apply cpi_iff in I as ((U & C & _ & _ & S & _) & _).
  destruct (filter_written f 3) as (F1 & F2 & F3 & F4); [lia|exact F|].
  destruct (unpadded_written cpi_rows_96 51 15 (cpi_cp x) (cpi_ref x)) as (P1 & P2 & P3 & P4); auto.
  change (table_P cpi_rows_96) with cpi_table_P_96 in P4. change (table_L cpi_rows_96) with cpi_table_L_96 in P3.
  destruct (numeric_written (cpi_serial x) 31) as (S1 & S2 & S3 & S4); [lia|split; [exact S|exact R3]|].
  set (p := partition_fields 51 (cpi_cp x) (cpi_ref x)) in *. set (c := [(31%nat, decimal (cpi_serial x))]) in *.
  assert (E : tag_layout (T_CPI x CPI_96 f) = (8%nat, 0x3C) :: [(3%nat, f)] ++ p ++ c) by reflexivity. rewrite E.
  assert (T : total_bits ((8%nat, 0x3C) :: [(3%nat, f)] ++ p ++ c) = 96%nat).
  { rewrite total_cons, !total_app, F2, P2, S2. reflexivity. }
  split; [constructor; [reflexivity|]; rewrite !in_range_app; auto|]. split; [exact T|]. split.
  - unfold cpi_binary. rewrite F3. cbn [bind]. rewrite P3. cbn [bind]. rewrite S3. cbn [bind]. rewrite (tobits_cons 8), !tobits_app. reflexivity.
  - intros extra. unfold cpi_from_binary.
    rewrite (parse_tag cpi_scheme_value cpi_header_to_schemes 0x3C _ extra CPI_96 (lit "cpi") (lit "96") 96); auto; try lia.
    cbn [bind]. destruct (slices3 0x3C f p c) as [E1 E2]. destruct (E2 65%nat) as [E3 E4]; [rewrite P2; reflexivity|]. cbv zeta in *.
    rewrite E1, E3, E4, P4. cbn [bind]. rewrite F4. cbn [bind]. destruct (binary_to_int (tobits c)) as [i|]; [|discriminate S4]. cbn [bind] in S4 |- *.
    injection S4 as S4. rewrite S4, dec_of_N. etransitivity.
    + etransitivity; [|apply (from_tag_gen cpi_init C_CPI (lit "cpi-96") (ndec f) ((ascii_form (cpi_cp x) ++ [c_dot] ++ ascii_form (cpi_ref x)) ++ [c_dot] ++ ascii_form (cpi_serial x)));
        [nomatch cpi_init|cbn; auto|discriminate|apply ndec_nc]]. reflexivity.
    + f_equal. rewrite U, !ascii_form_app, (ascii_lit "urn:epc:id:cpi:"), (ascii_lit ".") by reflexivity. rewrite <- ?app_assoc. reflexivity.
Qed.
Lemma cpi_96_coded u x f : cpi_init u = Ok x -> coding_has_room (T_CPI x CPI_96 f) -> f < 8 ->
  coded (tag_layout (T_CPI x CPI_96 f)) 96 (cpi_binary x CPI_96 f) cpi_from_binary cpi_init u.
Proof.
  intros I (R1 & R2 & R3) F. apply cpi_96_coded_gen; auto. apply cpi_iff in I as ((_ & C & _) & _). now apply cpi_96_bound.
Qed.
Lemma cpi_var_coded u x f : cpi_init u = Ok x -> f < 8 ->
  let l := tag_layout (T_CPI x CPI_VAR f) in
  in_range l /\ cpi_binary x CPI_VAR f = Ok (tobits l) /\
  total_bits l = (60 + prefix_bits (length (cpi_cp x)) + 6 * length (unescape6 (cpi_ref x)))%nat /\
  forall extra, bitstring extra -> cpi_from_binary (tobits l ++ extra) = cpi_init (ascii_form u).
Proof.
  intros I F. apply cpi_iff in I as ((U & C & (t & TN & T & RF) & L & S & SL) & _). apply six_bit_text_iff in T.
  destruct (filter_written f 3) as (F1 & F2 & F3 & F4); [lia|exact F|].
  destruct (numeric_written (cpi_serial x) 40) as (S1 & S2 & S3 & S4); [lia|split; [exact S|]|].
  { eapply N.lt_le_trans; [apply decimal_bound|]. transitivity (10 ^ 12); [apply N.pow_le_mono_r; lia|vm_compute; discriminate]. }
  destruct (prefix_range _ C) as [R1 R2]. destruct (six_fields_bits t T) as (X1 & X2 & X3). rewrite <- RF in X1, X2, X3.
  pose proof C as [DC LC]. assert (H : rows_text cpi_rows_var = true) by (vm_compute; reflexivity).
  destruct (text_row _ _ H LC) as (r & Ir & A1 & A2 & A3 & Fi & P & M).
  pose proof (length_escape6 t) as LE. rewrite <- RF in LE.
  assert (W : rN r = (6 * rK r + 6)%nat /\ (length t <= rK r)%nat).
  { rewrite <- A3 in L. cbn in Ir. repeat (destruct Ir as [<-|Ir]; [cbn [rN rK rL] in *; lia|]). destruct Ir. }
  destruct W as (W1 & W2). rewrite RF. rewrite (unescape6_escape6 t T).
  set (c := [(40%nat, decimal (cpi_serial x))]) in *. set (sx := six_fields (cpi_ref x)) in *. set (p := prefix_fields (cpi_cp x)) in *.
  assert (E : tag_layout (T_CPI x CPI_VAR f) = (8%nat, 0x3D) :: [(3%nat, f)] ++ p ++ sx ++ c) by reflexivity. cbv zeta. rewrite E.
  split; [constructor; [reflexivity|]; rewrite !in_range_app; auto|]. split; [|split].
  - unfold cpi_binary. rewrite F3. cbn [bind]. rewrite (encode_head _ _ cpi_table_L_var r false true); auto.
    rewrite RF, escape6_eq, encode_six_escape by exact T. rewrite <- X3. cbn [bind]. rewrite S3. cbn [bind].
    rewrite (tobits_cons 8), !tobits_app. fold p. rewrite <- ?app_assoc. reflexivity.
  - rewrite total_cons, !total_app, F2, R2, X2, S2. lia.
  - intros extra B. apply bitstring_iff in B. unfold cpi_from_binary. rewrite header_cons.
    rewrite (parse_var cpi_scheme_value cpi_header_to_schemes (bits 8 0x3D) _ CPI_VAR (lit "cpi") (lit "var")) by reflexivity.
    cbn [bind]. rewrite !tobits_app, <- !app_assoc, X3, <- !app_assoc.
    set (rest := tobits c ++ extra). set (h := bits 8 0x3D). assert (Lh : length h = 8%nat) by reflexivity.
    assert (Lf : length (tobits [(3%nat, f)]) = 3%nat) by now rewrite length_tobits.
    rewrite (sl_mid h (tobits [(3%nat, f)])) by (auto; lia).
    assert (E11 : skipn 11 (h ++ tobits [(3%nat, f)] ++ tobits p ++ text6 t ++ lit "000000" ++ rest) = tobits p ++ text6 t ++ lit "000000" ++ rest).
    { rewrite app_assoc. apply skipn_exact. rewrite app_length. lia. }
    rewrite E11. change cpi_table_P_var with (table_P cpi_rows_var). unfold p at 1. rewrite (decode_head (cpi_cp x) _ cpi_rows_var r false true); auto.
    assert (E6 : firstn (rN r) (text6 t ++ lit "000000" ++ rest) = text6 t ++ lit "000000" ++ firstn (rN r - (6 * length t + 6)) rest).
    { rewrite !app_assoc, firstn_app, firstn_all2; [|rewrite app_length, length_text6; cbn; lia]. rewrite app_length, length_text6. reflexivity. }
    assert (BR : forallb is_bit rest = true) by (unfold rest; rewrite forallb_app, tobits_bit; exact B).
    rewrite E6, decode_encode_6bit; auto. 2:{ apply forallb_forall. intros y Iy. rewrite forallb_forall in BR. apply BR. rewrite <- (firstn_skipn (rN r - (6 * length t + 6)) rest). apply in_or_app. now left. }
    cbn [bind].
    assert (E3 : firstn 3 (tobits p ++ text6 t ++ lit "000000" ++ rest) = bits 3 (partition_value (length (cpi_cp x)))).
    { unfold p, prefix_fields. rewrite (tobits_cons 3), <- app_assoc. apply firstn_exact. reflexivity. }
    rewrite E3, bits_int; [|lia|unfold partition_value; change (2 ^ N.of_nat 3) with 8; lia]. cbn [bind].
    replace (Z.of_N (partition_value (length (cpi_cp x)))) with (rP r) by (destruct Fi as (? & _); lia). rewrite A2. cbn [of_option bind].
    assert (EM : skipn (11 + 3 + rM r) (h ++ tobits [(3%nat, f)] ++ tobits p ++ text6 t ++ lit "000000" ++ rest) = text6 t ++ lit "000000" ++ rest).
    { rewrite (app_assoc h), (app_assoc (h ++ _)). apply skipn_exact. rewrite !app_length, (length_tobits p), R2, M. lia. }
    rewrite EM, cpi_serial_after by auto.
    assert (LR : (0 <? length rest)%nat = true) by (apply Nat.ltb_lt; unfold rest; rewrite app_length, length_tobits, S2; lia).
    rewrite LR. unfold rest. rewrite (firstn_exact (tobits c)) by (rewrite length_tobits; exact S2).
    cbn [bind]. rewrite F4. cbn [bind]. destruct (binary_to_int (tobits c)) as [i|]; [|discriminate S4]. cbn [bind] in S4 |- *.
    injection S4 as S4. rewrite S4, dec_of_N. etransitivity.
    + etransitivity; [|apply (from_tag_gen cpi_init C_CPI (lit "cpi-var") (ndec f) ((ascii_form (cpi_cp x) ++ [c_dot] ++ cpi_escape t) ++ [c_dot] ++ ascii_form (cpi_serial x)));
        [nomatch cpi_init|cbn; auto|discriminate|apply ndec_nc]]. reflexivity.
    + f_equal. rewrite U, !ascii_form_app, (ascii_lit "urn:epc:id:cpi:"), (ascii_lit ".") by reflexivity.
      rewrite (ascii_form_id (cpi_ref x)) by (rewrite RF; now apply six_ascii). rewrite RF, <- escape6_eq, <- ?app_assoc. reflexivity.
Qed.

(** * GID, USDOD *)

Lemma ascii_no_colon s : forallb is_d s = true -> ~ In c_colon (ascii_form s).
Proof.
  intros H I. apply ascii_form_digit in H. rewrite forallb_forall in H. apply H in I. discriminate.
Qed.
Lemma gid_coded u x s : gid_init u = Ok x ->
  coded (tag_layout (T_GID x s)) 96 (gid_binary x s) gid_from_binary gid_init u.
Proof.
  intros I. destruct s. apply gid_iff in I as ((U & M & O & S & BM & BO & BS) & _).
  destruct (numeric_written (gid_manager x) 28) as (A1 & A2 & A3 & A4); [lia|split; assumption|].
  destruct (numeric_written (gid_object x) 24) as (B1 & B2 & B3 & B4); [lia|split; assumption|].
  destruct (numeric_written (gid_serial x) 36) as (C1 & C2 & C3 & C4); [lia|split; assumption|].
  set (a := [(28%nat, decimal (gid_manager x))] : list field) in *. set (b := [(24%nat, decimal (gid_object x))] : list field) in *.
  set (c := [(36%nat, decimal (gid_serial x))] : list field) in *.
  assert (E : tag_layout (T_GID x GID_96) = (8%nat, 0x35) :: a ++ b ++ c) by reflexivity. rewrite E.
  split; [constructor; [reflexivity|]; rewrite !in_range_app; auto|]. split; [reflexivity|]. split.
  - unfold gid_binary. rewrite A3, B3, C3. cbn [bind]. now rewrite (tobits_cons 8), !tobits_app.
  - intros extra. unfold gid_from_binary.
    rewrite (parse_tag gid_scheme_value gid_header_to_schemes 0x35 (a ++ b ++ c) extra GID_96 (lit "gid") (lit "96") 96); auto; try lia.
    cbn [bind].
    assert (E1 : sl 8 36 (tobits ((8%nat, 53) :: a ++ b ++ c)) = tobits a) by (apply (slice_tag [(8%nat, 53)] a (b ++ c)); reflexivity).
    assert (E2 : sl 36 60 (tobits ((8%nat, 53) :: a ++ b ++ c)) = tobits b) by (apply (slice_tag ((8%nat, 53) :: a) b c); reflexivity).
    assert (E3 : skipn 60 (tobits ((8%nat, 53) :: a ++ b ++ c)) = tobits c).
    { rewrite (app_assoc a b). apply (skip_tag ((8%nat, 53) :: a ++ b) c). reflexivity. }
    rewrite E1, E2, E3.
    destruct (binary_to_int (tobits a)) as [i|]; [|discriminate A4]. destruct (binary_to_int (tobits b)) as [j|]; [|discriminate B4].
    destruct (binary_to_int (tobits c)) as [k|]; [|discriminate C4]. cbn [bind] in *. injection A4 as ->. injection B4 as ->. injection C4 as ->.
    etransitivity.
    + apply from_tag_gid. apply numeral_iff, numeral_digits in M as [M _]. apply numeral_iff, numeral_digits in O as [O _]. apply numeral_iff, numeral_digits in S as [S _].
      apply ascii_no_colon in M, O, S. rewrite !in_app_iff. cbn [In]. intros [H|[[H|[]]|[H|[[H|[]]|H]]]]; try contradiction; discriminate H.
    + f_equal. rewrite U, !ascii_form_app, (ascii_lit "urn:epc:id:gid:"), (ascii_lit ".") by reflexivity. reflexivity.
Qed.

Lemma cage8_written s : cage_text s ->
  written (cage_fields 8 (fun c => c) s) 48 (Ok (encode_cage_code (padl c_space 6 s))) decode_cage_code s.
Proof.
  intros H. pose proof H as H0. apply cage_text_iff in H as [L H]. destruct (cage_roundtrip s H) as [E D].
  assert (A : tobits (cage_fields 8 (fun c => c) s) = text8 (padl c_space 6 s)).
  { unfold cage_fields, tobits, text8. rewrite flat_map_concat_map, map_map, <- flat_map_concat_map. reflexivity. }
  split; [|split; [|split]].
  - unfold cage_fields, in_range. apply Forall_map, Forall_forall. cbn [fst snd]. intros c I. change (2 ^ N.of_nat 8) with 256.
    apply in_app_iff in I as [I|I]; [apply repeat_spec in I; subst; lia|]. rewrite forallb_forall in H. apply H, cage_char_not_space in I. lia.
  - rewrite <- length_tobits, A, length_text8, length_padl. lia.
  - now rewrite E, A.
  - now rewrite A.
Qed.
Lemma cage_ascii s : cage_text s -> ascii s.
Proof. intros [_ H] c I. apply H in I. lia. Qed.
Lemma usdod_coded u x s f : usdod_init u = Ok x -> f < 16 ->
  coded (tag_layout (T_USDOD x s f)) 96 (usdod_binary x s f) usdod_from_binary usdod_init u.
Proof.
  intros I F. destruct s. apply usdod_iff in I as ((U & C & S & BS) & _).
  destruct (filter_written f 4) as (F1 & F2 & F3 & F4); [lia|exact F|].
  destruct (cage8_written _ C) as (B1 & B2 & B3 & B4).
  destruct (numeric_written (usdod_serial x) 36) as (C1 & C2 & C3 & C4); [lia|split; assumption|].
  set (a := [(4%nat, f)] : list field) in *. set (b := cage_fields 8 (fun c => c) (usdod_cage x)) in *.
  set (c := [(36%nat, decimal (usdod_serial x))] : list field) in *.
  assert (E : tag_layout (T_USDOD x USDOD_96 f) = (8%nat, 0x2F) :: a ++ b ++ c) by reflexivity. rewrite E.
  assert (T : total_bits ((8%nat, 0x2F) :: a ++ b ++ c) = 96%nat) by (rewrite total_cons, !total_app, F2, B2, C2; reflexivity).
  split; [constructor; [reflexivity|]; rewrite !in_range_app; auto|]. split; [exact T|]. split.
  - unfold usdod_binary. rewrite F3, C3. cbn [bind]. injection B3 as ->. now rewrite (tobits_cons 8), !tobits_app.
  - intros extra. unfold usdod_from_binary.
    rewrite (parse_tag usdod_scheme_value usdod_header_to_schemes 0x2F (a ++ b ++ c) extra USDOD_96 (lit "usdod") (lit "96") 96); auto; try lia.
    cbn [bind].
    assert (E1 : sl 8 12 (tobits ((8%nat, 47) :: a ++ b ++ c)) = tobits a) by (apply (slice_tag [(8%nat, 47)] a (b ++ c)); reflexivity).
    assert (E2 : sl 12 60 (tobits ((8%nat, 47) :: a ++ b ++ c)) = tobits b) by (apply (slice_tag ((8%nat, 47) :: a) b c); [reflexivity|rewrite B2; reflexivity]).
    assert (E3 : skipn 60 (tobits ((8%nat, 47) :: a ++ b ++ c)) = tobits c).
    { rewrite (app_assoc a b). apply (skip_tag ((8%nat, 47) :: a ++ b) c). rewrite total_cons, total_app, F2, B2. reflexivity. }
    rewrite E1, E2, E3, F4, B4. cbn [bind].
    destruct (binary_to_int (tobits c)) as [k|]; [|discriminate C4]. cbn [bind] in *. injection C4 as ->. rewrite dec_of_N.
    etransitivity.
    + apply (from_tag_gen usdod_init C_USDOD (usdod_scheme_value USDOD_96) (ndec f)); [nomatch usdod_init|cbn; auto|discriminate|apply ndec_nc].
    + f_equal. rewrite U, !ascii_form_app, (ascii_lit "urn:epc:id:usdod:"), (ascii_lit ".") by reflexivity.
      rewrite (ascii_form_id (usdod_cage x)) by now apply cage_ascii. reflexivity.
Qed.
