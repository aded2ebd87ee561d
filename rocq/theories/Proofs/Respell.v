(** Serials with escapes spelled in any way, on the seven-bit codings. *)
From Coq Require Import String Lia.
From Verif.Model Require Import Py Re Regexes Common Base.
From Verif.Model Require Import Adi Cpi Gdti Giai Gid Grai Gsrn Gsrnp Itip Sgcn Sgln Sgtin Sscc Usdod Parsers.
From Verif.Spec Require Import Spec SpecEscapes SpecGrammar SpecSchemes SpecTags SpecLayout SpecCoding SpecRespell.
From Verif.Proofs Require Import Basics Num ReLemmas Uni Escapes Codecs Codecs2 CodecSpec Partition Verify Verify2 Grammar Ctor CtorA CtorB CtorC CtorAll TagUri TagUri2 TagFits Layout BinA BinB BinC BinD BinAll Elements ElementAccept DecodeA NonAscii.

(** * The codec *)

Lemma hex_value_lt c v : hex_value c v -> c < 128 /\ v < 16 /\ is_hex c = true /\ c <> 37.
Proof. unfold hex_value, is_hex, is_digit, inr. intros H. repeat split; try lia. Qed.

Definition hexv (c : N) : option N :=
  if (48 <=? c) && (c <=? 57) then Some (c - 48) else if (65 <=? c) && (c <=? 70) then Some (c - 55)
  else if (97 <=? c) && (c <=? 102) then Some (c - 87) else None.
Lemma hexv_iff c v : hex_value c v <-> hexv c = Some v.
Proof.
  unfold hex_value, hexv.
  destruct (N.leb_spec 48 c), (N.leb_spec c 57), (N.leb_spec 65 c), (N.leb_spec c 70), (N.leb_spec 97 c), (N.leb_spec c 102);
    cbn [andb]; (split; [intros H'; f_equal; lia|intros H'; try discriminate; injection H' as <-; lia]) || (split; [intros H'; lia|discriminate]).
Qed.
Lemma two_hex_all : forallb (fun h => forallb (fun l =>
    match hexv h, hexv l with
    | Some a, Some b => if 16 * a + b <? 128 then (if res_str_dec (enc7_piece [c_pct; h; l]) (Ok (bits 7 (16 * a + b))) then true else false) else true
    | _, _ => true end) (map N.of_nat (seq 0 128))) (map N.of_nat (seq 0 128)) = true.
Proof. vm_compute. reflexivity. Qed.
Lemma two_hex h l a b : hex_value h a -> hex_value l b -> 16 * a + b < 128 -> enc7_piece [c_pct; h; l] = Ok (bits 7 (16 * a + b)).
Proof.
  intros H L B. destruct (hex_value_lt _ _ H) as (X & _). destruct (hex_value_lt _ _ L) as (Y & _).
  pose proof (upto_forallb _ 128 two_hex_all h X) as G. cbv beta in G. pose proof (upto_forallb _ 128 G l Y) as G'. cbv beta in G'.
  apply hexv_iff in H, L. rewrite H, L in G'. destruct (N.ltb_spec (16 * a + b) 128); [|lia].
  destruct (res_str_dec _ _) as [E|E]; [exact E|discriminate].
Qed.

Lemma percent_pieces s t cur : percent_text s t -> forallb is_ascii t = true -> forallb is_ascii cur = true -> ~ In c_pct cur ->
  concat_map_res enc7_piece (split_aux true m_escape s cur 0) = Ok (text7 (rev cur) ++ text7 t).
Proof.
  intros P. revert cur. induction P as [|c s t N P IH|h l a b s t H L P IH]; intros cur Ht Hcur Hp.
  - cbn [split_aux concat_map_res].
    rewrite enc7_plain; [reflexivity|apply forallb_forall; intros x Hx; apply in_rev in Hx; eapply forallb_In; eauto|].
    intros Hx. apply in_rev in Hx. auto.
  - cbn [forallb] in Ht. apply andb_true_iff in Ht. destruct Ht as [Hc Ht]. cbn [split_aux].
    rewrite m_escape_miss by exact N. rewrite IH.
    + cbn [rev]. unfold text7. rewrite flat_map_app. cbn [flat_map]. rewrite <- app_assoc. cbn [app]. now rewrite app_nil_r.
    + exact Ht.
    + cbn [forallb]. now rewrite Hc.
    + intros [E|E]; [exact (N E)|auto].
  - cbn [forallb] in Ht. apply andb_true_iff in Ht. destruct Ht as [Hc Ht]. cbn [split_aux]. fold c_pct.
    destruct (hex_value_lt _ _ H) as (_ & _ & X & _). destruct (hex_value_lt _ _ L) as (_ & _ & Y & _).
    change 37 with c_pct. rewrite m_escape_hit by assumption. cbn [firstn].
    change (split_aux true m_escape (h :: l :: s) [] 2) with (split_aux true m_escape s [] 0). cbn [concat_map_res].
    rewrite enc7_plain; [|apply forallb_forall; intros x Hx; apply in_rev in Hx; eapply forallb_In; eauto|
      intros Hx; apply in_rev in Hx; auto].
    rewrite (two_hex _ _ _ _ H L) by (unfold is_ascii in Hc; lia). cbn [bind].
    rewrite (IH []); [|exact Ht|reflexivity|intros []]. cbn [bind rev]. unfold text7. cbn [flat_map app]. reflexivity.
Qed.
Theorem encode_percent s t n : percent_text s t -> ascii t -> encode_string s n = Ok (padr c_0 n (text7 t)).
Proof.
  intros P H. unfold encode_string, re_split_cap. fold enc7_piece. rewrite (percent_pieces _ _ _ P); [reflexivity| |reflexivity|intros []].
  now apply ascii_iff.
Qed.

Lemma seven_ascii t : seven_bit_text t -> ascii t /\ ~ In 0 t.
Proof. intros H. split; [intros c I; apply H in I; lia|intros I; apply H in I; lia]. Qed.

Lemma escape_text_tail w t : text_fields w (escape t) = text_tail w t.
Proof. unfold text_fields. rewrite unescape_escape. reflexivity. Qed.
Lemma tail_range w t : ascii t -> (7 * length t <= w)%nat -> in_range (text_tail w t) /\ total_bits (text_tail w t) = w.
Proof.
  intros A' L. unfold text_tail. split.
  - apply in_range_app. split.
    + apply Forall_map. apply Forall_forall. intros c I. cbn [fst snd]. now apply A'.
    + repeat constructor. cbn [fst snd]. apply N.neq_0_lt_0, N.pow_nonzero. discriminate.
  - unfold total_bits. rewrite map_app, list_sum_app, map_map. cbn [map list_sum fold_right fst].
    assert (X : forall l : str, list_sum (map (fun _ => 7%nat) l) = (7 * length l)%nat)
      by (induction l as [|c l IH]; cbn [map length list_sum fold_right] in *; unfold list_sum in *; lia).
    rewrite X. lia.
Qed.
Lemma percent_written s t w : percent_text s t -> seven_bit_text t -> (7 * length t <= w)%nat ->
  written (text_tail w t) w (encode_string s w) decode_string (escape t).
Proof.
  intros P S L. destruct (seven_ascii _ S) as [A Z]. destruct (tail_range w t A L) as [T1 T2].
  assert (E : tobits (text_tail w t) = padr c_0 w (text7 t)) by (rewrite <- escape_text_tail, text_bits, unescape_escape; reflexivity).
  unfold written. repeat split; [exact T1|exact T2| |]; rewrite E; [now apply encode_percent|now apply decode_encode_7bit].
Qed.

(** the text is no longer than the serial, counted the way the constructors count *)
Lemma unescape_plain c s : c <> 37 -> unescape (c :: s) = c :: unescape s.
Proof. intros H. rewrite !unescape_unesc. apply unesc_nonpct. exact H. Qed.
Lemma percent_length s t : percent_text s t -> (length t <= length (unescape s))%nat.
Proof.
  induction 1 as [|c s t N P IH|h l a b s t H L P IH]; [reflexivity|rewrite unescape_plain by exact N; cbn [length]; lia|].
  rewrite unescape_step. destruct (find _ _); [cbn [length]; lia|].
  rewrite unescape_plain by (apply hex_value_lt in H; tauto). rewrite unescape_plain by (apply hex_value_lt in L; tauto). cbn [length]. lia.
Qed.
Lemma percent_nonempty s t : percent_text s t -> s <> [] -> t <> [].
Proof. destruct 1; congruence. Qed.

(** * The six codings *)

Lemma percent_sgtin u x f t : sgtin_init u = Ok x -> percent_text (sgtin_serial x) t -> seven_bit_text t -> f < 8 ->
  coded (text_layout (T_SGTIN x SGTIN_198 f) t) 198 (sgtin_binary x SGTIN_198 f) sgtin_from_binary
    (fun _ => sgtin_init (ascii_form (text_uri (T_SGTIN x SGTIN_198 f) []) ++ escape t)) [].
Proof.
  intros I P7 S7 F. apply sgtin_iff in I as ((U & C & D & L & S & B) & _).
  destruct (filter_written f 3) as (F1 & F2 & F3 & F4); [lia|exact F|].
  destruct (partition_written sgtin_rows 44 13 (sgtin_cp x) (sgtin_item x)) as (P1 & P2 & P3 & P4); [vm_compute; reflexivity|vm_compute; reflexivity|auto..|].
  change (table_L sgtin_rows) with sgtin_table_L in P3. change (table_P sgtin_rows) with sgtin_table_P in P4.
  destruct (percent_written _ _ 140 P7 S7) as (S1 & S2 & S3 & S4). { pose proof (percent_length _ _ P7). lia. }
  set (l := text_tail 140 t) in *.
  assert (W : exists v, text_layout (T_SGTIN x SGTIN_198 f) t = (8%nat, v) :: [(3%nat, f)] ++ partition_fields 44 (sgtin_cp x) (sgtin_item x) ++ l /\
     v < 2 ^ 8 /\ bits 8 v = sgtin_header SGTIN_198 /\ assoc_str (bits 8 v) sgtin_header_to_schemes = Some SGTIN_198).
  { eexists _; (split; [reflexivity|]); (split; [reflexivity|]); (split; [reflexivity|]); reflexivity. }
  clearbody l. destruct W as (v & -> & V & H & A).
  assert (T : total_bits ((8%nat, v) :: [(3%nat, f)] ++ partition_fields 44 (sgtin_cp x) (sgtin_item x) ++ l) = 198%nat).
  { rewrite total_cons, !total_app, F2, P2, S2. reflexivity. }
  split; [constructor; [exact V|]; rewrite !in_range_app; auto|]. split; [exact T|]. split.
  - unfold sgtin_binary. rewrite F3, P3. cbn [bind]. rewrite S3. cbn [bind]. rewrite (tobits_cons 8), !tobits_app, H. reflexivity.
  - intros extra. unfold sgtin_from_binary.
    rewrite (parse_tag sgtin_scheme_value sgtin_header_to_schemes v _ extra SGTIN_198 (lit "sgtin") (lit "198") 198); auto; [|lia].
    cbn [bind]. destruct (slices3 v f (partition_fields 44 (sgtin_cp x) (sgtin_item x)) l) as [E1 E2].
    rewrite E1. destruct (E2 58%nat) as [E3 E4]; [now rewrite P2|]. rewrite E3, E4, F4, P4. cbn [bind]. rewrite S4. cbn [bind].
    rewrite dec_of_N. etransitivity.
    + apply (from_tag_gen sgtin_init C_SGTIN (sgtin_scheme_value SGTIN_198) (ndec f)); [nomatch sgtin_init|cbn; auto|discriminate|apply ndec_nc].
    + f_equal. cbn [text_uri]. rewrite !ascii_form_app, (ascii_lit "urn:epc:id:sgtin:"), (ascii_lit ".") by reflexivity. rewrite <- !app_assoc. reflexivity.
Qed.

Lemma percent_sgln u x f t : sgln_init u = Ok x -> percent_text (sgln_serial x) t -> seven_bit_text t -> f < 8 ->
  coded (text_layout (T_SGLN x SGLN_195 f) t) 195 (sgln_binary x SGLN_195 f) sgln_from_binary
    (fun _ => sgln_init (ascii_form (text_uri (T_SGLN x SGLN_195 f) []) ++ escape t)) [].
Proof.
  intros I P7 S7 F. apply sgln_iff in I as ((U & C & D & L & S & B) & _).
  destruct (filter_written f 3) as (F1 & F2 & F3 & F4); [lia|exact F|].
  destruct (partition_written sgln_rows 41 12 (sgln_cp x) (sgln_loc x)) as (P1 & P2 & P3 & P4); [vm_compute; reflexivity|vm_compute; reflexivity|auto..|].
  change (table_L sgln_rows) with sgln_table_L in P3. change (table_P sgln_rows) with sgln_table_P in P4.
  destruct (percent_written _ _ 140 P7 S7) as (S1 & S2 & S3 & S4). { pose proof (percent_length _ _ P7). lia. }
  set (l := text_tail 140 t) in *.
  assert (W : exists v, text_layout (T_SGLN x SGLN_195 f) t = (8%nat, v) :: [(3%nat, f)] ++ partition_fields 41 (sgln_cp x) (sgln_loc x) ++ l /\
     v < 2 ^ 8 /\ bits 8 v = sgln_header SGLN_195 /\ assoc_str (bits 8 v) sgln_header_to_schemes = Some SGLN_195).
  { eexists _; (split; [reflexivity|]); (split; [reflexivity|]); (split; [reflexivity|]); reflexivity. }
  clearbody l. destruct W as (v & -> & V & H & A).
  assert (T : total_bits ((8%nat, v) :: [(3%nat, f)] ++ partition_fields 41 (sgln_cp x) (sgln_loc x) ++ l) = 195%nat).
  { rewrite total_cons, !total_app, F2, P2, S2. reflexivity. }
  split; [constructor; [exact V|]; rewrite !in_range_app; auto|]. split; [exact T|]. split.
  - unfold sgln_binary. rewrite F3, P3. cbn [bind]. rewrite S3. cbn [bind]. rewrite (tobits_cons 8), !tobits_app, H. reflexivity.
  - intros extra. unfold sgln_from_binary.
    rewrite (parse_tag sgln_scheme_value sgln_header_to_schemes v _ extra SGLN_195 (lit "sgln") (lit "195") 195); auto; [|lia].
    cbn [bind]. destruct (slices3 v f (partition_fields 41 (sgln_cp x) (sgln_loc x)) l) as [E1 E2].
    rewrite E1. destruct (E2 55%nat) as [E3 E4]; [now rewrite P2|]. rewrite E3, E4, F4, P4. cbn [bind]. rewrite S4. cbn [bind].
    rewrite dec_of_N. etransitivity.
    + apply (from_tag_gen sgln_init C_SGLN (sgln_scheme_value SGLN_195) (ndec f)); [nomatch sgln_init|cbn; auto|discriminate|apply ndec_nc].
    + f_equal. cbn [text_uri]. rewrite !ascii_form_app, (ascii_lit "urn:epc:id:sgln:"), (ascii_lit ".") by reflexivity. rewrite <- !app_assoc. reflexivity.
Qed.

Lemma percent_grai u x f t : grai_init u = Ok x -> percent_text (grai_serial x) t -> seven_bit_text t -> f < 8 ->
  coded (text_layout (T_GRAI x GRAI_170 f) t) 170 (grai_binary x GRAI_170 f) grai_from_binary
    (fun _ => grai_init (ascii_form (text_uri (T_GRAI x GRAI_170 f) []) ++ escape t)) [].
Proof.
  intros I P7 S7 F. apply grai_iff in I as ((U & C & D & L & S & B) & _).
  destruct (filter_written f 3) as (F1 & F2 & F3 & F4); [lia|exact F|].
  destruct (partition_written grai_rows 44 12 (grai_cp x) (grai_asset x)) as (P1 & P2 & P3 & P4); [vm_compute; reflexivity|vm_compute; reflexivity|auto..|].
  change (table_L grai_rows) with grai_table_L in P3. change (table_P grai_rows) with grai_table_P in P4.
  destruct (percent_written _ _ 112 P7 S7) as (S1 & S2 & S3 & S4). { pose proof (percent_length _ _ P7). rewrite unescape_spec in *. pose proof (replace_length (grai_serial x)). lia. }
  set (l := text_tail 112 t) in *.
  assert (W : exists v, text_layout (T_GRAI x GRAI_170 f) t = (8%nat, v) :: [(3%nat, f)] ++ partition_fields 44 (grai_cp x) (grai_asset x) ++ l /\
     v < 2 ^ 8 /\ bits 8 v = grai_header GRAI_170 /\ assoc_str (bits 8 v) grai_header_to_schemes = Some GRAI_170).
  { eexists _; (split; [reflexivity|]); (split; [reflexivity|]); (split; [reflexivity|]); reflexivity. }
  clearbody l. destruct W as (v & -> & V & H & A).
  assert (T : total_bits ((8%nat, v) :: [(3%nat, f)] ++ partition_fields 44 (grai_cp x) (grai_asset x) ++ l) = 170%nat).
  { rewrite total_cons, !total_app, F2, P2, S2. reflexivity. }
  split; [constructor; [exact V|]; rewrite !in_range_app; auto|]. split; [exact T|]. split.
  - unfold grai_binary. rewrite F3, P3. cbn [bind]. rewrite S3. cbn [bind]. rewrite (tobits_cons 8), !tobits_app, H. reflexivity.
  - intros extra. unfold grai_from_binary.
    rewrite (parse_tag grai_scheme_value grai_header_to_schemes v _ extra GRAI_170 (lit "grai") (lit "170") 170); auto; [|lia].
    cbn [bind]. destruct (slices3 v f (partition_fields 44 (grai_cp x) (grai_asset x)) l) as [E1 E2].
    rewrite E1. destruct (E2 58%nat) as [E3 E4]; [now rewrite P2|]. rewrite E3, E4, F4, P4. cbn [bind]. rewrite S4. cbn [bind].
    rewrite dec_of_N. etransitivity.
    + apply (from_tag_gen grai_init C_GRAI (grai_scheme_value GRAI_170) (ndec f)); [nomatch grai_init|cbn; auto|discriminate|apply ndec_nc].
    + f_equal. cbn [text_uri]. rewrite !ascii_form_app, (ascii_lit "urn:epc:id:grai:"), (ascii_lit ".") by reflexivity. rewrite <- !app_assoc. reflexivity.
Qed.

Lemma percent_gdti u x f t : gdti_init u = Ok x -> percent_text (gdti_serial x) t -> seven_bit_text t -> f < 8 ->
  coded (text_layout (T_GDTI x GDTI_174 f) t) 174 (gdti_binary x GDTI_174 f) gdti_from_binary
    (fun _ => gdti_init (ascii_form (text_uri (T_GDTI x GDTI_174 f) []) ++ escape t)) [].
Proof.
  intros I P7 S7 F. apply gdti_iff in I as ((U & C & D & L & S & B) & _).
  destruct (filter_written f 3) as (F1 & F2 & F3 & F4); [lia|exact F|].
  destruct (partition_written gdti_rows 41 12 (gdti_cp x) (gdti_doc x)) as (P1 & P2 & P3 & P4); [vm_compute; reflexivity|vm_compute; reflexivity|auto..|].
  change (table_L gdti_rows) with gdti_table_L in P3. change (table_P gdti_rows) with gdti_table_P in P4.
  destruct (percent_written _ _ 119 P7 S7) as (S1 & S2 & S3 & S4). { pose proof (percent_length _ _ P7). rewrite unescape_spec in *. pose proof (replace_length (gdti_serial x)). lia. }
  set (l := text_tail 119 t) in *.
  assert (W : exists v, text_layout (T_GDTI x GDTI_174 f) t = (8%nat, v) :: [(3%nat, f)] ++ partition_fields 41 (gdti_cp x) (gdti_doc x) ++ l /\
     v < 2 ^ 8 /\ bits 8 v = gdti_header GDTI_174 /\ assoc_str (bits 8 v) gdti_header_to_schemes = Some GDTI_174).
  { eexists _; (split; [reflexivity|]); (split; [reflexivity|]); (split; [reflexivity|]); reflexivity. }
  clearbody l. destruct W as (v & -> & V & H & A).
  assert (T : total_bits ((8%nat, v) :: [(3%nat, f)] ++ partition_fields 41 (gdti_cp x) (gdti_doc x) ++ l) = 174%nat).
  { rewrite total_cons, !total_app, F2, P2, S2. reflexivity. }
  split; [constructor; [exact V|]; rewrite !in_range_app; auto|]. split; [exact T|]. split.
  - unfold gdti_binary. rewrite F3, P3. cbn [bind]. rewrite S3. cbn [bind]. rewrite (tobits_cons 8), !tobits_app, H. reflexivity.
  - intros extra. unfold gdti_from_binary.
    rewrite (parse_tag gdti_scheme_value gdti_header_to_schemes v _ extra GDTI_174 (lit "gdti") (lit "174") 174); auto; [|lia].
    cbn [bind]. destruct (slices3 v f (partition_fields 41 (gdti_cp x) (gdti_doc x)) l) as [E1 E2].
    rewrite E1. destruct (E2 55%nat) as [E3 E4]; [now rewrite P2|]. rewrite E3, E4, F4, P4. cbn [bind]. rewrite S4. cbn [bind].
    rewrite dec_of_N. etransitivity.
    + apply (from_tag_gen gdti_init C_GDTI (gdti_scheme_value GDTI_174) (ndec f)); [nomatch gdti_init|cbn; auto|discriminate|apply ndec_nc].
    + f_equal. cbn [text_uri]. rewrite !ascii_form_app, (ascii_lit "urn:epc:id:gdti:"), (ascii_lit ".") by reflexivity. rewrite <- !app_assoc. reflexivity.
Qed.

Lemma percent_itip u x f t : itip_init u = Ok x -> percent_text (itip_serial x) t -> seven_bit_text t -> pieces_fit (T_ITIP x ITIP_212 f) -> f < 8 ->
  coded (text_layout (T_ITIP x ITIP_212 f) t) 212 (itip_binary x ITIP_212 f) itip_from_binary
    (fun _ => itip_init (ascii_form (text_uri (T_ITIP x ITIP_212 f) []) ++ escape t)) [].
Proof.
  intros I P7 S7 (Q1 & Q2 & Q3 & Q4) F. apply itip_iff in I as ((U & C & D & DP & DT & _ & _ & _ & L & S & B) & _).
  destruct (filter_written f 3) as (F1 & F2 & F3 & F4); [lia|exact F|].
  destruct (partition_written itip_rows 44 13 (itip_cp x) (itip_item x)) as (P1 & P2 & P3 & P4); [vm_compute; reflexivity|vm_compute; reflexivity|auto..|].
  { lia. }
  change (table_L itip_rows) with itip_table_L in P3. change (table_P itip_rows) with itip_table_P in P4.
  destruct (fixed_written _ DP Q1 Q3) as (A1 & A2 & A3 & A4). destruct (fixed_written _ DT Q2 Q4) as (B1 & B2 & B3 & B4).
  set (l1 := [(7%nat, decimal (itip_piece x))]) in *. set (l2 := [(7%nat, decimal (itip_total x))]) in *.
  destruct (percent_written _ _ 140 P7 S7) as (S1 & S2 & S3 & S4). { pose proof (percent_length _ _ P7). lia. }
  set (l := text_tail 140 t) in *.
  assert (W : exists v, text_layout (T_ITIP x ITIP_212 f) t = (8%nat, v) :: [(3%nat, f)] ++ partition_fields 44 (itip_cp x) (itip_item x) ++ (l1 ++ l2 ++ l) /\
     v < 2 ^ 8 /\ bits 8 v = itip_header ITIP_212 /\ assoc_str (bits 8 v) itip_header_to_schemes = Some ITIP_212).
  { eexists _; (split; [reflexivity|]); (split; [reflexivity|]); (split; [reflexivity|]); reflexivity. }
  destruct W as (v & -> & V & H & A). clearbody l l1 l2.
  assert (T : total_bits ((8%nat, v) :: [(3%nat, f)] ++ partition_fields 44 (itip_cp x) (itip_item x) ++ (l1 ++ l2 ++ l)) = 212%nat).
  { rewrite total_cons, !total_app, F2, P2, A2, B2, S2. reflexivity. }
  split; [constructor; [exact V|]; rewrite !in_range_app; auto|]. split; [exact T|]. split.
  - unfold itip_binary. rewrite F3, P3, A3, B3. cbn [bind]. rewrite S3. cbn [bind]. rewrite (tobits_cons 8), !tobits_app, H. reflexivity.
  - intros extra. unfold itip_from_binary.
    rewrite (parse_tag itip_scheme_value itip_header_to_schemes v _ extra ITIP_212 (lit "itip") (lit "212") 212); auto; [|lia].
    cbn [bind]. set (p := partition_fields 44 (itip_cp x) (itip_item x)) in *.
    destruct (slices3 v f p (l1 ++ l2 ++ l)) as [E1 E2]. destruct (E2 58%nat) as [E3 _]; [now rewrite P2|].
    destruct (slices3 v f (p ++ l1 ++ l2) l) as [_ E5]. destruct (E5 72%nat) as [_ E6]; [rewrite !total_app; lia|].
    rewrite <- !app_assoc in E6.
    set (tt := tobits ((8%nat, v) :: [(3%nat, f)] ++ p ++ l1 ++ l2 ++ l)) in *.
    assert (E7 : sl 58 65 tt = tobits l1).
    { apply (slice_tag ((8%nat, v) :: [(3%nat, f)] ++ p) l1 (l2 ++ l) 58 65); rewrite total_cons, total_app, P2, F2, ?A2; reflexivity. }
    assert (E8 : sl 65 72 tt = tobits l2).
    { unfold tt. rewrite (app_assoc p). apply (slice_tag ((8%nat, v) :: [(3%nat, f)] ++ p ++ l1) l2 l 65 72); rewrite total_cons, !total_app, P2, F2, A2, ?B2; reflexivity. }
    rewrite E1, E3, E6, E7, E8. rewrite F4, P4, A4, B4. cbn [bind]. rewrite S4. cbn [bind].
    rewrite dec_of_N. etransitivity.
    + apply (from_tag_gen itip_init C_ITIP (itip_scheme_value ITIP_212) (ndec f)); [nomatch itip_init|cbn; auto|discriminate|apply ndec_nc].
    + f_equal. cbn [text_uri]. rewrite !ascii_form_app, (ascii_lit "urn:epc:id:itip:"), (ascii_lit ".") by reflexivity. rewrite <- ?app_assoc. reflexivity.
Qed.

Lemma percent_giai_field C D t : company_prefix C -> percent_text D t -> seven_bit_text t -> (length C + length t <= 30)%nat ->
  written (prefix_fields C ++ text_tail (188 - prefix_bits (length C)) t) 191 (encode_partition_table C D giai_table_L_202 true false)
    (fun b => decode_partition_table b giai_table_P_202 false true false) (ascii_form C ++ [c_dot] ++ escape t).
Proof.
  intros C0 D0 K L. destruct (prefix_range C C0) as [R1 R2]. pose proof C0 as [DC LC].
  assert (H : rows_text giai_rows_202 = true) by (vm_compute; reflexivity).
  destruct (text_row _ _ H LC) as (r & I & A1 & A2 & A3 & F & P & M).
  assert (W : rN r = (188 - prefix_bits (length C))%nat /\ (7 * length t <= rN r)%nat /\ (prefix_bits (length C) <= 40)%nat).
  { rewrite <- A3 in L |- *. cbn in I. repeat (destruct I as [<-|I]; [cbn [rN rL prefix_bits] in *; cbn [rL] in L; lia|]). destruct I. }
  destruct W as (W1 & W2 & W3).
  destruct (percent_written D t (rN r) D0 K) as (T1 & T2 & T3 & T4). { lia. }
  rewrite <- W1. unfold written. split; [apply in_range_app; auto|]. split; [rewrite total_app, R2, T2; lia|]. split.
  - rewrite (encode_head C D giai_table_L_202 r true false); auto. rewrite T3. cbn [bind]. now rewrite tobits_app.
  - rewrite tobits_app. change giai_table_P_202 with (table_P giai_rows_202). rewrite (decode_head C _ giai_rows_202 r true false); auto.
    rewrite firstn_all2 by (rewrite length_tobits, T2; lia). rewrite T4. reflexivity.
Qed.
Lemma percent_giai u x f t : giai_init u = Ok x -> percent_text (giai_asset x) t -> seven_bit_text t -> f < 8 ->
  coded (text_layout (T_GIAI x GIAI_202 f) t) 202 (giai_binary x GIAI_202 f) giai_from_binary
    (fun _ => giai_init (ascii_form (text_uri (T_GIAI x GIAI_202 f) []) ++ escape t)) [].
Proof.
  intros I P7 S7 F. apply giai_iff in I as ((ig & U & C & S & N & L & G) & _).
  destruct (filter_written f 3) as (F1 & F2 & F3 & F4); [lia|exact F|].
  destruct (percent_giai_field _ _ _ C P7 S7) as (S1 & S2 & S3 & S4).
  { pose proof (percent_length _ _ P7). rewrite unescape_spec in *. pose proof (replace_length (giai_asset x)). lia. }
  assert (W : exists v, text_layout (T_GIAI x GIAI_202 f) t = (8%nat, v) :: [(3%nat, f)] ++ (prefix_fields (giai_cp x) ++ text_tail (188 - prefix_bits (length (giai_cp x))) t) ++ [] /\
     v < 2 ^ 8 /\ bits 8 v = giai_header GIAI_202 /\ assoc_str (bits 8 v) giai_header_to_schemes = Some GIAI_202).
  { eexists _; (split; [rewrite app_nil_r; reflexivity|]); (split; [reflexivity|]); (split; [reflexivity|]); reflexivity. }
  set (p := prefix_fields (giai_cp x) ++ text_tail (188 - prefix_bits (length (giai_cp x))) t) in *. clearbody p.
  destruct W as (v & -> & V & H & A).
  assert (T : total_bits ((8%nat, v) :: [(3%nat, f)] ++ p ++ []) = 202%nat).
  { rewrite total_cons, !total_app, F2, S2. reflexivity. }
  split; [constructor; [exact V|]; rewrite !in_range_app; repeat split; auto; constructor|]. split; [exact T|]. split.
  - unfold giai_binary. rewrite F3. cbn [bind]. rewrite S3. cbn [bind]. rewrite (tobits_cons 8), !tobits_app, H. cbn [tobits flat_map]. now rewrite !app_nil_r.
  - intros extra. unfold giai_from_binary.
    rewrite (parse_tag giai_scheme_value giai_header_to_schemes v _ extra GIAI_202 (lit "giai") (lit "202") 202); auto; [|lia].
    cbn [bind]. destruct (slices3 v f p []) as [E1 _]. destruct (slices3 v f [] (p ++ [])) as [_ E2]. destruct (E2 11%nat eq_refl) as [_ E3].
    cbv zeta in E1. cbn [app] in E1, E3 |- *. rewrite E1, E3, F4, app_nil_r. cbn [bind]. rewrite S4. cbn [bind].
    rewrite dec_of_N. etransitivity.
    + apply (from_tag_gen giai_init C_GIAI (giai_scheme_value GIAI_202) (ndec f)); [nomatch giai_init|cbn; auto|discriminate|apply ndec_nc].
    + f_equal. cbn [text_uri]. rewrite !ascii_form_app, (ascii_lit "urn:epc:id:giai:"), (ascii_lit ".") by reflexivity. rewrite <- ?app_assoc. reflexivity.
Qed.

(** * Which texts can be read *)
Lemma plain_hex c : hex_digit c -> uri_plain c.
Proof. unfold hex_digit, uri_plain. intros H. lia. Qed.
Lemma escape_uri_text t : ai82_text t -> uri_text (escape t).
Proof.
  induction t as [|c t IH]; intros A; [constructor|]. unfold escape. cbn [flat_map]. fold (escape t).
  assert (IH' : uri_text (escape t)) by (apply IH; intros x X; apply A; now right). specialize (A c (or_introl eq_refl)). clear IH.
  destruct (reserved_dec c) as [R|R].
  - unfold reserved in R. cbn in R. repeat (destruct R as [<-|R]; [cbn [escape_char app]; apply (uri_text_pct 50); [unfold hex_digit; lia|] ||
      (cbn; apply (uri_text_pct 51); [unfold hex_digit; lia|]); apply uri_text_plain; [apply plain_hex; unfold hex_digit; cbn; lia|exact IH']|]). destruct R.
  - rewrite escape_char_other by exact R. cbn [app]. apply uri_text_plain; [|exact IH'].
    assert (Q : forallb (fun c => existsb (N.eqb c) [34; 37; 38; 47; 60; 62; 63] || ((48 <=? c) && (c <=? 57) || (65 <=? c) && (c <=? 90) || (97 <=? c) && (c <=? 122) || existsb (N.eqb c) (lit "!'()*+,-.:;=_"))) ai82 = true) by (vm_compute; reflexivity).
    pose proof (forallb_In _ _ _ Q A) as X. cbv beta in X. unfold uri_plain.
    assert (NR : existsb (N.eqb c) [34; 37; 38; 47; 60; 62; 63] = false).
    { apply not_true_iff_false. rewrite existsb_exists. intros (y & Y & E). apply N.eqb_eq in E. subst. apply R. exact Y. }
    rewrite NR in X. cbn [orb] in X. rewrite !orb_true_iff, !andb_true_iff, !N.leb_le, existsb_exists in X.
    destruct X as [[[X|X]|X]|(y & Y & E)]; [lia..|]. apply N.eqb_eq in E. subst. auto.
Qed.
Lemma escape_component t : t <> [] -> (component (escape t) <-> readable_text t).
Proof.
  intros N. split.
  - intros C. destruct (comp_ai82 _ C) as [A _]. rewrite unescape_escape in A. split; [exact A|].
    destruct (component_shape _ C) as [S NE]. apply (component_iff _ NE S) in C. now apply verify_canonical in C.
  - intros [A M]. pose proof (escape_nonempty _ N A) as NE. pose proof (escape_uri_text _ A) as U. apply uri_text_iff in U.
    apply (component_iff _ NE U). now apply verify_canonical.
Qed.

Lemma percent_escape_length s t : percent_text s t -> uri_text s -> (length (escape t) <= length s)%nat.
Proof.
  induction 1 as [|c s t N P IH|h l a b s t H L P IH]; intros U; [reflexivity| |].
  - inversion U as [|c' s' PL U'|]; subst; [|now destruct N]. unfold escape. cbn [flat_map]. fold (escape t).
    rewrite escape_char_other. { cbn [app length]. specialize (IH U'). lia. }
    unfold reserved, uri_plain in *. intros R. cbn in R, PL. lia.
  - inversion U as [|c' s' PL U'|h' s' HD U']; subst; [unfold uri_plain in PL; cbn in PL; lia|].
    inversion U' as [|c' s'' PL U''|]; subst; [|unfold hex_value in L; lia]. specialize (IH U'').
    unfold escape. cbn [flat_map length]. fold (escape t). rewrite app_length.
    assert (X : (length (escape_char (16 * a + b)) <= 3)%nat).
    { destruct (reserved_dec (16 * a + b)) as [R|R]; [|rewrite escape_char_other by exact R; cbn; lia].
      destruct (escape_char_hex _ R) as (? & ? & -> & _). cbn. lia. }
    lia.
Qed.
Lemma escape_no_colon t : ~ In 58 t -> ~ In 58 (escape t).
Proof.
  intros N I. unfold escape in I. apply in_flat_map in I as (c & C & I). apply (escape_no58 c) in I; [exact I|]. intros ->. contradiction.
Qed.

Lemma lift_some {A} (f : A -> epc) r (x : A) : r = Ok x -> exists e, lift f r = Ok e.
Proof. intros ->. eexists. reflexivity. Qed.
(** the canonical spelling of a readable text is accepted *)
Lemma text_accept q u s t : init_of (class_of (req_epc q)) u = Ok (req_epc q) -> text_part q = Some s -> percent_text s t ->
  colon_free q t -> readable_text t -> exists e, init_of (class_of (req_epc q)) (text_uri q (escape t)) = Ok e.
Proof.
  intros I T P N R. destruct q; try discriminate T; destruct s0; try discriminate T; injection T as <-;
    cbn [class_of req_epc init_of text_uri] in *; apply lift_ok in I as (y & I & Y); injection Y as <-.
  - apply gdti_iff in I as ((U & C & D & L & S & B) & _ & (k & K & _)). eapply lift_some.
    apply (proj2 (gdti_iff _ (mkGdti (text_uri (T_GDTI x GDTI_174 f) (escape t)) (gdti_cp x) (gdti_doc x) (escape t) (k ++ unescape (escape t))))).
    cbn. split; [|split; [reflexivity|exists k; auto]]. pose proof (percent_escape_length _ _ P (proj1 (proj2 S))).
    split; [reflexivity|]. repeat (split; [assumption|]). split; [apply escape_component; [eapply percent_nonempty; [exact P|apply S]|exact R]|lia].
  - apply giai_iff in I as ((ig & U & C & S & NC & L & G) & _). eapply lift_some.
    apply (proj2 (giai_iff _ (mkGiai (text_uri (T_GIAI x GIAI_202 f) (escape t)) (giai_cp x) (escape t) (giai_cp x ++ unescape (escape t))))).
    cbn. split; [|auto]. exists []. pose proof (percent_escape_length _ _ P (proj1 (proj2 S))).
    split; [now rewrite app_nil_r|]. split; [assumption|]. split; [apply escape_component; [eapply percent_nonempty; [exact P|apply S]|exact R]|].
    split; [now apply escape_no_colon|]. split; [lia|now left].
  - apply grai_iff in I as ((U & C & D & L & S & B) & _ & (k & K & _)). eapply lift_some.
    apply (proj2 (grai_iff _ (mkGrai (text_uri (T_GRAI x GRAI_170 f) (escape t)) (grai_cp x) (grai_asset x) (escape t) (k ++ unescape (escape t))))).
    cbn. split; [|split; [reflexivity|exists k; auto]]. pose proof (percent_escape_length _ _ P (proj1 (proj2 S))).
    split; [reflexivity|]. repeat (split; [assumption|]). split; [apply escape_component; [eapply percent_nonempty; [exact P|apply S]|exact R]|lia].
  - apply itip_iff in I as ((U & C & D1 & D2 & D3 & N1 & N2 & N3 & L & S & B) & _). eapply lift_some.
    apply (proj2 (itip_iff _ (mkItip (text_uri (T_ITIP x ITIP_212 f) (escape t)) (itip_cp x) (itip_item x) (itip_piece x) (itip_total x) (escape t)))).
    cbn. split; [|reflexivity]. pose proof (percent_length _ _ P). pose proof (percent_nonempty _ _ P (proj1 S)) as NE.
    split; [reflexivity|]. repeat (split; [assumption|]). split; [apply escape_component; [exact NE|exact R]|].
    rewrite unescape_escape. destruct t; [congruence|cbn [length] in *; lia].
  - apply sgln_iff in I as ((U & C & D & L & S & B) & _ & K). eapply lift_some.
    apply (proj2 (sgln_iff _ (mkSgln (text_uri (T_SGLN x SGLN_195 f) (escape t)) (sgln_cp x) (sgln_loc x) (escape t) (sgln_gln x)))).
    cbn. split; [|auto]. pose proof (percent_length _ _ P).
    split; [reflexivity|]. repeat (split; [assumption|]). split; [apply escape_component; [eapply percent_nonempty; [exact P|apply S]|exact R]|].
    rewrite unescape_escape. lia.
  - apply sgtin_iff in I as ((U & C & D & L & S & B) & _ & K). eapply lift_some.
    apply (proj2 (sgtin_iff _ (mkSgtin (text_uri (T_SGTIN x SGTIN_198 f) (escape t)) (sgtin_cp x) (sgtin_item x) (escape t) (sgtin_gtin_ x)))).
    cbn. split; [|auto]. pose proof (percent_length _ _ P). pose proof (percent_nonempty _ _ P (proj1 S)) as NE.
    split; [reflexivity|]. repeat (split; [assumption|]). split; [apply escape_component; [exact NE|exact R]|].
    rewrite unescape_escape. destruct t; [congruence|cbn [length] in *; lia].
Qed.

(** an accepted URI whose serial is the canonical spelling of a text *)
Lemma text_refuse q u s t e : init_of (class_of (req_epc q)) u = Ok (req_epc q) -> text_part q = Some s -> percent_text s t ->
  colon_free q t -> init_of (class_of (req_epc q)) (ascii_form (text_uri q []) ++ escape t) = Ok e -> readable_text t.
Proof.
  intros I T P N R. assert (NE : s <> [] -> t <> []) by (apply percent_nonempty; exact P).
  destruct q; try discriminate T; destruct s0; try discriminate T; injection T as <-;
    cbn [class_of req_epc init_of text_uri] in *; apply lift_ok in I as (y & I & Y); injection Y as <-; apply lift_ok in R as (y & R & _).
  - apply gdti_iff in I as ((U & C & D & L & S & B) & _). apply escape_component; [apply NE, S|].
    apply gdti_iff in R as ((U' & C' & D' & _ & S' & _) & _).
    rewrite !ascii_form_app, (ascii_lit "urn:epc:id:gdti:"), (ascii_lit "."), <- !app_assoc in U' by reflexivity. apply app_inv_head in U'.
    apply cut_dot in U' as [_ U']; [|apply nodot_digits, (af_digits _ (proj1 C))|apply nodot_digits, C'].
    apply cut_dot in U' as [_ U']; [|apply nodot_digits, (af_digits _ D)|apply nodot_digits, D']. cbn [ascii_form map app] in U'. now rewrite U'.
  - apply giai_iff in I as ((ig & U & C & S & NC & L & G) & _). apply escape_component; [apply NE, S|].
    apply giai_iff in R as ((ig' & U' & C' & S' & NC' & L' & G') & _).
    rewrite !ascii_form_app, (ascii_lit "urn:epc:id:giai:"), (ascii_lit "."), <- !app_assoc in U' by reflexivity. apply app_inv_head in U'.
    apply cut_dot in U' as [_ U']; [|apply nodot_digits, (af_digits _ (proj1 C))|apply nodot_digits, C']. cbn [ascii_form map app] in U'.
    destruct G' as [->|(r & -> & _)]; [rewrite app_nil_r in U'; now rewrite U'|].
    destruct (escape_no_colon _ N). rewrite U'. apply in_or_app. right. now left.
  - apply grai_iff in I as ((U & C & D & L & S & B) & _). apply escape_component; [apply NE, S|].
    apply grai_iff in R as ((U' & C' & D' & _ & S' & _) & _).
    rewrite !ascii_form_app, (ascii_lit "urn:epc:id:grai:"), (ascii_lit "."), <- !app_assoc in U' by reflexivity. apply app_inv_head in U'.
    apply cut_dot in U' as [_ U']; [|apply nodot_digits, (af_digits _ (proj1 C))|apply nodot_digits, C'].
    apply cut_dot in U' as [_ U']; [|apply nodot_digits, (af_digits _ D)|apply nodot_digits, D']. cbn [ascii_form map app] in U'. now rewrite U'.
  - apply itip_iff in I as ((U & C & D1 & D2 & D3 & N1 & N2 & N3 & L & S & B) & _). apply escape_component; [apply NE, S|].
    apply itip_iff in R as ((U' & C' & D1' & D2' & D3' & _ & _ & _ & _ & S' & _) & _).
    rewrite !ascii_form_app, (ascii_lit "urn:epc:id:itip:"), (ascii_lit "."), <- !app_assoc in U' by reflexivity. apply app_inv_head in U'.
    apply cut_dot in U' as [_ U']; [|apply nodot_digits, (af_digits _ (proj1 C))|apply nodot_digits, C'].
    apply cut_dot in U' as [_ U']; [|apply nodot_digits, (af_digits _ D1)|apply nodot_digits, D1'].
    apply cut_dot in U' as [_ U']; [|apply nodot_digits, (af_digits _ D2)|apply nodot_digits, D2'].
    apply cut_dot in U' as [_ U']; [|apply nodot_digits, (af_digits _ D3)|apply nodot_digits, D3']. cbn [ascii_form map app] in U'. now rewrite U'.
  - apply sgln_iff in I as ((U & C & D & L & S & B) & _). apply escape_component; [apply NE, S|].
    apply sgln_iff in R as ((U' & C' & D' & _ & S' & _) & _).
    rewrite !ascii_form_app, (ascii_lit "urn:epc:id:sgln:"), (ascii_lit "."), <- !app_assoc in U' by reflexivity. apply app_inv_head in U'.
    apply cut_dot in U' as [_ U']; [|apply nodot_digits, (af_digits _ (proj1 C))|apply nodot_digits, C'].
    apply cut_dot in U' as [_ U']; [|apply nodot_digits, (af_digits _ D)|apply nodot_digits, D']. cbn [ascii_form map app] in U'. now rewrite U'.
  - apply sgtin_iff in I as ((U & C & D & L & S & B) & _). apply escape_component; [apply NE, S|].
    apply sgtin_iff in R as ((U' & C' & D' & _ & S' & _) & _).
    rewrite !ascii_form_app, (ascii_lit "urn:epc:id:sgtin:"), (ascii_lit "."), <- !app_assoc in U' by reflexivity. apply app_inv_head in U'.
    apply cut_dot in U' as [_ U']; [|apply nodot_digits, (af_digits _ (proj1 C))|apply nodot_digits, C'].
    apply cut_dot in U' as [_ U']; [|apply nodot_digits, (af_digits _ D)|apply nodot_digits, D']. cbn [ascii_form map app] in U'. now rewrite U'.
Qed.

Lemma escape_of_ascii t : ascii t -> ascii (escape t).
Proof.
  intros A c I. unfold escape in I. apply in_flat_map in I as (x & X & I). destruct (reserved_dec x) as [R|R].
  - cbn in R. repeat (destruct R as [<-|R]; [cbn in I; repeat destruct I as [<-|I]; try reflexivity; destruct I|]). destruct R.
  - rewrite escape_char_other in I by exact R. destruct I as [<-|[]]. now apply A.
Qed.
Lemma text_uri_split q s t : text_part q = Some s -> ascii t -> ascii_form (text_uri q t) = ascii_form (text_uri q []) ++ t.
Proof.
  intros T A. destruct q; try discriminate T; cbn [text_uri]; rewrite !ascii_form_app, (ascii_form_id t A), (ascii_form_id []) by (intros ? []);
    rewrite ?app_nil_r, <- ?app_assoc; reflexivity.
Qed.

(** * Writing and reading *)

Theorem respelled q u s t : init_of (class_of (req_epc q)) u = Ok (req_epc q) -> text_part q = Some s -> percent_text s t ->
  seven_bit_text t -> filter_fits q -> pieces_fit q ->
  exists b, req_binary q = Ok b /\ spells (text_layout q t) b /\ bitstring b /\
    forall extra, from_binary_of (class_of (req_epc q)) (b ++ extra) = init_of (class_of (req_epc q)) (ascii_form (text_uri q (escape t))).
Proof.
  intros I T P S F PF. rewrite (text_uri_split q s) by (auto; apply escape_of_ascii, seven_ascii, S).
  destruct q; try discriminate T; destruct s0; try discriminate T; injection T as <-;
    cbn [class_of req_epc init_of from_binary_of req_binary filter_fits req_filter filter_bits] in *; apply lift_ok in I as (y & I & Y); injection Y as <-.
  - destruct (coded_written E_GDTI _ _ _ _ _ _ (percent_gdti u x f t I P S F)) as (b & B1 & B2 & B3 & B4 & B5). exists b. auto.
  - destruct (coded_written E_GIAI _ _ _ _ _ _ (percent_giai u x f t I P S F)) as (b & B1 & B2 & B3 & B4 & B5). exists b. auto.
  - destruct (coded_written E_GRAI _ _ _ _ _ _ (percent_grai u x f t I P S F)) as (b & B1 & B2 & B3 & B4 & B5). exists b. auto.
  - destruct (coded_written E_ITIP _ _ _ _ _ _ (percent_itip u x f t I P S PF F)) as (b & B1 & B2 & B3 & B4 & B5). exists b. auto.
  - destruct (coded_written E_SGLN _ _ _ _ _ _ (percent_sgln u x f t I P S F)) as (b & B1 & B2 & B3 & B4 & B5). exists b. auto.
  - destruct (coded_written E_SGTIN _ _ _ _ _ _ (percent_sgtin u x f t I P S F)) as (b & B1 & B2 & B3 & B4 & B5). exists b. auto.
Qed.
Theorem respelled_read q u s t : init_of (class_of (req_epc q)) u = Ok (req_epc q) -> text_part q = Some s -> percent_text s t ->
  seven_bit_text t -> filter_fits q -> pieces_fit q -> colon_free q t ->
  exists b, req_binary q = Ok b /\ 
    forall extra,
      (readable_text t -> exists e, from_binary_of (class_of (req_epc q)) (b ++ extra) = Ok e /\
         epc_uri e = ascii_form (text_uri q (escape t)) /\ class_of e = class_of (req_epc q)) /\
      (~ readable_text t -> exists ex, from_binary_of (class_of (req_epc q)) (b ++ extra) = Raise ex /\
         (ex = ConvertException \/ ex = ValueError \/ ex = OverflowError)).
Proof.
  intros I T P S F PF N. destruct (respelled q u s t I T P S F PF) as (b & B & _ & _ & R). exists b. split; [exact B|]. intros extra. rewrite R. split.
  - intros RT. destruct (text_accept q u s t I T P N RT) as (e & E). apply init_ascii_form in E. rewrite E. eexists. split; [reflexivity|].
    apply init_class in E as [E1 E2]. auto.
  - intros RT. destruct (init_of _ (ascii_form _)) as [e|ex] eqn:E.
    2:{ exists ex. split; [reflexivity|]. apply init_exn in E. tauto. }
    destruct RT.
    rewrite (text_uri_split q s) in E by (auto; apply escape_of_ascii, seven_ascii, S). exact (text_refuse q u s t e I T P N E).
Qed.

(** * Which serials share a tag *)

Lemma text_head q s t rest : text_part q = Some s -> 
  tobits (text_layout q t) ++ rest = tag_header (req_kind q) ++ match req_filter q with Some f => bits 3 f | None => [] end ++ skipn 11 (tobits (text_layout q t)) ++ rest /\
  exists f, req_filter q = Some f.
Proof.
  intros T. destruct q; try discriminate T; destruct s0; try discriminate T; (split; [|eexists; reflexivity]);
    unfold text_layout; rewrite !app_comm_cons, tobits_app; cbn [filter_fields req_filter filter_bits];
    match goal with |- (tobits ?h ++ ?r) ++ _ = _ => set (R := r) end;
    rewrite skipn_app; rewrite (skipn_all2 (n := 11)) by (rewrite length_tobits; reflexivity); rewrite length_tobits;
    cbn [total_bits]; cbn -[R bits app]; rewrite ?app_nil_r, <- ?app_assoc; reflexivity.
Qed.
Lemma bits_inj w a b : a < 2 ^ N.of_nat w -> b < 2 ^ N.of_nat w -> bits w a = bits w b -> a = b.
Proof. intros A B E. rewrite <- (sval_bits w a A), E. now apply sval_bits. Qed.

Lemma partition_same w C D C' D' : digits C -> digits D -> digits C' -> digits D' -> ascii_form C = ascii_form C' -> ascii_form D = ascii_form D' ->
  partition_fields w C D = partition_fields w C' D'.
Proof.
  intros H1 H2 H3 H4 E1 E2. unfold partition_fields.
  assert (L : length C = length C') by (rewrite <- (length_ascii C), E1; apply length_ascii).
  assert (V : decimal C = decimal C') by (rewrite <- (af_decimal C H1), E1; now apply af_decimal).
  assert (V' : decimal D = decimal D') by (rewrite <- (af_decimal D H2), E2; now apply af_decimal).
  now rewrite L, V, V'.
Qed.
Lemma af_same_value C C' : digits C -> digits C' -> ascii_form C = ascii_form C' -> decimal C = decimal C' /\ length C = length C'.
Proof.
  intros H1 H2 E. split; [rewrite <- (af_decimal C H1), E; now apply af_decimal|rewrite <- (length_ascii C), E; apply length_ascii].
Qed.
Lemma escape_inj t t' : escape t = escape t' -> t = t'.
Proof. intros E. rewrite <- (unescape_escape t), E. apply unescape_escape. Qed.

Lemma same_layout q u s t q' u' s' t' :
  init_of (class_of (req_epc q)) u = Ok (req_epc q) -> text_part q = Some s -> ascii t ->
  init_of (class_of (req_epc q')) u' = Ok (req_epc q') -> text_part q' = Some s' -> ascii t' ->
  req_kind q = req_kind q' -> req_filter q = req_filter q' ->
  ascii_form (text_uri q (escape t)) = ascii_form (text_uri q' (escape t')) -> text_layout q t = text_layout q' t'.
Proof.
  intros I T A I' T' A' K F U. rewrite (text_uri_split q s), (text_uri_split q' s') in U by (auto; now apply escape_of_ascii).
  destruct q; try discriminate T; destruct s0; try discriminate T; destruct q'; try discriminate T'; destruct s0; try discriminate T'; try discriminate K;
    cbn [class_of req_epc init_of text_uri req_filter] in *; injection F as <-;
    apply lift_ok in I as (y & I & Y); injection Y as <-; apply lift_ok in I' as (y & I' & Y); injection Y as <-;
    rewrite !ascii_form_app, <- !app_assoc in U; rewrite !(ascii_lit ".") in U by reflexivity; apply app_inv_head in U.
  - apply gdti_iff in I as ((_ & C & D & _) & _). apply gdti_iff in I' as ((_ & C' & D' & _) & _).
    apply cut_dot in U as [U1 U]; [|apply nodot_digits, af_digits, C|apply nodot_digits, af_digits, C'].
    apply cut_dot in U as [U2 U]; [|apply nodot_digits, af_digits, D|apply nodot_digits, af_digits, D'].
    cbn [ascii_form map app] in U. apply escape_inj in U as <-.
    unfold text_layout. rewrite (partition_same 41 _ _ _ _ (proj1 C) D (proj1 C') D' U1 U2). reflexivity.
  - apply giai_iff in I as ((? & _ & C & _) & _). apply giai_iff in I' as ((? & _ & C' & _) & _).
    apply cut_dot in U as [U1 U]; [|apply nodot_digits, af_digits, C|apply nodot_digits, af_digits, C'].
    cbn [ascii_form map app] in U. apply escape_inj in U as <-.
    unfold text_layout. destruct (af_same_value _ _ (proj1 C) (proj1 C') U1) as [E1 E2]. rewrite E1, E2. reflexivity.
  - apply grai_iff in I as ((_ & C & D & _) & _). apply grai_iff in I' as ((_ & C' & D' & _) & _).
    apply cut_dot in U as [U1 U]; [|apply nodot_digits, af_digits, C|apply nodot_digits, af_digits, C'].
    apply cut_dot in U as [U2 U]; [|apply nodot_digits, af_digits, D|apply nodot_digits, af_digits, D'].
    cbn [ascii_form map app] in U. apply escape_inj in U as <-.
    unfold text_layout. rewrite (partition_same 44 _ _ _ _ (proj1 C) D (proj1 C') D' U1 U2). reflexivity.
  - apply itip_iff in I as ((_ & C & D & D1 & D2 & _) & _). apply itip_iff in I' as ((_ & C' & D' & D1' & D2' & _) & _).
    apply cut_dot in U as [U1 U]; [|apply nodot_digits, af_digits, C|apply nodot_digits, af_digits, C'].
    apply cut_dot in U as [U2 U]; [|apply nodot_digits, af_digits, D|apply nodot_digits, af_digits, D'].
    apply cut_dot in U as [U3 U]; [|apply nodot_digits, af_digits, D1|apply nodot_digits, af_digits, D1'].
    apply cut_dot in U as [U4 U]; [|apply nodot_digits, af_digits, D2|apply nodot_digits, af_digits, D2'].
    cbn [ascii_form map app] in U. apply escape_inj in U as <-.
    unfold text_layout. rewrite (partition_same 44 _ _ _ _ (proj1 C) D (proj1 C') D' U1 U2).
    rewrite (proj1 (af_same_value _ _ D1 D1' U3)), (proj1 (af_same_value _ _ D2 D2' U4)). reflexivity.
  - apply sgln_iff in I as ((_ & C & D & _) & _). apply sgln_iff in I' as ((_ & C' & D' & _) & _).
    apply cut_dot in U as [U1 U]; [|apply nodot_digits, af_digits, C|apply nodot_digits, af_digits, C'].
    apply cut_dot in U as [U2 U]; [|apply nodot_digits, af_digits, D|apply nodot_digits, af_digits, D'].
    cbn [ascii_form map app] in U. apply escape_inj in U as <-.
    unfold text_layout. rewrite (partition_same 41 _ _ _ _ (proj1 C) D (proj1 C') D' U1 U2). reflexivity.
  - apply sgtin_iff in I as ((_ & C & D & _) & _). apply sgtin_iff in I' as ((_ & C' & D' & _) & _).
    apply cut_dot in U as [U1 U]; [|apply nodot_digits, af_digits, C|apply nodot_digits, af_digits, C'].
    apply cut_dot in U as [U2 U]; [|apply nodot_digits, af_digits, D|apply nodot_digits, af_digits, D'].
    cbn [ascii_form map app] in U. apply escape_inj in U as <-.
    unfold text_layout. rewrite (partition_same 44 _ _ _ _ (proj1 C) D (proj1 C') D' U1 U2). reflexivity.
Qed.

Lemma kind_class q q' : req_kind q = req_kind q' -> class_of (req_epc q) = class_of (req_epc q').
Proof. intros K. destruct q as [? []|? []|? []|? []|? []|? []|? []|? []|? []|? []|? []|? []|? []|? []], q' as [? []|? []|? []|? []|? []|? []|? []|? []|? []|? []|? []|? []|? []|? []]; try discriminate K; reflexivity. Qed.
Lemma filter3 q s f : text_part q = Some s -> filter_fits q -> req_filter q = Some f -> f < 2 ^ N.of_nat 3.
Proof. intros T F R. destruct q; try discriminate T; cbn in *; injection R as <-; exact F. Qed.

Lemma readable_seven t : readable_text t -> seven_bit_text t.
Proof.
  intros [A _] c I. apply A in I. assert (Q : forallb (fun c => (1 <=? c) && (c <=? 127)) ai82 = true) by (vm_compute; reflexivity).
  pose proof (forallb_In _ _ _ Q I) as X. cbv beta in X. lia.
Qed.
Theorem same_tag q u s t q' u' s' t' :
  init_of (class_of (req_epc q)) u = Ok (req_epc q) -> text_part q = Some s -> percent_text s t ->
  readable_text t -> colon_free q t -> filter_fits q -> pieces_fit q ->
  init_of (class_of (req_epc q')) u' = Ok (req_epc q') -> text_part q' = Some s' -> percent_text s' t' ->
  readable_text t' -> colon_free q' t' -> filter_fits q' -> pieces_fit q' ->
  (req_binary q = req_binary q' <->
   req_kind q = req_kind q' /\ req_filter q = req_filter q' /\ ascii_form (text_uri q (escape t)) = ascii_form (text_uri q' (escape t'))).
Proof.
  intros I T P R N F PF I' T' P' R' N' F' PF'.
  pose proof (readable_seven _ R) as S. pose proof (readable_seven _ R') as S'.
  destruct (respelled q u s t I T P S F PF) as (b & B & L & _ & D). destruct (respelled q' u' s' t' I' T' P' S' F' PF') as (b' & B' & L' & _ & D').
  pose proof (spells_eq _ _ L) as X. pose proof (spells_eq _ _ L') as X'. split.
  - rewrite B, B'. intros E. injection E as E.
    destruct (text_head q s t [] T) as [H (f & Ff)]. destruct (text_head q' s' t' [] T') as [H' (f' & Ff')].
    rewrite <- X, Ff in H. rewrite <- X', Ff' in H'. rewrite <- E, H in H'.
    assert (K : req_kind q = req_kind q').
    { apply header_inj. apply (f_equal (firstn 8)) in H'. assert (HL : forall k, length (tag_header k) = 8%nat) by (intros []; reflexivity). do 2 rewrite firstn_exact in H' by apply HL. exact H'. }
    split; [exact K|]. rewrite K in H'. apply app_inv_head in H'. apply (f_equal (firstn 3)) in H'. do 2 rewrite firstn_exact in H' by apply length_bits.
    apply bits_inj in H'; [|exact (filter3 q s f T F Ff)|exact (filter3 q' s' f' T' F' Ff')]. split; [congruence|].
    destruct (text_accept q u s t I T P N R) as (e & A). apply init_ascii_form in A.
    destruct (text_accept q' u' s' t' I' T' P' N' R') as (e' & A'). apply init_ascii_form in A'.
    specialize (D []). specialize (D' []). rewrite E, (kind_class _ _ K) in D. rewrite D' in D. rewrite A', <- (kind_class _ _ K), A in D.
    injection D as D. apply init_class in A as [_ A]. apply init_class in A' as [_ A']. rewrite <- A, <- A'. now rewrite D.
  - intros (K & FF & U). rewrite B, B', X, X'. do 2 f_equal.
    eapply same_layout; eauto; [apply seven_ascii, S|apply seven_ascii, S'].
Qed.

(** * Serials that are not percent-encoded seven-bit text *)

Definition some_sgtin (u : str) : sgtin := match sgtin_init u with Ok x => x | Raise _ => mkSgtin [] [] [] [] [] end.
Definition some_tag (u : str) : str := match sgtin_binary (some_sgtin u) SGTIN_198 3 with Ok b => b | Raise _ => [] end.
Definition wide_uri : str := lit "urn:epc:id:sgtin:0614141.812345.a%8Ab".
Definition wide_twin : str := lit "urn:epc:id:sgtin:0614141.812345.aE1".
Theorem wide_escape : exists x y b, sgtin_init wide_uri = Ok x /\ sgtin_init wide_twin = Ok y /\ x <> y /\
  sgtin_binary x SGTIN_198 3 = Ok b /\ sgtin_binary y SGTIN_198 3 = Ok b /\ sgtin_from_binary b = Ok y.
Proof.
  exists (some_sgtin wide_uri), (some_sgtin wide_twin), (some_tag wide_uri). split; [vm_compute; reflexivity|]. split; [vm_compute; reflexivity|].
  split; [intros E; apply (f_equal sgtin_serial) in E; vm_compute in E; discriminate E|].
  split; [vm_compute; reflexivity|]. split; vm_compute; reflexivity.
Qed.
Definition stray_uri : str := lit "urn:epc:id:sgtin:0614141.812345.a%2x".
Definition stray_read : str := lit "urn:epc:id:sgtin:0614141.812345.a%252x".
Theorem stray_percent : exists x y b, sgtin_init stray_uri = Ok x /\ sgtin_init stray_read = Ok y /\
  sgtin_binary x SGTIN_198 3 = Ok b /\ sgtin_from_binary b = Ok y.
Proof.
  exists (some_sgtin stray_uri), (some_sgtin stray_read), (some_tag stray_uri). split; [vm_compute; reflexivity|]. split; [vm_compute; reflexivity|]. split; vm_compute; reflexivity.
Qed.
Definition stray_after_uri : str := lit "urn:epc:id:sgtin:0614141.812345.a%2F%2x".
Theorem stray_after_escape : exists x, sgtin_init stray_after_uri = Ok x /\ sgtin_binary x SGTIN_198 3 = Raise ValueError.
Proof. exists (some_sgtin stray_after_uri). split; vm_compute; reflexivity. Qed.
