(** binary() and from_binary(): SSCC, GSRN, GSRNP, SGCN, ITIP. *)
From Coq Require Import String.
From Verif.Model Require Import Py Re Regexes Common Base.
From Verif.Model Require Import Gsrn Gsrnp Itip Sgcn Sscc Parsers.
From Verif.Spec Require Import Spec SpecEscapes SpecGrammar SpecSchemes SpecTags SpecLayout.
From Verif.Proofs Require Import Basics Num ReLemmas Uni Escapes Codecs Codecs2 Partition Grammar Ctor CtorA CtorB CtorC CtorAll TagUri TagFits Layout.

Lemma sscc_coded u x s f : sscc_init u = Ok x -> f < 8 ->
  coded (tag_layout (T_SSCC x s f)) 96 (sscc_binary x s f) sscc_from_binary sscc_init u.
Proof.
  intros I F. pose proof I as I0. apply sscc_iff in I as ((U & C & D & L) & _).
  destruct (filter_written f 3) as (F1 & F2 & F3 & F4); [lia|exact F|].
  destruct (partition_written sscc_rows 58 17 (sscc_cp x) (sscc_serial x)) as (P1 & P2 & P3 & P4); [vm_compute; reflexivity|vm_compute; reflexivity|auto..|].
  change (table_L sscc_rows) with sscc_table_L in P3. change (table_P sscc_rows) with sscc_table_P in P4.
  assert (W : exists v, tag_layout (T_SSCC x s f) = (8%nat, v) :: [(3%nat, f)] ++ partition_fields 58 (sscc_cp x) (sscc_serial x) ++ [(24%nat, 0)] /\
     v < 2 ^ 8 /\ bits 8 v = sscc_header s /\ assoc_str (bits 8 v) sscc_header_to_schemes = Some s).
  { destruct s; eexists; (split; [reflexivity|]); (split; [reflexivity|]); (split; [reflexivity|]); reflexivity. }
  destruct W as (v & -> & V & H & A).
  assert (T : total_bits ((8%nat, v) :: [(3%nat, f)] ++ partition_fields 58 (sscc_cp x) (sscc_serial x) ++ [(24%nat, 0)]) = 96%nat).
  { rewrite total_cons, !total_app, F2, P2. reflexivity. }
  split; [constructor; [exact V|]; rewrite !in_range_app; repeat split; auto; repeat constructor|]. split; [exact T|]. split.
  - unfold sscc_binary. rewrite F3, P3. cbn [bind]. rewrite (tobits_cons 8), !tobits_app, H. reflexivity.
  - intros extra. unfold sscc_from_binary.
    rewrite (parse_tag sscc_scheme_value sscc_header_to_schemes v _ extra s (lit "sscc") (lit "96") 96); auto;
      try (destruct s; reflexivity). 2:lia.
    cbn [bind]. destruct (slices3 v f (partition_fields 58 (sscc_cp x) (sscc_serial x)) [(24%nat, 0)]) as [E1 E2].
    rewrite E1. destruct (E2 72%nat) as [E3 _]; [now rewrite P2|]. rewrite E3, F4, P4. cbn [bind].
    rewrite dec_of_N. etransitivity.
    + apply (from_tag_gen sscc_init C_SSCC (sscc_scheme_value s) (ndec f)); [nomatch sscc_init|destruct s; cbn; auto|discriminate|apply ndec_nc].
    + f_equal. rewrite U, !ascii_form_app, (ascii_lit "urn:epc:id:sscc:"), (ascii_lit ".") by reflexivity. rewrite <- ?app_assoc. reflexivity.
Qed.
Lemma gsrn_coded u x s f : gsrn_init u = Ok x -> f < 8 ->
  coded (tag_layout (T_GSRN x s f)) 96 (gsrn_binary x s f) gsrn_from_binary gsrn_init u.
Proof.
  intros I F. pose proof I as I0. apply gsrn_iff in I as ((U & C & D & L) & _).
  destruct (filter_written f 3) as (F1 & F2 & F3 & F4); [lia|exact F|].
  destruct (partition_written gsrn_rows 58 17 (gsrn_cp x) (gsrn_service x)) as (P1 & P2 & P3 & P4); [vm_compute; reflexivity|vm_compute; reflexivity|auto..|].
  change (table_L gsrn_rows) with gsrn_table_L in P3. change (table_P gsrn_rows) with gsrn_table_P in P4.
  assert (W : exists v, tag_layout (T_GSRN x s f) = (8%nat, v) :: [(3%nat, f)] ++ partition_fields 58 (gsrn_cp x) (gsrn_service x) ++ [(24%nat, 0)] /\
     v < 2 ^ 8 /\ bits 8 v = gsrn_header s /\ assoc_str (bits 8 v) gsrn_header_to_schemes = Some s).
  { destruct s; eexists; (split; [reflexivity|]); (split; [reflexivity|]); (split; [reflexivity|]); reflexivity. }
  destruct W as (v & -> & V & H & A).
  assert (T : total_bits ((8%nat, v) :: [(3%nat, f)] ++ partition_fields 58 (gsrn_cp x) (gsrn_service x) ++ [(24%nat, 0)]) = 96%nat).
  { rewrite total_cons, !total_app, F2, P2. reflexivity. }
  split; [constructor; [exact V|]; rewrite !in_range_app; repeat split; auto; repeat constructor|]. split; [exact T|]. split.
  - unfold gsrn_binary. rewrite F3, P3. cbn [bind]. rewrite (tobits_cons 8), !tobits_app, H. reflexivity.
  - intros extra. unfold gsrn_from_binary.
    rewrite (parse_tag gsrn_scheme_value gsrn_header_to_schemes v _ extra s (lit "gsrn") (lit "96") 96); auto;
      try (destruct s; reflexivity). 2:lia.
    cbn [bind]. destruct (slices3 v f (partition_fields 58 (gsrn_cp x) (gsrn_service x)) [(24%nat, 0)]) as [E1 E2].
    rewrite E1. destruct (E2 72%nat) as [E3 _]; [now rewrite P2|]. rewrite E3, F4, P4. cbn [bind].
    rewrite dec_of_N. etransitivity.
    + apply (from_tag_gen gsrn_init C_GSRN (gsrn_scheme_value s) (ndec f)); [nomatch gsrn_init|destruct s; cbn; auto|discriminate|apply ndec_nc].
    + f_equal. rewrite U, !ascii_form_app, (ascii_lit "urn:epc:id:gsrn:"), (ascii_lit ".") by reflexivity. rewrite <- ?app_assoc. reflexivity.
Qed.
Lemma gsrnp_coded u x s f : gsrnp_init u = Ok x -> f < 8 ->
  coded (tag_layout (T_GSRNP x s f)) 96 (gsrnp_binary x s f) gsrnp_from_binary gsrnp_init u.
Proof.
  intros I F. pose proof I as I0. apply gsrnp_iff in I as ((U & C & D & L) & _).
  destruct (filter_written f 3) as (F1 & F2 & F3 & F4); [lia|exact F|].
  destruct (partition_written gsrnp_rows 58 17 (gsrnp_cp x) (gsrnp_service x)) as (P1 & P2 & P3 & P4); [vm_compute; reflexivity|vm_compute; reflexivity|auto..|].
  change (table_L gsrnp_rows) with gsrnp_table_L in P3. change (table_P gsrnp_rows) with gsrnp_table_P in P4.
  assert (W : exists v, tag_layout (T_GSRNP x s f) = (8%nat, v) :: [(3%nat, f)] ++ partition_fields 58 (gsrnp_cp x) (gsrnp_service x) ++ [(24%nat, 0)] /\
     v < 2 ^ 8 /\ bits 8 v = gsrnp_header s /\ assoc_str (bits 8 v) gsrnp_header_to_schemes = Some s).
  { destruct s; eexists; (split; [reflexivity|]); (split; [reflexivity|]); (split; [reflexivity|]); reflexivity. }
  destruct W as (v & -> & V & H & A).
  assert (T : total_bits ((8%nat, v) :: [(3%nat, f)] ++ partition_fields 58 (gsrnp_cp x) (gsrnp_service x) ++ [(24%nat, 0)]) = 96%nat).
  { rewrite total_cons, !total_app, F2, P2. reflexivity. }
  split; [constructor; [exact V|]; rewrite !in_range_app; repeat split; auto; repeat constructor|]. split; [exact T|]. split.
  - unfold gsrnp_binary. rewrite F3, P3. cbn [bind]. rewrite (tobits_cons 8), !tobits_app, H. reflexivity.
  - intros extra. unfold gsrnp_from_binary.
    rewrite (parse_tag gsrnp_scheme_value gsrnp_header_to_schemes v _ extra s (lit "gsrnp") (lit "96") 96); auto;
      try (destruct s; reflexivity). 2:lia.
    cbn [bind]. destruct (slices3 v f (partition_fields 58 (gsrnp_cp x) (gsrnp_service x)) [(24%nat, 0)]) as [E1 E2].
    rewrite E1. destruct (E2 72%nat) as [E3 _]; [now rewrite P2|]. rewrite E3, F4, P4. cbn [bind].
    rewrite dec_of_N. etransitivity.
    + apply (from_tag_gen gsrnp_init C_GSRNP (gsrnp_scheme_value s) (ndec f)); [nomatch gsrnp_init|destruct s; cbn; auto|discriminate|apply ndec_nc].
    + f_equal. rewrite U, !ascii_form_app, (ascii_lit "urn:epc:id:gsrnp:"), (ascii_lit ".") by reflexivity. rewrite <- ?app_assoc. reflexivity.
Qed.

Lemma numeric_string_written s : digits s -> (1 <= length s <= 12)%nat ->
  written [(41%nat, 10 ^ N.of_nat (length s) + decimal s)] 41 (encode_numeric_string s 41) decode_numeric_string (ascii_form s).
Proof.
  intros D L. apply digits_iff in D.
  assert (B : 2 * 10 ^ N.of_nat (length s) < 2 ^ N.of_nat 41).
  { eapply N.le_lt_trans with (2 * 10 ^ 12); [apply N.mul_le_mono_l, N.pow_le_mono_r; lia|reflexivity]. }
  unfold written. rewrite tobits_one. split; [|split; [reflexivity|]; split].
  - repeat constructor. cbn [fst snd]. pose proof (decimal_bound s). lia.
  - apply encode_numeric_ok; [exact D|apply (intable_le _ 13); cbn [length]; lia|exact B].
  - pose proof (decode_numeric_ok (ascii_form s) 41) as Q. unfold num1 in Q. rewrite length_ascii in Q. rewrite decimal_ascii in Q by now apply ascii_form_digit.
    rewrite ascii_form_decimal in Q by exact D. apply Q; [|now apply ascii_form_digit|apply (intable_le _ 13); [cbn [length]; rewrite length_ascii|]; lia|exact B].
    rewrite ascii_form_nil. destruct s; [cbn in L; lia|discriminate].
Qed.
Lemma sgcn_coded u x s f : sgcn_init u = Ok x -> f < 8 ->
  coded (tag_layout (T_SGCN x s f)) 96 (sgcn_binary x s f) sgcn_from_binary sgcn_init u.
Proof.
  intros I F. pose proof I as I0. apply sgcn_iff in I as ((U & C & D & L & S & SL) & _).
  destruct (filter_written f 3) as (F1 & F2 & F3 & F4); [lia|exact F|].
  destruct (partition_written sgcn_rows 41 12 (sgcn_cp x) (sgcn_coupon x)) as (P1 & P2 & P3 & P4); [vm_compute; reflexivity|vm_compute; reflexivity|auto..|].
  change (table_L sgcn_rows) with sgcn_table_L in P3. change (table_P sgcn_rows) with sgcn_table_P in P4.
  destruct (numeric_string_written (sgcn_serial x) S SL) as (S1 & S2 & S3 & S4).
  set (l := [(41%nat, 10 ^ N.of_nat (length (sgcn_serial x)) + decimal (sgcn_serial x))]) in *.
  assert (W : exists v, tag_layout (T_SGCN x s f) = (8%nat, v) :: [(3%nat, f)] ++ partition_fields 41 (sgcn_cp x) (sgcn_coupon x) ++ l /\
     v < 2 ^ 8 /\ bits 8 v = sgcn_header s /\ assoc_str (bits 8 v) sgcn_header_to_schemes = Some s).
  { destruct s; eexists; (split; [reflexivity|]); (split; [reflexivity|]); (split; [reflexivity|]); reflexivity. }
  destruct W as (v & -> & V & H & A). clearbody l.
  assert (T : total_bits ((8%nat, v) :: [(3%nat, f)] ++ partition_fields 41 (sgcn_cp x) (sgcn_coupon x) ++ l) = 96%nat).
  { rewrite total_cons, !total_app, F2, P2, S2. reflexivity. }
  split; [constructor; [exact V|]; rewrite !in_range_app; auto|]. split; [exact T|]. split.
  - unfold sgcn_binary. rewrite F3, P3. cbn [bind]. rewrite S3. cbn [bind]. rewrite (tobits_cons 8), !tobits_app, H. reflexivity.
  - intros extra. unfold sgcn_from_binary.
    rewrite (parse_tag sgcn_scheme_value sgcn_header_to_schemes v _ extra s (lit "sgcn") (lit "96") 96); auto;
      try (destruct s; reflexivity). 2:lia.
    cbn [bind]. destruct (slices3 v f (partition_fields 41 (sgcn_cp x) (sgcn_coupon x)) l) as [E1 E2].
    rewrite E1. destruct (E2 55%nat) as [E3 E4]; [now rewrite P2|]. rewrite E3, E4, F4, P4. cbn [bind]. rewrite S4. cbn [bind].
    rewrite dec_of_N. etransitivity.
    + apply (from_tag_gen sgcn_init C_SGCN (sgcn_scheme_value s) (ndec f)); [nomatch sgcn_init|destruct s; cbn; auto|discriminate|apply ndec_nc].
    + f_equal. rewrite U, !ascii_form_app, (ascii_lit "urn:epc:id:sgcn:"), (ascii_lit ".") by reflexivity. rewrite <- ?app_assoc. reflexivity.
Qed.

Lemma fixed_written s : digits s -> length s = 2%nat -> decimal s < 99 ->
  written [(7%nat, decimal s)] 7 (encode_fixed_width_integer s 7) decode_fixed_width_integer (ascii_form s).
Proof.
  intros D L B. apply digits_iff in D. assert (X : fixed_width_digits 7 = 2%nat) by reflexivity.
  assert (NE : s <> []) by (destruct s; discriminate).
  unfold written. rewrite tobits_one. split; [|split; [reflexivity|]; split].
  - repeat constructor. cbn [fst snd]. change (2 ^ N.of_nat 7) with 128. lia.
  - apply encode_fixed_ok; [exact NE|exact D|apply (intable_le _ 2); lia|lia|]. rewrite X. change (10 ^ N.of_nat 2) with 100. lia.
  - rewrite <- (ascii_form_decimal _ D). apply decode_fixed_ok; rewrite ?length_ascii; auto; try lia. now apply ascii_form_digit.
Qed.
Definition itip_size (s : itip_scheme) : nat := match s with ITIP_110 => 110 | ITIP_212 => 212 end.
Lemma itip_coded u x s f : itip_init u = Ok x -> coding_has_room (T_ITIP x s f) -> canonical_request (T_ITIP x s f) -> pieces_fit (T_ITIP x s f) -> f < 8 ->
  coded (tag_layout (T_ITIP x s f)) (itip_size s) (itip_binary x s f) itip_from_binary itip_init u.
Proof.
  intros I R K (Q1 & Q2 & Q3 & Q4) F. pose proof I as I0. apply itip_iff in I as ((U & C & D & DP & DT & _ & _ & _ & L & S & B) & _).
  destruct (filter_written f 3) as (F1 & F2 & F3 & F4); [lia|exact F|].
  destruct (partition_written itip_rows 44 13 (itip_cp x) (itip_item x)) as (P1 & P2 & P3 & P4); [vm_compute; reflexivity|vm_compute; reflexivity|auto..|].
  { lia. }
  change (table_L itip_rows) with itip_table_L in P3. change (table_P itip_rows) with itip_table_P in P4.
  destruct (fixed_written _ DP Q1 Q3) as (A1 & A2 & A3 & A4). destruct (fixed_written _ DT Q2 Q4) as (B1 & B2 & B3 & B4).
  set (l1 := [(7%nat, decimal (itip_piece x))]) in *. set (l2 := [(7%nat, decimal (itip_total x))]) in *.
  assert (W : exists l v, tag_layout (T_ITIP x s f) = (8%nat, v) :: [(3%nat, f)] ++ partition_fields 44 (itip_cp x) (itip_item x) ++ (l1 ++ l2 ++ l) /\
     v < 2 ^ 8 /\ bits 8 v = itip_header s /\ assoc_str (bits 8 v) itip_header_to_schemes = Some s /\
     written l (itip_size s - 72) (match s with ITIP_110 => str_to_binary (itip_serial x) 38 | ITIP_212 => encode_string (itip_serial x) 140 end)
       (fun b => match s with ITIP_110 => (let* i := binary_to_int b in Ok (dec i)) | ITIP_212 => decode_string b end) (ascii_form (itip_serial x))).
  { destruct s; eexists _, _; (split; [reflexivity|]); (split; [reflexivity|]); (split; [reflexivity|]); (split; [reflexivity|]).
    - apply numeric_written; [lia|exact R].
    - apply text_written; [exact S|exact K|lia]. }
  destruct W as (l & v & -> & V & H & A & (S1 & S2 & S3 & S4)). clearbody l1 l2.
  assert (T : total_bits ((8%nat, v) :: [(3%nat, f)] ++ partition_fields 44 (itip_cp x) (itip_item x) ++ (l1 ++ l2 ++ l)) = itip_size s).
  { rewrite total_cons, !total_app, F2, P2, A2, B2, S2. destruct s; reflexivity. }
  split; [constructor; [exact V|]; rewrite !in_range_app; auto|]. split; [exact T|]. split.
  - unfold itip_binary. rewrite F3, P3, A3, B3. cbn [bind]. rewrite S3. cbn [bind]. rewrite (tobits_cons 8), !tobits_app, H. reflexivity.
  - intros extra. unfold itip_from_binary.
    rewrite (parse_tag itip_scheme_value itip_header_to_schemes v _ extra s (lit "itip") (match s with ITIP_110 => lit "110" | ITIP_212 => lit "212" end) (itip_size s)); auto;
      try (destruct s; reflexivity). 2:{ destruct s; cbn; lia. }
    cbn [bind]. set (p := partition_fields 44 (itip_cp x) (itip_item x)) in *.
    destruct (slices3 v f p (l1 ++ l2 ++ l)) as [E1 E2]. destruct (E2 58%nat) as [E3 _]; [now rewrite P2|].
    destruct (slices3 v f (p ++ l1 ++ l2) l) as [_ E5]. destruct (E5 72%nat) as [_ E6]; [rewrite !total_app; lia|].
    rewrite <- !app_assoc in E6.
    set (t := tobits ((8%nat, v) :: [(3%nat, f)] ++ p ++ l1 ++ l2 ++ l)) in *.
    assert (E7 : sl 58 65 t = tobits l1).
    { apply (slice_tag ((8%nat, v) :: [(3%nat, f)] ++ p) l1 (l2 ++ l) 58 65); rewrite total_cons, total_app, P2, F2, ?A2; reflexivity. }
    assert (E8 : sl 65 72 t = tobits l2).
    { unfold t. rewrite (app_assoc p). apply (slice_tag ((8%nat, v) :: [(3%nat, f)] ++ p ++ l1) l2 l 65 72); rewrite total_cons, !total_app, P2, F2, A2, ?B2; reflexivity. }
    rewrite E1, E3, E6, E7, E8. rewrite F4, P4, A4, B4. cbn [bind]. rewrite S4. cbn [bind].
    rewrite dec_of_N. etransitivity.
    + apply (from_tag_gen itip_init C_ITIP (itip_scheme_value s) (ndec f)); [nomatch itip_init|destruct s; cbn; auto|discriminate|apply ndec_nc].
    + f_equal. rewrite U, !ascii_form_app, (ascii_lit "urn:epc:id:itip:"), (ascii_lit ".") by reflexivity. rewrite <- ?app_assoc. reflexivity.
Qed.
