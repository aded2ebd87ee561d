(** binary() and from_binary(): SGTIN, SGLN, GRAI, GDTI. *)
From Coq Require Import String.
From Verif.Model Require Import Py Re Regexes Common Base.
From Verif.Model Require Import Gdti Grai Sgln Sgtin Parsers.
From Verif.Spec Require Import Spec SpecEscapes SpecGrammar SpecSchemes SpecTags SpecLayout.
From Verif.Proofs Require Import Basics Num ReLemmas Uni Escapes Codecs Codecs2 Partition Grammar Ctor CtorA CtorB CtorC CtorAll TagUri TagFits Layout.

Definition sgtin_size (s : sgtin_scheme) : nat := match s with SGTIN_96 => 96 | SGTIN_198 => 198 end.
Lemma sgtin_coded u x s f : sgtin_init u = Ok x -> coding_has_room (T_SGTIN x s f) -> canonical_request (T_SGTIN x s f) -> f < 8 ->
  coded (tag_layout (T_SGTIN x s f)) (sgtin_size s) (sgtin_binary x s f) sgtin_from_binary sgtin_init u.
Proof.
  intros I R K F. pose proof I as I0. apply sgtin_iff in I as ((U & C & D & L & S & B) & _).
  destruct (filter_written f 3) as (F1 & F2 & F3 & F4); [lia|exact F|].
  destruct (partition_written sgtin_rows 44 13 (sgtin_cp x) (sgtin_item x)) as (P1 & P2 & P3 & P4); [vm_compute; reflexivity|vm_compute; reflexivity|auto..|].
  change (table_L sgtin_rows) with sgtin_table_L in P3. change (table_P sgtin_rows) with sgtin_table_P in P4.
  assert (W : exists l v, tag_layout (T_SGTIN x s f) = (8%nat, v) :: [(3%nat, f)] ++ partition_fields 44 (sgtin_cp x) (sgtin_item x) ++ l /\
     v < 2 ^ 8 /\ bits 8 v = sgtin_header s /\ assoc_str (bits 8 v) sgtin_header_to_schemes = Some s /\
     written l (sgtin_size s - 58) (match s with SGTIN_96 => str_to_binary (sgtin_serial x) 38 | SGTIN_198 => encode_string (sgtin_serial x) 140 end)
       (fun b => match s with SGTIN_96 => (let* i := binary_to_int b in Ok (dec i)) | SGTIN_198 => decode_string b end) (ascii_form (sgtin_serial x))).
  { destruct s; eexists _, _; (split; [reflexivity|]); (split; [reflexivity|]); (split; [reflexivity|]); (split; [reflexivity|]).
    - apply numeric_written; [lia|exact R].
    - apply text_written; [exact S|exact K|lia]. }
  destruct W as (l & v & -> & V & H & A & (S1 & S2 & S3 & S4)).
  assert (T : total_bits ((8%nat, v) :: [(3%nat, f)] ++ partition_fields 44 (sgtin_cp x) (sgtin_item x) ++ l) = sgtin_size s).
  { rewrite total_cons, !total_app, F2, P2, S2. destruct s; reflexivity. }
  split; [constructor; [exact V|]; rewrite !in_range_app; auto|]. split; [exact T|]. split.
  - unfold sgtin_binary. rewrite F3, P3. cbn [bind]. rewrite S3. cbn [bind]. rewrite (tobits_cons 8), !tobits_app, H. reflexivity.
  - intros extra. unfold sgtin_from_binary.
    rewrite (parse_tag sgtin_scheme_value sgtin_header_to_schemes v _ extra s (lit "sgtin") (match s with SGTIN_96 => lit "96" | SGTIN_198 => lit "198" end) (sgtin_size s)); auto;
      try (destruct s; reflexivity). 2:{ destruct s; cbn; lia. }
    cbn [bind]. destruct (slices3 v f (partition_fields 44 (sgtin_cp x) (sgtin_item x)) l) as [E1 E2].
    rewrite E1. destruct (E2 58%nat) as [E3 E4]; [now rewrite P2|]. rewrite E3, E4, F4, P4. cbn [bind]. rewrite S4. cbn [bind].
    rewrite dec_of_N. etransitivity.
    + apply (from_tag_gen sgtin_init C_SGTIN (sgtin_scheme_value s) (ndec f)); [nomatch sgtin_init|destruct s; cbn; auto|discriminate|apply ndec_nc].
    + f_equal. rewrite U, !ascii_form_app, (ascii_lit "urn:epc:id:sgtin:"), (ascii_lit ".") by reflexivity. rewrite <- !app_assoc. reflexivity.
Qed.

Definition sgln_size (s : sgln_scheme) : nat := match s with SGLN_96 => 96 | SGLN_195 => 195 end.
Lemma sgln_coded u x s f : sgln_init u = Ok x -> coding_has_room (T_SGLN x s f) -> canonical_request (T_SGLN x s f) -> f < 8 ->
  coded (tag_layout (T_SGLN x s f)) (sgln_size s) (sgln_binary x s f) sgln_from_binary sgln_init u.
Proof.
  intros I R K F. pose proof I as I0. apply sgln_iff in I as ((U & C & D & L & S & B) & _).
  destruct (filter_written f 3) as (F1 & F2 & F3 & F4); [lia|exact F|].
  destruct (partition_written sgln_rows 41 12 (sgln_cp x) (sgln_loc x)) as (P1 & P2 & P3 & P4); [vm_compute; reflexivity|vm_compute; reflexivity|auto..|].
  change (table_L sgln_rows) with sgln_table_L in P3. change (table_P sgln_rows) with sgln_table_P in P4.
  assert (W : exists l v, tag_layout (T_SGLN x s f) = (8%nat, v) :: [(3%nat, f)] ++ partition_fields 41 (sgln_cp x) (sgln_loc x) ++ l /\
     v < 2 ^ 8 /\ bits 8 v = sgln_header s /\ assoc_str (bits 8 v) sgln_header_to_schemes = Some s /\
     written l (sgln_size s - 55) (match s with SGLN_96 => str_to_binary (sgln_serial x) 41 | SGLN_195 => encode_string (sgln_serial x) 140 end)
       (fun b => match s with SGLN_96 => (let* i := binary_to_int b in Ok (dec i)) | SGLN_195 => decode_string b end) (ascii_form (sgln_serial x))).
  { destruct s; eexists _, _; (split; [reflexivity|]); (split; [reflexivity|]); (split; [reflexivity|]); (split; [reflexivity|]).
    - apply numeric_written; [lia|exact R].
    - apply text_written; [exact S|exact K|lia]. }
  destruct W as (l & v & -> & V & H & A & (S1 & S2 & S3 & S4)).
  assert (T : total_bits ((8%nat, v) :: [(3%nat, f)] ++ partition_fields 41 (sgln_cp x) (sgln_loc x) ++ l) = sgln_size s).
  { rewrite total_cons, !total_app, F2, P2, S2. destruct s; reflexivity. }
  split; [constructor; [exact V|]; rewrite !in_range_app; auto|]. split; [exact T|]. split.
  - unfold sgln_binary. rewrite F3, P3. cbn [bind]. rewrite S3. cbn [bind]. rewrite (tobits_cons 8), !tobits_app, H. reflexivity.
  - intros extra. unfold sgln_from_binary.
    rewrite (parse_tag sgln_scheme_value sgln_header_to_schemes v _ extra s (lit "sgln") (match s with SGLN_96 => lit "96" | SGLN_195 => lit "195" end) (sgln_size s)); auto;
      try (destruct s; reflexivity). 2:{ destruct s; cbn; lia. }
    cbn [bind]. destruct (slices3 v f (partition_fields 41 (sgln_cp x) (sgln_loc x)) l) as [E1 E2].
    rewrite E1. destruct (E2 55%nat) as [E3 E4]; [now rewrite P2|]. rewrite E3, E4, F4, P4. cbn [bind]. rewrite S4. cbn [bind].
    rewrite dec_of_N. etransitivity.
    + apply (from_tag_gen sgln_init C_SGLN (sgln_scheme_value s) (ndec f)); [nomatch sgln_init|destruct s; cbn; auto|discriminate|apply ndec_nc].
    + f_equal. rewrite U, !ascii_form_app, (ascii_lit "urn:epc:id:sgln:"), (ascii_lit ".") by reflexivity. rewrite <- !app_assoc. reflexivity.
Qed.

Definition grai_size (s : grai_scheme) : nat := match s with GRAI_96 => 96 | GRAI_170 => 170 end.
Lemma grai_coded u x s f : grai_init u = Ok x -> coding_has_room (T_GRAI x s f) -> canonical_request (T_GRAI x s f) -> f < 8 ->
  coded (tag_layout (T_GRAI x s f)) (grai_size s) (grai_binary x s f) grai_from_binary grai_init u.
Proof.
  intros I R K F. pose proof I as I0. apply grai_iff in I as ((U & C & D & L & S & B) & _).
  destruct (filter_written f 3) as (F1 & F2 & F3 & F4); [lia|exact F|].
  destruct (partition_written grai_rows 44 12 (grai_cp x) (grai_asset x)) as (P1 & P2 & P3 & P4); [vm_compute; reflexivity|vm_compute; reflexivity|auto..|].
  change (table_L grai_rows) with grai_table_L in P3. change (table_P grai_rows) with grai_table_P in P4.
  assert (W : exists l v, tag_layout (T_GRAI x s f) = (8%nat, v) :: [(3%nat, f)] ++ partition_fields 44 (grai_cp x) (grai_asset x) ++ l /\
     v < 2 ^ 8 /\ bits 8 v = grai_header s /\ assoc_str (bits 8 v) grai_header_to_schemes = Some s /\
     written l (grai_size s - 58) (match s with GRAI_96 => str_to_binary (grai_serial x) 38 | GRAI_170 => encode_string (grai_serial x) 112 end)
       (fun b => match s with GRAI_96 => (let* i := binary_to_int b in Ok (dec i)) | GRAI_170 => decode_string b end) (ascii_form (grai_serial x))).
  { destruct s; eexists _, _; (split; [reflexivity|]); (split; [reflexivity|]); (split; [reflexivity|]); (split; [reflexivity|]).
    - apply numeric_written; [lia|exact R].
    - apply text_written; [exact S|exact K|rewrite unescape_spec; pose proof (replace_length (grai_serial x)); lia]. }
  destruct W as (l & v & -> & V & H & A & (S1 & S2 & S3 & S4)).
  assert (T : total_bits ((8%nat, v) :: [(3%nat, f)] ++ partition_fields 44 (grai_cp x) (grai_asset x) ++ l) = grai_size s).
  { rewrite total_cons, !total_app, F2, P2, S2. destruct s; reflexivity. }
  split; [constructor; [exact V|]; rewrite !in_range_app; auto|]. split; [exact T|]. split.
  - unfold grai_binary. rewrite F3, P3. cbn [bind]. rewrite S3. cbn [bind]. rewrite (tobits_cons 8), !tobits_app, H. reflexivity.
  - intros extra. unfold grai_from_binary.
    rewrite (parse_tag grai_scheme_value grai_header_to_schemes v _ extra s (lit "grai") (match s with GRAI_96 => lit "96" | GRAI_170 => lit "170" end) (grai_size s)); auto;
      try (destruct s; reflexivity). 2:{ destruct s; cbn; lia. }
    cbn [bind]. destruct (slices3 v f (partition_fields 44 (grai_cp x) (grai_asset x)) l) as [E1 E2].
    rewrite E1. destruct (E2 58%nat) as [E3 E4]; [now rewrite P2|]. rewrite E3, E4, F4, P4. cbn [bind]. rewrite S4. cbn [bind].
    rewrite dec_of_N. etransitivity.
    + apply (from_tag_gen grai_init C_GRAI (grai_scheme_value s) (ndec f)); [nomatch grai_init|destruct s; cbn; auto|discriminate|apply ndec_nc].
    + f_equal. rewrite U, !ascii_form_app, (ascii_lit "urn:epc:id:grai:"), (ascii_lit ".") by reflexivity. rewrite <- !app_assoc. reflexivity.
Qed.

Definition gdti_size (s : gdti_scheme) : nat := match s with GDTI_96 => 96 | GDTI_174 => 174 end.
Lemma gdti_coded u x s f : gdti_init u = Ok x -> coding_has_room (T_GDTI x s f) -> canonical_request (T_GDTI x s f) -> f < 8 ->
  coded (tag_layout (T_GDTI x s f)) (gdti_size s) (gdti_binary x s f) gdti_from_binary gdti_init u.
Proof.
  intros I R K F. pose proof I as I0. apply gdti_iff in I as ((U & C & D & L & S & B) & _).
  destruct (filter_written f 3) as (F1 & F2 & F3 & F4); [lia|exact F|].
  destruct (partition_written gdti_rows 41 12 (gdti_cp x) (gdti_doc x)) as (P1 & P2 & P3 & P4); [vm_compute; reflexivity|vm_compute; reflexivity|auto..|].
  change (table_L gdti_rows) with gdti_table_L in P3. change (table_P gdti_rows) with gdti_table_P in P4.
  assert (W : exists l v, tag_layout (T_GDTI x s f) = (8%nat, v) :: [(3%nat, f)] ++ partition_fields 41 (gdti_cp x) (gdti_doc x) ++ l /\
     v < 2 ^ 8 /\ bits 8 v = gdti_header s /\ assoc_str (bits 8 v) gdti_header_to_schemes = Some s /\
     written l (gdti_size s - 55) (match s with GDTI_96 => str_to_binary (gdti_serial x) 41 | GDTI_174 => encode_string (gdti_serial x) 119 end)
       (fun b => match s with GDTI_96 => (let* i := binary_to_int b in Ok (dec i)) | GDTI_174 => decode_string b end) (ascii_form (gdti_serial x))).
  { destruct s; eexists _, _; (split; [reflexivity|]); (split; [reflexivity|]); (split; [reflexivity|]); (split; [reflexivity|]).
    - apply numeric_written; [lia|exact R].
    - apply text_written; [exact S|exact K|rewrite unescape_spec; pose proof (replace_length (gdti_serial x)); lia]. }
  destruct W as (l & v & -> & V & H & A & (S1 & S2 & S3 & S4)).
  assert (T : total_bits ((8%nat, v) :: [(3%nat, f)] ++ partition_fields 41 (gdti_cp x) (gdti_doc x) ++ l) = gdti_size s).
  { rewrite total_cons, !total_app, F2, P2, S2. destruct s; reflexivity. }
  split; [constructor; [exact V|]; rewrite !in_range_app; auto|]. split; [exact T|]. split.
  - unfold gdti_binary. rewrite F3, P3. cbn [bind]. rewrite S3. cbn [bind]. rewrite (tobits_cons 8), !tobits_app, H. reflexivity.
  - intros extra. unfold gdti_from_binary.
    rewrite (parse_tag gdti_scheme_value gdti_header_to_schemes v _ extra s (lit "gdti") (match s with GDTI_96 => lit "96" | GDTI_174 => lit "174" end) (gdti_size s)); auto;
      try (destruct s; reflexivity). 2:{ destruct s; cbn; lia. }
    cbn [bind]. destruct (slices3 v f (partition_fields 41 (gdti_cp x) (gdti_doc x)) l) as [E1 E2].
    rewrite E1. destruct (E2 55%nat) as [E3 E4]; [now rewrite P2|]. rewrite E3, E4, F4, P4. cbn [bind]. rewrite S4. cbn [bind].
    rewrite dec_of_N. etransitivity.
    + apply (from_tag_gen gdti_init C_GDTI (gdti_scheme_value s) (ndec f)); [nomatch gdti_init|destruct s; cbn; auto|discriminate|apply ndec_nc].
    + f_equal. rewrite U, !ascii_form_app, (ascii_lit "urn:epc:id:gdti:"), (ascii_lit ".") by reflexivity. rewrite <- !app_assoc. reflexivity.
Qed.
