(** epcpy/epc_schemes/sgtin.py *)
From Coq Require Import String.
From Verif.Model Require Import Py Re Regexes Common Base.

(** sgtin.py:25-75 PARTITION_TABLE_P, and 77-85 PARTITION_TABLE_L *)
Definition sgtin_rows : list row :=
  [mkRow 0 40 12 4 1; mkRow 1 37 11 7 2; mkRow 2 34 10 10 3; mkRow 3 30 9 14 4; mkRow 4 27 8 17 5; mkRow 5 24 7 20 6; mkRow 6 20 6 24 7].
Definition sgtin_table_P : ptable := table_P sgtin_rows.
Definition sgtin_table_L : ptable := table_L sgtin_rows.

(** sgtin.py:131-137 BinaryCodingScheme and BinaryHeader *)
Inductive sgtin_scheme := SGTIN_96 | SGTIN_198.
Definition sgtin_scheme_value (s : sgtin_scheme) : str :=
  match s with SGTIN_96 => lit "sgtin-96" | SGTIN_198 => lit "sgtin-198" end.
Definition sgtin_header (s : sgtin_scheme) : str :=
  match s with SGTIN_96 => lit "00110000" | SGTIN_198 => lit "00110110" end.
Definition sgtin_header_to_schemes : list (str * sgtin_scheme) :=
  [(sgtin_header SGTIN_96, SGTIN_96); (sgtin_header SGTIN_198, SGTIN_198)].

Record sgtin := mkSgtin {
  sgtin_epc_uri : str; sgtin_cp : str; sgtin_item : str; sgtin_serial : str; sgtin_gtin_ : str }.

(** sgtin.py:141-174 *)
Definition sgtin_init (epc_uri : str) : res sgtin :=
  let* _ := raise_if (negb (fullmatch SGTIN_URI epc_uri)) ConvertException in
  let* value := field4 epc_uri in
  let* cp := idx (split c_dot value) 0 in
  let* item := idx (split c_dot value) 1 in
  let serial := join [c_dot] (skipn 2 (split c_dot (tail4 epc_uri))) in
  let* _ := raise_if (negb (length (cp ++ item) =? 13)%nat || negb (cp_len_ok cp)) ConvertException in
  let* _ := verify_gs3a3_component serial in
  let* _ := raise_if (negb ((1 <=? length (replace_uri_escapes serial))%nat &&
                            (length (replace_uri_escapes serial) <=? 20)%nat)) ConvertException in
  let* i0 := idx item 0 in
  let* check_digit := calculate_checksum (i0 :: cp ++ skipn 1 item) in
  Ok (mkSgtin epc_uri cp item serial (zfill 14 (i0 :: cp ++ skipn 1 item ++ dec check_digit))).

(** sgtin.py:176-193 *)
Definition sgtin_from_gtin_plus_serial (gtin serial : str) (company_prefix_length : Z) : res sgtin :=
  let gtin := zfill 14 gtin in
  let* g0 := idx gtin 0 in
  sgtin_init (lit "urn:epc:id:sgtin:" ++ slz (Some 1%Z) (Some (1 + company_prefix_length)%Z) gtin
              ++ [c_dot] ++ [g0] ++ slz (Some (1 + company_prefix_length)%Z) (Some (-1)%Z) gtin
              ++ [c_dot] ++ serial).

(** sgtin.py:207-224 *)
Definition sgtin_gtin (x : sgtin) (t : gtin_type) : res str := gtin_view (sgtin_gtin_ x) t.
(** sgtin.py:195-205 *)
Definition sgtin_gs1_key (x : sgtin) (t : gtin_type) : res str := sgtin_gtin x t.

(** sgtin.py:226-235 *)
Definition sgtin_gs1_element_string (x : sgtin) : str :=
  lit "(01)" ++ sgtin_gtin_ x ++ lit "(21)" ++ replace_uri_escapes (sgtin_serial x).

(** the pattern "\(.{2}\)" *)
Definition m_paren2 : str -> option nat := m_seq [N.eqb 40; dotc; dotc; N.eqb 41].

(** sgtin.py:237-263 *)
Definition sgtin_from_gs1_element_string (gs1_element_string : str) (company_prefix_length : Z) : res sgtin :=
  let* _ := raise_if (negb (fullmatch SGTIN_GS1_ELEMENT_STRING gs1_element_string)) ConvertException in
  let* (_, digits, chars) := unpack3 (re_split m_paren2 gs1_element_string) in
  let chars := revert_uri_escapes chars in
  let* d0 := idx digits 0 in
  sgtin_init (lit "urn:epc:id:sgtin:" ++ slz (Some 1%Z) (Some (company_prefix_length + 1)%Z) digits
              ++ [c_dot] ++ [d0] ++ slz (Some (1 + company_prefix_length)%Z) (Some (-1)%Z) digits
              ++ [c_dot] ++ chars).

(** sgtin.py:265-294 *)
Definition sgtin_tag_uri (x : sgtin) (s : sgtin_scheme) (f : N) : res str :=
  let* bad := match s with SGTIN_96 => bad_numeric_serial (sgtin_serial x) 38 | SGTIN_198 => Ok false end in
  let* _ := raise_if bad ConvertException in
  Ok (TAG_URI_PREFIX ++ sgtin_scheme_value s ++ [c_colon] ++ filter_value f ++ [c_dot] ++ sgtin_cp x
      ++ [c_dot] ++ sgtin_item x ++ [c_dot] ++ sgtin_serial x).

(** sgtin.py:296-322 *)
Definition sgtin_binary (x : sgtin) (s : sgtin_scheme) (f : N) : res str :=
  let header := sgtin_header s in
  let* filter_binary := str_to_binary (filter_value f) 3 in
  let* gtin_binary := encode_partition_table (sgtin_cp x) (sgtin_item x) sgtin_table_L false false in
  let* serial_binary :=
    match s with
    | SGTIN_96 => str_to_binary (sgtin_serial x) 38
    | SGTIN_198 => encode_string (sgtin_serial x) 140
    end in
  Ok (header ++ filter_binary ++ gtin_binary ++ serial_binary).

(** base_scheme.py:169-196 inherited *)
Definition sgtin_from_tag_uri (u : str) : res sgtin := from_tag_uri sgtin_init u true.

(** sgtin.py:324-354 *)
Definition sgtin_from_binary (binary_string : str) : res sgtin :=
  let* (s, t) := parse_header_and_truncate_binary sgtin_scheme_value binary_string sgtin_header_to_schemes in
  let filter_binary := sl 8 11 t in
  let gtin_binary := sl 11 58 t in
  let serial_binary := skipn 58 t in
  let* filter_string := binary_to_int filter_binary in
  let* gtin_string := decode_partition_table gtin_binary sgtin_table_P false false false in
  let* serial_string :=
    match s with
    | SGTIN_96 => let* i := binary_to_int serial_binary in Ok (dec i)
    | SGTIN_198 => decode_string serial_binary
    end in
  sgtin_from_tag_uri (TAG_URI_PREFIX ++ sgtin_scheme_value s ++ [c_colon] ++ dec filter_string
                      ++ [c_dot] ++ gtin_string ++ [c_dot] ++ serial_string).
