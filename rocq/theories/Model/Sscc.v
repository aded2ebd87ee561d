(** epcpy/epc_schemes/sscc.py *)
From Coq Require Import String.
From Verif.Model Require Import Py Re Regexes Common Base.

(** sscc.py:20-80 *)
Definition sscc_rows : list row :=
  [mkRow 0 40 12 18 5; mkRow 1 37 11 21 6; mkRow 2 34 10 24 7; mkRow 3 30 9 28 8; mkRow 4 27 8 31 9; mkRow 5 24 7 34 10; mkRow 6 20 6 38 11].
Definition sscc_table_P : ptable := table_P sscc_rows.
Definition sscc_table_L : ptable := table_L sscc_rows.

(** sscc.py:117-121 *)
Inductive sscc_scheme := SSCC_96.
Definition sscc_scheme_value (s : sscc_scheme) : str := lit "sscc-96".
Definition sscc_header (s : sscc_scheme) : str := lit "00110001".
Definition sscc_header_to_schemes : list (str * sscc_scheme) := [(sscc_header SSCC_96, SSCC_96)].

Record sscc := mkSscc { sscc_epc_uri : str; sscc_cp : str; sscc_serial : str; sscc_sscc : str }.

(** sscc.py:125-148 *)
Definition sscc_init (epc_uri : str) : res sscc :=
  let* _ := raise_if (negb (fullmatch SSCC_URI epc_uri)) ConvertException in
  let* last := idx_last (split c_colon epc_uri) in
  let* (cp, serial) := unpack2 (split c_dot last) in
  let* _ := raise_if (negb (length (cp ++ serial) =? 17)%nat || negb (cp_len_ok cp)) ConvertException in
  let* s0 := idx serial 0 in
  let* check_digit := calculate_checksum (s0 :: cp ++ skipn 1 serial) in
  Ok (mkSscc epc_uri cp serial (s0 :: cp ++ skipn 1 serial ++ dec check_digit)).

(** sscc.py:150-156 *)
Definition sscc_gs1_key (x : sscc) : str := sscc_sscc x.
(** sscc.py:158-164 *)
Definition sscc_gs1_element_string (x : sscc) : str := lit "(00)" ++ sscc_sscc x.

(** the pattern "\(.{2}\)" *)
Definition sscc_m_paren2 : str -> option nat := m_seq [N.eqb 40; dotc; dotc; N.eqb 41].

(** sscc.py:166-191 *)
Definition sscc_from_gs1_element_string (gs1_element_string : str) (company_prefix_length : Z) : res sscc :=
  let* _ := raise_if (negb (fullmatch SSCC_GS1_ELEMENT_STRING gs1_element_string)) ConvertException in
  let* (_, digits) := unpack2 (re_split sscc_m_paren2 gs1_element_string) in
  let* d0 := idx digits 0 in
  sscc_init (lit "urn:epc:id:sscc:" ++ slz (Some 1%Z) (Some (company_prefix_length + 1)%Z) digits
             ++ [c_dot] ++ [d0] ++ slz (Some (1 + company_prefix_length)%Z) (Some (-1)%Z) digits).

(** sscc.py:193-208 *)
Definition sscc_tag_uri (x : sscc) (s : sscc_scheme) (f : N) : res str :=
  Ok (TAG_URI_PREFIX ++ sscc_scheme_value s ++ [c_colon] ++ filter_value f ++ [c_dot] ++ sscc_cp x
      ++ [c_dot] ++ sscc_serial x).

(** sscc.py:210-231 *)
Definition sscc_binary (x : sscc) (s : sscc_scheme) (f : N) : res str :=
  let header := sscc_header s in
  let* filter_binary := str_to_binary (filter_value f) 3 in
  let* sscc_bin := encode_partition_table (sscc_cp x) (sscc_serial x) sscc_table_L false false in
  Ok (header ++ filter_binary ++ sscc_bin ++ repeat c_0 24).

Definition sscc_from_tag_uri (u : str) : res sscc := from_tag_uri sscc_init u true.

(** sscc.py:233-256 *)
Definition sscc_from_binary (binary_string : str) : res sscc :=
  let* (s, t) := parse_header_and_truncate_binary sscc_scheme_value binary_string sscc_header_to_schemes in
  let* filter_string := binary_to_int (sl 8 11 t) in
  let* sscc_string := decode_partition_table (sl 11 72 t) sscc_table_P false false false in
  sscc_from_tag_uri (TAG_URI_PREFIX ++ sscc_scheme_value s ++ [c_colon] ++ dec filter_string
                     ++ [c_dot] ++ sscc_string).
