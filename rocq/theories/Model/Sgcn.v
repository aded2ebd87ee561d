(** epcpy/epc_schemes/sgcn.py *)
From Coq Require Import String.
From Verif.Model Require Import Py Re Regexes Common Base.

(** sgcn.py:24-84 *)
Definition sgcn_rows : list row :=
  [mkRow 0 40 12 1 0; mkRow 1 37 11 4 1; mkRow 2 34 10 7 2; mkRow 3 30 9 11 3; mkRow 4 27 8 14 4; mkRow 5 24 7 17 5; mkRow 6 20 6 21 6].
Definition sgcn_table_P : ptable := table_P sgcn_rows.
Definition sgcn_table_L : ptable := table_L sgcn_rows.

(** sgcn.py:121-125 *)
Inductive sgcn_scheme := SGCN_96.
Definition sgcn_scheme_value (s : sgcn_scheme) : str := lit "sgcn-96".
Definition sgcn_header (s : sgcn_scheme) : str := lit "00111111".
Definition sgcn_header_to_schemes : list (str * sgcn_scheme) := [(sgcn_header SGCN_96, SGCN_96)].

Record sgcn := mkSgcn {
  sgcn_epc_uri : str; sgcn_cp : str; sgcn_coupon : str; sgcn_serial : str; sgcn_gcn : str }.

(** sgcn.py:129-151 *)
Definition sgcn_init (epc_uri : str) : res sgcn :=
  let* _ := raise_if (negb (fullmatch SGCN_URI epc_uri)) ConvertException in
  let* value := field4 epc_uri in
  let* (cp, coupon, serial) := unpack3 (split c_dot value) in
  let* _ := raise_if (negb (length (cp ++ coupon) =? 12)%nat || (12 <? length serial)%nat ||
                      negb (cp_len_ok cp)) ConvertException in
  let* check_digit := calculate_checksum (cp ++ coupon) in
  Ok (mkSgcn epc_uri cp coupon serial (cp ++ coupon ++ dec check_digit ++ serial)).

(** sgcn.py:153-159 *)
Definition sgcn_gs1_key (x : sgcn) : str := sgcn_gcn x.
(** sgcn.py:161-167 *)
Definition sgcn_gs1_element_string (x : sgcn) : str := lit "(255)" ++ sgcn_gcn x.

(** sgcn.py:169-196 *)
Definition sgcn_from_gs1_element_string (gs1_element_string : str) (company_prefix_length : Z) : res sgcn :=
  let* _ := raise_if (negb (fullmatch SGCN_GS1_ELEMENT_STRING gs1_element_string)) ConvertException in
  let digits := sl 5 18 gs1_element_string in
  let chars := revert_uri_escapes (skipn 18 gs1_element_string) in
  sgcn_init (lit "urn:epc:id:sgcn:" ++ slz None (Some company_prefix_length) digits
             ++ [c_dot] ++ slz (Some company_prefix_length) (Some (-1)%Z) digits
             ++ [c_dot] ++ chars).

(** sgcn.py:198-213 *)
Definition sgcn_tag_uri (x : sgcn) (s : sgcn_scheme) (f : N) : res str :=
  Ok (TAG_URI_PREFIX ++ sgcn_scheme_value s ++ [c_colon] ++ filter_value f ++ [c_dot] ++ sgcn_cp x
      ++ [c_dot] ++ sgcn_coupon x ++ [c_dot] ++ sgcn_serial x).

(** sgcn.py:215-237 *)
Definition sgcn_binary (x : sgcn) (s : sgcn_scheme) (f : N) : res str :=
  let header := sgcn_header s in
  let* filter_binary := str_to_binary (filter_value f) 3 in
  let* sgcn_bin := encode_partition_table (sgcn_cp x) (sgcn_coupon x) sgcn_table_L false false in
  let* serial_binary := encode_numeric_string (sgcn_serial x) 41 in
  Ok (header ++ filter_binary ++ sgcn_bin ++ serial_binary).

Definition sgcn_from_tag_uri (u : str) : res sgcn := from_tag_uri sgcn_init u true.

(** sgcn.py:239-264 *)
Definition sgcn_from_binary (binary_string : str) : res sgcn :=
  let* (s, t) := parse_header_and_truncate_binary sgcn_scheme_value binary_string sgcn_header_to_schemes in
  let* filter_string := binary_to_int (sl 8 11 t) in
  let* sgcn_string := decode_partition_table (sl 11 55 t) sgcn_table_P false false false in
  let* serial_string := decode_numeric_string (skipn 55 t) in
  sgcn_from_tag_uri (TAG_URI_PREFIX ++ sgcn_scheme_value s ++ [c_colon] ++ dec filter_string
                     ++ [c_dot] ++ sgcn_string ++ [c_dot] ++ serial_string).
