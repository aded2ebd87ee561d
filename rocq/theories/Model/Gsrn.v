(** epcpy/epc_schemes/gsrn.py *)
From Coq Require Import String.
From Verif.Model Require Import Py Re Regexes Common Base.

(** gsrn.py:21-81 *)
Definition gsrn_rows : list row :=
  [mkRow 0 40 12 18 5; mkRow 1 37 11 21 6; mkRow 2 34 10 24 7; mkRow 3 30 9 28 8; mkRow 4 27 8 31 9; mkRow 5 24 7 34 10; mkRow 6 20 6 38 11].
Definition gsrn_table_P : ptable := table_P gsrn_rows.
Definition gsrn_table_L : ptable := table_L gsrn_rows.

(** gsrn.py:118-122 *)
Inductive gsrn_scheme := GSRN_96.
Definition gsrn_scheme_value (s : gsrn_scheme) : str := lit "gsrn-96".
Definition gsrn_header (s : gsrn_scheme) : str := lit "00101101".
Definition gsrn_header_to_schemes : list (str * gsrn_scheme) := [(gsrn_header GSRN_96, GSRN_96)].

Record gsrn := mkGsrn { gsrn_epc_uri : str; gsrn_cp : str; gsrn_service : str; gsrn_key : str }.

(** gsrn.py:126-145 *)
Definition gsrn_init (epc_uri : str) : res gsrn :=
  let* _ := raise_if (negb (fullmatch GSRN_URI epc_uri)) ConvertException in
  let* value := field4 epc_uri in
  let* (cp, service) := unpack2 (split c_dot value) in
  let* _ := raise_if (negb (length (cp ++ service) =? 17)%nat || negb (cp_len_ok cp)) ConvertException in
  let* check_digit := calculate_checksum (cp ++ service) in
  Ok (mkGsrn epc_uri cp service (cp ++ service ++ dec check_digit)).

(** gsrn.py:147-153 *)
Definition gsrn_gs1_key (x : gsrn) : str := gsrn_key x.
(** gsrn.py:155-161 *)
Definition gsrn_gs1_element_string (x : gsrn) : str := lit "(8018)" ++ gsrn_key x.

(** gsrn.py:163-188 *)
Definition gsrn_from_gs1_element_string (gs1_element_string : str) (company_prefix_length : Z) : res gsrn :=
  let* _ := raise_if (negb (fullmatch GSRN_GS1_ELEMENT_STRING gs1_element_string)) ConvertException in
  let digits := skipn 6 gs1_element_string in
  gsrn_init (lit "urn:epc:id:gsrn:" ++ slz None (Some company_prefix_length) digits
             ++ [c_dot] ++ slz (Some company_prefix_length) (Some (-1)%Z) digits).

(** gsrn.py:190-204 *)
Definition gsrn_tag_uri (x : gsrn) (s : gsrn_scheme) (f : N) : res str :=
  Ok (TAG_URI_PREFIX ++ gsrn_scheme_value s ++ [c_colon] ++ filter_value f ++ [c_dot] ++ gsrn_cp x
      ++ [c_dot] ++ gsrn_service x).

(** gsrn.py:206-226 *)
Definition gsrn_binary (x : gsrn) (s : gsrn_scheme) (f : N) : res str :=
  let header := gsrn_header s in
  let* filter_binary := str_to_binary (filter_value f) 3 in
  let* gsrn_bin := encode_partition_table (gsrn_cp x) (gsrn_service x) gsrn_table_L false false in
  Ok (header ++ filter_binary ++ gsrn_bin ++ repeat c_0 24).

Definition gsrn_from_tag_uri (u : str) : res gsrn := from_tag_uri gsrn_init u true.

(** gsrn.py:228-251 *)
Definition gsrn_from_binary (binary_string : str) : res gsrn :=
  let* (s, t) := parse_header_and_truncate_binary gsrn_scheme_value binary_string gsrn_header_to_schemes in
  let* filter_string := binary_to_int (sl 8 11 t) in
  let* gsrn_string := decode_partition_table (sl 11 72 t) gsrn_table_P false false false in
  gsrn_from_tag_uri (TAG_URI_PREFIX ++ gsrn_scheme_value s ++ [c_colon] ++ dec filter_string
                     ++ [c_dot] ++ gsrn_string).
