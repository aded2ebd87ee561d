(** epcpy/epc_schemes/gsrnp.py *)
From Coq Require Import String.
From Verif.Model Require Import Py Re Regexes Common Base.

(** gsrnp.py:21-81 *)
Definition gsrnp_rows : list row :=
  [mkRow 0 40 12 18 5; mkRow 1 37 11 21 6; mkRow 2 34 10 24 7; mkRow 3 30 9 28 8; mkRow 4 27 8 31 9; mkRow 5 24 7 34 10; mkRow 6 20 6 38 11].
Definition gsrnp_table_P : ptable := table_P gsrnp_rows.
Definition gsrnp_table_L : ptable := table_L gsrnp_rows.

(** gsrnp.py:118-122 *)
Inductive gsrnp_scheme := GSRNP_96.
Definition gsrnp_scheme_value (s : gsrnp_scheme) : str := lit "gsrnp-96".
Definition gsrnp_header (s : gsrnp_scheme) : str := lit "00101110".
Definition gsrnp_header_to_schemes : list (str * gsrnp_scheme) := [(gsrnp_header GSRNP_96, GSRNP_96)].

Record gsrnp := mkGsrnp { gsrnp_epc_uri : str; gsrnp_cp : str; gsrnp_service : str; gsrnp_key : str }.

(** gsrnp.py:126-145 *)
Definition gsrnp_init (epc_uri : str) : res gsrnp :=
  let* _ := raise_if (negb (fullmatch GSRNP_URI epc_uri)) ConvertException in
  let* value := field4 epc_uri in
  let* (cp, service) := unpack2 (split c_dot value) in
  let* _ := raise_if (negb (length (cp ++ service) =? 17)%nat || negb (cp_len_ok cp)) ConvertException in
  let* check_digit := calculate_checksum (cp ++ service) in
  Ok (mkGsrnp epc_uri cp service (cp ++ service ++ dec check_digit)).

(** gsrnp.py:147-153 *)
Definition gsrnp_gs1_key (x : gsrnp) : str := gsrnp_key x.
(** gsrnp.py:155-161 *)
Definition gsrnp_gs1_element_string (x : gsrnp) : str := lit "(8017)" ++ gsrnp_key x.

(** gsrnp.py:163-188 *)
Definition gsrnp_from_gs1_element_string (gs1_element_string : str) (company_prefix_length : Z) : res gsrnp :=
  let* _ := raise_if (negb (fullmatch GSRNP_GS1_ELEMENT_STRING gs1_element_string)) ConvertException in
  let digits := skipn 6 gs1_element_string in
  gsrnp_init (lit "urn:epc:id:gsrnp:" ++ slz None (Some company_prefix_length) digits
             ++ [c_dot] ++ slz (Some company_prefix_length) (Some (-1)%Z) digits).

(** gsrnp.py:190-206 *)
Definition gsrnp_tag_uri (x : gsrnp) (s : gsrnp_scheme) (f : N) : res str :=
  Ok (TAG_URI_PREFIX ++ gsrnp_scheme_value s ++ [c_colon] ++ filter_value f ++ [c_dot] ++ gsrnp_cp x
      ++ [c_dot] ++ gsrnp_service x).

(** gsrnp.py:208-228 *)
Definition gsrnp_binary (x : gsrnp) (s : gsrnp_scheme) (f : N) : res str :=
  let header := gsrnp_header s in
  let* filter_binary := str_to_binary (filter_value f) 3 in
  let* gsrnp_bin := encode_partition_table (gsrnp_cp x) (gsrnp_service x) gsrnp_table_L false false in
  Ok (header ++ filter_binary ++ gsrnp_bin ++ repeat c_0 24).

Definition gsrnp_from_tag_uri (u : str) : res gsrnp := from_tag_uri gsrnp_init u true.

(** gsrnp.py:230-253 *)
Definition gsrnp_from_binary (binary_string : str) : res gsrnp :=
  let* (s, t) := parse_header_and_truncate_binary gsrnp_scheme_value binary_string gsrnp_header_to_schemes in
  let* filter_string := binary_to_int (sl 8 11 t) in
  let* gsrnp_string := decode_partition_table (sl 11 72 t) gsrnp_table_P false false false in
  gsrnp_from_tag_uri (TAG_URI_PREFIX ++ gsrnp_scheme_value s ++ [c_colon] ++ dec filter_string
                     ++ [c_dot] ++ gsrnp_string).
