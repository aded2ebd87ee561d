(** epcpy/epc_schemes/gdti.py *)
From Coq Require Import String.
From Verif.Model Require Import Py Re Regexes Common Base.

(** gdti.py:25-85 *)
Definition gdti_rows : list row :=
  [mkRow 0 40 12 1 0; mkRow 1 37 11 4 1; mkRow 2 34 10 7 2; mkRow 3 30 9 11 3; mkRow 4 27 8 14 4; mkRow 5 24 7 17 5; mkRow 6 20 6 21 6].
Definition gdti_table_P : ptable := table_P gdti_rows.
Definition gdti_table_L : ptable := table_L gdti_rows.

(** gdti.py:122-128 *)
Inductive gdti_scheme := GDTI_96 | GDTI_174.
Definition gdti_scheme_value (s : gdti_scheme) : str :=
  match s with GDTI_96 => lit "gdti-96" | GDTI_174 => lit "gdti-174" end.
Definition gdti_header (s : gdti_scheme) : str :=
  match s with GDTI_96 => lit "00101100" | GDTI_174 => lit "00111110" end.
Definition gdti_header_to_schemes : list (str * gdti_scheme) :=
  [(gdti_header GDTI_96, GDTI_96); (gdti_header GDTI_174, GDTI_174)].

Record gdti := mkGdti {
  gdti_epc_uri : str; gdti_cp : str; gdti_doc : str; gdti_serial : str; gdti_gdti : str }.

(** gdti.py:132-155 *)
Definition gdti_init (epc_uri : str) : res gdti :=
  let* _ := raise_if (negb (fullmatch GDTI_URI epc_uri)) ConvertException in
  let serial := join [c_dot] (skipn 2 (split c_dot (tail4 epc_uri))) in
  let* _ := verify_gs3a3_component serial in
  let* value := field4 epc_uri in
  let* (cp, doc) := unpack2 (firstn 2 (split c_dot value)) in
  let* _ := raise_if (negb (length (cp ++ doc) =? 12)%nat || (17 <? length serial)%nat ||
                      negb (cp_len_ok cp)) ConvertException in
  let* check_digit := calculate_checksum (cp ++ doc) in
  Ok (mkGdti epc_uri cp doc serial (cp ++ doc ++ dec check_digit ++ replace_uri_escapes serial)).

(** gdti.py:157-163 *)
Definition gdti_gs1_key (x : gdti) : str := gdti_gdti x.
(** gdti.py:165-171 *)
Definition gdti_gs1_element_string (x : gdti) : str := lit "(253)" ++ gdti_gdti x.

(** gdti.py:173-200 *)
Definition gdti_from_gs1_element_string (gs1_element_string : str) (company_prefix_length : Z) : res gdti :=
  let* _ := raise_if (negb (fullmatch GDTI_GS1_ELEMENT_STRING gs1_element_string)) ConvertException in
  let digits := sl 5 18 gs1_element_string in
  let chars := revert_uri_escapes (skipn 18 gs1_element_string) in
  gdti_init (lit "urn:epc:id:gdti:" ++ slz None (Some company_prefix_length) digits
             ++ [c_dot] ++ slz (Some company_prefix_length) (Some (-1)%Z) digits
             ++ [c_dot] ++ chars).

(** gdti.py:202-235 *)
Definition gdti_tag_uri (x : gdti) (s : gdti_scheme) (f : N) : res str :=
  let* bad := match s with
              | GDTI_174 => Ok (17 <? length (replace_uri_escapes (gdti_serial x)))%nat
              | GDTI_96 => bad_numeric_serial (gdti_serial x) 41
              end in
  let* _ := raise_if bad ConvertException in
  Ok (TAG_URI_PREFIX ++ gdti_scheme_value s ++ [c_colon] ++ filter_value f ++ [c_dot] ++ gdti_cp x
      ++ [c_dot] ++ gdti_doc x ++ [c_dot] ++ gdti_serial x).

(** gdti.py:237-263 *)
Definition gdti_binary (x : gdti) (s : gdti_scheme) (f : N) : res str :=
  let header := gdti_header s in
  let* filter_binary := str_to_binary (filter_value f) 3 in
  let* gdti_bin := encode_partition_table (gdti_cp x) (gdti_doc x) gdti_table_L false false in
  let* serial_binary :=
    match s with
    | GDTI_96 => str_to_binary (gdti_serial x) 41
    | GDTI_174 => encode_string (gdti_serial x) 119
    end in
  Ok (header ++ filter_binary ++ gdti_bin ++ serial_binary).

Definition gdti_from_tag_uri (u : str) : res gdti := from_tag_uri gdti_init u true.

(** gdti.py:265-294 *)
Definition gdti_from_binary (binary_string : str) : res gdti :=
  let* (s, t) := parse_header_and_truncate_binary gdti_scheme_value binary_string gdti_header_to_schemes in
  let serial_binary := skipn 55 t in
  let* filter_string := binary_to_int (sl 8 11 t) in
  let* gdti_string := decode_partition_table (sl 11 55 t) gdti_table_P false false false in
  let* serial_string :=
    match s with
    | GDTI_96 => let* i := binary_to_int serial_binary in Ok (dec i)
    | GDTI_174 => decode_string serial_binary
    end in
  gdti_from_tag_uri (TAG_URI_PREFIX ++ gdti_scheme_value s ++ [c_colon] ++ dec filter_string
                     ++ [c_dot] ++ gdti_string ++ [c_dot] ++ serial_string).
