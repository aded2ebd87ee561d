(** epcpy/epc_schemes/sgln.py *)
From Coq Require Import String.
From Verif.Model Require Import Py Re Regexes Common Base.

(** sgln.py:25-85 *)
Definition sgln_rows : list row :=
  [mkRow 0 40 12 1 0; mkRow 1 37 11 4 1; mkRow 2 34 10 7 2; mkRow 3 30 9 11 3; mkRow 4 27 8 14 4; mkRow 5 24 7 17 5; mkRow 6 20 6 21 6].
Definition sgln_table_P : ptable := table_P sgln_rows.
Definition sgln_table_L : ptable := table_L sgln_rows.

(** sgln.py:122-128 *)
Inductive sgln_scheme := SGLN_96 | SGLN_195.
Definition sgln_scheme_value (s : sgln_scheme) : str :=
  match s with SGLN_96 => lit "sgln-96" | SGLN_195 => lit "sgln-195" end.
Definition sgln_header (s : sgln_scheme) : str :=
  match s with SGLN_96 => lit "00110010" | SGLN_195 => lit "00111001" end.
Definition sgln_header_to_schemes : list (str * sgln_scheme) :=
  [(sgln_header SGLN_96, SGLN_96); (sgln_header SGLN_195, SGLN_195)].

Record sgln := mkSgln {
  sgln_epc_uri : str; sgln_cp : str; sgln_loc : str; sgln_serial : str; sgln_gln : str }.

(** sgln.py:132-155 *)
Definition sgln_init (epc_uri : str) : res sgln :=
  let* _ := raise_if (negb (fullmatch SGLN_URI epc_uri)) ConvertException in
  let* value := field4 epc_uri in
  let* (cp, loc) := unpack2 (firstn 2 (split c_dot value)) in
  let serial := join [c_dot] (skipn 2 (split c_dot (tail4 epc_uri))) in
  let* _ := raise_if (negb (length (cp ++ loc) =? 12)%nat || negb (cp_len_ok cp) ||
                      (20 <? length (replace_uri_escapes serial))%nat) ConvertException in
  let* _ := verify_gs3a3_component serial in
  let* check_digit := calculate_checksum (cp ++ loc) in
  Ok (mkSgln epc_uri cp loc serial (cp ++ loc ++ dec check_digit)).

(** sgln.py:157-163 *)
Definition sgln_gs1_key (x : sgln) : str := sgln_gln x.
(** sgln.py:165-172 *)
Definition sgln_gs1_element_string (x : sgln) : str :=
  lit "(414)" ++ sgln_gln x ++ lit "(254)" ++ replace_uri_escapes (sgln_serial x).

(** the pattern "\(.{3}\)" *)
Definition m_paren3 : str -> option nat := m_seq [N.eqb 40; dotc; dotc; dotc; N.eqb 41].

(** sgln.py:174-200 *)
Definition sgln_from_gs1_element_string (gs1_element_string : str) (company_prefix_length : Z) : res sgln :=
  let* _ := raise_if (negb (fullmatch SGLN_GS1_ELEMENT_STRING gs1_element_string)) ConvertException in
  let* (_, digits, chars) := unpack3 (re_split m_paren3 gs1_element_string) in
  let chars := revert_uri_escapes chars in
  sgln_init (lit "urn:epc:id:sgln:" ++ slz None (Some company_prefix_length) digits
             ++ [c_dot] ++ slz (Some company_prefix_length) (Some (-1)%Z) digits
             ++ [c_dot] ++ chars).

(** sgln.py:202-230 *)
Definition sgln_tag_uri (x : sgln) (s : sgln_scheme) (f : N) : res str :=
  let* bad := match s with
              | SGLN_195 => Ok (20 <? length (replace_uri_escapes (sgln_serial x)))%nat
              | SGLN_96 => bad_numeric_serial (sgln_serial x) 41
              end in
  let* _ := raise_if bad ConvertException in
  Ok (TAG_URI_PREFIX ++ sgln_scheme_value s ++ [c_colon] ++ filter_value f ++ [c_dot] ++ sgln_cp x
      ++ [c_dot] ++ sgln_loc x ++ [c_dot] ++ sgln_serial x).

(** sgln.py:232-257 *)
Definition sgln_binary (x : sgln) (s : sgln_scheme) (f : N) : res str :=
  let header := sgln_header s in
  let* filter_binary := str_to_binary (filter_value f) 3 in
  let* gln_binary := encode_partition_table (sgln_cp x) (sgln_loc x) sgln_table_L false false in
  let* serial_binary :=
    match s with
    | SGLN_96 => str_to_binary (sgln_serial x) 41
    | SGLN_195 => encode_string (sgln_serial x) 140
    end in
  Ok (header ++ filter_binary ++ gln_binary ++ serial_binary).

Definition sgln_from_tag_uri (u : str) : res sgln := from_tag_uri sgln_init u true.

(** sgln.py:259-288 *)
Definition sgln_from_binary (binary_string : str) : res sgln :=
  let* (s, t) := parse_header_and_truncate_binary sgln_scheme_value binary_string sgln_header_to_schemes in
  let serial_binary := skipn 55 t in
  let* filter_string := binary_to_int (sl 8 11 t) in
  let* gln_string := decode_partition_table (sl 11 55 t) sgln_table_P false false false in
  let* serial_string :=
    match s with
    | SGLN_96 => let* i := binary_to_int serial_binary in Ok (dec i)
    | SGLN_195 => decode_string serial_binary
    end in
  sgln_from_tag_uri (TAG_URI_PREFIX ++ sgln_scheme_value s ++ [c_colon] ++ dec filter_string
                     ++ [c_dot] ++ gln_string ++ [c_dot] ++ serial_string).
