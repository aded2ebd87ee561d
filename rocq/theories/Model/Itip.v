(** epcpy/epc_schemes/itip.py *)
From Coq Require Import String.
From Verif.Model Require Import Py Re Regexes Common Base.

(** itip.py:27-87 *)
Definition itip_rows : list row :=
  [mkRow 0 40 12 4 1; mkRow 1 37 11 7 2; mkRow 2 34 10 10 3; mkRow 3 30 9 14 4; mkRow 4 27 8 17 5; mkRow 5 24 7 20 6; mkRow 6 20 6 24 7].
Definition itip_table_P : ptable := table_P itip_rows.
Definition itip_table_L : ptable := table_L itip_rows.

(** itip.py:123-129 *)
Inductive itip_scheme := ITIP_110 | ITIP_212.
Definition itip_scheme_value (s : itip_scheme) : str :=
  match s with ITIP_110 => lit "itip-110" | ITIP_212 => lit "itip-212" end.
Definition itip_header (s : itip_scheme) : str :=
  match s with ITIP_110 => lit "01000000" | ITIP_212 => lit "01000001" end.
Definition itip_header_to_schemes : list (str * itip_scheme) :=
  [(itip_header ITIP_110, ITIP_110); (itip_header ITIP_212, ITIP_212)].

Record itip := mkItip {
  itip_epc_uri : str; itip_cp : str; itip_item : str; itip_piece : str; itip_total : str; itip_serial : str }.

(** itip.py:133-157 *)
Definition itip_init (epc_uri : str) : res itip :=
  let* _ := raise_if (negb (fullmatch ITIP_URI epc_uri)) ConvertException in
  let* (cp, item, piece, total, serial) := unpack4_rest (split c_dot (tail4 epc_uri)) in
  let serial := join [c_dot] serial in
  let* _ := verify_gs3a3_component serial in
  let* _ := raise_if (negb (length (cp ++ item ++ piece ++ total) =? 17)%nat ||
                      negb ((1 <=? length (replace_uri_escapes serial))%nat &&
                            (length (replace_uri_escapes serial) <=? 20)%nat) ||
                      negb (cp_len_ok cp)) ConvertException in
  Ok (mkItip epc_uri cp item piece total serial).

(** itip.py:159-170 *)
Definition itip_gs1_element_string (x : itip) : res str :=
  let* indicator := idx (itip_item x) 0 in
  let* check_digit := calculate_checksum (indicator :: itip_cp x ++ skipn 1 (itip_item x)) in
  Ok (lit "(8006)" ++ indicator :: itip_cp x ++ skipn 1 (itip_item x) ++ dec check_digit
      ++ itip_piece x ++ itip_total x ++ lit "(21)" ++ replace_uri_escapes (itip_serial x)).

(** itip.py:172-199 *)
Definition itip_from_gs1_element_string (gs1_element_string : str) (company_prefix_length : Z) : res itip :=
  let* _ := raise_if (negb (fullmatch ITIP_GS1_ELEMENT_STRING gs1_element_string)) ConvertException in
  let digits := sl 6 24 gs1_element_string in
  let chars := revert_uri_escapes (skipn 28 gs1_element_string) in
  let* d0 := idx digits 0 in
  itip_init (lit "urn:epc:id:itip:" ++ slz (Some 1%Z) (Some (1 + company_prefix_length)%Z) digits
             ++ [c_dot] ++ [d0] ++ slz (Some (1 + company_prefix_length)%Z) (Some (-5)%Z) digits
             ++ [c_dot] ++ slz (Some (-4)%Z) (Some (-2)%Z) digits
             ++ [c_dot] ++ slz (Some (-2)%Z) None digits
             ++ [c_dot] ++ chars).

(** itip.py:201-231 *)
Definition itip_tag_uri (x : itip) (s : itip_scheme) (f : N) : res str :=
  let* bad := match s with
              | ITIP_212 => Ok (20 <? length (replace_uri_escapes (itip_serial x)))%nat
              | ITIP_110 => bad_numeric_serial (itip_serial x) 38
              end in
  let* _ := raise_if bad ConvertException in
  Ok (TAG_URI_PREFIX ++ itip_scheme_value s ++ [c_colon] ++ filter_value f ++ [c_dot] ++ itip_cp x
      ++ [c_dot] ++ itip_item x ++ [c_dot] ++ itip_piece x ++ [c_dot] ++ itip_total x
      ++ [c_dot] ++ itip_serial x).

(** itip.py:233-267 *)
Definition itip_binary (x : itip) (s : itip_scheme) (f : N) : res str :=
  let header := itip_header s in
  let* filter_binary := str_to_binary (filter_value f) 3 in
  let* gtin_binary := encode_partition_table (itip_cp x) (itip_item x) itip_table_L false false in
  let* piece_binary := encode_fixed_width_integer (itip_piece x) 7 in
  let* total_binary := encode_fixed_width_integer (itip_total x) 7 in
  let* serial_binary :=
    match s with
    | ITIP_110 => str_to_binary (itip_serial x) 38
    | ITIP_212 => encode_string (itip_serial x) 140
    end in
  Ok (header ++ filter_binary ++ gtin_binary ++ piece_binary ++ total_binary ++ serial_binary).

Definition itip_from_tag_uri (u : str) : res itip := from_tag_uri itip_init u true.

(** itip.py:269-302 *)
Definition itip_from_binary (binary_string : str) : res itip :=
  let* (s, t) := parse_header_and_truncate_binary itip_scheme_value binary_string itip_header_to_schemes in
  let serial_binary := skipn 72 t in
  let* filter_string := binary_to_int (sl 8 11 t) in
  let* gtin_string := decode_partition_table (sl 11 58 t) itip_table_P false false false in
  let* piece_string := decode_fixed_width_integer (sl 58 65 t) in
  let* total_string := decode_fixed_width_integer (sl 65 72 t) in
  let* serial_string :=
    match s with
    | ITIP_110 => let* i := binary_to_int serial_binary in Ok (dec i)
    | ITIP_212 => decode_string serial_binary
    end in
  itip_from_tag_uri (TAG_URI_PREFIX ++ itip_scheme_value s ++ [c_colon] ++ dec filter_string
                     ++ [c_dot] ++ gtin_string ++ [c_dot] ++ piece_string ++ [c_dot] ++ total_string
                     ++ [c_dot] ++ serial_string).
