(** epcpy/epc_schemes/grai.py *)
From Coq Require Import String.
From Verif.Model Require Import Py Re Regexes Common Base.

(** grai.py:25-85 *)
Definition grai_rows : list row :=
  [mkRow 0 40 12 4 0; mkRow 1 37 11 7 1; mkRow 2 34 10 10 2; mkRow 3 30 9 14 3; mkRow 4 27 8 17 4; mkRow 5 24 7 20 5; mkRow 6 20 6 24 6].
Definition grai_table_P : ptable := table_P grai_rows.
Definition grai_table_L : ptable := table_L grai_rows.

(** grai.py:122-128 *)
Inductive grai_scheme := GRAI_96 | GRAI_170.
Definition grai_scheme_value (s : grai_scheme) : str :=
  match s with GRAI_96 => lit "grai-96" | GRAI_170 => lit "grai-170" end.
Definition grai_header (s : grai_scheme) : str :=
  match s with GRAI_96 => lit "00110011" | GRAI_170 => lit "00110111" end.
Definition grai_header_to_schemes : list (str * grai_scheme) :=
  [(grai_header GRAI_96, GRAI_96); (grai_header GRAI_170, GRAI_170)].

Record grai := mkGrai {
  grai_epc_uri : str; grai_cp : str; grai_asset : str; grai_serial : str; grai_grai : str }.

(** grai.py:132-153 *)
Definition grai_init (epc_uri : str) : res grai :=
  let* _ := raise_if (negb (fullmatch GRAI_URI epc_uri)) ConvertException in
  let serial := join [c_dot] (skipn 2 (split c_dot (tail4 epc_uri))) in
  let* _ := verify_gs3a3_component serial in
  let* value := field4 epc_uri in
  let* (cp, asset) := unpack2 (firstn 2 (split c_dot value)) in
  let* _ := raise_if (negb (length (cp ++ asset) =? 12)%nat || negb (cp_len_ok cp) ||
                      (16 <? length serial)%nat) ConvertException in
  let* check_digit := calculate_checksum (cp ++ asset) in
  Ok (mkGrai epc_uri cp asset serial (cp ++ asset ++ dec check_digit ++ replace_uri_escapes serial)).

(** grai.py:155-161 *)
Definition grai_gs1_key (x : grai) : str := grai_grai x.
(** grai.py:163-169 *)
Definition grai_gs1_element_string (x : grai) : str := lit "(8003)0" ++ grai_grai x.

(** grai.py:171-198 *)
Definition grai_from_gs1_element_string (gs1_element_string : str) (company_prefix_length : Z) : res grai :=
  let* _ := raise_if (negb (fullmatch GRAI_GS1_ELEMENT_STRING gs1_element_string)) ConvertException in
  let digits := sl 7 20 gs1_element_string in
  let chars := revert_uri_escapes (skipn 20 gs1_element_string) in
  grai_init (lit "urn:epc:id:grai:" ++ slz None (Some company_prefix_length) digits
             ++ [c_dot] ++ slz (Some company_prefix_length) (Some (-1)%Z) digits
             ++ [c_dot] ++ chars).

(** grai.py:200-230 *)
Definition grai_tag_uri (x : grai) (s : grai_scheme) (f : N) : res str :=
  let* bad := match s with
              | GRAI_170 => Ok (20 <? length (replace_uri_escapes (grai_serial x)))%nat
              | GRAI_96 => bad_numeric_serial (grai_serial x) 38
              end in
  let* _ := raise_if bad ConvertException in
  Ok (TAG_URI_PREFIX ++ grai_scheme_value s ++ [c_colon] ++ filter_value f ++ [c_dot] ++ grai_cp x
      ++ [c_dot] ++ grai_asset x ++ [c_dot] ++ grai_serial x).

(** grai.py:232-258 *)
Definition grai_binary (x : grai) (s : grai_scheme) (f : N) : res str :=
  let header := grai_header s in
  let* filter_binary := str_to_binary (filter_value f) 3 in
  let* grai_bin := encode_partition_table (grai_cp x) (grai_asset x) grai_table_L false false in
  let* serial_binary :=
    match s with
    | GRAI_96 => str_to_binary (grai_serial x) 38
    | GRAI_170 => encode_string (grai_serial x) 112
    end in
  Ok (header ++ filter_binary ++ grai_bin ++ serial_binary).

Definition grai_from_tag_uri (u : str) : res grai := from_tag_uri grai_init u true.

(** grai.py:260-290 *)
Definition grai_from_binary (binary_string : str) : res grai :=
  let* (s, t) := parse_header_and_truncate_binary grai_scheme_value binary_string grai_header_to_schemes in
  let serial_binary := skipn 58 t in
  let* filter_string := binary_to_int (sl 8 11 t) in
  let* grai_string := decode_partition_table (sl 11 58 t) grai_table_P false false false in
  let* serial_string :=
    match s with
    | GRAI_96 => let* i := binary_to_int serial_binary in Ok (dec i)
    | GRAI_170 => decode_string serial_binary
    end in
  grai_from_tag_uri (TAG_URI_PREFIX ++ grai_scheme_value s ++ [c_colon] ++ dec filter_string
                     ++ [c_dot] ++ grai_string ++ [c_dot] ++ serial_string).
