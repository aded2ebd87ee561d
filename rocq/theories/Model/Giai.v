(** epcpy/epc_schemes/giai.py *)
From Coq Require Import String.
From Verif.Model Require Import Py Re Regexes Common Base.

(** giai.py:22-144 *)
Definition giai_rows_96 : list row :=
  [mkRow 0 40 12 42 13; mkRow 1 37 11 45 14; mkRow 2 34 10 48 15; mkRow 3 30 9 52 16; mkRow 4 27 8 55 17; mkRow 5 24 7 58 18; mkRow 6 20 6 62 19].
Definition giai_rows_202 : list row :=
  [mkRow 0 40 12 148 18; mkRow 1 37 11 151 19; mkRow 2 34 10 154 20; mkRow 3 30 9 158 21; mkRow 4 27 8 161 22; mkRow 5 24 7 164 23; mkRow 6 20 6 168 24].
Definition giai_table_P_96 : ptable := table_P giai_rows_96.
Definition giai_table_L_96 : ptable := table_L giai_rows_96.
Definition giai_table_P_202 : ptable := table_P giai_rows_202.
Definition giai_table_L_202 : ptable := table_L giai_rows_202.

(** giai.py:181-187 *)
Inductive giai_scheme := GIAI_96 | GIAI_202.
Definition giai_scheme_value (s : giai_scheme) : str :=
  match s with GIAI_96 => lit "giai-96" | GIAI_202 => lit "giai-202" end.
Definition giai_header (s : giai_scheme) : str :=
  match s with GIAI_96 => lit "00110100" | GIAI_202 => lit "00111000" end.
Definition giai_header_to_schemes : list (str * giai_scheme) :=
  [(giai_header GIAI_96, GIAI_96); (giai_header GIAI_202, GIAI_202)].

Record giai := mkGiai { giai_epc_uri : str; giai_cp : str; giai_asset : str; giai_giai : str }.

(** giai.py:191-214; line 197 takes [split(":")[4]], so an asset reference is cut at a colon *)
Definition giai_init (epc_uri : str) : res giai :=
  let* _ := raise_if (negb (fullmatch GIAI_URI epc_uri)) ConvertException in
  let* value := field4 epc_uri in
  let* (cp, asset) := unpack1_rest (split c_dot value) in
  let asset := join [c_dot] asset in
  let* _ := raise_if (negb (cp_len_ok cp) || (30 <? length (cp ++ asset))%nat) ConvertException in
  let* _ := verify_gs3a3_component asset in
  Ok (mkGiai epc_uri cp asset (cp ++ replace_uri_escapes asset)).

(** giai.py:216-222 *)
Definition giai_gs1_key (x : giai) : str := giai_giai x.
(** giai.py:224-230 *)
Definition giai_gs1_element_string (x : giai) : str := lit "(8004)" ++ giai_giai x.

(** giai.py:232-257 *)
Definition giai_from_gs1_element_string (gs1_element_string : str) (company_prefix_length : Z) : res giai :=
  let* _ := raise_if (negb (fullmatch GIAI_GS1_ELEMENT_STRING gs1_element_string)) ConvertException in
  let digits := slz (Some 6%Z) (Some (6 + company_prefix_length)%Z) gs1_element_string in
  let chars := revert_uri_escapes (slz (Some (6 + company_prefix_length)%Z) None gs1_element_string) in
  giai_init (lit "urn:epc:id:giai:" ++ digits ++ [c_dot] ++ chars).

(** giai.py:259-295 *)
Definition giai_tag_uri (x : giai) (s : giai_scheme) (f : N) : res str :=
  let* bad :=
    match s with
    | GIAI_202 =>
        let* r := of_option KeyError (lookup (Z.of_nat (length (giai_cp x))) giai_table_L_202) in
        Ok (rK r <? length (replace_uri_escapes (giai_asset x)))%nat
    | GIAI_96 =>
        if negb (isnumeric (giai_asset x)) then Ok true
        else
          let* r := of_option KeyError (lookup (Z.of_nat (length (giai_cp x))) giai_table_L_96) in
          if (rK r <? length (giai_asset x))%nat then Ok true
          else bad_numeric_serial (giai_asset x) (Z.of_nat (rN r))
    end in
  let* _ := raise_if bad ConvertException in
  Ok (TAG_URI_PREFIX ++ giai_scheme_value s ++ [c_colon] ++ filter_value f ++ [c_dot] ++ giai_cp x
      ++ [c_dot] ++ giai_asset x).

(** giai.py:297-326 *)
Definition giai_binary (x : giai) (s : giai_scheme) (f : N) : res str :=
  let header := giai_header s in
  let* filter_binary := str_to_binary (filter_value f) 3 in
  let* giai_bin :=
    match s with
    | GIAI_96 => encode_partition_table (giai_cp x) (giai_asset x) giai_table_L_96 false false
    | GIAI_202 => encode_partition_table (giai_cp x) (giai_asset x) giai_table_L_202 true false
    end in
  Ok (header ++ filter_binary ++ giai_bin).

Definition giai_from_tag_uri (u : str) : res giai := from_tag_uri giai_init u true.

(** giai.py:328-359 *)
Definition giai_from_binary (binary_string : str) : res giai :=
  let* (s, t) := parse_header_and_truncate_binary giai_scheme_value binary_string giai_header_to_schemes in
  let giai_bin := skipn 11 t in
  let* filter_string := binary_to_int (sl 8 11 t) in
  let* giai_string :=
    match s with
    | GIAI_96 => decode_partition_table giai_bin giai_table_P_96 true false false
    | GIAI_202 => decode_partition_table giai_bin giai_table_P_202 false true false
    end in
  giai_from_tag_uri (TAG_URI_PREFIX ++ giai_scheme_value s ++ [c_colon] ++ dec filter_string
                     ++ [c_dot] ++ giai_string).
