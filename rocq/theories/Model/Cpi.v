(** epcpy/epc_schemes/cpi.py *)
From Coq Require Import String.
From Verif.Model Require Import Py Re Regexes Common Base.

(** cpi.py:19-141 *)
Definition cpi_rows_96 : list row :=
  [mkRow 0 40 12 11 3; mkRow 1 37 11 14 4; mkRow 2 34 10 17 5; mkRow 3 30 9 21 6; mkRow 4 27 8 24 7; mkRow 5 24 7 27 8; mkRow 6 20 6 31 9].
Definition cpi_rows_var : list row :=
  [mkRow 0 40 12 114 18; mkRow 1 37 11 120 19; mkRow 2 34 10 126 20; mkRow 3 30 9 132 21; mkRow 4 27 8 138 22; mkRow 5 24 7 144 23; mkRow 6 20 6 150 24].
Definition cpi_table_P_96 : ptable := table_P cpi_rows_96.
Definition cpi_table_L_96 : ptable := table_L cpi_rows_96.
Definition cpi_table_P_var : ptable := table_P cpi_rows_var.
Definition cpi_table_L_var : ptable := table_L cpi_rows_var.

(** cpi.py:155-168 *)
Definition replace_cpi_escapes (cpi : str) : str := replace (lit "%2F") (lit "/") (replace (lit "%23") (lit "#") cpi).
Definition revert_cpi_escapes (cpi : str) : str := replace (lit "/") (lit "%2F") (replace (lit "#") (lit "%23") cpi).

(** cpi.py:193-199 *)
Inductive cpi_scheme := CPI_96 | CPI_VAR.
Definition cpi_scheme_value (s : cpi_scheme) : str :=
  match s with CPI_96 => lit "cpi-96" | CPI_VAR => lit "cpi-var" end.
Definition cpi_header (s : cpi_scheme) : str :=
  match s with CPI_96 => lit "00111100" | CPI_VAR => lit "00111101" end.
Definition cpi_header_to_schemes : list (str * cpi_scheme) :=
  [(cpi_header CPI_96, CPI_96); (cpi_header CPI_VAR, CPI_VAR)].

Record cpi := mkCpi { cpi_epc_uri : str; cpi_cp : str; cpi_ref : str; cpi_serial : str }.

(** cpi.py:203-220 *)
Definition cpi_init (epc_uri : str) : res cpi :=
  let* _ := raise_if (negb (fullmatch CPI_URI epc_uri)) ConvertException in
  let* value := field4 epc_uri in
  let* (cp, cpref, serial) := unpack3 (split c_dot value) in
  let* _ := raise_if ((30 <? length (cp ++ cpref))%nat || (12 <? length serial)%nat ||
                      negb (cp_len_ok cp)) ConvertException in
  Ok (mkCpi epc_uri cp cpref serial).

(** cpi.py:222-230 *)
Definition cpi_gs1_element_string (x : cpi) : str :=
  lit "(8010)" ++ cpi_cp x ++ replace_cpi_escapes (cpi_ref x) ++ lit "(8011)" ++ cpi_serial x.

(** the pattern "\(.{4}\)" *)
Definition m_paren4 : str -> option nat := m_seq [N.eqb 40; dotc; dotc; dotc; dotc; N.eqb 41].

(** cpi.py:232-258 *)
Definition cpi_from_gs1_element_string (gs1_element_string : str) (company_prefix_length : Z) : res cpi :=
  let* _ := raise_if (negb (fullmatch CPI_GS1_ELEMENT_STRING gs1_element_string)) ConvertException in
  let* (_, digits, serial_digits) := unpack3 (re_split m_paren4 gs1_element_string) in
  let chars := revert_cpi_escapes (slz (Some company_prefix_length) None digits) in
  cpi_init (lit "urn:epc:id:cpi:" ++ slz None (Some company_prefix_length) digits
            ++ [c_dot] ++ chars ++ [c_dot] ++ serial_digits).

(** cpi.py:260-291 *)
Definition cpi_tag_uri (x : cpi) (s : cpi_scheme) (f : N) : res str :=
  let* bad :=
    match s with
    | CPI_VAR => Ok (12 <? length (cpi_serial x))%nat
    | CPI_96 =>
        let* i := int10 (cpi_serial x) in
        Ok ((2 ^ 31 <=? i)%Z || negb (isnumeric (cpi_ref x)) ||
            ((1 <? length (cpi_ref x))%nat && match cpi_ref x with c :: _ => c =? c_0 | [] => false end) ||
            (15 - Z.of_nat (length (cpi_cp x)) <? Z.of_nat (length (cpi_ref x)))%Z)
    end in
  let* _ := raise_if bad ConvertException in
  Ok (TAG_URI_PREFIX ++ cpi_scheme_value s ++ [c_colon] ++ filter_value f ++ [c_dot] ++ cpi_cp x
      ++ [c_dot] ++ cpi_ref x ++ [c_dot] ++ cpi_serial x).

(** cpi.py:293-325 *)
Definition cpi_binary (x : cpi) (s : cpi_scheme) (f : N) : res str :=
  let header := cpi_header s in
  let* filter_binary := str_to_binary (filter_value f) 3 in
  let* cpi_bin :=
    match s with
    | CPI_96 => encode_partition_table (cpi_cp x) (cpi_ref x) cpi_table_L_96 false false
    | CPI_VAR => encode_partition_table (cpi_cp x) (cpi_ref x) cpi_table_L_var false true
    end in
  let* serial_binary := str_to_binary (cpi_serial x) (match s with CPI_96 => 31 | CPI_VAR => 40 end) in
  Ok (header ++ filter_binary ++ cpi_bin ++ serial_binary).

Definition cpi_from_tag_uri (u : str) : res cpi := from_tag_uri cpi_init u true.

(** cpi.py:359-365: everything after the first all-zero group *)
Fixpoint cpi_serial_loop (gs : list str) (is_serial : bool) : str :=
  match gs with
  | [] => []
  | g :: gs' =>
      (if is_serial then g else []) ++
      cpi_serial_loop gs' (is_serial || str_eqb g (lit "000000"))
  end.

(** cpi.py:327-374 *)
Definition cpi_from_binary (binary_string : str) : res cpi :=
  let* (s, t) := parse_header_and_truncate_binary cpi_scheme_value binary_string cpi_header_to_schemes in
  let filter_binary := sl 8 11 t in
  let* (cpi_string, serial_binary) :=
    match s with
    | CPI_96 =>
        let* cpi_string := decode_partition_table (sl 11 65 t) cpi_table_P_96 true false false in
        Ok (cpi_string, skipn 65 t)
    | CPI_VAR =>
        let cpi_bin := skipn 11 t in
        let* cpi_string := decode_partition_table cpi_bin cpi_table_P_var false false true in
        let* p := binary_to_int (firstn 3 cpi_bin) in
        let* partition := of_option KeyError (lookup p cpi_table_P_var) in
        let possible_serial_binary := skipn (11 + 3 + rM partition) t in
        let serial_binary := cpi_serial_loop (re_split_cap (m_bits 6) possible_serial_binary) false in
        Ok (cpi_string, if (0 <? length serial_binary)%nat then firstn 40 serial_binary else lit "0")
    end in
  let* filter_string := binary_to_int filter_binary in
  let* serial_string := binary_to_int serial_binary in
  cpi_from_tag_uri (TAG_URI_PREFIX ++ cpi_scheme_value s ++ [c_colon] ++ dec filter_string
                    ++ [c_dot] ++ cpi_string ++ [c_dot] ++ dec serial_string).
