(** epcpy/epc_schemes/lgtin.py *)
From Coq Require Import String.
From Verif.Model Require Import Py Re Regexes Common Base.

Record lgtin := mkLgtin {
  lgtin_epc_uri : str; lgtin_cp : str; lgtin_item : str; lgtin_lot : str; lgtin_gtin_ : str }.

(** lgtin.py:45-80; [lgtin_lot] is stored unescaped (line 57) *)
Definition lgtin_init (epc_class : str) : res lgtin :=
  let* _ := raise_if (negb (fullmatch LGTIN_CLASS epc_class)) ConvertException in
  let* (cp, item, lot) := unpack2_rest (split c_dot (tail4 epc_class)) in
  let lot := join [c_dot] lot in
  let* _ := verify_gs3a3_component lot in
  let lot := replace_uri_escapes lot in
  let* _ := raise_if (negb (cp_len_ok cp)) ConvertException in
  let* _ := raise_if (negb (length (cp ++ item) =? 13)%nat) ConvertException in
  let* _ := raise_if (negb ((1 <=? length lot)%nat && (length lot <=? 20)%nat)) ConvertException in
  let* i0 := idx item 0 in
  let* check_digit := calculate_checksum (i0 :: cp ++ skipn 1 item) in
  Ok (mkLgtin epc_class cp item lot (zfill 14 (i0 :: cp ++ skipn 1 item ++ dec check_digit))).

(** lgtin.py:94-111 *)
Definition lgtin_gtin (x : lgtin) (t : gtin_type) : res str := gtin_view (lgtin_gtin_ x) t.
(** lgtin.py:82-92 *)
Definition lgtin_gs1_key (x : lgtin) (t : gtin_type) : res str := lgtin_gtin x t.

(** lgtin.py:113-121 *)
Definition lgtin_gs1_element_string (x : lgtin) : str :=
  lit "(01)" ++ lgtin_gtin_ x ++ lit "(10)" ++ lgtin_lot x.

(** the pattern "\(.{2}\)" *)
Definition lgtin_m_paren2 : str -> option nat := m_seq [N.eqb 40; dotc; dotc; N.eqb 41].

(** lgtin.py:123-149 *)
Definition lgtin_from_gs1_element_string (gs1_element_string : str) (company_prefix_length : Z) : res lgtin :=
  let* _ := raise_if (negb (fullmatch LGTIN_GS1_ELEMENT_STRING gs1_element_string)) ConvertException in
  let* (_, digits, chars) := unpack3 (re_split lgtin_m_paren2 gs1_element_string) in
  let chars := revert_uri_escapes chars in
  let* d0 := idx digits 0 in
  lgtin_init (lit "urn:epc:class:lgtin:" ++ slz (Some 1%Z) (Some (company_prefix_length + 1)%Z) digits
              ++ [c_dot] ++ [d0] ++ slz (Some (1 + company_prefix_length)%Z) (Some (-1)%Z) digits
              ++ [c_dot] ++ chars).
