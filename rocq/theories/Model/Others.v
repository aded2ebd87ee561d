(** The schemes without a tag encoding:
    epcpy/epc_schemes/{gsin,ginc,pgln,upui,bic,imovn}.py (LGTIN has its own file). *)
From Coq Require Import String.
From Verif.Model Require Import Py Re Regexes Common Base.

(** * GSIN *)

(** gsin.py:12-29: its own checksum, without the parity test *)
Definition gsin_calculate_checksum (digits : str) : res Z :=
  let* digit_list := map_res (fun d => int10 [d]) digits in
  let val1 := zsum (odds digit_list) in
  let val2 := zsum (evens digit_list) in
  Ok ((10 - (3 * val1 + val2) mod 10) mod 10)%Z.

Record gsin := mkGsin { gsin_epc_uri : str; gsin_cp : str; gsin_ref : str; gsin_gsin : str }.

(** gsin.py:51-69 *)
Definition gsin_init (epc_uri : str) : res gsin :=
  let* _ := raise_if (negb (fullmatch GSIN_URI epc_uri)) ConvertException in
  let* value := field4 epc_uri in
  let* (cp, shipper) := unpack2 (split c_dot value) in
  let* _ := raise_if (negb (length (cp ++ shipper) =? 16)%nat || negb (cp_len_ok cp)) ConvertException in
  let* check_digit := gsin_calculate_checksum (cp ++ shipper) in
  Ok (mkGsin epc_uri cp shipper (cp ++ shipper ++ dec check_digit)).

(** gsin.py:71-85 *)
Definition gsin_gs1_key (x : gsin) : str := gsin_gsin x.
Definition gsin_gs1_element_string (x : gsin) : str := lit "(402)" ++ gsin_gsin x.

(** gsin.py:87-112 *)
Definition gsin_from_gs1_element_string (gs1_element_string : str) (company_prefix_length : Z) : res gsin :=
  let* _ := raise_if (negb (fullmatch GSIN_GS1_ELEMENT_STRING gs1_element_string)) ConvertException in
  let digits := slz (Some 5%Z) (Some (-1)%Z) gs1_element_string in
  gsin_init (lit "urn:epc:id:gsin:" ++ slz None (Some company_prefix_length) digits
             ++ [c_dot] ++ slz (Some company_prefix_length) None digits).

(** * GINC *)

Record ginc := mkGinc { ginc_epc_uri : str; ginc_ginc : str }.

(** ginc.py:36-62 *)
Definition ginc_init (epc_uri : str) : res ginc :=
  let* _ := raise_if (negb (fullmatch GINC_URI epc_uri)) ConvertException in
  let* (cp, cref) := unpack1_rest (split c_dot (tail4 epc_uri)) in
  let cref := join [c_dot] cref in
  let* _ := verify_gs3a3_component cref in
  let cref := replace_uri_escapes cref in
  let* _ := raise_if (negb (cp_len_ok cp)) ConvertException in
  let* _ := raise_if (length cref =? 0)%nat ConvertException in
  let* _ := raise_if (30 <? length (cp ++ cref))%nat ConvertException in
  Ok (mkGinc epc_uri (cp ++ cref)).

(** ginc.py:64-78 *)
Definition ginc_gs1_key (x : ginc) : str := ginc_ginc x.
Definition ginc_gs1_element_string (x : ginc) : str := lit "(401)" ++ ginc_ginc x.

(** ginc.py:80-105 *)
Definition ginc_from_gs1_element_string (gs1_element_string : str) (company_prefix_length : Z) : res ginc :=
  let* _ := raise_if (negb (fullmatch GINC_GS1_ELEMENT_STRING gs1_element_string)) ConvertException in
  let digits := slz (Some 5%Z) (Some (5 + company_prefix_length)%Z) gs1_element_string in
  let chars := revert_uri_escapes (slz (Some (5 + company_prefix_length)%Z) None gs1_element_string) in
  ginc_init (lit "urn:epc:id:ginc:" ++ digits ++ [c_dot] ++ chars).

(** * PGLN *)

Record pgln := mkPgln { pgln_epc_uri : str; pgln_cp : str; pgln_party : str; pgln_pgln : str }.

(** pgln.py:31-48 *)
Definition pgln_init (epc_uri : str) : res pgln :=
  let* _ := raise_if (negb (fullmatch PGLN_URI epc_uri)) ConvertException in
  let* value := field4 epc_uri in
  let* (cp, party) := unpack2 (split c_dot value) in
  let* _ := raise_if (negb (length (cp ++ party) =? 12)%nat || negb (cp_len_ok cp)) ConvertException in
  let* check_digit := calculate_checksum (cp ++ party) in
  Ok (mkPgln epc_uri cp party (cp ++ party ++ dec check_digit)).

(** pgln.py:50-64 *)
Definition pgln_gs1_key (x : pgln) : str := pgln_pgln x.
Definition pgln_gs1_element_string (x : pgln) : str := lit "(417)" ++ pgln_pgln x.

(** pgln.py:66-91 *)
Definition pgln_from_gs1_element_string (gs1_element_string : str) (company_prefix_length : Z) : res pgln :=
  let* _ := raise_if (negb (fullmatch PGLN_GS1_ELEMENT_STRING gs1_element_string)) ConvertException in
  let digits := skipn 5 gs1_element_string in
  pgln_init (lit "urn:epc:id:pgln:" ++ slz None (Some company_prefix_length) digits
             ++ [c_dot] ++ slz (Some company_prefix_length) (Some (-1)%Z) digits).

(** * UPUI *)

Record upui := mkUpui { upui_epc_uri : str; upui_cp : str; upui_item : str; upui_tpx : str }.

(** upui.py:36-58; [upui_tpx] is stored unescaped (line 48) *)
Definition upui_init (epc_uri : str) : res upui :=
  let* _ := raise_if (negb (fullmatch UPUI_URI epc_uri)) ConvertException in
  let* (cp, item, tpx) := unpack2_rest (split c_dot (tail4 epc_uri)) in
  let tpx := join [c_dot] tpx in
  let* _ := verify_gs3a3_component tpx in
  let tpx := replace_uri_escapes tpx in
  let* _ := raise_if (negb ((1 <=? length tpx)%nat && (length tpx <=? 28)%nat)) ConvertException in
  let* _ := raise_if (negb (length (cp ++ item) =? 13)%nat) ConvertException in
  Ok (mkUpui epc_uri cp item tpx).

(** upui.py:60-69 *)
Definition upui_gs1_element_string (x : upui) : res str :=
  let* i0 := idx (upui_item x) 0 in
  let* check_digit := calculate_checksum (i0 :: upui_cp x ++ skipn 1 (upui_item x)) in
  Ok (lit "(01)" ++ i0 :: upui_cp x ++ skipn 1 (upui_item x) ++ dec check_digit
      ++ lit "(235)" ++ upui_tpx x).

(** upui.py:71-98 *)
Definition upui_from_gs1_element_string (gs1_element_string : str) (company_prefix_length : Z) : res upui :=
  let* _ := raise_if (negb (fullmatch UPUI_GS1_ELEMENT_STRING gs1_element_string)) ConvertException in
  let digits := sl 4 18 gs1_element_string in
  let chars := revert_uri_escapes (skipn 23 gs1_element_string) in
  let* d0 := idx digits 0 in
  upui_init (lit "urn:epc:id:upui:" ++ slz (Some 1%Z) (Some (1 + company_prefix_length)%Z) digits
             ++ [c_dot] ++ [d0] ++ slz (Some (1 + company_prefix_length)%Z) (Some (-1)%Z) digits
             ++ [c_dot] ++ chars).

(** * BIC *)

Record bic := mkBic {
  bic_epc_uri : str; bic_container_code : str; bic_owner_code : str;
  bic_equipment_category_identifier : N; bic_serial : str; bic_check_digit : N }.

(** bic.py:22-36 *)
Definition bic_init (epc_uri : str) : res bic :=
  let* _ := raise_if (negb (fullmatch BIC_URI epc_uri)) ConvertException in
  let* container_code := field4 epc_uri in
  let* cat := idx container_code 3 in
  let* cd := idx container_code 10 in
  Ok (mkBic epc_uri container_code (sl 0 3 container_code) cat (sl 4 10 container_code) cd).

(** * IMOVN *)

Record imovn := mkImovn { imovn_epc_uri : str; imovn_vessel_number : str }.

(** imovn.py:22-30 *)
Definition imovn_init (epc_uri : str) : res imovn :=
  let* _ := raise_if (negb (fullmatch IMOVN_URI epc_uri)) ConvertException in
  let* v := field4 epc_uri in
  Ok (mkImovn epc_uri v).
