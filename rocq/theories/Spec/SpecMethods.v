(** The objects of the scheme classes as values of the machine, and what it means to call a method on one. *)
From Coq Require Import String.
From Verif.Model Require Import Py PyFormat Syntax Machine Common Base.
From Verif.Model Require Import Sgtin Sscc Sgln Grai Giai Gsrn Gsrnp Gdti Sgcn Itip Gid Cpi Usdod Adi Lgtin Others.
From Verif.Spec Require Export SpecSource.

(** [v.m(args, kws)] comes to the result [r] *)
Definition invokes (W : world) (v : value) (m : string) (args : list value) (kws : list (string * value)) (r : outcome) : Prop :=
  exists n, steps W n (do_method W (fun s => s) v m args kws []) = StDone r [].

(** the ways to give one parameter, or two, a value: by position or by keyword *)
Definition passed1 (p : string) (a : value) (args : list value) (kws : list (string * value)) : Prop :=
  (args = [a] /\ kws = []) \/ (args = [] /\ kws = [(p, a)]).
Definition passed2 (p q : string) (a b : value) (args : list value) (kws : list (string * value)) : Prop :=
  (args = [a; b] /\ kws = []) \/ (args = [a] /\ kws = [(q, b)]) \/
  (args = [] /\ kws = [(p, a); (q, b)]) \/ (args = [] /\ kws = [(q, b); (p, a)]).

Definition passed3 (p q r : string) (a b c : value) (args : list value) (kws : list (string * value)) : Prop :=
  (args = [a; b; c] /\ kws = []) \/ (args = [a; b] /\ kws = [(r, c)]) \/ (args = [a] /\ kws = [(q, b); (r, c)]) \/
  (args = [] /\ kws = [(p, a); (q, b); (r, c)]).

(** The ways to give the binary coding scheme [s] and the filter value [f]: parameters in this order or in the other one; a default
    value stands for a scheme if [ds], for a filter value if [df]. *)
Definition args_sf (s f : value) := passed2 "binary_coding_scheme" "filter_value" s f.
Definition args_fs (s f : value) := passed2 "filter_value" "binary_coding_scheme" f s.
Definition args_fs_default (s f : value) (ds : Prop) (args : list value) (kws : list (string * value)) : Prop :=
  args_fs s f args kws \/ (passed1 "filter_value" f args kws /\ ds).
Definition args_sf_default (s f : value) (ds df : Prop) (args : list value) (kws : list (string * value)) : Prop :=
  args_sf s f args kws \/ (passed1 "binary_coding_scheme" s args kws /\ df) \/
  (args = [] /\ kws = [("filter_value"%string, f)] /\ ds) \/ (args = [] /\ kws = [] /\ ds /\ df).
Definition args_s_default (s : value) (ds : Prop) (args : list value) (kws : list (string * value)) : Prop :=
  passed1 "binary_coding_scheme" s args kws \/ (args = [] /\ kws = [] /\ ds).

(** a member of an enumeration of filter values: its value is its number *)
Definition filter_member (c name : string) (f : N) : value := VEnum c name (VStr (filter_value f)).
(** an enumeration whose members are [n] filter values, numbered from 0 *)
Definition filter_numbers (W : world) (c : string) (n : nat) : Prop := exists names, length names = n /\
  enum_members W c = map (fun p => filter_member c (fst p) (snd p)) (combine names (map N.of_nat (seq 0 n))).
(** a member of GTIN_TYPE, the one of sgtin.py or the one of lgtin.py *)
Definition gtin_class (c : string) : Prop := c = "sgtin.GTIN_TYPE"%string \/ c = "lgtin.GTIN_TYPE"%string.
Definition gtin_name (t : gtin_type) : string := match t with GTIN8 => "GTIN8" | GTIN12 => "GTIN12" | GTIN13 => "GTIN13" | GTIN14 => "GTIN14" end.
Definition gtin_member (c : string) (t : gtin_type) : value := VEnum c (gtin_name t) (vnat (gtin_len t)).

(** * Objects: the class, and the attributes in the order in which the constructor assigns them *)

Definition sgtin_obj (x : sgtin) : value := VObj "sgtin.SGTIN"
  [("epc_uri"%string, VStr (sgtin_epc_uri x)); ("_base64"%string, VNone); ("_binary"%string, VNone);
   ("_hex"%string, VNone); ("_tag_uri"%string, VNone); ("_company_pref"%string, VStr (sgtin_cp x));
   ("_item_ref"%string, VStr (sgtin_item x)); ("_serial"%string, VStr (sgtin_serial x)); ("_gtin"%string, VStr (sgtin_gtin_ x))].
Definition sgtin_name (s : sgtin_scheme) : string := match s with SGTIN_96 => "SGTIN_96" | SGTIN_198 => "SGTIN_198" end.
Definition sgtin_member (s : sgtin_scheme) : value := VEnum "sgtin.SGTIN.BinaryCodingScheme" (sgtin_name s) (VStr (sgtin_scheme_value s)).

Definition sscc_obj (x : sscc) : value := VObj "sscc.SSCC"
  [("epc_uri"%string, VStr (sscc_epc_uri x)); ("_base64"%string, VNone); ("_binary"%string, VNone);
   ("_hex"%string, VNone); ("_tag_uri"%string, VNone); ("_company_pref"%string, VStr (sscc_cp x));
   ("_serial"%string, VStr (sscc_serial x)); ("_sscc"%string, VStr (sscc_sscc x))].
Definition sscc_name (s : sscc_scheme) : string := match s with SSCC_96 => "SSCC_96" end.
Definition sscc_member (s : sscc_scheme) : value := VEnum "sscc.SSCC.BinaryCodingScheme" (sscc_name s) (VStr (sscc_scheme_value s)).

Definition sgln_obj (x : sgln) : value := VObj "sgln.SGLN"
  [("epc_uri"%string, VStr (sgln_epc_uri x)); ("_base64"%string, VNone); ("_binary"%string, VNone);
   ("_hex"%string, VNone); ("_tag_uri"%string, VNone); ("_company_pref"%string, VStr (sgln_cp x));
   ("_location_ref"%string, VStr (sgln_loc x)); ("_serial"%string, VStr (sgln_serial x)); ("_gln"%string, VStr (sgln_gln x))].
Definition sgln_name (s : sgln_scheme) : string := match s with SGLN_96 => "SGLN_96" | SGLN_195 => "SGLN_195" end.
Definition sgln_member (s : sgln_scheme) : value := VEnum "sgln.SGLN.BinaryCodingScheme" (sgln_name s) (VStr (sgln_scheme_value s)).

Definition grai_obj (x : grai) : value := VObj "grai.GRAI"
  [("epc_uri"%string, VStr (grai_epc_uri x)); ("_base64"%string, VNone); ("_binary"%string, VNone);
   ("_hex"%string, VNone); ("_tag_uri"%string, VNone); ("_serial"%string, VStr (grai_serial x));
   ("_company_pref"%string, VStr (grai_cp x)); ("_asset_type"%string, VStr (grai_asset x)); ("_grai"%string, VStr (grai_grai x))].
Definition grai_name (s : grai_scheme) : string := match s with GRAI_96 => "GRAI_96" | GRAI_170 => "GRAI_170" end.
Definition grai_member (s : grai_scheme) : value := VEnum "grai.GRAI.BinaryCodingScheme" (grai_name s) (VStr (grai_scheme_value s)).

Definition giai_obj (x : giai) : value := VObj "giai.GIAI"
  [("epc_uri"%string, VStr (giai_epc_uri x)); ("_base64"%string, VNone); ("_binary"%string, VNone);
   ("_hex"%string, VNone); ("_tag_uri"%string, VNone); ("_company_pref"%string, VStr (giai_cp x));
   ("_asset_ref"%string, VStr (giai_asset x)); ("_giai"%string, VStr (giai_giai x))].
Definition giai_name (s : giai_scheme) : string := match s with GIAI_96 => "GIAI_96" | GIAI_202 => "GIAI_202" end.
Definition giai_member (s : giai_scheme) : value := VEnum "giai.GIAI.BinaryCodingScheme" (giai_name s) (VStr (giai_scheme_value s)).

Definition gsrn_obj (x : gsrn) : value := VObj "gsrn.GSRN"
  [("epc_uri"%string, VStr (gsrn_epc_uri x)); ("_base64"%string, VNone); ("_binary"%string, VNone);
   ("_hex"%string, VNone); ("_tag_uri"%string, VNone); ("_company_pref"%string, VStr (gsrn_cp x));
   ("_service_ref"%string, VStr (gsrn_service x)); ("_gsrn"%string, VStr (gsrn_key x))].
Definition gsrn_name (s : gsrn_scheme) : string := match s with GSRN_96 => "GSRN_96" end.
Definition gsrn_member (s : gsrn_scheme) : value := VEnum "gsrn.GSRN.BinaryCodingScheme" (gsrn_name s) (VStr (gsrn_scheme_value s)).

Definition gsrnp_obj (x : gsrnp) : value := VObj "gsrnp.GSRNP"
  [("epc_uri"%string, VStr (gsrnp_epc_uri x)); ("_base64"%string, VNone); ("_binary"%string, VNone);
   ("_hex"%string, VNone); ("_tag_uri"%string, VNone); ("_company_pref"%string, VStr (gsrnp_cp x));
   ("_service_ref"%string, VStr (gsrnp_service x)); ("_gsrnp"%string, VStr (gsrnp_key x))].
Definition gsrnp_name (s : gsrnp_scheme) : string := match s with GSRNP_96 => "GSRNP_96" end.
Definition gsrnp_member (s : gsrnp_scheme) : value := VEnum "gsrnp.GSRNP.BinaryCodingScheme" (gsrnp_name s) (VStr (gsrnp_scheme_value s)).

Definition gdti_obj (x : gdti) : value := VObj "gdti.GDTI"
  [("epc_uri"%string, VStr (gdti_epc_uri x)); ("_base64"%string, VNone); ("_binary"%string, VNone);
   ("_hex"%string, VNone); ("_tag_uri"%string, VNone); ("_serial"%string, VStr (gdti_serial x));
   ("_company_pref"%string, VStr (gdti_cp x)); ("_doc_type"%string, VStr (gdti_doc x)); ("_gdti"%string, VStr (gdti_gdti x))].
Definition gdti_name (s : gdti_scheme) : string := match s with GDTI_96 => "GDTI_96" | GDTI_174 => "GDTI_174" end.
Definition gdti_member (s : gdti_scheme) : value := VEnum "gdti.GDTI.BinaryCodingScheme" (gdti_name s) (VStr (gdti_scheme_value s)).

Definition sgcn_obj (x : sgcn) : value := VObj "sgcn.SGCN"
  [("epc_uri"%string, VStr (sgcn_epc_uri x)); ("_base64"%string, VNone); ("_binary"%string, VNone);
   ("_hex"%string, VNone); ("_tag_uri"%string, VNone); ("_company_pref"%string, VStr (sgcn_cp x));
   ("_coupon_ref"%string, VStr (sgcn_coupon x)); ("_serial"%string, VStr (sgcn_serial x)); ("_gcn"%string, VStr (sgcn_gcn x))].
Definition sgcn_name (s : sgcn_scheme) : string := match s with SGCN_96 => "SGCN_96" end.
Definition sgcn_member (s : sgcn_scheme) : value := VEnum "sgcn.SGCN.BinaryCodingScheme" (sgcn_name s) (VStr (sgcn_scheme_value s)).

Definition itip_obj (x : itip) : value := VObj "itip.ITIP"
  [("epc_uri"%string, VStr (itip_epc_uri x)); ("_base64"%string, VNone); ("_binary"%string, VNone);
   ("_hex"%string, VNone); ("_tag_uri"%string, VNone); ("_company_pref"%string, VStr (itip_cp x));
   ("_item_ref"%string, VStr (itip_item x)); ("_piece"%string, VStr (itip_piece x)); ("_total"%string, VStr (itip_total x));
   ("_serial"%string, VStr (itip_serial x))].
Definition itip_name (s : itip_scheme) : string := match s with ITIP_110 => "ITIP_110" | ITIP_212 => "ITIP_212" end.
Definition itip_member (s : itip_scheme) : value := VEnum "itip.ITIP.BinaryCodingScheme" (itip_name s) (VStr (itip_scheme_value s)).

Definition gid_obj (x : gid) : value := VObj "gid.GID"
  [("epc_uri"%string, VStr (gid_epc_uri x)); ("_base64"%string, VNone); ("_binary"%string, VNone);
   ("_hex"%string, VNone); ("_tag_uri"%string, VNone); ("_manager"%string, VStr (gid_manager x));
   ("_object"%string, VStr (gid_object x)); ("_serial"%string, VStr (gid_serial x))].
Definition gid_name (s : gid_scheme) : string := match s with GID_96 => "GID_96" end.
Definition gid_member (s : gid_scheme) : value := VEnum "gid.GID.BinaryCodingScheme" (gid_name s) (VStr (gid_scheme_value s)).

Definition cpi_obj (x : cpi) : value := VObj "cpi.CPI"
  [("epc_uri"%string, VStr (cpi_epc_uri x)); ("_base64"%string, VNone); ("_binary"%string, VNone);
   ("_hex"%string, VNone); ("_tag_uri"%string, VNone); ("_company_pref"%string, VStr (cpi_cp x));
   ("_cp_ref"%string, VStr (cpi_ref x)); ("_serial"%string, VStr (cpi_serial x))].
Definition cpi_name (s : cpi_scheme) : string := match s with CPI_96 => "CPI_96" | CPI_VAR => "CPI_VAR" end.
Definition cpi_member (s : cpi_scheme) : value := VEnum "cpi.CPI.BinaryCodingScheme" (cpi_name s) (VStr (cpi_scheme_value s)).

Definition usdod_obj (x : usdod) : value := VObj "usdod.USDOD"
  [("epc_uri"%string, VStr (usdod_epc_uri x)); ("_base64"%string, VNone); ("_binary"%string, VNone);
   ("_hex"%string, VNone); ("_tag_uri"%string, VNone); ("_cage_dodaac"%string, VStr (usdod_cage x));
   ("_serial"%string, VStr (usdod_serial x))].
Definition usdod_name (s : usdod_scheme) : string := match s with USDOD_96 => "USDOD_96" end.
Definition usdod_member (s : usdod_scheme) : value := VEnum "usdod.USDOD.BinaryCodingScheme" (usdod_name s) (VStr (usdod_scheme_value s)).

Definition adi_obj (x : adi) : value := VObj "adi.ADI"
  [("epc_uri"%string, VStr (adi_epc_uri x)); ("_base64"%string, VNone); ("_binary"%string, VNone);
   ("_hex"%string, VNone); ("_tag_uri"%string, VNone); ("_cage_dodaac"%string, VStr (adi_cage x));
   ("_part_number"%string, VStr (adi_part x)); ("_serial"%string, VStr (adi_serial x))].
Definition adi_name (s : adi_scheme) : string := match s with ADI_VAR => "ADI_VAR" end.
Definition adi_member (s : adi_scheme) : value := VEnum "adi.ADI.BinaryCodingScheme" (adi_name s) (VStr (adi_scheme_value s)).

Definition lgtin_obj (x : lgtin) : value := VObj "lgtin.LGTIN"
  [("epc_uri"%string, VStr (lgtin_epc_uri x)); ("_company_pref"%string, VStr (lgtin_cp x)); ("_item_ref"%string, VStr (lgtin_item x));
   ("_lot"%string, VStr (lgtin_lot x)); ("_gtin"%string, VStr (lgtin_gtin_ x))].

Definition gsin_obj (x : gsin) : value := VObj "gsin.GSIN"
  [("epc_uri"%string, VStr (gsin_epc_uri x)); ("_company_prefix"%string, VStr (gsin_cp x)); ("_shipper_ref"%string, VStr (gsin_ref x));
   ("_gsin"%string, VStr (gsin_gsin x))].

Definition ginc_obj (x : ginc) : value := VObj "ginc.GINC"
  [("epc_uri"%string, VStr (ginc_epc_uri x)); ("_ginc"%string, VStr (ginc_ginc x))].

Definition pgln_obj (x : pgln) : value := VObj "pgln.PGLN"
  [("epc_uri"%string, VStr (pgln_epc_uri x)); ("_company_pref"%string, VStr (pgln_cp x)); ("_party_ref"%string, VStr (pgln_party x));
   ("_pgln"%string, VStr (pgln_pgln x))].

Definition upui_obj (x : upui) : value := VObj "upui.UPUI"
  [("epc_uri"%string, VStr (upui_epc_uri x)); ("_company_pref"%string, VStr (upui_cp x)); ("_item_ref"%string, VStr (upui_item x));
   ("_tpx"%string, VStr (upui_tpx x))].

Definition bic_obj (x : bic) : value := VObj "bic.BIC"
  [("epc_uri"%string, VStr (bic_epc_uri x)); ("_container_code"%string, VStr (bic_container_code x)); ("_owner_code"%string, VStr (bic_owner_code x));
   ("_equipment_category_identifier"%string, VStr [bic_equipment_category_identifier x]); ("_serial"%string, VStr (bic_serial x)); ("_check_digit"%string, VStr [bic_check_digit x])].

Definition imovn_obj (x : imovn) : value := VObj "imovn.IMOVN"
  [("epc_uri"%string, VStr (imovn_epc_uri x)); ("_vessel_number"%string, VStr (imovn_vessel_number x))].
