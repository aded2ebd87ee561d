(** What the constructors accept: C06.  The predicates [..._uri] of [SpecGrammar] spell the documented grammar. *)
From Coq Require Import String.
From Verif.Model Require Import Py Common Base.
From Verif.Model Require Import Adi Cpi Gdti Giai Gid Grai Gsrn Gsrnp Itip Lgtin Sgcn Sgln Sgtin Sscc Usdod Others Parsers.
From Verif.Spec Require Import Spec SpecEscapes SpecGrammar SpecSchemes.
From Verif.Proofs Require Import CtorA CtorB CtorC CtorAll.

(** * SGTIN *)

Theorem C06_sgtin_accepts_exactly : forall u x, 
  sgtin_init u = Ok x <->
  sgtin_uri u (sgtin_cp x) (sgtin_item x) (sgtin_serial x) /\ sgtin_epc_uri x = u /\
  exists i rest, sgtin_item x = i :: rest /\ completed (i :: sgtin_cp x ++ rest) (sgtin_gtin_ x).
Proof. exact sgtin_iff. Qed.
Print Assumptions C06_sgtin_accepts_exactly.
Example C06_sgtin_case :
  sgtin_init (lit "urn:epc:id:sgtin:0614141.812345.32a%2Fb") = Ok (mkSgtin (lit "urn:epc:id:sgtin:0614141.812345.32a%2Fb") (lit "0614141") (lit "812345") (lit "32a%2Fb") (lit "80614141123458")) /\
  sgtin_init (lit "urn:epc:id:sgtin:0614141.8123456.6789") = Raise ConvertException.
Proof. split; vm_compute; reflexivity. Qed.
Theorem C06_sgtin_refusal : forall u e, 
  sgtin_init u = Raise e -> e = ConvertException \/
  ((e = ValueError \/ e = OverflowError) /\ exists cp item serial,
     u = lit "urn:epc:id:sgtin:" ++ cp ++ lit "." ++ item ++ lit "." ++ serial /\
     company_prefix cp /\ digits item /\ (length cp + length item = 13)%nat /\ malformed_component serial).
Proof. exact sgtin_refusal. Qed.
Print Assumptions C06_sgtin_refusal.

(** * LGTIN *)

Theorem C06_lgtin_accepts_exactly : forall u x, 
  lgtin_init u = Ok x <->
  exists lot, lgtin_uri u (lgtin_cp x) (lgtin_item x) lot /\ lgtin_epc_uri x = u /\ lgtin_lot x = unescape lot /\
  exists i rest, lgtin_item x = i :: rest /\ completed (i :: lgtin_cp x ++ rest) (lgtin_gtin_ x).
Proof. exact lgtin_iff. Qed.
Print Assumptions C06_lgtin_accepts_exactly.
Example C06_lgtin_case :
  lgtin_init (lit "urn:epc:class:lgtin:0614141.812345.6%2F89") = Ok (mkLgtin (lit "urn:epc:class:lgtin:0614141.812345.6%2F89") (lit "0614141") (lit "812345") (lit "6/89") (lit "80614141123458")) /\
  lgtin_init (lit "urn:epc:class:lgtin:0614141.812345.") = Raise ConvertException.
Proof. split; vm_compute; reflexivity. Qed.
Theorem C06_lgtin_refusal : forall u e, 
  lgtin_init u = Raise e -> e = ConvertException \/
  ((e = ValueError \/ e = OverflowError) /\ exists cp item lot,
     u = lit "urn:epc:class:lgtin:" ++ cp ++ lit "." ++ item ++ lit "." ++ lot /\
     digits cp /\ digits item /\ malformed_component lot).
Proof. exact lgtin_refusal. Qed.
Print Assumptions C06_lgtin_refusal.

(** * SSCC *)

Theorem C06_sscc_accepts_exactly : forall u x, 
  sscc_init u = Ok x <->
  sscc_uri u (sscc_cp x) (sscc_serial x) /\ sscc_epc_uri x = u /\
  exists i rest, sscc_serial x = i :: rest /\ completed (i :: sscc_cp x ++ rest) (sscc_sscc x).
Proof. exact sscc_iff. Qed.
Print Assumptions C06_sscc_accepts_exactly.
Example C06_sscc_case :
  sscc_init (lit "urn:epc:id:sscc:0614141.1234567890") = Ok (mkSscc (lit "urn:epc:id:sscc:0614141.1234567890") (lit "0614141") (lit "1234567890") (lit "106141412345678908")) /\
  sscc_init (lit "urn:epc:id:sscc:0614141.123456789") = Raise ConvertException.
Proof. split; vm_compute; reflexivity. Qed.
Theorem C06_sscc_refusal : forall u e, sscc_init u = Raise e -> e = ConvertException.
Proof. exact sscc_refusal. Qed.
Print Assumptions C06_sscc_refusal.

(** * SGLN *)

Theorem C06_sgln_accepts_exactly : forall u x, 
  sgln_init u = Ok x <->
  sgln_uri u (sgln_cp x) (sgln_loc x) (sgln_serial x) /\ sgln_epc_uri x = u /\
  completed (sgln_cp x ++ sgln_loc x) (sgln_gln x).
Proof. exact sgln_iff. Qed.
Print Assumptions C06_sgln_accepts_exactly.
Example C06_sgln_case :
  sgln_init (lit "urn:epc:id:sgln:0614141.12345.40%2F0") = Ok (mkSgln (lit "urn:epc:id:sgln:0614141.12345.40%2F0") (lit "0614141") (lit "12345") (lit "40%2F0") (lit "0614141123452")) /\
  sgln_init (lit "urn:epc:id:sgln:0614141.12345.123456789012345678901") = Raise ConvertException.
Proof. split; vm_compute; reflexivity. Qed.
Theorem C06_sgln_refusal : forall u e, 
  sgln_init u = Raise e -> e = ConvertException \/
  ((e = ValueError \/ e = OverflowError) /\ exists cp loc ext,
     u = lit "urn:epc:id:sgln:" ++ cp ++ lit "." ++ loc ++ lit "." ++ ext /\
     company_prefix cp /\ digits loc /\ (length cp + length loc = 12)%nat /\ malformed_component ext).
Proof. exact sgln_refusal. Qed.
Print Assumptions C06_sgln_refusal.

(** * GRAI *)

Theorem C06_grai_accepts_exactly : forall u x, 
  grai_init u = Ok x <->
  grai_uri u (grai_cp x) (grai_asset x) (grai_serial x) /\ grai_epc_uri x = u /\
  exists k, completed (grai_cp x ++ grai_asset x) k /\ grai_grai x = k ++ unescape (grai_serial x).
Proof. exact grai_iff. Qed.
Print Assumptions C06_grai_accepts_exactly.
Example C06_grai_case :
  grai_init (lit "urn:epc:id:grai:0614141.12345.40%2F0") = Ok (mkGrai (lit "urn:epc:id:grai:0614141.12345.40%2F0") (lit "0614141") (lit "12345") (lit "40%2F0") (lit "061414112345240/0")) /\
  grai_init (lit "urn:epc:id:grai:0614141.12345.12345678901234567") = Raise ConvertException.
Proof. split; vm_compute; reflexivity. Qed.
Theorem C06_grai_refusal : forall u e, 
  grai_init u = Raise e -> e = ConvertException \/
  ((e = ValueError \/ e = OverflowError) /\ exists cp asset serial,
     u = lit "urn:epc:id:grai:" ++ cp ++ lit "." ++ asset ++ lit "." ++ serial /\
     digits cp /\ digits asset /\ malformed_component serial).
Proof. exact grai_refusal. Qed.
Print Assumptions C06_grai_refusal.

(** * GDTI *)

Theorem C06_gdti_accepts_exactly : forall u x, 
  gdti_init u = Ok x <->
  gdti_uri u (gdti_cp x) (gdti_doc x) (gdti_serial x) /\ gdti_epc_uri x = u /\
  exists k, completed (gdti_cp x ++ gdti_doc x) k /\ gdti_gdti x = k ++ unescape (gdti_serial x).
Proof. exact gdti_iff. Qed.
Print Assumptions C06_gdti_accepts_exactly.
Example C06_gdti_case :
  gdti_init (lit "urn:epc:id:gdti:0614141.12345.400") = Ok (mkGdti (lit "urn:epc:id:gdti:0614141.12345.400") (lit "0614141") (lit "12345") (lit "400") (lit "0614141123452400")) /\
  gdti_init (lit "urn:epc:id:gdti:06141.1234567.400") = Raise ConvertException.
Proof. split; vm_compute; reflexivity. Qed.
Theorem C06_gdti_refusal : forall u e, 
  gdti_init u = Raise e -> e = ConvertException \/
  ((e = ValueError \/ e = OverflowError) /\ exists cp doc serial,
     u = lit "urn:epc:id:gdti:" ++ cp ++ lit "." ++ doc ++ lit "." ++ serial /\
     digits cp /\ digits doc /\ malformed_component serial).
Proof. exact gdti_refusal. Qed.
Print Assumptions C06_gdti_refusal.

(** * UPUI *)

Theorem C06_upui_accepts_exactly : forall u x, 
  upui_init u = Ok x <->
  exists tpx, upui_uri u (upui_cp x) (upui_item x) tpx /\ upui_epc_uri x = u /\ upui_tpx x = unescape tpx.
Proof. exact upui_iff. Qed.
Print Assumptions C06_upui_accepts_exactly.
Example C06_upui_case :
  upui_init (lit "urn:epc:id:upui:1234567.089456.51qIgY)%3C") = Ok (mkUpui (lit "urn:epc:id:upui:1234567.089456.51qIgY)%3C") (lit "1234567") (lit "089456") (lit "51qIgY)<")) /\
  upui_init (lit "urn:epc:id:upui:1234567.08945.51qIgY") = Raise ConvertException.
Proof. split; vm_compute; reflexivity. Qed.
Theorem C06_upui_refusal : forall u e, 
  upui_init u = Raise e -> e = ConvertException \/
  ((e = ValueError \/ e = OverflowError) /\ exists cp item tpx,
     u = lit "urn:epc:id:upui:" ++ cp ++ lit "." ++ item ++ lit "." ++ tpx /\
     digits cp /\ digits item /\ malformed_component tpx).
Proof. exact upui_refusal. Qed.
Print Assumptions C06_upui_refusal.

(** * GSRN *)

Theorem C06_gsrn_accepts_exactly : forall u x, 
  gsrn_init u = Ok x <->
  gsrn_uri u (gsrn_cp x) (gsrn_service x) /\ gsrn_epc_uri x = u /\
  completed (gsrn_cp x ++ gsrn_service x) (gsrn_key x).
Proof. exact gsrn_iff. Qed.
Print Assumptions C06_gsrn_accepts_exactly.
Example C06_gsrn_case :
  gsrn_init (lit "urn:epc:id:gsrn:0614141.1234567890") = Ok (mkGsrn (lit "urn:epc:id:gsrn:0614141.1234567890") (lit "0614141") (lit "1234567890") (lit "061414112345678902")) /\
  gsrn_init (lit "urn:epc:id:gsrn:0614141.123456789O") = Raise ConvertException.
Proof. split; vm_compute; reflexivity. Qed.
Theorem C06_gsrn_refusal : forall u e, gsrn_init u = Raise e -> e = ConvertException.
Proof. exact gsrn_refusal. Qed.
Print Assumptions C06_gsrn_refusal.

(** * GSRNP *)

Theorem C06_gsrnp_accepts_exactly : forall u x, 
  gsrnp_init u = Ok x <->
  gsrnp_uri u (gsrnp_cp x) (gsrnp_service x) /\ gsrnp_epc_uri x = u /\
  completed (gsrnp_cp x ++ gsrnp_service x) (gsrnp_key x).
Proof. exact gsrnp_iff. Qed.
Print Assumptions C06_gsrnp_accepts_exactly.
Example C06_gsrnp_case :
  gsrnp_init (lit "urn:epc:id:gsrnp:0614141.1234567890") = Ok (mkGsrnp (lit "urn:epc:id:gsrnp:0614141.1234567890") (lit "0614141") (lit "1234567890") (lit "061414112345678902")) /\
  gsrnp_init (lit "urn:epc:id:gsrn:0614141.1234567890") = Raise ConvertException.
Proof. split; vm_compute; reflexivity. Qed.
Theorem C06_gsrnp_refusal : forall u e, gsrnp_init u = Raise e -> e = ConvertException.
Proof. exact gsrnp_refusal. Qed.
Print Assumptions C06_gsrnp_refusal.

(** * GSIN *)

Theorem C06_gsin_accepts_exactly : forall u x, 
  gsin_init u = Ok x <->
  gsin_uri u (gsin_cp x) (gsin_ref x) /\ gsin_epc_uri x = u /\
  completed (gsin_cp x ++ gsin_ref x) (gsin_gsin x).
Proof. exact gsin_iff. Qed.
Print Assumptions C06_gsin_accepts_exactly.
Example C06_gsin_case :
  gsin_init (lit "urn:epc:id:gsin:0614141.123456789") = Ok (mkGsin (lit "urn:epc:id:gsin:0614141.123456789") (lit "0614141") (lit "123456789") (lit "06141411234567890")) /\
  gsin_init (lit "urn:epc:id:gsin:0614141.1234567890") = Raise ConvertException.
Proof. split; vm_compute; reflexivity. Qed.
Theorem C06_gsin_refusal : forall u e, gsin_init u = Raise e -> e = ConvertException.
Proof. exact gsin_refusal. Qed.
Print Assumptions C06_gsin_refusal.

(** * PGLN *)

Theorem C06_pgln_accepts_exactly : forall u x, 
  pgln_init u = Ok x <->
  pgln_uri u (pgln_cp x) (pgln_party x) /\ pgln_epc_uri x = u /\
  completed (pgln_cp x ++ pgln_party x) (pgln_pgln x).
Proof. exact pgln_iff. Qed.
Print Assumptions C06_pgln_accepts_exactly.
Example C06_pgln_case :
  pgln_init (lit "urn:epc:id:pgln:061414112345.") = Ok (mkPgln (lit "urn:epc:id:pgln:061414112345.") (lit "061414112345") (lit "") (lit "0614141123452")) /\
  pgln_init (lit "urn:epc:id:pgln:06141.1234567") = Raise ConvertException.
Proof. split; vm_compute; reflexivity. Qed.
Theorem C06_pgln_refusal : forall u e, pgln_init u = Raise e -> e = ConvertException.
Proof. exact pgln_refusal. Qed.
Print Assumptions C06_pgln_refusal.

(** * GINC *)

Theorem C06_ginc_accepts_exactly : forall u x, 
  ginc_init u = Ok x <->
  ginc_epc_uri x = u /\ exists cp ref, ginc_uri u cp ref /\ ginc_ginc x = cp ++ unescape ref.
Proof. exact ginc_iff. Qed.
Print Assumptions C06_ginc_accepts_exactly.
Example C06_ginc_case :
  ginc_init (lit "urn:epc:id:ginc:0614141.xyz%2F47") = Ok (mkGinc (lit "urn:epc:id:ginc:0614141.xyz%2F47") (lit "0614141xyz/47")) /\
  ginc_init (lit "urn:epc:id:ginc:0614141.123456789012345678901234") = Raise ConvertException.
Proof. split; vm_compute; reflexivity. Qed.
Theorem C06_ginc_refusal : forall u e, 
  ginc_init u = Raise e -> e = ConvertException \/
  ((e = ValueError \/ e = OverflowError) /\ exists cp ref,
     u = lit "urn:epc:id:ginc:" ++ cp ++ lit "." ++ ref /\ digits cp /\ malformed_component ref).
Proof. exact ginc_refusal. Qed.
Print Assumptions C06_ginc_refusal.

(** * GIAI *)

Theorem C06_giai_accepts_exactly : forall u x, 
  giai_init u = Ok x <->
  (exists ignored, giai_uri u (giai_cp x) (giai_asset x) ignored) /\ giai_epc_uri x = u /\
  giai_giai x = giai_cp x ++ unescape (giai_asset x).
Proof. exact giai_iff. Qed.
Print Assumptions C06_giai_accepts_exactly.
Example C06_giai_case :
  giai_init (lit "urn:epc:id:giai:0614141.12345%2F400:7") = Ok (mkGiai (lit "urn:epc:id:giai:0614141.12345%2F400:7") (lit "0614141") (lit "12345%2F400") (lit "061414112345/400")) /\
  giai_init (lit "urn:epc:id:giai:0614141.:7") = Raise ConvertException.
Proof. split; vm_compute; reflexivity. Qed.
Theorem C06_giai_refusal : forall u e, 
  giai_init u = Raise e -> e = ConvertException \/
  ((e = ValueError \/ e = OverflowError) /\ exists cp asset ignored,
     u = lit "urn:epc:id:giai:" ++ cp ++ lit "." ++ asset ++ ignored /\ company_prefix cp /\
     malformed_component asset /\ ~ In 58 asset).
Proof. exact giai_refusal. Qed.
Print Assumptions C06_giai_refusal.

(** * SGCN *)

Theorem C06_sgcn_accepts_exactly : forall u x, 
  sgcn_init u = Ok x <->
  sgcn_uri u (sgcn_cp x) (sgcn_coupon x) (sgcn_serial x) /\ sgcn_epc_uri x = u /\
  exists k, completed (sgcn_cp x ++ sgcn_coupon x) k /\ sgcn_gcn x = k ++ sgcn_serial x.
Proof. exact sgcn_iff. Qed.
Print Assumptions C06_sgcn_accepts_exactly.
Example C06_sgcn_case :
  sgcn_init (lit "urn:epc:id:sgcn:4012345.67890.04711") = Ok (mkSgcn (lit "urn:epc:id:sgcn:4012345.67890.04711") (lit "4012345") (lit "67890") (lit "04711") (lit "401234567890104711")) /\
  sgcn_init (lit "urn:epc:id:sgcn:4012345.67890.1234567890123") = Raise ConvertException.
Proof. split; vm_compute; reflexivity. Qed.
Theorem C06_sgcn_refusal : forall u e, sgcn_init u = Raise e -> e = ConvertException.
Proof. exact sgcn_refusal. Qed.
Print Assumptions C06_sgcn_refusal.

(** * CPI *)

Theorem C06_cpi_accepts_exactly : forall u x, 
  cpi_init u = Ok x <-> cpi_uri u (cpi_cp x) (cpi_ref x) (cpi_serial x) /\ cpi_epc_uri x = u.
Proof. exact cpi_iff. Qed.
Print Assumptions C06_cpi_accepts_exactly.
Example C06_cpi_case :
  cpi_init (lit "urn:epc:id:cpi:0614141.5PQ7%2FZ43.12345") = Ok (mkCpi (lit "urn:epc:id:cpi:0614141.5PQ7%2FZ43.12345") (lit "0614141") (lit "5PQ7%2FZ43") (lit "12345")) /\
  cpi_init (lit "urn:epc:id:cpi:0614141.5PQ7Z43.012345") = Raise ConvertException.
Proof. split; vm_compute; reflexivity. Qed.
Theorem C06_cpi_refusal : forall u e, cpi_init u = Raise e -> e = ConvertException.
Proof. exact cpi_refusal. Qed.
Print Assumptions C06_cpi_refusal.

(** * ITIP *)

Theorem C06_itip_accepts_exactly : forall u x, 
  itip_init u = Ok x <->
  itip_uri u (itip_cp x) (itip_item x) (itip_piece x) (itip_total x) (itip_serial x) /\ itip_epc_uri x = u.
Proof. exact itip_iff. Qed.
Print Assumptions C06_itip_accepts_exactly.
Example C06_itip_case :
  itip_init (lit "urn:epc:id:itip:4012345.012345.01.02.987") = Ok (mkItip (lit "urn:epc:id:itip:4012345.012345.01.02.987") (lit "4012345") (lit "012345") (lit "01") (lit "02") (lit "987")) /\
  itip_init (lit "urn:epc:id:itip:4012345.012345.1.02.987") = Raise ConvertException.
Proof. split; vm_compute; reflexivity. Qed.
Theorem C06_itip_refusal : forall u e, 
  itip_init u = Raise e -> e = ConvertException \/
  ((e = ValueError \/ e = OverflowError) /\ exists cp item piece total serial,
     u = lit "urn:epc:id:itip:" ++ cp ++ lit "." ++ item ++ lit "." ++ piece ++ lit "." ++ total ++ lit "." ++ serial /\
     digits cp /\ digits item /\ digits piece /\ digits total /\ malformed_component serial).
Proof. exact itip_refusal. Qed.
Print Assumptions C06_itip_refusal.

(** * GID *)

Theorem C06_gid_accepts_exactly : forall u x, 
  gid_init u = Ok x <-> gid_uri u (gid_manager x) (gid_object x) (gid_serial x) /\ gid_epc_uri x = u.
Proof. exact gid_iff. Qed.
Print Assumptions C06_gid_accepts_exactly.
Example C06_gid_case :
  gid_init (lit "urn:epc:id:gid:95100000.12345.400") = Ok (mkGid (lit "urn:epc:id:gid:95100000.12345.400") (lit "95100000") (lit "12345") (lit "400")) /\
  gid_init (lit "urn:epc:id:gid:268435456.12345.400") = Raise ConvertException.
Proof. split; vm_compute; reflexivity. Qed.
Theorem C06_gid_refusal : forall u e, gid_init u = Raise e -> e = ConvertException \/
  (e = ValueError /\ exists p s r, u = lit "urn:epc:id:gid:" ++ p ++ s ++ r /\ long_number s).
Proof. exact gid_refusal. Qed.
Print Assumptions C06_gid_refusal.

(** * USDOD *)

Theorem C06_usdod_accepts_exactly : forall u x, 
  usdod_init u = Ok x <-> usdod_uri u (usdod_cage x) (usdod_serial x) /\ usdod_epc_uri x = u.
Proof. exact usdod_iff. Qed.
Print Assumptions C06_usdod_accepts_exactly.
Example C06_usdod_case :
  usdod_init (lit "urn:epc:id:usdod:2S194.12345678901") = Ok (mkUsdod (lit "urn:epc:id:usdod:2S194.12345678901") (lit "2S194") (lit "12345678901")) /\
  usdod_init (lit "urn:epc:id:usdod:2S194.68719476736") = Raise ConvertException.
Proof. split; vm_compute; reflexivity. Qed.
Theorem C06_usdod_refusal : forall u e, usdod_init u = Raise e -> e = ConvertException \/
  (e = ValueError /\ exists p s, u = lit "urn:epc:id:usdod:" ++ p ++ s /\ long_number s).
Proof. exact usdod_refusal. Qed.
Print Assumptions C06_usdod_refusal.

(** * ADI *)

Theorem C06_adi_accepts_exactly : forall u x, 
  adi_init u = Ok x <-> adi_uri u (adi_cage x) (adi_part x) (adi_serial x) /\ adi_epc_uri x = u.
Proof. exact adi_iff. Qed.
Print Assumptions C06_adi_accepts_exactly.
Example C06_adi_case :
  adi_init (lit "urn:epc:id:adi:35962.PQ7VZ4%2F.%23M37") = Ok (mkAdi (lit "urn:epc:id:adi:35962.PQ7VZ4%2F.%23M37") (lit "35962") (lit "PQ7VZ4%2F") (lit "%23M37")) /\
  adi_init (lit "urn:epc:id:adi:35962.PQ7%23VZ4.M37") = Raise ConvertException.
Proof. split; vm_compute; reflexivity. Qed.
Theorem C06_adi_refusal : forall u e, adi_init u = Raise e -> e = ConvertException.
Proof. exact adi_refusal. Qed.
Print Assumptions C06_adi_refusal.

(** * BIC *)

Theorem C06_bic_accepts_exactly : forall u x, 
  bic_init u = Ok x <->
  bic_uri u (bic_owner_code x) (bic_equipment_category_identifier x) (bic_serial x) (bic_check_digit x) /\
  bic_epc_uri x = u /\
  bic_container_code x = bic_owner_code x ++ bic_equipment_category_identifier x :: bic_serial x ++ [bic_check_digit x].
Proof. exact bic_iff. Qed.
Print Assumptions C06_bic_accepts_exactly.
Example C06_bic_case :
  bic_init (lit "urn:epc:id:bic:CSQU3054383") = Ok (mkBic (lit "urn:epc:id:bic:CSQU3054383") (lit "CSQU3054383") (lit "CSQ") 85 (lit "305438") 51) /\
  bic_init (lit "urn:epc:id:bic:CSQA3054383") = Raise ConvertException.
Proof. split; vm_compute; reflexivity. Qed.
Theorem C06_bic_refusal : forall u e, bic_init u = Raise e -> e = ConvertException.
Proof. exact bic_refusal. Qed.
Print Assumptions C06_bic_refusal.

(** * IMOVN *)

Theorem C06_imovn_accepts_exactly : forall u x, 
  imovn_init u = Ok x <-> imovn_uri u (imovn_vessel_number x) /\ imovn_epc_uri x = u.
Proof. exact imovn_iff. Qed.
Print Assumptions C06_imovn_accepts_exactly.
Example C06_imovn_case :
  imovn_init (lit "urn:epc:id:imovn:9176187") = Ok (mkImovn (lit "urn:epc:id:imovn:9176187") (lit "9176187")) /\
  imovn_init (lit "urn:epc:id:imovn:917618") = Raise ConvertException.
Proof. split; vm_compute; reflexivity. Qed.
Theorem C06_imovn_refusal : forall u e, imovn_init u = Raise e -> e = ConvertException.
Proof. exact imovn_refusal. Qed.
Print Assumptions C06_imovn_refusal.

