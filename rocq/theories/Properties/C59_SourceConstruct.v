(** The source text of the scheme classes, their constructors and GS1 methods: C59.

    [Source/S_*.v] holds the syntax trees of the functions, [W] the namespaces, classes and functions that importing the modules gives,
    [calls W f args kws r] says that the machine of [Model/Machine.v], given this text, comes from the call [f(args, kws)] to the result
    [r], and [invokes W v m args kws r] the same for [v.m(args, kws)].  For each class, the constructor, [from_epc_uri] and the methods
    for GS1 keys and element strings come to what their models say, for all texts, objects and integers, with the arguments given by
    position or by keyword. *)
From Coq Require Import String.
From Verif.Model Require Import Py PyFormat Syntax Machine Common Base.
From Verif.Model Require Import Sgtin Sscc Sgln Grai Giai Gsrn Gsrnp Gdti Sgcn Itip Gid Cpi Usdod Adi Lgtin Others.
From Verif.Source Require Import Program World.
From Verif.Spec Require Import SpecMethods.
From Verif.Proofs Require SrcSgtin SrcSscc SrcSgln SrcGrai SrcGiai SrcGsrn SrcGsrnp SrcGdti SrcSgcn SrcItip SrcGid SrcCpi SrcUsdod SrcAdi SrcLgtin SrcGsin SrcGinc SrcPgln SrcUpui SrcBic SrcImovn.

(** SGTIN *)
Theorem C59_sgtin_construct :
  (forall u args kws, passed1 "epc_uri" (VStr u) args kws -> calls W (VClass "sgtin.SGTIN") args kws (result sgtin_obj (sgtin_init u))) /\
  (forall u args kws, passed1 "epc_uri" (VStr u) args kws -> invokes W (VClass "sgtin.SGTIN") "from_epc_uri" args kws (result sgtin_obj (sgtin_init u))).
Proof. exact SrcSgtin.sgtin_construct. Qed.
Print Assumptions C59_sgtin_construct.
Theorem C59_sgtin_gs1 :
  (forall g s n args kws, passed3 "gtin" "serial" "company_prefix_length" (VStr g) (VStr s) (VInt n) args kws ->
     invokes W (VClass "sgtin.SGTIN") "from_gtin_plus_serial" args kws (result sgtin_obj (sgtin_from_gtin_plus_serial g s n))) /\
  (forall x c t args kws, gtin_class c -> passed1 "gtin_type" (gtin_member c t) args kws \/ (args = [] /\ kws = [] /\ t = GTIN14) ->
     invokes W (sgtin_obj x) "gs1_key" args kws (result VStr (sgtin_gs1_key x t))) /\
  (forall x c t args kws, gtin_class c -> passed1 "gtin_type" (gtin_member c t) args kws \/ (args = [] /\ kws = [] /\ t = GTIN14) ->
     invokes W (sgtin_obj x) "gtin" args kws (result VStr (sgtin_gtin x t))) /\
  (forall x, invokes W (sgtin_obj x) "gs1_element_string" [] [] (Returned (VStr (sgtin_gs1_element_string x)))) /\
  (forall s n args kws, passed2 "gs1_element_string" "company_prefix_length" (VStr s) (VInt n) args kws ->
     invokes W (VClass "sgtin.SGTIN") "from_gs1_element_string" args kws (result sgtin_obj (sgtin_from_gs1_element_string s n))).
Proof. exact SrcSgtin.sgtin_gs1. Qed.
Print Assumptions C59_sgtin_gs1.
Example C59_sgtin_case :
  calls W (VClass "sgtin.SGTIN") [VStr (lit "urn:epc:id:sgtin:0614141.812345.32a%2Fb")] [] (Returned
    (VObj "sgtin.SGTIN" [("epc_uri"%string, VStr (lit "urn:epc:id:sgtin:0614141.812345.32a%2Fb")); ("_base64"%string, VNone); ("_binary"%string, VNone); ("_hex"%string, VNone); ("_tag_uri"%string, VNone); ("_company_pref"%string, VStr (lit "0614141")); ("_item_ref"%string, VStr (lit "812345")); ("_serial"%string, VStr (lit "32a%2Fb")); ("_gtin"%string, VStr (lit "80614141123458"))])) /\
  calls W (VClass "sgtin.SGTIN") [] [("epc_uri"%string, VStr (lit "urn:epc:id:sgtin:0614141.812345.32a%2Fb^"))] (Raised (XExn ConvertException)) /\
  invokes W (VObj "sgtin.SGTIN" [("epc_uri"%string, VStr (lit "urn:epc:id:sgtin:0614141.812345.32a%2Fb")); ("_base64"%string, VNone); ("_binary"%string, VNone); ("_hex"%string, VNone); ("_tag_uri"%string, VNone); ("_company_pref"%string, VStr (lit "0614141")); ("_item_ref"%string, VStr (lit "812345")); ("_serial"%string, VStr (lit "32a%2Fb")); ("_gtin"%string, VStr (lit "80614141123458"))])
    "gs1_element_string" [] [] (Returned (VStr (lit "(01)80614141123458(21)32a/b"))) /\
  invokes W (VClass "sgtin.SGTIN") "from_gs1_element_string" [VStr (lit "(01)80614141123458(21)32a/b"); VInt 7] [] (Returned
    (VObj "sgtin.SGTIN" [("epc_uri"%string, VStr (lit "urn:epc:id:sgtin:0614141.812345.32a%2Fb")); ("_base64"%string, VNone); ("_binary"%string, VNone); ("_hex"%string, VNone); ("_tag_uri"%string, VNone); ("_company_pref"%string, VStr (lit "0614141")); ("_item_ref"%string, VStr (lit "812345")); ("_serial"%string, VStr (lit "32a%2Fb")); ("_gtin"%string, VStr (lit "80614141123458"))])).
Proof. repeat split; exists (200 * 100)%nat; vm_compute; reflexivity. Qed.

(** SSCC *)
Theorem C59_sscc_construct :
  (forall u args kws, passed1 "epc_uri" (VStr u) args kws -> calls W (VClass "sscc.SSCC") args kws (result sscc_obj (sscc_init u))) /\
  (forall u args kws, passed1 "epc_uri" (VStr u) args kws -> invokes W (VClass "sscc.SSCC") "from_epc_uri" args kws (result sscc_obj (sscc_init u))).
Proof. exact SrcSscc.sscc_construct. Qed.
Print Assumptions C59_sscc_construct.
Theorem C59_sscc_gs1 :
  (forall x, invokes W (sscc_obj x) "gs1_key" [] [] (Returned (VStr (sscc_gs1_key x)))) /\
  (forall x, invokes W (sscc_obj x) "gs1_element_string" [] [] (Returned (VStr (sscc_gs1_element_string x)))) /\
  (forall s n args kws, passed2 "gs1_element_string" "company_prefix_length" (VStr s) (VInt n) args kws ->
     invokes W (VClass "sscc.SSCC") "from_gs1_element_string" args kws (result sscc_obj (sscc_from_gs1_element_string s n))).
Proof. exact SrcSscc.sscc_gs1. Qed.
Print Assumptions C59_sscc_gs1.
Example C59_sscc_case :
  calls W (VClass "sscc.SSCC") [VStr (lit "urn:epc:id:sscc:0614141.1234567890")] [] (Returned
    (VObj "sscc.SSCC" [("epc_uri"%string, VStr (lit "urn:epc:id:sscc:0614141.1234567890")); ("_base64"%string, VNone); ("_binary"%string, VNone); ("_hex"%string, VNone); ("_tag_uri"%string, VNone); ("_company_pref"%string, VStr (lit "0614141")); ("_serial"%string, VStr (lit "1234567890")); ("_sscc"%string, VStr (lit "106141412345678908"))])) /\
  calls W (VClass "sscc.SSCC") [] [("epc_uri"%string, VStr (lit "urn:epc:id:sscc:0614141.1234567890^"))] (Raised (XExn ConvertException)) /\
  invokes W (VObj "sscc.SSCC" [("epc_uri"%string, VStr (lit "urn:epc:id:sscc:0614141.1234567890")); ("_base64"%string, VNone); ("_binary"%string, VNone); ("_hex"%string, VNone); ("_tag_uri"%string, VNone); ("_company_pref"%string, VStr (lit "0614141")); ("_serial"%string, VStr (lit "1234567890")); ("_sscc"%string, VStr (lit "106141412345678908"))])
    "gs1_element_string" [] [] (Returned (VStr (lit "(00)106141412345678908"))) /\
  invokes W (VClass "sscc.SSCC") "from_gs1_element_string" [VStr (lit "(00)106141412345678908"); VInt 7] [] (Returned
    (VObj "sscc.SSCC" [("epc_uri"%string, VStr (lit "urn:epc:id:sscc:0614141.1234567890")); ("_base64"%string, VNone); ("_binary"%string, VNone); ("_hex"%string, VNone); ("_tag_uri"%string, VNone); ("_company_pref"%string, VStr (lit "0614141")); ("_serial"%string, VStr (lit "1234567890")); ("_sscc"%string, VStr (lit "106141412345678908"))])).
Proof. repeat split; exists (200 * 100)%nat; vm_compute; reflexivity. Qed.

(** SGLN *)
Theorem C59_sgln_construct :
  (forall u args kws, passed1 "epc_uri" (VStr u) args kws -> calls W (VClass "sgln.SGLN") args kws (result sgln_obj (sgln_init u))) /\
  (forall u args kws, passed1 "epc_uri" (VStr u) args kws -> invokes W (VClass "sgln.SGLN") "from_epc_uri" args kws (result sgln_obj (sgln_init u))).
Proof. exact SrcSgln.sgln_construct. Qed.
Print Assumptions C59_sgln_construct.
Theorem C59_sgln_gs1 :
  (forall x, invokes W (sgln_obj x) "gs1_key" [] [] (Returned (VStr (sgln_gs1_key x)))) /\
  (forall x, invokes W (sgln_obj x) "gs1_element_string" [] [] (Returned (VStr (sgln_gs1_element_string x)))) /\
  (forall s n args kws, passed2 "gs1_element_string" "company_prefix_length" (VStr s) (VInt n) args kws ->
     invokes W (VClass "sgln.SGLN") "from_gs1_element_string" args kws (result sgln_obj (sgln_from_gs1_element_string s n))).
Proof. exact SrcSgln.sgln_gs1. Qed.
Print Assumptions C59_sgln_gs1.
Example C59_sgln_case :
  calls W (VClass "sgln.SGLN") [VStr (lit "urn:epc:id:sgln:0614141.12345.400")] [] (Returned
    (VObj "sgln.SGLN" [("epc_uri"%string, VStr (lit "urn:epc:id:sgln:0614141.12345.400")); ("_base64"%string, VNone); ("_binary"%string, VNone); ("_hex"%string, VNone); ("_tag_uri"%string, VNone); ("_company_pref"%string, VStr (lit "0614141")); ("_location_ref"%string, VStr (lit "12345")); ("_serial"%string, VStr (lit "400")); ("_gln"%string, VStr (lit "0614141123452"))])) /\
  calls W (VClass "sgln.SGLN") [] [("epc_uri"%string, VStr (lit "urn:epc:id:sgln:0614141.12345.400^"))] (Raised (XExn ConvertException)) /\
  invokes W (VObj "sgln.SGLN" [("epc_uri"%string, VStr (lit "urn:epc:id:sgln:0614141.12345.400")); ("_base64"%string, VNone); ("_binary"%string, VNone); ("_hex"%string, VNone); ("_tag_uri"%string, VNone); ("_company_pref"%string, VStr (lit "0614141")); ("_location_ref"%string, VStr (lit "12345")); ("_serial"%string, VStr (lit "400")); ("_gln"%string, VStr (lit "0614141123452"))])
    "gs1_element_string" [] [] (Returned (VStr (lit "(414)0614141123452(254)400"))) /\
  invokes W (VClass "sgln.SGLN") "from_gs1_element_string" [VStr (lit "(414)0614141123452(254)400"); VInt 7] [] (Returned
    (VObj "sgln.SGLN" [("epc_uri"%string, VStr (lit "urn:epc:id:sgln:0614141.12345.400")); ("_base64"%string, VNone); ("_binary"%string, VNone); ("_hex"%string, VNone); ("_tag_uri"%string, VNone); ("_company_pref"%string, VStr (lit "0614141")); ("_location_ref"%string, VStr (lit "12345")); ("_serial"%string, VStr (lit "400")); ("_gln"%string, VStr (lit "0614141123452"))])).
Proof. repeat split; exists (200 * 100)%nat; vm_compute; reflexivity. Qed.

(** GRAI *)
Theorem C59_grai_construct :
  (forall u args kws, passed1 "epc_uri" (VStr u) args kws -> calls W (VClass "grai.GRAI") args kws (result grai_obj (grai_init u))) /\
  (forall u args kws, passed1 "epc_uri" (VStr u) args kws -> invokes W (VClass "grai.GRAI") "from_epc_uri" args kws (result grai_obj (grai_init u))).
Proof. exact SrcGrai.grai_construct. Qed.
Print Assumptions C59_grai_construct.
Theorem C59_grai_gs1 :
  (forall x, invokes W (grai_obj x) "gs1_key" [] [] (Returned (VStr (grai_gs1_key x)))) /\
  (forall x, invokes W (grai_obj x) "gs1_element_string" [] [] (Returned (VStr (grai_gs1_element_string x)))) /\
  (forall s n args kws, passed2 "gs1_element_string" "company_prefix_length" (VStr s) (VInt n) args kws ->
     invokes W (VClass "grai.GRAI") "from_gs1_element_string" args kws (result grai_obj (grai_from_gs1_element_string s n))).
Proof. exact SrcGrai.grai_gs1. Qed.
Print Assumptions C59_grai_gs1.
Example C59_grai_case :
  calls W (VClass "grai.GRAI") [VStr (lit "urn:epc:id:grai:0614141.12345.400")] [] (Returned
    (VObj "grai.GRAI" [("epc_uri"%string, VStr (lit "urn:epc:id:grai:0614141.12345.400")); ("_base64"%string, VNone); ("_binary"%string, VNone); ("_hex"%string, VNone); ("_tag_uri"%string, VNone); ("_serial"%string, VStr (lit "400")); ("_company_pref"%string, VStr (lit "0614141")); ("_asset_type"%string, VStr (lit "12345")); ("_grai"%string, VStr (lit "0614141123452400"))])) /\
  calls W (VClass "grai.GRAI") [] [("epc_uri"%string, VStr (lit "urn:epc:id:grai:0614141.12345.400^"))] (Raised (XExn ConvertException)) /\
  invokes W (VObj "grai.GRAI" [("epc_uri"%string, VStr (lit "urn:epc:id:grai:0614141.12345.400")); ("_base64"%string, VNone); ("_binary"%string, VNone); ("_hex"%string, VNone); ("_tag_uri"%string, VNone); ("_serial"%string, VStr (lit "400")); ("_company_pref"%string, VStr (lit "0614141")); ("_asset_type"%string, VStr (lit "12345")); ("_grai"%string, VStr (lit "0614141123452400"))])
    "gs1_element_string" [] [] (Returned (VStr (lit "(8003)00614141123452400"))) /\
  invokes W (VClass "grai.GRAI") "from_gs1_element_string" [VStr (lit "(8003)00614141123452400"); VInt 7] [] (Returned
    (VObj "grai.GRAI" [("epc_uri"%string, VStr (lit "urn:epc:id:grai:0614141.12345.400")); ("_base64"%string, VNone); ("_binary"%string, VNone); ("_hex"%string, VNone); ("_tag_uri"%string, VNone); ("_serial"%string, VStr (lit "400")); ("_company_pref"%string, VStr (lit "0614141")); ("_asset_type"%string, VStr (lit "12345")); ("_grai"%string, VStr (lit "0614141123452400"))])).
Proof. repeat split; exists (200 * 100)%nat; vm_compute; reflexivity. Qed.

(** GIAI *)
Theorem C59_giai_construct :
  (forall u args kws, passed1 "epc_uri" (VStr u) args kws -> calls W (VClass "giai.GIAI") args kws (result giai_obj (giai_init u))) /\
  (forall u args kws, passed1 "epc_uri" (VStr u) args kws -> invokes W (VClass "giai.GIAI") "from_epc_uri" args kws (result giai_obj (giai_init u))).
Proof. exact SrcGiai.giai_construct. Qed.
Print Assumptions C59_giai_construct.
Theorem C59_giai_gs1 :
  (forall x, invokes W (giai_obj x) "gs1_key" [] [] (Returned (VStr (giai_gs1_key x)))) /\
  (forall x, invokes W (giai_obj x) "gs1_element_string" [] [] (Returned (VStr (giai_gs1_element_string x)))) /\
  (forall s n args kws, passed2 "gs1_element_string" "company_prefix_length" (VStr s) (VInt n) args kws ->
     invokes W (VClass "giai.GIAI") "from_gs1_element_string" args kws (result giai_obj (giai_from_gs1_element_string s n))).
Proof. exact SrcGiai.giai_gs1. Qed.
Print Assumptions C59_giai_gs1.
Example C59_giai_case :
  calls W (VClass "giai.GIAI") [VStr (lit "urn:epc:id:giai:0614141.32a%2Fb")] [] (Returned
    (VObj "giai.GIAI" [("epc_uri"%string, VStr (lit "urn:epc:id:giai:0614141.32a%2Fb")); ("_base64"%string, VNone); ("_binary"%string, VNone); ("_hex"%string, VNone); ("_tag_uri"%string, VNone); ("_company_pref"%string, VStr (lit "0614141")); ("_asset_ref"%string, VStr (lit "32a%2Fb")); ("_giai"%string, VStr (lit "061414132a/b"))])) /\
  calls W (VClass "giai.GIAI") [] [("epc_uri"%string, VStr (lit "urn:epc:id:giai:0614141.32a%2Fb^"))] (Raised (XExn ConvertException)) /\
  invokes W (VObj "giai.GIAI" [("epc_uri"%string, VStr (lit "urn:epc:id:giai:0614141.32a%2Fb")); ("_base64"%string, VNone); ("_binary"%string, VNone); ("_hex"%string, VNone); ("_tag_uri"%string, VNone); ("_company_pref"%string, VStr (lit "0614141")); ("_asset_ref"%string, VStr (lit "32a%2Fb")); ("_giai"%string, VStr (lit "061414132a/b"))])
    "gs1_element_string" [] [] (Returned (VStr (lit "(8004)061414132a/b"))) /\
  invokes W (VClass "giai.GIAI") "from_gs1_element_string" [VStr (lit "(8004)061414132a/b"); VInt 7] [] (Returned
    (VObj "giai.GIAI" [("epc_uri"%string, VStr (lit "urn:epc:id:giai:0614141.32a%2Fb")); ("_base64"%string, VNone); ("_binary"%string, VNone); ("_hex"%string, VNone); ("_tag_uri"%string, VNone); ("_company_pref"%string, VStr (lit "0614141")); ("_asset_ref"%string, VStr (lit "32a%2Fb")); ("_giai"%string, VStr (lit "061414132a/b"))])).
Proof. repeat split; exists (200 * 100)%nat; vm_compute; reflexivity. Qed.

(** GSRN *)
Theorem C59_gsrn_construct :
  (forall u args kws, passed1 "epc_uri" (VStr u) args kws -> calls W (VClass "gsrn.GSRN") args kws (result gsrn_obj (gsrn_init u))) /\
  (forall u args kws, passed1 "epc_uri" (VStr u) args kws -> invokes W (VClass "gsrn.GSRN") "from_epc_uri" args kws (result gsrn_obj (gsrn_init u))).
Proof. exact SrcGsrn.gsrn_construct. Qed.
Print Assumptions C59_gsrn_construct.
Theorem C59_gsrn_gs1 :
  (forall x, invokes W (gsrn_obj x) "gs1_key" [] [] (Returned (VStr (gsrn_gs1_key x)))) /\
  (forall x, invokes W (gsrn_obj x) "gs1_element_string" [] [] (Returned (VStr (gsrn_gs1_element_string x)))) /\
  (forall s n args kws, passed2 "gs1_element_string" "company_prefix_length" (VStr s) (VInt n) args kws ->
     invokes W (VClass "gsrn.GSRN") "from_gs1_element_string" args kws (result gsrn_obj (gsrn_from_gs1_element_string s n))).
Proof. exact SrcGsrn.gsrn_gs1. Qed.
Print Assumptions C59_gsrn_gs1.
Example C59_gsrn_case :
  calls W (VClass "gsrn.GSRN") [VStr (lit "urn:epc:id:gsrn:0614141.1234567890")] [] (Returned
    (VObj "gsrn.GSRN" [("epc_uri"%string, VStr (lit "urn:epc:id:gsrn:0614141.1234567890")); ("_base64"%string, VNone); ("_binary"%string, VNone); ("_hex"%string, VNone); ("_tag_uri"%string, VNone); ("_company_pref"%string, VStr (lit "0614141")); ("_service_ref"%string, VStr (lit "1234567890")); ("_gsrn"%string, VStr (lit "061414112345678902"))])) /\
  calls W (VClass "gsrn.GSRN") [] [("epc_uri"%string, VStr (lit "urn:epc:id:gsrn:0614141.1234567890^"))] (Raised (XExn ConvertException)) /\
  invokes W (VObj "gsrn.GSRN" [("epc_uri"%string, VStr (lit "urn:epc:id:gsrn:0614141.1234567890")); ("_base64"%string, VNone); ("_binary"%string, VNone); ("_hex"%string, VNone); ("_tag_uri"%string, VNone); ("_company_pref"%string, VStr (lit "0614141")); ("_service_ref"%string, VStr (lit "1234567890")); ("_gsrn"%string, VStr (lit "061414112345678902"))])
    "gs1_element_string" [] [] (Returned (VStr (lit "(8018)061414112345678902"))) /\
  invokes W (VClass "gsrn.GSRN") "from_gs1_element_string" [VStr (lit "(8018)061414112345678902"); VInt 7] [] (Returned
    (VObj "gsrn.GSRN" [("epc_uri"%string, VStr (lit "urn:epc:id:gsrn:0614141.1234567890")); ("_base64"%string, VNone); ("_binary"%string, VNone); ("_hex"%string, VNone); ("_tag_uri"%string, VNone); ("_company_pref"%string, VStr (lit "0614141")); ("_service_ref"%string, VStr (lit "1234567890")); ("_gsrn"%string, VStr (lit "061414112345678902"))])).
Proof. repeat split; exists (200 * 100)%nat; vm_compute; reflexivity. Qed.

(** GSRNP *)
Theorem C59_gsrnp_construct :
  (forall u args kws, passed1 "epc_uri" (VStr u) args kws -> calls W (VClass "gsrnp.GSRNP") args kws (result gsrnp_obj (gsrnp_init u))) /\
  (forall u args kws, passed1 "epc_uri" (VStr u) args kws -> invokes W (VClass "gsrnp.GSRNP") "from_epc_uri" args kws (result gsrnp_obj (gsrnp_init u))).
Proof. exact SrcGsrnp.gsrnp_construct. Qed.
Print Assumptions C59_gsrnp_construct.
Theorem C59_gsrnp_gs1 :
  (forall x, invokes W (gsrnp_obj x) "gs1_key" [] [] (Returned (VStr (gsrnp_gs1_key x)))) /\
  (forall x, invokes W (gsrnp_obj x) "gs1_element_string" [] [] (Returned (VStr (gsrnp_gs1_element_string x)))) /\
  (forall s n args kws, passed2 "gs1_element_string" "company_prefix_length" (VStr s) (VInt n) args kws ->
     invokes W (VClass "gsrnp.GSRNP") "from_gs1_element_string" args kws (result gsrnp_obj (gsrnp_from_gs1_element_string s n))).
Proof. exact SrcGsrnp.gsrnp_gs1. Qed.
Print Assumptions C59_gsrnp_gs1.
Example C59_gsrnp_case :
  calls W (VClass "gsrnp.GSRNP") [VStr (lit "urn:epc:id:gsrnp:0614141.1234567890")] [] (Returned
    (VObj "gsrnp.GSRNP" [("epc_uri"%string, VStr (lit "urn:epc:id:gsrnp:0614141.1234567890")); ("_base64"%string, VNone); ("_binary"%string, VNone); ("_hex"%string, VNone); ("_tag_uri"%string, VNone); ("_company_pref"%string, VStr (lit "0614141")); ("_service_ref"%string, VStr (lit "1234567890")); ("_gsrnp"%string, VStr (lit "061414112345678902"))])) /\
  calls W (VClass "gsrnp.GSRNP") [] [("epc_uri"%string, VStr (lit "urn:epc:id:gsrnp:0614141.1234567890^"))] (Raised (XExn ConvertException)) /\
  invokes W (VObj "gsrnp.GSRNP" [("epc_uri"%string, VStr (lit "urn:epc:id:gsrnp:0614141.1234567890")); ("_base64"%string, VNone); ("_binary"%string, VNone); ("_hex"%string, VNone); ("_tag_uri"%string, VNone); ("_company_pref"%string, VStr (lit "0614141")); ("_service_ref"%string, VStr (lit "1234567890")); ("_gsrnp"%string, VStr (lit "061414112345678902"))])
    "gs1_element_string" [] [] (Returned (VStr (lit "(8017)061414112345678902"))) /\
  invokes W (VClass "gsrnp.GSRNP") "from_gs1_element_string" [VStr (lit "(8017)061414112345678902"); VInt 7] [] (Returned
    (VObj "gsrnp.GSRNP" [("epc_uri"%string, VStr (lit "urn:epc:id:gsrnp:0614141.1234567890")); ("_base64"%string, VNone); ("_binary"%string, VNone); ("_hex"%string, VNone); ("_tag_uri"%string, VNone); ("_company_pref"%string, VStr (lit "0614141")); ("_service_ref"%string, VStr (lit "1234567890")); ("_gsrnp"%string, VStr (lit "061414112345678902"))])).
Proof. repeat split; exists (200 * 100)%nat; vm_compute; reflexivity. Qed.

(** GDTI *)
Theorem C59_gdti_construct :
  (forall u args kws, passed1 "epc_uri" (VStr u) args kws -> calls W (VClass "gdti.GDTI") args kws (result gdti_obj (gdti_init u))) /\
  (forall u args kws, passed1 "epc_uri" (VStr u) args kws -> invokes W (VClass "gdti.GDTI") "from_epc_uri" args kws (result gdti_obj (gdti_init u))).
Proof. exact SrcGdti.gdti_construct. Qed.
Print Assumptions C59_gdti_construct.
Theorem C59_gdti_gs1 :
  (forall x, invokes W (gdti_obj x) "gs1_key" [] [] (Returned (VStr (gdti_gs1_key x)))) /\
  (forall x, invokes W (gdti_obj x) "gs1_element_string" [] [] (Returned (VStr (gdti_gs1_element_string x)))) /\
  (forall s n args kws, passed2 "gs1_element_string" "company_prefix_length" (VStr s) (VInt n) args kws ->
     invokes W (VClass "gdti.GDTI") "from_gs1_element_string" args kws (result gdti_obj (gdti_from_gs1_element_string s n))).
Proof. exact SrcGdti.gdti_gs1. Qed.
Print Assumptions C59_gdti_gs1.
Example C59_gdti_case :
  calls W (VClass "gdti.GDTI") [VStr (lit "urn:epc:id:gdti:0614141.12345.ABCDefgh012345678")] [] (Returned
    (VObj "gdti.GDTI" [("epc_uri"%string, VStr (lit "urn:epc:id:gdti:0614141.12345.ABCDefgh012345678")); ("_base64"%string, VNone); ("_binary"%string, VNone); ("_hex"%string, VNone); ("_tag_uri"%string, VNone); ("_serial"%string, VStr (lit "ABCDefgh012345678")); ("_company_pref"%string, VStr (lit "0614141")); ("_doc_type"%string, VStr (lit "12345")); ("_gdti"%string, VStr (lit "0614141123452ABCDefgh012345678"))])) /\
  calls W (VClass "gdti.GDTI") [] [("epc_uri"%string, VStr (lit "urn:epc:id:gdti:0614141.12345.ABCDefgh012345678^"))] (Raised (XExn ConvertException)) /\
  invokes W (VObj "gdti.GDTI" [("epc_uri"%string, VStr (lit "urn:epc:id:gdti:0614141.12345.ABCDefgh012345678")); ("_base64"%string, VNone); ("_binary"%string, VNone); ("_hex"%string, VNone); ("_tag_uri"%string, VNone); ("_serial"%string, VStr (lit "ABCDefgh012345678")); ("_company_pref"%string, VStr (lit "0614141")); ("_doc_type"%string, VStr (lit "12345")); ("_gdti"%string, VStr (lit "0614141123452ABCDefgh012345678"))])
    "gs1_element_string" [] [] (Returned (VStr (lit "(253)0614141123452ABCDefgh012345678"))) /\
  invokes W (VClass "gdti.GDTI") "from_gs1_element_string" [VStr (lit "(253)0614141123452ABCDefgh012345678"); VInt 7] [] (Returned
    (VObj "gdti.GDTI" [("epc_uri"%string, VStr (lit "urn:epc:id:gdti:0614141.12345.ABCDefgh012345678")); ("_base64"%string, VNone); ("_binary"%string, VNone); ("_hex"%string, VNone); ("_tag_uri"%string, VNone); ("_serial"%string, VStr (lit "ABCDefgh012345678")); ("_company_pref"%string, VStr (lit "0614141")); ("_doc_type"%string, VStr (lit "12345")); ("_gdti"%string, VStr (lit "0614141123452ABCDefgh012345678"))])).
Proof. repeat split; exists (200 * 100)%nat; vm_compute; reflexivity. Qed.

(** SGCN *)
Theorem C59_sgcn_construct :
  (forall u args kws, passed1 "epc_uri" (VStr u) args kws -> calls W (VClass "sgcn.SGCN") args kws (result sgcn_obj (sgcn_init u))) /\
  (forall u args kws, passed1 "epc_uri" (VStr u) args kws -> invokes W (VClass "sgcn.SGCN") "from_epc_uri" args kws (result sgcn_obj (sgcn_init u))).
Proof. exact SrcSgcn.sgcn_construct. Qed.
Print Assumptions C59_sgcn_construct.
Theorem C59_sgcn_gs1 :
  (forall x, invokes W (sgcn_obj x) "gs1_key" [] [] (Returned (VStr (sgcn_gs1_key x)))) /\
  (forall x, invokes W (sgcn_obj x) "gs1_element_string" [] [] (Returned (VStr (sgcn_gs1_element_string x)))) /\
  (forall s n args kws, passed2 "gs1_element_string" "company_prefix_length" (VStr s) (VInt n) args kws ->
     invokes W (VClass "sgcn.SGCN") "from_gs1_element_string" args kws (result sgcn_obj (sgcn_from_gs1_element_string s n))).
Proof. exact SrcSgcn.sgcn_gs1. Qed.
Print Assumptions C59_sgcn_gs1.
Example C59_sgcn_case :
  calls W (VClass "sgcn.SGCN") [VStr (lit "urn:epc:id:sgcn:4012345.67890.04711")] [] (Returned
    (VObj "sgcn.SGCN" [("epc_uri"%string, VStr (lit "urn:epc:id:sgcn:4012345.67890.04711")); ("_base64"%string, VNone); ("_binary"%string, VNone); ("_hex"%string, VNone); ("_tag_uri"%string, VNone); ("_company_pref"%string, VStr (lit "4012345")); ("_coupon_ref"%string, VStr (lit "67890")); ("_serial"%string, VStr (lit "04711")); ("_gcn"%string, VStr (lit "401234567890104711"))])) /\
  calls W (VClass "sgcn.SGCN") [] [("epc_uri"%string, VStr (lit "urn:epc:id:sgcn:4012345.67890.04711^"))] (Raised (XExn ConvertException)) /\
  invokes W (VObj "sgcn.SGCN" [("epc_uri"%string, VStr (lit "urn:epc:id:sgcn:4012345.67890.04711")); ("_base64"%string, VNone); ("_binary"%string, VNone); ("_hex"%string, VNone); ("_tag_uri"%string, VNone); ("_company_pref"%string, VStr (lit "4012345")); ("_coupon_ref"%string, VStr (lit "67890")); ("_serial"%string, VStr (lit "04711")); ("_gcn"%string, VStr (lit "401234567890104711"))])
    "gs1_element_string" [] [] (Returned (VStr (lit "(255)401234567890104711"))) /\
  invokes W (VClass "sgcn.SGCN") "from_gs1_element_string" [VStr (lit "(255)401234567890104711"); VInt 7] [] (Returned
    (VObj "sgcn.SGCN" [("epc_uri"%string, VStr (lit "urn:epc:id:sgcn:4012345.67890.04711")); ("_base64"%string, VNone); ("_binary"%string, VNone); ("_hex"%string, VNone); ("_tag_uri"%string, VNone); ("_company_pref"%string, VStr (lit "4012345")); ("_coupon_ref"%string, VStr (lit "67890")); ("_serial"%string, VStr (lit "04711")); ("_gcn"%string, VStr (lit "401234567890104711"))])).
Proof. repeat split; exists (200 * 100)%nat; vm_compute; reflexivity. Qed.

(** ITIP *)
Theorem C59_itip_construct :
  (forall u args kws, passed1 "epc_uri" (VStr u) args kws -> calls W (VClass "itip.ITIP") args kws (result itip_obj (itip_init u))) /\
  (forall u args kws, passed1 "epc_uri" (VStr u) args kws -> invokes W (VClass "itip.ITIP") "from_epc_uri" args kws (result itip_obj (itip_init u))).
Proof. exact SrcItip.itip_construct. Qed.
Print Assumptions C59_itip_construct.
Theorem C59_itip_gs1 :
  (forall x, invokes W (itip_obj x) "gs1_element_string" [] [] (result VStr (itip_gs1_element_string x))) /\
  (forall s n args kws, passed2 "gs1_element_string" "company_prefix_length" (VStr s) (VInt n) args kws ->
     invokes W (VClass "itip.ITIP") "from_gs1_element_string" args kws (result itip_obj (itip_from_gs1_element_string s n))).
Proof. exact SrcItip.itip_gs1. Qed.
Print Assumptions C59_itip_gs1.
Example C59_itip_case :
  calls W (VClass "itip.ITIP") [VStr (lit "urn:epc:id:itip:4012345.012345.01.02.987")] [] (Returned
    (VObj "itip.ITIP" [("epc_uri"%string, VStr (lit "urn:epc:id:itip:4012345.012345.01.02.987")); ("_base64"%string, VNone); ("_binary"%string, VNone); ("_hex"%string, VNone); ("_tag_uri"%string, VNone); ("_company_pref"%string, VStr (lit "4012345")); ("_item_ref"%string, VStr (lit "012345")); ("_piece"%string, VStr (lit "01")); ("_total"%string, VStr (lit "02")); ("_serial"%string, VStr (lit "987"))])) /\
  calls W (VClass "itip.ITIP") [] [("epc_uri"%string, VStr (lit "urn:epc:id:itip:4012345.012345.01.02.987^"))] (Raised (XExn ConvertException)) /\
  invokes W (VObj "itip.ITIP" [("epc_uri"%string, VStr (lit "urn:epc:id:itip:4012345.012345.01.02.987")); ("_base64"%string, VNone); ("_binary"%string, VNone); ("_hex"%string, VNone); ("_tag_uri"%string, VNone); ("_company_pref"%string, VStr (lit "4012345")); ("_item_ref"%string, VStr (lit "012345")); ("_piece"%string, VStr (lit "01")); ("_total"%string, VStr (lit "02")); ("_serial"%string, VStr (lit "987"))])
    "gs1_element_string" [] [] (Returned (VStr (lit "(8006)040123451234560102(21)987"))) /\
  invokes W (VClass "itip.ITIP") "from_gs1_element_string" [VStr (lit "(8006)040123451234560102(21)987"); VInt 7] [] (Returned
    (VObj "itip.ITIP" [("epc_uri"%string, VStr (lit "urn:epc:id:itip:4012345.012345.01.02.987")); ("_base64"%string, VNone); ("_binary"%string, VNone); ("_hex"%string, VNone); ("_tag_uri"%string, VNone); ("_company_pref"%string, VStr (lit "4012345")); ("_item_ref"%string, VStr (lit "012345")); ("_piece"%string, VStr (lit "01")); ("_total"%string, VStr (lit "02")); ("_serial"%string, VStr (lit "987"))])).
Proof. repeat split; exists (200 * 100)%nat; vm_compute; reflexivity. Qed.

(** GID *)
Theorem C59_gid_construct :
  (forall u args kws, passed1 "epc_uri" (VStr u) args kws -> calls W (VClass "gid.GID") args kws (result gid_obj (gid_init u))) /\
  (forall u args kws, passed1 "epc_uri" (VStr u) args kws -> invokes W (VClass "gid.GID") "from_epc_uri" args kws (result gid_obj (gid_init u))).
Proof. exact SrcGid.gid_construct. Qed.
Print Assumptions C59_gid_construct.
Example C59_gid_case :
  calls W (VClass "gid.GID") [VStr (lit "urn:epc:id:gid:95100000.12345.400")] [] (Returned
    (VObj "gid.GID" [("epc_uri"%string, VStr (lit "urn:epc:id:gid:95100000.12345.400")); ("_base64"%string, VNone); ("_binary"%string, VNone); ("_hex"%string, VNone); ("_tag_uri"%string, VNone); ("_manager"%string, VStr (lit "95100000")); ("_object"%string, VStr (lit "12345")); ("_serial"%string, VStr (lit "400"))])) /\
  calls W (VClass "gid.GID") [] [("epc_uri"%string, VStr (lit "urn:epc:id:gid:95100000.12345.400^"))] (Raised (XExn ConvertException)).
Proof. repeat split; exists (200 * 100)%nat; vm_compute; reflexivity. Qed.

(** CPI *)
Theorem C59_cpi_construct :
  (forall u args kws, passed1 "epc_uri" (VStr u) args kws -> calls W (VClass "cpi.CPI") args kws (result cpi_obj (cpi_init u))) /\
  (forall u args kws, passed1 "epc_uri" (VStr u) args kws -> invokes W (VClass "cpi.CPI") "from_epc_uri" args kws (result cpi_obj (cpi_init u))).
Proof. exact SrcCpi.cpi_construct. Qed.
Print Assumptions C59_cpi_construct.
Theorem C59_cpi_gs1 :
  (forall x, invokes W (cpi_obj x) "gs1_element_string" [] [] (Returned (VStr (cpi_gs1_element_string x)))) /\
  (forall s n args kws, passed2 "gs1_element_string" "company_prefix_length" (VStr s) (VInt n) args kws ->
     invokes W (VClass "cpi.CPI") "from_gs1_element_string" args kws (result cpi_obj (cpi_from_gs1_element_string s n))).
Proof. exact SrcCpi.cpi_gs1. Qed.
Print Assumptions C59_cpi_gs1.
Example C59_cpi_case :
  calls W (VClass "cpi.CPI") [VStr (lit "urn:epc:id:cpi:0614141.123%2FABC.123456789")] [] (Returned
    (VObj "cpi.CPI" [("epc_uri"%string, VStr (lit "urn:epc:id:cpi:0614141.123%2FABC.123456789")); ("_base64"%string, VNone); ("_binary"%string, VNone); ("_hex"%string, VNone); ("_tag_uri"%string, VNone); ("_company_pref"%string, VStr (lit "0614141")); ("_cp_ref"%string, VStr (lit "123%2FABC")); ("_serial"%string, VStr (lit "123456789"))])) /\
  calls W (VClass "cpi.CPI") [] [("epc_uri"%string, VStr (lit "urn:epc:id:cpi:0614141.123%2FABC.123456789^"))] (Raised (XExn ConvertException)) /\
  invokes W (VObj "cpi.CPI" [("epc_uri"%string, VStr (lit "urn:epc:id:cpi:0614141.123%2FABC.123456789")); ("_base64"%string, VNone); ("_binary"%string, VNone); ("_hex"%string, VNone); ("_tag_uri"%string, VNone); ("_company_pref"%string, VStr (lit "0614141")); ("_cp_ref"%string, VStr (lit "123%2FABC")); ("_serial"%string, VStr (lit "123456789"))])
    "gs1_element_string" [] [] (Returned (VStr (lit "(8010)0614141123/ABC(8011)123456789"))) /\
  invokes W (VClass "cpi.CPI") "from_gs1_element_string" [VStr (lit "(8010)0614141123/ABC(8011)123456789"); VInt 7] [] (Returned
    (VObj "cpi.CPI" [("epc_uri"%string, VStr (lit "urn:epc:id:cpi:0614141.123%2FABC.123456789")); ("_base64"%string, VNone); ("_binary"%string, VNone); ("_hex"%string, VNone); ("_tag_uri"%string, VNone); ("_company_pref"%string, VStr (lit "0614141")); ("_cp_ref"%string, VStr (lit "123%2FABC")); ("_serial"%string, VStr (lit "123456789"))])).
Proof. repeat split; exists (200 * 100)%nat; vm_compute; reflexivity. Qed.

(** USDOD *)
Theorem C59_usdod_construct :
  (forall u args kws, passed1 "epc_uri" (VStr u) args kws -> calls W (VClass "usdod.USDOD") args kws (result usdod_obj (usdod_init u))) /\
  (forall u args kws, passed1 "epc_uri" (VStr u) args kws -> invokes W (VClass "usdod.USDOD") "from_epc_uri" args kws (result usdod_obj (usdod_init u))).
Proof. exact SrcUsdod.usdod_construct. Qed.
Print Assumptions C59_usdod_construct.
Example C59_usdod_case :
  calls W (VClass "usdod.USDOD") [VStr (lit "urn:epc:id:usdod:2S194.12345678901")] [] (Returned
    (VObj "usdod.USDOD" [("epc_uri"%string, VStr (lit "urn:epc:id:usdod:2S194.12345678901")); ("_base64"%string, VNone); ("_binary"%string, VNone); ("_hex"%string, VNone); ("_tag_uri"%string, VNone); ("_cage_dodaac"%string, VStr (lit "2S194")); ("_serial"%string, VStr (lit "12345678901"))])) /\
  calls W (VClass "usdod.USDOD") [] [("epc_uri"%string, VStr (lit "urn:epc:id:usdod:2S194.12345678901^"))] (Raised (XExn ConvertException)).
Proof. repeat split; exists (200 * 100)%nat; vm_compute; reflexivity. Qed.

(** ADI *)
Theorem C59_adi_construct :
  (forall u args kws, passed1 "epc_uri" (VStr u) args kws -> calls W (VClass "adi.ADI") args kws (result adi_obj (adi_init u))) /\
  (forall u args kws, passed1 "epc_uri" (VStr u) args kws -> invokes W (VClass "adi.ADI") "from_epc_uri" args kws (result adi_obj (adi_init u))).
Proof. exact SrcAdi.adi_construct. Qed.
Print Assumptions C59_adi_construct.
Example C59_adi_case :
  calls W (VClass "adi.ADI") [VStr (lit "urn:epc:id:adi:W81X9C.3KL984PX1.2WMA52")] [] (Returned
    (VObj "adi.ADI" [("epc_uri"%string, VStr (lit "urn:epc:id:adi:W81X9C.3KL984PX1.2WMA52")); ("_base64"%string, VNone); ("_binary"%string, VNone); ("_hex"%string, VNone); ("_tag_uri"%string, VNone); ("_cage_dodaac"%string, VStr (lit "W81X9C")); ("_part_number"%string, VStr (lit "3KL984PX1")); ("_serial"%string, VStr (lit "2WMA52"))])) /\
  calls W (VClass "adi.ADI") [] [("epc_uri"%string, VStr (lit "urn:epc:id:adi:W81X9C.3KL984PX1.2WMA52^"))] (Raised (XExn ConvertException)).
Proof. repeat split; exists (200 * 100)%nat; vm_compute; reflexivity. Qed.

(** LGTIN *)
Theorem C59_lgtin_construct :
  (forall u args kws, passed1 "epc_class" (VStr u) args kws -> calls W (VClass "lgtin.LGTIN") args kws (result lgtin_obj (lgtin_init u))) /\
  (forall u args kws, passed1 "epc_uri" (VStr u) args kws -> invokes W (VClass "lgtin.LGTIN") "from_epc_uri" args kws (result lgtin_obj (lgtin_init u))).
Proof. exact SrcLgtin.lgtin_construct. Qed.
Print Assumptions C59_lgtin_construct.
Theorem C59_lgtin_gs1 :
  (forall x c t args kws, gtin_class c -> passed1 "gtin_type" (gtin_member c t) args kws \/ (args = [] /\ kws = [] /\ t = GTIN14) ->
     invokes W (lgtin_obj x) "gs1_key" args kws (result VStr (lgtin_gs1_key x t))) /\
  (forall x c t args kws, gtin_class c -> passed1 "gtin_type" (gtin_member c t) args kws \/ (args = [] /\ kws = [] /\ t = GTIN14) ->
     invokes W (lgtin_obj x) "gtin" args kws (result VStr (lgtin_gtin x t))) /\
  (forall x, invokes W (lgtin_obj x) "gs1_element_string" [] [] (Returned (VStr (lgtin_gs1_element_string x)))) /\
  (forall s n args kws, passed2 "gs1_element_string" "company_prefix_length" (VStr s) (VInt n) args kws ->
     invokes W (VClass "lgtin.LGTIN") "from_gs1_element_string" args kws (result lgtin_obj (lgtin_from_gs1_element_string s n))).
Proof. exact SrcLgtin.lgtin_gs1. Qed.
Print Assumptions C59_lgtin_gs1.
Example C59_lgtin_case :
  calls W (VClass "lgtin.LGTIN") [VStr (lit "urn:epc:class:lgtin:061414.0123456.xyz3311cba")] [] (Returned
    (VObj "lgtin.LGTIN" [("epc_uri"%string, VStr (lit "urn:epc:class:lgtin:061414.0123456.xyz3311cba")); ("_company_pref"%string, VStr (lit "061414")); ("_item_ref"%string, VStr (lit "0123456")); ("_lot"%string, VStr (lit "xyz3311cba")); ("_gtin"%string, VStr (lit "00614141234561"))])) /\
  calls W (VClass "lgtin.LGTIN") [] [("epc_class"%string, VStr (lit "urn:epc:class:lgtin:061414.0123456.xyz3311cba^"))] (Raised (XExn ConvertException)) /\
  invokes W (VObj "lgtin.LGTIN" [("epc_uri"%string, VStr (lit "urn:epc:class:lgtin:061414.0123456.xyz3311cba")); ("_company_pref"%string, VStr (lit "061414")); ("_item_ref"%string, VStr (lit "0123456")); ("_lot"%string, VStr (lit "xyz3311cba")); ("_gtin"%string, VStr (lit "00614141234561"))])
    "gs1_element_string" [] [] (Returned (VStr (lit "(01)00614141234561(10)xyz3311cba"))) /\
  invokes W (VClass "lgtin.LGTIN") "from_gs1_element_string" [VStr (lit "(01)00614141234561(10)xyz3311cba"); VInt 6] [] (Returned
    (VObj "lgtin.LGTIN" [("epc_uri"%string, VStr (lit "urn:epc:class:lgtin:061414.0123456.xyz3311cba")); ("_company_pref"%string, VStr (lit "061414")); ("_item_ref"%string, VStr (lit "0123456")); ("_lot"%string, VStr (lit "xyz3311cba")); ("_gtin"%string, VStr (lit "00614141234561"))])).
Proof. repeat split; exists (200 * 100)%nat; vm_compute; reflexivity. Qed.

(** GSIN *)
Theorem C59_gsin_construct :
  (forall u args kws, passed1 "epc_uri" (VStr u) args kws -> calls W (VClass "gsin.GSIN") args kws (result gsin_obj (gsin_init u))) /\
  (forall u args kws, passed1 "epc_uri" (VStr u) args kws -> invokes W (VClass "gsin.GSIN") "from_epc_uri" args kws (result gsin_obj (gsin_init u))).
Proof. exact SrcGsin.gsin_construct. Qed.
Print Assumptions C59_gsin_construct.
Theorem C59_gsin_gs1 :
  (forall x, invokes W (gsin_obj x) "gs1_key" [] [] (Returned (VStr (gsin_gs1_key x)))) /\
  (forall x, invokes W (gsin_obj x) "gs1_element_string" [] [] (Returned (VStr (gsin_gs1_element_string x)))) /\
  (forall s n args kws, passed2 "gs1_element_string" "company_prefix_length" (VStr s) (VInt n) args kws ->
     invokes W (VClass "gsin.GSIN") "from_gs1_element_string" args kws (result gsin_obj (gsin_from_gs1_element_string s n))).
Proof. exact SrcGsin.gsin_gs1. Qed.
Print Assumptions C59_gsin_gs1.
Example C59_gsin_case :
  calls W (VClass "gsin.GSIN") [VStr (lit "urn:epc:id:gsin:0614141.123456789")] [] (Returned
    (VObj "gsin.GSIN" [("epc_uri"%string, VStr (lit "urn:epc:id:gsin:0614141.123456789")); ("_company_prefix"%string, VStr (lit "0614141")); ("_shipper_ref"%string, VStr (lit "123456789")); ("_gsin"%string, VStr (lit "06141411234567890"))])) /\
  calls W (VClass "gsin.GSIN") [] [("epc_uri"%string, VStr (lit "urn:epc:id:gsin:0614141.123456789^"))] (Raised (XExn ConvertException)) /\
  invokes W (VObj "gsin.GSIN" [("epc_uri"%string, VStr (lit "urn:epc:id:gsin:0614141.123456789")); ("_company_prefix"%string, VStr (lit "0614141")); ("_shipper_ref"%string, VStr (lit "123456789")); ("_gsin"%string, VStr (lit "06141411234567890"))])
    "gs1_element_string" [] [] (Returned (VStr (lit "(402)06141411234567890"))) /\
  invokes W (VClass "gsin.GSIN") "from_gs1_element_string" [VStr (lit "(402)06141411234567890"); VInt 7] [] (Returned
    (VObj "gsin.GSIN" [("epc_uri"%string, VStr (lit "urn:epc:id:gsin:0614141.123456789")); ("_company_prefix"%string, VStr (lit "0614141")); ("_shipper_ref"%string, VStr (lit "123456789")); ("_gsin"%string, VStr (lit "06141411234567890"))])).
Proof. repeat split; exists (200 * 100)%nat; vm_compute; reflexivity. Qed.

(** GINC *)
Theorem C59_ginc_construct :
  (forall u args kws, passed1 "epc_uri" (VStr u) args kws -> calls W (VClass "ginc.GINC") args kws (result ginc_obj (ginc_init u))) /\
  (forall u args kws, passed1 "epc_uri" (VStr u) args kws -> invokes W (VClass "ginc.GINC") "from_epc_uri" args kws (result ginc_obj (ginc_init u))).
Proof. exact SrcGinc.ginc_construct. Qed.
Print Assumptions C59_ginc_construct.
Theorem C59_ginc_gs1 :
  (forall x, invokes W (ginc_obj x) "gs1_key" [] [] (Returned (VStr (ginc_gs1_key x)))) /\
  (forall x, invokes W (ginc_obj x) "gs1_element_string" [] [] (Returned (VStr (ginc_gs1_element_string x)))) /\
  (forall s n args kws, passed2 "gs1_element_string" "company_prefix_length" (VStr s) (VInt n) args kws ->
     invokes W (VClass "ginc.GINC") "from_gs1_element_string" args kws (result ginc_obj (ginc_from_gs1_element_string s n))).
Proof. exact SrcGinc.ginc_gs1. Qed.
Print Assumptions C59_ginc_gs1.
Example C59_ginc_case :
  calls W (VClass "ginc.GINC") [VStr (lit "urn:epc:id:ginc:0614141.xyz3311cba")] [] (Returned
    (VObj "ginc.GINC" [("epc_uri"%string, VStr (lit "urn:epc:id:ginc:0614141.xyz3311cba")); ("_ginc"%string, VStr (lit "0614141xyz3311cba"))])) /\
  calls W (VClass "ginc.GINC") [] [("epc_uri"%string, VStr (lit "urn:epc:id:ginc:0614141.xyz3311cba^"))] (Raised (XExn ConvertException)) /\
  invokes W (VObj "ginc.GINC" [("epc_uri"%string, VStr (lit "urn:epc:id:ginc:0614141.xyz3311cba")); ("_ginc"%string, VStr (lit "0614141xyz3311cba"))])
    "gs1_element_string" [] [] (Returned (VStr (lit "(401)0614141xyz3311cba"))) /\
  invokes W (VClass "ginc.GINC") "from_gs1_element_string" [VStr (lit "(401)0614141xyz3311cba"); VInt 7] [] (Returned
    (VObj "ginc.GINC" [("epc_uri"%string, VStr (lit "urn:epc:id:ginc:0614141.xyz3311cba")); ("_ginc"%string, VStr (lit "0614141xyz3311cba"))])).
Proof. repeat split; exists (200 * 100)%nat; vm_compute; reflexivity. Qed.

(** PGLN *)
Theorem C59_pgln_construct :
  (forall u args kws, passed1 "epc_uri" (VStr u) args kws -> calls W (VClass "pgln.PGLN") args kws (result pgln_obj (pgln_init u))) /\
  (forall u args kws, passed1 "epc_uri" (VStr u) args kws -> invokes W (VClass "pgln.PGLN") "from_epc_uri" args kws (result pgln_obj (pgln_init u))).
Proof. exact SrcPgln.pgln_construct. Qed.
Print Assumptions C59_pgln_construct.
Theorem C59_pgln_gs1 :
  (forall x, invokes W (pgln_obj x) "gs1_key" [] [] (Returned (VStr (pgln_gs1_key x)))) /\
  (forall x, invokes W (pgln_obj x) "gs1_element_string" [] [] (Returned (VStr (pgln_gs1_element_string x)))) /\
  (forall s n args kws, passed2 "gs1_element_string" "company_prefix_length" (VStr s) (VInt n) args kws ->
     invokes W (VClass "pgln.PGLN") "from_gs1_element_string" args kws (result pgln_obj (pgln_from_gs1_element_string s n))).
Proof. exact SrcPgln.pgln_gs1. Qed.
Print Assumptions C59_pgln_gs1.
Example C59_pgln_case :
  calls W (VClass "pgln.PGLN") [VStr (lit "urn:epc:id:pgln:1234567.89012")] [] (Returned
    (VObj "pgln.PGLN" [("epc_uri"%string, VStr (lit "urn:epc:id:pgln:1234567.89012")); ("_company_pref"%string, VStr (lit "1234567")); ("_party_ref"%string, VStr (lit "89012")); ("_pgln"%string, VStr (lit "1234567890128"))])) /\
  calls W (VClass "pgln.PGLN") [] [("epc_uri"%string, VStr (lit "urn:epc:id:pgln:1234567.89012^"))] (Raised (XExn ConvertException)) /\
  invokes W (VObj "pgln.PGLN" [("epc_uri"%string, VStr (lit "urn:epc:id:pgln:1234567.89012")); ("_company_pref"%string, VStr (lit "1234567")); ("_party_ref"%string, VStr (lit "89012")); ("_pgln"%string, VStr (lit "1234567890128"))])
    "gs1_element_string" [] [] (Returned (VStr (lit "(417)1234567890128"))) /\
  invokes W (VClass "pgln.PGLN") "from_gs1_element_string" [VStr (lit "(417)1234567890128"); VInt 7] [] (Returned
    (VObj "pgln.PGLN" [("epc_uri"%string, VStr (lit "urn:epc:id:pgln:1234567.89012")); ("_company_pref"%string, VStr (lit "1234567")); ("_party_ref"%string, VStr (lit "89012")); ("_pgln"%string, VStr (lit "1234567890128"))])).
Proof. repeat split; exists (200 * 100)%nat; vm_compute; reflexivity. Qed.

(** UPUI *)
Theorem C59_upui_construct :
  (forall u args kws, passed1 "epc_uri" (VStr u) args kws -> calls W (VClass "upui.UPUI") args kws (result upui_obj (upui_init u))) /\
  (forall u args kws, passed1 "epc_uri" (VStr u) args kws -> invokes W (VClass "upui.UPUI") "from_epc_uri" args kws (result upui_obj (upui_init u))).
Proof. exact SrcUpui.upui_construct. Qed.
Print Assumptions C59_upui_construct.
Theorem C59_upui_gs1 :
  (forall x, invokes W (upui_obj x) "gs1_element_string" [] [] (result VStr (upui_gs1_element_string x))) /\
  (forall s n args kws, passed2 "gs1_element_string" "company_prefix_length" (VStr s) (VInt n) args kws ->
     invokes W (VClass "upui.UPUI") "from_gs1_element_string" args kws (result upui_obj (upui_from_gs1_element_string s n))).
Proof. exact SrcUpui.upui_gs1. Qed.
Print Assumptions C59_upui_gs1.
Example C59_upui_case :
  calls W (VClass "upui.UPUI") [VStr (lit "urn:epc:id:upui:1234567.089456.51qIgY)%3C%26Jp3*j7SDB")] [] (Returned
    (VObj "upui.UPUI" [("epc_uri"%string, VStr (lit "urn:epc:id:upui:1234567.089456.51qIgY)%3C%26Jp3*j7SDB")); ("_company_pref"%string, VStr (lit "1234567")); ("_item_ref"%string, VStr (lit "089456")); ("_tpx"%string, VStr (lit "51qIgY)<&Jp3*j7SDB"))])) /\
  calls W (VClass "upui.UPUI") [] [("epc_uri"%string, VStr (lit "urn:epc:id:upui:1234567.089456.51qIgY)%3C%26Jp3*j7SDB^"))] (Raised (XExn ConvertException)) /\
  invokes W (VObj "upui.UPUI" [("epc_uri"%string, VStr (lit "urn:epc:id:upui:1234567.089456.51qIgY)%3C%26Jp3*j7SDB")); ("_company_pref"%string, VStr (lit "1234567")); ("_item_ref"%string, VStr (lit "089456")); ("_tpx"%string, VStr (lit "51qIgY)<&Jp3*j7SDB"))])
    "gs1_element_string" [] [] (Returned (VStr (lit "(01)01234567894560(235)51qIgY)<&Jp3*j7SDB"))) /\
  invokes W (VClass "upui.UPUI") "from_gs1_element_string" [VStr (lit "(01)01234567894560(235)51qIgY)<&Jp3*j7SDB"); VInt 7] [] (Returned
    (VObj "upui.UPUI" [("epc_uri"%string, VStr (lit "urn:epc:id:upui:1234567.089456.51qIgY)%3C%26Jp3*j7SDB")); ("_company_pref"%string, VStr (lit "1234567")); ("_item_ref"%string, VStr (lit "089456")); ("_tpx"%string, VStr (lit "51qIgY)<&Jp3*j7SDB"))])).
Proof. repeat split; exists (200 * 100)%nat; vm_compute; reflexivity. Qed.

(** BIC *)
Theorem C59_bic_construct :
  (forall u args kws, passed1 "epc_uri" (VStr u) args kws -> calls W (VClass "bic.BIC") args kws (result bic_obj (bic_init u))) /\
  (forall u args kws, passed1 "epc_uri" (VStr u) args kws -> invokes W (VClass "bic.BIC") "from_epc_uri" args kws (result bic_obj (bic_init u))).
Proof. exact SrcBic.bic_construct. Qed.
Print Assumptions C59_bic_construct.
Example C59_bic_case :
  calls W (VClass "bic.BIC") [VStr (lit "urn:epc:id:bic:CSQU3054383")] [] (Returned
    (VObj "bic.BIC" [("epc_uri"%string, VStr (lit "urn:epc:id:bic:CSQU3054383")); ("_container_code"%string, VStr (lit "CSQU3054383")); ("_owner_code"%string, VStr (lit "CSQ")); ("_equipment_category_identifier"%string, VStr (lit "U")); ("_serial"%string, VStr (lit "305438")); ("_check_digit"%string, VStr (lit "3"))])) /\
  calls W (VClass "bic.BIC") [] [("epc_uri"%string, VStr (lit "urn:epc:id:bic:CSQU3054383^"))] (Raised (XExn ConvertException)).
Proof. repeat split; exists (200 * 100)%nat; vm_compute; reflexivity. Qed.

(** IMOVN *)
Theorem C59_imovn_construct :
  (forall u args kws, passed1 "epc_uri" (VStr u) args kws -> calls W (VClass "imovn.IMOVN") args kws (result imovn_obj (imovn_init u))) /\
  (forall u args kws, passed1 "epc_uri" (VStr u) args kws -> invokes W (VClass "imovn.IMOVN") "from_epc_uri" args kws (result imovn_obj (imovn_init u))).
Proof. exact SrcImovn.imovn_construct. Qed.
Print Assumptions C59_imovn_construct.
Example C59_imovn_case :
  calls W (VClass "imovn.IMOVN") [VStr (lit "urn:epc:id:imovn:9176187")] [] (Returned
    (VObj "imovn.IMOVN" [("epc_uri"%string, VStr (lit "urn:epc:id:imovn:9176187")); ("_vessel_number"%string, VStr (lit "9176187"))])) /\
  calls W (VClass "imovn.IMOVN") [] [("epc_uri"%string, VStr (lit "urn:epc:id:imovn:9176187^"))] (Raised (XExn ConvertException)).
Proof. repeat split; exists (200 * 100)%nat; vm_compute; reflexivity. Qed.
