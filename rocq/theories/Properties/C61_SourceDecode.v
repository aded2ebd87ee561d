(** The source text of the scheme classes, from a tag URI, a binary text, hexadecimal digits or Base64 to an object: C61.

    For each class that can be read from a tag, [header_to_schemes], [from_tag_uri], [from_binary], [from_hex] and [from_base64] come to
    what their models say, for every text. *)
From Coq Require Import String.
From Verif.Model Require Import Py PyFormat Syntax Machine Common Base.
From Verif.Model Require Import Sgtin Sscc Sgln Grai Giai Gsrn Gsrnp Gdti Sgcn Itip Gid Cpi Usdod Adi Lgtin Others.
From Verif.Source Require Import Program World.
From Verif.Spec Require Import SpecMethods.
From Verif.Proofs Require SrcSgtin SrcSscc SrcSgln SrcGrai SrcGiai SrcGsrn SrcGsrnp SrcGdti SrcSgcn SrcItip SrcGid SrcCpi SrcUsdod SrcAdi.

(** SGTIN *)
Theorem C61_sgtin_decode :
  invokes W (VClass "sgtin.SGTIN") "header_to_schemes" [] [] (Returned (VDict (dict_of sgtin_member sgtin_header_to_schemes))) /\
  (forall u args kws, passed1 "epc_tag_uri" (VStr u) args kws -> invokes W (VClass "sgtin.SGTIN") "from_tag_uri" args kws (result sgtin_obj (sgtin_from_tag_uri u))) /\
  (forall u b args kws, passed2 "epc_tag_uri" "includes_filter" (VStr u) (VBool b) args kws ->
     invokes W (VClass "sgtin.SGTIN") "from_tag_uri" args kws (result sgtin_obj (from_tag_uri sgtin_init u b))) /\
  (forall s args kws, passed1 "binary_string" (VStr s) args kws -> invokes W (VClass "sgtin.SGTIN") "from_binary" args kws (result sgtin_obj (sgtin_from_binary s))) /\
  (forall s args kws, passed1 "tag_hex_string" (VStr s) args kws -> fits (length s * 4) ->
     invokes W (VClass "sgtin.SGTIN") "from_hex" args kws (result sgtin_obj (from_hex sgtin_from_binary s))) /\
  (forall s args kws, passed1 "tag_base64_string" (VStr s) args kws -> fits (length s * 8) ->
     invokes W (VClass "sgtin.SGTIN") "from_base64" args kws (result sgtin_obj (from_base64 sgtin_from_binary s))).
Proof. exact SrcSgtin.sgtin_decode. Qed.
Print Assumptions C61_sgtin_decode.
Example C61_sgtin_case :
  invokes W (VClass "sgtin.SGTIN") "from_tag_uri" [VStr (lit "urn:epc:tag:sgtin-198:5.0614141.812345.32a%2Fb")] [] (Returned
    (VObj "sgtin.SGTIN" [("epc_uri"%string, VStr (lit "urn:epc:id:sgtin:0614141.812345.32a%2Fb")); ("_base64"%string, VNone); ("_binary"%string, VNone); ("_hex"%string, VNone); ("_tag_uri"%string, VNone); ("_company_pref"%string, VStr (lit "0614141")); ("_item_ref"%string, VStr (lit "812345")); ("_serial"%string, VStr (lit "32a%2Fb")); ("_gtin"%string, VStr (lit "80614141123458"))])) /\
  invokes W (VClass "sgtin.SGTIN") "from_binary" [VStr (lit "001101101011010000100101011110111111011100011001010011100101100110110010110000101011111100010000000000000000000000000000000000000000000000000000000000000000000000000000000000000000000000000000000000")] [] (Returned
    (VObj "sgtin.SGTIN" [("epc_uri"%string, VStr (lit "urn:epc:id:sgtin:0614141.812345.32a%2Fb")); ("_base64"%string, VNone); ("_binary"%string, VNone); ("_hex"%string, VNone); ("_tag_uri"%string, VNone); ("_company_pref"%string, VStr (lit "0614141")); ("_item_ref"%string, VStr (lit "812345")); ("_serial"%string, VStr (lit "32a%2Fb")); ("_gtin"%string, VStr (lit "80614141123458"))])) /\
  invokes W (VClass "sgtin.SGTIN") "from_hex" [VStr (lit "36B4257BF7194E59B2C2BF100000000000000000000000000000")] [] (Returned
    (VObj "sgtin.SGTIN" [("epc_uri"%string, VStr (lit "urn:epc:id:sgtin:0614141.812345.32a%2Fb")); ("_base64"%string, VNone); ("_binary"%string, VNone); ("_hex"%string, VNone); ("_tag_uri"%string, VNone); ("_company_pref"%string, VStr (lit "0614141")); ("_item_ref"%string, VStr (lit "812345")); ("_serial"%string, VStr (lit "32a%2Fb")); ("_gtin"%string, VStr (lit "80614141123458"))])) /\
  invokes W (VClass "sgtin.SGTIN") "from_base64" [VStr (lit "NrQle/cZTlmywr8QAAAAAAAAAAAAAAAAAAA=")] [] (Returned
    (VObj "sgtin.SGTIN" [("epc_uri"%string, VStr (lit "urn:epc:id:sgtin:0614141.812345.32a%2Fb")); ("_base64"%string, VNone); ("_binary"%string, VNone); ("_hex"%string, VNone); ("_tag_uri"%string, VNone); ("_company_pref"%string, VStr (lit "0614141")); ("_item_ref"%string, VStr (lit "812345")); ("_serial"%string, VStr (lit "32a%2Fb")); ("_gtin"%string, VStr (lit "80614141123458"))])) /\
  invokes W (VClass "sgtin.SGTIN") "from_binary" [VStr (lit "1111")] [] (Raised (XExn KeyError)).
Proof. repeat split; exists (200 * 100)%nat; vm_compute; reflexivity. Qed.

(** SSCC *)
Theorem C61_sscc_decode :
  invokes W (VClass "sscc.SSCC") "header_to_schemes" [] [] (Returned (VDict (dict_of sscc_member sscc_header_to_schemes))) /\
  (forall u args kws, passed1 "epc_tag_uri" (VStr u) args kws -> invokes W (VClass "sscc.SSCC") "from_tag_uri" args kws (result sscc_obj (sscc_from_tag_uri u))) /\
  (forall u b args kws, passed2 "epc_tag_uri" "includes_filter" (VStr u) (VBool b) args kws ->
     invokes W (VClass "sscc.SSCC") "from_tag_uri" args kws (result sscc_obj (from_tag_uri sscc_init u b))) /\
  (forall s args kws, passed1 "binary_string" (VStr s) args kws -> invokes W (VClass "sscc.SSCC") "from_binary" args kws (result sscc_obj (sscc_from_binary s))) /\
  (forall s args kws, passed1 "tag_hex_string" (VStr s) args kws -> fits (length s * 4) ->
     invokes W (VClass "sscc.SSCC") "from_hex" args kws (result sscc_obj (from_hex sscc_from_binary s))) /\
  (forall s args kws, passed1 "tag_base64_string" (VStr s) args kws -> fits (length s * 8) ->
     invokes W (VClass "sscc.SSCC") "from_base64" args kws (result sscc_obj (from_base64 sscc_from_binary s))).
Proof. exact SrcSscc.sscc_decode. Qed.
Print Assumptions C61_sscc_decode.
Example C61_sscc_case :
  invokes W (VClass "sscc.SSCC") "from_tag_uri" [VStr (lit "urn:epc:tag:sscc-96:5.0614141.1234567890")] [] (Returned
    (VObj "sscc.SSCC" [("epc_uri"%string, VStr (lit "urn:epc:id:sscc:0614141.1234567890")); ("_base64"%string, VNone); ("_binary"%string, VNone); ("_hex"%string, VNone); ("_tag_uri"%string, VNone); ("_company_pref"%string, VStr (lit "0614141")); ("_serial"%string, VStr (lit "1234567890")); ("_sscc"%string, VStr (lit "106141412345678908"))])) /\
  invokes W (VClass "sscc.SSCC") "from_binary" [VStr (lit "001100011011010000100101011110111111010001001001100101100000001011010010000000000000000000000000")] [] (Returned
    (VObj "sscc.SSCC" [("epc_uri"%string, VStr (lit "urn:epc:id:sscc:0614141.1234567890")); ("_base64"%string, VNone); ("_binary"%string, VNone); ("_hex"%string, VNone); ("_tag_uri"%string, VNone); ("_company_pref"%string, VStr (lit "0614141")); ("_serial"%string, VStr (lit "1234567890")); ("_sscc"%string, VStr (lit "106141412345678908"))])) /\
  invokes W (VClass "sscc.SSCC") "from_hex" [VStr (lit "31B4257BF4499602D2000000")] [] (Returned
    (VObj "sscc.SSCC" [("epc_uri"%string, VStr (lit "urn:epc:id:sscc:0614141.1234567890")); ("_base64"%string, VNone); ("_binary"%string, VNone); ("_hex"%string, VNone); ("_tag_uri"%string, VNone); ("_company_pref"%string, VStr (lit "0614141")); ("_serial"%string, VStr (lit "1234567890")); ("_sscc"%string, VStr (lit "106141412345678908"))])) /\
  invokes W (VClass "sscc.SSCC") "from_base64" [VStr (lit "MbQle/RJlgLSAAAA")] [] (Returned
    (VObj "sscc.SSCC" [("epc_uri"%string, VStr (lit "urn:epc:id:sscc:0614141.1234567890")); ("_base64"%string, VNone); ("_binary"%string, VNone); ("_hex"%string, VNone); ("_tag_uri"%string, VNone); ("_company_pref"%string, VStr (lit "0614141")); ("_serial"%string, VStr (lit "1234567890")); ("_sscc"%string, VStr (lit "106141412345678908"))])) /\
  invokes W (VClass "sscc.SSCC") "from_binary" [VStr (lit "1111")] [] (Raised (XExn KeyError)).
Proof. repeat split; exists (200 * 100)%nat; vm_compute; reflexivity. Qed.

(** SGLN *)
Theorem C61_sgln_decode :
  invokes W (VClass "sgln.SGLN") "header_to_schemes" [] [] (Returned (VDict (dict_of sgln_member sgln_header_to_schemes))) /\
  (forall u args kws, passed1 "epc_tag_uri" (VStr u) args kws -> invokes W (VClass "sgln.SGLN") "from_tag_uri" args kws (result sgln_obj (sgln_from_tag_uri u))) /\
  (forall u b args kws, passed2 "epc_tag_uri" "includes_filter" (VStr u) (VBool b) args kws ->
     invokes W (VClass "sgln.SGLN") "from_tag_uri" args kws (result sgln_obj (from_tag_uri sgln_init u b))) /\
  (forall s args kws, passed1 "binary_string" (VStr s) args kws -> invokes W (VClass "sgln.SGLN") "from_binary" args kws (result sgln_obj (sgln_from_binary s))) /\
  (forall s args kws, passed1 "tag_hex_string" (VStr s) args kws -> fits (length s * 4) ->
     invokes W (VClass "sgln.SGLN") "from_hex" args kws (result sgln_obj (from_hex sgln_from_binary s))) /\
  (forall s args kws, passed1 "tag_base64_string" (VStr s) args kws -> fits (length s * 8) ->
     invokes W (VClass "sgln.SGLN") "from_base64" args kws (result sgln_obj (from_base64 sgln_from_binary s))).
Proof. exact SrcSgln.sgln_decode. Qed.
Print Assumptions C61_sgln_decode.
Example C61_sgln_case :
  invokes W (VClass "sgln.SGLN") "from_tag_uri" [VStr (lit "urn:epc:tag:sgln-195:5.0614141.12345.400")] [] (Returned
    (VObj "sgln.SGLN" [("epc_uri"%string, VStr (lit "urn:epc:id:sgln:0614141.12345.400")); ("_base64"%string, VNone); ("_binary"%string, VNone); ("_hex"%string, VNone); ("_tag_uri"%string, VNone); ("_company_pref"%string, VStr (lit "0614141")); ("_location_ref"%string, VStr (lit "12345")); ("_serial"%string, VStr (lit "400")); ("_gln"%string, VStr (lit "0614141123452"))])) /\
  invokes W (VClass "sgln.SGLN") "from_binary" [VStr (lit "001110011011010000100101011110111111010001100000011100101101000110000011000000000000000000000000000000000000000000000000000000000000000000000000000000000000000000000000000000000000000000000000000")] [] (Returned
    (VObj "sgln.SGLN" [("epc_uri"%string, VStr (lit "urn:epc:id:sgln:0614141.12345.400")); ("_base64"%string, VNone); ("_binary"%string, VNone); ("_hex"%string, VNone); ("_tag_uri"%string, VNone); ("_company_pref"%string, VStr (lit "0614141")); ("_location_ref"%string, VStr (lit "12345")); ("_serial"%string, VStr (lit "400")); ("_gln"%string, VStr (lit "0614141123452"))])) /\
  invokes W (VClass "sgln.SGLN") "from_hex" [VStr (lit "39B4257BF46072D1830000000000000000000000000000000000")] [] (Returned
    (VObj "sgln.SGLN" [("epc_uri"%string, VStr (lit "urn:epc:id:sgln:0614141.12345.400")); ("_base64"%string, VNone); ("_binary"%string, VNone); ("_hex"%string, VNone); ("_tag_uri"%string, VNone); ("_company_pref"%string, VStr (lit "0614141")); ("_location_ref"%string, VStr (lit "12345")); ("_serial"%string, VStr (lit "400")); ("_gln"%string, VStr (lit "0614141123452"))])) /\
  invokes W (VClass "sgln.SGLN") "from_base64" [VStr (lit "ObQle/RgctGDAAAAAAAAAAAAAAAAAAAAAAA=")] [] (Returned
    (VObj "sgln.SGLN" [("epc_uri"%string, VStr (lit "urn:epc:id:sgln:0614141.12345.400")); ("_base64"%string, VNone); ("_binary"%string, VNone); ("_hex"%string, VNone); ("_tag_uri"%string, VNone); ("_company_pref"%string, VStr (lit "0614141")); ("_location_ref"%string, VStr (lit "12345")); ("_serial"%string, VStr (lit "400")); ("_gln"%string, VStr (lit "0614141123452"))])) /\
  invokes W (VClass "sgln.SGLN") "from_binary" [VStr (lit "1111")] [] (Raised (XExn KeyError)).
Proof. repeat split; exists (200 * 100)%nat; vm_compute; reflexivity. Qed.

(** GRAI *)
Theorem C61_grai_decode :
  invokes W (VClass "grai.GRAI") "header_to_schemes" [] [] (Returned (VDict (dict_of grai_member grai_header_to_schemes))) /\
  (forall u args kws, passed1 "epc_tag_uri" (VStr u) args kws -> invokes W (VClass "grai.GRAI") "from_tag_uri" args kws (result grai_obj (grai_from_tag_uri u))) /\
  (forall u b args kws, passed2 "epc_tag_uri" "includes_filter" (VStr u) (VBool b) args kws ->
     invokes W (VClass "grai.GRAI") "from_tag_uri" args kws (result grai_obj (from_tag_uri grai_init u b))) /\
  (forall s args kws, passed1 "binary_string" (VStr s) args kws -> invokes W (VClass "grai.GRAI") "from_binary" args kws (result grai_obj (grai_from_binary s))) /\
  (forall s args kws, passed1 "tag_hex_string" (VStr s) args kws -> fits (length s * 4) ->
     invokes W (VClass "grai.GRAI") "from_hex" args kws (result grai_obj (from_hex grai_from_binary s))) /\
  (forall s args kws, passed1 "tag_base64_string" (VStr s) args kws -> fits (length s * 8) ->
     invokes W (VClass "grai.GRAI") "from_base64" args kws (result grai_obj (from_base64 grai_from_binary s))).
Proof. exact SrcGrai.grai_decode. Qed.
Print Assumptions C61_grai_decode.
Example C61_grai_case :
  invokes W (VClass "grai.GRAI") "from_tag_uri" [VStr (lit "urn:epc:tag:grai-170:5.0614141.12345.400")] [] (Returned
    (VObj "grai.GRAI" [("epc_uri"%string, VStr (lit "urn:epc:id:grai:0614141.12345.400")); ("_base64"%string, VNone); ("_binary"%string, VNone); ("_hex"%string, VNone); ("_tag_uri"%string, VNone); ("_serial"%string, VStr (lit "400")); ("_company_pref"%string, VStr (lit "0614141")); ("_asset_type"%string, VStr (lit "12345")); ("_grai"%string, VStr (lit "0614141123452400"))])) /\
  invokes W (VClass "grai.GRAI") "from_binary" [VStr (lit "00110111101101000010010101111011111101000000110000001110010110100011000001100000000000000000000000000000000000000000000000000000000000000000000000000000000000000000000000")] [] (Returned
    (VObj "grai.GRAI" [("epc_uri"%string, VStr (lit "urn:epc:id:grai:0614141.12345.400")); ("_base64"%string, VNone); ("_binary"%string, VNone); ("_hex"%string, VNone); ("_tag_uri"%string, VNone); ("_serial"%string, VStr (lit "400")); ("_company_pref"%string, VStr (lit "0614141")); ("_asset_type"%string, VStr (lit "12345")); ("_grai"%string, VStr (lit "0614141123452400"))])) /\
  invokes W (VClass "grai.GRAI") "from_hex" [VStr (lit "37B4257BF40C0E5A3060000000000000000000000000")] [] (Returned
    (VObj "grai.GRAI" [("epc_uri"%string, VStr (lit "urn:epc:id:grai:0614141.12345.400")); ("_base64"%string, VNone); ("_binary"%string, VNone); ("_hex"%string, VNone); ("_tag_uri"%string, VNone); ("_serial"%string, VStr (lit "400")); ("_company_pref"%string, VStr (lit "0614141")); ("_asset_type"%string, VStr (lit "12345")); ("_grai"%string, VStr (lit "0614141123452400"))])) /\
  invokes W (VClass "grai.GRAI") "from_base64" [VStr (lit "N7Qle/QMDlowYAAAAAAAAAAAAAAAAA==")] [] (Returned
    (VObj "grai.GRAI" [("epc_uri"%string, VStr (lit "urn:epc:id:grai:0614141.12345.400")); ("_base64"%string, VNone); ("_binary"%string, VNone); ("_hex"%string, VNone); ("_tag_uri"%string, VNone); ("_serial"%string, VStr (lit "400")); ("_company_pref"%string, VStr (lit "0614141")); ("_asset_type"%string, VStr (lit "12345")); ("_grai"%string, VStr (lit "0614141123452400"))])) /\
  invokes W (VClass "grai.GRAI") "from_binary" [VStr (lit "1111")] [] (Raised (XExn KeyError)).
Proof. repeat split; exists (200 * 100)%nat; vm_compute; reflexivity. Qed.

(** GIAI *)
Theorem C61_giai_decode :
  invokes W (VClass "giai.GIAI") "header_to_schemes" [] [] (Returned (VDict (dict_of giai_member giai_header_to_schemes))) /\
  (forall u args kws, passed1 "epc_tag_uri" (VStr u) args kws -> invokes W (VClass "giai.GIAI") "from_tag_uri" args kws (result giai_obj (giai_from_tag_uri u))) /\
  (forall u b args kws, passed2 "epc_tag_uri" "includes_filter" (VStr u) (VBool b) args kws ->
     invokes W (VClass "giai.GIAI") "from_tag_uri" args kws (result giai_obj (from_tag_uri giai_init u b))) /\
  (forall s args kws, passed1 "binary_string" (VStr s) args kws -> invokes W (VClass "giai.GIAI") "from_binary" args kws (result giai_obj (giai_from_binary s))) /\
  (forall s args kws, passed1 "tag_hex_string" (VStr s) args kws -> fits (length s * 4) ->
     invokes W (VClass "giai.GIAI") "from_hex" args kws (result giai_obj (from_hex giai_from_binary s))) /\
  (forall s args kws, passed1 "tag_base64_string" (VStr s) args kws -> fits (length s * 8) ->
     invokes W (VClass "giai.GIAI") "from_base64" args kws (result giai_obj (from_base64 giai_from_binary s))).
Proof. exact SrcGiai.giai_decode. Qed.
Print Assumptions C61_giai_decode.
Example C61_giai_case :
  invokes W (VClass "giai.GIAI") "from_tag_uri" [VStr (lit "urn:epc:tag:giai-202:5.0614141.32a%2Fb")] [] (Returned
    (VObj "giai.GIAI" [("epc_uri"%string, VStr (lit "urn:epc:id:giai:0614141.32a%2Fb")); ("_base64"%string, VNone); ("_binary"%string, VNone); ("_hex"%string, VNone); ("_tag_uri"%string, VNone); ("_company_pref"%string, VStr (lit "0614141")); ("_asset_ref"%string, VStr (lit "32a%2Fb")); ("_giai"%string, VStr (lit "061414132a/b"))])) /\
  invokes W (VClass "giai.GIAI") "from_binary" [VStr (lit "0011100010110100001001010111101111110101100110110010110000101011111100010000000000000000000000000000000000000000000000000000000000000000000000000000000000000000000000000000000000000000000000000000000000")] [] (Returned
    (VObj "giai.GIAI" [("epc_uri"%string, VStr (lit "urn:epc:id:giai:0614141.32a%2Fb")); ("_base64"%string, VNone); ("_binary"%string, VNone); ("_hex"%string, VNone); ("_tag_uri"%string, VNone); ("_company_pref"%string, VStr (lit "0614141")); ("_asset_ref"%string, VStr (lit "32a%2Fb")); ("_giai"%string, VStr (lit "061414132a/b"))])) /\
  invokes W (VClass "giai.GIAI") "from_hex" [VStr (lit "38B4257BF59B2C2BF10000000000000000000000000000000000")] [] (Returned
    (VObj "giai.GIAI" [("epc_uri"%string, VStr (lit "urn:epc:id:giai:0614141.32a%2Fb")); ("_base64"%string, VNone); ("_binary"%string, VNone); ("_hex"%string, VNone); ("_tag_uri"%string, VNone); ("_company_pref"%string, VStr (lit "0614141")); ("_asset_ref"%string, VStr (lit "32a%2Fb")); ("_giai"%string, VStr (lit "061414132a/b"))])) /\
  invokes W (VClass "giai.GIAI") "from_base64" [VStr (lit "OLQle/WbLCvxAAAAAAAAAAAAAAAAAAAAAAA=")] [] (Returned
    (VObj "giai.GIAI" [("epc_uri"%string, VStr (lit "urn:epc:id:giai:0614141.32a%2Fb")); ("_base64"%string, VNone); ("_binary"%string, VNone); ("_hex"%string, VNone); ("_tag_uri"%string, VNone); ("_company_pref"%string, VStr (lit "0614141")); ("_asset_ref"%string, VStr (lit "32a%2Fb")); ("_giai"%string, VStr (lit "061414132a/b"))])) /\
  invokes W (VClass "giai.GIAI") "from_binary" [VStr (lit "1111")] [] (Raised (XExn KeyError)).
Proof. repeat split; exists (200 * 100)%nat; vm_compute; reflexivity. Qed.

(** GSRN *)
Theorem C61_gsrn_decode :
  invokes W (VClass "gsrn.GSRN") "header_to_schemes" [] [] (Returned (VDict (dict_of gsrn_member gsrn_header_to_schemes))) /\
  (forall u args kws, passed1 "epc_tag_uri" (VStr u) args kws -> invokes W (VClass "gsrn.GSRN") "from_tag_uri" args kws (result gsrn_obj (gsrn_from_tag_uri u))) /\
  (forall u b args kws, passed2 "epc_tag_uri" "includes_filter" (VStr u) (VBool b) args kws ->
     invokes W (VClass "gsrn.GSRN") "from_tag_uri" args kws (result gsrn_obj (from_tag_uri gsrn_init u b))) /\
  (forall s args kws, passed1 "binary_string" (VStr s) args kws -> invokes W (VClass "gsrn.GSRN") "from_binary" args kws (result gsrn_obj (gsrn_from_binary s))) /\
  (forall s args kws, passed1 "tag_hex_string" (VStr s) args kws -> fits (length s * 4) ->
     invokes W (VClass "gsrn.GSRN") "from_hex" args kws (result gsrn_obj (from_hex gsrn_from_binary s))) /\
  (forall s args kws, passed1 "tag_base64_string" (VStr s) args kws -> fits (length s * 8) ->
     invokes W (VClass "gsrn.GSRN") "from_base64" args kws (result gsrn_obj (from_base64 gsrn_from_binary s))).
Proof. exact SrcGsrn.gsrn_decode. Qed.
Print Assumptions C61_gsrn_decode.
Example C61_gsrn_case :
  invokes W (VClass "gsrn.GSRN") "from_tag_uri" [VStr (lit "urn:epc:tag:gsrn-96:5.0614141.1234567890")] [] (Returned
    (VObj "gsrn.GSRN" [("epc_uri"%string, VStr (lit "urn:epc:id:gsrn:0614141.1234567890")); ("_base64"%string, VNone); ("_binary"%string, VNone); ("_hex"%string, VNone); ("_tag_uri"%string, VNone); ("_company_pref"%string, VStr (lit "0614141")); ("_service_ref"%string, VStr (lit "1234567890")); ("_gsrn"%string, VStr (lit "061414112345678902"))])) /\
  invokes W (VClass "gsrn.GSRN") "from_binary" [VStr (lit "001011011011010000100101011110111111010001001001100101100000001011010010000000000000000000000000")] [] (Returned
    (VObj "gsrn.GSRN" [("epc_uri"%string, VStr (lit "urn:epc:id:gsrn:0614141.1234567890")); ("_base64"%string, VNone); ("_binary"%string, VNone); ("_hex"%string, VNone); ("_tag_uri"%string, VNone); ("_company_pref"%string, VStr (lit "0614141")); ("_service_ref"%string, VStr (lit "1234567890")); ("_gsrn"%string, VStr (lit "061414112345678902"))])) /\
  invokes W (VClass "gsrn.GSRN") "from_hex" [VStr (lit "2DB4257BF4499602D2000000")] [] (Returned
    (VObj "gsrn.GSRN" [("epc_uri"%string, VStr (lit "urn:epc:id:gsrn:0614141.1234567890")); ("_base64"%string, VNone); ("_binary"%string, VNone); ("_hex"%string, VNone); ("_tag_uri"%string, VNone); ("_company_pref"%string, VStr (lit "0614141")); ("_service_ref"%string, VStr (lit "1234567890")); ("_gsrn"%string, VStr (lit "061414112345678902"))])) /\
  invokes W (VClass "gsrn.GSRN") "from_base64" [VStr (lit "LbQle/RJlgLSAAAA")] [] (Returned
    (VObj "gsrn.GSRN" [("epc_uri"%string, VStr (lit "urn:epc:id:gsrn:0614141.1234567890")); ("_base64"%string, VNone); ("_binary"%string, VNone); ("_hex"%string, VNone); ("_tag_uri"%string, VNone); ("_company_pref"%string, VStr (lit "0614141")); ("_service_ref"%string, VStr (lit "1234567890")); ("_gsrn"%string, VStr (lit "061414112345678902"))])) /\
  invokes W (VClass "gsrn.GSRN") "from_binary" [VStr (lit "1111")] [] (Raised (XExn KeyError)).
Proof. repeat split; exists (200 * 100)%nat; vm_compute; reflexivity. Qed.

(** GSRNP *)
Theorem C61_gsrnp_decode :
  invokes W (VClass "gsrnp.GSRNP") "header_to_schemes" [] [] (Returned (VDict (dict_of gsrnp_member gsrnp_header_to_schemes))) /\
  (forall u args kws, passed1 "epc_tag_uri" (VStr u) args kws -> invokes W (VClass "gsrnp.GSRNP") "from_tag_uri" args kws (result gsrnp_obj (gsrnp_from_tag_uri u))) /\
  (forall u b args kws, passed2 "epc_tag_uri" "includes_filter" (VStr u) (VBool b) args kws ->
     invokes W (VClass "gsrnp.GSRNP") "from_tag_uri" args kws (result gsrnp_obj (from_tag_uri gsrnp_init u b))) /\
  (forall s args kws, passed1 "binary_string" (VStr s) args kws -> invokes W (VClass "gsrnp.GSRNP") "from_binary" args kws (result gsrnp_obj (gsrnp_from_binary s))) /\
  (forall s args kws, passed1 "tag_hex_string" (VStr s) args kws -> fits (length s * 4) ->
     invokes W (VClass "gsrnp.GSRNP") "from_hex" args kws (result gsrnp_obj (from_hex gsrnp_from_binary s))) /\
  (forall s args kws, passed1 "tag_base64_string" (VStr s) args kws -> fits (length s * 8) ->
     invokes W (VClass "gsrnp.GSRNP") "from_base64" args kws (result gsrnp_obj (from_base64 gsrnp_from_binary s))).
Proof. exact SrcGsrnp.gsrnp_decode. Qed.
Print Assumptions C61_gsrnp_decode.
Example C61_gsrnp_case :
  invokes W (VClass "gsrnp.GSRNP") "from_tag_uri" [VStr (lit "urn:epc:tag:gsrnp-96:5.0614141.1234567890")] [] (Returned
    (VObj "gsrnp.GSRNP" [("epc_uri"%string, VStr (lit "urn:epc:id:gsrnp:0614141.1234567890")); ("_base64"%string, VNone); ("_binary"%string, VNone); ("_hex"%string, VNone); ("_tag_uri"%string, VNone); ("_company_pref"%string, VStr (lit "0614141")); ("_service_ref"%string, VStr (lit "1234567890")); ("_gsrnp"%string, VStr (lit "061414112345678902"))])) /\
  invokes W (VClass "gsrnp.GSRNP") "from_binary" [VStr (lit "001011101011010000100101011110111111010001001001100101100000001011010010000000000000000000000000")] [] (Returned
    (VObj "gsrnp.GSRNP" [("epc_uri"%string, VStr (lit "urn:epc:id:gsrnp:0614141.1234567890")); ("_base64"%string, VNone); ("_binary"%string, VNone); ("_hex"%string, VNone); ("_tag_uri"%string, VNone); ("_company_pref"%string, VStr (lit "0614141")); ("_service_ref"%string, VStr (lit "1234567890")); ("_gsrnp"%string, VStr (lit "061414112345678902"))])) /\
  invokes W (VClass "gsrnp.GSRNP") "from_hex" [VStr (lit "2EB4257BF4499602D2000000")] [] (Returned
    (VObj "gsrnp.GSRNP" [("epc_uri"%string, VStr (lit "urn:epc:id:gsrnp:0614141.1234567890")); ("_base64"%string, VNone); ("_binary"%string, VNone); ("_hex"%string, VNone); ("_tag_uri"%string, VNone); ("_company_pref"%string, VStr (lit "0614141")); ("_service_ref"%string, VStr (lit "1234567890")); ("_gsrnp"%string, VStr (lit "061414112345678902"))])) /\
  invokes W (VClass "gsrnp.GSRNP") "from_base64" [VStr (lit "LrQle/RJlgLSAAAA")] [] (Returned
    (VObj "gsrnp.GSRNP" [("epc_uri"%string, VStr (lit "urn:epc:id:gsrnp:0614141.1234567890")); ("_base64"%string, VNone); ("_binary"%string, VNone); ("_hex"%string, VNone); ("_tag_uri"%string, VNone); ("_company_pref"%string, VStr (lit "0614141")); ("_service_ref"%string, VStr (lit "1234567890")); ("_gsrnp"%string, VStr (lit "061414112345678902"))])) /\
  invokes W (VClass "gsrnp.GSRNP") "from_binary" [VStr (lit "1111")] [] (Raised (XExn KeyError)).
Proof. repeat split; exists (200 * 100)%nat; vm_compute; reflexivity. Qed.

(** GDTI *)
Theorem C61_gdti_decode :
  invokes W (VClass "gdti.GDTI") "header_to_schemes" [] [] (Returned (VDict (dict_of gdti_member gdti_header_to_schemes))) /\
  (forall u args kws, passed1 "epc_tag_uri" (VStr u) args kws -> invokes W (VClass "gdti.GDTI") "from_tag_uri" args kws (result gdti_obj (gdti_from_tag_uri u))) /\
  (forall u b args kws, passed2 "epc_tag_uri" "includes_filter" (VStr u) (VBool b) args kws ->
     invokes W (VClass "gdti.GDTI") "from_tag_uri" args kws (result gdti_obj (from_tag_uri gdti_init u b))) /\
  (forall s args kws, passed1 "binary_string" (VStr s) args kws -> invokes W (VClass "gdti.GDTI") "from_binary" args kws (result gdti_obj (gdti_from_binary s))) /\
  (forall s args kws, passed1 "tag_hex_string" (VStr s) args kws -> fits (length s * 4) ->
     invokes W (VClass "gdti.GDTI") "from_hex" args kws (result gdti_obj (from_hex gdti_from_binary s))) /\
  (forall s args kws, passed1 "tag_base64_string" (VStr s) args kws -> fits (length s * 8) ->
     invokes W (VClass "gdti.GDTI") "from_base64" args kws (result gdti_obj (from_base64 gdti_from_binary s))).
Proof. exact SrcGdti.gdti_decode. Qed.
Print Assumptions C61_gdti_decode.
Example C61_gdti_case :
  invokes W (VClass "gdti.GDTI") "from_tag_uri" [VStr (lit "urn:epc:tag:gdti-174:5.0614141.12345.ABCDefgh012345678")] [] (Returned
    (VObj "gdti.GDTI" [("epc_uri"%string, VStr (lit "urn:epc:id:gdti:0614141.12345.ABCDefgh012345678")); ("_base64"%string, VNone); ("_binary"%string, VNone); ("_hex"%string, VNone); ("_tag_uri"%string, VNone); ("_serial"%string, VStr (lit "ABCDefgh012345678")); ("_company_pref"%string, VStr (lit "0614141")); ("_doc_type"%string, VStr (lit "12345")); ("_gdti"%string, VStr (lit "0614141123452ABCDefgh012345678"))])) /\
  invokes W (VClass "gdti.GDTI") "from_binary" [VStr (lit "001111101011010000100101011110111111010001100000011100110000011000010100001110001001100101110011011001111101000011000001100010110010011001101101000110101011011001101110111000")] [] (Returned
    (VObj "gdti.GDTI" [("epc_uri"%string, VStr (lit "urn:epc:id:gdti:0614141.12345.ABCDefgh012345678")); ("_base64"%string, VNone); ("_binary"%string, VNone); ("_hex"%string, VNone); ("_tag_uri"%string, VNone); ("_serial"%string, VStr (lit "ABCDefgh012345678")); ("_company_pref"%string, VStr (lit "0614141")); ("_doc_type"%string, VStr (lit "12345")); ("_gdti"%string, VStr (lit "0614141123452ABCDefgh012345678"))])) /\
  invokes W (VClass "gdti.GDTI") "from_hex" [VStr (lit "3EB4257BF46073061438997367D0C18B266D1AB66EE0")] [] (Returned
    (VObj "gdti.GDTI" [("epc_uri"%string, VStr (lit "urn:epc:id:gdti:0614141.12345.ABCDefgh012345678")); ("_base64"%string, VNone); ("_binary"%string, VNone); ("_hex"%string, VNone); ("_tag_uri"%string, VNone); ("_serial"%string, VStr (lit "ABCDefgh012345678")); ("_company_pref"%string, VStr (lit "0614141")); ("_doc_type"%string, VStr (lit "12345")); ("_gdti"%string, VStr (lit "0614141123452ABCDefgh012345678"))])) /\
  invokes W (VClass "gdti.GDTI") "from_base64" [VStr (lit "PrQle/RgcwYUOJlzZ9DBiyZtGrZu4A==")] [] (Returned
    (VObj "gdti.GDTI" [("epc_uri"%string, VStr (lit "urn:epc:id:gdti:0614141.12345.ABCDefgh012345678")); ("_base64"%string, VNone); ("_binary"%string, VNone); ("_hex"%string, VNone); ("_tag_uri"%string, VNone); ("_serial"%string, VStr (lit "ABCDefgh012345678")); ("_company_pref"%string, VStr (lit "0614141")); ("_doc_type"%string, VStr (lit "12345")); ("_gdti"%string, VStr (lit "0614141123452ABCDefgh012345678"))])) /\
  invokes W (VClass "gdti.GDTI") "from_binary" [VStr (lit "1111")] [] (Raised (XExn KeyError)).
Proof. repeat split; exists (200 * 100)%nat; vm_compute; reflexivity. Qed.

(** SGCN *)
Theorem C61_sgcn_decode :
  invokes W (VClass "sgcn.SGCN") "header_to_schemes" [] [] (Returned (VDict (dict_of sgcn_member sgcn_header_to_schemes))) /\
  (forall u args kws, passed1 "epc_tag_uri" (VStr u) args kws -> invokes W (VClass "sgcn.SGCN") "from_tag_uri" args kws (result sgcn_obj (sgcn_from_tag_uri u))) /\
  (forall u b args kws, passed2 "epc_tag_uri" "includes_filter" (VStr u) (VBool b) args kws ->
     invokes W (VClass "sgcn.SGCN") "from_tag_uri" args kws (result sgcn_obj (from_tag_uri sgcn_init u b))) /\
  (forall s args kws, passed1 "binary_string" (VStr s) args kws -> invokes W (VClass "sgcn.SGCN") "from_binary" args kws (result sgcn_obj (sgcn_from_binary s))) /\
  (forall s args kws, passed1 "tag_hex_string" (VStr s) args kws -> fits (length s * 4) ->
     invokes W (VClass "sgcn.SGCN") "from_hex" args kws (result sgcn_obj (from_hex sgcn_from_binary s))) /\
  (forall s args kws, passed1 "tag_base64_string" (VStr s) args kws -> fits (length s * 8) ->
     invokes W (VClass "sgcn.SGCN") "from_base64" args kws (result sgcn_obj (from_base64 sgcn_from_binary s))).
Proof. exact SrcSgcn.sgcn_decode. Qed.
Print Assumptions C61_sgcn_decode.
Example C61_sgcn_case :
  invokes W (VClass "sgcn.SGCN") "from_tag_uri" [VStr (lit "urn:epc:tag:sgcn-96:5.4012345.67890.04711")] [] (Returned
    (VObj "sgcn.SGCN" [("epc_uri"%string, VStr (lit "urn:epc:id:sgcn:4012345.67890.04711")); ("_base64"%string, VNone); ("_binary"%string, VNone); ("_hex"%string, VNone); ("_tag_uri"%string, VNone); ("_company_pref"%string, VStr (lit "4012345")); ("_coupon_ref"%string, VStr (lit "67890")); ("_serial"%string, VStr (lit "04711")); ("_gcn"%string, VStr (lit "401234567890104711"))])) /\
  invokes W (VClass "sgcn.SGCN") "from_binary" [VStr (lit "001111111011010011110100111001001110011000010010011001000000000000000000000000011001100100000111")] [] (Returned
    (VObj "sgcn.SGCN" [("epc_uri"%string, VStr (lit "urn:epc:id:sgcn:4012345.67890.04711")); ("_base64"%string, VNone); ("_binary"%string, VNone); ("_hex"%string, VNone); ("_tag_uri"%string, VNone); ("_company_pref"%string, VStr (lit "4012345")); ("_coupon_ref"%string, VStr (lit "67890")); ("_serial"%string, VStr (lit "04711")); ("_gcn"%string, VStr (lit "401234567890104711"))])) /\
  invokes W (VClass "sgcn.SGCN") "from_hex" [VStr (lit "3FB4F4E4E612640000019907")] [] (Returned
    (VObj "sgcn.SGCN" [("epc_uri"%string, VStr (lit "urn:epc:id:sgcn:4012345.67890.04711")); ("_base64"%string, VNone); ("_binary"%string, VNone); ("_hex"%string, VNone); ("_tag_uri"%string, VNone); ("_company_pref"%string, VStr (lit "4012345")); ("_coupon_ref"%string, VStr (lit "67890")); ("_serial"%string, VStr (lit "04711")); ("_gcn"%string, VStr (lit "401234567890104711"))])) /\
  invokes W (VClass "sgcn.SGCN") "from_base64" [VStr (lit "P7T05OYSZAAAAZkH")] [] (Returned
    (VObj "sgcn.SGCN" [("epc_uri"%string, VStr (lit "urn:epc:id:sgcn:4012345.67890.04711")); ("_base64"%string, VNone); ("_binary"%string, VNone); ("_hex"%string, VNone); ("_tag_uri"%string, VNone); ("_company_pref"%string, VStr (lit "4012345")); ("_coupon_ref"%string, VStr (lit "67890")); ("_serial"%string, VStr (lit "04711")); ("_gcn"%string, VStr (lit "401234567890104711"))])) /\
  invokes W (VClass "sgcn.SGCN") "from_binary" [VStr (lit "1111")] [] (Raised (XExn KeyError)).
Proof. repeat split; exists (200 * 100)%nat; vm_compute; reflexivity. Qed.

(** ITIP *)
Theorem C61_itip_decode :
  invokes W (VClass "itip.ITIP") "header_to_schemes" [] [] (Returned (VDict (dict_of itip_member itip_header_to_schemes))) /\
  (forall u args kws, passed1 "epc_tag_uri" (VStr u) args kws -> invokes W (VClass "itip.ITIP") "from_tag_uri" args kws (result itip_obj (itip_from_tag_uri u))) /\
  (forall u b args kws, passed2 "epc_tag_uri" "includes_filter" (VStr u) (VBool b) args kws ->
     invokes W (VClass "itip.ITIP") "from_tag_uri" args kws (result itip_obj (from_tag_uri itip_init u b))) /\
  (forall s args kws, passed1 "binary_string" (VStr s) args kws -> invokes W (VClass "itip.ITIP") "from_binary" args kws (result itip_obj (itip_from_binary s))) /\
  (forall s args kws, passed1 "tag_hex_string" (VStr s) args kws -> fits (length s * 4) ->
     invokes W (VClass "itip.ITIP") "from_hex" args kws (result itip_obj (from_hex itip_from_binary s))) /\
  (forall s args kws, passed1 "tag_base64_string" (VStr s) args kws -> fits (length s * 8) ->
     invokes W (VClass "itip.ITIP") "from_base64" args kws (result itip_obj (from_base64 itip_from_binary s))).
Proof. exact SrcItip.itip_decode. Qed.
Print Assumptions C61_itip_decode.
Example C61_itip_case :
  invokes W (VClass "itip.ITIP") "from_tag_uri" [VStr (lit "urn:epc:tag:itip-110:5.4012345.012345.01.02.987")] [] (Returned
    (VObj "itip.ITIP" [("epc_uri"%string, VStr (lit "urn:epc:id:itip:4012345.012345.01.02.987")); ("_base64"%string, VNone); ("_binary"%string, VNone); ("_hex"%string, VNone); ("_tag_uri"%string, VNone); ("_company_pref"%string, VStr (lit "4012345")); ("_item_ref"%string, VStr (lit "012345")); ("_piece"%string, VStr (lit "01")); ("_total"%string, VStr (lit "02")); ("_serial"%string, VStr (lit "987"))])) /\
  invokes W (VClass "itip.ITIP") "from_binary" [VStr (lit "01000000101101001111010011100100111001000000110000001110010000001000001000000000000000000000000000001111011011")] [] (Returned
    (VObj "itip.ITIP" [("epc_uri"%string, VStr (lit "urn:epc:id:itip:4012345.012345.01.02.987")); ("_base64"%string, VNone); ("_binary"%string, VNone); ("_hex"%string, VNone); ("_tag_uri"%string, VNone); ("_company_pref"%string, VStr (lit "4012345")); ("_item_ref"%string, VStr (lit "012345")); ("_piece"%string, VStr (lit "01")); ("_total"%string, VStr (lit "02")); ("_serial"%string, VStr (lit "987"))])) /\
  invokes W (VClass "itip.ITIP") "from_hex" [VStr (lit "40B4F4E4E40C0E40820000000F6C")] [] (Returned
    (VObj "itip.ITIP" [("epc_uri"%string, VStr (lit "urn:epc:id:itip:4012345.012345.01.02.987")); ("_base64"%string, VNone); ("_binary"%string, VNone); ("_hex"%string, VNone); ("_tag_uri"%string, VNone); ("_company_pref"%string, VStr (lit "4012345")); ("_item_ref"%string, VStr (lit "012345")); ("_piece"%string, VStr (lit "01")); ("_total"%string, VStr (lit "02")); ("_serial"%string, VStr (lit "987"))])) /\
  invokes W (VClass "itip.ITIP") "from_base64" [VStr (lit "QLT05OQMDkCCAAAAD2w=")] [] (Returned
    (VObj "itip.ITIP" [("epc_uri"%string, VStr (lit "urn:epc:id:itip:4012345.012345.01.02.987")); ("_base64"%string, VNone); ("_binary"%string, VNone); ("_hex"%string, VNone); ("_tag_uri"%string, VNone); ("_company_pref"%string, VStr (lit "4012345")); ("_item_ref"%string, VStr (lit "012345")); ("_piece"%string, VStr (lit "01")); ("_total"%string, VStr (lit "02")); ("_serial"%string, VStr (lit "987"))])) /\
  invokes W (VClass "itip.ITIP") "from_binary" [VStr (lit "1111")] [] (Raised (XExn KeyError)).
Proof. repeat split; exists (200 * 100)%nat; vm_compute; reflexivity. Qed.

(** GID *)
Theorem C61_gid_decode :
  invokes W (VClass "gid.GID") "header_to_schemes" [] [] (Returned (VDict (dict_of gid_member gid_header_to_schemes))) /\
  (forall u args kws, passed1 "epc_tag_uri" (VStr u) args kws -> invokes W (VClass "gid.GID") "from_tag_uri" args kws (result gid_obj (gid_from_tag_uri u))) /\
  (forall u b args kws, passed2 "epc_tag_uri" "includes_filter" (VStr u) (VBool b) args kws ->
     invokes W (VClass "gid.GID") "from_tag_uri" args kws (result gid_obj (from_tag_uri gid_init u b))) /\
  (forall s args kws, passed1 "binary_string" (VStr s) args kws -> invokes W (VClass "gid.GID") "from_binary" args kws (result gid_obj (gid_from_binary s))) /\
  (forall s args kws, passed1 "tag_hex_string" (VStr s) args kws -> fits (length s * 4) ->
     invokes W (VClass "gid.GID") "from_hex" args kws (result gid_obj (from_hex gid_from_binary s))) /\
  (forall s args kws, passed1 "tag_base64_string" (VStr s) args kws -> fits (length s * 8) ->
     invokes W (VClass "gid.GID") "from_base64" args kws (result gid_obj (from_base64 gid_from_binary s))).
Proof. exact SrcGid.gid_decode. Qed.
Print Assumptions C61_gid_decode.
Example C61_gid_case :
  invokes W (VClass "gid.GID") "from_tag_uri" [VStr (lit "urn:epc:tag:gid-96:95100000.12345.400")] [] (Returned
    (VObj "gid.GID" [("epc_uri"%string, VStr (lit "urn:epc:id:gid:95100000.12345.400")); ("_base64"%string, VNone); ("_binary"%string, VNone); ("_hex"%string, VNone); ("_tag_uri"%string, VNone); ("_manager"%string, VStr (lit "95100000")); ("_object"%string, VStr (lit "12345")); ("_serial"%string, VStr (lit "400"))])) /\
  invokes W (VClass "gid.GID") "from_binary" [VStr (lit "001101010101101010110001110001100000000000000011000000111001000000000000000000000000000110010000")] [] (Returned
    (VObj "gid.GID" [("epc_uri"%string, VStr (lit "urn:epc:id:gid:95100000.12345.400")); ("_base64"%string, VNone); ("_binary"%string, VNone); ("_hex"%string, VNone); ("_tag_uri"%string, VNone); ("_manager"%string, VStr (lit "95100000")); ("_object"%string, VStr (lit "12345")); ("_serial"%string, VStr (lit "400"))])) /\
  invokes W (VClass "gid.GID") "from_hex" [VStr (lit "355AB1C60003039000000190")] [] (Returned
    (VObj "gid.GID" [("epc_uri"%string, VStr (lit "urn:epc:id:gid:95100000.12345.400")); ("_base64"%string, VNone); ("_binary"%string, VNone); ("_hex"%string, VNone); ("_tag_uri"%string, VNone); ("_manager"%string, VStr (lit "95100000")); ("_object"%string, VStr (lit "12345")); ("_serial"%string, VStr (lit "400"))])) /\
  invokes W (VClass "gid.GID") "from_base64" [VStr (lit "NVqxxgADA5AAAAGQ")] [] (Returned
    (VObj "gid.GID" [("epc_uri"%string, VStr (lit "urn:epc:id:gid:95100000.12345.400")); ("_base64"%string, VNone); ("_binary"%string, VNone); ("_hex"%string, VNone); ("_tag_uri"%string, VNone); ("_manager"%string, VStr (lit "95100000")); ("_object"%string, VStr (lit "12345")); ("_serial"%string, VStr (lit "400"))])) /\
  invokes W (VClass "gid.GID") "from_binary" [VStr (lit "1111")] [] (Raised (XExn KeyError)).
Proof. repeat split; exists (200 * 100)%nat; vm_compute; reflexivity. Qed.

(** CPI *)
Theorem C61_cpi_decode :
  invokes W (VClass "cpi.CPI") "header_to_schemes" [] [] (Returned (VDict (dict_of cpi_member cpi_header_to_schemes))) /\
  (forall u args kws, passed1 "epc_tag_uri" (VStr u) args kws -> invokes W (VClass "cpi.CPI") "from_tag_uri" args kws (result cpi_obj (cpi_from_tag_uri u))) /\
  (forall u b args kws, passed2 "epc_tag_uri" "includes_filter" (VStr u) (VBool b) args kws ->
     invokes W (VClass "cpi.CPI") "from_tag_uri" args kws (result cpi_obj (from_tag_uri cpi_init u b))) /\
  (forall s args kws, passed1 "binary_string" (VStr s) args kws -> invokes W (VClass "cpi.CPI") "from_binary" args kws (result cpi_obj (cpi_from_binary s))) /\
  (forall s args kws, passed1 "tag_hex_string" (VStr s) args kws -> fits (length s * 4) ->
     invokes W (VClass "cpi.CPI") "from_hex" args kws (result cpi_obj (from_hex cpi_from_binary s))) /\
  (forall s args kws, passed1 "tag_base64_string" (VStr s) args kws -> fits (length s * 8) ->
     invokes W (VClass "cpi.CPI") "from_base64" args kws (result cpi_obj (from_base64 cpi_from_binary s))).
Proof. exact SrcCpi.cpi_decode. Qed.
Print Assumptions C61_cpi_decode.
Example C61_cpi_case :
  invokes W (VClass "cpi.CPI") "from_tag_uri" [VStr (lit "urn:epc:tag:cpi-var:5.0614141.123%2FABC.123456789")] [] (Returned
    (VObj "cpi.CPI" [("epc_uri"%string, VStr (lit "urn:epc:id:cpi:0614141.123%2FABC.123456789")); ("_base64"%string, VNone); ("_binary"%string, VNone); ("_hex"%string, VNone); ("_tag_uri"%string, VNone); ("_company_pref"%string, VStr (lit "0614141")); ("_cp_ref"%string, VStr (lit "123%2FABC")); ("_serial"%string, VStr (lit "123456789"))])) /\
  invokes W (VClass "cpi.CPI") "from_binary" [VStr (lit "001111011011010000100101011110111111011100011100101100111011110000010000100000110000000000000000000111010110111100110100010101")] [] (Returned
    (VObj "cpi.CPI" [("epc_uri"%string, VStr (lit "urn:epc:id:cpi:0614141.123%2FABC.123456789")); ("_base64"%string, VNone); ("_binary"%string, VNone); ("_hex"%string, VNone); ("_tag_uri"%string, VNone); ("_company_pref"%string, VStr (lit "0614141")); ("_cp_ref"%string, VStr (lit "123%2FABC")); ("_serial"%string, VStr (lit "123456789"))])) /\
  invokes W (VClass "cpi.CPI") "from_hex" [VStr (lit "3DB4257BF71CB3BC108300001D6F3454")] [] (Returned
    (VObj "cpi.CPI" [("epc_uri"%string, VStr (lit "urn:epc:id:cpi:0614141.123%2FABC.123456789")); ("_base64"%string, VNone); ("_binary"%string, VNone); ("_hex"%string, VNone); ("_tag_uri"%string, VNone); ("_company_pref"%string, VStr (lit "0614141")); ("_cp_ref"%string, VStr (lit "123%2FABC")); ("_serial"%string, VStr (lit "123456789"))])) /\
  invokes W (VClass "cpi.CPI") "from_base64" [VStr (lit "PbQle/ccs7wQgwAAHW80VA==")] [] (Returned
    (VObj "cpi.CPI" [("epc_uri"%string, VStr (lit "urn:epc:id:cpi:0614141.123%2FABC.123456789")); ("_base64"%string, VNone); ("_binary"%string, VNone); ("_hex"%string, VNone); ("_tag_uri"%string, VNone); ("_company_pref"%string, VStr (lit "0614141")); ("_cp_ref"%string, VStr (lit "123%2FABC")); ("_serial"%string, VStr (lit "123456789"))])) /\
  invokes W (VClass "cpi.CPI") "from_binary" [VStr (lit "1111")] [] (Raised (XExn KeyError)).
Proof. repeat split; exists (200 * 100)%nat; vm_compute; reflexivity. Qed.

(** USDOD *)
Theorem C61_usdod_decode :
  invokes W (VClass "usdod.USDOD") "header_to_schemes" [] [] (Returned (VDict (dict_of usdod_member usdod_header_to_schemes))) /\
  (forall u args kws, passed1 "epc_tag_uri" (VStr u) args kws -> invokes W (VClass "usdod.USDOD") "from_tag_uri" args kws (result usdod_obj (usdod_from_tag_uri u))) /\
  (forall u b args kws, passed2 "epc_tag_uri" "includes_filter" (VStr u) (VBool b) args kws ->
     invokes W (VClass "usdod.USDOD") "from_tag_uri" args kws (result usdod_obj (from_tag_uri usdod_init u b))) /\
  (forall s args kws, passed1 "binary_string" (VStr s) args kws -> invokes W (VClass "usdod.USDOD") "from_binary" args kws (result usdod_obj (usdod_from_binary s))) /\
  (forall s args kws, passed1 "tag_hex_string" (VStr s) args kws -> fits (length s * 4) ->
     invokes W (VClass "usdod.USDOD") "from_hex" args kws (result usdod_obj (from_hex usdod_from_binary s))) /\
  (forall s args kws, passed1 "tag_base64_string" (VStr s) args kws -> fits (length s * 8) ->
     invokes W (VClass "usdod.USDOD") "from_base64" args kws (result usdod_obj (from_base64 usdod_from_binary s))).
Proof. exact SrcUsdod.usdod_decode. Qed.
Print Assumptions C61_usdod_decode.
Example C61_usdod_case :
  invokes W (VClass "usdod.USDOD") "from_tag_uri" [VStr (lit "urn:epc:tag:usdod-96:5.2S194.12345678901")] [] (Returned
    (VObj "usdod.USDOD" [("epc_uri"%string, VStr (lit "urn:epc:id:usdod:2S194.12345678901")); ("_base64"%string, VNone); ("_binary"%string, VNone); ("_hex"%string, VNone); ("_tag_uri"%string, VNone); ("_cage_dodaac"%string, VStr (lit "2S194")); ("_serial"%string, VStr (lit "12345678901"))])) /\
  invokes W (VClass "usdod.USDOD") "from_binary" [VStr (lit "001011110101001000000011001001010011001100010011100100110100001011011111110111000001110000110101")] [] (Returned
    (VObj "usdod.USDOD" [("epc_uri"%string, VStr (lit "urn:epc:id:usdod:2S194.12345678901")); ("_base64"%string, VNone); ("_binary"%string, VNone); ("_hex"%string, VNone); ("_tag_uri"%string, VNone); ("_cage_dodaac"%string, VStr (lit "2S194")); ("_serial"%string, VStr (lit "12345678901"))])) /\
  invokes W (VClass "usdod.USDOD") "from_hex" [VStr (lit "2F52032533139342DFDC1C35")] [] (Returned
    (VObj "usdod.USDOD" [("epc_uri"%string, VStr (lit "urn:epc:id:usdod:2S194.12345678901")); ("_base64"%string, VNone); ("_binary"%string, VNone); ("_hex"%string, VNone); ("_tag_uri"%string, VNone); ("_cage_dodaac"%string, VStr (lit "2S194")); ("_serial"%string, VStr (lit "12345678901"))])) /\
  invokes W (VClass "usdod.USDOD") "from_base64" [VStr (lit "L1IDJTMTk0Lf3Bw1")] [] (Returned
    (VObj "usdod.USDOD" [("epc_uri"%string, VStr (lit "urn:epc:id:usdod:2S194.12345678901")); ("_base64"%string, VNone); ("_binary"%string, VNone); ("_hex"%string, VNone); ("_tag_uri"%string, VNone); ("_cage_dodaac"%string, VStr (lit "2S194")); ("_serial"%string, VStr (lit "12345678901"))])) /\
  invokes W (VClass "usdod.USDOD") "from_binary" [VStr (lit "1111")] [] (Raised (XExn KeyError)).
Proof. repeat split; exists (200 * 100)%nat; vm_compute; reflexivity. Qed.

(** ADI *)
Theorem C61_adi_decode :
  invokes W (VClass "adi.ADI") "header_to_schemes" [] [] (Returned (VDict (dict_of adi_member adi_header_to_schemes))) /\
  (forall u args kws, passed1 "epc_tag_uri" (VStr u) args kws -> invokes W (VClass "adi.ADI") "from_tag_uri" args kws (result adi_obj (adi_from_tag_uri u))) /\
  (forall u b args kws, passed2 "epc_tag_uri" "includes_filter" (VStr u) (VBool b) args kws ->
     invokes W (VClass "adi.ADI") "from_tag_uri" args kws (result adi_obj (from_tag_uri adi_init u b))) /\
  (forall s args kws, passed1 "binary_string" (VStr s) args kws -> invokes W (VClass "adi.ADI") "from_binary" args kws (result adi_obj (adi_from_binary s))) /\
  (forall s args kws, passed1 "tag_hex_string" (VStr s) args kws -> fits (length s * 4) ->
     invokes W (VClass "adi.ADI") "from_hex" args kws (result adi_obj (from_hex adi_from_binary s))) /\
  (forall s args kws, passed1 "tag_base64_string" (VStr s) args kws -> fits (length s * 8) ->
     invokes W (VClass "adi.ADI") "from_base64" args kws (result adi_obj (from_base64 adi_from_binary s))).
Proof. exact SrcAdi.adi_decode. Qed.
Print Assumptions C61_adi_decode.
Example C61_adi_case :
  invokes W (VClass "adi.ADI") "from_tag_uri" [VStr (lit "urn:epc:tag:adi-var:5.W81X9C.3KL984PX1.2WMA52")] [] (Returned
    (VObj "adi.ADI" [("epc_uri"%string, VStr (lit "urn:epc:id:adi:W81X9C.3KL984PX1.2WMA52")); ("_base64"%string, VNone); ("_binary"%string, VNone); ("_hex"%string, VNone); ("_tag_uri"%string, VNone); ("_cage_dodaac"%string, VStr (lit "W81X9C")); ("_part_number"%string, VStr (lit "3KL984PX1")); ("_serial"%string, VStr (lit "2WMA52"))])) /\
  invokes W (VClass "adi.ADI") "from_binary" [VStr (lit "00111011000101010111111000110001011000111001000011110011001011001100111001111000110100010000011000110001000000110010010111001101000001110101110010000000")] [] (Returned
    (VObj "adi.ADI" [("epc_uri"%string, VStr (lit "urn:epc:id:adi:W81X9C.3KL984PX1.2WMA52")); ("_base64"%string, VNone); ("_binary"%string, VNone); ("_hex"%string, VNone); ("_tag_uri"%string, VNone); ("_cage_dodaac"%string, VStr (lit "W81X9C")); ("_part_number"%string, VStr (lit "3KL984PX1")); ("_serial"%string, VStr (lit "2WMA52"))])) /\
  invokes W (VClass "adi.ADI") "from_hex" [VStr (lit "3B157E316390F32CCE78D106310325CD075C8000")] [] (Returned
    (VObj "adi.ADI" [("epc_uri"%string, VStr (lit "urn:epc:id:adi:W81X9C.3KL984PX1.2WMA52")); ("_base64"%string, VNone); ("_binary"%string, VNone); ("_hex"%string, VNone); ("_tag_uri"%string, VNone); ("_cage_dodaac"%string, VStr (lit "W81X9C")); ("_part_number"%string, VStr (lit "3KL984PX1")); ("_serial"%string, VStr (lit "2WMA52"))])) /\
  invokes W (VClass "adi.ADI") "from_base64" [VStr (lit "OxV+MWOQ8yzOeNEGMQMlzQdcgAA=")] [] (Returned
    (VObj "adi.ADI" [("epc_uri"%string, VStr (lit "urn:epc:id:adi:W81X9C.3KL984PX1.2WMA52")); ("_base64"%string, VNone); ("_binary"%string, VNone); ("_hex"%string, VNone); ("_tag_uri"%string, VNone); ("_cage_dodaac"%string, VStr (lit "W81X9C")); ("_part_number"%string, VStr (lit "3KL984PX1")); ("_serial"%string, VStr (lit "2WMA52"))])) /\
  invokes W (VClass "adi.ADI") "from_binary" [VStr (lit "1111")] [] (Raised (XExn KeyError)).
Proof. repeat split; exists (200 * 100)%nat; vm_compute; reflexivity. Qed.
