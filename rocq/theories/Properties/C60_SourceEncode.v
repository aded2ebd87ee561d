(** The source text of the scheme classes, from an object to a tag URI, a binary text, hexadecimal digits and Base64: C60.

    For each class that can be written to a tag, [tag_uri], [binary], [hex] and [base64] come to what their models say, for every object,
    binary coding scheme and filter value, with the arguments given by position, by keyword, or left to their default values.  A filter
    value is any member of an enumeration whose value is the number in decimal digits.  [hex] and [base64] ask that the length of the
    binary text, in digits, be below 2 ^ 100. *)
From Coq Require Import String.
From Verif.Model Require Import Py PyFormat Syntax Machine Common Base.
From Verif.Model Require Import Sgtin Sscc Sgln Grai Giai Gsrn Gsrnp Gdti Sgcn Itip Gid Cpi Usdod Adi Lgtin Others.
From Verif.Source Require Import Program World.
From Verif.Spec Require Import SpecMethods.
From Verif.Proofs Require SrcMembers SrcSgtin SrcSscc SrcSgln SrcGrai SrcGiai SrcGsrn SrcGsrnp SrcGdti SrcSgcn SrcItip SrcGid SrcCpi SrcUsdod SrcAdi.

(** the members of the enumerations: of each class of filter values, and of each class of binary coding schemes *)
Theorem C60_filter_values :
  filter_numbers W "sgtin.SGTINFilterValue" 8 /\
  filter_numbers W "sscc.SSCCFilterValue" 8 /\
  filter_numbers W "sgln.SGLNFilterValue" 8 /\
  filter_numbers W "grai.GRAIFilterValue" 8 /\
  filter_numbers W "giai.GIAIFilterValue" 8 /\
  filter_numbers W "gsrn.GSRNFilterValue" 8 /\
  filter_numbers W "gsrnp.GSRNPFilterValue" 8 /\
  filter_numbers W "gdti.GDTIFilterValue" 8 /\
  filter_numbers W "sgcn.SGCNFilterValue" 8 /\
  filter_numbers W "itip.ITIPFilterValue" 8 /\
  filter_numbers W "cpi.CPIFilterValue" 8 /\
  filter_numbers W "usdod.USDODFilterValue" 16 /\
  filter_numbers W "adi.ADIFilterValue" 64.
Proof. exact SrcMembers.filter_values. Qed.
Print Assumptions C60_filter_values.
Theorem C60_coding_schemes :
  enum_members W "sgtin.SGTIN.BinaryCodingScheme" = map sgtin_member [SGTIN_96; SGTIN_198] /\
  enum_members W "sscc.SSCC.BinaryCodingScheme" = map sscc_member [SSCC_96] /\
  enum_members W "sgln.SGLN.BinaryCodingScheme" = map sgln_member [SGLN_96; SGLN_195] /\
  enum_members W "grai.GRAI.BinaryCodingScheme" = map grai_member [GRAI_96; GRAI_170] /\
  enum_members W "giai.GIAI.BinaryCodingScheme" = map giai_member [GIAI_96; GIAI_202] /\
  enum_members W "gsrn.GSRN.BinaryCodingScheme" = map gsrn_member [GSRN_96] /\
  enum_members W "gsrnp.GSRNP.BinaryCodingScheme" = map gsrnp_member [GSRNP_96] /\
  enum_members W "gdti.GDTI.BinaryCodingScheme" = map gdti_member [GDTI_96; GDTI_174] /\
  enum_members W "sgcn.SGCN.BinaryCodingScheme" = map sgcn_member [SGCN_96] /\
  enum_members W "itip.ITIP.BinaryCodingScheme" = map itip_member [ITIP_110; ITIP_212] /\
  enum_members W "gid.GID.BinaryCodingScheme" = map gid_member [GID_96] /\
  enum_members W "cpi.CPI.BinaryCodingScheme" = map cpi_member [CPI_96; CPI_VAR] /\
  enum_members W "usdod.USDOD.BinaryCodingScheme" = map usdod_member [USDOD_96] /\
  enum_members W "adi.ADI.BinaryCodingScheme" = map adi_member [ADI_VAR].
Proof. exact SrcMembers.coding_schemes. Qed.
Print Assumptions C60_coding_schemes.
Example C60_member_case : nth_error (enum_members W "sgtin.SGTINFilterValue") 2 = Some (filter_member "sgtin.SGTINFilterValue" "FULL_CASE" 2).
Proof. vm_compute. reflexivity. Qed.

(** SGTIN *)
Theorem C60_sgtin_encode :
  (forall x s c nm f args kws, args_sf (sgtin_member s) (filter_member c nm f) args kws ->
     invokes W (sgtin_obj x) "tag_uri" args kws (result VStr (sgtin_tag_uri x s f))) /\
  (forall x s c nm f args kws, args_sf (sgtin_member s) (filter_member c nm f) args kws ->
     invokes W (sgtin_obj x) "binary" args kws (result VStr (sgtin_binary x s f))) /\
  (forall x s c nm f args kws, args_sf (sgtin_member s) (filter_member c nm f) [] kws -> (forall b, sgtin_binary x s f = Ok b -> fits (length b)) ->
     invokes W (sgtin_obj x) "hex" args kws (result VStr (binary_hex (sgtin_binary x s f)))) /\
  (forall x s c nm f args kws, args_sf (sgtin_member s) (filter_member c nm f) [] kws -> (forall b, sgtin_binary x s f = Ok b -> fits (length b)) ->
     invokes W (sgtin_obj x) "base64" args kws (result VStr (binary_base64 (sgtin_binary x s f)))).
Proof. exact SrcSgtin.sgtin_encode. Qed.
Print Assumptions C60_sgtin_encode.
Example C60_sgtin_case :
  invokes W (VObj "sgtin.SGTIN" [("epc_uri"%string, VStr (lit "urn:epc:id:sgtin:0614141.812345.32a%2Fb")); ("_base64"%string, VNone); ("_binary"%string, VNone); ("_hex"%string, VNone); ("_tag_uri"%string, VNone); ("_company_pref"%string, VStr (lit "0614141")); ("_item_ref"%string, VStr (lit "812345")); ("_serial"%string, VStr (lit "32a%2Fb")); ("_gtin"%string, VStr (lit "80614141123458"))])
    "tag_uri" [sgtin_member SGTIN_198; filter_member "sgtin.SGTINFilterValue" "X" 5] [] (Returned (VStr (lit "urn:epc:tag:sgtin-198:5.0614141.812345.32a%2Fb"))) /\
  invokes W (VObj "sgtin.SGTIN" [("epc_uri"%string, VStr (lit "urn:epc:id:sgtin:0614141.812345.32a%2Fb")); ("_base64"%string, VNone); ("_binary"%string, VNone); ("_hex"%string, VNone); ("_tag_uri"%string, VNone); ("_company_pref"%string, VStr (lit "0614141")); ("_item_ref"%string, VStr (lit "812345")); ("_serial"%string, VStr (lit "32a%2Fb")); ("_gtin"%string, VStr (lit "80614141123458"))])
    "binary" [sgtin_member SGTIN_198; filter_member "sgtin.SGTINFilterValue" "X" 5] [] (Returned (VStr (lit "001101101011010000100101011110111111011100011001010011100101100110110010110000101011111100010000000000000000000000000000000000000000000000000000000000000000000000000000000000000000000000000000000000"))) /\
  invokes W (VObj "sgtin.SGTIN" [("epc_uri"%string, VStr (lit "urn:epc:id:sgtin:0614141.812345.32a%2Fb")); ("_base64"%string, VNone); ("_binary"%string, VNone); ("_hex"%string, VNone); ("_tag_uri"%string, VNone); ("_company_pref"%string, VStr (lit "0614141")); ("_item_ref"%string, VStr (lit "812345")); ("_serial"%string, VStr (lit "32a%2Fb")); ("_gtin"%string, VStr (lit "80614141123458"))])
    "hex" [] [("binary_coding_scheme"%string, sgtin_member SGTIN_198); ("filter_value"%string, filter_member "sgtin.SGTINFilterValue" "X" 5)] (Returned (VStr (lit "36B4257BF7194E59B2C2BF100000000000000000000000000000"))) /\
  invokes W (VObj "sgtin.SGTIN" [("epc_uri"%string, VStr (lit "urn:epc:id:sgtin:0614141.812345.32a%2Fb")); ("_base64"%string, VNone); ("_binary"%string, VNone); ("_hex"%string, VNone); ("_tag_uri"%string, VNone); ("_company_pref"%string, VStr (lit "0614141")); ("_item_ref"%string, VStr (lit "812345")); ("_serial"%string, VStr (lit "32a%2Fb")); ("_gtin"%string, VStr (lit "80614141123458"))])
    "base64" [] [("binary_coding_scheme"%string, sgtin_member SGTIN_198); ("filter_value"%string, filter_member "sgtin.SGTINFilterValue" "X" 5)] (Returned (VStr (lit "NrQle/cZTlmywr8QAAAAAAAAAAAAAAAAAAA="))).
Proof. repeat split; exists (200 * 100)%nat; vm_compute; reflexivity. Qed.

(** SSCC *)
Theorem C60_sscc_encode :
  (forall x s c nm f args kws, args_fs_default (sscc_member s) (filter_member c nm f) (s = SSCC_96) args kws ->
     invokes W (sscc_obj x) "tag_uri" args kws (result VStr (sscc_tag_uri x s f))) /\
  (forall x s c nm f args kws, args_fs_default (sscc_member s) (filter_member c nm f) (s = SSCC_96) args kws ->
     invokes W (sscc_obj x) "binary" args kws (result VStr (sscc_binary x s f))) /\
  (forall x s c nm f args kws, args_fs_default (sscc_member s) (filter_member c nm f) (s = SSCC_96) [] kws -> (forall b, sscc_binary x s f = Ok b -> fits (length b)) ->
     invokes W (sscc_obj x) "hex" args kws (result VStr (binary_hex (sscc_binary x s f)))) /\
  (forall x s c nm f args kws, args_fs_default (sscc_member s) (filter_member c nm f) (s = SSCC_96) [] kws -> (forall b, sscc_binary x s f = Ok b -> fits (length b)) ->
     invokes W (sscc_obj x) "base64" args kws (result VStr (binary_base64 (sscc_binary x s f)))).
Proof. exact SrcSscc.sscc_encode. Qed.
Print Assumptions C60_sscc_encode.
Example C60_sscc_case :
  invokes W (VObj "sscc.SSCC" [("epc_uri"%string, VStr (lit "urn:epc:id:sscc:0614141.1234567890")); ("_base64"%string, VNone); ("_binary"%string, VNone); ("_hex"%string, VNone); ("_tag_uri"%string, VNone); ("_company_pref"%string, VStr (lit "0614141")); ("_serial"%string, VStr (lit "1234567890")); ("_sscc"%string, VStr (lit "106141412345678908"))])
    "tag_uri" [filter_member "sscc.SSCCFilterValue" "X" 5; sscc_member SSCC_96] [] (Returned (VStr (lit "urn:epc:tag:sscc-96:5.0614141.1234567890"))) /\
  invokes W (VObj "sscc.SSCC" [("epc_uri"%string, VStr (lit "urn:epc:id:sscc:0614141.1234567890")); ("_base64"%string, VNone); ("_binary"%string, VNone); ("_hex"%string, VNone); ("_tag_uri"%string, VNone); ("_company_pref"%string, VStr (lit "0614141")); ("_serial"%string, VStr (lit "1234567890")); ("_sscc"%string, VStr (lit "106141412345678908"))])
    "binary" [filter_member "sscc.SSCCFilterValue" "X" 5; sscc_member SSCC_96] [] (Returned (VStr (lit "001100011011010000100101011110111111010001001001100101100000001011010010000000000000000000000000"))) /\
  invokes W (VObj "sscc.SSCC" [("epc_uri"%string, VStr (lit "urn:epc:id:sscc:0614141.1234567890")); ("_base64"%string, VNone); ("_binary"%string, VNone); ("_hex"%string, VNone); ("_tag_uri"%string, VNone); ("_company_pref"%string, VStr (lit "0614141")); ("_serial"%string, VStr (lit "1234567890")); ("_sscc"%string, VStr (lit "106141412345678908"))])
    "hex" [] [("binary_coding_scheme"%string, sscc_member SSCC_96); ("filter_value"%string, filter_member "sscc.SSCCFilterValue" "X" 5)] (Returned (VStr (lit "31B4257BF4499602D2000000"))) /\
  invokes W (VObj "sscc.SSCC" [("epc_uri"%string, VStr (lit "urn:epc:id:sscc:0614141.1234567890")); ("_base64"%string, VNone); ("_binary"%string, VNone); ("_hex"%string, VNone); ("_tag_uri"%string, VNone); ("_company_pref"%string, VStr (lit "0614141")); ("_serial"%string, VStr (lit "1234567890")); ("_sscc"%string, VStr (lit "106141412345678908"))])
    "base64" [] [("binary_coding_scheme"%string, sscc_member SSCC_96); ("filter_value"%string, filter_member "sscc.SSCCFilterValue" "X" 5)] (Returned (VStr (lit "MbQle/RJlgLSAAAA"))).
Proof. repeat split; exists (200 * 100)%nat; vm_compute; reflexivity. Qed.

(** SGLN *)
Theorem C60_sgln_encode :
  (forall x s c nm f args kws, args_sf (sgln_member s) (filter_member c nm f) args kws ->
     invokes W (sgln_obj x) "tag_uri" args kws (result VStr (sgln_tag_uri x s f))) /\
  (forall x s c nm f args kws, args_sf (sgln_member s) (filter_member c nm f) args kws ->
     invokes W (sgln_obj x) "binary" args kws (result VStr (sgln_binary x s f))) /\
  (forall x s c nm f args kws, args_sf (sgln_member s) (filter_member c nm f) [] kws -> (forall b, sgln_binary x s f = Ok b -> fits (length b)) ->
     invokes W (sgln_obj x) "hex" args kws (result VStr (binary_hex (sgln_binary x s f)))) /\
  (forall x s c nm f args kws, args_sf (sgln_member s) (filter_member c nm f) [] kws -> (forall b, sgln_binary x s f = Ok b -> fits (length b)) ->
     invokes W (sgln_obj x) "base64" args kws (result VStr (binary_base64 (sgln_binary x s f)))).
Proof. exact SrcSgln.sgln_encode. Qed.
Print Assumptions C60_sgln_encode.
Example C60_sgln_case :
  invokes W (VObj "sgln.SGLN" [("epc_uri"%string, VStr (lit "urn:epc:id:sgln:0614141.12345.400")); ("_base64"%string, VNone); ("_binary"%string, VNone); ("_hex"%string, VNone); ("_tag_uri"%string, VNone); ("_company_pref"%string, VStr (lit "0614141")); ("_location_ref"%string, VStr (lit "12345")); ("_serial"%string, VStr (lit "400")); ("_gln"%string, VStr (lit "0614141123452"))])
    "tag_uri" [sgln_member SGLN_195; filter_member "sgln.SGLNFilterValue" "X" 5] [] (Returned (VStr (lit "urn:epc:tag:sgln-195:5.0614141.12345.400"))) /\
  invokes W (VObj "sgln.SGLN" [("epc_uri"%string, VStr (lit "urn:epc:id:sgln:0614141.12345.400")); ("_base64"%string, VNone); ("_binary"%string, VNone); ("_hex"%string, VNone); ("_tag_uri"%string, VNone); ("_company_pref"%string, VStr (lit "0614141")); ("_location_ref"%string, VStr (lit "12345")); ("_serial"%string, VStr (lit "400")); ("_gln"%string, VStr (lit "0614141123452"))])
    "binary" [sgln_member SGLN_195; filter_member "sgln.SGLNFilterValue" "X" 5] [] (Returned (VStr (lit "001110011011010000100101011110111111010001100000011100101101000110000011000000000000000000000000000000000000000000000000000000000000000000000000000000000000000000000000000000000000000000000000000"))) /\
  invokes W (VObj "sgln.SGLN" [("epc_uri"%string, VStr (lit "urn:epc:id:sgln:0614141.12345.400")); ("_base64"%string, VNone); ("_binary"%string, VNone); ("_hex"%string, VNone); ("_tag_uri"%string, VNone); ("_company_pref"%string, VStr (lit "0614141")); ("_location_ref"%string, VStr (lit "12345")); ("_serial"%string, VStr (lit "400")); ("_gln"%string, VStr (lit "0614141123452"))])
    "hex" [] [("binary_coding_scheme"%string, sgln_member SGLN_195); ("filter_value"%string, filter_member "sgln.SGLNFilterValue" "X" 5)] (Returned (VStr (lit "39B4257BF46072D1830000000000000000000000000000000000"))) /\
  invokes W (VObj "sgln.SGLN" [("epc_uri"%string, VStr (lit "urn:epc:id:sgln:0614141.12345.400")); ("_base64"%string, VNone); ("_binary"%string, VNone); ("_hex"%string, VNone); ("_tag_uri"%string, VNone); ("_company_pref"%string, VStr (lit "0614141")); ("_location_ref"%string, VStr (lit "12345")); ("_serial"%string, VStr (lit "400")); ("_gln"%string, VStr (lit "0614141123452"))])
    "base64" [] [("binary_coding_scheme"%string, sgln_member SGLN_195); ("filter_value"%string, filter_member "sgln.SGLNFilterValue" "X" 5)] (Returned (VStr (lit "ObQle/RgctGDAAAAAAAAAAAAAAAAAAAAAAA="))).
Proof. repeat split; exists (200 * 100)%nat; vm_compute; reflexivity. Qed.

(** GRAI *)
Theorem C60_grai_encode :
  (forall x s c nm f args kws, args_sf (grai_member s) (filter_member c nm f) args kws ->
     invokes W (grai_obj x) "tag_uri" args kws (result VStr (grai_tag_uri x s f))) /\
  (forall x s c nm f args kws, args_sf (grai_member s) (filter_member c nm f) args kws ->
     invokes W (grai_obj x) "binary" args kws (result VStr (grai_binary x s f))) /\
  (forall x s c nm f args kws, args_sf (grai_member s) (filter_member c nm f) [] kws -> (forall b, grai_binary x s f = Ok b -> fits (length b)) ->
     invokes W (grai_obj x) "hex" args kws (result VStr (binary_hex (grai_binary x s f)))) /\
  (forall x s c nm f args kws, args_sf (grai_member s) (filter_member c nm f) [] kws -> (forall b, grai_binary x s f = Ok b -> fits (length b)) ->
     invokes W (grai_obj x) "base64" args kws (result VStr (binary_base64 (grai_binary x s f)))).
Proof. exact SrcGrai.grai_encode. Qed.
Print Assumptions C60_grai_encode.
Example C60_grai_case :
  invokes W (VObj "grai.GRAI" [("epc_uri"%string, VStr (lit "urn:epc:id:grai:0614141.12345.400")); ("_base64"%string, VNone); ("_binary"%string, VNone); ("_hex"%string, VNone); ("_tag_uri"%string, VNone); ("_serial"%string, VStr (lit "400")); ("_company_pref"%string, VStr (lit "0614141")); ("_asset_type"%string, VStr (lit "12345")); ("_grai"%string, VStr (lit "0614141123452400"))])
    "tag_uri" [grai_member GRAI_170; filter_member "grai.GRAIFilterValue" "X" 5] [] (Returned (VStr (lit "urn:epc:tag:grai-170:5.0614141.12345.400"))) /\
  invokes W (VObj "grai.GRAI" [("epc_uri"%string, VStr (lit "urn:epc:id:grai:0614141.12345.400")); ("_base64"%string, VNone); ("_binary"%string, VNone); ("_hex"%string, VNone); ("_tag_uri"%string, VNone); ("_serial"%string, VStr (lit "400")); ("_company_pref"%string, VStr (lit "0614141")); ("_asset_type"%string, VStr (lit "12345")); ("_grai"%string, VStr (lit "0614141123452400"))])
    "binary" [grai_member GRAI_170; filter_member "grai.GRAIFilterValue" "X" 5] [] (Returned (VStr (lit "00110111101101000010010101111011111101000000110000001110010110100011000001100000000000000000000000000000000000000000000000000000000000000000000000000000000000000000000000"))) /\
  invokes W (VObj "grai.GRAI" [("epc_uri"%string, VStr (lit "urn:epc:id:grai:0614141.12345.400")); ("_base64"%string, VNone); ("_binary"%string, VNone); ("_hex"%string, VNone); ("_tag_uri"%string, VNone); ("_serial"%string, VStr (lit "400")); ("_company_pref"%string, VStr (lit "0614141")); ("_asset_type"%string, VStr (lit "12345")); ("_grai"%string, VStr (lit "0614141123452400"))])
    "hex" [] [("binary_coding_scheme"%string, grai_member GRAI_170); ("filter_value"%string, filter_member "grai.GRAIFilterValue" "X" 5)] (Returned (VStr (lit "37B4257BF40C0E5A3060000000000000000000000000"))) /\
  invokes W (VObj "grai.GRAI" [("epc_uri"%string, VStr (lit "urn:epc:id:grai:0614141.12345.400")); ("_base64"%string, VNone); ("_binary"%string, VNone); ("_hex"%string, VNone); ("_tag_uri"%string, VNone); ("_serial"%string, VStr (lit "400")); ("_company_pref"%string, VStr (lit "0614141")); ("_asset_type"%string, VStr (lit "12345")); ("_grai"%string, VStr (lit "0614141123452400"))])
    "base64" [] [("binary_coding_scheme"%string, grai_member GRAI_170); ("filter_value"%string, filter_member "grai.GRAIFilterValue" "X" 5)] (Returned (VStr (lit "N7Qle/QMDlowYAAAAAAAAAAAAAAAAA=="))).
Proof. repeat split; exists (200 * 100)%nat; vm_compute; reflexivity. Qed.

(** GIAI *)
Theorem C60_giai_encode :
  (forall x s c nm f args kws, args_sf (giai_member s) (filter_member c nm f) args kws ->
     invokes W (giai_obj x) "tag_uri" args kws (result VStr (giai_tag_uri x s f))) /\
  (forall x s c nm f args kws, args_sf (giai_member s) (filter_member c nm f) args kws ->
     invokes W (giai_obj x) "binary" args kws (result VStr (giai_binary x s f))) /\
  (forall x s c nm f args kws, args_sf (giai_member s) (filter_member c nm f) [] kws -> (forall b, giai_binary x s f = Ok b -> fits (length b)) ->
     invokes W (giai_obj x) "hex" args kws (result VStr (binary_hex (giai_binary x s f)))) /\
  (forall x s c nm f args kws, args_sf (giai_member s) (filter_member c nm f) [] kws -> (forall b, giai_binary x s f = Ok b -> fits (length b)) ->
     invokes W (giai_obj x) "base64" args kws (result VStr (binary_base64 (giai_binary x s f)))).
Proof. exact SrcGiai.giai_encode. Qed.
Print Assumptions C60_giai_encode.
Example C60_giai_case :
  invokes W (VObj "giai.GIAI" [("epc_uri"%string, VStr (lit "urn:epc:id:giai:0614141.32a%2Fb")); ("_base64"%string, VNone); ("_binary"%string, VNone); ("_hex"%string, VNone); ("_tag_uri"%string, VNone); ("_company_pref"%string, VStr (lit "0614141")); ("_asset_ref"%string, VStr (lit "32a%2Fb")); ("_giai"%string, VStr (lit "061414132a/b"))])
    "tag_uri" [giai_member GIAI_202; filter_member "giai.GIAIFilterValue" "X" 5] [] (Returned (VStr (lit "urn:epc:tag:giai-202:5.0614141.32a%2Fb"))) /\
  invokes W (VObj "giai.GIAI" [("epc_uri"%string, VStr (lit "urn:epc:id:giai:0614141.32a%2Fb")); ("_base64"%string, VNone); ("_binary"%string, VNone); ("_hex"%string, VNone); ("_tag_uri"%string, VNone); ("_company_pref"%string, VStr (lit "0614141")); ("_asset_ref"%string, VStr (lit "32a%2Fb")); ("_giai"%string, VStr (lit "061414132a/b"))])
    "binary" [giai_member GIAI_202; filter_member "giai.GIAIFilterValue" "X" 5] [] (Returned (VStr (lit "0011100010110100001001010111101111110101100110110010110000101011111100010000000000000000000000000000000000000000000000000000000000000000000000000000000000000000000000000000000000000000000000000000000000"))) /\
  invokes W (VObj "giai.GIAI" [("epc_uri"%string, VStr (lit "urn:epc:id:giai:0614141.32a%2Fb")); ("_base64"%string, VNone); ("_binary"%string, VNone); ("_hex"%string, VNone); ("_tag_uri"%string, VNone); ("_company_pref"%string, VStr (lit "0614141")); ("_asset_ref"%string, VStr (lit "32a%2Fb")); ("_giai"%string, VStr (lit "061414132a/b"))])
    "hex" [] [("binary_coding_scheme"%string, giai_member GIAI_202); ("filter_value"%string, filter_member "giai.GIAIFilterValue" "X" 5)] (Returned (VStr (lit "38B4257BF59B2C2BF10000000000000000000000000000000000"))) /\
  invokes W (VObj "giai.GIAI" [("epc_uri"%string, VStr (lit "urn:epc:id:giai:0614141.32a%2Fb")); ("_base64"%string, VNone); ("_binary"%string, VNone); ("_hex"%string, VNone); ("_tag_uri"%string, VNone); ("_company_pref"%string, VStr (lit "0614141")); ("_asset_ref"%string, VStr (lit "32a%2Fb")); ("_giai"%string, VStr (lit "061414132a/b"))])
    "base64" [] [("binary_coding_scheme"%string, giai_member GIAI_202); ("filter_value"%string, filter_member "giai.GIAIFilterValue" "X" 5)] (Returned (VStr (lit "OLQle/WbLCvxAAAAAAAAAAAAAAAAAAAAAAA="))).
Proof. repeat split; exists (200 * 100)%nat; vm_compute; reflexivity. Qed.

(** GSRN *)
Theorem C60_gsrn_encode :
  (forall x s c nm f args kws, args_sf_default (gsrn_member s) (filter_member c nm f) (s = GSRN_96) (f = 0%N) args kws ->
     invokes W (gsrn_obj x) "tag_uri" args kws (result VStr (gsrn_tag_uri x s f))) /\
  (forall x s c nm f args kws, args_sf_default (gsrn_member s) (filter_member c nm f) (s = GSRN_96) (f = 0%N) args kws ->
     invokes W (gsrn_obj x) "binary" args kws (result VStr (gsrn_binary x s f))) /\
  (forall x s c nm f args kws, args_sf_default (gsrn_member s) (filter_member c nm f) (s = GSRN_96) (f = 0%N) [] kws -> (forall b, gsrn_binary x s f = Ok b -> fits (length b)) ->
     invokes W (gsrn_obj x) "hex" args kws (result VStr (binary_hex (gsrn_binary x s f)))) /\
  (forall x s c nm f args kws, args_sf_default (gsrn_member s) (filter_member c nm f) (s = GSRN_96) (f = 0%N) [] kws -> (forall b, gsrn_binary x s f = Ok b -> fits (length b)) ->
     invokes W (gsrn_obj x) "base64" args kws (result VStr (binary_base64 (gsrn_binary x s f)))).
Proof. exact SrcGsrn.gsrn_encode. Qed.
Print Assumptions C60_gsrn_encode.
Example C60_gsrn_case :
  invokes W (VObj "gsrn.GSRN" [("epc_uri"%string, VStr (lit "urn:epc:id:gsrn:0614141.1234567890")); ("_base64"%string, VNone); ("_binary"%string, VNone); ("_hex"%string, VNone); ("_tag_uri"%string, VNone); ("_company_pref"%string, VStr (lit "0614141")); ("_service_ref"%string, VStr (lit "1234567890")); ("_gsrn"%string, VStr (lit "061414112345678902"))])
    "tag_uri" [gsrn_member GSRN_96; filter_member "gsrn.GSRNFilterValue" "X" 5] [] (Returned (VStr (lit "urn:epc:tag:gsrn-96:5.0614141.1234567890"))) /\
  invokes W (VObj "gsrn.GSRN" [("epc_uri"%string, VStr (lit "urn:epc:id:gsrn:0614141.1234567890")); ("_base64"%string, VNone); ("_binary"%string, VNone); ("_hex"%string, VNone); ("_tag_uri"%string, VNone); ("_company_pref"%string, VStr (lit "0614141")); ("_service_ref"%string, VStr (lit "1234567890")); ("_gsrn"%string, VStr (lit "061414112345678902"))])
    "binary" [gsrn_member GSRN_96; filter_member "gsrn.GSRNFilterValue" "X" 5] [] (Returned (VStr (lit "001011011011010000100101011110111111010001001001100101100000001011010010000000000000000000000000"))) /\
  invokes W (VObj "gsrn.GSRN" [("epc_uri"%string, VStr (lit "urn:epc:id:gsrn:0614141.1234567890")); ("_base64"%string, VNone); ("_binary"%string, VNone); ("_hex"%string, VNone); ("_tag_uri"%string, VNone); ("_company_pref"%string, VStr (lit "0614141")); ("_service_ref"%string, VStr (lit "1234567890")); ("_gsrn"%string, VStr (lit "061414112345678902"))])
    "hex" [] [("binary_coding_scheme"%string, gsrn_member GSRN_96); ("filter_value"%string, filter_member "gsrn.GSRNFilterValue" "X" 5)] (Returned (VStr (lit "2DB4257BF4499602D2000000"))) /\
  invokes W (VObj "gsrn.GSRN" [("epc_uri"%string, VStr (lit "urn:epc:id:gsrn:0614141.1234567890")); ("_base64"%string, VNone); ("_binary"%string, VNone); ("_hex"%string, VNone); ("_tag_uri"%string, VNone); ("_company_pref"%string, VStr (lit "0614141")); ("_service_ref"%string, VStr (lit "1234567890")); ("_gsrn"%string, VStr (lit "061414112345678902"))])
    "base64" [] [("binary_coding_scheme"%string, gsrn_member GSRN_96); ("filter_value"%string, filter_member "gsrn.GSRNFilterValue" "X" 5)] (Returned (VStr (lit "LbQle/RJlgLSAAAA"))).
Proof. repeat split; exists (200 * 100)%nat; vm_compute; reflexivity. Qed.

(** GSRNP *)
Theorem C60_gsrnp_encode :
  (forall x s c nm f args kws, args_sf_default (gsrnp_member s) (filter_member c nm f) (s = GSRNP_96) (f = 0%N) args kws ->
     invokes W (gsrnp_obj x) "tag_uri" args kws (result VStr (gsrnp_tag_uri x s f))) /\
  (forall x s c nm f args kws, args_sf_default (gsrnp_member s) (filter_member c nm f) (s = GSRNP_96) (f = 0%N) args kws ->
     invokes W (gsrnp_obj x) "binary" args kws (result VStr (gsrnp_binary x s f))) /\
  (forall x s c nm f args kws, args_sf_default (gsrnp_member s) (filter_member c nm f) (s = GSRNP_96) (f = 0%N) [] kws -> (forall b, gsrnp_binary x s f = Ok b -> fits (length b)) ->
     invokes W (gsrnp_obj x) "hex" args kws (result VStr (binary_hex (gsrnp_binary x s f)))) /\
  (forall x s c nm f args kws, args_sf_default (gsrnp_member s) (filter_member c nm f) (s = GSRNP_96) (f = 0%N) [] kws -> (forall b, gsrnp_binary x s f = Ok b -> fits (length b)) ->
     invokes W (gsrnp_obj x) "base64" args kws (result VStr (binary_base64 (gsrnp_binary x s f)))).
Proof. exact SrcGsrnp.gsrnp_encode. Qed.
Print Assumptions C60_gsrnp_encode.
Example C60_gsrnp_case :
  invokes W (VObj "gsrnp.GSRNP" [("epc_uri"%string, VStr (lit "urn:epc:id:gsrnp:0614141.1234567890")); ("_base64"%string, VNone); ("_binary"%string, VNone); ("_hex"%string, VNone); ("_tag_uri"%string, VNone); ("_company_pref"%string, VStr (lit "0614141")); ("_service_ref"%string, VStr (lit "1234567890")); ("_gsrnp"%string, VStr (lit "061414112345678902"))])
    "tag_uri" [gsrnp_member GSRNP_96; filter_member "gsrnp.GSRNPFilterValue" "X" 5] [] (Returned (VStr (lit "urn:epc:tag:gsrnp-96:5.0614141.1234567890"))) /\
  invokes W (VObj "gsrnp.GSRNP" [("epc_uri"%string, VStr (lit "urn:epc:id:gsrnp:0614141.1234567890")); ("_base64"%string, VNone); ("_binary"%string, VNone); ("_hex"%string, VNone); ("_tag_uri"%string, VNone); ("_company_pref"%string, VStr (lit "0614141")); ("_service_ref"%string, VStr (lit "1234567890")); ("_gsrnp"%string, VStr (lit "061414112345678902"))])
    "binary" [gsrnp_member GSRNP_96; filter_member "gsrnp.GSRNPFilterValue" "X" 5] [] (Returned (VStr (lit "001011101011010000100101011110111111010001001001100101100000001011010010000000000000000000000000"))) /\
  invokes W (VObj "gsrnp.GSRNP" [("epc_uri"%string, VStr (lit "urn:epc:id:gsrnp:0614141.1234567890")); ("_base64"%string, VNone); ("_binary"%string, VNone); ("_hex"%string, VNone); ("_tag_uri"%string, VNone); ("_company_pref"%string, VStr (lit "0614141")); ("_service_ref"%string, VStr (lit "1234567890")); ("_gsrnp"%string, VStr (lit "061414112345678902"))])
    "hex" [] [("binary_coding_scheme"%string, gsrnp_member GSRNP_96); ("filter_value"%string, filter_member "gsrnp.GSRNPFilterValue" "X" 5)] (Returned (VStr (lit "2EB4257BF4499602D2000000"))) /\
  invokes W (VObj "gsrnp.GSRNP" [("epc_uri"%string, VStr (lit "urn:epc:id:gsrnp:0614141.1234567890")); ("_base64"%string, VNone); ("_binary"%string, VNone); ("_hex"%string, VNone); ("_tag_uri"%string, VNone); ("_company_pref"%string, VStr (lit "0614141")); ("_service_ref"%string, VStr (lit "1234567890")); ("_gsrnp"%string, VStr (lit "061414112345678902"))])
    "base64" [] [("binary_coding_scheme"%string, gsrnp_member GSRNP_96); ("filter_value"%string, filter_member "gsrnp.GSRNPFilterValue" "X" 5)] (Returned (VStr (lit "LrQle/RJlgLSAAAA"))).
Proof. repeat split; exists (200 * 100)%nat; vm_compute; reflexivity. Qed.

(** GDTI *)
Theorem C60_gdti_encode :
  (forall x s c nm f args kws, args_sf (gdti_member s) (filter_member c nm f) args kws ->
     invokes W (gdti_obj x) "tag_uri" args kws (result VStr (gdti_tag_uri x s f))) /\
  (forall x s c nm f args kws, args_sf (gdti_member s) (filter_member c nm f) args kws ->
     invokes W (gdti_obj x) "binary" args kws (result VStr (gdti_binary x s f))) /\
  (forall x s c nm f args kws, args_sf (gdti_member s) (filter_member c nm f) [] kws -> (forall b, gdti_binary x s f = Ok b -> fits (length b)) ->
     invokes W (gdti_obj x) "hex" args kws (result VStr (binary_hex (gdti_binary x s f)))) /\
  (forall x s c nm f args kws, args_sf (gdti_member s) (filter_member c nm f) [] kws -> (forall b, gdti_binary x s f = Ok b -> fits (length b)) ->
     invokes W (gdti_obj x) "base64" args kws (result VStr (binary_base64 (gdti_binary x s f)))).
Proof. exact SrcGdti.gdti_encode. Qed.
Print Assumptions C60_gdti_encode.
Example C60_gdti_case :
  invokes W (VObj "gdti.GDTI" [("epc_uri"%string, VStr (lit "urn:epc:id:gdti:0614141.12345.ABCDefgh012345678")); ("_base64"%string, VNone); ("_binary"%string, VNone); ("_hex"%string, VNone); ("_tag_uri"%string, VNone); ("_serial"%string, VStr (lit "ABCDefgh012345678")); ("_company_pref"%string, VStr (lit "0614141")); ("_doc_type"%string, VStr (lit "12345")); ("_gdti"%string, VStr (lit "0614141123452ABCDefgh012345678"))])
    "tag_uri" [gdti_member GDTI_174; filter_member "gdti.GDTIFilterValue" "X" 5] [] (Returned (VStr (lit "urn:epc:tag:gdti-174:5.0614141.12345.ABCDefgh012345678"))) /\
  invokes W (VObj "gdti.GDTI" [("epc_uri"%string, VStr (lit "urn:epc:id:gdti:0614141.12345.ABCDefgh012345678")); ("_base64"%string, VNone); ("_binary"%string, VNone); ("_hex"%string, VNone); ("_tag_uri"%string, VNone); ("_serial"%string, VStr (lit "ABCDefgh012345678")); ("_company_pref"%string, VStr (lit "0614141")); ("_doc_type"%string, VStr (lit "12345")); ("_gdti"%string, VStr (lit "0614141123452ABCDefgh012345678"))])
    "binary" [gdti_member GDTI_174; filter_member "gdti.GDTIFilterValue" "X" 5] [] (Returned (VStr (lit "001111101011010000100101011110111111010001100000011100110000011000010100001110001001100101110011011001111101000011000001100010110010011001101101000110101011011001101110111000"))) /\
  invokes W (VObj "gdti.GDTI" [("epc_uri"%string, VStr (lit "urn:epc:id:gdti:0614141.12345.ABCDefgh012345678")); ("_base64"%string, VNone); ("_binary"%string, VNone); ("_hex"%string, VNone); ("_tag_uri"%string, VNone); ("_serial"%string, VStr (lit "ABCDefgh012345678")); ("_company_pref"%string, VStr (lit "0614141")); ("_doc_type"%string, VStr (lit "12345")); ("_gdti"%string, VStr (lit "0614141123452ABCDefgh012345678"))])
    "hex" [] [("binary_coding_scheme"%string, gdti_member GDTI_174); ("filter_value"%string, filter_member "gdti.GDTIFilterValue" "X" 5)] (Returned (VStr (lit "3EB4257BF46073061438997367D0C18B266D1AB66EE0"))) /\
  invokes W (VObj "gdti.GDTI" [("epc_uri"%string, VStr (lit "urn:epc:id:gdti:0614141.12345.ABCDefgh012345678")); ("_base64"%string, VNone); ("_binary"%string, VNone); ("_hex"%string, VNone); ("_tag_uri"%string, VNone); ("_serial"%string, VStr (lit "ABCDefgh012345678")); ("_company_pref"%string, VStr (lit "0614141")); ("_doc_type"%string, VStr (lit "12345")); ("_gdti"%string, VStr (lit "0614141123452ABCDefgh012345678"))])
    "base64" [] [("binary_coding_scheme"%string, gdti_member GDTI_174); ("filter_value"%string, filter_member "gdti.GDTIFilterValue" "X" 5)] (Returned (VStr (lit "PrQle/RgcwYUOJlzZ9DBiyZtGrZu4A=="))).
Proof. repeat split; exists (200 * 100)%nat; vm_compute; reflexivity. Qed.

(** SGCN *)
Theorem C60_sgcn_encode :
  (forall x s c nm f args kws, args_fs_default (sgcn_member s) (filter_member c nm f) (s = SGCN_96) args kws ->
     invokes W (sgcn_obj x) "tag_uri" args kws (result VStr (sgcn_tag_uri x s f))) /\
  (forall x s c nm f args kws, args_fs_default (sgcn_member s) (filter_member c nm f) (s = SGCN_96) args kws ->
     invokes W (sgcn_obj x) "binary" args kws (result VStr (sgcn_binary x s f))) /\
  (forall x s c nm f args kws, args_fs_default (sgcn_member s) (filter_member c nm f) (s = SGCN_96) [] kws -> (forall b, sgcn_binary x s f = Ok b -> fits (length b)) ->
     invokes W (sgcn_obj x) "hex" args kws (result VStr (binary_hex (sgcn_binary x s f)))) /\
  (forall x s c nm f args kws, args_fs_default (sgcn_member s) (filter_member c nm f) (s = SGCN_96) [] kws -> (forall b, sgcn_binary x s f = Ok b -> fits (length b)) ->
     invokes W (sgcn_obj x) "base64" args kws (result VStr (binary_base64 (sgcn_binary x s f)))).
Proof. exact SrcSgcn.sgcn_encode. Qed.
Print Assumptions C60_sgcn_encode.
Example C60_sgcn_case :
  invokes W (VObj "sgcn.SGCN" [("epc_uri"%string, VStr (lit "urn:epc:id:sgcn:4012345.67890.04711")); ("_base64"%string, VNone); ("_binary"%string, VNone); ("_hex"%string, VNone); ("_tag_uri"%string, VNone); ("_company_pref"%string, VStr (lit "4012345")); ("_coupon_ref"%string, VStr (lit "67890")); ("_serial"%string, VStr (lit "04711")); ("_gcn"%string, VStr (lit "401234567890104711"))])
    "tag_uri" [filter_member "sgcn.SGCNFilterValue" "X" 5; sgcn_member SGCN_96] [] (Returned (VStr (lit "urn:epc:tag:sgcn-96:5.4012345.67890.04711"))) /\
  invokes W (VObj "sgcn.SGCN" [("epc_uri"%string, VStr (lit "urn:epc:id:sgcn:4012345.67890.04711")); ("_base64"%string, VNone); ("_binary"%string, VNone); ("_hex"%string, VNone); ("_tag_uri"%string, VNone); ("_company_pref"%string, VStr (lit "4012345")); ("_coupon_ref"%string, VStr (lit "67890")); ("_serial"%string, VStr (lit "04711")); ("_gcn"%string, VStr (lit "401234567890104711"))])
    "binary" [filter_member "sgcn.SGCNFilterValue" "X" 5; sgcn_member SGCN_96] [] (Returned (VStr (lit "001111111011010011110100111001001110011000010010011001000000000000000000000000011001100100000111"))) /\
  invokes W (VObj "sgcn.SGCN" [("epc_uri"%string, VStr (lit "urn:epc:id:sgcn:4012345.67890.04711")); ("_base64"%string, VNone); ("_binary"%string, VNone); ("_hex"%string, VNone); ("_tag_uri"%string, VNone); ("_company_pref"%string, VStr (lit "4012345")); ("_coupon_ref"%string, VStr (lit "67890")); ("_serial"%string, VStr (lit "04711")); ("_gcn"%string, VStr (lit "401234567890104711"))])
    "hex" [] [("binary_coding_scheme"%string, sgcn_member SGCN_96); ("filter_value"%string, filter_member "sgcn.SGCNFilterValue" "X" 5)] (Returned (VStr (lit "3FB4F4E4E612640000019907"))) /\
  invokes W (VObj "sgcn.SGCN" [("epc_uri"%string, VStr (lit "urn:epc:id:sgcn:4012345.67890.04711")); ("_base64"%string, VNone); ("_binary"%string, VNone); ("_hex"%string, VNone); ("_tag_uri"%string, VNone); ("_company_pref"%string, VStr (lit "4012345")); ("_coupon_ref"%string, VStr (lit "67890")); ("_serial"%string, VStr (lit "04711")); ("_gcn"%string, VStr (lit "401234567890104711"))])
    "base64" [] [("binary_coding_scheme"%string, sgcn_member SGCN_96); ("filter_value"%string, filter_member "sgcn.SGCNFilterValue" "X" 5)] (Returned (VStr (lit "P7T05OYSZAAAAZkH"))).
Proof. repeat split; exists (200 * 100)%nat; vm_compute; reflexivity. Qed.

(** ITIP *)
Theorem C60_itip_encode :
  (forall x s c nm f args kws, args_sf (itip_member s) (filter_member c nm f) args kws ->
     invokes W (itip_obj x) "tag_uri" args kws (result VStr (itip_tag_uri x s f))) /\
  (forall x s c nm f args kws, args_fs (itip_member s) (filter_member c nm f) args kws ->
     invokes W (itip_obj x) "binary" args kws (result VStr (itip_binary x s f))) /\
  (forall x s c nm f args kws, args_fs (itip_member s) (filter_member c nm f) [] kws -> (forall b, itip_binary x s f = Ok b -> fits (length b)) ->
     invokes W (itip_obj x) "hex" args kws (result VStr (binary_hex (itip_binary x s f)))) /\
  (forall x s c nm f args kws, args_fs (itip_member s) (filter_member c nm f) [] kws -> (forall b, itip_binary x s f = Ok b -> fits (length b)) ->
     invokes W (itip_obj x) "base64" args kws (result VStr (binary_base64 (itip_binary x s f)))).
Proof. exact SrcItip.itip_encode. Qed.
Print Assumptions C60_itip_encode.
Example C60_itip_case :
  invokes W (VObj "itip.ITIP" [("epc_uri"%string, VStr (lit "urn:epc:id:itip:4012345.012345.01.02.987")); ("_base64"%string, VNone); ("_binary"%string, VNone); ("_hex"%string, VNone); ("_tag_uri"%string, VNone); ("_company_pref"%string, VStr (lit "4012345")); ("_item_ref"%string, VStr (lit "012345")); ("_piece"%string, VStr (lit "01")); ("_total"%string, VStr (lit "02")); ("_serial"%string, VStr (lit "987"))])
    "tag_uri" [itip_member ITIP_110; filter_member "itip.ITIPFilterValue" "X" 5] [] (Returned (VStr (lit "urn:epc:tag:itip-110:5.4012345.012345.01.02.987"))) /\
  invokes W (VObj "itip.ITIP" [("epc_uri"%string, VStr (lit "urn:epc:id:itip:4012345.012345.01.02.987")); ("_base64"%string, VNone); ("_binary"%string, VNone); ("_hex"%string, VNone); ("_tag_uri"%string, VNone); ("_company_pref"%string, VStr (lit "4012345")); ("_item_ref"%string, VStr (lit "012345")); ("_piece"%string, VStr (lit "01")); ("_total"%string, VStr (lit "02")); ("_serial"%string, VStr (lit "987"))])
    "binary" [filter_member "itip.ITIPFilterValue" "X" 5; itip_member ITIP_110] [] (Returned (VStr (lit "01000000101101001111010011100100111001000000110000001110010000001000001000000000000000000000000000001111011011"))) /\
  invokes W (VObj "itip.ITIP" [("epc_uri"%string, VStr (lit "urn:epc:id:itip:4012345.012345.01.02.987")); ("_base64"%string, VNone); ("_binary"%string, VNone); ("_hex"%string, VNone); ("_tag_uri"%string, VNone); ("_company_pref"%string, VStr (lit "4012345")); ("_item_ref"%string, VStr (lit "012345")); ("_piece"%string, VStr (lit "01")); ("_total"%string, VStr (lit "02")); ("_serial"%string, VStr (lit "987"))])
    "hex" [] [("binary_coding_scheme"%string, itip_member ITIP_110); ("filter_value"%string, filter_member "itip.ITIPFilterValue" "X" 5)] (Returned (VStr (lit "40B4F4E4E40C0E40820000000F6C"))) /\
  invokes W (VObj "itip.ITIP" [("epc_uri"%string, VStr (lit "urn:epc:id:itip:4012345.012345.01.02.987")); ("_base64"%string, VNone); ("_binary"%string, VNone); ("_hex"%string, VNone); ("_tag_uri"%string, VNone); ("_company_pref"%string, VStr (lit "4012345")); ("_item_ref"%string, VStr (lit "012345")); ("_piece"%string, VStr (lit "01")); ("_total"%string, VStr (lit "02")); ("_serial"%string, VStr (lit "987"))])
    "base64" [] [("binary_coding_scheme"%string, itip_member ITIP_110); ("filter_value"%string, filter_member "itip.ITIPFilterValue" "X" 5)] (Returned (VStr (lit "QLT05OQMDkCCAAAAD2w="))).
Proof. repeat split; exists (200 * 100)%nat; vm_compute; reflexivity. Qed.

(** GID *)
Theorem C60_gid_encode :
  (forall x s args kws, args_s_default (gid_member s) (s = GID_96) args kws ->
     invokes W (gid_obj x) "tag_uri" args kws (result VStr (gid_tag_uri x s))) /\
  (forall x s args kws, args_s_default (gid_member s) (s = GID_96) args kws ->
     invokes W (gid_obj x) "binary" args kws (result VStr (gid_binary x s))) /\
  (forall x s args kws, args_s_default (gid_member s) (s = GID_96) [] kws -> (forall b, gid_binary x s = Ok b -> fits (length b)) ->
     invokes W (gid_obj x) "hex" args kws (result VStr (binary_hex (gid_binary x s)))) /\
  (forall x s args kws, args_s_default (gid_member s) (s = GID_96) [] kws -> (forall b, gid_binary x s = Ok b -> fits (length b)) ->
     invokes W (gid_obj x) "base64" args kws (result VStr (binary_base64 (gid_binary x s)))).
Proof. exact SrcGid.gid_encode. Qed.
Print Assumptions C60_gid_encode.
Example C60_gid_case :
  invokes W (VObj "gid.GID" [("epc_uri"%string, VStr (lit "urn:epc:id:gid:95100000.12345.400")); ("_base64"%string, VNone); ("_binary"%string, VNone); ("_hex"%string, VNone); ("_tag_uri"%string, VNone); ("_manager"%string, VStr (lit "95100000")); ("_object"%string, VStr (lit "12345")); ("_serial"%string, VStr (lit "400"))])
    "tag_uri" [gid_member GID_96] [] (Returned (VStr (lit "urn:epc:tag:gid-96:95100000.12345.400"))) /\
  invokes W (VObj "gid.GID" [("epc_uri"%string, VStr (lit "urn:epc:id:gid:95100000.12345.400")); ("_base64"%string, VNone); ("_binary"%string, VNone); ("_hex"%string, VNone); ("_tag_uri"%string, VNone); ("_manager"%string, VStr (lit "95100000")); ("_object"%string, VStr (lit "12345")); ("_serial"%string, VStr (lit "400"))])
    "binary" [gid_member GID_96] [] (Returned (VStr (lit "001101010101101010110001110001100000000000000011000000111001000000000000000000000000000110010000"))) /\
  invokes W (VObj "gid.GID" [("epc_uri"%string, VStr (lit "urn:epc:id:gid:95100000.12345.400")); ("_base64"%string, VNone); ("_binary"%string, VNone); ("_hex"%string, VNone); ("_tag_uri"%string, VNone); ("_manager"%string, VStr (lit "95100000")); ("_object"%string, VStr (lit "12345")); ("_serial"%string, VStr (lit "400"))])
    "hex" [] [("binary_coding_scheme"%string, gid_member GID_96)] (Returned (VStr (lit "355AB1C60003039000000190"))) /\
  invokes W (VObj "gid.GID" [("epc_uri"%string, VStr (lit "urn:epc:id:gid:95100000.12345.400")); ("_base64"%string, VNone); ("_binary"%string, VNone); ("_hex"%string, VNone); ("_tag_uri"%string, VNone); ("_manager"%string, VStr (lit "95100000")); ("_object"%string, VStr (lit "12345")); ("_serial"%string, VStr (lit "400"))])
    "base64" [] [("binary_coding_scheme"%string, gid_member GID_96)] (Returned (VStr (lit "NVqxxgADA5AAAAGQ"))).
Proof. repeat split; exists (200 * 100)%nat; vm_compute; reflexivity. Qed.

(** CPI *)
Theorem C60_cpi_encode :
  (forall x s c nm f args kws, args_sf (cpi_member s) (filter_member c nm f) args kws ->
     invokes W (cpi_obj x) "tag_uri" args kws (result VStr (cpi_tag_uri x s f))) /\
  (forall x s c nm f args kws, args_sf (cpi_member s) (filter_member c nm f) args kws ->
     invokes W (cpi_obj x) "binary" args kws (result VStr (cpi_binary x s f))) /\
  (forall x s c nm f args kws, args_sf (cpi_member s) (filter_member c nm f) [] kws -> (forall b, cpi_binary x s f = Ok b -> fits (length b)) ->
     invokes W (cpi_obj x) "hex" args kws (result VStr (binary_hex (cpi_binary x s f)))) /\
  (forall x s c nm f args kws, args_sf (cpi_member s) (filter_member c nm f) [] kws -> (forall b, cpi_binary x s f = Ok b -> fits (length b)) ->
     invokes W (cpi_obj x) "base64" args kws (result VStr (binary_base64 (cpi_binary x s f)))).
Proof. exact SrcCpi.cpi_encode. Qed.
Print Assumptions C60_cpi_encode.
Example C60_cpi_case :
  invokes W (VObj "cpi.CPI" [("epc_uri"%string, VStr (lit "urn:epc:id:cpi:0614141.123%2FABC.123456789")); ("_base64"%string, VNone); ("_binary"%string, VNone); ("_hex"%string, VNone); ("_tag_uri"%string, VNone); ("_company_pref"%string, VStr (lit "0614141")); ("_cp_ref"%string, VStr (lit "123%2FABC")); ("_serial"%string, VStr (lit "123456789"))])
    "tag_uri" [cpi_member CPI_VAR; filter_member "cpi.CPIFilterValue" "X" 5] [] (Returned (VStr (lit "urn:epc:tag:cpi-var:5.0614141.123%2FABC.123456789"))) /\
  invokes W (VObj "cpi.CPI" [("epc_uri"%string, VStr (lit "urn:epc:id:cpi:0614141.123%2FABC.123456789")); ("_base64"%string, VNone); ("_binary"%string, VNone); ("_hex"%string, VNone); ("_tag_uri"%string, VNone); ("_company_pref"%string, VStr (lit "0614141")); ("_cp_ref"%string, VStr (lit "123%2FABC")); ("_serial"%string, VStr (lit "123456789"))])
    "binary" [cpi_member CPI_VAR; filter_member "cpi.CPIFilterValue" "X" 5] [] (Returned (VStr (lit "001111011011010000100101011110111111011100011100101100111011110000010000100000110000000000000000000111010110111100110100010101"))) /\
  invokes W (VObj "cpi.CPI" [("epc_uri"%string, VStr (lit "urn:epc:id:cpi:0614141.123%2FABC.123456789")); ("_base64"%string, VNone); ("_binary"%string, VNone); ("_hex"%string, VNone); ("_tag_uri"%string, VNone); ("_company_pref"%string, VStr (lit "0614141")); ("_cp_ref"%string, VStr (lit "123%2FABC")); ("_serial"%string, VStr (lit "123456789"))])
    "hex" [] [("binary_coding_scheme"%string, cpi_member CPI_VAR); ("filter_value"%string, filter_member "cpi.CPIFilterValue" "X" 5)] (Returned (VStr (lit "3DB4257BF71CB3BC108300001D6F3454"))) /\
  invokes W (VObj "cpi.CPI" [("epc_uri"%string, VStr (lit "urn:epc:id:cpi:0614141.123%2FABC.123456789")); ("_base64"%string, VNone); ("_binary"%string, VNone); ("_hex"%string, VNone); ("_tag_uri"%string, VNone); ("_company_pref"%string, VStr (lit "0614141")); ("_cp_ref"%string, VStr (lit "123%2FABC")); ("_serial"%string, VStr (lit "123456789"))])
    "base64" [] [("binary_coding_scheme"%string, cpi_member CPI_VAR); ("filter_value"%string, filter_member "cpi.CPIFilterValue" "X" 5)] (Returned (VStr (lit "PbQle/ccs7wQgwAAHW80VA=="))).
Proof. repeat split; exists (200 * 100)%nat; vm_compute; reflexivity. Qed.

(** USDOD *)
Theorem C60_usdod_encode :
  (forall x s c nm f args kws, args_fs_default (usdod_member s) (filter_member c nm f) (s = USDOD_96) args kws ->
     invokes W (usdod_obj x) "tag_uri" args kws (result VStr (usdod_tag_uri x s f))) /\
  (forall x s c nm f args kws, args_fs_default (usdod_member s) (filter_member c nm f) (s = USDOD_96) args kws ->
     invokes W (usdod_obj x) "binary" args kws (result VStr (usdod_binary x s f))) /\
  (forall x s c nm f args kws, args_fs_default (usdod_member s) (filter_member c nm f) (s = USDOD_96) [] kws -> (forall b, usdod_binary x s f = Ok b -> fits (length b)) ->
     invokes W (usdod_obj x) "hex" args kws (result VStr (binary_hex (usdod_binary x s f)))) /\
  (forall x s c nm f args kws, args_fs_default (usdod_member s) (filter_member c nm f) (s = USDOD_96) [] kws -> (forall b, usdod_binary x s f = Ok b -> fits (length b)) ->
     invokes W (usdod_obj x) "base64" args kws (result VStr (binary_base64 (usdod_binary x s f)))).
Proof. exact SrcUsdod.usdod_encode. Qed.
Print Assumptions C60_usdod_encode.
Example C60_usdod_case :
  invokes W (VObj "usdod.USDOD" [("epc_uri"%string, VStr (lit "urn:epc:id:usdod:2S194.12345678901")); ("_base64"%string, VNone); ("_binary"%string, VNone); ("_hex"%string, VNone); ("_tag_uri"%string, VNone); ("_cage_dodaac"%string, VStr (lit "2S194")); ("_serial"%string, VStr (lit "12345678901"))])
    "tag_uri" [filter_member "usdod.USDODFilterValue" "X" 5; usdod_member USDOD_96] [] (Returned (VStr (lit "urn:epc:tag:usdod-96:5.2S194.12345678901"))) /\
  invokes W (VObj "usdod.USDOD" [("epc_uri"%string, VStr (lit "urn:epc:id:usdod:2S194.12345678901")); ("_base64"%string, VNone); ("_binary"%string, VNone); ("_hex"%string, VNone); ("_tag_uri"%string, VNone); ("_cage_dodaac"%string, VStr (lit "2S194")); ("_serial"%string, VStr (lit "12345678901"))])
    "binary" [filter_member "usdod.USDODFilterValue" "X" 5; usdod_member USDOD_96] [] (Returned (VStr (lit "001011110101001000000011001001010011001100010011100100110100001011011111110111000001110000110101"))) /\
  invokes W (VObj "usdod.USDOD" [("epc_uri"%string, VStr (lit "urn:epc:id:usdod:2S194.12345678901")); ("_base64"%string, VNone); ("_binary"%string, VNone); ("_hex"%string, VNone); ("_tag_uri"%string, VNone); ("_cage_dodaac"%string, VStr (lit "2S194")); ("_serial"%string, VStr (lit "12345678901"))])
    "hex" [] [("binary_coding_scheme"%string, usdod_member USDOD_96); ("filter_value"%string, filter_member "usdod.USDODFilterValue" "X" 5)] (Returned (VStr (lit "2F52032533139342DFDC1C35"))) /\
  invokes W (VObj "usdod.USDOD" [("epc_uri"%string, VStr (lit "urn:epc:id:usdod:2S194.12345678901")); ("_base64"%string, VNone); ("_binary"%string, VNone); ("_hex"%string, VNone); ("_tag_uri"%string, VNone); ("_cage_dodaac"%string, VStr (lit "2S194")); ("_serial"%string, VStr (lit "12345678901"))])
    "base64" [] [("binary_coding_scheme"%string, usdod_member USDOD_96); ("filter_value"%string, filter_member "usdod.USDODFilterValue" "X" 5)] (Returned (VStr (lit "L1IDJTMTk0Lf3Bw1"))).
Proof. repeat split; exists (200 * 100)%nat; vm_compute; reflexivity. Qed.

(** ADI *)
Theorem C60_adi_encode :
  (forall x s c nm f args kws, args_fs_default (adi_member s) (filter_member c nm f) (s = ADI_VAR) args kws ->
     invokes W (adi_obj x) "tag_uri" args kws (result VStr (adi_tag_uri x s f))) /\
  (forall x s c nm f args kws, args_fs_default (adi_member s) (filter_member c nm f) (s = ADI_VAR) args kws ->
     invokes W (adi_obj x) "binary" args kws (result VStr (adi_binary x s f))) /\
  (forall x s c nm f args kws, args_fs_default (adi_member s) (filter_member c nm f) (s = ADI_VAR) [] kws -> (forall b, adi_binary x s f = Ok b -> fits (length b)) ->
     invokes W (adi_obj x) "hex" args kws (result VStr (binary_hex (adi_binary x s f)))) /\
  (forall x s c nm f args kws, args_fs_default (adi_member s) (filter_member c nm f) (s = ADI_VAR) [] kws -> (forall b, adi_binary x s f = Ok b -> fits (length b)) ->
     invokes W (adi_obj x) "base64" args kws (result VStr (binary_base64 (adi_binary x s f)))).
Proof. exact SrcAdi.adi_encode. Qed.
Print Assumptions C60_adi_encode.
Example C60_adi_case :
  invokes W (VObj "adi.ADI" [("epc_uri"%string, VStr (lit "urn:epc:id:adi:W81X9C.3KL984PX1.2WMA52")); ("_base64"%string, VNone); ("_binary"%string, VNone); ("_hex"%string, VNone); ("_tag_uri"%string, VNone); ("_cage_dodaac"%string, VStr (lit "W81X9C")); ("_part_number"%string, VStr (lit "3KL984PX1")); ("_serial"%string, VStr (lit "2WMA52"))])
    "tag_uri" [filter_member "adi.ADIFilterValue" "X" 5; adi_member ADI_VAR] [] (Returned (VStr (lit "urn:epc:tag:adi-var:5.W81X9C.3KL984PX1.2WMA52"))) /\
  invokes W (VObj "adi.ADI" [("epc_uri"%string, VStr (lit "urn:epc:id:adi:W81X9C.3KL984PX1.2WMA52")); ("_base64"%string, VNone); ("_binary"%string, VNone); ("_hex"%string, VNone); ("_tag_uri"%string, VNone); ("_cage_dodaac"%string, VStr (lit "W81X9C")); ("_part_number"%string, VStr (lit "3KL984PX1")); ("_serial"%string, VStr (lit "2WMA52"))])
    "binary" [filter_member "adi.ADIFilterValue" "X" 5; adi_member ADI_VAR] [] (Returned (VStr (lit "00111011000101010111111000110001011000111001000011110011001011001100111001111000110100010000011000110001000000110010010111001101000001110101110010000000"))) /\
  invokes W (VObj "adi.ADI" [("epc_uri"%string, VStr (lit "urn:epc:id:adi:W81X9C.3KL984PX1.2WMA52")); ("_base64"%string, VNone); ("_binary"%string, VNone); ("_hex"%string, VNone); ("_tag_uri"%string, VNone); ("_cage_dodaac"%string, VStr (lit "W81X9C")); ("_part_number"%string, VStr (lit "3KL984PX1")); ("_serial"%string, VStr (lit "2WMA52"))])
    "hex" [] [("binary_coding_scheme"%string, adi_member ADI_VAR); ("filter_value"%string, filter_member "adi.ADIFilterValue" "X" 5)] (Returned (VStr (lit "3B157E316390F32CCE78D106310325CD075C8000"))) /\
  invokes W (VObj "adi.ADI" [("epc_uri"%string, VStr (lit "urn:epc:id:adi:W81X9C.3KL984PX1.2WMA52")); ("_base64"%string, VNone); ("_binary"%string, VNone); ("_hex"%string, VNone); ("_tag_uri"%string, VNone); ("_cage_dodaac"%string, VStr (lit "W81X9C")); ("_part_number"%string, VStr (lit "3KL984PX1")); ("_serial"%string, VStr (lit "2WMA52"))])
    "base64" [] [("binary_coding_scheme"%string, adi_member ADI_VAR); ("filter_value"%string, filter_member "adi.ADIFilterValue" "X" 5)] (Returned (VStr (lit "OxV+MWOQ8yzOeNEGMQMlzQdcgAA="))).
Proof. repeat split; exists (200 * 100)%nat; vm_compute; reflexivity. Qed.
