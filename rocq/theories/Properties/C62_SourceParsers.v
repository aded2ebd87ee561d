(** The source text of parsers.py and of [__eq__], run on the machine: C62.

    Each function of parsers.py comes to what its model in Model/Parsers.v says, for every text and every way to give the arguments.
    Objects are [obj_of e], with all attributes.  [fits] is a bound of 2^100 on lengths (hexadecimal and Base64 only). *)
From Coq Require Import String.
From Verif.Model Require Import Py PyFormat Syntax Machine Common Base Sgtin Parsers.
From Verif.Source Require Import Program World.
From Verif.Spec Require Import SpecParsers.
From Verif.Proofs Require SrcKeys.

(** The lists and dictionaries that parsers.py makes when it is loaded (parsers.py:41-90, 266-275) are those of the model. *)
Theorem C62_tables :
  global W "parsers" "EPC_SCHEMES" (VList (map class_value EPC_SCHEMES)) /\
  global W "parsers" "GS1_KEYED_CLASSES" (VList (map class_value GS1_KEYED_CLASSES)) /\
  global W "parsers" "TAG_ENCODABLE_CLASSES" (VList (map class_value TAG_ENCODABLE_CLASSES)) /\
  global W "parsers" "TAG_ENCODABLE_BINARY_HEADERS" (VDict (dict_of class_value TAG_ENCODABLE_BINARY_HEADERS)) /\
  global W "parsers" "TAG_ENCODABLE_HEX_HEADERS" (VDict (dict_of class_value TAG_ENCODABLE_HEX_HEADERS)) /\
  global W "parsers" "EPC_SCHEME_IDENTIFIERS" (VDict (dict_of class_value EPC_SCHEME_IDENTIFIERS)) /\
  global W "parsers" "TAG_ENCODABLE_SCHEME_IDENTIFIERS" (VDict (dict_of class_value TAG_ENCODABLE_SCHEME_IDENTIFIERS)) /\
  global W "parsers" "GS1_KEYED_SCHEME_IDENTIFIERS" (VDict (dict_of class_value GS1_KEYED_SCHEME_IDENTIFIERS)) /\
  global W "parsers" "ONE_ESCAPE_ALLOWED_SCHEMES" (VList (map VStr ONE_ESCAPE_ALLOWED_SCHEMES)).
Proof. exact SrcKeys.tables. Qed.
Print Assumptions C62_tables.
Example C62_tables_case :
  global W "parsers" "ONE_ESCAPE_ALLOWED_SCHEMES" (VList [VStr (lit "sgtin"); VStr (lit "sgln"); VStr (lit "grai"); VStr (lit "gdti"); VStr (lit "cpi")]) /\
  (forall v, global W "parsers" "EPC_SCHEMES" v -> exists l, v = VList l /\ length l = 21%nat) /\
  (forall v, global W "parsers" "GS1_KEYED_CLASSES" v -> exists l, v = VList l /\ length l = 13%nat) /\
  (forall v, global W "parsers" "TAG_ENCODABLE_BINARY_HEADERS" v -> exists l, v = VDict l /\ length l = 21%nat).
Proof. repeat apply conj; [vm_compute; reflexivity|..]; intros v; vm_compute; intros [= <-]; eexists; split; reflexivity. Qed.

(** Pure identity URIs: the object of the class, the checks for the base classes, and the element string. *)
Theorem C62_identities :
  (forall u args kws, passed1 "epc_pure_identity_uri" (VStr u) args kws ->
     calls W (VFun "parsers.epc_pure_identity_to_scheme") args kws (result obj_of (epc_pure_identity_to_scheme u))) /\
  (forall u args kws, passed1 "epc_pure_identity_uri" (VStr u) args kws ->
     calls W (VFun "parsers.epc_pure_identity_to_gs1_element") args kws (result obj_of (epc_pure_identity_to_gs1_element u))) /\
  (forall u args kws, passed1 "epc_pure_identity_uri" (VStr u) args kws ->
     calls W (VFun "parsers.epc_pure_identity_to_gs1_keyed") args kws (result obj_of (epc_pure_identity_to_gs1_keyed u))) /\
  (forall u args kws, passed1 "epc_pure_identity_uri" (VStr u) args kws ->
     calls W (VFun "parsers.epc_pure_identity_to_tag_encodable") args kws (result obj_of (epc_pure_identity_to_tag_encodable u))) /\
  (forall u args kws, passed1 "epc_pure_identity_uri" (VStr u) args kws ->
     calls W (VFun "parsers.epc_pure_identity_to_gs1_element_string") args kws (result VStr (epc_pure_identity_to_gs1_element_string u))).
Proof. exact SrcKeys.identities. Qed.
Print Assumptions C62_identities.
Example C62_identities_case :
  calls W (VFun "parsers.epc_pure_identity_to_scheme") [VStr (lit "urn:epc:id:sgtin:0614141.812345.32a%2Fb")] [] (Returned (VObj "sgtin.SGTIN" [("epc_uri"%string, VStr (lit "urn:epc:id:sgtin:0614141.812345.32a%2Fb")); ("_base64"%string, VNone); ("_binary"%string, VNone); ("_hex"%string, VNone); ("_tag_uri"%string, VNone); ("_company_pref"%string, VStr (lit "0614141")); ("_item_ref"%string, VStr (lit "812345")); ("_serial"%string, VStr (lit "32a%2Fb")); ("_gtin"%string, VStr (lit "80614141123458"))])) /\
  calls W (VFun "parsers.epc_pure_identity_to_tag_encodable") [VStr (lit "urn:epc:id:sgtin:0614141.812345.32a%2Fb")] [] (Returned (VObj "sgtin.SGTIN" [("epc_uri"%string, VStr (lit "urn:epc:id:sgtin:0614141.812345.32a%2Fb")); ("_base64"%string, VNone); ("_binary"%string, VNone); ("_hex"%string, VNone); ("_tag_uri"%string, VNone); ("_company_pref"%string, VStr (lit "0614141")); ("_item_ref"%string, VStr (lit "812345")); ("_serial"%string, VStr (lit "32a%2Fb")); ("_gtin"%string, VStr (lit "80614141123458"))])) /\
  calls W (VFun "parsers.epc_pure_identity_to_gs1_element_string") [VStr (lit "urn:epc:id:sgtin:0614141.812345.32a%2Fb")] [] (Returned (VStr (lit "(01)80614141123458(21)32a/b"))) /\
  calls W (VFun "parsers.epc_pure_identity_to_gs1_element") [VStr (lit "urn:epc:id:gid:95100000.12345.400")] [] (Raised (XExn ConvertException)) /\
  calls W (VFun "parsers.epc_pure_identity_to_scheme") [VStr (lit "urn:epc:id:xyz:1.2")] [] (Raised (XExn ConvertException)) /\
  calls W (VFun "parsers.epc_pure_identity_to_scheme") [VStr (lit "urn:epc")] [] (Raised (XExn IndexError)).
Proof. repeat split; exists (300 * 100)%nat; vm_compute; reflexivity. Qed.

(** Element strings and id patterns. *)
Theorem C62_element_strings_and_patterns :
  (forall s n args kws, passed2 "gs1_element_string" "company_prefix_length" (VStr s) (VInt n) args kws ->
     calls W (VFun "parsers.gs1_element_string_to_gs1_element") args kws (result obj_of (gs1_element_string_to_gs1_element s n))) /\
  (forall u args kws, passed1 "idpat" (VStr u) args kws ->
     calls W (VFun "parsers._idpat_to_gs1_keyed_scheme") args kws (result obj_of (idpat_to_gs1_keyed_scheme u))).
Proof. exact SrcKeys.others. Qed.
Print Assumptions C62_element_strings_and_patterns.
Example C62_element_strings_and_patterns_case :
  calls W (VFun "parsers.gs1_element_string_to_gs1_element") [VStr (lit "(01)80614141123458(21)32a/b"); VInt 7] [] (Returned (VObj "sgtin.SGTIN" [("epc_uri"%string, VStr (lit "urn:epc:id:sgtin:0614141.812345.32a%2Fb")); ("_base64"%string, VNone); ("_binary"%string, VNone); ("_hex"%string, VNone); ("_tag_uri"%string, VNone); ("_company_pref"%string, VStr (lit "0614141")); ("_item_ref"%string, VStr (lit "812345")); ("_serial"%string, VStr (lit "32a%2Fb")); ("_gtin"%string, VStr (lit "80614141123458"))])) /\
  calls W (VFun "parsers.gs1_element_string_to_gs1_element") [VStr (lit "(99)1"); VInt 7] [] (Raised (XExn ConvertException)) /\
  calls W (VFun "parsers._idpat_to_gs1_keyed_scheme") [VStr (lit "urn:epc:idpat:sgtin:0614141.812345.32a%2Fb")] [] (Returned (VObj "sgtin.SGTIN" [("epc_uri"%string, VStr (lit "urn:epc:id:sgtin:0614141.812345.32a%2Fb")); ("_base64"%string, VNone); ("_binary"%string, VNone); ("_hex"%string, VNone); ("_tag_uri"%string, VNone); ("_company_pref"%string, VStr (lit "0614141")); ("_item_ref"%string, VStr (lit "812345")); ("_serial"%string, VStr (lit "32a%2Fb")); ("_gtin"%string, VStr (lit "80614141123458"))])) /\
  (exists l, calls W (VFun "parsers._idpat_to_gs1_keyed_scheme") [VStr (lit "urn:epc:idpat:sgtin:0614141.812345.*")] [] (Returned (VObj "sgtin.SGTIN" (("epc_uri"%string, VStr (lit "urn:epc:id:sgtin:0614141.812345.*")) :: l)))) /\
  calls W (VFun "parsers._idpat_to_gs1_keyed_scheme") [VStr (lit "urn:epc:idpat:sscc:0614141.*")] [] (Raised (XExn ConvertException)).
Proof. repeat apply conj; try match goal with |- exists l, calls _ _ _ _ _ => eexists end; exists (300 * 100)%nat; vm_compute; reflexivity. Qed.

(** Tag URIs, binary texts, hexadecimal digits and Base64. *)
Theorem C62_tags :
  (forall u args kws, passed1 "epc_tag_uri" (VStr u) args kws ->
     calls W (VFun "parsers.tag_uri_to_tag_encodable") args kws (result obj_of (tag_uri_to_tag_encodable u))) /\
  (forall s args kws, passed1 "binary_string" (VStr s) args kws ->
     calls W (VFun "parsers.binary_to_tag_encodable") args kws (result obj_of (binary_to_tag_encodable s))) /\
  (forall s args kws, passed1 "hex_string" (VStr s) args kws -> fits (length s * 4) ->
     calls W (VFun "parsers.hex_to_tag_encodable") args kws (result obj_of (hex_to_tag_encodable s))) /\
  (forall s args kws, passed1 "base64_string" (VStr s) args kws -> fits (length s * 8) ->
     calls W (VFun "parsers.base64_to_tag_encodable") args kws (result obj_of (base64_to_tag_encodable s))).
Proof. exact SrcKeys.tags. Qed.
Print Assumptions C62_tags.
Example C62_tags_case :
  calls W (VFun "parsers.tag_uri_to_tag_encodable") [VStr (lit "urn:epc:tag:sgtin-198:5.0614141.812345.32a%2Fb")] [] (Returned (VObj "sgtin.SGTIN" [("epc_uri"%string, VStr (lit "urn:epc:id:sgtin:0614141.812345.32a%2Fb")); ("_base64"%string, VNone); ("_binary"%string, VNone); ("_hex"%string, VNone); ("_tag_uri"%string, VNone); ("_company_pref"%string, VStr (lit "0614141")); ("_item_ref"%string, VStr (lit "812345")); ("_serial"%string, VStr (lit "32a%2Fb")); ("_gtin"%string, VStr (lit "80614141123458"))])) /\
  calls W (VFun "parsers.binary_to_tag_encodable") [VStr (lit "001101101011010000100101011110111111011100011001010011100101100110110010110000101011111100010000000000000000000000000000000000000000000000000000000000000000000000000000000000000000000000000000000000")] [] (Returned (VObj "sgtin.SGTIN" [("epc_uri"%string, VStr (lit "urn:epc:id:sgtin:0614141.812345.32a%2Fb")); ("_base64"%string, VNone); ("_binary"%string, VNone); ("_hex"%string, VNone); ("_tag_uri"%string, VNone); ("_company_pref"%string, VStr (lit "0614141")); ("_item_ref"%string, VStr (lit "812345")); ("_serial"%string, VStr (lit "32a%2Fb")); ("_gtin"%string, VStr (lit "80614141123458"))])) /\
  calls W (VFun "parsers.hex_to_tag_encodable") [VStr (lit "36B4257BF7194E59B2C2BF100000000000000000000000000000")] [] (Returned (VObj "sgtin.SGTIN" [("epc_uri"%string, VStr (lit "urn:epc:id:sgtin:0614141.812345.32a%2Fb")); ("_base64"%string, VNone); ("_binary"%string, VNone); ("_hex"%string, VNone); ("_tag_uri"%string, VNone); ("_company_pref"%string, VStr (lit "0614141")); ("_item_ref"%string, VStr (lit "812345")); ("_serial"%string, VStr (lit "32a%2Fb")); ("_gtin"%string, VStr (lit "80614141123458"))])) /\
  calls W (VFun "parsers.base64_to_tag_encodable") [VStr (lit "NrQle/cZTlmywr8QAAAAAAAAAAAAAAAAAAA=")] [] (Returned (VObj "sgtin.SGTIN" [("epc_uri"%string, VStr (lit "urn:epc:id:sgtin:0614141.812345.32a%2Fb")); ("_base64"%string, VNone); ("_binary"%string, VNone); ("_hex"%string, VNone); ("_tag_uri"%string, VNone); ("_company_pref"%string, VStr (lit "0614141")); ("_item_ref"%string, VStr (lit "812345")); ("_serial"%string, VStr (lit "32a%2Fb")); ("_gtin"%string, VStr (lit "80614141123458"))])) /\
  calls W (VFun "parsers.hex_to_tag_encodable") [VStr (lit "FF")] [] (Raised (XExn ConvertException)) /\
  calls W (VFun "parsers.hex_to_tag_encodable") [VStr (lit "zz")] [] (Raised (XExn ValueError)).
Proof. repeat split; exists (300 * 100)%nat; vm_compute; reflexivity. Qed.

(** GS1 keys; the keywords go through to [gs1_key] of the class. *)
Theorem C62_keys :
  (forall u t args kws keys, passed1 "epc_pure_identity_uri" (VStr u) args kws -> key_kwargs t keys ->
     calls W (VFun "parsers.epc_pure_identity_to_gs1_key") args (kws ++ keys) (result VStr (epc_pure_identity_to_gs1_key u t))) /\
  (forall s n t args kws keys, key_args s n args kws -> key_kwargs t keys -> fits (length s * 4) ->
     calls W (VFun "parsers.get_gs1_key") args (kws ++ keys) (result VStr (get_gs1_key s n t))).
Proof. exact SrcKeys.keys. Qed.
Print Assumptions C62_keys.
Example C62_keys_case :
  calls W (VFun "parsers.epc_pure_identity_to_gs1_key") [VStr (lit "urn:epc:id:sgtin:0614141.812345.32a%2Fb")] [] (Returned (VStr (lit "80614141123458"))) /\
  calls W (VFun "parsers.epc_pure_identity_to_gs1_key") [VStr (lit "urn:epc:id:sgtin:0614141.012345.1")] [("gtin_type"%string, gtin_member "lgtin.GTIN_TYPE" GTIN12)] (Returned (VStr (lit "614141123452"))) /\
  calls W (VFun "parsers.get_gs1_key") [VStr (lit "36B4257BF7194E59B2C2BF100000000000000000000000000000")] [] (Returned (VStr (lit "80614141123458"))) /\
  calls W (VFun "parsers.get_gs1_key") [VStr (lit "(01)80614141123458(21)32a/b"); VInt 7] [] (Returned (VStr (lit "80614141123458"))) /\
  calls W (VFun "parsers.get_gs1_key") [VStr (lit "(01)80614141123458(21)32a/b")] [] (Raised (XExn ConvertException)) /\
  calls W (VFun "parsers.get_gs1_key") [VStr (lit "urn:epc:idpat:sgtin:0614141.812345.*")] [] (Returned (VStr (lit "80614141123458"))) /\
  calls W (VFun "parsers.get_gs1_key") [VStr (lit "urn:epc:id:sscc:0614141.1234567890")] [("gtin_type"%string, gtin_member "sgtin.GTIN_TYPE" GTIN8)] (Raised (XExn TypeError)) /\
  calls W (VFun "parsers.get_gs1_key") [VStr (lit "urn:epc:id:gid:95100000.12345.400")] [] (Raised (XExn ConvertException)).
Proof. repeat split; exists (300 * 100)%nat; vm_compute; reflexivity. Qed.

(** [__eq__] of base_scheme.py, which every class inherits. *)
Theorem C62_equality :
  (forall a b args kws, passed1 "other" (obj_of b) args kws -> invokes W (obj_of a) "__eq__" args kws (Returned (VBool (epc_eqb a b)))) /\
  (forall a v, v = VNone \/ (exists s, v = VStr s) \/ (exists n, v = VInt n) \/ (exists b, v = VBool b) ->
     invokes W (obj_of a) "__eq__" [v] [] (Returned (VBool false))).
Proof. exact SrcKeys.equality. Qed.
Print Assumptions C62_equality.
Example C62_equality_case :
  invokes W (VObj "sgtin.SGTIN" [("epc_uri"%string, VStr (lit "urn:epc:id:sgtin:0614141.812345.32a%2Fb")); ("_base64"%string, VNone); ("_binary"%string, VNone); ("_hex"%string, VNone); ("_tag_uri"%string, VNone); ("_company_pref"%string, VStr (lit "0614141")); ("_item_ref"%string, VStr (lit "812345")); ("_serial"%string, VStr (lit "32a%2Fb")); ("_gtin"%string, VStr (lit "80614141123458"))]) "__eq__" [(VObj "sgtin.SGTIN" [("epc_uri"%string, VStr (lit "urn:epc:id:sgtin:0614141.812345.32a%2Fb")); ("_base64"%string, VNone); ("_binary"%string, VNone); ("_hex"%string, VNone); ("_tag_uri"%string, VNone); ("_company_pref"%string, VStr (lit "0614141")); ("_item_ref"%string, VStr (lit "812345")); ("_serial"%string, VStr (lit "32a%2Fb")); ("_gtin"%string, VStr (lit "80614141123458"))])] [] (Returned (VBool true)) /\
  invokes W (VObj "sgtin.SGTIN" [("epc_uri"%string, VStr (lit "urn:epc:id:sgtin:0614141.812345.32a%2Fb")); ("_base64"%string, VNone); ("_binary"%string, VNone); ("_hex"%string, VNone); ("_tag_uri"%string, VNone); ("_company_pref"%string, VStr (lit "0614141")); ("_item_ref"%string, VStr (lit "812345")); ("_serial"%string, VStr (lit "32a%2Fb")); ("_gtin"%string, VStr (lit "80614141123458"))]) "__eq__" [(VObj "sgtin.SGTIN" [("epc_uri"%string, VStr (lit "urn:epc:id:sgtin:0614141.812345.32a%2Fc")); ("_base64"%string, VNone); ("_binary"%string, VNone); ("_hex"%string, VNone); ("_tag_uri"%string, VNone); ("_company_pref"%string, VStr (lit "0614141")); ("_item_ref"%string, VStr (lit "812345")); ("_serial"%string, VStr (lit "32a%2Fc")); ("_gtin"%string, VStr (lit "80614141123458"))])] [] (Returned (VBool false)) /\
  invokes W (VObj "sgtin.SGTIN" [("epc_uri"%string, VStr (lit "urn:epc:id:sgtin:0614141.812345.32a%2Fb")); ("_base64"%string, VNone); ("_binary"%string, VNone); ("_hex"%string, VNone); ("_tag_uri"%string, VNone); ("_company_pref"%string, VStr (lit "0614141")); ("_item_ref"%string, VStr (lit "812345")); ("_serial"%string, VStr (lit "32a%2Fb")); ("_gtin"%string, VStr (lit "80614141123458"))]) "__eq__" [VStr (lit "urn:epc:id:sgtin:0614141.812345.32a%2Fb")] [] (Returned (VBool false)).
Proof. repeat split; exists (300 * 100)%nat; vm_compute; reflexivity. Qed.
