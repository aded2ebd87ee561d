(** epcpy/epc_schemes/giai.py
    Written by a program from the syntax trees of the source text: docstrings and annotations are left out, nothing else. *)
From Coq Require Import String ZArith List.
From Verif.Model Require Import Syntax.
Import ListNotations.
Open Scope string_scope.
Open Scope Z_scope.
Open Scope list_scope.

(** giai.py:191-214 *)
Definition f_giai_GIAI___init__ : fundef :=
  mkFun "giai" (Some "giai.GIAI") KPlain ["self"; "epc_uri"] [] None [] None
   [SExpr (ECall (EAttr (ECall (EName "super") [] None [] None) "__init__") [(EName "epc_uri")] None [] None);
    SIf (ENot (ECall (EAttr (EName "GIAI_URI_REGEX") "fullmatch") [(EName "epc_uri")] None [] None))
     [SRaise (ECall (EName "ConvertException") [] None [("message", (EJoined [(EConst (CStr "Invalid GIAI URI ")); (EFormat (EName "epc_uri") None)]))] None)]
     [];
    SAssign (TTuple [(TName "company_prefix")] (Some (TName "asset_reference"))) (ECall (EAttr (EIndex (ECall (EAttr (EName "epc_uri") "split") [(EConst (CStr ":"))] None [] None) (EConst (CInt 4))) "split") [(EConst (CStr "."))] None [] None);
    SAssign (TName "asset_reference") (ECall (EAttr (EConst (CStr ".")) "join") [(EName "asset_reference")] None [] None);
    SIf (EOr [(ENot (ECmp (EConst (CInt 6)) [(CmpLe, (ECall (EName "len") [(EName "company_prefix")] None [] None)); (CmpLe, (EConst (CInt 12)))])); (ECmp (ECall (EName "len") [(EJoined [(EFormat (EName "company_prefix") None); (EFormat (EName "asset_reference") None)])] None [] None) [(CmpGt, (EConst (CInt 30)))])])
     [SRaise (ECall (EName "ConvertException") [] None [("message", (EJoined [(EConst (CStr "Invalid company prefix length ")); (EFormat (ECall (EName "len") [(EName "company_prefix")] None [] None) None)]))] None)]
     [];
    SExpr (ECall (EName "verify_gs3a3_component") [(EName "asset_reference")] None [] None);
    SAssign (TSelf "epc_uri") (EName "epc_uri");
    SAssign (TSelf "_company_pref") (EName "company_prefix");
    SAssign (TSelf "_asset_ref") (EName "asset_reference");
    SAssign (TSelf "_giai") (EJoined [(EFormat (EName "company_prefix") None); (EFormat (ECall (EName "replace_uri_escapes") [(EName "asset_reference")] None [] None) None)])].

(** giai.py:216-222 *)
Definition f_giai_GIAI_gs1_key : fundef :=
  mkFun "giai" (Some "giai.GIAI") KPlain ["self"] [] None [] None
   [SReturn (Some (EAttr (EName "self") "_giai"))].

(** giai.py:224-230 *)
Definition f_giai_GIAI_gs1_element_string : fundef :=
  mkFun "giai" (Some "giai.GIAI") KPlain ["self"] [] None [] None
   [SReturn (Some (EJoined [(EConst (CStr "(8004)")); (EFormat (EAttr (EName "self") "_giai") None)]))].

(** giai.py:233-257 *)
Definition f_giai_GIAI_from_gs1_element_string : fundef :=
  mkFun "giai" (Some "giai.GIAI") KClass ["cls"; "gs1_element_string"; "company_prefix_length"] [] None [] None
   [SIf (ENot (ECall (EAttr (EAttr (EName "GIAI") "gs1_element_string_regex") "fullmatch") [(EName "gs1_element_string")] None [] None))
     [SRaise (ECall (EName "ConvertException") [] None [("message", (EJoined [(EConst (CStr "Invalid GIAI GS1 element string ")); (EFormat (EName "gs1_element_string") None)]))] None)]
     [];
    SAssign (TName "digits") (ESlice (EName "gs1_element_string") (Some (EConst (CInt 6))) (Some (EBin OpAdd (EConst (CInt 6)) (EName "company_prefix_length"))) None);
    SAssign (TName "chars") (ESlice (EName "gs1_element_string") (Some (EBin OpAdd (EConst (CInt 6)) (EName "company_prefix_length"))) None None);
    SAssign (TName "chars") (ECall (EName "revert_uri_escapes") [(EName "chars")] None [] None);
    SReturn (Some (ECall (EName "cls") [(EJoined [(EConst (CStr "urn:epc:id:giai:")); (EFormat (EName "digits") None); (EConst (CStr ".")); (EFormat (EName "chars") None)])] None [] None))].

(** giai.py:259-295 *)
Definition f_giai_GIAI_tag_uri : fundef :=
  mkFun "giai" (Some "giai.GIAI") KPlain ["self"; "binary_coding_scheme"; "filter_value"] [] None [] None
   [SAssign (TName "filter_val") (EAttr (EName "filter_value") "value");
    SIf (EOr [(EAnd [(ECmp (EName "binary_coding_scheme") [(CmpEq, (EAttr (EAttr (EName "GIAI") "BinaryCodingScheme") "GIAI_202"))]); (ECmp (ECall (EName "len") [(ECall (EName "replace_uri_escapes") [(EAttr (EName "self") "_asset_ref")] None [] None)] None [] None) [(CmpGt, (EIndex (EIndex (EName "PARTITION_TABLE_L_202") (ECall (EName "len") [(EAttr (EName "self") "_company_pref")] None [] None)) (EConst (CStr "K"))))])]); (EAnd [(ECmp (EName "binary_coding_scheme") [(CmpEq, (EAttr (EAttr (EName "GIAI") "BinaryCodingScheme") "GIAI_96"))]); (EOr [(ENot (ECall (EAttr (EAttr (EName "self") "_asset_ref") "isnumeric") [] None [] None)); (ECmp (ECall (EName "len") [(EAttr (EName "self") "_asset_ref")] None [] None) [(CmpGt, (EIndex (EIndex (EName "PARTITION_TABLE_L_96") (ECall (EName "len") [(EAttr (EName "self") "_company_pref")] None [] None)) (EConst (CStr "K"))))]); (ECmp (ECall (EName "int") [(EAttr (EName "self") "_asset_ref")] None [] None) [(CmpGe, (ECall (EName "pow") [(EConst (CInt 2)); (EIndex (EIndex (EName "PARTITION_TABLE_L_96") (ECall (EName "len") [(EAttr (EName "self") "_company_pref")] None [] None)) (EConst (CStr "N")))] None [] None))]); (EAnd [(ECmp (ECall (EName "len") [(EAttr (EName "self") "_asset_ref")] None [] None) [(CmpGt, (EConst (CInt 1)))]); (ECmp (EIndex (EAttr (EName "self") "_asset_ref") (EConst (CInt 0))) [(CmpEq, (EConst (CStr "0")))])])])])])
     [SRaise (ECall (EName "ConvertException") [] None [("message", (EJoined [(EConst (CStr "Invalid asset reference value ")); (EFormat (EAttr (EName "self") "_asset_ref") None)]))] None)]
     [];
    SReturn (Some (EJoined [(EFormat (EAttr (EName "self") "TAG_URI_PREFIX") None); (EFormat (EAttr (EName "binary_coding_scheme") "value") None); (EConst (CStr ":")); (EFormat (EName "filter_val") None); (EConst (CStr ".")); (EFormat (EAttr (EName "self") "_company_pref") None); (EConst (CStr ".")); (EFormat (EAttr (EName "self") "_asset_ref") None)]))].

(** giai.py:297-326 *)
Definition f_giai_GIAI_binary : fundef :=
  mkFun "giai" (Some "giai.GIAI") KPlain ["self"; "binary_coding_scheme"; "filter_value"] [] None [] None
   [SAssign (TName "header") (EAttr (EIndex (EAttr (EName "GIAI") "BinaryHeader") (EAttr (EName "binary_coding_scheme") "name")) "value");
    SAssign (TName "filter_binary") (ECall (EName "str_to_binary") [(EAttr (EName "filter_value") "value"); (EConst (CInt 3))] None [] None);
    SAssign (TName "parts") (EList [(EAttr (EName "self") "_company_pref"); (EAttr (EName "self") "_asset_ref")]);
    SAssign (TName "giai_binary") (EIf (ECmp (EName "binary_coding_scheme") [(CmpEq, (EAttr (EAttr (EName "GIAI") "BinaryCodingScheme") "GIAI_96"))]) (ECall (EName "encode_partition_table") [(EName "parts"); (EName "PARTITION_TABLE_L_96")] None [] None) (ECall (EName "encode_partition_table") [(EName "parts"); (EName "PARTITION_TABLE_L_202")] None [("string_partition", (EConst CTrue))] None));
    SAssign (TName "_binary") (EBin OpAdd (EBin OpAdd (EName "header") (EName "filter_binary")) (EName "giai_binary"));
    SReturn (Some (EName "_binary"))].

(** giai.py:329-359 *)
Definition f_giai_GIAI_from_binary : fundef :=
  mkFun "giai" (Some "giai.GIAI") KClass ["cls"; "binary_string"] [] None [] None
   [SAssign (TTuple [(TName "binary_coding_scheme"); (TName "truncated_binary")] None) (ECall (EName "parse_header_and_truncate_binary") [(EName "binary_string"); (ECall (EAttr (EName "cls") "header_to_schemes") [] None [] None)] None [] None);
    SAssign (TName "filter_binary") (ESlice (EName "truncated_binary") (Some (EConst (CInt 8))) (Some (EConst (CInt 11))) None);
    SAssign (TName "giai_binary") (ESlice (EName "truncated_binary") (Some (EConst (CInt 11))) None None);
    SAssign (TName "filter_string") (ECall (EName "binary_to_int") [(EName "filter_binary")] None [] None);
    SAssign (TName "giai_string") (EIf (ECmp (EName "binary_coding_scheme") [(CmpEq, (EAttr (EAttr (EName "GIAI") "BinaryCodingScheme") "GIAI_96"))]) (ECall (EName "decode_partition_table") [(EName "giai_binary"); (EName "PARTITION_TABLE_P_96")] None [("unpadded_partition", (EConst CTrue))] None) (ECall (EName "decode_partition_table") [(EName "giai_binary"); (EName "PARTITION_TABLE_P_202")] None [("string_partition", (EConst CTrue))] None));
    SReturn (Some (ECall (EAttr (EName "cls") "from_tag_uri") [(EJoined [(EFormat (EAttr (EName "cls") "TAG_URI_PREFIX") None); (EFormat (EAttr (EName "binary_coding_scheme") "value") None); (EConst (CStr ":")); (EFormat (EName "filter_string") None); (EConst (CStr ".")); (EFormat (EName "giai_string") None)])] None [] None))].

(** epcpy/epc_schemes/giai.py *)
Definition m_giai : list top :=
  [TImport "re";
   TFrom "enum" ["Enum"];
   TFrom "base_scheme" ["GS1Keyed"; "TagEncodable"];
   TFrom "common" ["ConvertException"; "binary_to_int"; "decode_partition_table"; "encode_partition_table"; "parse_header_and_truncate_binary"; "replace_uri_escapes"; "revert_uri_escapes"; "str_to_binary"; "verify_gs3a3_component"];
   TFrom "regex" ["GIAI_GS1_ELEMENT_STRING"; "GIAI_URI"];
   TAssign "GIAI_URI_REGEX" (ECall (EAttr (EName "re") "compile") [(EName "GIAI_URI")] None [] None);
   TAssign "PARTITION_TABLE_P_96" (EDict [((EConst (CInt 0)), (EDict [((EConst (CStr "P")), (EConst (CInt 0))); ((EConst (CStr "M")), (EConst (CInt 40))); ((EConst (CStr "L")), (EConst (CInt 12))); ((EConst (CStr "N")), (EConst (CInt 42))); ((EConst (CStr "K")), (EConst (CInt 13)))])); ((EConst (CInt 1)), (EDict [((EConst (CStr "P")), (EConst (CInt 1))); ((EConst (CStr "M")), (EConst (CInt 37))); ((EConst (CStr "L")), (EConst (CInt 11))); ((EConst (CStr "N")), (EConst (CInt 45))); ((EConst (CStr "K")), (EConst (CInt 14)))])); ((EConst (CInt 2)), (EDict [((EConst (CStr "P")), (EConst (CInt 2))); ((EConst (CStr "M")), (EConst (CInt 34))); ((EConst (CStr "L")), (EConst (CInt 10))); ((EConst (CStr "N")), (EConst (CInt 48))); ((EConst (CStr "K")), (EConst (CInt 15)))])); ((EConst (CInt 3)), (EDict [((EConst (CStr "P")), (EConst (CInt 3))); ((EConst (CStr "M")), (EConst (CInt 30))); ((EConst (CStr "L")), (EConst (CInt 9))); ((EConst (CStr "N")), (EConst (CInt 52))); ((EConst (CStr "K")), (EConst (CInt 16)))])); ((EConst (CInt 4)), (EDict [((EConst (CStr "P")), (EConst (CInt 4))); ((EConst (CStr "M")), (EConst (CInt 27))); ((EConst (CStr "L")), (EConst (CInt 8))); ((EConst (CStr "N")), (EConst (CInt 55))); ((EConst (CStr "K")), (EConst (CInt 17)))])); ((EConst (CInt 5)), (EDict [((EConst (CStr "P")), (EConst (CInt 5))); ((EConst (CStr "M")), (EConst (CInt 24))); ((EConst (CStr "L")), (EConst (CInt 7))); ((EConst (CStr "N")), (EConst (CInt 58))); ((EConst (CStr "K")), (EConst (CInt 18)))])); ((EConst (CInt 6)), (EDict [((EConst (CStr "P")), (EConst (CInt 6))); ((EConst (CStr "M")), (EConst (CInt 20))); ((EConst (CStr "L")), (EConst (CInt 6))); ((EConst (CStr "N")), (EConst (CInt 62))); ((EConst (CStr "K")), (EConst (CInt 19)))]))]);
   TAssign "PARTITION_TABLE_L_96" (EDict [((EConst (CInt 12)), (EIndex (EName "PARTITION_TABLE_P_96") (EConst (CInt 0)))); ((EConst (CInt 11)), (EIndex (EName "PARTITION_TABLE_P_96") (EConst (CInt 1)))); ((EConst (CInt 10)), (EIndex (EName "PARTITION_TABLE_P_96") (EConst (CInt 2)))); ((EConst (CInt 9)), (EIndex (EName "PARTITION_TABLE_P_96") (EConst (CInt 3)))); ((EConst (CInt 8)), (EIndex (EName "PARTITION_TABLE_P_96") (EConst (CInt 4)))); ((EConst (CInt 7)), (EIndex (EName "PARTITION_TABLE_P_96") (EConst (CInt 5)))); ((EConst (CInt 6)), (EIndex (EName "PARTITION_TABLE_P_96") (EConst (CInt 6))))]);
   TAssign "PARTITION_TABLE_P_202" (EDict [((EConst (CInt 0)), (EDict [((EConst (CStr "P")), (EConst (CInt 0))); ((EConst (CStr "M")), (EConst (CInt 40))); ((EConst (CStr "L")), (EConst (CInt 12))); ((EConst (CStr "N")), (EConst (CInt 148))); ((EConst (CStr "K")), (EConst (CInt 18)))])); ((EConst (CInt 1)), (EDict [((EConst (CStr "P")), (EConst (CInt 1))); ((EConst (CStr "M")), (EConst (CInt 37))); ((EConst (CStr "L")), (EConst (CInt 11))); ((EConst (CStr "N")), (EConst (CInt 151))); ((EConst (CStr "K")), (EConst (CInt 19)))])); ((EConst (CInt 2)), (EDict [((EConst (CStr "P")), (EConst (CInt 2))); ((EConst (CStr "M")), (EConst (CInt 34))); ((EConst (CStr "L")), (EConst (CInt 10))); ((EConst (CStr "N")), (EConst (CInt 154))); ((EConst (CStr "K")), (EConst (CInt 20)))])); ((EConst (CInt 3)), (EDict [((EConst (CStr "P")), (EConst (CInt 3))); ((EConst (CStr "M")), (EConst (CInt 30))); ((EConst (CStr "L")), (EConst (CInt 9))); ((EConst (CStr "N")), (EConst (CInt 158))); ((EConst (CStr "K")), (EConst (CInt 21)))])); ((EConst (CInt 4)), (EDict [((EConst (CStr "P")), (EConst (CInt 4))); ((EConst (CStr "M")), (EConst (CInt 27))); ((EConst (CStr "L")), (EConst (CInt 8))); ((EConst (CStr "N")), (EConst (CInt 161))); ((EConst (CStr "K")), (EConst (CInt 22)))])); ((EConst (CInt 5)), (EDict [((EConst (CStr "P")), (EConst (CInt 5))); ((EConst (CStr "M")), (EConst (CInt 24))); ((EConst (CStr "L")), (EConst (CInt 7))); ((EConst (CStr "N")), (EConst (CInt 164))); ((EConst (CStr "K")), (EConst (CInt 23)))])); ((EConst (CInt 6)), (EDict [((EConst (CStr "P")), (EConst (CInt 6))); ((EConst (CStr "M")), (EConst (CInt 20))); ((EConst (CStr "L")), (EConst (CInt 6))); ((EConst (CStr "N")), (EConst (CInt 168))); ((EConst (CStr "K")), (EConst (CInt 24)))]))]);
   TAssign "PARTITION_TABLE_L_202" (EDict [((EConst (CInt 12)), (EIndex (EName "PARTITION_TABLE_P_202") (EConst (CInt 0)))); ((EConst (CInt 11)), (EIndex (EName "PARTITION_TABLE_P_202") (EConst (CInt 1)))); ((EConst (CInt 10)), (EIndex (EName "PARTITION_TABLE_P_202") (EConst (CInt 2)))); ((EConst (CInt 9)), (EIndex (EName "PARTITION_TABLE_P_202") (EConst (CInt 3)))); ((EConst (CInt 8)), (EIndex (EName "PARTITION_TABLE_P_202") (EConst (CInt 4)))); ((EConst (CInt 7)), (EIndex (EName "PARTITION_TABLE_P_202") (EConst (CInt 5)))); ((EConst (CInt 6)), (EIndex (EName "PARTITION_TABLE_P_202") (EConst (CInt 6))))]);
   TClass "GIAIFilterValue" [(EName "Enum")]
    [TAssign "ALL_OTHERS" (EConst (CStr "0"));
     TAssign "RAIL_VEHICLE" (EConst (CStr "1"));
     TAssign "RESERVED_2" (EConst (CStr "2"));
     TAssign "RESERVED_3" (EConst (CStr "3"));
     TAssign "RESERVED_4" (EConst (CStr "4"));
     TAssign "RESERVED_5" (EConst (CStr "5"));
     TAssign "RESERVED_6" (EConst (CStr "6"));
     TAssign "RESERVED_7" (EConst (CStr "7"))];
   TClass "GIAI" [(EName "TagEncodable"); (EName "GS1Keyed")]
    [TClass "BinaryCodingScheme" [(EName "Enum")]
      [TAssign "GIAI_96" (EConst (CStr "giai-96"));
       TAssign "GIAI_202" (EConst (CStr "giai-202"))];
     TClass "BinaryHeader" [(EName "Enum")]
      [TAssign "GIAI_96" (EConst (CStr "00110100"));
       TAssign "GIAI_202" (EConst (CStr "00111000"))];
     TAssign "gs1_element_string_regex" (ECall (EAttr (EName "re") "compile") [(EName "GIAI_GS1_ELEMENT_STRING")] None [] None);
     TFun "__init__";
     TFun "gs1_key";
     TFun "gs1_element_string";
     TFun "from_gs1_element_string";
     TFun "tag_uri";
     TFun "binary";
     TFun "from_binary"]].
