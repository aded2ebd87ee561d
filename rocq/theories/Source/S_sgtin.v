(** epcpy/epc_schemes/sgtin.py
    Written by a program from the syntax trees of the source text: docstrings and annotations are left out, nothing else. *)
From Coq Require Import String ZArith List.
From Verif.Model Require Import Syntax.
Import ListNotations.
Open Scope string_scope.
Open Scope Z_scope.
Open Scope list_scope.

(** sgtin.py:141-174 *)
Definition f_sgtin_SGTIN___init__ : fundef :=
  mkFun "sgtin" (Some "sgtin.SGTIN") KPlain ["self"; "epc_uri"] [] None [] None
   [SExpr (ECall (EAttr (ECall (EName "super") [] None [] None) "__init__") [(EName "epc_uri")] None [] None);
    SIf (ENot (ECall (EAttr (EName "SGTIN_REGEX") "fullmatch") [(EName "epc_uri")] None [] None))
     [SRaise (ECall (EName "ConvertException") [] None [("message", (EJoined [(EConst (CStr "Invalid SGTIN URI ")); (EFormat (EName "epc_uri") None)]))] None)]
     [];
    SAssign (TSelf "epc_uri") (EName "epc_uri");
    SAssign (TName "value") (EIndex (ECall (EAttr (EAttr (EName "self") "epc_uri") "split") [(EConst (CStr ":"))] None [] None) (EConst (CInt 4)));
    SAssign (TSelf "_company_pref") (EIndex (ECall (EAttr (EName "value") "split") [(EConst (CStr "."))] None [] None) (EConst (CInt 0)));
    SAssign (TSelf "_item_ref") (EIndex (ECall (EAttr (EName "value") "split") [(EConst (CStr "."))] None [] None) (EConst (CInt 1)));
    SAssign (TSelf "_serial") (ECall (EAttr (EConst (CStr ".")) "join") [(ESlice (ECall (EAttr (ECall (EAttr (EConst (CStr ":")) "join") [(ESlice (ECall (EAttr (EName "epc_uri") "split") [(EConst (CStr ":"))] None [] None) (Some (EConst (CInt 4))) None None)] None [] None) "split") [(EConst (CStr "."))] None [] None) (Some (EConst (CInt 2))) None None)] None [] None);
    SIf (EOr [(ECmp (ECall (EName "len") [(EJoined [(EFormat (EAttr (EName "self") "_company_pref") None); (EFormat (EAttr (EName "self") "_item_ref") None)])] None [] None) [(CmpNe, (EConst (CInt 13)))]); (ENot (ECmp (EConst (CInt 6)) [(CmpLe, (ECall (EName "len") [(EAttr (EName "self") "_company_pref")] None [] None)); (CmpLe, (EConst (CInt 12)))]))])
     [SRaise (ECall (EName "ConvertException") [] None [("message", (EJoined [(EConst (CStr "Invalid SGTIN URI ")); (EFormat (EName "epc_uri") None); (EConst (CStr " | Company prefix + item reference must be 13 digits"))]))] None)]
     [];
    SExpr (ECall (EName "verify_gs3a3_component") [(EAttr (EName "self") "_serial")] None [] None);
    SIf (ENot (ECmp (EConst (CInt 1)) [(CmpLe, (ECall (EName "len") [(ECall (EName "replace_uri_escapes") [(EAttr (EName "self") "_serial")] None [] None)] None [] None)); (CmpLe, (EConst (CInt 20)))]))
     [SRaise (ECall (EName "ConvertException") [] None [("message", (EJoined [(EConst (CStr "Invalid number of characters in serial: ")); (EFormat (ECall (EName "len") [(ECall (EName "replace_uri_escapes") [(EAttr (EName "self") "_serial")] None [] None)] None [] None) None)]))] None)]
     [];
    SAssign (TName "check_digit") (ECall (EName "calculate_checksum") [(EJoined [(EFormat (EIndex (EAttr (EName "self") "_item_ref") (EConst (CInt 0))) None); (EFormat (EAttr (EName "self") "_company_pref") None); (EFormat (ESlice (EAttr (EName "self") "_item_ref") (Some (EConst (CInt 1))) None None) None)])] None [] None);
    SAssign (TSelf "_gtin") (ECall (EAttr (EJoined [(EFormat (EIndex (EAttr (EName "self") "_item_ref") (EConst (CInt 0))) None); (EFormat (EAttr (EName "self") "_company_pref") None); (EFormat (ESlice (EAttr (EName "self") "_item_ref") (Some (EConst (CInt 1))) None None) None); (EFormat (EName "check_digit") None)]) "zfill") [(EConst (CInt 14))] None [] None)].

(** sgtin.py:177-193 *)
Definition f_sgtin_SGTIN_from_gtin_plus_serial : fundef :=
  mkFun "sgtin" (Some "sgtin.SGTIN") KClass ["cls"; "gtin"; "serial"; "company_prefix_length"] [] None [] None
   [SAssign (TName "gtin") (ECall (EAttr (EName "gtin") "zfill") [(EConst (CInt 14))] None [] None);
    SReturn (Some (ECall (EName "cls") [(EJoined [(EConst (CStr "urn:epc:id:sgtin:")); (EFormat (ESlice (EName "gtin") (Some (EConst (CInt 1))) (Some (EBin OpAdd (EConst (CInt 1)) (EName "company_prefix_length"))) None) None); (EConst (CStr ".")); (EFormat (EIndex (EName "gtin") (EConst (CInt 0))) None); (EFormat (ESlice (EName "gtin") (Some (EBin OpAdd (EConst (CInt 1)) (EName "company_prefix_length"))) (Some (ENeg (EConst (CInt 1)))) None) None); (EConst (CStr ".")); (EFormat (ECall (EName "str") [(EName "serial")] None [] None) None)])] None [] None))].

(** sgtin.py:195-205 *)
Definition f_sgtin_SGTIN_gs1_key : fundef :=
  mkFun "sgtin" (Some "sgtin.SGTIN") KPlain ["self"; "gtin_type"] [("gtin_type", (EAttr (EName "GTIN_TYPE") "GTIN14"))] None [] None
   [SReturn (Some (ECall (EAttr (EName "self") "gtin") [] None [("gtin_type", (EName "gtin_type"))] None))].

(** sgtin.py:207-224 *)
Definition f_sgtin_SGTIN_gtin : fundef :=
  mkFun "sgtin" (Some "sgtin.SGTIN") KPlain ["self"; "gtin_type"] [("gtin_type", (EAttr (EName "GTIN_TYPE") "GTIN14"))] None [] None
   [SIf (ECmp (EName "gtin_type") [(CmpNe, (EAttr (EName "GTIN_TYPE") "GTIN14"))])
     [SIf (ENot (ECall (EAttr (EAttr (EName "self") "_gtin") "startswith") [(EBin OpMul (EBin OpSub (EConst (CInt 14)) (EName "gtin_type")) (EConst (CStr "0")))] None [] None))
       [SRaise (ECall (EName "ConvertException") [] None [("message", (EJoined [(EConst (CStr "Invalid GTIN")); (EFormat (EName "gtin_type") None)]))] None)]
       []]
     [];
    SReturn (Some (ESlice (EAttr (EName "self") "_gtin") (Some (EBin OpSub (EConst (CInt 14)) (EName "gtin_type"))) (Some (EConst (CInt 14))) None))].

(** sgtin.py:226-235 *)
Definition f_sgtin_SGTIN_gs1_element_string : fundef :=
  mkFun "sgtin" (Some "sgtin.SGTIN") KPlain ["self"] [] None [] None
   [SAssign (TName "gtin") (EAttr (EName "self") "_gtin");
    SAssign (TName "serial") (ECall (EName "replace_uri_escapes") [(EAttr (EName "self") "_serial")] None [] None);
    SReturn (Some (EJoined [(EConst (CStr "(01)")); (EFormat (EName "gtin") None); (EConst (CStr "(21)")); (EFormat (EName "serial") None)]))].

(** sgtin.py:238-263 *)
Definition f_sgtin_SGTIN_from_gs1_element_string : fundef :=
  mkFun "sgtin" (Some "sgtin.SGTIN") KClass ["cls"; "gs1_element_string"; "company_prefix_length"] [] None [] None
   [SIf (ENot (ECall (EAttr (EAttr (EName "SGTIN") "gs1_element_string_regex") "fullmatch") [(EName "gs1_element_string")] None [] None))
     [SRaise (ECall (EName "ConvertException") [] None [("message", (EJoined [(EConst (CStr "Invalid SGTIN GS1 element string ")); (EFormat (EName "gs1_element_string") None)]))] None)]
     [];
    SAssign (TTuple [(TName "_"); (TName "digits"); (TName "chars")] None) (ECall (EAttr (EName "re") "split") [(EJoined [(EConst (CStr "\(.{2}\)"))]); (EName "gs1_element_string")] None [] None);
    SAssign (TName "chars") (ECall (EName "revert_uri_escapes") [(EName "chars")] None [] None);
    SReturn (Some (ECall (EName "cls") [(EJoined [(EConst (CStr "urn:epc:id:sgtin:")); (EFormat (ESlice (EName "digits") (Some (EConst (CInt 1))) (Some (EBin OpAdd (EName "company_prefix_length") (EConst (CInt 1)))) None) None); (EConst (CStr ".")); (EFormat (EIndex (EName "digits") (EConst (CInt 0))) None); (EFormat (ESlice (EName "digits") (Some (EBin OpAdd (EConst (CInt 1)) (EName "company_prefix_length"))) (Some (ENeg (EConst (CInt 1)))) None) None); (EConst (CStr ".")); (EFormat (EName "chars") None)])] None [] None))].

(** sgtin.py:265-294 *)
Definition f_sgtin_SGTIN_tag_uri : fundef :=
  mkFun "sgtin" (Some "sgtin.SGTIN") KPlain ["self"; "binary_coding_scheme"; "filter_value"] [] None [] None
   [SIf (EAnd [(ECmp (EName "binary_coding_scheme") [(CmpEq, (EAttr (EAttr (EName "SGTIN") "BinaryCodingScheme") "SGTIN_96"))]); (EOr [(ENot (ECall (EAttr (EAttr (EName "self") "_serial") "isnumeric") [] None [] None)); (ECmp (ECall (EName "int") [(EAttr (EName "self") "_serial")] None [] None) [(CmpGe, (ECall (EName "pow") [(EConst (CInt 2)); (EConst (CInt 38))] None [] None))]); (EAnd [(ECmp (ECall (EName "len") [(EAttr (EName "self") "_serial")] None [] None) [(CmpGt, (EConst (CInt 1)))]); (ECmp (EIndex (EAttr (EName "self") "_serial") (EConst (CInt 0))) [(CmpEq, (EConst (CStr "0")))])])])])
     [SRaise (ECall (EName "ConvertException") [] None [("message", (EJoined [(EConst (CStr "Invalid serial value ")); (EFormat (EAttr (EName "self") "_serial") None); (EConst (CStr " for SGTIN_96 coding scheme"))]))] None)]
     [];
    SAssign (TName "scheme") (EAttr (EName "binary_coding_scheme") "value");
    SAssign (TName "filter_val") (EAttr (EName "filter_value") "value");
    SReturn (Some (EJoined [(EFormat (EAttr (EName "self") "TAG_URI_PREFIX") None); (EFormat (EName "scheme") None); (EConst (CStr ":")); (EFormat (EName "filter_val") None); (EConst (CStr ".")); (EFormat (EAttr (EName "self") "_company_pref") None); (EConst (CStr ".")); (EFormat (EAttr (EName "self") "_item_ref") None); (EConst (CStr ".")); (EFormat (EAttr (EName "self") "_serial") None)]))].

(** sgtin.py:296-322 *)
Definition f_sgtin_SGTIN_binary : fundef :=
  mkFun "sgtin" (Some "sgtin.SGTIN") KPlain ["self"; "binary_coding_scheme"; "filter_value"] [] None [] None
   [SAssign (TName "parts") (EList [(EAttr (EName "self") "_company_pref"); (EAttr (EName "self") "_item_ref")]);
    SAssign (TName "header") (EAttr (EIndex (EAttr (EName "SGTIN") "BinaryHeader") (EAttr (EName "binary_coding_scheme") "name")) "value");
    SAssign (TName "filter_binary") (ECall (EName "str_to_binary") [(EAttr (EName "filter_value") "value"); (EConst (CInt 3))] None [] None);
    SAssign (TName "gtin_binary") (ECall (EName "encode_partition_table") [(EName "parts"); (EName "PARTITION_TABLE_L")] None [] None);
    SAssign (TName "serial_binary") (EIf (ECmp (EName "binary_coding_scheme") [(CmpEq, (EAttr (EAttr (EName "SGTIN") "BinaryCodingScheme") "SGTIN_96"))]) (ECall (EName "str_to_binary") [(EAttr (EName "self") "_serial"); (EConst (CInt 38))] None [] None) (ECall (EName "encode_string") [(EAttr (EName "self") "_serial"); (EConst (CInt 140))] None [] None));
    SReturn (Some (EBin OpAdd (EBin OpAdd (EBin OpAdd (EName "header") (EName "filter_binary")) (EName "gtin_binary")) (EName "serial_binary")))].

(** sgtin.py:325-354 *)
Definition f_sgtin_SGTIN_from_binary : fundef :=
  mkFun "sgtin" (Some "sgtin.SGTIN") KClass ["cls"; "binary_string"] [] None [] None
   [SAssign (TTuple [(TName "binary_coding_scheme"); (TName "truncated_binary")] None) (ECall (EName "parse_header_and_truncate_binary") [(EName "binary_string"); (ECall (EAttr (EName "cls") "header_to_schemes") [] None [] None)] None [] None);
    SAssign (TName "filter_binary") (ESlice (EName "truncated_binary") (Some (EConst (CInt 8))) (Some (EConst (CInt 11))) None);
    SAssign (TName "gtin_binary") (ESlice (EName "truncated_binary") (Some (EConst (CInt 11))) (Some (EConst (CInt 58))) None);
    SAssign (TName "serial_binary") (ESlice (EName "truncated_binary") (Some (EConst (CInt 58))) None None);
    SAssign (TName "filter_string") (ECall (EName "binary_to_int") [(EName "filter_binary")] None [] None);
    SAssign (TName "gtin_string") (ECall (EName "decode_partition_table") [(EName "gtin_binary"); (EName "PARTITION_TABLE_P")] None [] None);
    SAssign (TName "serial_string") (EIf (ECmp (EName "binary_coding_scheme") [(CmpEq, (EAttr (EAttr (EName "SGTIN") "BinaryCodingScheme") "SGTIN_96"))]) (ECall (EName "binary_to_int") [(EName "serial_binary")] None [] None) (ECall (EName "decode_string") [(EName "serial_binary")] None [] None));
    SReturn (Some (ECall (EAttr (EName "cls") "from_tag_uri") [(EJoined [(EFormat (EAttr (EName "cls") "TAG_URI_PREFIX") None); (EFormat (EAttr (EName "binary_coding_scheme") "value") None); (EConst (CStr ":")); (EFormat (EName "filter_string") None); (EConst (CStr ".")); (EFormat (EName "gtin_string") None); (EConst (CStr ".")); (EFormat (EName "serial_string") None)])] None [] None))].

(** epcpy/epc_schemes/sgtin.py *)
Definition m_sgtin : list top :=
  [TImport "re";
   TFrom "enum" ["Enum"; "IntEnum"];
   TFrom "base_scheme" ["GS1Keyed"; "TagEncodable"];
   TFrom "common" ["ConvertException"; "binary_to_int"; "calculate_checksum"; "decode_partition_table"; "decode_string"; "encode_partition_table"; "encode_string"; "parse_header_and_truncate_binary"; "replace_uri_escapes"; "revert_uri_escapes"; "str_to_binary"; "verify_gs3a3_component"];
   TFrom "regex" ["SGTIN_GS1_ELEMENT_STRING"; "SGTIN_URI"];
   TAssign "SGTIN_REGEX" (ECall (EAttr (EName "re") "compile") [(EName "SGTIN_URI")] None [] None);
   TAssign "PARTITION_TABLE_P" (EDict [((EConst (CInt 0)), (EDict [((EConst (CStr "P")), (EConst (CInt 0))); ((EConst (CStr "M")), (EConst (CInt 40))); ((EConst (CStr "L")), (EConst (CInt 12))); ((EConst (CStr "N")), (EConst (CInt 4))); ((EConst (CStr "K")), (EConst (CInt 1)))])); ((EConst (CInt 1)), (EDict [((EConst (CStr "P")), (EConst (CInt 1))); ((EConst (CStr "M")), (EConst (CInt 37))); ((EConst (CStr "L")), (EConst (CInt 11))); ((EConst (CStr "N")), (EConst (CInt 7))); ((EConst (CStr "K")), (EConst (CInt 2)))])); ((EConst (CInt 2)), (EDict [((EConst (CStr "P")), (EConst (CInt 2))); ((EConst (CStr "M")), (EConst (CInt 34))); ((EConst (CStr "L")), (EConst (CInt 10))); ((EConst (CStr "N")), (EConst (CInt 10))); ((EConst (CStr "K")), (EConst (CInt 3)))])); ((EConst (CInt 3)), (EDict [((EConst (CStr "P")), (EConst (CInt 3))); ((EConst (CStr "M")), (EConst (CInt 30))); ((EConst (CStr "L")), (EConst (CInt 9))); ((EConst (CStr "N")), (EConst (CInt 14))); ((EConst (CStr "K")), (EConst (CInt 4)))])); ((EConst (CInt 4)), (EDict [((EConst (CStr "P")), (EConst (CInt 4))); ((EConst (CStr "M")), (EConst (CInt 27))); ((EConst (CStr "L")), (EConst (CInt 8))); ((EConst (CStr "N")), (EConst (CInt 17))); ((EConst (CStr "K")), (EConst (CInt 5)))])); ((EConst (CInt 5)), (EDict [((EConst (CStr "P")), (EConst (CInt 5))); ((EConst (CStr "M")), (EConst (CInt 24))); ((EConst (CStr "L")), (EConst (CInt 7))); ((EConst (CStr "N")), (EConst (CInt 20))); ((EConst (CStr "K")), (EConst (CInt 6)))])); ((EConst (CInt 6)), (EDict [((EConst (CStr "P")), (EConst (CInt 6))); ((EConst (CStr "M")), (EConst (CInt 20))); ((EConst (CStr "L")), (EConst (CInt 6))); ((EConst (CStr "N")), (EConst (CInt 24))); ((EConst (CStr "K")), (EConst (CInt 7)))]))]);
   TAssign "PARTITION_TABLE_L" (EDict [((EConst (CInt 12)), (EIndex (EName "PARTITION_TABLE_P") (EConst (CInt 0)))); ((EConst (CInt 11)), (EIndex (EName "PARTITION_TABLE_P") (EConst (CInt 1)))); ((EConst (CInt 10)), (EIndex (EName "PARTITION_TABLE_P") (EConst (CInt 2)))); ((EConst (CInt 9)), (EIndex (EName "PARTITION_TABLE_P") (EConst (CInt 3)))); ((EConst (CInt 8)), (EIndex (EName "PARTITION_TABLE_P") (EConst (CInt 4)))); ((EConst (CInt 7)), (EIndex (EName "PARTITION_TABLE_P") (EConst (CInt 5)))); ((EConst (CInt 6)), (EIndex (EName "PARTITION_TABLE_P") (EConst (CInt 6))))]);
   TClass "SGTINFilterValue" [(EName "Enum")]
    [TAssign "ALL_OTHERS" (EConst (CStr "0"));
     TAssign "POS_ITEM" (EConst (CStr "1"));
     TAssign "FULL_CASE" (EConst (CStr "2"));
     TAssign "RESERVED_3" (EConst (CStr "3"));
     TAssign "INNER_PACK" (EConst (CStr "4"));
     TAssign "RESERVED_5" (EConst (CStr "5"));
     TAssign "UNIT_LOAD" (EConst (CStr "6"));
     TAssign "COMPONENT" (EConst (CStr "7"))];
   TClass "GTIN_TYPE" [(EName "IntEnum")]
    [TAssign "GTIN8" (ETuple [(EConst (CInt 8))]);
     TAssign "GTIN12" (ETuple [(EConst (CInt 12))]);
     TAssign "GTIN13" (ETuple [(EConst (CInt 13))]);
     TAssign "GTIN14" (EConst (CInt 14))];
   TClass "SGTIN" [(EName "TagEncodable"); (EName "GS1Keyed")]
    [TClass "BinaryCodingScheme" [(EName "Enum")]
      [TAssign "SGTIN_96" (EConst (CStr "sgtin-96"));
       TAssign "SGTIN_198" (EConst (CStr "sgtin-198"))];
     TClass "BinaryHeader" [(EName "Enum")]
      [TAssign "SGTIN_96" (EConst (CStr "00110000"));
       TAssign "SGTIN_198" (EConst (CStr "00110110"))];
     TAssign "gs1_element_string_regex" (ECall (EAttr (EName "re") "compile") [(EName "SGTIN_GS1_ELEMENT_STRING")] None [] None);
     TFun "__init__";
     TFun "from_gtin_plus_serial";
     TFun "gs1_key";
     TFun "gtin";
     TFun "gs1_element_string";
     TFun "from_gs1_element_string";
     TFun "tag_uri";
     TFun "binary";
     TFun "from_binary"]].
