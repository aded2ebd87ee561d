(** epcpy/epc_schemes/gdti.py
    Written by a program from the syntax trees of the source text: docstrings and annotations are left out, nothing else. *)
From Coq Require Import String ZArith List.
From Verif.Model Require Import Syntax.
Import ListNotations.
Open Scope string_scope.
Open Scope Z_scope.
Open Scope list_scope.

(** gdti.py:132-155 *)
Definition f_gdti_GDTI___init__ : fundef :=
  mkFun "gdti" (Some "gdti.GDTI") KPlain ["self"; "epc_uri"] [] None [] None
   [SExpr (ECall (EAttr (ECall (EName "super") [] None [] None) "__init__") [(EName "epc_uri")] None [] None);
    SIf (ENot (ECall (EAttr (EName "GDTI_URI_REGEX") "fullmatch") [(EName "epc_uri")] None [] None))
     [SRaise (ECall (EName "ConvertException") [] None [("message", (EJoined [(EConst (CStr "Invalid GDTI URI ")); (EFormat (EName "epc_uri") None)]))] None)]
     [];
    SAssign (TSelf "_serial") (ECall (EAttr (EConst (CStr ".")) "join") [(ESlice (ECall (EAttr (ECall (EAttr (EConst (CStr ":")) "join") [(ESlice (ECall (EAttr (EName "epc_uri") "split") [(EConst (CStr ":"))] None [] None) (Some (EConst (CInt 4))) None None)] None [] None) "split") [(EConst (CStr "."))] None [] None) (Some (EConst (CInt 2))) None None)] None [] None);
    SExpr (ECall (EName "verify_gs3a3_component") [(EAttr (EName "self") "_serial")] None [] None);
    SAssign (TTuple [(TSelf "_company_pref"); (TSelf "_doc_type")] None) (ESlice (ECall (EAttr (EIndex (ECall (EAttr (EName "epc_uri") "split") [(EConst (CStr ":"))] None [] None) (EConst (CInt 4))) "split") [(EConst (CStr "."))] None [] None) None (Some (EConst (CInt 2))) None);
    SIf (EOr [(ECmp (ECall (EName "len") [(EJoined [(EFormat (EAttr (EName "self") "_company_pref") None); (EFormat (EAttr (EName "self") "_doc_type") None)])] None [] None) [(CmpNe, (EConst (CInt 12)))]); (ECmp (ECall (EName "len") [(EAttr (EName "self") "_serial")] None [] None) [(CmpGt, (EConst (CInt 17)))]); (ENot (ECmp (EConst (CInt 6)) [(CmpLe, (ECall (EName "len") [(EAttr (EName "self") "_company_pref")] None [] None)); (CmpLe, (EConst (CInt 12)))]))])
     [SRaise (ECall (EName "ConvertException") [] None [("message", (EJoined [(EConst (CStr "Invalid GDTI URI ")); (EFormat (EName "epc_uri") None); (EConst (CStr " | Company prefix + document type must be 12 digits"))]))] None)]
     [];
    SAssign (TSelf "epc_uri") (EName "epc_uri");
    SAssign (TName "check_digit") (ECall (EName "calculate_checksum") [(EJoined [(EFormat (EAttr (EName "self") "_company_pref") None); (EFormat (EAttr (EName "self") "_doc_type") None)])] None [] None);
    SAssign (TSelf "_gdti") (EJoined [(EFormat (EAttr (EName "self") "_company_pref") None); (EFormat (EAttr (EName "self") "_doc_type") None); (EFormat (EName "check_digit") None); (EFormat (ECall (EName "replace_uri_escapes") [(EAttr (EName "self") "_serial")] None [] None) None)])].

(** gdti.py:157-163 *)
Definition f_gdti_GDTI_gs1_key : fundef :=
  mkFun "gdti" (Some "gdti.GDTI") KPlain ["self"] [] None [] None
   [SReturn (Some (EAttr (EName "self") "_gdti"))].

(** gdti.py:165-171 *)
Definition f_gdti_GDTI_gs1_element_string : fundef :=
  mkFun "gdti" (Some "gdti.GDTI") KPlain ["self"] [] None [] None
   [SReturn (Some (EJoined [(EConst (CStr "(253)")); (EFormat (EAttr (EName "self") "_gdti") None)]))].

(** gdti.py:174-200 *)
Definition f_gdti_GDTI_from_gs1_element_string : fundef :=
  mkFun "gdti" (Some "gdti.GDTI") KClass ["cls"; "gs1_element_string"; "company_prefix_length"] [] None [] None
   [SIf (ENot (ECall (EAttr (EAttr (EName "GDTI") "gs1_element_string_regex") "fullmatch") [(EName "gs1_element_string")] None [] None))
     [SRaise (ECall (EName "ConvertException") [] None [("message", (EJoined [(EConst (CStr "Invalid GDTI GS1 element string ")); (EFormat (EName "gs1_element_string") None)]))] None)]
     [];
    SAssign (TName "digits") (ESlice (EName "gs1_element_string") (Some (EConst (CInt 5))) (Some (EConst (CInt 18))) None);
    SAssign (TName "chars") (ESlice (EName "gs1_element_string") (Some (EConst (CInt 18))) None None);
    SAssign (TName "chars") (ECall (EName "revert_uri_escapes") [(EName "chars")] None [] None);
    SReturn (Some (ECall (EName "cls") [(EJoined [(EConst (CStr "urn:epc:id:gdti:")); (EFormat (ESlice (EName "digits") None (Some (EName "company_prefix_length")) None) None); (EConst (CStr ".")); (EFormat (ESlice (EName "digits") (Some (EName "company_prefix_length")) (Some (ENeg (EConst (CInt 1)))) None) None); (EConst (CStr ".")); (EFormat (EName "chars") None)])] None [] None))].

(** gdti.py:202-235 *)
Definition f_gdti_GDTI_tag_uri : fundef :=
  mkFun "gdti" (Some "gdti.GDTI") KPlain ["self"; "binary_coding_scheme"; "filter_value"] [] None [] None
   [SAssign (TName "scheme") (EAttr (EName "binary_coding_scheme") "value");
    SAssign (TName "filter_val") (EAttr (EName "filter_value") "value");
    SIf (EOr [(EAnd [(ECmp (EName "scheme") [(CmpEq, (EAttr (EAttr (EAttr (EName "GDTI") "BinaryCodingScheme") "GDTI_174") "value"))]); (ECmp (ECall (EName "len") [(ECall (EName "replace_uri_escapes") [(EAttr (EName "self") "_serial")] None [] None)] None [] None) [(CmpGt, (EConst (CInt 17)))])]); (EAnd [(ECmp (EName "scheme") [(CmpEq, (EAttr (EAttr (EAttr (EName "GDTI") "BinaryCodingScheme") "GDTI_96") "value"))]); (EOr [(ENot (ECall (EAttr (EAttr (EName "self") "_serial") "isnumeric") [] None [] None)); (ECmp (ECall (EName "int") [(EAttr (EName "self") "_serial")] None [] None) [(CmpGe, (ECall (EName "pow") [(EConst (CInt 2)); (EConst (CInt 41))] None [] None))]); (EAnd [(ECmp (ECall (EName "len") [(EAttr (EName "self") "_serial")] None [] None) [(CmpGt, (EConst (CInt 1)))]); (ECmp (EIndex (EAttr (EName "self") "_serial") (EConst (CInt 0))) [(CmpEq, (EConst (CStr "0")))])])])])])
     [SRaise (ECall (EName "ConvertException") [] None [("message", (EJoined [(EConst (CStr "Invalid serial value ")); (EFormat (EAttr (EName "self") "_serial") None)]))] None)]
     [];
    SReturn (Some (EJoined [(EFormat (EAttr (EName "self") "TAG_URI_PREFIX") None); (EFormat (EName "scheme") None); (EConst (CStr ":")); (EFormat (EName "filter_val") None); (EConst (CStr ".")); (EFormat (EAttr (EName "self") "_company_pref") None); (EConst (CStr ".")); (EFormat (EAttr (EName "self") "_doc_type") None); (EConst (CStr ".")); (EFormat (EAttr (EName "self") "_serial") None)]))].

(** gdti.py:237-263 *)
Definition f_gdti_GDTI_binary : fundef :=
  mkFun "gdti" (Some "gdti.GDTI") KPlain ["self"; "binary_coding_scheme"; "filter_value"] [] None [] None
   [SAssign (TName "parts") (EList [(EAttr (EName "self") "_company_pref"); (EAttr (EName "self") "_doc_type")]);
    SAssign (TName "header") (EAttr (EIndex (EAttr (EName "GDTI") "BinaryHeader") (EAttr (EName "binary_coding_scheme") "name")) "value");
    SAssign (TName "filter_binary") (ECall (EName "str_to_binary") [(EAttr (EName "filter_value") "value"); (EConst (CInt 3))] None [] None);
    SAssign (TName "gdti_binary") (ECall (EName "encode_partition_table") [(EName "parts"); (EName "PARTITION_TABLE_L")] None [] None);
    SAssign (TName "serial_binary") (EIf (ECmp (EName "binary_coding_scheme") [(CmpEq, (EAttr (EAttr (EName "GDTI") "BinaryCodingScheme") "GDTI_96"))]) (ECall (EName "str_to_binary") [(EAttr (EName "self") "_serial"); (EConst (CInt 41))] None [] None) (ECall (EName "encode_string") [(EAttr (EName "self") "_serial"); (EConst (CInt 119))] None [] None));
    SAssign (TName "_binary") (EBin OpAdd (EBin OpAdd (EBin OpAdd (EName "header") (EName "filter_binary")) (EName "gdti_binary")) (EName "serial_binary"));
    SReturn (Some (EName "_binary"))].

(** gdti.py:266-294 *)
Definition f_gdti_GDTI_from_binary : fundef :=
  mkFun "gdti" (Some "gdti.GDTI") KClass ["cls"; "binary_string"] [] None [] None
   [SAssign (TTuple [(TName "binary_coding_scheme"); (TName "truncated_binary")] None) (ECall (EName "parse_header_and_truncate_binary") [(EName "binary_string"); (ECall (EAttr (EName "cls") "header_to_schemes") [] None [] None)] None [] None);
    SAssign (TName "filter_binary") (ESlice (EName "truncated_binary") (Some (EConst (CInt 8))) (Some (EConst (CInt 11))) None);
    SAssign (TName "gdti_binary") (ESlice (EName "truncated_binary") (Some (EConst (CInt 11))) (Some (EConst (CInt 55))) None);
    SAssign (TName "serial_binary") (ESlice (EName "truncated_binary") (Some (EConst (CInt 55))) None None);
    SAssign (TName "filter_string") (ECall (EName "binary_to_int") [(EName "filter_binary")] None [] None);
    SAssign (TName "gdti_string") (ECall (EName "decode_partition_table") [(EName "gdti_binary"); (EName "PARTITION_TABLE_P")] None [] None);
    SAssign (TName "serial_string") (EIf (ECmp (EName "binary_coding_scheme") [(CmpEq, (EAttr (EAttr (EName "GDTI") "BinaryCodingScheme") "GDTI_96"))]) (ECall (EName "binary_to_int") [(EName "serial_binary")] None [] None) (ECall (EName "decode_string") [(EName "serial_binary")] None [] None));
    SReturn (Some (ECall (EAttr (EName "cls") "from_tag_uri") [(EJoined [(EFormat (EAttr (EName "cls") "TAG_URI_PREFIX") None); (EFormat (EAttr (EName "binary_coding_scheme") "value") None); (EConst (CStr ":")); (EFormat (EName "filter_string") None); (EConst (CStr ".")); (EFormat (EName "gdti_string") None); (EConst (CStr ".")); (EFormat (EName "serial_string") None)])] None [] None))].

(** epcpy/epc_schemes/gdti.py *)
Definition m_gdti : list top :=
  [TImport "re";
   TFrom "enum" ["Enum"];
   TFrom "base_scheme" ["GS1Keyed"; "TagEncodable"];
   TFrom "common" ["ConvertException"; "binary_to_int"; "calculate_checksum"; "decode_partition_table"; "decode_string"; "encode_partition_table"; "encode_string"; "parse_header_and_truncate_binary"; "replace_uri_escapes"; "revert_uri_escapes"; "str_to_binary"; "verify_gs3a3_component"];
   TFrom "regex" ["GDTI_GS1_ELEMENT_STRING"; "GDTI_URI"];
   TAssign "GDTI_URI_REGEX" (ECall (EAttr (EName "re") "compile") [(EName "GDTI_URI")] None [] None);
   TAssign "PARTITION_TABLE_P" (EDict [((EConst (CInt 0)), (EDict [((EConst (CStr "P")), (EConst (CInt 0))); ((EConst (CStr "M")), (EConst (CInt 40))); ((EConst (CStr "L")), (EConst (CInt 12))); ((EConst (CStr "N")), (EConst (CInt 1))); ((EConst (CStr "K")), (EConst (CInt 0)))])); ((EConst (CInt 1)), (EDict [((EConst (CStr "P")), (EConst (CInt 1))); ((EConst (CStr "M")), (EConst (CInt 37))); ((EConst (CStr "L")), (EConst (CInt 11))); ((EConst (CStr "N")), (EConst (CInt 4))); ((EConst (CStr "K")), (EConst (CInt 1)))])); ((EConst (CInt 2)), (EDict [((EConst (CStr "P")), (EConst (CInt 2))); ((EConst (CStr "M")), (EConst (CInt 34))); ((EConst (CStr "L")), (EConst (CInt 10))); ((EConst (CStr "N")), (EConst (CInt 7))); ((EConst (CStr "K")), (EConst (CInt 2)))])); ((EConst (CInt 3)), (EDict [((EConst (CStr "P")), (EConst (CInt 3))); ((EConst (CStr "M")), (EConst (CInt 30))); ((EConst (CStr "L")), (EConst (CInt 9))); ((EConst (CStr "N")), (EConst (CInt 11))); ((EConst (CStr "K")), (EConst (CInt 3)))])); ((EConst (CInt 4)), (EDict [((EConst (CStr "P")), (EConst (CInt 4))); ((EConst (CStr "M")), (EConst (CInt 27))); ((EConst (CStr "L")), (EConst (CInt 8))); ((EConst (CStr "N")), (EConst (CInt 14))); ((EConst (CStr "K")), (EConst (CInt 4)))])); ((EConst (CInt 5)), (EDict [((EConst (CStr "P")), (EConst (CInt 5))); ((EConst (CStr "M")), (EConst (CInt 24))); ((EConst (CStr "L")), (EConst (CInt 7))); ((EConst (CStr "N")), (EConst (CInt 17))); ((EConst (CStr "K")), (EConst (CInt 5)))])); ((EConst (CInt 6)), (EDict [((EConst (CStr "P")), (EConst (CInt 6))); ((EConst (CStr "M")), (EConst (CInt 20))); ((EConst (CStr "L")), (EConst (CInt 6))); ((EConst (CStr "N")), (EConst (CInt 21))); ((EConst (CStr "K")), (EConst (CInt 6)))]))]);
   TAssign "PARTITION_TABLE_L" (EDict [((EConst (CInt 12)), (EIndex (EName "PARTITION_TABLE_P") (EConst (CInt 0)))); ((EConst (CInt 11)), (EIndex (EName "PARTITION_TABLE_P") (EConst (CInt 1)))); ((EConst (CInt 10)), (EIndex (EName "PARTITION_TABLE_P") (EConst (CInt 2)))); ((EConst (CInt 9)), (EIndex (EName "PARTITION_TABLE_P") (EConst (CInt 3)))); ((EConst (CInt 8)), (EIndex (EName "PARTITION_TABLE_P") (EConst (CInt 4)))); ((EConst (CInt 7)), (EIndex (EName "PARTITION_TABLE_P") (EConst (CInt 5)))); ((EConst (CInt 6)), (EIndex (EName "PARTITION_TABLE_P") (EConst (CInt 6))))]);
   TClass "GDTIFilterValue" [(EName "Enum")]
    [TAssign "ALL_OTHERS" (EConst (CStr "0"));
     TAssign "TRAVEL_DOCUMENT" (EConst (CStr "1"));
     TAssign "RESERVED_2" (EConst (CStr "2"));
     TAssign "RESERVED_3" (EConst (CStr "3"));
     TAssign "RESERVED_4" (EConst (CStr "4"));
     TAssign "RESERVED_5" (EConst (CStr "5"));
     TAssign "RESERVED_6" (EConst (CStr "6"));
     TAssign "RESERVED_7" (EConst (CStr "7"))];
   TClass "GDTI" [(EName "TagEncodable"); (EName "GS1Keyed")]
    [TClass "BinaryCodingScheme" [(EName "Enum")]
      [TAssign "GDTI_96" (EConst (CStr "gdti-96"));
       TAssign "GDTI_174" (EConst (CStr "gdti-174"))];
     TClass "BinaryHeader" [(EName "Enum")]
      [TAssign "GDTI_96" (EConst (CStr "00101100"));
       TAssign "GDTI_174" (EConst (CStr "00111110"))];
     TAssign "gs1_element_string_regex" (ECall (EAttr (EName "re") "compile") [(EName "GDTI_GS1_ELEMENT_STRING")] None [] None);
     TFun "__init__";
     TFun "gs1_key";
     TFun "gs1_element_string";
     TFun "from_gs1_element_string";
     TFun "tag_uri";
     TFun "binary";
     TFun "from_binary"]].
