(** epcpy/epc_schemes/sgcn.py
    Written by a program from the syntax trees of the source text: docstrings and annotations are left out, nothing else. *)
From Coq Require Import String ZArith List.
From Verif.Model Require Import Syntax.
Import ListNotations.
Open Scope string_scope.
Open Scope Z_scope.
Open Scope list_scope.

(** sgcn.py:129-151 *)
Definition f_sgcn_SGCN___init__ : fundef :=
  mkFun "sgcn" (Some "sgcn.SGCN") KPlain ["self"; "epc_uri"] [] None [] None
   [SExpr (ECall (EAttr (ECall (EName "super") [] None [] None) "__init__") [(EName "epc_uri")] None [] None);
    SIf (ENot (ECall (EAttr (EName "SGCN_URI_REGEX") "fullmatch") [(EName "epc_uri")] None [] None))
     [SRaise (ECall (EName "ConvertException") [] None [("message", (EJoined [(EConst (CStr "Invalid SGCN URI ")); (EFormat (EName "epc_uri") None)]))] None)]
     [];
    SAssign (TTuple [(TSelf "_company_pref"); (TSelf "_coupon_ref"); (TSelf "_serial")] None) (ECall (EAttr (EIndex (ECall (EAttr (EName "epc_uri") "split") [(EConst (CStr ":"))] None [] None) (EConst (CInt 4))) "split") [(EConst (CStr "."))] None [] None);
    SIf (EOr [(ECmp (ECall (EName "len") [(EJoined [(EFormat (EAttr (EName "self") "_company_pref") None); (EFormat (EAttr (EName "self") "_coupon_ref") None)])] None [] None) [(CmpNe, (EConst (CInt 12)))]); (ECmp (ECall (EName "len") [(EAttr (EName "self") "_serial")] None [] None) [(CmpGt, (EConst (CInt 12)))]); (ENot (ECmp (EConst (CInt 6)) [(CmpLe, (ECall (EName "len") [(EAttr (EName "self") "_company_pref")] None [] None)); (CmpLe, (EConst (CInt 12)))]))])
     [SRaise (ECall (EName "ConvertException") [] None [("message", (EJoined [(EConst (CStr "Invalid SGCN URI ")); (EFormat (EName "epc_uri") None); (EConst (CStr " | wrong number of digits"))]))] None)]
     [];
    SAssign (TSelf "epc_uri") (EName "epc_uri");
    SAssign (TName "check_digit") (ECall (EName "calculate_checksum") [(EJoined [(EFormat (EAttr (EName "self") "_company_pref") None); (EFormat (EAttr (EName "self") "_coupon_ref") None)])] None [] None);
    SAssign (TSelf "_gcn") (EJoined [(EFormat (EAttr (EName "self") "_company_pref") None); (EFormat (EAttr (EName "self") "_coupon_ref") None); (EFormat (EName "check_digit") None); (EFormat (EAttr (EName "self") "_serial") None)])].

(** sgcn.py:153-159 *)
Definition f_sgcn_SGCN_gs1_key : fundef :=
  mkFun "sgcn" (Some "sgcn.SGCN") KPlain ["self"] [] None [] None
   [SReturn (Some (EAttr (EName "self") "_gcn"))].

(** sgcn.py:161-167 *)
Definition f_sgcn_SGCN_gs1_element_string : fundef :=
  mkFun "sgcn" (Some "sgcn.SGCN") KPlain ["self"] [] None [] None
   [SReturn (Some (EJoined [(EConst (CStr "(255)")); (EFormat (EAttr (EName "self") "_gcn") None)]))].

(** sgcn.py:170-196 *)
Definition f_sgcn_SGCN_from_gs1_element_string : fundef :=
  mkFun "sgcn" (Some "sgcn.SGCN") KClass ["cls"; "gs1_element_string"; "company_prefix_length"] [] None [] None
   [SIf (ENot (ECall (EAttr (EAttr (EName "SGCN") "gs1_element_string_regex") "fullmatch") [(EName "gs1_element_string")] None [] None))
     [SRaise (ECall (EName "ConvertException") [] None [("message", (EJoined [(EConst (CStr "Invalid SGCN GS1 element string ")); (EFormat (EName "gs1_element_string") None)]))] None)]
     [];
    SAssign (TName "digits") (ESlice (EName "gs1_element_string") (Some (EConst (CInt 5))) (Some (EConst (CInt 18))) None);
    SAssign (TName "chars") (ESlice (EName "gs1_element_string") (Some (EConst (CInt 18))) None None);
    SAssign (TName "chars") (ECall (EName "revert_uri_escapes") [(EName "chars")] None [] None);
    SReturn (Some (ECall (EName "cls") [(EJoined [(EConst (CStr "urn:epc:id:sgcn:")); (EFormat (ESlice (EName "digits") None (Some (EName "company_prefix_length")) None) None); (EConst (CStr ".")); (EFormat (ESlice (EName "digits") (Some (EName "company_prefix_length")) (Some (ENeg (EConst (CInt 1)))) None) None); (EConst (CStr ".")); (EFormat (EName "chars") None)])] None [] None))].

(** sgcn.py:198-213 *)
Definition f_sgcn_SGCN_tag_uri : fundef :=
  mkFun "sgcn" (Some "sgcn.SGCN") KPlain ["self"; "filter_value"; "binary_coding_scheme"] [("binary_coding_scheme", (EAttr (EName "BinaryCodingScheme") "SGCN_96"))] None [] None
   [SReturn (Some (EJoined [(EFormat (EAttr (EName "self") "TAG_URI_PREFIX") None); (EFormat (EAttr (EName "binary_coding_scheme") "value") None); (EConst (CStr ":")); (EFormat (EAttr (EName "filter_value") "value") None); (EConst (CStr ".")); (EFormat (EAttr (EName "self") "_company_pref") None); (EConst (CStr ".")); (EFormat (EAttr (EName "self") "_coupon_ref") None); (EConst (CStr ".")); (EFormat (EAttr (EName "self") "_serial") None)]))].

(** sgcn.py:215-237 *)
Definition f_sgcn_SGCN_binary : fundef :=
  mkFun "sgcn" (Some "sgcn.SGCN") KPlain ["self"; "filter_value"; "binary_coding_scheme"] [("binary_coding_scheme", (EAttr (EName "BinaryCodingScheme") "SGCN_96"))] None [] None
   [SAssign (TName "parts") (EList [(EAttr (EName "self") "_company_pref"); (EAttr (EName "self") "_coupon_ref")]);
    SAssign (TName "header") (EAttr (EIndex (EAttr (EName "SGCN") "BinaryHeader") (EAttr (EName "binary_coding_scheme") "name")) "value");
    SAssign (TName "filter_binary") (ECall (EName "str_to_binary") [(EAttr (EName "filter_value") "value"); (EConst (CInt 3))] None [] None);
    SAssign (TName "sgcn_binary") (ECall (EName "encode_partition_table") [(EName "parts"); (EName "PARTITION_TABLE_L")] None [] None);
    SAssign (TName "serial_binary") (ECall (EName "encode_numeric_string") [(EAttr (EName "self") "_serial"); (EConst (CInt 41))] None [] None);
    SReturn (Some (EBin OpAdd (EBin OpAdd (EBin OpAdd (EName "header") (EName "filter_binary")) (EName "sgcn_binary")) (EName "serial_binary")))].

(** sgcn.py:240-264 *)
Definition f_sgcn_SGCN_from_binary : fundef :=
  mkFun "sgcn" (Some "sgcn.SGCN") KClass ["cls"; "binary_string"] [] None [] None
   [SAssign (TTuple [(TName "binary_coding_scheme"); (TName "truncated_binary")] None) (ECall (EName "parse_header_and_truncate_binary") [(EName "binary_string"); (ECall (EAttr (EName "cls") "header_to_schemes") [] None [] None)] None [] None);
    SAssign (TName "filter_binary") (ESlice (EName "truncated_binary") (Some (EConst (CInt 8))) (Some (EConst (CInt 11))) None);
    SAssign (TName "sgcn_binary") (ESlice (EName "truncated_binary") (Some (EConst (CInt 11))) (Some (EConst (CInt 55))) None);
    SAssign (TName "serial_binary") (ESlice (EName "truncated_binary") (Some (EConst (CInt 55))) None None);
    SAssign (TName "filter_string") (ECall (EName "binary_to_int") [(EName "filter_binary")] None [] None);
    SAssign (TName "sgcn_string") (ECall (EName "decode_partition_table") [(EName "sgcn_binary"); (EName "PARTITION_TABLE_P")] None [] None);
    SAssign (TName "serial_string") (ECall (EName "decode_numeric_string") [(EName "serial_binary")] None [] None);
    SReturn (Some (ECall (EAttr (EName "cls") "from_tag_uri") [(EJoined [(EFormat (EAttr (EName "cls") "TAG_URI_PREFIX") None); (EFormat (EAttr (EName "binary_coding_scheme") "value") None); (EConst (CStr ":")); (EFormat (EName "filter_string") None); (EConst (CStr ".")); (EFormat (EName "sgcn_string") None); (EConst (CStr ".")); (EFormat (EName "serial_string") None)])] None [] None))].

(** epcpy/epc_schemes/sgcn.py *)
Definition m_sgcn : list top :=
  [TImport "re";
   TFrom "enum" ["Enum"];
   TFrom "base_scheme" ["GS1Keyed"; "TagEncodable"];
   TFrom "common" ["ConvertException"; "binary_to_int"; "calculate_checksum"; "decode_numeric_string"; "decode_partition_table"; "encode_numeric_string"; "encode_partition_table"; "parse_header_and_truncate_binary"; "revert_uri_escapes"; "str_to_binary"];
   TFrom "regex" ["SGCN_GS1_ELEMENT_STRING"; "SGCN_URI"];
   TAssign "SGCN_URI_REGEX" (ECall (EAttr (EName "re") "compile") [(EName "SGCN_URI")] None [] None);
   TAssign "PARTITION_TABLE_P" (EDict [((EConst (CInt 0)), (EDict [((EConst (CStr "P")), (EConst (CInt 0))); ((EConst (CStr "M")), (EConst (CInt 40))); ((EConst (CStr "L")), (EConst (CInt 12))); ((EConst (CStr "N")), (EConst (CInt 1))); ((EConst (CStr "K")), (EConst (CInt 0)))])); ((EConst (CInt 1)), (EDict [((EConst (CStr "P")), (EConst (CInt 1))); ((EConst (CStr "M")), (EConst (CInt 37))); ((EConst (CStr "L")), (EConst (CInt 11))); ((EConst (CStr "N")), (EConst (CInt 4))); ((EConst (CStr "K")), (EConst (CInt 1)))])); ((EConst (CInt 2)), (EDict [((EConst (CStr "P")), (EConst (CInt 2))); ((EConst (CStr "M")), (EConst (CInt 34))); ((EConst (CStr "L")), (EConst (CInt 10))); ((EConst (CStr "N")), (EConst (CInt 7))); ((EConst (CStr "K")), (EConst (CInt 2)))])); ((EConst (CInt 3)), (EDict [((EConst (CStr "P")), (EConst (CInt 3))); ((EConst (CStr "M")), (EConst (CInt 30))); ((EConst (CStr "L")), (EConst (CInt 9))); ((EConst (CStr "N")), (EConst (CInt 11))); ((EConst (CStr "K")), (EConst (CInt 3)))])); ((EConst (CInt 4)), (EDict [((EConst (CStr "P")), (EConst (CInt 4))); ((EConst (CStr "M")), (EConst (CInt 27))); ((EConst (CStr "L")), (EConst (CInt 8))); ((EConst (CStr "N")), (EConst (CInt 14))); ((EConst (CStr "K")), (EConst (CInt 4)))])); ((EConst (CInt 5)), (EDict [((EConst (CStr "P")), (EConst (CInt 5))); ((EConst (CStr "M")), (EConst (CInt 24))); ((EConst (CStr "L")), (EConst (CInt 7))); ((EConst (CStr "N")), (EConst (CInt 17))); ((EConst (CStr "K")), (EConst (CInt 5)))])); ((EConst (CInt 6)), (EDict [((EConst (CStr "P")), (EConst (CInt 6))); ((EConst (CStr "M")), (EConst (CInt 20))); ((EConst (CStr "L")), (EConst (CInt 6))); ((EConst (CStr "N")), (EConst (CInt 21))); ((EConst (CStr "K")), (EConst (CInt 6)))]))]);
   TAssign "PARTITION_TABLE_L" (EDict [((EConst (CInt 12)), (EIndex (EName "PARTITION_TABLE_P") (EConst (CInt 0)))); ((EConst (CInt 11)), (EIndex (EName "PARTITION_TABLE_P") (EConst (CInt 1)))); ((EConst (CInt 10)), (EIndex (EName "PARTITION_TABLE_P") (EConst (CInt 2)))); ((EConst (CInt 9)), (EIndex (EName "PARTITION_TABLE_P") (EConst (CInt 3)))); ((EConst (CInt 8)), (EIndex (EName "PARTITION_TABLE_P") (EConst (CInt 4)))); ((EConst (CInt 7)), (EIndex (EName "PARTITION_TABLE_P") (EConst (CInt 5)))); ((EConst (CInt 6)), (EIndex (EName "PARTITION_TABLE_P") (EConst (CInt 6))))]);
   TClass "SGCNFilterValue" [(EName "Enum")]
    [TAssign "ALL_OTHERS" (EConst (CStr "0"));
     TAssign "RESERVED_1" (EConst (CStr "1"));
     TAssign "RESERVED_2" (EConst (CStr "2"));
     TAssign "RESERVED_3" (EConst (CStr "3"));
     TAssign "RESERVED_4" (EConst (CStr "4"));
     TAssign "RESERVED_5" (EConst (CStr "5"));
     TAssign "RESERVED_6" (EConst (CStr "6"));
     TAssign "RESERVED_7" (EConst (CStr "7"))];
   TClass "SGCN" [(EName "TagEncodable"); (EName "GS1Keyed")]
    [TClass "BinaryCodingScheme" [(EName "Enum")]
      [TAssign "SGCN_96" (EConst (CStr "sgcn-96"))];
     TClass "BinaryHeader" [(EName "Enum")]
      [TAssign "SGCN_96" (EConst (CStr "00111111"))];
     TAssign "gs1_element_string_regex" (ECall (EAttr (EName "re") "compile") [(EName "SGCN_GS1_ELEMENT_STRING")] None [] None);
     TFun "__init__";
     TFun "gs1_key";
     TFun "gs1_element_string";
     TFun "from_gs1_element_string";
     TFun "tag_uri";
     TFun "binary";
     TFun "from_binary"]].
