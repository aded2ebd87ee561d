(** epcpy/epc_schemes/sscc.py
    Written by a program from the syntax trees of the source text: docstrings and annotations are left out, nothing else. *)
From Coq Require Import String ZArith List.
From Verif.Model Require Import Syntax.
Import ListNotations.
Open Scope string_scope.
Open Scope Z_scope.
Open Scope list_scope.

(** sscc.py:125-148 *)
Definition f_sscc_SSCC___init__ : fundef :=
  mkFun "sscc" (Some "sscc.SSCC") KPlain ["self"; "epc_uri"] [] None [] None
   [SExpr (ECall (EAttr (ECall (EName "super") [] None [] None) "__init__") [(EName "epc_uri")] None [] None);
    SIf (ENot (ECall (EAttr (EName "SSCC_URI_REGEX") "fullmatch") [(EName "epc_uri")] None [] None))
     [SRaise (ECall (EName "ConvertException") [] None [("message", (EJoined [(EConst (CStr "Invalid SSCC URI ")); (EFormat (EName "epc_uri") None)]))] None)]
     [];
    SAssign (TSelf "epc_uri") (EName "epc_uri");
    SAssign (TTuple [(TSelf "_company_pref"); (TSelf "_serial")] None) (ECall (EAttr (EIndex (ECall (EAttr (EAttr (EName "self") "epc_uri") "split") [(EConst (CStr ":"))] None [] None) (ENeg (EConst (CInt 1)))) "split") [(EConst (CStr "."))] None [] None);
    SIf (EOr [(ECmp (ECall (EName "len") [(EJoined [(EFormat (EAttr (EName "self") "_company_pref") None); (EFormat (EAttr (EName "self") "_serial") None)])] None [] None) [(CmpNe, (EConst (CInt 17)))]); (ENot (ECmp (EConst (CInt 6)) [(CmpLe, (ECall (EName "len") [(EAttr (EName "self") "_company_pref")] None [] None)); (CmpLe, (EConst (CInt 12)))]))])
     [SRaise (ECall (EName "ConvertException") [] None [("message", (EJoined [(EConst (CStr "Invalid SSCC URI ")); (EFormat (EName "epc_uri") None); (EConst (CStr " | wrong number of digits"))]))] None)]
     [];
    SAssign (TName "check_digit") (ECall (EName "calculate_checksum") [(EJoined [(EFormat (EIndex (EAttr (EName "self") "_serial") (EConst (CInt 0))) None); (EFormat (EAttr (EName "self") "_company_pref") None); (EFormat (ESlice (EAttr (EName "self") "_serial") (Some (EConst (CInt 1))) None None) None)])] None [] None);
    SAssign (TSelf "_sscc") (EJoined [(EFormat (EIndex (EAttr (EName "self") "_serial") (EConst (CInt 0))) None); (EFormat (EAttr (EName "self") "_company_pref") None); (EFormat (ESlice (EAttr (EName "self") "_serial") (Some (EConst (CInt 1))) None None) None); (EFormat (EName "check_digit") None)])].

(** sscc.py:150-156 *)
Definition f_sscc_SSCC_gs1_key : fundef :=
  mkFun "sscc" (Some "sscc.SSCC") KPlain ["self"] [] None [] None
   [SReturn (Some (EAttr (EName "self") "_sscc"))].

(** sscc.py:158-164 *)
Definition f_sscc_SSCC_gs1_element_string : fundef :=
  mkFun "sscc" (Some "sscc.SSCC") KPlain ["self"] [] None [] None
   [SReturn (Some (EJoined [(EConst (CStr "(00)")); (EFormat (EAttr (EName "self") "_sscc") None)]))].

(** sscc.py:167-191 *)
Definition f_sscc_SSCC_from_gs1_element_string : fundef :=
  mkFun "sscc" (Some "sscc.SSCC") KClass ["cls"; "gs1_element_string"; "company_prefix_length"] [] None [] None
   [SIf (ENot (ECall (EAttr (EAttr (EName "SSCC") "gs1_element_string_regex") "fullmatch") [(EName "gs1_element_string")] None [] None))
     [SRaise (ECall (EName "ConvertException") [] None [("message", (EJoined [(EConst (CStr "Invalid SSCC GS1 element string ")); (EFormat (EName "gs1_element_string") None)]))] None)]
     [];
    SAssign (TTuple [(TName "_"); (TName "digits")] None) (ECall (EAttr (EName "re") "split") [(EJoined [(EConst (CStr "\(.{2}\)"))]); (EName "gs1_element_string")] None [] None);
    SReturn (Some (ECall (EName "cls") [(EJoined [(EConst (CStr "urn:epc:id:sscc:")); (EFormat (ESlice (EName "digits") (Some (EConst (CInt 1))) (Some (EBin OpAdd (EName "company_prefix_length") (EConst (CInt 1)))) None) None); (EConst (CStr ".")); (EFormat (EIndex (EName "digits") (EConst (CInt 0))) None); (EFormat (ESlice (EName "digits") (Some (EBin OpAdd (EConst (CInt 1)) (EName "company_prefix_length"))) (Some (ENeg (EConst (CInt 1)))) None) None)])] None [] None))].

(** sscc.py:193-208 *)
Definition f_sscc_SSCC_tag_uri : fundef :=
  mkFun "sscc" (Some "sscc.SSCC") KPlain ["self"; "filter_value"; "binary_coding_scheme"] [("binary_coding_scheme", (EAttr (EName "BinaryCodingScheme") "SSCC_96"))] None [] None
   [SReturn (Some (EJoined [(EFormat (EAttr (EName "self") "TAG_URI_PREFIX") None); (EFormat (EAttr (EName "binary_coding_scheme") "value") None); (EConst (CStr ":")); (EFormat (EAttr (EName "filter_value") "value") None); (EConst (CStr ".")); (EFormat (EAttr (EName "self") "_company_pref") None); (EConst (CStr ".")); (EFormat (EAttr (EName "self") "_serial") None)]))].

(** sscc.py:210-231 *)
Definition f_sscc_SSCC_binary : fundef :=
  mkFun "sscc" (Some "sscc.SSCC") KPlain ["self"; "filter_value"; "binary_coding_scheme"] [("binary_coding_scheme", (EAttr (EName "BinaryCodingScheme") "SSCC_96"))] None [] None
   [SAssign (TName "parts") (EList [(EAttr (EName "self") "_company_pref"); (EAttr (EName "self") "_serial")]);
    SAssign (TName "header") (EAttr (EIndex (EAttr (EName "SSCC") "BinaryHeader") (EAttr (EName "binary_coding_scheme") "name")) "value");
    SAssign (TName "filter_binary") (ECall (EName "str_to_binary") [(EAttr (EName "filter_value") "value"); (EConst (CInt 3))] None [] None);
    SAssign (TName "sscc_binary") (ECall (EName "encode_partition_table") [(EName "parts"); (EName "PARTITION_TABLE_L")] None [] None);
    SReturn (Some (EBin OpAdd (EBin OpAdd (EBin OpAdd (EName "header") (EName "filter_binary")) (EName "sscc_binary")) (EBin OpMul (EConst (CStr "0")) (EConst (CInt 24)))))].

(** sscc.py:234-256 *)
Definition f_sscc_SSCC_from_binary : fundef :=
  mkFun "sscc" (Some "sscc.SSCC") KClass ["cls"; "binary_string"] [] None [] None
   [SAssign (TTuple [(TName "binary_coding_scheme"); (TName "truncated_binary")] None) (ECall (EName "parse_header_and_truncate_binary") [(EName "binary_string"); (ECall (EAttr (EName "cls") "header_to_schemes") [] None [] None)] None [] None);
    SAssign (TName "filter_binary") (ESlice (EName "truncated_binary") (Some (EConst (CInt 8))) (Some (EConst (CInt 11))) None);
    SAssign (TName "sscc_binary") (ESlice (EName "truncated_binary") (Some (EConst (CInt 11))) (Some (EConst (CInt 72))) None);
    SAssign (TName "filter_string") (ECall (EName "binary_to_int") [(EName "filter_binary")] None [] None);
    SAssign (TName "sscc_string") (ECall (EName "decode_partition_table") [(EName "sscc_binary"); (EName "PARTITION_TABLE_P")] None [] None);
    SReturn (Some (ECall (EAttr (EName "cls") "from_tag_uri") [(EJoined [(EFormat (EAttr (EName "cls") "TAG_URI_PREFIX") None); (EFormat (EAttr (EName "binary_coding_scheme") "value") None); (EConst (CStr ":")); (EFormat (EName "filter_string") None); (EConst (CStr ".")); (EFormat (EName "sscc_string") None)])] None [] None))].

(** epcpy/epc_schemes/sscc.py *)
Definition m_sscc : list top :=
  [TImport "re";
   TFrom "enum" ["Enum"];
   TFrom "base_scheme" ["GS1Keyed"; "TagEncodable"];
   TFrom "common" ["ConvertException"; "binary_to_int"; "calculate_checksum"; "decode_partition_table"; "encode_partition_table"; "parse_header_and_truncate_binary"; "str_to_binary"];
   TFrom "regex" ["SSCC_GS1_ELEMENT_STRING"; "SSCC_URI"];
   TAssign "SSCC_URI_REGEX" (ECall (EAttr (EName "re") "compile") [(EName "SSCC_URI")] None [] None);
   TAssign "PARTITION_TABLE_P" (EDict [((EConst (CInt 0)), (EDict [((EConst (CStr "P")), (EConst (CInt 0))); ((EConst (CStr "M")), (EConst (CInt 40))); ((EConst (CStr "L")), (EConst (CInt 12))); ((EConst (CStr "N")), (EConst (CInt 18))); ((EConst (CStr "K")), (EConst (CInt 5)))])); ((EConst (CInt 1)), (EDict [((EConst (CStr "P")), (EConst (CInt 1))); ((EConst (CStr "M")), (EConst (CInt 37))); ((EConst (CStr "L")), (EConst (CInt 11))); ((EConst (CStr "N")), (EConst (CInt 21))); ((EConst (CStr "K")), (EConst (CInt 6)))])); ((EConst (CInt 2)), (EDict [((EConst (CStr "P")), (EConst (CInt 2))); ((EConst (CStr "M")), (EConst (CInt 34))); ((EConst (CStr "L")), (EConst (CInt 10))); ((EConst (CStr "N")), (EConst (CInt 24))); ((EConst (CStr "K")), (EConst (CInt 7)))])); ((EConst (CInt 3)), (EDict [((EConst (CStr "P")), (EConst (CInt 3))); ((EConst (CStr "M")), (EConst (CInt 30))); ((EConst (CStr "L")), (EConst (CInt 9))); ((EConst (CStr "N")), (EConst (CInt 28))); ((EConst (CStr "K")), (EConst (CInt 8)))])); ((EConst (CInt 4)), (EDict [((EConst (CStr "P")), (EConst (CInt 4))); ((EConst (CStr "M")), (EConst (CInt 27))); ((EConst (CStr "L")), (EConst (CInt 8))); ((EConst (CStr "N")), (EConst (CInt 31))); ((EConst (CStr "K")), (EConst (CInt 9)))])); ((EConst (CInt 5)), (EDict [((EConst (CStr "P")), (EConst (CInt 5))); ((EConst (CStr "M")), (EConst (CInt 24))); ((EConst (CStr "L")), (EConst (CInt 7))); ((EConst (CStr "N")), (EConst (CInt 34))); ((EConst (CStr "K")), (EConst (CInt 10)))])); ((EConst (CInt 6)), (EDict [((EConst (CStr "P")), (EConst (CInt 6))); ((EConst (CStr "M")), (EConst (CInt 20))); ((EConst (CStr "L")), (EConst (CInt 6))); ((EConst (CStr "N")), (EConst (CInt 38))); ((EConst (CStr "K")), (EConst (CInt 11)))]))]);
   TAssign "PARTITION_TABLE_L" (EDict [((EConst (CInt 12)), (EIndex (EName "PARTITION_TABLE_P") (EConst (CInt 0)))); ((EConst (CInt 11)), (EIndex (EName "PARTITION_TABLE_P") (EConst (CInt 1)))); ((EConst (CInt 10)), (EIndex (EName "PARTITION_TABLE_P") (EConst (CInt 2)))); ((EConst (CInt 9)), (EIndex (EName "PARTITION_TABLE_P") (EConst (CInt 3)))); ((EConst (CInt 8)), (EIndex (EName "PARTITION_TABLE_P") (EConst (CInt 4)))); ((EConst (CInt 7)), (EIndex (EName "PARTITION_TABLE_P") (EConst (CInt 5)))); ((EConst (CInt 6)), (EIndex (EName "PARTITION_TABLE_P") (EConst (CInt 6))))]);
   TClass "SSCCFilterValue" [(EName "Enum")]
    [TAssign "ALL_OTHERS" (EConst (CStr "0"));
     TAssign "RESERVED_1" (EConst (CStr "1"));
     TAssign "FULL_CASE" (EConst (CStr "2"));
     TAssign "RESERVED_3" (EConst (CStr "3"));
     TAssign "RESERVED_4" (EConst (CStr "4"));
     TAssign "RESERVED_5" (EConst (CStr "5"));
     TAssign "UNIT_LOAD" (EConst (CStr "6"));
     TAssign "RESERVED_7" (EConst (CStr "7"))];
   TClass "SSCC" [(EName "TagEncodable"); (EName "GS1Keyed")]
    [TClass "BinaryCodingScheme" [(EName "Enum")]
      [TAssign "SSCC_96" (EConst (CStr "sscc-96"))];
     TClass "BinaryHeader" [(EName "Enum")]
      [TAssign "SSCC_96" (EConst (CStr "00110001"))];
     TAssign "gs1_element_string_regex" (ECall (EAttr (EName "re") "compile") [(EName "SSCC_GS1_ELEMENT_STRING")] None [] None);
     TFun "__init__";
     TFun "gs1_key";
     TFun "gs1_element_string";
     TFun "from_gs1_element_string";
     TFun "tag_uri";
     TFun "binary";
     TFun "from_binary"]].
