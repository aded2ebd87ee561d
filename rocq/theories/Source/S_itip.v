(** epcpy/epc_schemes/itip.py
    Written by a program from the syntax trees of the source text: docstrings and annotations are left out, nothing else. *)
From Coq Require Import String ZArith List.
From Verif.Model Require Import Syntax.
Import ListNotations.
Open Scope string_scope.
Open Scope Z_scope.
Open Scope list_scope.

(** itip.py:133-157 *)
Definition f_itip_ITIP___init__ : fundef :=
  mkFun "itip" (Some "itip.ITIP") KPlain ["self"; "epc_uri"] [] None [] None
   [SExpr (ECall (EAttr (ECall (EName "super") [] None [] None) "__init__") [(EName "epc_uri")] None [] None);
    SIf (ENot (ECall (EAttr (EName "ITIP_URI_REGEX") "fullmatch") [(EName "epc_uri")] None [] None))
     [SRaise (ECall (EName "ConvertException") [] None [("message", (EJoined [(EConst (CStr "Invalid ITIP URI ")); (EFormat (EName "epc_uri") None)]))] None)]
     [];
    SAssign (TTuple [(TSelf "_company_pref"); (TSelf "_item_ref"); (TSelf "_piece"); (TSelf "_total")] (Some (TName "serial"))) (ECall (EAttr (ECall (EAttr (EConst (CStr ":")) "join") [(ESlice (ECall (EAttr (EName "epc_uri") "split") [(EConst (CStr ":"))] None [] None) (Some (EConst (CInt 4))) None None)] None [] None) "split") [(EConst (CStr "."))] None [] None);
    SAssign (TSelf "_serial") (ECall (EAttr (EConst (CStr ".")) "join") [(EName "serial")] None [] None);
    SExpr (ECall (EName "verify_gs3a3_component") [(EAttr (EName "self") "_serial")] None [] None);
    SIf (EOr [(ECmp (ECall (EName "len") [(EJoined [(EFormat (EAttr (EName "self") "_company_pref") None); (EFormat (EAttr (EName "self") "_item_ref") None); (EFormat (EAttr (EName "self") "_piece") None); (EFormat (EAttr (EName "self") "_total") None)])] None [] None) [(CmpNe, (EConst (CInt 17)))]); (ENot (ECmp (EConst (CInt 1)) [(CmpLe, (ECall (EName "len") [(ECall (EName "replace_uri_escapes") [(EAttr (EName "self") "_serial")] None [] None)] None [] None)); (CmpLe, (EConst (CInt 20)))])); (ENot (ECmp (EConst (CInt 6)) [(CmpLe, (ECall (EName "len") [(EAttr (EName "self") "_company_pref")] None [] None)); (CmpLe, (EConst (CInt 12)))]))])
     [SRaise (ECall (EName "ConvertException") [] None [("message", (EJoined [(EConst (CStr "Invalid ITIP URI ")); (EFormat (EName "epc_uri") None)]))] None)]
     [];
    SAssign (TSelf "epc_uri") (EName "epc_uri")].

(** itip.py:159-170 *)
Definition f_itip_ITIP_gs1_element_string : fundef :=
  mkFun "itip" (Some "itip.ITIP") KPlain ["self"] [] None [] None
   [SAssign (TName "indicator") (EIndex (EAttr (EName "self") "_item_ref") (EConst (CInt 0)));
    SAssign (TName "check_digit") (ECall (EName "calculate_checksum") [(EJoined [(EFormat (EName "indicator") None); (EFormat (EAttr (EName "self") "_company_pref") None); (EFormat (ESlice (EAttr (EName "self") "_item_ref") (Some (EConst (CInt 1))) None None) None)])] None [] None);
    SReturn (Some (EJoined [(EConst (CStr "(8006)")); (EFormat (EName "indicator") None); (EFormat (EAttr (EName "self") "_company_pref") None); (EFormat (ESlice (EAttr (EName "self") "_item_ref") (Some (EConst (CInt 1))) None None) None); (EFormat (EName "check_digit") None); (EFormat (EAttr (EName "self") "_piece") None); (EFormat (EAttr (EName "self") "_total") None); (EConst (CStr "(21)")); (EFormat (ECall (EName "replace_uri_escapes") [(EAttr (EName "self") "_serial")] None [] None) None)]))].

(** itip.py:173-199 *)
Definition f_itip_ITIP_from_gs1_element_string : fundef :=
  mkFun "itip" (Some "itip.ITIP") KClass ["cls"; "gs1_element_string"; "company_prefix_length"] [] None [] None
   [SIf (ENot (ECall (EAttr (EAttr (EName "ITIP") "gs1_element_string_regex") "fullmatch") [(EName "gs1_element_string")] None [] None))
     [SRaise (ECall (EName "ConvertException") [] None [("message", (EJoined [(EConst (CStr "Invalid ITIP GS1 element string ")); (EFormat (EName "gs1_element_string") None)]))] None)]
     [];
    SAssign (TName "digits") (ESlice (EName "gs1_element_string") (Some (EConst (CInt 6))) (Some (EConst (CInt 24))) None);
    SAssign (TName "chars") (ESlice (EName "gs1_element_string") (Some (EConst (CInt 28))) None None);
    SAssign (TName "chars") (ECall (EName "revert_uri_escapes") [(EName "chars")] None [] None);
    SReturn (Some (ECall (EName "cls") [(EJoined [(EConst (CStr "urn:epc:id:itip:")); (EFormat (ESlice (EName "digits") (Some (EConst (CInt 1))) (Some (EBin OpAdd (EConst (CInt 1)) (EName "company_prefix_length"))) None) None); (EConst (CStr ".")); (EFormat (EIndex (EName "digits") (EConst (CInt 0))) None); (EFormat (ESlice (EName "digits") (Some (EBin OpAdd (EConst (CInt 1)) (EName "company_prefix_length"))) (Some (ENeg (EConst (CInt 5)))) None) None); (EConst (CStr ".")); (EFormat (ESlice (EName "digits") (Some (ENeg (EConst (CInt 4)))) (Some (ENeg (EConst (CInt 2)))) None) None); (EConst (CStr ".")); (EFormat (ESlice (EName "digits") (Some (ENeg (EConst (CInt 2)))) None None) None); (EConst (CStr ".")); (EFormat (EName "chars") None)])] None [] None))].

(** itip.py:201-231 *)
Definition f_itip_ITIP_tag_uri : fundef :=
  mkFun "itip" (Some "itip.ITIP") KPlain ["self"; "binary_coding_scheme"; "filter_value"] [] None [] None
   [SAssign (TName "filter_val") (EAttr (EName "filter_value") "value");
    SIf (EOr [(EAnd [(ECmp (EName "binary_coding_scheme") [(CmpEq, (EAttr (EAttr (EName "ITIP") "BinaryCodingScheme") "ITIP_212"))]); (ECmp (ECall (EName "len") [(ECall (EName "replace_uri_escapes") [(EAttr (EName "self") "_serial")] None [] None)] None [] None) [(CmpGt, (EConst (CInt 20)))])]); (EAnd [(ECmp (EName "binary_coding_scheme") [(CmpEq, (EAttr (EAttr (EName "ITIP") "BinaryCodingScheme") "ITIP_110"))]); (EOr [(ENot (ECall (EAttr (EAttr (EName "self") "_serial") "isnumeric") [] None [] None)); (ECmp (ECall (EName "int") [(EAttr (EName "self") "_serial")] None [] None) [(CmpGe, (ECall (EName "pow") [(EConst (CInt 2)); (EConst (CInt 38))] None [] None))]); (EAnd [(ECmp (ECall (EName "len") [(EAttr (EName "self") "_serial")] None [] None) [(CmpGt, (EConst (CInt 1)))]); (ECmp (EIndex (EAttr (EName "self") "_serial") (EConst (CInt 0))) [(CmpEq, (EConst (CStr "0")))])])])])])
     [SRaise (ECall (EName "ConvertException") [] None [("message", (EJoined [(EConst (CStr "Invalid serial value ")); (EFormat (EAttr (EName "self") "_serial") None)]))] None)]
     [];
    SReturn (Some (EJoined [(EFormat (EAttr (EName "self") "TAG_URI_PREFIX") None); (EFormat (EAttr (EName "binary_coding_scheme") "value") None); (EConst (CStr ":")); (EFormat (EName "filter_val") None); (EConst (CStr ".")); (EFormat (EAttr (EName "self") "_company_pref") None); (EConst (CStr ".")); (EFormat (EAttr (EName "self") "_item_ref") None); (EConst (CStr ".")); (EFormat (EAttr (EName "self") "_piece") None); (EConst (CStr ".")); (EFormat (EAttr (EName "self") "_total") None); (EConst (CStr ".")); (EFormat (EAttr (EName "self") "_serial") None)]))].

(** itip.py:233-267 *)
Definition f_itip_ITIP_binary : fundef :=
  mkFun "itip" (Some "itip.ITIP") KPlain ["self"; "filter_value"; "binary_coding_scheme"] [] None [] None
   [SAssign (TName "parts") (EList [(EAttr (EName "self") "_company_pref"); (EAttr (EName "self") "_item_ref")]);
    SAssign (TName "header") (EAttr (EIndex (EAttr (EName "ITIP") "BinaryHeader") (EAttr (EName "binary_coding_scheme") "name")) "value");
    SAssign (TName "filter_binary") (ECall (EName "str_to_binary") [(EAttr (EName "filter_value") "value"); (EConst (CInt 3))] None [] None);
    SAssign (TName "gtin_binary") (ECall (EName "encode_partition_table") [(EName "parts"); (EName "PARTITION_TABLE_L")] None [] None);
    SAssign (TName "piece_binary") (ECall (EName "encode_fixed_width_integer") [(EAttr (EName "self") "_piece"); (EConst (CInt 7))] None [] None);
    SAssign (TName "total_binary") (ECall (EName "encode_fixed_width_integer") [(EAttr (EName "self") "_total"); (EConst (CInt 7))] None [] None);
    SAssign (TName "serial_binary") (EIf (ECmp (EName "binary_coding_scheme") [(CmpEq, (EAttr (EAttr (EName "ITIP") "BinaryCodingScheme") "ITIP_110"))]) (ECall (EName "str_to_binary") [(EAttr (EName "self") "_serial"); (EConst (CInt 38))] None [] None) (ECall (EName "encode_string") [(EAttr (EName "self") "_serial"); (EConst (CInt 140))] None [] None));
    SReturn (Some (EBin OpAdd (EBin OpAdd (EBin OpAdd (EBin OpAdd (EBin OpAdd (EName "header") (EName "filter_binary")) (EName "gtin_binary")) (EName "piece_binary")) (EName "total_binary")) (EName "serial_binary")))].

(** itip.py:270-302 *)
Definition f_itip_ITIP_from_binary : fundef :=
  mkFun "itip" (Some "itip.ITIP") KClass ["cls"; "binary_string"] [] None [] None
   [SAssign (TTuple [(TName "binary_coding_scheme"); (TName "truncated_binary")] None) (ECall (EName "parse_header_and_truncate_binary") [(EName "binary_string"); (ECall (EAttr (EName "cls") "header_to_schemes") [] None [] None)] None [] None);
    SAssign (TName "filter_binary") (ESlice (EName "truncated_binary") (Some (EConst (CInt 8))) (Some (EConst (CInt 11))) None);
    SAssign (TName "gtin_binary") (ESlice (EName "truncated_binary") (Some (EConst (CInt 11))) (Some (EConst (CInt 58))) None);
    SAssign (TName "piece_binary") (ESlice (EName "truncated_binary") (Some (EConst (CInt 58))) (Some (EConst (CInt 65))) None);
    SAssign (TName "total_binary") (ESlice (EName "truncated_binary") (Some (EConst (CInt 65))) (Some (EConst (CInt 72))) None);
    SAssign (TName "serial_binary") (ESlice (EName "truncated_binary") (Some (EConst (CInt 72))) None None);
    SAssign (TName "filter_string") (ECall (EName "binary_to_int") [(EName "filter_binary")] None [] None);
    SAssign (TName "gtin_string") (ECall (EName "decode_partition_table") [(EName "gtin_binary"); (EName "PARTITION_TABLE_P")] None [] None);
    SAssign (TName "piece_string") (ECall (EName "decode_fixed_width_integer") [(EName "piece_binary")] None [] None);
    SAssign (TName "total_string") (ECall (EName "decode_fixed_width_integer") [(EName "total_binary")] None [] None);
    SAssign (TName "serial_string") (EIf (ECmp (EName "binary_coding_scheme") [(CmpEq, (EAttr (EAttr (EName "ITIP") "BinaryCodingScheme") "ITIP_110"))]) (ECall (EName "binary_to_int") [(EName "serial_binary")] None [] None) (ECall (EName "decode_string") [(EName "serial_binary")] None [] None));
    SReturn (Some (ECall (EAttr (EName "cls") "from_tag_uri") [(EJoined [(EFormat (EAttr (EName "cls") "TAG_URI_PREFIX") None); (EFormat (EAttr (EName "binary_coding_scheme") "value") None); (EConst (CStr ":")); (EFormat (EName "filter_string") None); (EConst (CStr ".")); (EFormat (EName "gtin_string") None); (EConst (CStr ".")); (EFormat (EName "piece_string") None); (EConst (CStr ".")); (EFormat (EName "total_string") None); (EConst (CStr ".")); (EFormat (EName "serial_string") None)])] None [] None))].

(** epcpy/epc_schemes/itip.py *)
Definition m_itip : list top :=
  [TImport "re";
   TFrom "enum" ["Enum"];
   TFrom "base_scheme" ["GS1Element"; "TagEncodable"];
   TFrom "common" ["ConvertException"; "binary_to_int"; "calculate_checksum"; "decode_fixed_width_integer"; "decode_partition_table"; "decode_string"; "encode_fixed_width_integer"; "encode_partition_table"; "encode_string"; "parse_header_and_truncate_binary"; "replace_uri_escapes"; "revert_uri_escapes"; "str_to_binary"; "verify_gs3a3_component"];
   TFrom "regex" ["ITIP_GS1_ELEMENT_STRING"; "ITIP_URI"];
   TAssign "ITIP_URI_REGEX" (ECall (EAttr (EName "re") "compile") [(EName "ITIP_URI")] None [] None);
   TAssign "PARTITION_TABLE_P" (EDict [((EConst (CInt 0)), (EDict [((EConst (CStr "P")), (EConst (CInt 0))); ((EConst (CStr "M")), (EConst (CInt 40))); ((EConst (CStr "L")), (EConst (CInt 12))); ((EConst (CStr "N")), (EConst (CInt 4))); ((EConst (CStr "K")), (EConst (CInt 1)))])); ((EConst (CInt 1)), (EDict [((EConst (CStr "P")), (EConst (CInt 1))); ((EConst (CStr "M")), (EConst (CInt 37))); ((EConst (CStr "L")), (EConst (CInt 11))); ((EConst (CStr "N")), (EConst (CInt 7))); ((EConst (CStr "K")), (EConst (CInt 2)))])); ((EConst (CInt 2)), (EDict [((EConst (CStr "P")), (EConst (CInt 2))); ((EConst (CStr "M")), (EConst (CInt 34))); ((EConst (CStr "L")), (EConst (CInt 10))); ((EConst (CStr "N")), (EConst (CInt 10))); ((EConst (CStr "K")), (EConst (CInt 3)))])); ((EConst (CInt 3)), (EDict [((EConst (CStr "P")), (EConst (CInt 3))); ((EConst (CStr "M")), (EConst (CInt 30))); ((EConst (CStr "L")), (EConst (CInt 9))); ((EConst (CStr "N")), (EConst (CInt 14))); ((EConst (CStr "K")), (EConst (CInt 4)))])); ((EConst (CInt 4)), (EDict [((EConst (CStr "P")), (EConst (CInt 4))); ((EConst (CStr "M")), (EConst (CInt 27))); ((EConst (CStr "L")), (EConst (CInt 8))); ((EConst (CStr "N")), (EConst (CInt 17))); ((EConst (CStr "K")), (EConst (CInt 5)))])); ((EConst (CInt 5)), (EDict [((EConst (CStr "P")), (EConst (CInt 5))); ((EConst (CStr "M")), (EConst (CInt 24))); ((EConst (CStr "L")), (EConst (CInt 7))); ((EConst (CStr "N")), (EConst (CInt 20))); ((EConst (CStr "K")), (EConst (CInt 6)))])); ((EConst (CInt 6)), (EDict [((EConst (CStr "P")), (EConst (CInt 6))); ((EConst (CStr "M")), (EConst (CInt 20))); ((EConst (CStr "L")), (EConst (CInt 6))); ((EConst (CStr "N")), (EConst (CInt 24))); ((EConst (CStr "K")), (EConst (CInt 7)))]))]);
   TAssign "PARTITION_TABLE_L" (EDict [((EConst (CInt 12)), (EIndex (EName "PARTITION_TABLE_P") (EConst (CInt 0)))); ((EConst (CInt 11)), (EIndex (EName "PARTITION_TABLE_P") (EConst (CInt 1)))); ((EConst (CInt 10)), (EIndex (EName "PARTITION_TABLE_P") (EConst (CInt 2)))); ((EConst (CInt 9)), (EIndex (EName "PARTITION_TABLE_P") (EConst (CInt 3)))); ((EConst (CInt 8)), (EIndex (EName "PARTITION_TABLE_P") (EConst (CInt 4)))); ((EConst (CInt 7)), (EIndex (EName "PARTITION_TABLE_P") (EConst (CInt 5)))); ((EConst (CInt 6)), (EIndex (EName "PARTITION_TABLE_P") (EConst (CInt 6))))]);
   TClass "ITIPFilterValue" [(EName "Enum")]
    [TAssign "ALL_OTHERS" (EConst (CStr "0"));
     TAssign "RESERVED_1" (EConst (CStr "1"));
     TAssign "RESERVED_2" (EConst (CStr "2"));
     TAssign "RESERVED_3" (EConst (CStr "3"));
     TAssign "RESERVED_4" (EConst (CStr "4"));
     TAssign "RESERVED_5" (EConst (CStr "5"));
     TAssign "RESERVED_6" (EConst (CStr "6"));
     TAssign "RESERVED_7" (EConst (CStr "7"))];
   TClass "ITIP" [(EName "GS1Element"); (EName "TagEncodable")]
    [TClass "BinaryCodingScheme" [(EName "Enum")]
      [TAssign "ITIP_110" (EConst (CStr "itip-110"));
       TAssign "ITIP_212" (EConst (CStr "itip-212"))];
     TClass "BinaryHeader" [(EName "Enum")]
      [TAssign "ITIP_110" (EConst (CStr "01000000"));
       TAssign "ITIP_212" (EConst (CStr "01000001"))];
     TAssign "gs1_element_string_regex" (ECall (EAttr (EName "re") "compile") [(EName "ITIP_GS1_ELEMENT_STRING")] None [] None);
     TFun "__init__";
     TFun "gs1_element_string";
     TFun "from_gs1_element_string";
     TFun "tag_uri";
     TFun "binary";
     TFun "from_binary"]].
