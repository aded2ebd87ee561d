(** epcpy/epc_schemes/cpi.py
    Written by a program from the syntax trees of the source text: docstrings and annotations are left out, nothing else. *)
From Coq Require Import String ZArith List.
From Verif.Model Require Import Syntax.
Import ListNotations.
Open Scope string_scope.
Open Scope Z_scope.
Open Scope list_scope.

(** cpi.py:155-164 *)
Definition f_cpi_replace_cpi_escapes : fundef :=
  mkFun "cpi" None KPlain ["cpi"] [] None [] None
   [SReturn (Some (ECall (EAttr (ECall (EAttr (EName "cpi") "replace") [(EConst (CStr "%23")); (EConst (CStr "#"))] None [] None) "replace") [(EConst (CStr "%2F")); (EConst (CStr "/"))] None [] None))].

(** cpi.py:167-168 *)
Definition f_cpi_revert_cpi_escapes : fundef :=
  mkFun "cpi" None KPlain ["cpi"] [] None [] None
   [SReturn (Some (ECall (EAttr (ECall (EAttr (EName "cpi") "replace") [(EConst (CStr "#")); (EConst (CStr "%23"))] None [] None) "replace") [(EConst (CStr "/")); (EConst (CStr "%2F"))] None [] None))].

(** cpi.py:203-220 *)
Definition f_cpi_CPI___init__ : fundef :=
  mkFun "cpi" (Some "cpi.CPI") KPlain ["self"; "epc_uri"] [] None [] None
   [SExpr (ECall (EAttr (ECall (EName "super") [] None [] None) "__init__") [(EName "epc_uri")] None [] None);
    SIf (ENot (ECall (EAttr (EName "CPI_URI_REGEX") "fullmatch") [(EName "epc_uri")] None [] None))
     [SRaise (ECall (EName "ConvertException") [] None [("message", (EJoined [(EConst (CStr "Invalid CPI URI ")); (EFormat (EName "epc_uri") None)]))] None)]
     [];
    SAssign (TTuple [(TSelf "_company_pref"); (TSelf "_cp_ref"); (TSelf "_serial")] None) (ECall (EAttr (EIndex (ECall (EAttr (EName "epc_uri") "split") [(EConst (CStr ":"))] None [] None) (EConst (CInt 4))) "split") [(EConst (CStr "."))] None [] None);
    SIf (EOr [(ECmp (ECall (EName "len") [(ECall (EAttr (EConst (CStr "")) "join") [(EList [(EAttr (EName "self") "_company_pref"); (EAttr (EName "self") "_cp_ref")])] None [] None)] None [] None) [(CmpGt, (EConst (CInt 30)))]); (ECmp (ECall (EName "len") [(EAttr (EName "self") "_serial")] None [] None) [(CmpGt, (EConst (CInt 12)))]); (ENot (ECmp (EConst (CInt 6)) [(CmpLe, (ECall (EName "len") [(EAttr (EName "self") "_company_pref")] None [] None)); (CmpLe, (EConst (CInt 12)))]))])
     [SRaise (ECall (EName "ConvertException") [] None [("message", (EJoined [(EConst (CStr "Invalid CPI URI ")); (EFormat (EName "epc_uri") None)]))] None)]
     [];
    SAssign (TSelf "epc_uri") (EName "epc_uri")].

(** cpi.py:222-230 *)
Definition f_cpi_CPI_gs1_element_string : fundef :=
  mkFun "cpi" (Some "cpi.CPI") KPlain ["self"] [] None [] None
   [SAssign (TName "cp_ref") (ECall (EName "replace_cpi_escapes") [(EAttr (EName "self") "_cp_ref")] None [] None);
    SReturn (Some (EJoined [(EConst (CStr "(8010)")); (EFormat (EAttr (EName "self") "_company_pref") None); (EFormat (EName "cp_ref") None); (EConst (CStr "(8011)")); (EFormat (EAttr (EName "self") "_serial") None)]))].

(** cpi.py:233-258 *)
Definition f_cpi_CPI_from_gs1_element_string : fundef :=
  mkFun "cpi" (Some "cpi.CPI") KClass ["cls"; "gs1_element_string"; "company_prefix_length"] [] None [] None
   [SIf (ENot (ECall (EAttr (EAttr (EName "CPI") "gs1_element_string_regex") "fullmatch") [(EName "gs1_element_string")] None [] None))
     [SRaise (ECall (EName "ConvertException") [] None [("message", (EJoined [(EConst (CStr "Invalid CPI GS1 element string ")); (EFormat (EName "gs1_element_string") None)]))] None)]
     [];
    SAssign (TTuple [(TName "_"); (TName "digits"); (TName "serial_digits")] None) (ECall (EAttr (EName "re") "split") [(EJoined [(EConst (CStr "\(.{4}\)"))]); (EName "gs1_element_string")] None [] None);
    SAssign (TName "chars") (ECall (EName "revert_cpi_escapes") [(ESlice (EName "digits") (Some (EName "company_prefix_length")) None None)] None [] None);
    SReturn (Some (ECall (EName "cls") [(EJoined [(EConst (CStr "urn:epc:id:cpi:")); (EFormat (ESlice (EName "digits") None (Some (EName "company_prefix_length")) None) None); (EConst (CStr ".")); (EFormat (EName "chars") None); (EConst (CStr ".")); (EFormat (EName "serial_digits") None)])] None [] None))].

(** cpi.py:260-291 *)
Definition f_cpi_CPI_tag_uri : fundef :=
  mkFun "cpi" (Some "cpi.CPI") KPlain ["self"; "binary_coding_scheme"; "filter_value"] [] None [] None
   [SIf (EOr [(EAnd [(ECmp (EName "binary_coding_scheme") [(CmpEq, (EAttr (EAttr (EName "CPI") "BinaryCodingScheme") "CPI_VAR"))]); (ECmp (ECall (EName "len") [(EAttr (EName "self") "_serial")] None [] None) [(CmpGt, (EConst (CInt 12)))])]); (EAnd [(ECmp (EName "binary_coding_scheme") [(CmpEq, (EAttr (EAttr (EName "CPI") "BinaryCodingScheme") "CPI_96"))]); (EOr [(ECmp (ECall (EName "int") [(EAttr (EName "self") "_serial")] None [] None) [(CmpGe, (ECall (EName "pow") [(EConst (CInt 2)); (EConst (CInt 31))] None [] None))]); (ENot (ECall (EAttr (EAttr (EName "self") "_cp_ref") "isnumeric") [] None [] None)); (EAnd [(ECmp (ECall (EName "len") [(EAttr (EName "self") "_cp_ref")] None [] None) [(CmpGt, (EConst (CInt 1)))]); (ECmp (EIndex (EAttr (EName "self") "_cp_ref") (EConst (CInt 0))) [(CmpEq, (EConst (CStr "0")))])]); (ECmp (ECall (EName "len") [(EAttr (EName "self") "_cp_ref")] None [] None) [(CmpGt, (EBin OpSub (EConst (CInt 15)) (ECall (EName "len") [(EAttr (EName "self") "_company_pref")] None [] None)))])])])])
     [SRaise (ECall (EName "ConvertException") [] None [("message", (EJoined [(EConst (CStr "Invalid serial value ")); (EFormat (EAttr (EName "self") "_serial") None)]))] None)]
     [];
    SAssign (TSelf "_tag_uri") (EJoined [(EFormat (EAttr (EName "self") "TAG_URI_PREFIX") None); (EFormat (EAttr (EName "binary_coding_scheme") "value") None); (EConst (CStr ":")); (EFormat (EAttr (EName "filter_value") "value") None); (EConst (CStr ".")); (EFormat (EAttr (EName "self") "_company_pref") None); (EConst (CStr ".")); (EFormat (EAttr (EName "self") "_cp_ref") None); (EConst (CStr ".")); (EFormat (EAttr (EName "self") "_serial") None)]);
    SReturn (Some (EAttr (EName "self") "_tag_uri"))].

(** cpi.py:293-325 *)
Definition f_cpi_CPI_binary : fundef :=
  mkFun "cpi" (Some "cpi.CPI") KPlain ["self"; "binary_coding_scheme"; "filter_value"] [] None [] None
   [SAssign (TName "parts") (EList [(EAttr (EName "self") "_company_pref"); (EAttr (EName "self") "_cp_ref")]);
    SAssign (TName "serial") (EAttr (EName "self") "_serial");
    SAssign (TName "header") (EAttr (EIndex (EAttr (EName "CPI") "BinaryHeader") (EAttr (EName "binary_coding_scheme") "name")) "value");
    SAssign (TName "filter_binary") (ECall (EName "str_to_binary") [(EAttr (EName "filter_value") "value"); (EConst (CInt 3))] None [] None);
    SAssign (TName "cpi_binary") (EIf (ECmp (EName "binary_coding_scheme") [(CmpEq, (EAttr (EAttr (EName "CPI") "BinaryCodingScheme") "CPI_96"))]) (ECall (EName "encode_partition_table") [(EName "parts"); (EName "PARTITION_TABLE_L_96")] None [] None) (ECall (EName "encode_partition_table") [(EName "parts"); (EName "PARTITION_TABLE_L_VAR")] None [("six_bit_variable_partition", (EConst CTrue))] None));
    SAssign (TName "serial_binary") (ECall (EName "str_to_binary") [(EName "serial"); (EIf (ECmp (EName "binary_coding_scheme") [(CmpEq, (EAttr (EAttr (EName "CPI") "BinaryCodingScheme") "CPI_96"))]) (EConst (CInt 31)) (EConst (CInt 40)))] None [] None);
    SAssign (TName "_binary") (EBin OpAdd (EBin OpAdd (EBin OpAdd (EName "header") (EName "filter_binary")) (EName "cpi_binary")) (EName "serial_binary"));
    SReturn (Some (EName "_binary"))].

(** cpi.py:328-374 *)
Definition f_cpi_CPI_from_binary : fundef :=
  mkFun "cpi" (Some "cpi.CPI") KClass ["cls"; "binary_string"] [] None [] None
   [SAssign (TTuple [(TName "binary_coding_scheme"); (TName "truncated_binary")] None) (ECall (EName "parse_header_and_truncate_binary") [(EName "binary_string"); (ECall (EAttr (EName "cls") "header_to_schemes") [] None [] None)] None [] None);
    SAssign (TName "filter_binary") (ESlice (EName "truncated_binary") (Some (EConst (CInt 8))) (Some (EConst (CInt 11))) None);
    SIf (ECmp (EName "binary_coding_scheme") [(CmpEq, (EAttr (EAttr (EName "CPI") "BinaryCodingScheme") "CPI_96"))])
     [SAssign (TName "cpi_binary") (ESlice (EName "truncated_binary") (Some (EConst (CInt 11))) (Some (EConst (CInt 65))) None);
      SAssign (TName "serial_binary") (ESlice (EName "truncated_binary") (Some (EConst (CInt 65))) None None);
      SAssign (TName "cpi_string") (ECall (EName "decode_partition_table") [(EName "cpi_binary"); (EName "PARTITION_TABLE_P_96")] None [("unpadded_partition", (EConst CTrue))] None)]
     [SAssign (TName "cpi_binary") (ESlice (EName "truncated_binary") (Some (EConst (CInt 11))) None None);
      SAssign (TName "cpi_string") (ECall (EName "decode_partition_table") [(EName "cpi_binary"); (EName "PARTITION_TABLE_P_VAR")] None [("six_bit_variable_partition", (EConst CTrue))] None);
      SAssign (TName "partition") (EIndex (EName "PARTITION_TABLE_P_VAR") (ECall (EName "binary_to_int") [(ESlice (EName "cpi_binary") None (Some (EConst (CInt 3))) None)] None [] None));
      SAssign (TName "possible_serial_binary") (ESlice (EName "truncated_binary") (Some (EBin OpAdd (EBin OpAdd (EConst (CInt 11)) (EConst (CInt 3))) (EIndex (EName "partition") (EConst (CStr "M"))))) None None);
      SAssign (TName "serial_binary") (EConst (CStr ""));
      SAssign (TName "is_serial") (EConst CFalse);
      SFor (TName "g") (ECall (EAttr (EName "re") "split") [(EConst (CStr "([0-1]{6})")); (EName "possible_serial_binary")] None [] None)
       [SIf (EName "is_serial")
         [SAug "serial_binary" OpAdd (EName "g")]
         [];
        SIf (ECmp (EName "g") [(CmpEq, (EConst (CStr "000000")))])
         [SAssign (TName "is_serial") (EConst CTrue)]
         []];
      SAssign (TName "serial_binary") (EIf (ECmp (ECall (EName "len") [(EName "serial_binary")] None [] None) [(CmpGt, (EConst (CInt 0)))]) (ESlice (EName "serial_binary") None (Some (EConst (CInt 40))) None) (EConst (CStr "0")))];
    SAssign (TName "filter_string") (ECall (EName "binary_to_int") [(EName "filter_binary")] None [] None);
    SAssign (TName "serial_string") (ECall (EName "binary_to_int") [(EName "serial_binary")] None [] None);
    SReturn (Some (ECall (EAttr (EName "cls") "from_tag_uri") [(EJoined [(EFormat (EAttr (EName "cls") "TAG_URI_PREFIX") None); (EFormat (EAttr (EName "binary_coding_scheme") "value") None); (EConst (CStr ":")); (EFormat (EName "filter_string") None); (EConst (CStr ".")); (EFormat (EName "cpi_string") None); (EConst (CStr ".")); (EFormat (EName "serial_string") None)])] None [] None))].

(** epcpy/epc_schemes/cpi.py *)
Definition m_cpi : list top :=
  [TImport "re";
   TFrom "enum" ["Enum"];
   TFrom "base_scheme" ["GS1Element"; "TagEncodable"];
   TFrom "common" ["ConvertException"; "binary_to_int"; "decode_partition_table"; "encode_partition_table"; "parse_header_and_truncate_binary"; "str_to_binary"];
   TFrom "regex" ["CPI_GS1_ELEMENT_STRING"; "CPI_URI"];
   TAssign "CPI_URI_REGEX" (ECall (EAttr (EName "re") "compile") [(EName "CPI_URI")] None [] None);
   TAssign "PARTITION_TABLE_P_96" (EDict [((EConst (CInt 0)), (EDict [((EConst (CStr "P")), (EConst (CInt 0))); ((EConst (CStr "M")), (EConst (CInt 40))); ((EConst (CStr "L")), (EConst (CInt 12))); ((EConst (CStr "N")), (EConst (CInt 11))); ((EConst (CStr "K")), (EConst (CInt 3)))])); ((EConst (CInt 1)), (EDict [((EConst (CStr "P")), (EConst (CInt 1))); ((EConst (CStr "M")), (EConst (CInt 37))); ((EConst (CStr "L")), (EConst (CInt 11))); ((EConst (CStr "N")), (EConst (CInt 14))); ((EConst (CStr "K")), (EConst (CInt 4)))])); ((EConst (CInt 2)), (EDict [((EConst (CStr "P")), (EConst (CInt 2))); ((EConst (CStr "M")), (EConst (CInt 34))); ((EConst (CStr "L")), (EConst (CInt 10))); ((EConst (CStr "N")), (EConst (CInt 17))); ((EConst (CStr "K")), (EConst (CInt 5)))])); ((EConst (CInt 3)), (EDict [((EConst (CStr "P")), (EConst (CInt 3))); ((EConst (CStr "M")), (EConst (CInt 30))); ((EConst (CStr "L")), (EConst (CInt 9))); ((EConst (CStr "N")), (EConst (CInt 21))); ((EConst (CStr "K")), (EConst (CInt 6)))])); ((EConst (CInt 4)), (EDict [((EConst (CStr "P")), (EConst (CInt 4))); ((EConst (CStr "M")), (EConst (CInt 27))); ((EConst (CStr "L")), (EConst (CInt 8))); ((EConst (CStr "N")), (EConst (CInt 24))); ((EConst (CStr "K")), (EConst (CInt 7)))])); ((EConst (CInt 5)), (EDict [((EConst (CStr "P")), (EConst (CInt 5))); ((EConst (CStr "M")), (EConst (CInt 24))); ((EConst (CStr "L")), (EConst (CInt 7))); ((EConst (CStr "N")), (EConst (CInt 27))); ((EConst (CStr "K")), (EConst (CInt 8)))])); ((EConst (CInt 6)), (EDict [((EConst (CStr "P")), (EConst (CInt 6))); ((EConst (CStr "M")), (EConst (CInt 20))); ((EConst (CStr "L")), (EConst (CInt 6))); ((EConst (CStr "N")), (EConst (CInt 31))); ((EConst (CStr "K")), (EConst (CInt 9)))]))]);
   TAssign "PARTITION_TABLE_L_96" (EDict [((EConst (CInt 12)), (EIndex (EName "PARTITION_TABLE_P_96") (EConst (CInt 0)))); ((EConst (CInt 11)), (EIndex (EName "PARTITION_TABLE_P_96") (EConst (CInt 1)))); ((EConst (CInt 10)), (EIndex (EName "PARTITION_TABLE_P_96") (EConst (CInt 2)))); ((EConst (CInt 9)), (EIndex (EName "PARTITION_TABLE_P_96") (EConst (CInt 3)))); ((EConst (CInt 8)), (EIndex (EName "PARTITION_TABLE_P_96") (EConst (CInt 4)))); ((EConst (CInt 7)), (EIndex (EName "PARTITION_TABLE_P_96") (EConst (CInt 5)))); ((EConst (CInt 6)), (EIndex (EName "PARTITION_TABLE_P_96") (EConst (CInt 6))))]);
   TAssign "PARTITION_TABLE_P_VAR" (EDict [((EConst (CInt 0)), (EDict [((EConst (CStr "P")), (EConst (CInt 0))); ((EConst (CStr "M")), (EConst (CInt 40))); ((EConst (CStr "L")), (EConst (CInt 12))); ((EConst (CStr "N")), (EConst (CInt 114))); ((EConst (CStr "K")), (EConst (CInt 18)))])); ((EConst (CInt 1)), (EDict [((EConst (CStr "P")), (EConst (CInt 1))); ((EConst (CStr "M")), (EConst (CInt 37))); ((EConst (CStr "L")), (EConst (CInt 11))); ((EConst (CStr "N")), (EConst (CInt 120))); ((EConst (CStr "K")), (EConst (CInt 19)))])); ((EConst (CInt 2)), (EDict [((EConst (CStr "P")), (EConst (CInt 2))); ((EConst (CStr "M")), (EConst (CInt 34))); ((EConst (CStr "L")), (EConst (CInt 10))); ((EConst (CStr "N")), (EConst (CInt 126))); ((EConst (CStr "K")), (EConst (CInt 20)))])); ((EConst (CInt 3)), (EDict [((EConst (CStr "P")), (EConst (CInt 3))); ((EConst (CStr "M")), (EConst (CInt 30))); ((EConst (CStr "L")), (EConst (CInt 9))); ((EConst (CStr "N")), (EConst (CInt 132))); ((EConst (CStr "K")), (EConst (CInt 21)))])); ((EConst (CInt 4)), (EDict [((EConst (CStr "P")), (EConst (CInt 4))); ((EConst (CStr "M")), (EConst (CInt 27))); ((EConst (CStr "L")), (EConst (CInt 8))); ((EConst (CStr "N")), (EConst (CInt 138))); ((EConst (CStr "K")), (EConst (CInt 22)))])); ((EConst (CInt 5)), (EDict [((EConst (CStr "P")), (EConst (CInt 5))); ((EConst (CStr "M")), (EConst (CInt 24))); ((EConst (CStr "L")), (EConst (CInt 7))); ((EConst (CStr "N")), (EConst (CInt 144))); ((EConst (CStr "K")), (EConst (CInt 23)))])); ((EConst (CInt 6)), (EDict [((EConst (CStr "P")), (EConst (CInt 6))); ((EConst (CStr "M")), (EConst (CInt 20))); ((EConst (CStr "L")), (EConst (CInt 6))); ((EConst (CStr "N")), (EConst (CInt 150))); ((EConst (CStr "K")), (EConst (CInt 24)))]))]);
   TAssign "PARTITION_TABLE_L_VAR" (EDict [((EConst (CInt 12)), (EIndex (EName "PARTITION_TABLE_P_VAR") (EConst (CInt 0)))); ((EConst (CInt 11)), (EIndex (EName "PARTITION_TABLE_P_VAR") (EConst (CInt 1)))); ((EConst (CInt 10)), (EIndex (EName "PARTITION_TABLE_P_VAR") (EConst (CInt 2)))); ((EConst (CInt 9)), (EIndex (EName "PARTITION_TABLE_P_VAR") (EConst (CInt 3)))); ((EConst (CInt 8)), (EIndex (EName "PARTITION_TABLE_P_VAR") (EConst (CInt 4)))); ((EConst (CInt 7)), (EIndex (EName "PARTITION_TABLE_P_VAR") (EConst (CInt 5)))); ((EConst (CInt 6)), (EIndex (EName "PARTITION_TABLE_P_VAR") (EConst (CInt 6))))]);
   TClass "CPIFilterValue" [(EName "Enum")]
    [TAssign "ALL_OTHERS" (EConst (CStr "0"));
     TAssign "RESERVED_1" (EConst (CStr "1"));
     TAssign "RESERVED_2" (EConst (CStr "2"));
     TAssign "RESERVED_3" (EConst (CStr "3"));
     TAssign "RESERVED_4" (EConst (CStr "4"));
     TAssign "RESERVED_5" (EConst (CStr "5"));
     TAssign "RESERVED_6" (EConst (CStr "6"));
     TAssign "RESERVED_7" (EConst (CStr "7"))];
   TFun "replace_cpi_escapes";
   TFun "revert_cpi_escapes";
   TClass "CPI" [(EName "GS1Element"); (EName "TagEncodable")]
    [TClass "BinaryCodingScheme" [(EName "Enum")]
      [TAssign "CPI_96" (EConst (CStr "cpi-96"));
       TAssign "CPI_VAR" (EConst (CStr "cpi-var"))];
     TClass "BinaryHeader" [(EName "Enum")]
      [TAssign "CPI_96" (EConst (CStr "00111100"));
       TAssign "CPI_VAR" (EConst (CStr "00111101"))];
     TAssign "gs1_element_string_regex" (ECall (EAttr (EName "re") "compile") [(EName "CPI_GS1_ELEMENT_STRING")] None [] None);
     TFun "__init__";
     TFun "gs1_element_string";
     TFun "from_gs1_element_string";
     TFun "tag_uri";
     TFun "binary";
     TFun "from_binary"]].
