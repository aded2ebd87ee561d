(** epcpy/epc_schemes/usdod.py
    Written by a program from the syntax trees of the source text: docstrings and annotations are left out, nothing else. *)
From Coq Require Import String ZArith List.
From Verif.Model Require Import Syntax.
Import ListNotations.
Open Scope string_scope.
Open Scope Z_scope.
Open Scope list_scope.

(** usdod.py:65-78 *)
Definition f_usdod_USDOD___init__ : fundef :=
  mkFun "usdod" (Some "usdod.USDOD") KPlain ["self"; "epc_uri"] [] None [] None
   [SExpr (ECall (EAttr (ECall (EName "super") [] None [] None) "__init__") [(EName "epc_uri")] None [] None);
    SIf (ENot (ECall (EAttr (EName "USDOD_URI_REGEX") "fullmatch") [(EName "epc_uri")] None [] None))
     [SRaise (ECall (EName "ConvertException") [] None [("message", (EJoined [(EConst (CStr "Invalid USDOD URI ")); (EFormat (EName "epc_uri") None)]))] None)]
     [];
    SAssign (TTuple [(TSelf "_cage_dodaac"); (TSelf "_serial")] None) (ECall (EAttr (EIndex (ECall (EAttr (EName "epc_uri") "split") [(EConst (CStr ":"))] None [] None) (EConst (CInt 4))) "split") [(EConst (CStr "."))] None [] None);
    SIf (EOr [(ECmp (ECall (EName "int") [(EAttr (EName "self") "_serial")] None [] None) [(CmpGe, (ECall (EName "pow") [(EConst (CInt 2)); (EConst (CInt 36))] None [] None))]); (EAnd [(ECmp (ECall (EName "len") [(EAttr (EName "self") "_serial")] None [] None) [(CmpGt, (EConst (CInt 1)))]); (ECmp (EIndex (EAttr (EName "self") "_serial") (EConst (CInt 0))) [(CmpEq, (EConst (CStr "0")))])])])
     [SRaise (ECall (EName "ConvertException") [] None [("message", (EJoined [(EConst (CStr "Serial out of range: (max: ")); (EFormat (ECall (EName "pow") [(EConst (CInt 2)); (EConst (CInt 36))] None [] None) None); (EConst (CStr ")"))]))] None)]
     [];
    SAssign (TSelf "epc_uri") (EName "epc_uri")].

(** usdod.py:80-95 *)
Definition f_usdod_USDOD_tag_uri : fundef :=
  mkFun "usdod" (Some "usdod.USDOD") KPlain ["self"; "filter_value"; "binary_coding_scheme"] [("binary_coding_scheme", (EAttr (EName "BinaryCodingScheme") "USDOD_96"))] None [] None
   [SReturn (Some (EJoined [(EFormat (EAttr (EName "self") "TAG_URI_PREFIX") None); (EFormat (EAttr (EName "binary_coding_scheme") "value") None); (EConst (CStr ":")); (EFormat (EAttr (EName "filter_value") "value") None); (EConst (CStr ".")); (EFormat (EAttr (EName "self") "_cage_dodaac") None); (EConst (CStr ".")); (EFormat (EAttr (EName "self") "_serial") None)]))].

(** usdod.py:97-117 *)
Definition f_usdod_USDOD_binary : fundef :=
  mkFun "usdod" (Some "usdod.USDOD") KPlain ["self"; "filter_value"; "binary_coding_scheme"] [("binary_coding_scheme", (EAttr (EName "BinaryCodingScheme") "USDOD_96"))] None [] None
   [SAssign (TName "header") (EAttr (EIndex (EAttr (EName "USDOD") "BinaryHeader") (EAttr (EName "binary_coding_scheme") "name")) "value");
    SAssign (TName "filter_binary") (ECall (EName "str_to_binary") [(EAttr (EName "filter_value") "value"); (EConst (CInt 4))] None [] None);
    SAssign (TName "cage_code_binary") (ECall (EName "encode_cage_code") [(EJoined [(EFormat (EAttr (EName "self") "_cage_dodaac") (Some (EJoined [(EConst (CStr ">6"))])))])] None [] None);
    SAssign (TName "serial_binary") (ECall (EName "str_to_binary") [(EAttr (EName "self") "_serial"); (EConst (CInt 36))] None [] None);
    SReturn (Some (EBin OpAdd (EBin OpAdd (EBin OpAdd (EName "header") (EName "filter_binary")) (EName "cage_code_binary")) (EName "serial_binary")))].

(** usdod.py:120-144 *)
Definition f_usdod_USDOD_from_binary : fundef :=
  mkFun "usdod" (Some "usdod.USDOD") KClass ["cls"; "binary_string"] [] None [] None
   [SAssign (TTuple [(TName "binary_coding_scheme"); (TName "truncated_binary")] None) (ECall (EName "parse_header_and_truncate_binary") [(EName "binary_string"); (ECall (EAttr (EName "cls") "header_to_schemes") [] None [] None)] None [] None);
    SAssign (TName "filter_binary") (ESlice (EName "truncated_binary") (Some (EConst (CInt 8))) (Some (EConst (CInt 12))) None);
    SAssign (TName "cage_code_binary") (ESlice (EName "truncated_binary") (Some (EConst (CInt 12))) (Some (EConst (CInt 60))) None);
    SAssign (TName "serial_binary") (ESlice (EName "truncated_binary") (Some (EConst (CInt 60))) None None);
    SAssign (TName "filter_string") (ECall (EName "binary_to_int") [(EName "filter_binary")] None [] None);
    SAssign (TName "cage_code_string") (ECall (EName "decode_cage_code") [(EName "cage_code_binary")] None [] None);
    SAssign (TName "serial_string") (ECall (EName "binary_to_int") [(EName "serial_binary")] None [] None);
    SReturn (Some (ECall (EAttr (EName "cls") "from_tag_uri") [(EJoined [(EFormat (EAttr (EName "cls") "TAG_URI_PREFIX") None); (EFormat (EAttr (EName "binary_coding_scheme") "value") None); (EConst (CStr ":")); (EFormat (EName "filter_string") None); (EConst (CStr ".")); (EFormat (EName "cage_code_string") None); (EConst (CStr ".")); (EFormat (EName "serial_string") None)])] None [] None))].

(** epcpy/epc_schemes/usdod.py *)
Definition m_usdod : list top :=
  [TImport "re";
   TFrom "enum" ["Enum"];
   TFrom "base_scheme" ["TagEncodable"];
   TFrom "common" ["ConvertException"; "binary_to_int"; "decode_cage_code"; "encode_cage_code"; "parse_header_and_truncate_binary"; "str_to_binary"];
   TFrom "regex" ["USDOD_URI"];
   TAssign "USDOD_URI_REGEX" (ECall (EAttr (EName "re") "compile") [(EName "USDOD_URI")] None [] None);
   TClass "USDODFilterValue" [(EName "Enum")]
    [TAssign "PALLET" (EConst (CStr "0"));
     TAssign "CASE" (EConst (CStr "1"));
     TAssign "UNIT_PACK" (EConst (CStr "2"));
     TAssign "RESERVED_3" (EConst (CStr "3"));
     TAssign "RESERVED_4" (EConst (CStr "4"));
     TAssign "RESERVED_5" (EConst (CStr "5"));
     TAssign "RESERVED_6" (EConst (CStr "6"));
     TAssign "RESERVED_7" (EConst (CStr "7"));
     TAssign "RESERVED_8" (EConst (CStr "8"));
     TAssign "RESERVED_9" (EConst (CStr "9"));
     TAssign "RESERVED_10" (EConst (CStr "10"));
     TAssign "RESERVED_11" (EConst (CStr "11"));
     TAssign "RESERVED_12" (EConst (CStr "12"));
     TAssign "RESERVED_13" (EConst (CStr "13"));
     TAssign "RESERVED_14" (EConst (CStr "14"));
     TAssign "RESERVED_15" (EConst (CStr "15"))];
   TClass "USDOD" [(EName "TagEncodable")]
    [TClass "BinaryCodingScheme" [(EName "Enum")]
      [TAssign "USDOD_96" (EConst (CStr "usdod-96"))];
     TClass "BinaryHeader" [(EName "Enum")]
      [TAssign "USDOD_96" (EConst (CStr "00101111"))];
     TFun "__init__";
     TFun "tag_uri";
     TFun "binary";
     TFun "from_binary"]].
