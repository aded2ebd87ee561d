(** epcpy/epc_schemes/adi.py
    Written by a program from the syntax trees of the source text: docstrings and annotations are left out, nothing else. *)
From Coq Require Import String ZArith List.
From Verif.Model Require Import Syntax.
Import ListNotations.
Open Scope string_scope.
Open Scope Z_scope.
Open Scope list_scope.

(** adi.py:115-135 *)
Definition f_adi_ADI___init__ : fundef :=
  mkFun "adi" (Some "adi.ADI") KPlain ["self"; "epc_uri"] [] None [] None
   [SExpr (ECall (EAttr (ECall (EName "super") [] None [] None) "__init__") [(EName "epc_uri")] None [] None);
    SIf (ENot (ECall (EAttr (EName "ADI_URI_REGEX") "fullmatch") [(EName "epc_uri")] None [] None))
     [SRaise (ECall (EName "ConvertException") [] None [("message", (EJoined [(EConst (CStr "Invalid ADI URI ")); (EFormat (EName "epc_uri") None)]))] None)]
     [];
    SAssign (TTuple [(TSelf "_cage_dodaac"); (TSelf "_part_number"); (TSelf "_serial")] None) (ECall (EAttr (EIndex (ECall (EAttr (EName "epc_uri") "split") [(EConst (CStr ":"))] None [] None) (EConst (CInt 4))) "split") [(EConst (CStr "."))] None [] None);
    SIf (ENot (ECmp (EConst (CInt 0)) [(CmpLe, (ECall (EName "len") [(ECall (EAttr (EAttr (EName "self") "_part_number") "replace") [(EConst (CStr "%2F")); (EConst (CStr "/"))] None [] None)] None [] None)); (CmpLe, (EConst (CInt 32)))]))
     [SRaise (ECall (EName "ConvertException") [] None [("message", (EJoined [(EConst (CStr "Invalid number of characters in part number: ")); (EFormat (ECall (EName "len") [(ECall (EAttr (EAttr (EName "self") "_part_number") "replace") [(EConst (CStr "%2F")); (EConst (CStr "/"))] None [] None)] None [] None) None)]))] None)]
     [];
    SIf (ENot (ECmp (EConst (CInt 1)) [(CmpLe, (ECall (EName "len") [(ECall (EAttr (ECall (EAttr (EAttr (EName "self") "_serial") "replace") [(EConst (CStr "%2F")); (EConst (CStr "/"))] None [] None) "replace") [(EConst (CStr "%23")); (EConst (CStr "#"))] None [] None)] None [] None)); (CmpLe, (EConst (CInt 30)))]))
     [SRaise (ECall (EName "ConvertException") [] None [("message", (EJoined [(EConst (CStr "Invalid number of characters in serial: ")); (EFormat (ECall (EName "len") [(ECall (EAttr (ECall (EAttr (EAttr (EName "self") "_serial") "replace") [(EConst (CStr "%2F")); (EConst (CStr "/"))] None [] None) "replace") [(EConst (CStr "%23")); (EConst (CStr "#"))] None [] None)] None [] None) None)]))] None)]
     [];
    SAssign (TSelf "epc_uri") (EName "epc_uri")].

(** adi.py:137-151 *)
Definition f_adi_ADI_tag_uri : fundef :=
  mkFun "adi" (Some "adi.ADI") KPlain ["self"; "filter_value"; "binary_coding_scheme"] [("binary_coding_scheme", (EAttr (EName "BinaryCodingScheme") "ADI_VAR"))] None [] None
   [SReturn (Some (EJoined [(EFormat (EAttr (EName "self") "TAG_URI_PREFIX") None); (EFormat (EAttr (EName "binary_coding_scheme") "value") None); (EConst (CStr ":")); (EFormat (EAttr (EName "filter_value") "value") None); (EConst (CStr ".")); (EFormat (EAttr (EName "self") "_cage_dodaac") None); (EConst (CStr ".")); (EFormat (EAttr (EName "self") "_part_number") None); (EConst (CStr ".")); (EFormat (EAttr (EName "self") "_serial") None)]))].

(** adi.py:153-180 *)
Definition f_adi_ADI_binary : fundef :=
  mkFun "adi" (Some "adi.ADI") KPlain ["self"; "filter_value"; "binary_coding_scheme"] [("binary_coding_scheme", (EAttr (EName "BinaryCodingScheme") "ADI_VAR"))] None [] None
   [SAssign (TName "header") (EAttr (EIndex (EAttr (EName "ADI") "BinaryHeader") (EAttr (EName "binary_coding_scheme") "name")) "value");
    SAssign (TName "filter_binary") (ECall (EName "str_to_binary") [(EAttr (EName "filter_value") "value"); (EConst (CInt 6))] None [] None);
    SAssign (TName "cage_code_binary") (ECall (EName "encode_cage_code_six_bits") [(EAttr (EName "self") "_cage_dodaac")] None [] None);
    SAssign (TName "part_number_binary") (ECall (EName "encode_string_six_bits") [(EAttr (EName "self") "_part_number")] None [] None);
    SAssign (TName "serial_binary") (ECall (EName "encode_string_six_bits") [(EAttr (EName "self") "_serial")] None [] None);
    SAssign (TName "_binary") (EBin OpAdd (EBin OpAdd (EBin OpAdd (EBin OpAdd (EName "header") (EName "filter_binary")) (EName "cage_code_binary")) (EName "part_number_binary")) (EName "serial_binary"));
    SReturn (Some (EName "_binary"))].

(** adi.py:183-221 *)
Definition f_adi_ADI_from_binary : fundef :=
  mkFun "adi" (Some "adi.ADI") KClass ["cls"; "binary_string"] [] None [] None
   [SAssign (TTuple [(TName "binary_coding_scheme"); (TName "truncated_binary")] None) (ECall (EName "parse_header_and_truncate_binary") [(EName "binary_string"); (ECall (EAttr (EName "cls") "header_to_schemes") [] None [] None)] None [] None);
    SAssign (TName "filter_binary") (ESlice (EName "truncated_binary") (Some (EConst (CInt 8))) (Some (EConst (CInt 14))) None);
    SAssign (TName "cage_code_binary") (ESlice (EName "truncated_binary") (Some (EConst (CInt 14))) (Some (EConst (CInt 50))) None);
    SIf (ENot (ECall (EAttr (EName "re") "match") [(EConst (CStr ".*([0]{6})+.*")); (ESlice (EName "truncated_binary") (Some (EConst (CInt 50))) None None)] None [] None))
     [SRaise (ECall (EName "ConvertException") [] None [("message", (EConst (CStr "Invalid binary for ADI, missing 6-bit terminators")))] None)]
     [];
    SAssign (TTuple [(TName "part_number_binary"); (TName "_")] (Some (TName "serial_binary"))) (ECall (EAttr (EName "re") "split") [(EConst (CStr "([0]{6})")); (ESlice (EName "truncated_binary") (Some (EConst (CInt 50))) None None)] None [] None);
    SAssign (TName "serial_binary_trimmed") (ESlice (ECall (EAttr (EConst (CStr "")) "join") [(EName "serial_binary")] None [] None) None (Some (ENeg (EConst (CInt 6)))) None);
    SAssign (TName "filter_string") (ECall (EName "binary_to_int") [(EName "filter_binary")] None [] None);
    SAssign (TName "cage_code_string") (ECall (EName "decode_cage_code_six_bits") [(EName "cage_code_binary")] None [] None);
    SAssign (TName "part_number_string") (ECall (EName "decode_string_six_bits") [(EName "part_number_binary"); (EConst (CInt 32))] None [] None);
    SAssign (TName "serial_string") (ECall (EName "decode_string_six_bits") [(EName "serial_binary_trimmed"); (EConst (CInt 30))] None [] None);
    SReturn (Some (ECall (EAttr (EName "cls") "from_tag_uri") [(EJoined [(EFormat (EAttr (EName "cls") "TAG_URI_PREFIX") None); (EFormat (EAttr (EName "binary_coding_scheme") "value") None); (EConst (CStr ":")); (EFormat (EName "filter_string") None); (EConst (CStr ".")); (EFormat (EName "cage_code_string") None); (EConst (CStr ".")); (EFormat (EName "part_number_string") None); (EConst (CStr ".")); (EFormat (EName "serial_string") None)])] None [] None))].

(** epcpy/epc_schemes/adi.py *)
Definition m_adi : list top :=
  [TImport "re";
   TFrom "enum" ["Enum"];
   TFrom "base_scheme" ["TagEncodable"];
   TFrom "common" ["ConvertException"; "binary_to_int"; "decode_cage_code_six_bits"; "decode_string_six_bits"; "encode_cage_code_six_bits"; "encode_string_six_bits"; "parse_header_and_truncate_binary"; "str_to_binary"];
   TFrom "regex" ["ADI_URI"];
   TAssign "ADI_URI_REGEX" (ECall (EAttr (EName "re") "compile") [(EName "ADI_URI")] None [] None);
   TClass "ADIFilterValue" [(EName "Enum")]
    [TAssign "ALL_OTHERS" (EConst (CStr "0"));
     TAssign "ITEM_OTHER" (EConst (CStr "1"));
     TAssign "CARTON" (EConst (CStr "2"));
     TAssign "RESERVED_3" (EConst (CStr "3"));
     TAssign "RESERVED_4" (EConst (CStr "4"));
     TAssign "RESERVED_5" (EConst (CStr "5"));
     TAssign "PALLET" (EConst (CStr "6"));
     TAssign "RESERVED_7" (EConst (CStr "7"));
     TAssign "SEAT_CUSHIONS" (EConst (CStr "8"));
     TAssign "SEAT_COVERS" (EConst (CStr "9"));
     TAssign "SEAT_BELTS" (EConst (CStr "10"));
     TAssign "GALLEY" (EConst (CStr "11"));
     TAssign "UNIT_LOAD_DEVICES" (EConst (CStr "12"));
     TAssign "AIRCRAFT_SECURITY_ITEMS" (EConst (CStr "13"));
     TAssign "LIFE_VESTS" (EConst (CStr "14"));
     TAssign "OXYGEN_GENERATOR" (EConst (CStr "15"));
     TAssign "ENGINE_COMPONENTS" (EConst (CStr "16"));
     TAssign "AVIONICS" (EConst (CStr "17"));
     TAssign "EXPERIMENTAL_EQUIPMENT" (EConst (CStr "18"));
     TAssign "OTHER_EMERGENCY_EQUIPMENT" (EConst (CStr "19"));
     TAssign "OTHER_ROTABLES" (EConst (CStr "20"));
     TAssign "OTHER_REPAIRABLE" (EConst (CStr "21"));
     TAssign "OTHER_CABIN_INTERIOR" (EConst (CStr "22"));
     TAssign "OTHER_REPAIR" (EConst (CStr "23"));
     TAssign "PASSENGER_SEATS" (EConst (CStr "24"));
     TAssign "IFE_SYSTEMS" (EConst (CStr "25"));
     TAssign "RESERVED_26" (EConst (CStr "26"));
     TAssign "RESERVED_27" (EConst (CStr "27"));
     TAssign "RESERVED_28" (EConst (CStr "28"));
     TAssign "RESERVED_29" (EConst (CStr "29"));
     TAssign "RESERVED_30" (EConst (CStr "30"));
     TAssign "RESERVED_31" (EConst (CStr "31"));
     TAssign "RESERVED_32" (EConst (CStr "32"));
     TAssign "RESERVED_33" (EConst (CStr "33"));
     TAssign "RESERVED_34" (EConst (CStr "34"));
     TAssign "RESERVED_35" (EConst (CStr "35"));
     TAssign "RESERVED_36" (EConst (CStr "36"));
     TAssign "RESERVED_37" (EConst (CStr "37"));
     TAssign "RESERVED_38" (EConst (CStr "38"));
     TAssign "RESERVED_39" (EConst (CStr "39"));
     TAssign "RESERVED_40" (EConst (CStr "40"));
     TAssign "RESERVED_41" (EConst (CStr "41"));
     TAssign "RESERVED_42" (EConst (CStr "42"));
     TAssign "RESERVED_43" (EConst (CStr "43"));
     TAssign "RESERVED_44" (EConst (CStr "44"));
     TAssign "RESERVED_45" (EConst (CStr "45"));
     TAssign "RESERVED_46" (EConst (CStr "46"));
     TAssign "RESERVED_47" (EConst (CStr "47"));
     TAssign "RESERVED_48" (EConst (CStr "48"));
     TAssign "RESERVED_49" (EConst (CStr "49"));
     TAssign "RESERVED_50" (EConst (CStr "50"));
     TAssign "RESERVED_51" (EConst (CStr "51"));
     TAssign "RESERVED_52" (EConst (CStr "52"));
     TAssign "RESERVED_53" (EConst (CStr "53"));
     TAssign "RESERVED_54" (EConst (CStr "54"));
     TAssign "RESERVED_55" (EConst (CStr "55"));
     TAssign "LOCATION_IDENTIFIER" (EConst (CStr "56"));
     TAssign "DOCUMENTATION" (EConst (CStr "57"));
     TAssign "TOOLS" (EConst (CStr "58"));
     TAssign "GROUND_SUPPORT_EQUIPMENT" (EConst (CStr "59"));
     TAssign "OTHER_NON_FLYABLE_EQUIPMENT" (EConst (CStr "60"));
     TAssign "RESERVED_61" (EConst (CStr "61"));
     TAssign "RESERVED_62" (EConst (CStr "62"));
     TAssign "RESERVED_63" (EConst (CStr "63"))];
   TClass "ADI" [(EName "TagEncodable")]
    [TClass "BinaryCodingScheme" [(EName "Enum")]
      [TAssign "ADI_VAR" (EConst (CStr "adi-var"))];
     TClass "BinaryHeader" [(EName "Enum")]
      [TAssign "ADI_VAR" (EConst (CStr "00111011"))];
     TFun "__init__";
     TFun "tag_uri";
     TFun "binary";
     TFun "from_binary"]].
