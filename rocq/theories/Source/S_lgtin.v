(** epcpy/epc_schemes/lgtin.py
    Written by a program from the syntax trees of the source text: docstrings and annotations are left out, nothing else. *)
From Coq Require Import String ZArith List.
From Verif.Model Require Import Syntax.
Import ListNotations.
Open Scope string_scope.
Open Scope Z_scope.
Open Scope list_scope.

(** lgtin.py:45-80 *)
Definition f_lgtin_LGTIN___init__ : fundef :=
  mkFun "lgtin" (Some "lgtin.LGTIN") KPlain ["self"; "epc_class"] [] None [] None
   [SExpr (ECall (EAttr (ECall (EName "super") [] None [] None) "__init__") [(EName "epc_class")] None [] None);
    SIf (ENot (ECall (EAttr (EName "LGTIN_CLASS_REGEX") "fullmatch") [(EName "epc_class")] None [] None))
     [SRaise (ECall (EName "ConvertException") [] None [("message", (EJoined [(EConst (CStr "Invalid LGTIN CLASS ")); (EFormat (EName "epc_class") None)]))] None)]
     [];
    SAssign (TTuple [(TSelf "_company_pref"); (TSelf "_item_ref")] (Some (TName "lot"))) (ECall (EAttr (ECall (EAttr (EConst (CStr ":")) "join") [(ESlice (ECall (EAttr (EName "epc_class") "split") [(EConst (CStr ":"))] None [] None) (Some (EConst (CInt 4))) None None)] None [] None) "split") [(EConst (CStr "."))] None [] None);
    SAssign (TSelf "_lot") (ECall (EAttr (EConst (CStr ".")) "join") [(EName "lot")] None [] None);
    SExpr (ECall (EName "verify_gs3a3_component") [(EAttr (EName "self") "_lot")] None [] None);
    SAssign (TSelf "_lot") (ECall (EName "replace_uri_escapes") [(EAttr (EName "self") "_lot")] None [] None);
    SIf (ENot (ECmp (EConst (CInt 6)) [(CmpLe, (ECall (EName "len") [(EAttr (EName "self") "_company_pref")] None [] None)); (CmpLe, (EConst (CInt 12)))]))
     [SRaise (ECall (EName "ConvertException") [] None [("message", (EJoined [(EConst (CStr "Invalid company prefix length ")); (EFormat (ECall (EName "len") [(EAttr (EName "self") "_company_pref")] None [] None) None)]))] None)]
     [];
    SIf (ECmp (ECall (EName "len") [(EJoined [(EFormat (EAttr (EName "self") "_company_pref") None); (EFormat (EAttr (EName "self") "_item_ref") None)])] None [] None) [(CmpNe, (EConst (CInt 13)))])
     [SRaise (ECall (EName "ConvertException") [] None [("message", (EJoined [(EConst (CStr "Complete component length of invalid length (!=13)"))]))] None)]
     [];
    SIf (ENot (ECmp (EConst (CInt 1)) [(CmpLe, (ECall (EName "len") [(EAttr (EName "self") "_lot")] None [] None)); (CmpLe, (EConst (CInt 20)))]))
     [SRaise (ECall (EName "ConvertException") [] None [("message", (EConst (CStr "Invalid lot length")))] None)]
     [];
    SAssign (TSelf "epc_uri") (EName "epc_class");
    SAssign (TName "check_digit") (ECall (EName "calculate_checksum") [(EJoined [(EFormat (EIndex (EAttr (EName "self") "_item_ref") (EConst (CInt 0))) None); (EFormat (EAttr (EName "self") "_company_pref") None); (EFormat (ESlice (EAttr (EName "self") "_item_ref") (Some (EConst (CInt 1))) None None) None)])] None [] None);
    SAssign (TSelf "_gtin") (ECall (EAttr (EJoined [(EFormat (EIndex (EAttr (EName "self") "_item_ref") (EConst (CInt 0))) None); (EFormat (EAttr (EName "self") "_company_pref") None); (EFormat (ESlice (EAttr (EName "self") "_item_ref") (Some (EConst (CInt 1))) None None) None); (EFormat (EName "check_digit") None)]) "zfill") [(EConst (CInt 14))] None [] None)].

(** lgtin.py:82-92 *)
Definition f_lgtin_LGTIN_gs1_key : fundef :=
  mkFun "lgtin" (Some "lgtin.LGTIN") KPlain ["self"; "gtin_type"] [("gtin_type", (EAttr (EName "GTIN_TYPE") "GTIN14"))] None [] None
   [SReturn (Some (ECall (EAttr (EName "self") "gtin") [] None [("gtin_type", (EName "gtin_type"))] None))].

(** lgtin.py:94-111 *)
Definition f_lgtin_LGTIN_gtin : fundef :=
  mkFun "lgtin" (Some "lgtin.LGTIN") KPlain ["self"; "gtin_type"] [("gtin_type", (EAttr (EName "GTIN_TYPE") "GTIN14"))] None [] None
   [SIf (ECmp (EName "gtin_type") [(CmpNe, (EAttr (EName "GTIN_TYPE") "GTIN14"))])
     [SIf (ENot (ECall (EAttr (EAttr (EName "self") "_gtin") "startswith") [(EBin OpMul (EBin OpSub (EConst (CInt 14)) (EName "gtin_type")) (EConst (CStr "0")))] None [] None))
       [SRaise (ECall (EName "ConvertException") [] None [("message", (EJoined [(EConst (CStr "Invalid GTIN")); (EFormat (EName "gtin_type") None)]))] None)]
       []]
     [];
    SReturn (Some (ESlice (EAttr (EName "self") "_gtin") (Some (EBin OpSub (EConst (CInt 14)) (EName "gtin_type"))) (Some (EConst (CInt 14))) None))].

(** lgtin.py:113-121 *)
Definition f_lgtin_LGTIN_gs1_element_string : fundef :=
  mkFun "lgtin" (Some "lgtin.LGTIN") KPlain ["self"] [] None [] None
   [SAssign (TName "gtin") (EAttr (EName "self") "_gtin");
    SReturn (Some (EJoined [(EConst (CStr "(01)")); (EFormat (EName "gtin") None); (EConst (CStr "(10)")); (EFormat (EAttr (EName "self") "_lot") None)]))].

(** lgtin.py:124-149 *)
Definition f_lgtin_LGTIN_from_gs1_element_string : fundef :=
  mkFun "lgtin" (Some "lgtin.LGTIN") KClass ["cls"; "gs1_element_string"; "company_prefix_length"] [] None [] None
   [SIf (ENot (ECall (EAttr (EAttr (EName "LGTIN") "gs1_element_string_regex") "fullmatch") [(EName "gs1_element_string")] None [] None))
     [SRaise (ECall (EName "ConvertException") [] None [("message", (EJoined [(EConst (CStr "Invalid LGTIN GS1 element string ")); (EFormat (EName "gs1_element_string") None)]))] None)]
     [];
    SAssign (TTuple [(TName "_"); (TName "digits"); (TName "chars")] None) (ECall (EAttr (EName "re") "split") [(EJoined [(EConst (CStr "\(.{2}\)"))]); (EName "gs1_element_string")] None [] None);
    SAssign (TName "chars") (ECall (EName "revert_uri_escapes") [(EName "chars")] None [] None);
    SReturn (Some (ECall (EName "cls") [(EJoined [(EConst (CStr "urn:epc:class:lgtin:")); (EFormat (ESlice (EName "digits") (Some (EConst (CInt 1))) (Some (EBin OpAdd (EName "company_prefix_length") (EConst (CInt 1)))) None) None); (EConst (CStr ".")); (EFormat (EIndex (EName "digits") (EConst (CInt 0))) None); (EFormat (ESlice (EName "digits") (Some (EBin OpAdd (EConst (CInt 1)) (EName "company_prefix_length"))) (Some (ENeg (EConst (CInt 1)))) None) None); (EConst (CStr ".")); (EFormat (EName "chars") None)])] None [] None))].

(** epcpy/epc_schemes/lgtin.py *)
Definition m_lgtin : list top :=
  [TImport "re";
   TFrom "enum" ["IntEnum"];
   TFrom "base_scheme" ["GS1Keyed"];
   TFrom "common" ["ConvertException"; "calculate_checksum"; "replace_uri_escapes"; "revert_uri_escapes"; "verify_gs3a3_component"];
   TFrom "regex" ["LGTIN_CLASS"; "LGTIN_GS1_ELEMENT_STRING"];
   TAssign "LGTIN_CLASS_REGEX" (ECall (EAttr (EName "re") "compile") [(EName "LGTIN_CLASS")] None [] None);
   TClass "GTIN_TYPE" [(EName "IntEnum")]
    [TAssign "GTIN8" (ETuple [(EConst (CInt 8))]);
     TAssign "GTIN12" (ETuple [(EConst (CInt 12))]);
     TAssign "GTIN13" (ETuple [(EConst (CInt 13))]);
     TAssign "GTIN14" (EConst (CInt 14))];
   TClass "LGTIN" [(EName "GS1Keyed")]
    [TAssign "gs1_element_string_regex" (ECall (EAttr (EName "re") "compile") [(EName "LGTIN_GS1_ELEMENT_STRING")] None [] None);
     TFun "__init__";
     TFun "gs1_key";
     TFun "gtin";
     TFun "gs1_element_string";
     TFun "from_gs1_element_string"]].
