(** epcpy/epc_schemes/upui.py
    Written by a program from the syntax trees of the source text: docstrings and annotations are left out, nothing else. *)
From Coq Require Import String ZArith List.
From Verif.Model Require Import Syntax.
Import ListNotations.
Open Scope string_scope.
Open Scope Z_scope.
Open Scope list_scope.

(** upui.py:36-58 *)
Definition f_upui_UPUI___init__ : fundef :=
  mkFun "upui" (Some "upui.UPUI") KPlain ["self"; "epc_uri"] [] None [] None
   [SExpr (ECall (EAttr (ECall (EName "super") [] None [] None) "__init__") [(EName "epc_uri")] None [] None);
    SIf (ENot (ECall (EAttr (EName "UPUI_URI_REGEX") "fullmatch") [(EName "epc_uri")] None [] None))
     [SRaise (ECall (EName "ConvertException") [] None [("message", (EJoined [(EConst (CStr "Invalid UPUI URI ")); (EFormat (EName "epc_uri") None)]))] None)]
     [];
    SAssign (TTuple [(TSelf "_company_pref"); (TSelf "_item_ref")] (Some (TName "tpx_components"))) (ECall (EAttr (ECall (EAttr (EConst (CStr ":")) "join") [(ESlice (ECall (EAttr (EName "epc_uri") "split") [(EConst (CStr ":"))] None [] None) (Some (EConst (CInt 4))) None None)] None [] None) "split") [(EConst (CStr "."))] None [] None);
    SAssign (TName "tpx") (ECall (EAttr (EConst (CStr ".")) "join") [(EName "tpx_components")] None [] None);
    SExpr (ECall (EName "verify_gs3a3_component") [(EName "tpx")] None [] None);
    SAssign (TSelf "_tpx") (ECall (EName "replace_uri_escapes") [(EName "tpx")] None [] None);
    SIf (ENot (ECmp (EConst (CInt 1)) [(CmpLe, (ECall (EName "len") [(EAttr (EName "self") "_tpx")] None [] None)); (CmpLe, (EConst (CInt 28)))]))
     [SRaise (ECall (EName "ConvertException") [] None [("message", (EJoined [(EConst (CStr "Incorrect TPX size"))]))] None)]
     [];
    SIf (ECmp (ECall (EName "len") [(EJoined [(EFormat (EAttr (EName "self") "_company_pref") None); (EFormat (EAttr (EName "self") "_item_ref") None)])] None [] None) [(CmpNe, (EConst (CInt 13)))])
     [SRaise (ECall (EName "ConvertException") [] None [("message", (EJoined [(EConst (CStr "Wrong company prefix + item ref size (!=13)"))]))] None)]
     [];
    SAssign (TSelf "epc_uri") (EName "epc_uri")].

(** upui.py:60-69 *)
Definition f_upui_UPUI_gs1_element_string : fundef :=
  mkFun "upui" (Some "upui.UPUI") KPlain ["self"] [] None [] None
   [SAssign (TName "check_digit") (ECall (EName "calculate_checksum") [(EJoined [(EFormat (EIndex (EAttr (EName "self") "_item_ref") (EConst (CInt 0))) None); (EFormat (EAttr (EName "self") "_company_pref") None); (EFormat (ESlice (EAttr (EName "self") "_item_ref") (Some (EConst (CInt 1))) None None) None)])] None [] None);
    SReturn (Some (EJoined [(EConst (CStr "(01)")); (EFormat (EIndex (EAttr (EName "self") "_item_ref") (EConst (CInt 0))) None); (EFormat (EAttr (EName "self") "_company_pref") None); (EFormat (ESlice (EAttr (EName "self") "_item_ref") (Some (EConst (CInt 1))) None None) None); (EFormat (EName "check_digit") None); (EConst (CStr "(235)")); (EFormat (EAttr (EName "self") "_tpx") None)]))].

(** upui.py:72-98 *)
Definition f_upui_UPUI_from_gs1_element_string : fundef :=
  mkFun "upui" (Some "upui.UPUI") KClass ["cls"; "gs1_element_string"; "company_prefix_length"] [] None [] None
   [SIf (ENot (ECall (EAttr (EAttr (EName "UPUI") "gs1_element_string_regex") "fullmatch") [(EName "gs1_element_string")] None [] None))
     [SRaise (ECall (EName "ConvertException") [] None [("message", (EJoined [(EConst (CStr "Invalid UPUI GS1 element string ")); (EFormat (EName "gs1_element_string") None)]))] None)]
     [];
    SAssign (TName "digits") (ESlice (EName "gs1_element_string") (Some (EConst (CInt 4))) (Some (EConst (CInt 18))) None);
    SAssign (TName "chars") (ESlice (EName "gs1_element_string") (Some (EConst (CInt 23))) None None);
    SAssign (TName "chars") (ECall (EName "revert_uri_escapes") [(EName "chars")] None [] None);
    SReturn (Some (ECall (EName "cls") [(EJoined [(EConst (CStr "urn:epc:id:upui:")); (EFormat (ESlice (EName "digits") (Some (EConst (CInt 1))) (Some (EBin OpAdd (EConst (CInt 1)) (EName "company_prefix_length"))) None) None); (EConst (CStr ".")); (EFormat (EIndex (EName "digits") (EConst (CInt 0))) None); (EFormat (ESlice (EName "digits") (Some (EBin OpAdd (EConst (CInt 1)) (EName "company_prefix_length"))) (Some (ENeg (EConst (CInt 1)))) None) None); (EConst (CStr ".")); (EFormat (EName "chars") None)])] None [] None))].

(** epcpy/epc_schemes/upui.py *)
Definition m_upui : list top :=
  [TImport "re";
   TFrom "base_scheme" ["GS1Element"];
   TFrom "common" ["ConvertException"; "calculate_checksum"; "replace_uri_escapes"; "revert_uri_escapes"; "verify_gs3a3_component"];
   TFrom "regex" ["UPUI_GS1_ELEMENT_STRING"; "UPUI_URI"];
   TAssign "UPUI_URI_REGEX" (ECall (EAttr (EName "re") "compile") [(EName "UPUI_URI")] None [] None);
   TClass "UPUI" [(EName "GS1Element")]
    [TAssign "gs1_element_string_regex" (ECall (EAttr (EName "re") "compile") [(EName "UPUI_GS1_ELEMENT_STRING")] None [] None);
     TFun "__init__";
     TFun "gs1_element_string";
     TFun "from_gs1_element_string"]].
