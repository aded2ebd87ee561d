(** epcpy/epc_schemes/ginc.py
    Written by a program from the syntax trees of the source text: docstrings and annotations are left out, nothing else. *)
From Coq Require Import String ZArith List.
From Verif.Model Require Import Syntax.
Import ListNotations.
Open Scope string_scope.
Open Scope Z_scope.
Open Scope list_scope.

(** ginc.py:36-62 *)
Definition f_ginc_GINC___init__ : fundef :=
  mkFun "ginc" (Some "ginc.GINC") KPlain ["self"; "epc_uri"] [] None [] None
   [SExpr (ECall (EAttr (ECall (EName "super") [] None [] None) "__init__") [(EName "epc_uri")] None [] None);
    SIf (ENot (ECall (EAttr (EName "GINC_URI_REGEX") "fullmatch") [(EName "epc_uri")] None [] None))
     [SRaise (ECall (EName "ConvertException") [] None [("message", (EJoined [(EConst (CStr "Invalid GINC URI ")); (EFormat (EName "epc_uri") None)]))] None)]
     [];
    SAssign (TTuple [(TName "company_prefix")] (Some (TName "consignment_reference_components"))) (ECall (EAttr (ECall (EAttr (EConst (CStr ":")) "join") [(ESlice (ECall (EAttr (EName "epc_uri") "split") [(EConst (CStr ":"))] None [] None) (Some (EConst (CInt 4))) None None)] None [] None) "split") [(EConst (CStr "."))] None [] None);
    SAssign (TName "consignment_reference") (ECall (EAttr (EConst (CStr ".")) "join") [(EName "consignment_reference_components")] None [] None);
    SExpr (ECall (EName "verify_gs3a3_component") [(EName "consignment_reference")] None [] None);
    SAssign (TName "consignment_reference") (ECall (EName "replace_uri_escapes") [(EName "consignment_reference")] None [] None);
    SIf (ENot (ECmp (EConst (CInt 6)) [(CmpLe, (ECall (EName "len") [(EName "company_prefix")] None [] None)); (CmpLe, (EConst (CInt 12)))]))
     [SRaise (ECall (EName "ConvertException") [] None [("message", (EJoined [(EConst (CStr "Invalid company prefix length ")); (EFormat (ECall (EName "len") [(EName "company_prefix")] None [] None) None)]))] None)]
     [];
    SIf (ECmp (ECall (EName "len") [(EName "consignment_reference")] None [] None) [(CmpEq, (EConst (CInt 0)))])
     [SRaise (ECall (EName "ConvertException") [] None [("message", (EJoined [(EConst (CStr "Consignment reference too small"))]))] None)]
     [];
    SIf (ECmp (ECall (EName "len") [(EJoined [(EFormat (EName "company_prefix") None); (EFormat (EName "consignment_reference") None)])] None [] None) [(CmpGt, (EConst (CInt 30)))])
     [SRaise (ECall (EName "ConvertException") [] None [("message", (EJoined [(EConst (CStr "Complete component length too large (>30)"))]))] None)]
     [];
    SAssign (TSelf "epc_uri") (EName "epc_uri");
    SAssign (TSelf "_ginc") (EJoined [(EFormat (EName "company_prefix") None); (EFormat (EName "consignment_reference") None)])].

(** ginc.py:64-70 *)
Definition f_ginc_GINC_gs1_key : fundef :=
  mkFun "ginc" (Some "ginc.GINC") KPlain ["self"] [] None [] None
   [SReturn (Some (EAttr (EName "self") "_ginc"))].

(** ginc.py:72-78 *)
Definition f_ginc_GINC_gs1_element_string : fundef :=
  mkFun "ginc" (Some "ginc.GINC") KPlain ["self"] [] None [] None
   [SReturn (Some (EJoined [(EConst (CStr "(401)")); (EFormat (EAttr (EName "self") "_ginc") None)]))].

(** ginc.py:81-105 *)
Definition f_ginc_GINC_from_gs1_element_string : fundef :=
  mkFun "ginc" (Some "ginc.GINC") KClass ["cls"; "gs1_element_string"; "company_prefix_length"] [] None [] None
   [SIf (ENot (ECall (EAttr (EAttr (EName "GINC") "gs1_element_string_regex") "fullmatch") [(EName "gs1_element_string")] None [] None))
     [SRaise (ECall (EName "ConvertException") [] None [("message", (EJoined [(EConst (CStr "Invalid GINC GS1 element string ")); (EFormat (EName "gs1_element_string") None)]))] None)]
     [];
    SAssign (TName "digits") (ESlice (EName "gs1_element_string") (Some (EConst (CInt 5))) (Some (EBin OpAdd (EConst (CInt 5)) (EName "company_prefix_length"))) None);
    SAssign (TName "chars") (ESlice (EName "gs1_element_string") (Some (EBin OpAdd (EConst (CInt 5)) (EName "company_prefix_length"))) None None);
    SAssign (TName "chars") (ECall (EName "revert_uri_escapes") [(EName "chars")] None [] None);
    SReturn (Some (ECall (EName "cls") [(EJoined [(EConst (CStr "urn:epc:id:ginc:")); (EFormat (EName "digits") None); (EConst (CStr ".")); (EFormat (EName "chars") None)])] None [] None))].

(** epcpy/epc_schemes/ginc.py *)
Definition m_ginc : list top :=
  [TImport "re";
   TFrom "base_scheme" ["GS1Keyed"];
   TFrom "common" ["ConvertException"; "replace_uri_escapes"; "revert_uri_escapes"; "verify_gs3a3_component"];
   TFrom "regex" ["GINC_GS1_ELEMENT_STRING"; "GINC_URI"];
   TAssign "GINC_URI_REGEX" (ECall (EAttr (EName "re") "compile") [(EName "GINC_URI")] None [] None);
   TClass "GINC" [(EName "GS1Keyed")]
    [TAssign "gs1_element_string_regex" (ECall (EAttr (EName "re") "compile") [(EName "GINC_GS1_ELEMENT_STRING")] None [] None);
     TFun "__init__";
     TFun "gs1_key";
     TFun "gs1_element_string";
     TFun "from_gs1_element_string"]].
