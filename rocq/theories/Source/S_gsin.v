(** epcpy/epc_schemes/gsin.py
    Written by a program from the syntax trees of the source text: docstrings and annotations are left out, nothing else. *)
From Coq Require Import String ZArith List.
From Verif.Model Require Import Syntax.
Import ListNotations.
Open Scope string_scope.
Open Scope Z_scope.
Open Scope list_scope.

(** gsin.py:12-29 *)
Definition f_gsin_calculate_checksum : fundef :=
  mkFun "gsin" None KPlain ["digits"] [] None [] None
   [SAssign (TName "digit_list") (EListComp (ECall (EName "int") [(EName "d")] None [] None) [((TName "d"), (EName "digits"), [])]);
    SAssign (TTuple [(TName "odd"); (TName "even")] None) (ETuple [(ESlice (EName "digit_list") (Some (EConst (CInt 1))) None (Some (EConst (CInt 2)))); (ESlice (EName "digit_list") (Some (EConst (CInt 0))) None (Some (EConst (CInt 2))))]);
    SAssign (TName "val1") (ECall (EName "sum") [(EName "odd")] None [] None);
    SAssign (TName "val2") (ECall (EName "sum") [(EName "even")] None [] None);
    SAssign (TName "checksum") (EBin OpMod (EBin OpSub (EConst (CInt 10)) (EBin OpMod (EBin OpAdd (EBin OpMul (EConst (CInt 3)) (EName "val1")) (EName "val2")) (EConst (CInt 10)))) (EConst (CInt 10)));
    SReturn (Some (EName "checksum"))].

(** gsin.py:51-69 *)
Definition f_gsin_GSIN___init__ : fundef :=
  mkFun "gsin" (Some "gsin.GSIN") KPlain ["self"; "epc_uri"] [] None [] None
   [SExpr (ECall (EAttr (ECall (EName "super") [] None [] None) "__init__") [(EName "epc_uri")] None [] None);
    SIf (ENot (ECall (EAttr (EName "GSIN_URI_REGEX") "fullmatch") [(EName "epc_uri")] None [] None))
     [SRaise (ECall (EName "ConvertException") [] None [("message", (EJoined [(EConst (CStr "Invalid GSIN URI ")); (EFormat (EName "epc_uri") None)]))] None)]
     [];
    SAssign (TTuple [(TSelf "_company_prefix"); (TSelf "_shipper_ref")] None) (ECall (EAttr (EIndex (ECall (EAttr (EName "epc_uri") "split") [(EConst (CStr ":"))] None [] None) (EConst (CInt 4))) "split") [(EConst (CStr "."))] None [] None);
    SIf (EOr [(ECmp (ECall (EName "len") [(EJoined [(EFormat (EAttr (EName "self") "_company_prefix") None); (EFormat (EAttr (EName "self") "_shipper_ref") None)])] None [] None) [(CmpNe, (EConst (CInt 16)))]); (ENot (ECmp (EConst (CInt 6)) [(CmpLe, (ECall (EName "len") [(EAttr (EName "self") "_company_prefix")] None [] None)); (CmpLe, (EConst (CInt 12)))]))])
     [SRaise (ECall (EName "ConvertException") [] None [("message", (EJoined [(EConst (CStr "Invalid component length ")); (EFormat (ECall (EName "len") [(ECall (EAttr (EIndex (ECall (EAttr (EName "epc_uri") "split") [(EConst (CStr ":"))] None [] None) (EConst (CInt 4))) "replace") [(EConst (CStr ".")); (EConst (CStr ""))] None [] None)] None [] None) None)]))] None)]
     [];
    SAssign (TSelf "epc_uri") (EName "epc_uri");
    SAssign (TName "check_digit") (ECall (EName "calculate_checksum") [(EJoined [(EFormat (EAttr (EName "self") "_company_prefix") None); (EFormat (EAttr (EName "self") "_shipper_ref") None)])] None [] None);
    SAssign (TSelf "_gsin") (EJoined [(EFormat (EAttr (EName "self") "_company_prefix") None); (EFormat (EAttr (EName "self") "_shipper_ref") None); (EFormat (EName "check_digit") None)])].

(** gsin.py:71-77 *)
Definition f_gsin_GSIN_gs1_key : fundef :=
  mkFun "gsin" (Some "gsin.GSIN") KPlain ["self"] [] None [] None
   [SReturn (Some (EAttr (EName "self") "_gsin"))].

(** gsin.py:79-85 *)
Definition f_gsin_GSIN_gs1_element_string : fundef :=
  mkFun "gsin" (Some "gsin.GSIN") KPlain ["self"] [] None [] None
   [SReturn (Some (EJoined [(EConst (CStr "(402)")); (EFormat (EAttr (EName "self") "_gsin") None)]))].

(** gsin.py:88-112 *)
Definition f_gsin_GSIN_from_gs1_element_string : fundef :=
  mkFun "gsin" (Some "gsin.GSIN") KClass ["cls"; "gs1_element_string"; "company_prefix_length"] [] None [] None
   [SIf (ENot (ECall (EAttr (EAttr (EName "GSIN") "gs1_element_string_regex") "fullmatch") [(EName "gs1_element_string")] None [] None))
     [SRaise (ECall (EName "ConvertException") [] None [("message", (EJoined [(EConst (CStr "Invalid GSIN GS1 element string ")); (EFormat (EName "gs1_element_string") None)]))] None)]
     [];
    SAssign (TName "digits") (ESlice (EName "gs1_element_string") (Some (EConst (CInt 5))) (Some (ENeg (EConst (CInt 1)))) None);
    SReturn (Some (ECall (EName "cls") [(EJoined [(EConst (CStr "urn:epc:id:gsin:")); (EFormat (ESlice (EName "digits") None (Some (EName "company_prefix_length")) None) None); (EConst (CStr ".")); (EFormat (ESlice (EName "digits") (Some (EName "company_prefix_length")) None None) None)])] None [] None))].

(** epcpy/epc_schemes/gsin.py *)
Definition m_gsin : list top :=
  [TImport "re";
   TFrom "base_scheme" ["GS1Keyed"];
   TFrom "common" ["ConvertException"];
   TFrom "regex" ["GSIN_GS1_ELEMENT_STRING"; "GSIN_URI"];
   TAssign "GSIN_URI_REGEX" (ECall (EAttr (EName "re") "compile") [(EName "GSIN_URI")] None [] None);
   TFun "calculate_checksum";
   TClass "GSIN" [(EName "GS1Keyed")]
    [TAssign "gs1_element_string_regex" (ECall (EAttr (EName "re") "compile") [(EName "GSIN_GS1_ELEMENT_STRING")] None [] None);
     TFun "__init__";
     TFun "gs1_key";
     TFun "gs1_element_string";
     TFun "from_gs1_element_string"]].
