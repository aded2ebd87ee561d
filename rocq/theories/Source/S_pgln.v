(** epcpy/epc_schemes/pgln.py
    Written by a program from the syntax trees of the source text: docstrings and annotations are left out, nothing else. *)
From Coq Require Import String ZArith List.
From Verif.Model Require Import Syntax.
Import ListNotations.
Open Scope string_scope.
Open Scope Z_scope.
Open Scope list_scope.

(** pgln.py:31-48 *)
Definition f_pgln_PGLN___init__ : fundef :=
  mkFun "pgln" (Some "pgln.PGLN") KPlain ["self"; "epc_uri"] [] None [] None
   [SExpr (ECall (EAttr (ECall (EName "super") [] None [] None) "__init__") [(EName "epc_uri")] None [] None);
    SIf (ENot (ECall (EAttr (EName "PGLN_URI_REGEX") "fullmatch") [(EName "epc_uri")] None [] None))
     [SRaise (ECall (EName "ConvertException") [] None [("message", (EJoined [(EConst (CStr "Invalid PGLN URI ")); (EFormat (EName "epc_uri") None)]))] None)]
     [];
    SAssign (TTuple [(TSelf "_company_pref"); (TSelf "_party_ref")] None) (ECall (EAttr (EIndex (ECall (EAttr (EName "epc_uri") "split") [(EConst (CStr ":"))] None [] None) (EConst (CInt 4))) "split") [(EConst (CStr "."))] None [] None);
    SIf (EOr [(ECmp (ECall (EName "len") [(EJoined [(EFormat (EAttr (EName "self") "_company_pref") None); (EFormat (EAttr (EName "self") "_party_ref") None)])] None [] None) [(CmpNe, (EConst (CInt 12)))]); (ENot (ECmp (EConst (CInt 6)) [(CmpLe, (ECall (EName "len") [(EAttr (EName "self") "_company_pref")] None [] None)); (CmpLe, (EConst (CInt 12)))]))])
     [SRaise (ECall (EName "ConvertException") [] None [("message", (EJoined [(EConst (CStr "Invalid EPC_URI"))]))] None)]
     [];
    SAssign (TSelf "epc_uri") (EName "epc_uri");
    SAssign (TName "check_digit") (ECall (EName "calculate_checksum") [(EJoined [(EFormat (EAttr (EName "self") "_company_pref") None); (EFormat (EAttr (EName "self") "_party_ref") None)])] None [] None);
    SAssign (TSelf "_pgln") (EJoined [(EFormat (EAttr (EName "self") "_company_pref") None); (EFormat (EAttr (EName "self") "_party_ref") None); (EFormat (EName "check_digit") None)])].

(** pgln.py:50-56 *)
Definition f_pgln_PGLN_gs1_key : fundef :=
  mkFun "pgln" (Some "pgln.PGLN") KPlain ["self"] [] None [] None
   [SReturn (Some (EAttr (EName "self") "_pgln"))].

(** pgln.py:58-64 *)
Definition f_pgln_PGLN_gs1_element_string : fundef :=
  mkFun "pgln" (Some "pgln.PGLN") KPlain ["self"] [] None [] None
   [SReturn (Some (EJoined [(EConst (CStr "(417)")); (EFormat (EAttr (EName "self") "_pgln") None)]))].

(** pgln.py:67-91 *)
Definition f_pgln_PGLN_from_gs1_element_string : fundef :=
  mkFun "pgln" (Some "pgln.PGLN") KClass ["cls"; "gs1_element_string"; "company_prefix_length"] [] None [] None
   [SIf (ENot (ECall (EAttr (EAttr (EName "PGLN") "gs1_element_string_regex") "fullmatch") [(EName "gs1_element_string")] None [] None))
     [SRaise (ECall (EName "ConvertException") [] None [("message", (EJoined [(EConst (CStr "Invalid PGLN GS1 element string ")); (EFormat (EName "gs1_element_string") None)]))] None)]
     [];
    SAssign (TName "digits") (ESlice (EName "gs1_element_string") (Some (EConst (CInt 5))) None None);
    SReturn (Some (ECall (EName "cls") [(EJoined [(EConst (CStr "urn:epc:id:pgln:")); (EFormat (ESlice (EName "digits") None (Some (EName "company_prefix_length")) None) None); (EConst (CStr ".")); (EFormat (ESlice (EName "digits") (Some (EName "company_prefix_length")) (Some (ENeg (EConst (CInt 1)))) None) None)])] None [] None))].

(** epcpy/epc_schemes/pgln.py *)
Definition m_pgln : list top :=
  [TImport "re";
   TFrom "base_scheme" ["GS1Keyed"];
   TFrom "common" ["ConvertException"; "calculate_checksum"];
   TFrom "regex" ["PGLN_GS1_ELEMENT_STRING"; "PGLN_URI"];
   TAssign "PGLN_URI_REGEX" (ECall (EAttr (EName "re") "compile") [(EName "PGLN_URI")] None [] None);
   TClass "PGLN" [(EName "GS1Keyed")]
    [TAssign "gs1_element_string_regex" (ECall (EAttr (EName "re") "compile") [(EName "PGLN_GS1_ELEMENT_STRING")] None [] None);
     TFun "__init__";
     TFun "gs1_key";
     TFun "gs1_element_string";
     TFun "from_gs1_element_string"]].
