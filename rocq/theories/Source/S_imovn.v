(** epcpy/epc_schemes/imovn.py
    Written by a program from the syntax trees of the source text: docstrings and annotations are left out, nothing else. *)
From Coq Require Import String ZArith List.
From Verif.Model Require Import Syntax.
Import ListNotations.
Open Scope string_scope.
Open Scope Z_scope.
Open Scope list_scope.

(** imovn.py:22-30 *)
Definition f_imovn_IMOVN___init__ : fundef :=
  mkFun "imovn" (Some "imovn.IMOVN") KPlain ["self"; "epc_uri"] [] None [] None
   [SExpr (ECall (EAttr (ECall (EName "super") [] None [] None) "__init__") [(EName "epc_uri")] None [] None);
    SIf (ENot (ECall (EAttr (EName "IMOVN_URI_REGEX") "fullmatch") [(EName "epc_uri")] None [] None))
     [SRaise (ECall (EName "ConvertException") [] None [("message", (EJoined [(EConst (CStr "Invalid IMOVN URI ")); (EFormat (EName "epc_uri") None)]))] None)]
     [];
    SAssign (TSelf "epc_uri") (EName "epc_uri");
    SAssign (TSelf "_vessel_number") (EIndex (ECall (EAttr (EName "epc_uri") "split") [(EConst (CStr ":"))] None [] None) (EConst (CInt 4)))].

(** epcpy/epc_schemes/imovn.py *)
Definition m_imovn : list top :=
  [TImport "re";
   TFrom "base_scheme" ["EPCScheme"];
   TFrom "common" ["ConvertException"];
   TFrom "regex" ["IMOVN_URI"];
   TAssign "IMOVN_URI_REGEX" (ECall (EAttr (EName "re") "compile") [(EName "IMOVN_URI")] None [] None);
   TClass "IMOVN" [(EName "EPCScheme")]
    [TFun "__init__"]].
