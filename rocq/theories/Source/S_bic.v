(** epcpy/epc_schemes/bic.py
    Written by a program from the syntax trees of the source text: docstrings and annotations are left out, nothing else. *)
From Coq Require Import String ZArith List.
From Verif.Model Require Import Syntax.
Import ListNotations.
Open Scope string_scope.
Open Scope Z_scope.
Open Scope list_scope.

(** bic.py:22-36 *)
Definition f_bic_BIC___init__ : fundef :=
  mkFun "bic" (Some "bic.BIC") KPlain ["self"; "epc_uri"] [] None [] None
   [SExpr (ECall (EAttr (ECall (EName "super") [] None [] None) "__init__") [(EName "epc_uri")] None [] None);
    SIf (ENot (ECall (EAttr (EName "BIC_URI_REGEX") "fullmatch") [(EName "epc_uri")] None [] None))
     [SRaise (ECall (EName "ConvertException") [] None [("message", (EJoined [(EConst (CStr "Invalid BIC URI ")); (EFormat (EName "epc_uri") None)]))] None)]
     [];
    SAssign (TSelf "epc_uri") (EName "epc_uri");
    SAssign (TName "container_code") (EIndex (ECall (EAttr (EName "epc_uri") "split") [(EConst (CStr ":"))] None [] None) (EConst (CInt 4)));
    SAssign (TSelf "_container_code") (EName "container_code");
    SAssign (TSelf "_owner_code") (ESlice (EName "container_code") (Some (EConst (CInt 0))) (Some (EConst (CInt 3))) None);
    SAssign (TSelf "_equipment_category_identifier") (EIndex (EName "container_code") (EConst (CInt 3)));
    SAssign (TSelf "_serial") (ESlice (EName "container_code") (Some (EConst (CInt 4))) (Some (EConst (CInt 10))) None);
    SAssign (TSelf "_check_digit") (EIndex (EName "container_code") (EConst (CInt 10)))].

(** epcpy/epc_schemes/bic.py *)
Definition m_bic : list top :=
  [TImport "re";
   TFrom "base_scheme" ["EPCScheme"];
   TFrom "common" ["ConvertException"];
   TFrom "regex" ["BIC_URI"];
   TAssign "BIC_URI_REGEX" (ECall (EAttr (EName "re") "compile") [(EName "BIC_URI")] None [] None);
   TClass "BIC" [(EName "EPCScheme")]
    [TFun "__init__"]].
