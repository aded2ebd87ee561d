(** epcpy/epc_schemes/gid.py
    Written by a program from the syntax trees of the source text: docstrings and annotations are left out, nothing else. *)
From Coq Require Import String ZArith List.
From Verif.Model Require Import Syntax.
Import ListNotations.
Open Scope string_scope.
Open Scope Z_scope.
Open Scope list_scope.

(** gid.py:44-63 *)
Definition f_gid_GID___init__ : fundef :=
  mkFun "gid" (Some "gid.GID") KPlain ["self"; "epc_uri"] [] None [] None
   [SExpr (ECall (EAttr (ECall (EName "super") [] None [] None) "__init__") [(EName "epc_uri")] None [] None);
    SIf (ENot (ECall (EAttr (EName "GID_URI_REGEX") "fullmatch") [(EName "epc_uri")] None [] None))
     [SRaise (ECall (EName "ConvertException") [] None [("message", (EJoined [(EConst (CStr "Invalid GID URI ")); (EFormat (EName "epc_uri") None)]))] None)]
     [];
    SAssign (TTuple [(TSelf "_manager"); (TSelf "_object"); (TSelf "_serial")] None) (ECall (EAttr (EIndex (ECall (EAttr (EName "epc_uri") "split") [(EConst (CStr ":"))] None [] None) (EConst (CInt 4))) "split") [(EConst (CStr "."))] None [] None);
    SIf (ECmp (ECall (EName "int") [(EAttr (EName "self") "_manager")] None [] None) [(CmpGe, (ECall (EName "pow") [(EConst (CInt 2)); (EConst (CInt 28))] None [] None))])
     [SRaise (ECall (EName "ConvertException") [] None [("message", (EJoined [(EConst (CStr "Manager out of range: (max: ")); (EFormat (ECall (EName "pow") [(EConst (CInt 2)); (EConst (CInt 28))] None [] None) None); (EConst (CStr ")"))]))] None)]
     [];
    SIf (ECmp (ECall (EName "int") [(EAttr (EName "self") "_object")] None [] None) [(CmpGe, (ECall (EName "pow") [(EConst (CInt 2)); (EConst (CInt 24))] None [] None))])
     [SRaise (ECall (EName "ConvertException") [] None [("message", (EJoined [(EConst (CStr "Object out of range: (max: ")); (EFormat (ECall (EName "pow") [(EConst (CInt 2)); (EConst (CInt 24))] None [] None) None); (EConst (CStr ")"))]))] None)]
     [];
    SIf (EOr [(ECmp (ECall (EName "int") [(EAttr (EName "self") "_serial")] None [] None) [(CmpGe, (ECall (EName "pow") [(EConst (CInt 2)); (EConst (CInt 36))] None [] None))]); (EAnd [(ECmp (ECall (EName "len") [(EAttr (EName "self") "_serial")] None [] None) [(CmpGt, (EConst (CInt 1)))]); (ECmp (EIndex (EAttr (EName "self") "_serial") (EConst (CInt 0))) [(CmpEq, (EConst (CStr "0")))])])])
     [SRaise (ECall (EName "ConvertException") [] None [("message", (EJoined [(EConst (CStr "Serial out of range: (max: ")); (EFormat (ECall (EName "pow") [(EConst (CInt 2)); (EConst (CInt 36))] None [] None) None); (EConst (CStr ")"))]))] None)]
     [];
    SAssign (TSelf "epc_uri") (EName "epc_uri")].

(** gid.py:65-78 *)
Definition f_gid_GID_tag_uri : fundef :=
  mkFun "gid" (Some "gid.GID") KPlain ["self"; "binary_coding_scheme"] [("binary_coding_scheme", (EAttr (EName "BinaryCodingScheme") "GID_96"))] None [] None
   [SReturn (Some (EJoined [(EFormat (EAttr (EName "self") "TAG_URI_PREFIX") None); (EFormat (EAttr (EName "binary_coding_scheme") "value") None); (EConst (CStr ":")); (EFormat (EAttr (EName "self") "_manager") None); (EConst (CStr ".")); (EFormat (EAttr (EName "self") "_object") None); (EConst (CStr ".")); (EFormat (EAttr (EName "self") "_serial") None)]))].

(** gid.py:80-99 *)
Definition f_gid_GID_binary : fundef :=
  mkFun "gid" (Some "gid.GID") KPlain ["self"; "binary_coding_scheme"] [("binary_coding_scheme", (EAttr (EName "BinaryCodingScheme") "GID_96"))] None [] None
   [SAssign (TName "header") (EAttr (EIndex (EAttr (EName "GID") "BinaryHeader") (EAttr (EName "binary_coding_scheme") "name")) "value");
    SAssign (TName "manager_binary") (ECall (EName "str_to_binary") [(EAttr (EName "self") "_manager"); (EConst (CInt 28))] None [] None);
    SAssign (TName "object_binary") (ECall (EName "str_to_binary") [(EAttr (EName "self") "_object"); (EConst (CInt 24))] None [] None);
    SAssign (TName "serial_binary") (ECall (EName "str_to_binary") [(EAttr (EName "self") "_serial"); (EConst (CInt 36))] None [] None);
    SAssign (TName "_binary") (EBin OpAdd (EBin OpAdd (EBin OpAdd (EName "header") (EName "manager_binary")) (EName "object_binary")) (EName "serial_binary"));
    SReturn (Some (EName "_binary"))].

(** gid.py:102-115 *)
Definition f_gid_GID_from_tag_uri : fundef :=
  mkFun "gid" (Some "gid.GID") KClass ["cls"; "epc_tag_uri"; "includes_filter"] [("includes_filter", (EConst CFalse))] None [] None
   [SReturn (Some (ECall (EAttr (ECall (EName "super") [(EName "GID"); (EName "cls")] None [] None) "from_tag_uri") [(EName "epc_tag_uri")] None [("includes_filter", (EName "includes_filter"))] None))].

(** gid.py:118-143 *)
Definition f_gid_GID_from_binary : fundef :=
  mkFun "gid" (Some "gid.GID") KClass ["cls"; "binary_string"] [] None [] None
   [SAssign (TTuple [(TName "binary_coding_scheme"); (TName "truncated_binary")] None) (ECall (EName "parse_header_and_truncate_binary") [(EName "binary_string"); (ECall (EAttr (EName "cls") "header_to_schemes") [] None [] None)] None [] None);
    SAssign (TName "manager_binary") (ESlice (EName "truncated_binary") (Some (EConst (CInt 8))) (Some (EConst (CInt 36))) None);
    SAssign (TName "object_binary") (ESlice (EName "truncated_binary") (Some (EConst (CInt 36))) (Some (EConst (CInt 60))) None);
    SAssign (TName "serial_binary") (ESlice (EName "truncated_binary") (Some (EConst (CInt 60))) None None);
    SAssign (TName "manager_string") (ECall (EName "binary_to_int") [(EName "manager_binary")] None [] None);
    SAssign (TName "object_string") (ECall (EName "binary_to_int") [(EName "object_binary")] None [] None);
    SAssign (TName "serial_string") (ECall (EName "binary_to_int") [(EName "serial_binary")] None [] None);
    SReturn (Some (ECall (EAttr (EName "cls") "from_tag_uri") [(EJoined [(EFormat (EAttr (EName "cls") "TAG_URI_PREFIX") None); (EFormat (EAttr (EName "binary_coding_scheme") "value") None); (EConst (CStr ":")); (EFormat (EName "manager_string") None); (EConst (CStr ".")); (EFormat (EName "object_string") None); (EConst (CStr ".")); (EFormat (EName "serial_string") None)])] None [("includes_filter", (EConst CFalse))] None))].

(** epcpy/epc_schemes/gid.py *)
Definition m_gid : list top :=
  [TImport "re";
   TFrom "enum" ["Enum"];
   TFrom "base_scheme" ["TagEncodable"];
   TFrom "common" ["ConvertException"; "binary_to_int"; "parse_header_and_truncate_binary"; "str_to_binary"];
   TFrom "regex" ["GID_URI"];
   TAssign "GID_URI_REGEX" (ECall (EAttr (EName "re") "compile") [(EName "GID_URI")] None [] None);
   TClass "GID" [(EName "TagEncodable")]
    [TClass "BinaryCodingScheme" [(EName "Enum")]
      [TAssign "GID_96" (EConst (CStr "gid-96"))];
     TClass "BinaryHeader" [(EName "Enum")]
      [TAssign "GID_96" (EConst (CStr "00110101"))];
     TFun "__init__";
     TFun "tag_uri";
     TFun "binary";
     TFun "from_tag_uri";
     TFun "from_binary"]].
