(** epcpy/epc_schemes/base_scheme.py
    Written by a program from the syntax trees of the source text: docstrings and annotations are left out, nothing else. *)
From Coq Require Import String ZArith List.
From Verif.Model Require Import Syntax.
Import ListNotations.
Open Scope string_scope.
Open Scope Z_scope.
Open Scope list_scope.

(** base_scheme.py:22-24 *)
Definition f_base_scheme_EPCScheme___init__ : fundef :=
  mkFun "base_scheme" (Some "base_scheme.EPCScheme") KPlain ["self"; "epc_uri"] [] None [] None
   [SExpr (ECall (EAttr (ECall (EName "super") [] None [] None) "__init__") [] None [] None);
    SAssign (TSelf "epc_uri") (EName "epc_uri")].

(** base_scheme.py:26-38 *)
Definition f_base_scheme_EPCScheme___eq__ : fundef :=
  mkFun "base_scheme" (Some "base_scheme.EPCScheme") KPlain ["self"; "other"] [] None [] None
   [SIf (ENot (ECall (EName "isinstance") [(EName "other"); (EName "EPCScheme")] None [] None))
     [SReturn (Some (EConst CFalse))]
     [];
    SReturn (Some (ECmp (EAttr (EName "self") "epc_uri") [(CmpEq, (EAttr (EName "other") "epc_uri"))]))].

(** base_scheme.py:41-50 *)
Definition f_base_scheme_EPCScheme_from_epc_uri : fundef :=
  mkFun "base_scheme" (Some "base_scheme.EPCScheme") KClass ["cls"; "epc_uri"] [] None [] None
   [SReturn (Some (ECall (EName "cls") [(EName "epc_uri")] None [] None))].

(** base_scheme.py:76-82 *)
Definition f_base_scheme_TagEncodable___init__ : fundef :=
  mkFun "base_scheme" (Some "base_scheme.TagEncodable") KPlain ["self"; "epc_uri"] [] None [] None
   [SExpr (ECall (EAttr (ECall (EName "super") [] None [] None) "__init__") [(EName "epc_uri")] None [] None);
    SAssign (TSelf "_base64") (EConst CNone);
    SAssign (TSelf "_binary") (EConst CNone);
    SAssign (TSelf "_hex") (EConst CNone);
    SAssign (TSelf "_tag_uri") (EConst CNone)].

(** base_scheme.py:84-93 *)
Definition f_base_scheme_TagEncodable_tag_uri : fundef :=
  mkFun "base_scheme" (Some "base_scheme.TagEncodable") KPlain ["self"] [] (Some "args") [] (Some "kwargs")
   [SRaise (EName "NotImplementedError")].

(** base_scheme.py:95-104 *)
Definition f_base_scheme_TagEncodable_binary : fundef :=
  mkFun "base_scheme" (Some "base_scheme.TagEncodable") KPlain ["self"] [] (Some "args") [] (Some "kwargs")
   [SRaise (EName "NotImplementedError")].

(** base_scheme.py:106-117 *)
Definition f_base_scheme_TagEncodable_hex : fundef :=
  mkFun "base_scheme" (Some "base_scheme.TagEncodable") KPlain ["self"] [] (Some "args") [] (Some "kwargs")
   [SAssign (TName "binary") (ECall (EAttr (EName "self") "binary") [] None [] (Some (EName "kwargs")));
    SAssign (TName "padding") (EBin OpMod (EBin OpSub (EConst (CInt 16)) (EBin OpMod (ECall (EName "len") [(EName "binary")] None [] None) (EConst (CInt 16)))) (EConst (CInt 16)));
    SAssign (TName "padded_binary") (EJoined [(EFormat (EName "binary") (Some (EJoined [(EConst (CStr "<0")); (EFormat (EBin OpAdd (ECall (EName "len") [(EName "binary")] None [] None) (EName "padding")) None)])))]);
    SReturn (Some (EJoined [(EFormat (ECall (EName "int") [(EName "padded_binary"); (EConst (CInt 2))] None [] None) (Some (EJoined [(EConst (CStr "X"))])))]))].

(** base_scheme.py:119-127 *)
Definition f_base_scheme_TagEncodable_base64 : fundef :=
  mkFun "base_scheme" (Some "base_scheme.TagEncodable") KPlain ["self"] [] (Some "args") [] (Some "kwargs")
   [SAssign (TName "hex_string") (ECall (EAttr (EName "self") "hex") [] None [] (Some (EName "kwargs")));
    SReturn (Some (ECall (EName "hex_to_base64") [(EName "hex_string")] None [] None))].

(** base_scheme.py:130-141 *)
Definition f_base_scheme_TagEncodable_from_binary : fundef :=
  mkFun "base_scheme" (Some "base_scheme.TagEncodable") KClass ["cls"; "tag_binary_string"] [] None [] None
   [SRaise (EName "NotImplementedError")].

(** base_scheme.py:144-153 *)
Definition f_base_scheme_TagEncodable_from_hex : fundef :=
  mkFun "base_scheme" (Some "base_scheme.TagEncodable") KClass ["cls"; "tag_hex_string"] [] None [] None
   [SReturn (Some (ECall (EAttr (EName "cls") "from_binary") [(ECall (EName "hex_to_binary") [(EName "tag_hex_string")] None [] None)] None [] None))].

(** base_scheme.py:156-167 *)
Definition f_base_scheme_TagEncodable_from_base64 : fundef :=
  mkFun "base_scheme" (Some "base_scheme.TagEncodable") KClass ["cls"; "tag_base64_string"] [] None [] None
   [SReturn (Some (ECall (EAttr (EName "cls") "from_hex") [(ECall (EName "base64_to_hex") [(EName "tag_base64_string")] None [] None)] None [] None))].

(** base_scheme.py:170-196 *)
Definition f_base_scheme_TagEncodable_from_tag_uri : fundef :=
  mkFun "base_scheme" (Some "base_scheme.TagEncodable") KClass ["cls"; "epc_tag_uri"; "includes_filter"] [("includes_filter", (EConst CTrue))] None [] None
   [SIf (ENot (ECall (EAttr (EAttr (EName "TagEncodable") "TAG_URI_REGEX") "match") [(EName "epc_tag_uri")] None [] None))
     [SRaise (ECall (EName "ConvertException") [] None [("message", (EJoined [(EConst (CStr "Invalid EPC tag URI ")); (EFormat (EName "epc_tag_uri") None)]))] None)]
     [];
    SAssign (TName "epc_scheme") (EIndex (ECall (EAttr (EName "epc_tag_uri") "split") [(EConst (CStr ":"))] None [] None) (EConst (CInt 3)));
    SIf (EName "includes_filter")
     [SAssign (TName "value") (ECall (EAttr (EConst (CStr ".")) "join") [(ESlice (ECall (EAttr (ECall (EAttr (EConst (CStr ":")) "join") [(ESlice (ECall (EAttr (EName "epc_tag_uri") "split") [(EConst (CStr ":"))] None [] None) (Some (EConst (CInt 3))) None None)] None [] None) "split") [(EConst (CStr "."))] None [] None) (Some (EConst (CInt 1))) None None)] None [] None)]
     [SAssign (TName "value") (EIndex (ECall (EAttr (EName "epc_tag_uri") "split") [(EConst (CStr ":"))] None [] None) (EConst (CInt 4)))];
    SReturn (Some (ECall (EName "cls") [(EJoined [(EConst (CStr "urn:epc:id:")); (EFormat (EIndex (ECall (EAttr (EName "epc_scheme") "split") [(EConst (CStr "-"))] None [] None) (EConst (CInt 0))) None); (EConst (CStr ":")); (EFormat (EName "value") None)])] None [] None))].

(** base_scheme.py:199-208 *)
Definition f_base_scheme_TagEncodable_header_to_schemes : fundef :=
  mkFun "base_scheme" (Some "base_scheme.TagEncodable") KClass ["cls"] [] None [] None
   [SReturn (Some (EDictComp (EAttr (EName "binary_header") "value") (EIndex (EAttr (EName "cls") "BinaryCodingScheme") (EAttr (EName "binary_header") "name")) [((TName "binary_header"), (EAttr (EName "cls") "BinaryHeader"), [])]))].

(** base_scheme.py:214-215 *)
Definition f_base_scheme_GS1Element___init__ : fundef :=
  mkFun "base_scheme" (Some "base_scheme.GS1Element") KPlain ["self"; "epc_uri"] [] None [] None
   [SExpr (ECall (EAttr (ECall (EName "super") [] None [] None) "__init__") [(EName "epc_uri")] None [] None)].

(** base_scheme.py:217-226 *)
Definition f_base_scheme_GS1Element_gs1_element_string : fundef :=
  mkFun "base_scheme" (Some "base_scheme.GS1Element") KPlain ["self"] [] (Some "args") [] (Some "kwargs")
   [SRaise (EName "NotImplementedError")].

(** base_scheme.py:229-244 *)
Definition f_base_scheme_GS1Element_from_gs1_element_string : fundef :=
  mkFun "base_scheme" (Some "base_scheme.GS1Element") KClass ["cls"; "gs1_element_string"; "company_prefix_length"] [] None [] None
   [SRaise (EName "NotImplementedError")].

(** base_scheme.py:248-249 *)
Definition f_base_scheme_GS1Keyed___init__ : fundef :=
  mkFun "base_scheme" (Some "base_scheme.GS1Keyed") KPlain ["self"; "epc_uri"] [] None [] None
   [SExpr (ECall (EAttr (ECall (EName "super") [] None [] None) "__init__") [(EName "epc_uri")] None [] None)].

(** base_scheme.py:251-260 *)
Definition f_base_scheme_GS1Keyed_gs1_key : fundef :=
  mkFun "base_scheme" (Some "base_scheme.GS1Keyed") KPlain ["self"] [] (Some "args") [] (Some "kwargs")
   [SRaise (EName "NotImplementedError")].

(** epcpy/epc_schemes/base_scheme.py *)
Definition m_base_scheme : list top :=
  [TImport "re";
   TFrom "enum" ["Enum"];
   TFrom "typing" ["Dict"; "Optional"; "Type"; "TypeVar"];
   TFrom "common" ["ConvertException"; "base64_to_hex"; "hex_to_base64"; "hex_to_binary"];
   TFrom "regex" ["TAG_URI"];
   TAssign "T_EPCScheme" (ECall (EName "TypeVar") [(EConst (CStr "T_EPCScheme"))] None [("bound", (EConst (CStr "EPCScheme")))] None);
   TAssign "T_GS1Element" (ECall (EName "TypeVar") [(EConst (CStr "T_GS1Element"))] None [("bound", (EConst (CStr "GS1Element")))] None);
   TAssign "T_TagEncodable" (ECall (EName "TypeVar") [(EConst (CStr "T_TagEncodable"))] None [("bound", (EConst (CStr "TagEncodable")))] None);
   TClass "EPCScheme" []
    [TFun "__init__";
     TFun "__eq__";
     TFun "from_epc_uri"];
   TClass "TagEncodable" [(EName "EPCScheme")]
    [TClass "BinaryCodingScheme" [(EName "Enum")]
      [];
     TClass "BinaryHeader" [(EName "Enum")]
      [];
     TAssign "TAG_URI_REGEX" (ECall (EAttr (EName "re") "compile") [(EName "TAG_URI")] None [] None);
     TAssign "TAG_URI_PREFIX" (EConst (CStr "urn:epc:tag:"));
     TFun "__init__";
     TFun "tag_uri";
     TFun "binary";
     TFun "hex";
     TFun "base64";
     TFun "from_binary";
     TFun "from_hex";
     TFun "from_base64";
     TFun "from_tag_uri";
     TFun "header_to_schemes"];
   TClass "GS1Element" [(EName "EPCScheme")]
    [TFun "__init__";
     TFun "gs1_element_string";
     TFun "from_gs1_element_string"];
   TClass "GS1Keyed" [(EName "GS1Element")]
    [TFun "__init__";
     TFun "gs1_key"]].
