(** epcpy/utils/parsers.py
    Written by a program from the syntax trees of the source text: docstrings and annotations are left out, nothing else. *)
From Coq Require Import String ZArith List.
From Verif.Model Require Import Syntax.
Import ListNotations.
Open Scope string_scope.
Open Scope Z_scope.
Open Scope list_scope.

(** parsers.py:93-136 *)
Definition f_parsers_get_gs1_key : fundef :=
  mkFun "parsers" None KPlain ["source"; "company_prefix_length"] [("company_prefix_length", (EConst CNone))] None [] (Some "kwargs")
   [SAssign (TName "scheme") (EConst CNone);
    SIf (ECall (EAttr (EName "EPC_URI_REGEX") "fullmatch") [(EName "source")] None [] None)
     [SAssign (TName "scheme") (ECall (EName "epc_pure_identity_to_scheme") [(EName "source")] None [] None)]
     [SIf (EAnd [(ECall (EAttr (EName "GS1_ELEMENT_STRING_REGEX") "fullmatch") [(EName "source")] None [] None); (EName "company_prefix_length")])
       [SAssign (TName "scheme") (ECall (EName "gs1_element_string_to_gs1_element") [(EName "source"); (EName "company_prefix_length")] None [] None)]
       [SIf (ECall (EAttr (EName "TAG_URI_REGEX") "fullmatch") [(EName "source")] None [] None)
         [SAssign (TName "scheme") (ECall (EName "tag_uri_to_tag_encodable") [(EName "source")] None [] None)]
         [SIf (ECall (EAttr (EName "IDPAT_URI_REGEX") "fullmatch") [(EName "source")] None [] None)
           [SAssign (TName "scheme") (ECall (EName "_idpat_to_gs1_keyed_scheme") [(EName "source")] None [] None)]
           [SIf (ECmp (ESlice (EName "source") None (Some (EConst (CInt 8))) None) [(CmpIn, (ECall (EAttr (EName "TAG_ENCODABLE_BINARY_HEADERS") "keys") [] None [] None))])
             [SAssign (TName "scheme") (ECall (EName "binary_to_tag_encodable") [(EName "source")] None [] None)]
             [SIf (ECmp (ECall (EAttr (ESlice (EName "source") None (Some (EConst (CInt 2))) None) "upper") [] None [] None) [(CmpIn, (ECall (EAttr (EName "TAG_ENCODABLE_HEX_HEADERS") "keys") [] None [] None))])
               [SAssign (TName "scheme") (ECall (EName "hex_to_tag_encodable") [(EName "source")] None [] None)]
               []]]]]];
    SIf (ENot (ECall (EName "isinstance") [(EName "scheme"); (EName "GS1Keyed")] None [] None))
     [SRaise (ECall (EName "ConvertException") [] None [("message", (EConst (CStr "Source could not be converted to proper GS1Keyed scheme")))] None)]
     [];
    SReturn (Some (ECall (EAttr (EName "scheme") "gs1_key") [] None [] (Some (EName "kwargs"))))].

(** parsers.py:139-156 *)
Definition f_parsers_epc_pure_identity_to_scheme : fundef :=
  mkFun "parsers" None KPlain ["epc_pure_identity_uri"] [] None [] None
   [SAssign (TName "identifier") (EIndex (ECall (EAttr (EName "epc_pure_identity_uri") "split") [(EConst (CStr ":"))] None [] None) (EConst (CInt 3)));
    SIf (ECmp (EName "identifier") [(CmpNotIn, (EName "EPC_SCHEME_IDENTIFIERS"))])
     [SRaise (ECall (EName "ConvertException") [] None [("message", (EConst (CStr "Unknown EPC URI")))] None)]
     [];
    SReturn (Some (ECall (EAttr (EIndex (EName "EPC_SCHEME_IDENTIFIERS") (EName "identifier")) "from_epc_uri") [(EName "epc_pure_identity_uri")] None [] None))].

(** parsers.py:159-176 *)
Definition f_parsers_epc_pure_identity_to_gs1_element : fundef :=
  mkFun "parsers" None KPlain ["epc_pure_identity_uri"] [] None [] None
   [SAssign (TName "scheme") (ECall (EName "epc_pure_identity_to_scheme") [(EName "epc_pure_identity_uri")] None [] None);
    SIf (ENot (ECall (EName "isinstance") [(EName "scheme"); (EName "GS1Element")] None [] None))
     [SRaise (ECall (EName "ConvertException") [] None [("message", (EConst (CStr "EPC URI has no GS1 Element")))] None)]
     [];
    SReturn (Some (EName "scheme"))].

(** parsers.py:179-188 *)
Definition f_parsers_epc_pure_identity_to_gs1_element_string : fundef :=
  mkFun "parsers" None KPlain ["epc_pure_identity_uri"] [] None [] None
   [SReturn (Some (ECall (EAttr (ECall (EName "epc_pure_identity_to_gs1_element") [(EName "epc_pure_identity_uri")] None [] None) "gs1_element_string") [] None [] None))].

(** parsers.py:191-208 *)
Definition f_parsers_epc_pure_identity_to_gs1_keyed : fundef :=
  mkFun "parsers" None KPlain ["epc_pure_identity_uri"] [] None [] None
   [SAssign (TName "scheme") (ECall (EName "epc_pure_identity_to_scheme") [(EName "epc_pure_identity_uri")] None [] None);
    SIf (ENot (ECall (EName "isinstance") [(EName "scheme"); (EName "GS1Keyed")] None [] None))
     [SRaise (ECall (EName "ConvertException") [] None [("message", (EConst (CStr "EPC URI has no GS1 Key")))] None)]
     [];
    SReturn (Some (EName "scheme"))].

(** parsers.py:211-220 *)
Definition f_parsers_epc_pure_identity_to_gs1_key : fundef :=
  mkFun "parsers" None KPlain ["epc_pure_identity_uri"] [] None [] (Some "kwargs")
   [SReturn (Some (ECall (EAttr (ECall (EName "epc_pure_identity_to_gs1_keyed") [(EName "epc_pure_identity_uri")] None [] None) "gs1_key") [] None [] (Some (EName "kwargs"))))].

(** parsers.py:223-240 *)
Definition f_parsers_epc_pure_identity_to_tag_encodable : fundef :=
  mkFun "parsers" None KPlain ["epc_pure_identity_uri"] [] None [] None
   [SAssign (TName "scheme") (ECall (EName "epc_pure_identity_to_scheme") [(EName "epc_pure_identity_uri")] None [] None);
    SIf (ENot (ECall (EName "isinstance") [(EName "scheme"); (EName "TagEncodable")] None [] None))
     [SRaise (ECall (EName "ConvertException") [] None [("message", (EConst (CStr "EPC URI is not tag encodable")))] None)]
     [];
    SReturn (Some (EName "scheme"))].

(** parsers.py:243-263 *)
Definition f_parsers_gs1_element_string_to_gs1_element : fundef :=
  mkFun "parsers" None KPlain ["gs1_element_string"; "company_prefix_length"] [] None [] None
   [SFor (TTuple [(TName "regex"); (TName "scheme")] None) (ECall (EAttr (EName "GS1_ELEMENT_STRING_REGEX_TO_SCHEME") "items") [] None [] None)
     [SIf (ECall (EAttr (EName "regex") "fullmatch") [(EName "gs1_element_string")] None [] None)
       [SReturn (Some (ECall (EAttr (EName "scheme") "from_gs1_element_string") [(EName "gs1_element_string"); (EName "company_prefix_length")] None [] None))]
       []];
    SRaise (ECall (EName "ConvertException") [] None [("message", (EJoined [(EConst (CStr "Unknown GS1 element string: ")); (EFormat (EName "gs1_element_string") None)]))] None)].

(** parsers.py:278-308 *)
Definition f_parsers__idpat_to_gs1_keyed_scheme : fundef :=
  mkFun "parsers" None KPlain ["idpat"] [] None [] None
   [SAssign (TName "identifier") (EIndex (ECall (EAttr (EName "idpat") "split") [(EConst (CStr ":"))] None [] None) (EConst (CInt 3)));
    SIf (ECmp (EName "identifier") [(CmpNotIn, (EName "GS1_KEYED_SCHEME_IDENTIFIERS"))])
     [SRaise (ECall (EName "ConvertException") [] None [("message", (EConst (CStr "Unknown GS1Keyed identifier")))] None)]
     [];
    SAssign (TName "uri") (ECall (EAttr (EName "idpat") "replace") [(EConst (CStr "idpat")); (EConst (CStr "id")); (EConst (CInt 1))] None [] None);
    SIf (ECall (EAttr (EName "EPC_URI_REGEX") "fullmatch") [(EName "uri")] None [] None)
     [SReturn (Some (ECall (EIndex (EName "GS1_KEYED_SCHEME_IDENTIFIERS") (EName "identifier")) [(EName "uri")] None [] None))]
     [];
    SIf (ECmp (EName "identifier") [(CmpNotIn, (EName "ONE_ESCAPE_ALLOWED_SCHEMES"))])
     [SRaise (ECall (EName "ConvertException") [] None [("message", (EConst (CStr "URI exceeds maximum number of escaped patterns")))] None)]
     [];
    SAssign (TName "dummy_uri") (ECall (EAttr (EName "re") "sub") [(EConst (CStr "\.\*$")); (EConst (CStr ".0")); (EName "uri"); (EConst (CInt 1))] None [] None);
    SIf (ECall (EAttr (EName "EPC_URI_REGEX") "fullmatch") [(EName "dummy_uri")] None [] None)
     [SReturn (Some (ECall (EIndex (EName "GS1_KEYED_SCHEME_IDENTIFIERS") (EName "identifier")) [(EName "dummy_uri")] None [] None))]
     [];
    SRaise (ECall (EName "ConvertException") [] None [("message", (EConst (CStr "Could not create valid scheme from given id pat")))] None)].

(** parsers.py:311-325 *)
Definition f_parsers_tag_uri_to_tag_encodable : fundef :=
  mkFun "parsers" None KPlain ["epc_tag_uri"] [] None [] None
   [SAssign (TName "identifier") (EIndex (ECall (EAttr (EIndex (ECall (EAttr (EName "epc_tag_uri") "split") [(EConst (CStr ":"))] None [] None) (EConst (CInt 3))) "split") [(EConst (CStr "-"))] None [] None) (EConst (CInt 0)));
    SIf (ECmp (EName "identifier") [(CmpNotIn, (EName "TAG_ENCODABLE_SCHEME_IDENTIFIERS"))])
     [SRaise (ECall (EName "ConvertException") [] None [("message", (EConst (CStr "Unknown TagEncodable scheme identifier")))] None)]
     [];
    SReturn (Some (ECall (EAttr (EIndex (EName "TAG_ENCODABLE_SCHEME_IDENTIFIERS") (EName "identifier")) "from_tag_uri") [(EName "epc_tag_uri")] None [] None))].

(** parsers.py:328-345 *)
Definition f_parsers_binary_to_tag_encodable : fundef :=
  mkFun "parsers" None KPlain ["binary_string"] [] None [] None
   [SAssign (TName "header") (ESlice (EName "binary_string") None (Some (EConst (CInt 8))) None);
    SIf (ECmp (EName "header") [(CmpNotIn, (EName "TAG_ENCODABLE_BINARY_HEADERS"))])
     [SRaise (ECall (EName "ConvertException") [] None [("message", (EConst (CStr "Unknown header")))] None)]
     [];
    SReturn (Some (ECall (EAttr (EIndex (EName "TAG_ENCODABLE_BINARY_HEADERS") (EName "header")) "from_binary") [(EName "binary_string")] None [] None))].

(** parsers.py:348-359 *)
Definition f_parsers_hex_to_tag_encodable : fundef :=
  mkFun "parsers" None KPlain ["hex_string"] [] None [] None
   [SAssign (TName "binary") (ECall (EName "hex_to_binary") [(EName "hex_string")] None [] None);
    SReturn (Some (ECall (EName "binary_to_tag_encodable") [(EName "binary")] None [] None))].

(** parsers.py:362-373 *)
Definition f_parsers_base64_to_tag_encodable : fundef :=
  mkFun "parsers" None KPlain ["base64_string"] [] None [] None
   [SAssign (TName "hex_string") (ECall (EName "base64_to_hex") [(EName "base64_string")] None [] None);
    SReturn (Some (ECall (EName "hex_to_tag_encodable") [(EName "hex_string")] None [] None))].

(** epcpy/utils/parsers.py *)
Definition m_parsers : list top :=
  [TImport "re";
   TFrom "typing" ["Dict"; "List"; "Optional"; "Type"];
   TFrom "epc_schemes" ["ADI"; "BIC"; "CPI"; "GDTI"; "GIAI"; "GID"; "GINC"; "GRAI"; "GSIN"; "GSRN"; "GSRNP"; "IMOVN"; "ITIP"; "LGTIN"; "PGLN"; "SGCN"; "SGLN"; "SGTIN"; "SSCC"; "UPUI"; "USDOD"];
   TFrom "base_scheme" ["EPCScheme"; "GS1Element"; "GS1Keyed"; "TagEncodable"];
   TFrom "common" ["ConvertException"; "base64_to_hex"; "binary_to_hex"; "hex_to_binary"];
   TFrom "regex" ["EPC_URI"; "GS1_ELEMENT_STRING"; "IDPAT_URI"; "TAG_URI"];
   TAssign "EPC_URI_REGEX" (ECall (EAttr (EName "re") "compile") [(EName "EPC_URI")] None [] None);
   TAssign "GS1_ELEMENT_STRING_REGEX" (ECall (EAttr (EName "re") "compile") [(EName "GS1_ELEMENT_STRING")] None [] None);
   TAssign "IDPAT_URI_REGEX" (ECall (EAttr (EName "re") "compile") [(EName "IDPAT_URI")] None [] None);
   TAssign "TAG_URI_REGEX" (ECall (EAttr (EName "re") "compile") [(EName "TAG_URI")] None [] None);
   TAssign "EPC_SCHEMES" (EList [(EName "ADI"); (EName "BIC"); (EName "CPI"); (EName "GDTI"); (EName "GIAI"); (EName "GID"); (EName "GINC"); (EName "GRAI"); (EName "GSIN"); (EName "GSRN"); (EName "GSRNP"); (EName "IMOVN"); (EName "ITIP"); (EName "LGTIN"); (EName "PGLN"); (EName "SGCN"); (EName "SGLN"); (EName "SGTIN"); (EName "SSCC"); (EName "UPUI"); (EName "USDOD")]);
   TAssign "GS1_KEYED_CLASSES" (EListComp (EName "cls") [((TName "cls"), (EName "EPC_SCHEMES"), [(ECall (EName "issubclass") [(EName "cls"); (EName "GS1Keyed")] None [] None)])]);
   TAssign "TAG_ENCODABLE_CLASSES" (EListComp (EName "cls") [((TName "cls"), (EName "EPC_SCHEMES"), [(ECall (EName "issubclass") [(EName "cls"); (EName "TagEncodable")] None [] None)])]);
   TAssign "TAG_ENCODABLE_BINARY_HEADERS" (EDictComp (EAttr (EName "h") "value") (EName "cls") [((TName "cls"), (EName "TAG_ENCODABLE_CLASSES"), []); ((TName "h"), (EAttr (EName "cls") "BinaryHeader"), [])]);
   TAssign "TAG_ENCODABLE_HEX_HEADERS" (EDictComp (ECall (EName "binary_to_hex") [(EAttr (EName "h") "value")] None [] None) (EName "cls") [((TName "cls"), (EName "TAG_ENCODABLE_CLASSES"), []); ((TName "h"), (EAttr (EName "cls") "BinaryHeader"), [])]);
   TAssign "GS1_ELEMENT_STRING_REGEX_TO_SCHEME" (EDictComp (EAttr (EName "cls") "gs1_element_string_regex") (EName "cls") [((TName "cls"), (EName "EPC_SCHEMES"), [(ECall (EName "issubclass") [(EName "cls"); (EName "GS1Element")] None [] None)])]);
   TAssign "EPC_SCHEME_IDENTIFIERS" (EDictComp (ECall (EAttr (EAttr (EName "cls") "__name__") "lower") [] None [] None) (EName "cls") [((TName "cls"), (EName "EPC_SCHEMES"), [])]);
   TAssign "TAG_ENCODABLE_SCHEME_IDENTIFIERS" (EDictComp (ECall (EAttr (EAttr (EName "cls") "__name__") "lower") [] None [] None) (EName "cls") [((TName "cls"), (EName "TAG_ENCODABLE_CLASSES"), [])]);
   TAssign "GS1_KEYED_SCHEME_IDENTIFIERS" (EDictComp (ECall (EAttr (EAttr (EName "cls") "__name__") "lower") [] None [] None) (EName "cls") [((TName "cls"), (EName "GS1_KEYED_CLASSES"), [])]);
   TFun "get_gs1_key";
   TFun "epc_pure_identity_to_scheme";
   TFun "epc_pure_identity_to_gs1_element";
   TFun "epc_pure_identity_to_gs1_element_string";
   TFun "epc_pure_identity_to_gs1_keyed";
   TFun "epc_pure_identity_to_gs1_key";
   TFun "epc_pure_identity_to_tag_encodable";
   TFun "gs1_element_string_to_gs1_element";
   TAssign "ONE_ESCAPE_ALLOWED_SCHEMES" (EListComp (ECall (EAttr (EAttr (EName "cls") "__name__") "lower") [] None [] None) [((TName "cls"), (EList [(EName "SGTIN"); (EName "SGLN"); (EName "GRAI"); (EName "GDTI"); (EName "CPI")]), [])]);
   TFun "_idpat_to_gs1_keyed_scheme";
   TFun "tag_uri_to_tag_encodable";
   TFun "binary_to_tag_encodable";
   TFun "hex_to_tag_encodable";
   TFun "base64_to_tag_encodable"].
