(** epcpy/utils/regex.py
    Written by a program from the syntax trees of the source text: docstrings and annotations are left out, nothing else. *)
From Coq Require Import String ZArith List.
From Verif.Model Require Import Syntax.
Import ListNotations.
Open Scope string_scope.
Open Scope Z_scope.
Open Scope list_scope.


(** epcpy/utils/regex.py *)
Definition m_regex : list top :=
  [TAssign "CPREF_COMPONENT" (EConst (CStr "([0-9A-Z-]|%2F|%23)+"));
   TAssign "NUMERIC_COMPONENT" (EConst (CStr "(0|[1-9]\d*)"));
   TAssign "GS3A3_CHAR" (EConst (CStr "((%[0-9a-fA-F])|([a-zA-Z0-9!'()*+,-.:;=_]))"));
   TAssign "GS3A3_COMPONENT" (EJoined [(EFormat (EName "GS3A3_CHAR") None); (EConst (CStr "+"))]);
   TAssign "PADDED_NUMERIC_COMPONENT" (EConst (CStr "\d+"));
   TAssign "PADDED_NUMERIC_COMPONENT_OR_EMPTY" (EConst (CStr "\d*"));
   TAssign "VERIFY_GS3A3_CHARS" (EConst (CStr "[a-zA-Z0-9!'()*+,-.:;=_""%&/<>?]+"));
   TAssign "GS1_ELEM_CHARS" (EConst (CStr "[a-zA-Z0-9!'()*+,-.:;=_""%&/<>?]"));
   TAssign "GS1_ELEM_CHARS_CPI" (EConst (CStr "[0-9A-Z\/\-\#]"));
   TAssign "DIGIT" (EConst (CStr "\d"));
   TAssign "FOUR_PADDED_NUMERIC_COMPONENTS" (EJoined [(EFormat (EName "PADDED_NUMERIC_COMPONENT") None); (EConst (CStr "\.")); (EFormat (EName "PADDED_NUMERIC_COMPONENT") None); (EConst (CStr "\.")); (EFormat (EName "PADDED_NUMERIC_COMPONENT") None); (EConst (CStr "\.")); (EFormat (EName "PADDED_NUMERIC_COMPONENT") None)]);
   TAssign "SGTIN_URI_BODY" (EJoined [(EFormat (EName "PADDED_NUMERIC_COMPONENT") None); (EConst (CStr "\.")); (EFormat (EName "PADDED_NUMERIC_COMPONENT") None); (EConst (CStr "\.")); (EFormat (EName "GS3A3_COMPONENT") None)]);
   TAssign "SGTIN_URI" (EJoined [(EConst (CStr "urn:epc:id:sgtin:")); (EFormat (EName "SGTIN_URI_BODY") None)]);
   TAssign "SSCC_URI_BODY" (EJoined [(EFormat (EName "PADDED_NUMERIC_COMPONENT") None); (EConst (CStr "\.")); (EFormat (EName "PADDED_NUMERIC_COMPONENT") None)]);
   TAssign "SSCC_URI" (EJoined [(EConst (CStr "urn:epc:id:sscc:")); (EFormat (EName "SSCC_URI_BODY") None)]);
   TAssign "SGLN_URI_BODY" (EJoined [(EFormat (EName "PADDED_NUMERIC_COMPONENT") None); (EConst (CStr "\.")); (EFormat (EName "PADDED_NUMERIC_COMPONENT_OR_EMPTY") None); (EConst (CStr "\.")); (EFormat (EName "GS3A3_COMPONENT") None)]);
   TAssign "SGLN_URI" (EJoined [(EConst (CStr "urn:epc:id:sgln:")); (EFormat (EName "SGLN_URI_BODY") None)]);
   TAssign "GRAI_URI_BODY" (EJoined [(EFormat (EName "PADDED_NUMERIC_COMPONENT") None); (EConst (CStr "\.")); (EFormat (EName "PADDED_NUMERIC_COMPONENT_OR_EMPTY") None); (EConst (CStr "\.")); (EFormat (EName "GS3A3_COMPONENT") None)]);
   TAssign "GRAI_URI" (EJoined [(EConst (CStr "urn:epc:id:grai:")); (EFormat (EName "GRAI_URI_BODY") None)]);
   TAssign "GIAI_URI_BODY" (EJoined [(EFormat (EName "PADDED_NUMERIC_COMPONENT") None); (EConst (CStr "\.")); (EFormat (EName "GS3A3_COMPONENT") None)]);
   TAssign "GIAI_URI" (EJoined [(EConst (CStr "urn:epc:id:giai:")); (EFormat (EName "GIAI_URI_BODY") None)]);
   TAssign "GSRN_URI_BODY" (EJoined [(EFormat (EName "PADDED_NUMERIC_COMPONENT") None); (EConst (CStr "\.")); (EFormat (EName "PADDED_NUMERIC_COMPONENT") None)]);
   TAssign "GSRN_URI" (EJoined [(EConst (CStr "urn:epc:id:gsrn:")); (EFormat (EName "GSRN_URI_BODY") None)]);
   TAssign "GSRNP_URI_BODY" (EJoined [(EFormat (EName "PADDED_NUMERIC_COMPONENT") None); (EConst (CStr "\.")); (EFormat (EName "PADDED_NUMERIC_COMPONENT") None)]);
   TAssign "GSRNP_URI" (EJoined [(EConst (CStr "urn:epc:id:gsrnp:")); (EFormat (EName "GSRN_URI_BODY") None)]);
   TAssign "GDTI_URI_BODY" (EJoined [(EFormat (EName "PADDED_NUMERIC_COMPONENT") None); (EConst (CStr "\.")); (EFormat (EName "PADDED_NUMERIC_COMPONENT_OR_EMPTY") None); (EConst (CStr "\.")); (EFormat (EName "GS3A3_COMPONENT") None)]);
   TAssign "GDTI_URI" (EJoined [(EConst (CStr "urn:epc:id:gdti:")); (EFormat (EName "GDTI_URI_BODY") None)]);
   TAssign "CPI_URI_BODY" (EJoined [(EFormat (EName "PADDED_NUMERIC_COMPONENT") None); (EConst (CStr "\.")); (EFormat (EName "CPREF_COMPONENT") None); (EConst (CStr "\.")); (EFormat (EName "NUMERIC_COMPONENT") None)]);
   TAssign "CPI_URI" (EJoined [(EConst (CStr "urn:epc:id:cpi:")); (EFormat (EName "CPI_URI_BODY") None)]);
   TAssign "SGCN_URI_BODY" (EJoined [(EFormat (EName "PADDED_NUMERIC_COMPONENT") None); (EConst (CStr "\.")); (EFormat (EName "PADDED_NUMERIC_COMPONENT_OR_EMPTY") None); (EConst (CStr "\.")); (EFormat (EName "PADDED_NUMERIC_COMPONENT") None)]);
   TAssign "SGCN_URI" (EJoined [(EConst (CStr "urn:epc:id:sgcn:")); (EFormat (EName "SGCN_URI_BODY") None)]);
   TAssign "GINC_URI_BODY" (EJoined [(EFormat (EName "PADDED_NUMERIC_COMPONENT") None); (EConst (CStr "\.")); (EFormat (EName "GS3A3_COMPONENT") None)]);
   TAssign "GINC_URI" (EJoined [(EConst (CStr "urn:epc:id:ginc:")); (EFormat (EName "GINC_URI_BODY") None)]);
   TAssign "GSIN_URI_BODY" (EJoined [(EFormat (EName "PADDED_NUMERIC_COMPONENT") None); (EConst (CStr "\.")); (EFormat (EName "PADDED_NUMERIC_COMPONENT") None)]);
   TAssign "GSIN_URI" (EJoined [(EConst (CStr "urn:epc:id:gsin:")); (EFormat (EName "GSIN_URI_BODY") None)]);
   TAssign "ITIP_URI_BODY" (EJoined [(EFormat (EName "FOUR_PADDED_NUMERIC_COMPONENTS") None); (EConst (CStr "\.")); (EFormat (EName "GS3A3_COMPONENT") None)]);
   TAssign "ITIP_URI" (EJoined [(EConst (CStr "urn:epc:id:itip:")); (EFormat (EName "ITIP_URI_BODY") None)]);
   TAssign "UPUI_URI_BODY" (EJoined [(EFormat (EName "PADDED_NUMERIC_COMPONENT") None); (EConst (CStr "\.")); (EFormat (EName "PADDED_NUMERIC_COMPONENT_OR_EMPTY") None); (EConst (CStr "\.")); (EFormat (EName "GS3A3_COMPONENT") None)]);
   TAssign "UPUI_URI" (EJoined [(EConst (CStr "urn:epc:id:upui:")); (EFormat (EName "UPUI_URI_BODY") None)]);
   TAssign "PGLN_URI_BODY" (EJoined [(EFormat (EName "PADDED_NUMERIC_COMPONENT") None); (EConst (CStr "\.")); (EFormat (EName "PADDED_NUMERIC_COMPONENT_OR_EMPTY") None)]);
   TAssign "PGLN_URI" (EJoined [(EConst (CStr "urn:epc:id:pgln:")); (EFormat (EName "PGLN_URI_BODY") None)]);
   TAssign "GID_URI_BODY" (EJoined [(EFormat (EName "NUMERIC_COMPONENT") None); (EConst (CStr "\.")); (EFormat (EName "NUMERIC_COMPONENT") None); (EConst (CStr "\.")); (EFormat (EName "NUMERIC_COMPONENT") None)]);
   TAssign "GID_URI" (EJoined [(EConst (CStr "urn:epc:id:gid:")); (EFormat (EName "GID_URI_BODY") None)]);
   TAssign "CAGE_CODE_OR_DODAAC" (EConst (CStr "([0-9A-HJ-NP-Z]){5,6}"));
   TAssign "USDOD_URI_BODY" (EJoined [(EFormat (EName "CAGE_CODE_OR_DODAAC") None); (EConst (CStr "\.")); (EFormat (EName "NUMERIC_COMPONENT") None)]);
   TAssign "USDOD_URI" (EJoined [(EConst (CStr "urn:epc:id:usdod:")); (EFormat (EName "USDOD_URI_BODY") None)]);
   TAssign "ADI_CHAR" (EConst (CStr "([A-Z0-9-]|(%2F))"));
   TAssign "ADI_URI_BODY" (EJoined [(EFormat (EName "CAGE_CODE_OR_DODAAC") None); (EConst (CStr "\.")); (EFormat (EName "ADI_CHAR") None); (EConst (CStr "*\.(%23)?")); (EFormat (EName "ADI_CHAR") None); (EConst (CStr "+"))]);
   TAssign "ADI_URI" (EJoined [(EConst (CStr "urn:epc:id:adi:")); (EFormat (EName "ADI_URI_BODY") None)]);
   TAssign "BIC_URI_BODY" (EConst (CStr "[A-HJ-NP-Z]{3}[JUZ][0-9]{7}"));
   TAssign "BIC_URI" (EJoined [(EConst (CStr "urn:epc:id:bic:")); (EFormat (EName "BIC_URI_BODY") None)]);
   TAssign "IMOVN_URI_BODY" (EConst (CStr "[0-9]{7}"));
   TAssign "IMOVN_URI" (EJoined [(EConst (CStr "urn:epc:id:imovn:")); (EFormat (EName "IMOVN_URI_BODY") None)]);
   TAssign "LGTIN_CLASS" (EJoined [(EConst (CStr "urn:epc:class:lgtin:")); (EFormat (EName "PADDED_NUMERIC_COMPONENT") None); (EConst (CStr "\.")); (EFormat (EName "PADDED_NUMERIC_COMPONENT") None); (EConst (CStr "\.")); (EFormat (EName "GS3A3_COMPONENT") None)]);
   TAssign "EPC_URI" (EJoined [(EConst (CStr "(")); (EFormat (EName "SGTIN_URI") None); (EConst (CStr "|")); (EFormat (EName "SSCC_URI") None); (EConst (CStr "|")); (EFormat (EName "SGLN_URI") None); (EConst (CStr "|")); (EFormat (EName "GRAI_URI") None); (EConst (CStr "|")); (EFormat (EName "GIAI_URI") None); (EConst (CStr "|")); (EFormat (EName "GSRN_URI") None); (EConst (CStr "|")); (EFormat (EName "GSRNP_URI") None); (EConst (CStr "|")); (EFormat (EName "GDTI_URI") None); (EConst (CStr "|")); (EFormat (EName "CPI_URI") None); (EConst (CStr "|")); (EFormat (EName "SGCN_URI") None); (EConst (CStr "|")); (EFormat (EName "GINC_URI") None); (EConst (CStr "|")); (EFormat (EName "GSIN_URI") None); (EConst (CStr "|")); (EFormat (EName "ITIP_URI") None); (EConst (CStr "|")); (EFormat (EName "UPUI_URI") None); (EConst (CStr "|")); (EFormat (EName "PGLN_URI") None); (EConst (CStr "|")); (EFormat (EName "GID_URI") None); (EConst (CStr "|")); (EFormat (EName "USDOD_URI") None); (EConst (CStr "|")); (EFormat (EName "ADI_URI") None); (EConst (CStr "|")); (EFormat (EName "BIC_URI") None); (EConst (CStr "|")); (EFormat (EName "IMOVN_URI") None); (EConst (CStr "|")); (EFormat (EName "LGTIN_CLASS") None); (EConst (CStr ")"))]);
   TAssign "SGTIN_IDPAT_URI_BODY" (EJoined [(EConst (CStr "sgtin:(")); (EFormat (EName "PADDED_NUMERIC_COMPONENT") None); (EConst (CStr "\.")); (EFormat (EName "PADDED_NUMERIC_COMPONENT") None); (EConst (CStr "\.")); (EFormat (EName "GS3A3_COMPONENT") None); (EConst (CStr "|")); (EFormat (EName "PADDED_NUMERIC_COMPONENT") None); (EConst (CStr "\.")); (EFormat (EName "PADDED_NUMERIC_COMPONENT") None); (EConst (CStr "\.\*|")); (EFormat (EName "PADDED_NUMERIC_COMPONENT") None); (EConst (CStr "\.\*\.\*|\*\.\*\.\*)"))]);
   TAssign "SSCC_IDPAT_URI_BODY" (EJoined [(EConst (CStr "sscc:(")); (EFormat (EName "PADDED_NUMERIC_COMPONENT") None); (EConst (CStr "\.")); (EFormat (EName "PADDED_NUMERIC_COMPONENT") None); (EConst (CStr "|")); (EFormat (EName "PADDED_NUMERIC_COMPONENT") None); (EConst (CStr "\.\*|\*\.\*)"))]);
   TAssign "SGLN_GRAI_IDPAT_URI_BODY_MAIN" (EJoined [(EConst (CStr "(")); (EFormat (EName "PADDED_NUMERIC_COMPONENT") None); (EConst (CStr "\.")); (EFormat (EName "PADDED_NUMERIC_COMPONENT_OR_EMPTY") None); (EConst (CStr "\.")); (EFormat (EName "GS3A3_COMPONENT") None); (EConst (CStr "|")); (EFormat (EName "PADDED_NUMERIC_COMPONENT") None); (EConst (CStr "\.")); (EFormat (EName "PADDED_NUMERIC_COMPONENT_OR_EMPTY") None); (EConst (CStr "\.\*|")); (EFormat (EName "PADDED_NUMERIC_COMPONENT") None); (EConst (CStr "\.\*\.\*|\*\.\*\.\*)"))]);
   TAssign "SGLN_IDPAT_URI_BODY" (EJoined [(EConst (CStr "sgln:")); (EFormat (EName "SGLN_GRAI_IDPAT_URI_BODY_MAIN") None)]);
   TAssign "GRAI_IDPAT_URI_BODY" (EJoined [(EConst (CStr "grai:")); (EFormat (EName "SGLN_GRAI_IDPAT_URI_BODY_MAIN") None)]);
   TAssign "GIAI_IDPAT_URI_BODY" (EJoined [(EConst (CStr "giai:(")); (EFormat (EName "PADDED_NUMERIC_COMPONENT") None); (EConst (CStr "\.")); (EFormat (EName "GS3A3_COMPONENT") None); (EConst (CStr "|")); (EFormat (EName "PADDED_NUMERIC_COMPONENT") None); (EConst (CStr "\.\*|\*\.\*)"))]);
   TAssign "GSRN_IDPAT_URI_BODY" (EJoined [(EConst (CStr "gsrn:(")); (EFormat (EName "PADDED_NUMERIC_COMPONENT") None); (EConst (CStr "\.")); (EFormat (EName "PADDED_NUMERIC_COMPONENT") None); (EConst (CStr "|")); (EFormat (EName "PADDED_NUMERIC_COMPONENT") None); (EConst (CStr "\.\*|\*\.\*)"))]);
   TAssign "GSRNP_IDPAT_URI_BODY" (EJoined [(EConst (CStr "gsrnp:(")); (EFormat (EName "PADDED_NUMERIC_COMPONENT") None); (EConst (CStr "\.")); (EFormat (EName "PADDED_NUMERIC_COMPONENT") None); (EConst (CStr "|")); (EFormat (EName "PADDED_NUMERIC_COMPONENT") None); (EConst (CStr "\.\*|\*\.\*)"))]);
   TAssign "GDTI_IDPAT_URI_BODY" (EJoined [(EConst (CStr "gdti:(")); (EFormat (EName "PADDED_NUMERIC_COMPONENT") None); (EConst (CStr "\.")); (EFormat (EName "PADDED_NUMERIC_COMPONENT_OR_EMPTY") None); (EConst (CStr "\.")); (EFormat (EName "GS3A3_COMPONENT") None); (EConst (CStr "|")); (EFormat (EName "PADDED_NUMERIC_COMPONENT") None); (EConst (CStr "\.")); (EFormat (EName "PADDED_NUMERIC_COMPONENT_OR_EMPTY") None); (EConst (CStr "\.\*|")); (EFormat (EName "PADDED_NUMERIC_COMPONENT") None); (EConst (CStr "\.\*\.\*|\*\.\*\.\*)"))]);
   TAssign "CPI_IDPAT_URI_BODY" (EJoined [(EConst (CStr "cpi:(")); (EFormat (EName "PADDED_NUMERIC_COMPONENT") None); (EConst (CStr "\.")); (EFormat (EName "CPREF_COMPONENT") None); (EConst (CStr "\.")); (EFormat (EName "NUMERIC_COMPONENT") None); (EConst (CStr "|")); (EFormat (EName "PADDED_NUMERIC_COMPONENT") None); (EConst (CStr "\.")); (EFormat (EName "CPREF_COMPONENT") None); (EConst (CStr "\.\*|")); (EFormat (EName "PADDED_NUMERIC_COMPONENT") None); (EConst (CStr "\.\*\.\*|\*\.\*\.\*)"))]);
   TAssign "SGCN_IDPAT_URI_BODY" (EJoined [(EConst (CStr "sgcn:(")); (EFormat (EName "PADDED_NUMERIC_COMPONENT") None); (EConst (CStr "\.")); (EFormat (EName "PADDED_NUMERIC_COMPONENT_OR_EMPTY") None); (EConst (CStr "\.")); (EFormat (EName "PADDED_NUMERIC_COMPONENT") None); (EConst (CStr "|")); (EFormat (EName "PADDED_NUMERIC_COMPONENT") None); (EConst (CStr "\.")); (EFormat (EName "PADDED_NUMERIC_COMPONENT_OR_EMPTY") None); (EConst (CStr "\.\*|")); (EFormat (EName "PADDED_NUMERIC_COMPONENT") None); (EConst (CStr "\.\*\.\*|\*\.\*\.\*)"))]);
   TAssign "GINC_IDPAT_URI_BODY" (EJoined [(EConst (CStr "ginc:(")); (EFormat (EName "PADDED_NUMERIC_COMPONENT") None); (EConst (CStr "\.")); (EFormat (EName "GS3A3_COMPONENT") None); (EConst (CStr "|")); (EFormat (EName "PADDED_NUMERIC_COMPONENT") None); (EConst (CStr "\.\*|\*\.\*)"))]);
   TAssign "GSIN_IDPAT_URI_BODY" (EJoined [(EConst (CStr "gsin:(")); (EFormat (EName "PADDED_NUMERIC_COMPONENT") None); (EConst (CStr "\.")); (EFormat (EName "PADDED_NUMERIC_COMPONENT") None); (EConst (CStr "|")); (EFormat (EName "PADDED_NUMERIC_COMPONENT") None); (EConst (CStr "\.\*|\*\.\*)"))]);
   TAssign "ITIP_IDPAT_URI_BODY" (EJoined [(EConst (CStr "itip:(")); (EFormat (EName "FOUR_PADDED_NUMERIC_COMPONENTS") None); (EConst (CStr "\.")); (EFormat (EName "GS3A3_COMPONENT") None); (EConst (CStr "|")); (EFormat (EName "FOUR_PADDED_NUMERIC_COMPONENTS") None); (EConst (CStr "\.\*|")); (EFormat (EName "PADDED_NUMERIC_COMPONENT") None); (EConst (CStr "\.")); (EFormat (EName "PADDED_NUMERIC_COMPONENT") None); (EConst (CStr "\.\*\.\*\.\*|")); (EFormat (EName "PADDED_NUMERIC_COMPONENT") None); (EConst (CStr "\.\*\.\*\.\*\.\*|\*\.\*\*\.\*\.\*)"))]);
   TAssign "UPUI_IDPAT_URI_BODY" (EJoined [(EConst (CStr "upui:(")); (EFormat (EName "PADDED_NUMERIC_COMPONENT") None); (EConst (CStr "\.")); (EFormat (EName "PADDED_NUMERIC_COMPONENT") None); (EConst (CStr "\.")); (EFormat (EName "GS3A3_COMPONENT") None); (EConst (CStr "|")); (EFormat (EName "PADDED_NUMERIC_COMPONENT") None); (EConst (CStr "\.")); (EFormat (EName "PADDED_NUMERIC_COMPONENT") None); (EConst (CStr "\.\*|")); (EFormat (EName "PADDED_NUMERIC_COMPONENT") None); (EConst (CStr "\.\*\.\*|\*\.\*\.\*)"))]);
   TAssign "PGLN_IDPAT_URI_BODY" (EJoined [(EConst (CStr "pgln:(")); (EFormat (EName "PADDED_NUMERIC_COMPONENT") None); (EConst (CStr "\.")); (EFormat (EName "PADDED_NUMERIC_COMPONENT_OR_EMPTY") None); (EConst (CStr "|")); (EFormat (EName "PADDED_NUMERIC_COMPONENT") None); (EConst (CStr "\.\*|\*\.\*)"))]);
   TAssign "GID_IDPAT_URI_BODY" (EJoined [(EConst (CStr "gid:(")); (EFormat (EName "NUMERIC_COMPONENT") None); (EConst (CStr "\.")); (EFormat (EName "NUMERIC_COMPONENT") None); (EConst (CStr "\.")); (EFormat (EName "NUMERIC_COMPONENT") None); (EConst (CStr "|")); (EFormat (EName "NUMERIC_COMPONENT") None); (EConst (CStr "\.")); (EFormat (EName "NUMERIC_COMPONENT") None); (EConst (CStr "\.\*|")); (EFormat (EName "NUMERIC_COMPONENT") None); (EConst (CStr "\.\*\.\*|\*\.\*\.\*)"))]);
   TAssign "USDOD_IDPAT_URI_BODY" (EJoined [(EConst (CStr "usdod:(")); (EFormat (EName "CAGE_CODE_OR_DODAAC") None); (EConst (CStr "\.")); (EFormat (EName "NUMERIC_COMPONENT") None); (EConst (CStr "|")); (EFormat (EName "CAGE_CODE_OR_DODAAC") None); (EConst (CStr "\.\*|\*\.\*)"))]);
   TAssign "ADI_IDPAT_URI_BODY" (EJoined [(EConst (CStr "adi:(")); (EFormat (EName "CAGE_CODE_OR_DODAAC") None); (EConst (CStr "\.")); (EFormat (EName "ADI_CHAR") None); (EConst (CStr "*\.(%23)?")); (EFormat (EName "ADI_CHAR") None); (EConst (CStr "+|")); (EFormat (EName "CAGE_CODE_OR_DODAAC") None); (EConst (CStr "\.")); (EFormat (EName "ADI_CHAR") None); (EConst (CStr "*\.\*|")); (EFormat (EName "CAGE_CODE_OR_DODAAC") None); (EConst (CStr "\.\*\.\*|\*\.\*\.\*)"))]);
   TAssign "IDPAT_BODY" (EJoined [(EConst (CStr "(")); (EFormat (EName "SGTIN_IDPAT_URI_BODY") None); (EConst (CStr "|")); (EFormat (EName "SSCC_IDPAT_URI_BODY") None); (EConst (CStr "|")); (EFormat (EName "SGLN_IDPAT_URI_BODY") None); (EConst (CStr "|")); (EFormat (EName "GRAI_IDPAT_URI_BODY") None); (EConst (CStr "|")); (EFormat (EName "GIAI_IDPAT_URI_BODY") None); (EConst (CStr "|")); (EFormat (EName "GSRN_IDPAT_URI_BODY") None); (EConst (CStr "|")); (EFormat (EName "GSRNP_IDPAT_URI_BODY") None); (EConst (CStr "|")); (EFormat (EName "GDTI_IDPAT_URI_BODY") None); (EConst (CStr "|")); (EFormat (EName "CPI_IDPAT_URI_BODY") None); (EConst (CStr "|")); (EFormat (EName "SGCN_IDPAT_URI_BODY") None); (EConst (CStr "|")); (EFormat (EName "GINC_IDPAT_URI_BODY") None); (EConst (CStr "|")); (EFormat (EName "GSIN_IDPAT_URI_BODY") None); (EConst (CStr "|")); (EFormat (EName "ITIP_IDPAT_URI_BODY") None); (EConst (CStr "|")); (EFormat (EName "UPUI_IDPAT_URI_BODY") None); (EConst (CStr "|")); (EFormat (EName "PGLN_IDPAT_URI_BODY") None); (EConst (CStr "|")); (EFormat (EName "GID_IDPAT_URI_BODY") None); (EConst (CStr "|")); (EFormat (EName "USDOD_IDPAT_URI_BODY") None); (EConst (CStr "|")); (EFormat (EName "ADI_IDPAT_URI_BODY") None); (EConst (CStr ")"))]);
   TAssign "IDPAT_URI" (EJoined [(EConst (CStr "urn:epc:idpat:")); (EFormat (EName "IDPAT_BODY") None)]);
   TAssign "SGTIN_TAG_URI_BODY" (EJoined [(EConst (CStr "(sgtin-96|sgtin-198):")); (EFormat (EName "NUMERIC_COMPONENT") None); (EConst (CStr "\.")); (EFormat (EName "SGTIN_URI_BODY") None)]);
   TAssign "SSCC_TAG_URI_BODY" (EJoined [(EConst (CStr "sscc-96:")); (EFormat (EName "NUMERIC_COMPONENT") None); (EConst (CStr "\.")); (EFormat (EName "SSCC_URI_BODY") None)]);
   TAssign "SGLN_TAG_URI_BODY" (EJoined [(EConst (CStr "(sgln-96|sgln-195):")); (EFormat (EName "NUMERIC_COMPONENT") None); (EConst (CStr "\.")); (EFormat (EName "SGLN_URI_BODY") None)]);
   TAssign "GRAI_TAG_URI_BODY" (EJoined [(EConst (CStr "(grai-96|grai-170):")); (EFormat (EName "NUMERIC_COMPONENT") None); (EConst (CStr "\.")); (EFormat (EName "GRAI_URI_BODY") None)]);
   TAssign "GIAI_TAG_URI_BODY" (EJoined [(EConst (CStr "(giai-96|giai-202):")); (EFormat (EName "NUMERIC_COMPONENT") None); (EConst (CStr "\.")); (EFormat (EName "GIAI_URI_BODY") None)]);
   TAssign "GSRN_TAG_URI_BODY" (EJoined [(EConst (CStr "gsrn-96:")); (EFormat (EName "NUMERIC_COMPONENT") None); (EConst (CStr "\.")); (EFormat (EName "GSRN_URI_BODY") None)]);
   TAssign "GSRNP_TAG_URI_BODY" (EJoined [(EConst (CStr "gsrnp-96:")); (EFormat (EName "NUMERIC_COMPONENT") None); (EConst (CStr "\.")); (EFormat (EName "GSRNP_URI_BODY") None)]);
   TAssign "GDTI_TAG_URI_BODY" (EJoined [(EConst (CStr "(gdti-96|gdti-174):")); (EFormat (EName "NUMERIC_COMPONENT") None); (EConst (CStr "\.")); (EFormat (EName "GDTI_URI_BODY") None)]);
   TAssign "CPI_TAG_URI_BODY" (EJoined [(EConst (CStr "(cpi-96|cpi-var):")); (EFormat (EName "NUMERIC_COMPONENT") None); (EConst (CStr "\.")); (EFormat (EName "CPI_URI_BODY") None)]);
   TAssign "SGCN_TAG_URI_BODY" (EJoined [(EConst (CStr "sgcn-96:")); (EFormat (EName "NUMERIC_COMPONENT") None); (EConst (CStr "\.")); (EFormat (EName "SGCN_URI_BODY") None)]);
   TAssign "ITIP_TAG_URI_BODY" (EJoined [(EConst (CStr "(itip-110|itip-212):")); (EFormat (EName "NUMERIC_COMPONENT") None); (EConst (CStr "\.")); (EFormat (EName "ITIP_URI_BODY") None)]);
   TAssign "GID_TAG_URI_BODY" (EJoined [(EConst (CStr "gid-96:")); (EFormat (EName "GID_URI_BODY") None)]);
   TAssign "USDOD_TAG_URI_BODY" (EJoined [(EConst (CStr "usdod-96:")); (EFormat (EName "NUMERIC_COMPONENT") None); (EConst (CStr "\.")); (EFormat (EName "USDOD_URI_BODY") None)]);
   TAssign "ADI_TAG_URI_BODY" (EJoined [(EConst (CStr "adi-var:")); (EFormat (EName "NUMERIC_COMPONENT") None); (EConst (CStr "\.")); (EFormat (EName "ADI_URI_BODY") None)]);
   TAssign "TAG_URI_BODY" (EJoined [(EConst (CStr "(")); (EFormat (EName "SGTIN_TAG_URI_BODY") None); (EConst (CStr "|")); (EFormat (EName "SSCC_TAG_URI_BODY") None); (EConst (CStr "|")); (EFormat (EName "SGLN_TAG_URI_BODY") None); (EConst (CStr "|")); (EFormat (EName "GRAI_TAG_URI_BODY") None); (EConst (CStr "|")); (EFormat (EName "GIAI_TAG_URI_BODY") None); (EConst (CStr "|")); (EFormat (EName "GSRN_TAG_URI_BODY") None); (EConst (CStr "|")); (EFormat (EName "GSRNP_TAG_URI_BODY") None); (EConst (CStr "|")); (EFormat (EName "GDTI_TAG_URI_BODY") None); (EConst (CStr "|")); (EFormat (EName "CPI_TAG_URI_BODY") None); (EConst (CStr "|")); (EFormat (EName "SGCN_TAG_URI_BODY") None); (EConst (CStr "|")); (EFormat (EName "ITIP_TAG_URI_BODY") None); (EConst (CStr "|")); (EFormat (EName "GID_TAG_URI_BODY") None); (EConst (CStr "|")); (EFormat (EName "USDOD_TAG_URI_BODY") None); (EConst (CStr "|")); (EFormat (EName "ADI_TAG_URI_BODY") None); (EConst (CStr ")"))]);
   TAssign "TAG_URI" (EJoined [(EConst (CStr "urn:epc:tag:")); (EFormat (EName "TAG_URI_BODY") None)]);
   TAssign "SGTIN_GS1_ELEMENT_STRING" (EJoined [(EConst (CStr "\(01\)")); (EFormat (EName "DIGIT") None); (EConst (CStr "{14}\(21\)")); (EFormat (EName "GS1_ELEM_CHARS") None); (EConst (CStr "{1,20}"))]);
   TAssign "SSCC_GS1_ELEMENT_STRING" (EJoined [(EConst (CStr "\(00\)")); (EFormat (EName "DIGIT") None); (EConst (CStr "{18}"))]);
   TAssign "SGLN_GS1_ELEMENT_STRING" (EJoined [(EConst (CStr "\(414\)")); (EFormat (EName "DIGIT") None); (EConst (CStr "{13}\(254\)")); (EFormat (EName "GS1_ELEM_CHARS") None); (EConst (CStr "{1,20}"))]);
   TAssign "GRAI_GS1_ELEMENT_STRING" (EJoined [(EConst (CStr "\(8003\)0")); (EFormat (EName "DIGIT") None); (EConst (CStr "{13}")); (EFormat (EName "GS1_ELEM_CHARS") None); (EConst (CStr "{1,16}"))]);
   TAssign "GIAI_GS1_ELEMENT_STRING" (EJoined [(EConst (CStr "\(8004\)")); (EFormat (EName "DIGIT") None); (EConst (CStr "{6,12}")); (EFormat (EName "GS1_ELEM_CHARS") None); (EConst (CStr "{1,24}"))]);
   TAssign "GSRN_GS1_ELEMENT_STRING" (EJoined [(EConst (CStr "\(8018\)")); (EFormat (EName "DIGIT") None); (EConst (CStr "{18}"))]);
   TAssign "GSRNP_GS1_ELEMENT_STRING" (EJoined [(EConst (CStr "\(8017\)")); (EFormat (EName "DIGIT") None); (EConst (CStr "{18}"))]);
   TAssign "GDTI_GS1_ELEMENT_STRING" (EJoined [(EConst (CStr "\(253\)")); (EFormat (EName "DIGIT") None); (EConst (CStr "{13}")); (EFormat (EName "GS1_ELEM_CHARS") None); (EConst (CStr "{1,17}"))]);
   TAssign "CPI_GS1_ELEMENT_STRING" (EJoined [(EConst (CStr "\(8010\)")); (EFormat (EName "DIGIT") None); (EConst (CStr "{6,12}")); (EFormat (EName "GS1_ELEM_CHARS_CPI") None); (EConst (CStr "{,24}\(8011\)")); (EFormat (EName "DIGIT") None); (EConst (CStr "{1,12}"))]);
   TAssign "SGCN_GS1_ELEMENT_STRING" (EJoined [(EConst (CStr "\(255\)")); (EFormat (EName "DIGIT") None); (EConst (CStr "{13}")); (EFormat (EName "GS1_ELEM_CHARS") None); (EConst (CStr "{1,12}"))]);
   TAssign "GINC_GS1_ELEMENT_STRING" (EJoined [(EConst (CStr "\(401\)")); (EFormat (EName "DIGIT") None); (EConst (CStr "{6,12}")); (EFormat (EName "GS1_ELEM_CHARS") None); (EConst (CStr "{1,24}"))]);
   TAssign "GSIN_GS1_ELEMENT_STRING" (EJoined [(EConst (CStr "\(402\)")); (EFormat (EName "DIGIT") None); (EConst (CStr "{17}"))]);
   TAssign "ITIP_GS1_ELEMENT_STRING" (EJoined [(EConst (CStr "\(8006\)")); (EFormat (EName "DIGIT") None); (EConst (CStr "{18}\(21\)")); (EFormat (EName "GS1_ELEM_CHARS") None); (EConst (CStr "{1,20}"))]);
   TAssign "UPUI_GS1_ELEMENT_STRING" (EJoined [(EConst (CStr "\(01\)")); (EFormat (EName "DIGIT") None); (EConst (CStr "{14}\(235\)")); (EFormat (EName "GS1_ELEM_CHARS") None); (EConst (CStr "{1,28}"))]);
   TAssign "PGLN_GS1_ELEMENT_STRING" (EJoined [(EConst (CStr "\(417\)")); (EFormat (EName "DIGIT") None); (EConst (CStr "{13}"))]);
   TAssign "LGTIN_GS1_ELEMENT_STRING" (EJoined [(EConst (CStr "\(01\)")); (EFormat (EName "DIGIT") None); (EConst (CStr "{14}\(10\)")); (EFormat (EName "GS1_ELEM_CHARS") None); (EConst (CStr "{1,20}"))]);
   TAssign "GS1_ELEMENT_STRING" (EJoined [(EConst (CStr "(")); (EFormat (EName "SGTIN_GS1_ELEMENT_STRING") None); (EConst (CStr "|")); (EFormat (EName "SSCC_GS1_ELEMENT_STRING") None); (EConst (CStr "|")); (EFormat (EName "SGLN_GS1_ELEMENT_STRING") None); (EConst (CStr "|")); (EFormat (EName "GRAI_GS1_ELEMENT_STRING") None); (EConst (CStr "|")); (EFormat (EName "GIAI_GS1_ELEMENT_STRING") None); (EConst (CStr "|")); (EFormat (EName "GSRN_GS1_ELEMENT_STRING") None); (EConst (CStr "|")); (EFormat (EName "GSRNP_GS1_ELEMENT_STRING") None); (EConst (CStr "|")); (EFormat (EName "GDTI_GS1_ELEMENT_STRING") None); (EConst (CStr "|")); (EFormat (EName "CPI_GS1_ELEMENT_STRING") None); (EConst (CStr "|")); (EFormat (EName "SGCN_GS1_ELEMENT_STRING") None); (EConst (CStr "|")); (EFormat (EName "GINC_GS1_ELEMENT_STRING") None); (EConst (CStr "|")); (EFormat (EName "GSIN_GS1_ELEMENT_STRING") None); (EConst (CStr "|")); (EFormat (EName "ITIP_GS1_ELEMENT_STRING") None); (EConst (CStr "|")); (EFormat (EName "UPUI_GS1_ELEMENT_STRING") None); (EConst (CStr "|")); (EFormat (EName "PGLN_GS1_ELEMENT_STRING") None); (EConst (CStr "|")); (EFormat (EName "LGTIN_GS1_ELEMENT_STRING") None); (EConst (CStr ")"))])].
