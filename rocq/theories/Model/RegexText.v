(** epcpy/utils/regex.py: the text of every pattern, as it stands after Python has read the string
    literals (a backslash before a character that is no string escape stays) and filled in the
    f-strings.  [Regexes] has the same patterns as regular expressions; C50 proves that they agree. *)
From Coq Require Import String.
From Verif.Model Require Import Py.

(** regex.py:2 *)
Definition T_CPREF_COMPONENT : str :=
  lit "([0-9A-Z-]|%2F|%23)+".
(** regex.py:3 *)
Definition T_NUMERIC_COMPONENT : str :=
  lit "(0|[1-9]\d*)".
(** regex.py:4 *)
Definition T_GS3A3_CHAR : str :=
  lit "((%[0-9a-fA-F])|([a-zA-Z0-9!'()*+,-.:;=_]))".
(** regex.py:5 *)
Definition T_GS3A3_COMPONENT : str :=
  T_GS3A3_CHAR ++ lit "+".
(** regex.py:6 *)
Definition T_PADDED_NUMERIC_COMPONENT : str :=
  lit "\d+".
(** regex.py:7 *)
Definition T_PADDED_NUMERIC_COMPONENT_OR_EMPTY : str :=
  lit "\d*".
(** regex.py:8 *)
Definition T_VERIFY_GS3A3_CHARS : str :=
  lit "[a-zA-Z0-9!'()*+,-.:;=_""%&/<>?]+".
(** regex.py:9 *)
Definition T_GS1_ELEM_CHARS : str :=
  lit "[a-zA-Z0-9!'()*+,-.:;=_""%&/<>?]".
(** regex.py:10 *)
Definition T_GS1_ELEM_CHARS_CPI : str :=
  lit "[0-9A-Z\/\-\#]".
(** regex.py:11 *)
Definition T_DIGIT : str :=
  lit "\d".
(** regex.py:13 *)
Definition T_FOUR_PADDED_NUMERIC_COMPONENTS : str :=
  T_PADDED_NUMERIC_COMPONENT ++ lit "\." ++ T_PADDED_NUMERIC_COMPONENT ++ lit "\." ++
  T_PADDED_NUMERIC_COMPONENT ++ lit "\." ++ T_PADDED_NUMERIC_COMPONENT.
(** regex.py:16-18 *)
Definition T_SGTIN_URI_BODY : str :=
  T_PADDED_NUMERIC_COMPONENT ++ lit "\." ++ T_PADDED_NUMERIC_COMPONENT ++ lit "\." ++
  T_GS3A3_COMPONENT.
(** regex.py:19 *)
Definition T_SGTIN_URI : str :=
  lit "urn:epc:id:sgtin:" ++ T_SGTIN_URI_BODY.
(** regex.py:21 *)
Definition T_SSCC_URI_BODY : str :=
  T_PADDED_NUMERIC_COMPONENT ++ lit "\." ++ T_PADDED_NUMERIC_COMPONENT.
(** regex.py:22 *)
Definition T_SSCC_URI : str :=
  lit "urn:epc:id:sscc:" ++ T_SSCC_URI_BODY.
(** regex.py:24 *)
Definition T_SGLN_URI_BODY : str :=
  T_PADDED_NUMERIC_COMPONENT ++ lit "\." ++ T_PADDED_NUMERIC_COMPONENT_OR_EMPTY ++ lit "\." ++
  T_GS3A3_COMPONENT.
(** regex.py:25 *)
Definition T_SGLN_URI : str :=
  lit "urn:epc:id:sgln:" ++ T_SGLN_URI_BODY.
(** regex.py:27 *)
Definition T_GRAI_URI_BODY : str :=
  T_PADDED_NUMERIC_COMPONENT ++ lit "\." ++ T_PADDED_NUMERIC_COMPONENT_OR_EMPTY ++ lit "\." ++
  T_GS3A3_COMPONENT.
(** regex.py:28 *)
Definition T_GRAI_URI : str :=
  lit "urn:epc:id:grai:" ++ T_GRAI_URI_BODY.
(** regex.py:30 *)
Definition T_GIAI_URI_BODY : str :=
  T_PADDED_NUMERIC_COMPONENT ++ lit "\." ++ T_GS3A3_COMPONENT.
(** regex.py:31 *)
Definition T_GIAI_URI : str :=
  lit "urn:epc:id:giai:" ++ T_GIAI_URI_BODY.
(** regex.py:33 *)
Definition T_GSRN_URI_BODY : str :=
  T_PADDED_NUMERIC_COMPONENT ++ lit "\." ++ T_PADDED_NUMERIC_COMPONENT.
(** regex.py:34 *)
Definition T_GSRN_URI : str :=
  lit "urn:epc:id:gsrn:" ++ T_GSRN_URI_BODY.
(** regex.py:36 *)
Definition T_GSRNP_URI_BODY : str :=
  T_PADDED_NUMERIC_COMPONENT ++ lit "\." ++ T_PADDED_NUMERIC_COMPONENT.
(** regex.py:37 *)
Definition T_GSRNP_URI : str :=
  lit "urn:epc:id:gsrnp:" ++ T_GSRN_URI_BODY.
(** regex.py:39 *)
Definition T_GDTI_URI_BODY : str :=
  T_PADDED_NUMERIC_COMPONENT ++ lit "\." ++ T_PADDED_NUMERIC_COMPONENT_OR_EMPTY ++ lit "\." ++
  T_GS3A3_COMPONENT.
(** regex.py:40 *)
Definition T_GDTI_URI : str :=
  lit "urn:epc:id:gdti:" ++ T_GDTI_URI_BODY.
(** regex.py:42 *)
Definition T_CPI_URI_BODY : str :=
  T_PADDED_NUMERIC_COMPONENT ++ lit "\." ++ T_CPREF_COMPONENT ++ lit "\." ++ T_NUMERIC_COMPONENT.
(** regex.py:43 *)
Definition T_CPI_URI : str :=
  lit "urn:epc:id:cpi:" ++ T_CPI_URI_BODY.
(** regex.py:45 *)
Definition T_SGCN_URI_BODY : str :=
  T_PADDED_NUMERIC_COMPONENT ++ lit "\." ++ T_PADDED_NUMERIC_COMPONENT_OR_EMPTY ++ lit "\." ++
  T_PADDED_NUMERIC_COMPONENT.
(** regex.py:46 *)
Definition T_SGCN_URI : str :=
  lit "urn:epc:id:sgcn:" ++ T_SGCN_URI_BODY.
(** regex.py:48 *)
Definition T_GINC_URI_BODY : str :=
  T_PADDED_NUMERIC_COMPONENT ++ lit "\." ++ T_GS3A3_COMPONENT.
(** regex.py:49 *)
Definition T_GINC_URI : str :=
  lit "urn:epc:id:ginc:" ++ T_GINC_URI_BODY.
(** regex.py:51 *)
Definition T_GSIN_URI_BODY : str :=
  T_PADDED_NUMERIC_COMPONENT ++ lit "\." ++ T_PADDED_NUMERIC_COMPONENT.
(** regex.py:52 *)
Definition T_GSIN_URI : str :=
  lit "urn:epc:id:gsin:" ++ T_GSIN_URI_BODY.
(** regex.py:54 *)
Definition T_ITIP_URI_BODY : str :=
  T_FOUR_PADDED_NUMERIC_COMPONENTS ++ lit "\." ++ T_GS3A3_COMPONENT.
(** regex.py:55 *)
Definition T_ITIP_URI : str :=
  lit "urn:epc:id:itip:" ++ T_ITIP_URI_BODY.
(** regex.py:57 *)
Definition T_UPUI_URI_BODY : str :=
  T_PADDED_NUMERIC_COMPONENT ++ lit "\." ++ T_PADDED_NUMERIC_COMPONENT_OR_EMPTY ++ lit "\." ++
  T_GS3A3_COMPONENT.
(** regex.py:58 *)
Definition T_UPUI_URI : str :=
  lit "urn:epc:id:upui:" ++ T_UPUI_URI_BODY.
(** regex.py:60 *)
Definition T_PGLN_URI_BODY : str :=
  T_PADDED_NUMERIC_COMPONENT ++ lit "\." ++ T_PADDED_NUMERIC_COMPONENT_OR_EMPTY.
(** regex.py:61 *)
Definition T_PGLN_URI : str :=
  lit "urn:epc:id:pgln:" ++ T_PGLN_URI_BODY.
(** regex.py:63 *)
Definition T_GID_URI_BODY : str :=
  T_NUMERIC_COMPONENT ++ lit "\." ++ T_NUMERIC_COMPONENT ++ lit "\." ++ T_NUMERIC_COMPONENT.
(** regex.py:64 *)
Definition T_GID_URI : str :=
  lit "urn:epc:id:gid:" ++ T_GID_URI_BODY.
(** regex.py:66 *)
Definition T_CAGE_CODE_OR_DODAAC : str :=
  lit "([0-9A-HJ-NP-Z]){5,6}".
(** regex.py:67 *)
Definition T_USDOD_URI_BODY : str :=
  T_CAGE_CODE_OR_DODAAC ++ lit "\." ++ T_NUMERIC_COMPONENT.
(** regex.py:68 *)
Definition T_USDOD_URI : str :=
  lit "urn:epc:id:usdod:" ++ T_USDOD_URI_BODY.
(** regex.py:70 *)
Definition T_ADI_CHAR : str :=
  lit "([A-Z0-9-]|(%2F))".
(** regex.py:71 *)
Definition T_ADI_URI_BODY : str :=
  T_CAGE_CODE_OR_DODAAC ++ lit "\." ++ T_ADI_CHAR ++ lit "*\.(%23)?" ++ T_ADI_CHAR ++ lit "+".
(** regex.py:72 *)
Definition T_ADI_URI : str :=
  lit "urn:epc:id:adi:" ++ T_ADI_URI_BODY.
(** regex.py:74 *)
Definition T_BIC_URI_BODY : str :=
  lit "[A-HJ-NP-Z]{3}[JUZ][0-9]{7}".
(** regex.py:75 *)
Definition T_BIC_URI : str :=
  lit "urn:epc:id:bic:" ++ T_BIC_URI_BODY.
(** regex.py:77 *)
Definition T_IMOVN_URI_BODY : str :=
  lit "[0-9]{7}".
(** regex.py:78 *)
Definition T_IMOVN_URI : str :=
  lit "urn:epc:id:imovn:" ++ T_IMOVN_URI_BODY.
(** regex.py:80 *)
Definition T_LGTIN_CLASS : str :=
  lit "urn:epc:class:lgtin:" ++ T_PADDED_NUMERIC_COMPONENT ++ lit "\." ++
  T_PADDED_NUMERIC_COMPONENT ++ lit "\." ++ T_GS3A3_COMPONENT.
(** regex.py:82-86 *)
Definition T_EPC_URI : str :=
  lit "(" ++ T_SGTIN_URI ++ lit "|" ++ T_SSCC_URI ++ lit "|" ++ T_SGLN_URI ++ lit "|" ++
  T_GRAI_URI ++ lit "|" ++ T_GIAI_URI ++ lit "|" ++ T_GSRN_URI ++ lit "|" ++ T_GSRNP_URI ++
  lit "|" ++ T_GDTI_URI ++ lit "|" ++ T_CPI_URI ++ lit "|" ++ T_SGCN_URI ++ lit "|" ++
  T_GINC_URI ++ lit "|" ++ T_GSIN_URI ++ lit "|" ++ T_ITIP_URI ++ lit "|" ++ T_UPUI_URI ++
  lit "|" ++ T_PGLN_URI ++ lit "|" ++ T_GID_URI ++ lit "|" ++ T_USDOD_URI ++ lit "|" ++
  T_ADI_URI ++ lit "|" ++ T_BIC_URI ++ lit "|" ++ T_IMOVN_URI ++ lit "|" ++ T_LGTIN_CLASS ++
  lit ")".
(** regex.py:89 *)
Definition T_SGTIN_IDPAT_URI_BODY : str :=
  lit "sgtin:(" ++ T_PADDED_NUMERIC_COMPONENT ++ lit "\." ++ T_PADDED_NUMERIC_COMPONENT ++
  lit "\." ++ T_GS3A3_COMPONENT ++ lit "|" ++ T_PADDED_NUMERIC_COMPONENT ++ lit "\." ++
  T_PADDED_NUMERIC_COMPONENT ++ lit "\.\*|" ++ T_PADDED_NUMERIC_COMPONENT ++
  lit "\.\*\.\*|\*\.\*\.\*)".
(** regex.py:90 *)
Definition T_SSCC_IDPAT_URI_BODY : str :=
  lit "sscc:(" ++ T_PADDED_NUMERIC_COMPONENT ++ lit "\." ++ T_PADDED_NUMERIC_COMPONENT ++
  lit "|" ++ T_PADDED_NUMERIC_COMPONENT ++ lit "\.\*|\*\.\*)".
(** regex.py:91 *)
Definition T_SGLN_GRAI_IDPAT_URI_BODY_MAIN : str :=
  lit "(" ++ T_PADDED_NUMERIC_COMPONENT ++ lit "\." ++ T_PADDED_NUMERIC_COMPONENT_OR_EMPTY ++
  lit "\." ++ T_GS3A3_COMPONENT ++ lit "|" ++ T_PADDED_NUMERIC_COMPONENT ++ lit "\." ++
  T_PADDED_NUMERIC_COMPONENT_OR_EMPTY ++ lit "\.\*|" ++ T_PADDED_NUMERIC_COMPONENT ++
  lit "\.\*\.\*|\*\.\*\.\*)".
(** regex.py:92 *)
Definition T_SGLN_IDPAT_URI_BODY : str :=
  lit "sgln:" ++ T_SGLN_GRAI_IDPAT_URI_BODY_MAIN.
(** regex.py:93 *)
Definition T_GRAI_IDPAT_URI_BODY : str :=
  lit "grai:" ++ T_SGLN_GRAI_IDPAT_URI_BODY_MAIN.
(** regex.py:94 *)
Definition T_GIAI_IDPAT_URI_BODY : str :=
  lit "giai:(" ++ T_PADDED_NUMERIC_COMPONENT ++ lit "\." ++ T_GS3A3_COMPONENT ++ lit "|" ++
  T_PADDED_NUMERIC_COMPONENT ++ lit "\.\*|\*\.\*)".
(** regex.py:95 *)
Definition T_GSRN_IDPAT_URI_BODY : str :=
  lit "gsrn:(" ++ T_PADDED_NUMERIC_COMPONENT ++ lit "\." ++ T_PADDED_NUMERIC_COMPONENT ++
  lit "|" ++ T_PADDED_NUMERIC_COMPONENT ++ lit "\.\*|\*\.\*)".
(** regex.py:96 *)
Definition T_GSRNP_IDPAT_URI_BODY : str :=
  lit "gsrnp:(" ++ T_PADDED_NUMERIC_COMPONENT ++ lit "\." ++ T_PADDED_NUMERIC_COMPONENT ++
  lit "|" ++ T_PADDED_NUMERIC_COMPONENT ++ lit "\.\*|\*\.\*)".
(** regex.py:97 *)
Definition T_GDTI_IDPAT_URI_BODY : str :=
  lit "gdti:(" ++ T_PADDED_NUMERIC_COMPONENT ++ lit "\." ++ T_PADDED_NUMERIC_COMPONENT_OR_EMPTY ++
  lit "\." ++ T_GS3A3_COMPONENT ++ lit "|" ++ T_PADDED_NUMERIC_COMPONENT ++ lit "\." ++
  T_PADDED_NUMERIC_COMPONENT_OR_EMPTY ++ lit "\.\*|" ++ T_PADDED_NUMERIC_COMPONENT ++
  lit "\.\*\.\*|\*\.\*\.\*)".
(** regex.py:98 *)
Definition T_CPI_IDPAT_URI_BODY : str :=
  lit "cpi:(" ++ T_PADDED_NUMERIC_COMPONENT ++ lit "\." ++ T_CPREF_COMPONENT ++ lit "\." ++
  T_NUMERIC_COMPONENT ++ lit "|" ++ T_PADDED_NUMERIC_COMPONENT ++ lit "\." ++ T_CPREF_COMPONENT ++
  lit "\.\*|" ++ T_PADDED_NUMERIC_COMPONENT ++ lit "\.\*\.\*|\*\.\*\.\*)".
(** regex.py:99 *)
Definition T_SGCN_IDPAT_URI_BODY : str :=
  lit "sgcn:(" ++ T_PADDED_NUMERIC_COMPONENT ++ lit "\." ++ T_PADDED_NUMERIC_COMPONENT_OR_EMPTY ++
  lit "\." ++ T_PADDED_NUMERIC_COMPONENT ++ lit "|" ++ T_PADDED_NUMERIC_COMPONENT ++ lit "\." ++
  T_PADDED_NUMERIC_COMPONENT_OR_EMPTY ++ lit "\.\*|" ++ T_PADDED_NUMERIC_COMPONENT ++
  lit "\.\*\.\*|\*\.\*\.\*)".
(** regex.py:100 *)
Definition T_GINC_IDPAT_URI_BODY : str :=
  lit "ginc:(" ++ T_PADDED_NUMERIC_COMPONENT ++ lit "\." ++ T_GS3A3_COMPONENT ++ lit "|" ++
  T_PADDED_NUMERIC_COMPONENT ++ lit "\.\*|\*\.\*)".
(** regex.py:101 *)
Definition T_GSIN_IDPAT_URI_BODY : str :=
  lit "gsin:(" ++ T_PADDED_NUMERIC_COMPONENT ++ lit "\." ++ T_PADDED_NUMERIC_COMPONENT ++
  lit "|" ++ T_PADDED_NUMERIC_COMPONENT ++ lit "\.\*|\*\.\*)".
(** regex.py:102 *)
Definition T_ITIP_IDPAT_URI_BODY : str :=
  lit "itip:(" ++ T_FOUR_PADDED_NUMERIC_COMPONENTS ++ lit "\." ++ T_GS3A3_COMPONENT ++ lit "|" ++
  T_FOUR_PADDED_NUMERIC_COMPONENTS ++ lit "\.\*|" ++ T_PADDED_NUMERIC_COMPONENT ++ lit "\." ++
  T_PADDED_NUMERIC_COMPONENT ++ lit "\.\*\.\*\.\*|" ++ T_PADDED_NUMERIC_COMPONENT ++
  lit "\.\*\.\*\.\*\.\*|\*\.\*\*\.\*\.\*)".
(** regex.py:103 *)
Definition T_UPUI_IDPAT_URI_BODY : str :=
  lit "upui:(" ++ T_PADDED_NUMERIC_COMPONENT ++ lit "\." ++ T_PADDED_NUMERIC_COMPONENT ++
  lit "\." ++ T_GS3A3_COMPONENT ++ lit "|" ++ T_PADDED_NUMERIC_COMPONENT ++ lit "\." ++
  T_PADDED_NUMERIC_COMPONENT ++ lit "\.\*|" ++ T_PADDED_NUMERIC_COMPONENT ++
  lit "\.\*\.\*|\*\.\*\.\*)".
(** regex.py:104 *)
Definition T_PGLN_IDPAT_URI_BODY : str :=
  lit "pgln:(" ++ T_PADDED_NUMERIC_COMPONENT ++ lit "\." ++ T_PADDED_NUMERIC_COMPONENT_OR_EMPTY ++
  lit "|" ++ T_PADDED_NUMERIC_COMPONENT ++ lit "\.\*|\*\.\*)".
(** regex.py:105 *)
Definition T_GID_IDPAT_URI_BODY : str :=
  lit "gid:(" ++ T_NUMERIC_COMPONENT ++ lit "\." ++ T_NUMERIC_COMPONENT ++ lit "\." ++
  T_NUMERIC_COMPONENT ++ lit "|" ++ T_NUMERIC_COMPONENT ++ lit "\." ++ T_NUMERIC_COMPONENT ++
  lit "\.\*|" ++ T_NUMERIC_COMPONENT ++ lit "\.\*\.\*|\*\.\*\.\*)".
(** regex.py:106 *)
Definition T_USDOD_IDPAT_URI_BODY : str :=
  lit "usdod:(" ++ T_CAGE_CODE_OR_DODAAC ++ lit "\." ++ T_NUMERIC_COMPONENT ++ lit "|" ++
  T_CAGE_CODE_OR_DODAAC ++ lit "\.\*|\*\.\*)".
(** regex.py:107 *)
Definition T_ADI_IDPAT_URI_BODY : str :=
  lit "adi:(" ++ T_CAGE_CODE_OR_DODAAC ++ lit "\." ++ T_ADI_CHAR ++ lit "*\.(%23)?" ++
  T_ADI_CHAR ++ lit "+|" ++ T_CAGE_CODE_OR_DODAAC ++ lit "\." ++ T_ADI_CHAR ++ lit "*\.\*|" ++
  T_CAGE_CODE_OR_DODAAC ++ lit "\.\*\.\*|\*\.\*\.\*)".
(** regex.py:109-115 *)
Definition T_IDPAT_BODY : str :=
  lit "(" ++ T_SGTIN_IDPAT_URI_BODY ++ lit "|" ++ T_SSCC_IDPAT_URI_BODY ++ lit "|" ++
  T_SGLN_IDPAT_URI_BODY ++ lit "|" ++ T_GRAI_IDPAT_URI_BODY ++ lit "|" ++ T_GIAI_IDPAT_URI_BODY ++
  lit "|" ++ T_GSRN_IDPAT_URI_BODY ++ lit "|" ++ T_GSRNP_IDPAT_URI_BODY ++ lit "|" ++
  T_GDTI_IDPAT_URI_BODY ++ lit "|" ++ T_CPI_IDPAT_URI_BODY ++ lit "|" ++ T_SGCN_IDPAT_URI_BODY ++
  lit "|" ++ T_GINC_IDPAT_URI_BODY ++ lit "|" ++ T_GSIN_IDPAT_URI_BODY ++ lit "|" ++
  T_ITIP_IDPAT_URI_BODY ++ lit "|" ++ T_UPUI_IDPAT_URI_BODY ++ lit "|" ++ T_PGLN_IDPAT_URI_BODY ++
  lit "|" ++ T_GID_IDPAT_URI_BODY ++ lit "|" ++ T_USDOD_IDPAT_URI_BODY ++ lit "|" ++
  T_ADI_IDPAT_URI_BODY ++ lit ")".
(** regex.py:116 *)
Definition T_IDPAT_URI : str :=
  lit "urn:epc:idpat:" ++ T_IDPAT_BODY.
(** regex.py:119 *)
Definition T_SGTIN_TAG_URI_BODY : str :=
  lit "(sgtin-96|sgtin-198):" ++ T_NUMERIC_COMPONENT ++ lit "\." ++ T_SGTIN_URI_BODY.
(** regex.py:120 *)
Definition T_SSCC_TAG_URI_BODY : str :=
  lit "sscc-96:" ++ T_NUMERIC_COMPONENT ++ lit "\." ++ T_SSCC_URI_BODY.
(** regex.py:121 *)
Definition T_SGLN_TAG_URI_BODY : str :=
  lit "(sgln-96|sgln-195):" ++ T_NUMERIC_COMPONENT ++ lit "\." ++ T_SGLN_URI_BODY.
(** regex.py:122 *)
Definition T_GRAI_TAG_URI_BODY : str :=
  lit "(grai-96|grai-170):" ++ T_NUMERIC_COMPONENT ++ lit "\." ++ T_GRAI_URI_BODY.
(** regex.py:123 *)
Definition T_GIAI_TAG_URI_BODY : str :=
  lit "(giai-96|giai-202):" ++ T_NUMERIC_COMPONENT ++ lit "\." ++ T_GIAI_URI_BODY.
(** regex.py:124 *)
Definition T_GSRN_TAG_URI_BODY : str :=
  lit "gsrn-96:" ++ T_NUMERIC_COMPONENT ++ lit "\." ++ T_GSRN_URI_BODY.
(** regex.py:125 *)
Definition T_GSRNP_TAG_URI_BODY : str :=
  lit "gsrnp-96:" ++ T_NUMERIC_COMPONENT ++ lit "\." ++ T_GSRNP_URI_BODY.
(** regex.py:126 *)
Definition T_GDTI_TAG_URI_BODY : str :=
  lit "(gdti-96|gdti-174):" ++ T_NUMERIC_COMPONENT ++ lit "\." ++ T_GDTI_URI_BODY.
(** regex.py:127 *)
Definition T_CPI_TAG_URI_BODY : str :=
  lit "(cpi-96|cpi-var):" ++ T_NUMERIC_COMPONENT ++ lit "\." ++ T_CPI_URI_BODY.
(** regex.py:128 *)
Definition T_SGCN_TAG_URI_BODY : str :=
  lit "sgcn-96:" ++ T_NUMERIC_COMPONENT ++ lit "\." ++ T_SGCN_URI_BODY.
(** regex.py:129 *)
Definition T_ITIP_TAG_URI_BODY : str :=
  lit "(itip-110|itip-212):" ++ T_NUMERIC_COMPONENT ++ lit "\." ++ T_ITIP_URI_BODY.
(** regex.py:130 *)
Definition T_GID_TAG_URI_BODY : str :=
  lit "gid-96:" ++ T_GID_URI_BODY.
(** regex.py:131 *)
Definition T_USDOD_TAG_URI_BODY : str :=
  lit "usdod-96:" ++ T_NUMERIC_COMPONENT ++ lit "\." ++ T_USDOD_URI_BODY.
(** regex.py:132 *)
Definition T_ADI_TAG_URI_BODY : str :=
  lit "adi-var:" ++ T_NUMERIC_COMPONENT ++ lit "\." ++ T_ADI_URI_BODY.
(** regex.py:134-139 *)
Definition T_TAG_URI_BODY : str :=
  lit "(" ++ T_SGTIN_TAG_URI_BODY ++ lit "|" ++ T_SSCC_TAG_URI_BODY ++ lit "|" ++
  T_SGLN_TAG_URI_BODY ++ lit "|" ++ T_GRAI_TAG_URI_BODY ++ lit "|" ++ T_GIAI_TAG_URI_BODY ++
  lit "|" ++ T_GSRN_TAG_URI_BODY ++ lit "|" ++ T_GSRNP_TAG_URI_BODY ++ lit "|" ++
  T_GDTI_TAG_URI_BODY ++ lit "|" ++ T_CPI_TAG_URI_BODY ++ lit "|" ++ T_SGCN_TAG_URI_BODY ++
  lit "|" ++ T_ITIP_TAG_URI_BODY ++ lit "|" ++ T_GID_TAG_URI_BODY ++ lit "|" ++
  T_USDOD_TAG_URI_BODY ++ lit "|" ++ T_ADI_TAG_URI_BODY ++ lit ")".
(** regex.py:140 *)
Definition T_TAG_URI : str :=
  lit "urn:epc:tag:" ++ T_TAG_URI_BODY.
(** regex.py:143 *)
Definition T_SGTIN_GS1_ELEMENT_STRING : str :=
  lit "\(01\)" ++ T_DIGIT ++ lit "{14}\(21\)" ++ T_GS1_ELEM_CHARS ++ lit "{1,20}".
(** regex.py:144 *)
Definition T_SSCC_GS1_ELEMENT_STRING : str :=
  lit "\(00\)" ++ T_DIGIT ++ lit "{18}".
(** regex.py:145 *)
Definition T_SGLN_GS1_ELEMENT_STRING : str :=
  lit "\(414\)" ++ T_DIGIT ++ lit "{13}\(254\)" ++ T_GS1_ELEM_CHARS ++ lit "{1,20}".
(** regex.py:146 *)
Definition T_GRAI_GS1_ELEMENT_STRING : str :=
  lit "\(8003\)0" ++ T_DIGIT ++ lit "{13}" ++ T_GS1_ELEM_CHARS ++ lit "{1,16}".
(** regex.py:147 *)
Definition T_GIAI_GS1_ELEMENT_STRING : str :=
  lit "\(8004\)" ++ T_DIGIT ++ lit "{6,12}" ++ T_GS1_ELEM_CHARS ++ lit "{1,24}".
(** regex.py:148 *)
Definition T_GSRN_GS1_ELEMENT_STRING : str :=
  lit "\(8018\)" ++ T_DIGIT ++ lit "{18}".
(** regex.py:149 *)
Definition T_GSRNP_GS1_ELEMENT_STRING : str :=
  lit "\(8017\)" ++ T_DIGIT ++ lit "{18}".
(** regex.py:150 *)
Definition T_GDTI_GS1_ELEMENT_STRING : str :=
  lit "\(253\)" ++ T_DIGIT ++ lit "{13}" ++ T_GS1_ELEM_CHARS ++ lit "{1,17}".
(** regex.py:151-153 *)
Definition T_CPI_GS1_ELEMENT_STRING : str :=
  lit "\(8010\)" ++ T_DIGIT ++ lit "{6,12}" ++ T_GS1_ELEM_CHARS_CPI ++ lit "{,24}\(8011\)" ++
  T_DIGIT ++ lit "{1,12}".
(** regex.py:154 *)
Definition T_SGCN_GS1_ELEMENT_STRING : str :=
  lit "\(255\)" ++ T_DIGIT ++ lit "{13}" ++ T_GS1_ELEM_CHARS ++ lit "{1,12}".
(** regex.py:155 *)
Definition T_GINC_GS1_ELEMENT_STRING : str :=
  lit "\(401\)" ++ T_DIGIT ++ lit "{6,12}" ++ T_GS1_ELEM_CHARS ++ lit "{1,24}".
(** regex.py:156 *)
Definition T_GSIN_GS1_ELEMENT_STRING : str :=
  lit "\(402\)" ++ T_DIGIT ++ lit "{17}".
(** regex.py:157 *)
Definition T_ITIP_GS1_ELEMENT_STRING : str :=
  lit "\(8006\)" ++ T_DIGIT ++ lit "{18}\(21\)" ++ T_GS1_ELEM_CHARS ++ lit "{1,20}".
(** regex.py:158 *)
Definition T_UPUI_GS1_ELEMENT_STRING : str :=
  lit "\(01\)" ++ T_DIGIT ++ lit "{14}\(235\)" ++ T_GS1_ELEM_CHARS ++ lit "{1,28}".
(** regex.py:159 *)
Definition T_PGLN_GS1_ELEMENT_STRING : str :=
  lit "\(417\)" ++ T_DIGIT ++ lit "{13}".
(** regex.py:160 *)
Definition T_LGTIN_GS1_ELEMENT_STRING : str :=
  lit "\(01\)" ++ T_DIGIT ++ lit "{14}\(10\)" ++ T_GS1_ELEM_CHARS ++ lit "{1,20}".
(** regex.py:162-169 *)
Definition T_GS1_ELEMENT_STRING : str :=
  lit "(" ++ T_SGTIN_GS1_ELEMENT_STRING ++ lit "|" ++ T_SSCC_GS1_ELEMENT_STRING ++ lit "|" ++
  T_SGLN_GS1_ELEMENT_STRING ++ lit "|" ++ T_GRAI_GS1_ELEMENT_STRING ++ lit "|" ++
  T_GIAI_GS1_ELEMENT_STRING ++ lit "|" ++ T_GSRN_GS1_ELEMENT_STRING ++ lit "|" ++
  T_GSRNP_GS1_ELEMENT_STRING ++ lit "|" ++ T_GDTI_GS1_ELEMENT_STRING ++ lit "|" ++
  T_CPI_GS1_ELEMENT_STRING ++ lit "|" ++ T_SGCN_GS1_ELEMENT_STRING ++ lit "|" ++
  T_GINC_GS1_ELEMENT_STRING ++ lit "|" ++ T_GSIN_GS1_ELEMENT_STRING ++ lit "|" ++
  T_ITIP_GS1_ELEMENT_STRING ++ lit "|" ++ T_UPUI_GS1_ELEMENT_STRING ++ lit "|" ++
  T_PGLN_GS1_ELEMENT_STRING ++ lit "|" ++ T_LGTIN_GS1_ELEMENT_STRING ++ lit ")".
