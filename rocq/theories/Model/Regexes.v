(** epcpy/utils/regex.py: every pattern, transcribed.  The original f-strings build patterns by
    interpolation; here they are built with the combinators of [Re]. *)
From Coq Require Import String.
From Verif.Model Require Import Py Re.

Definition dot : re := rchar c_dot.          (* \. *)
Definition star_c : re := rchar 42.          (* \* *)

(** regex.py:2 CPREF_COMPONENT = "([0-9A-Z-]|%2F|%23)+" *)
Definition cpref_char (c : N) : bool := is_digit c || is_upper c || (c =? c_dash).
Definition CPREF_COMPONENT : re := rplus (ralt [RSet cpref_char; rlit "%2F"; rlit "%23"]).

(** regex.py:3 NUMERIC_COMPONENT: 0 or [1-9] followed by any number of \d *)
Definition NUMERIC_COMPONENT : re :=
  RAlt (rchar c_0) (RSeq (RSet (inr 49 57)) (RStar (RSet is_d))).

(** regex.py:4 the class [a-zA-Z0-9!'()*+,-.:;=_] (",-." is the range 2C..2E) *)
Definition gs3a3_plain (c : N) : bool :=
  is_lower c || is_upper c || is_digit c || (c =? 33) || (c =? 39) || (c =? 40) || (c =? 41) ||
  (c =? 42) || (c =? 43) || inr 44 46 c || (c =? 58) || (c =? 59) || (c =? 61) || (c =? 95).
Definition GS3A3_CHAR : re := RAlt (RSeq (rchar c_pct) (RSet is_hex)) (RSet gs3a3_plain).
(** regex.py:5 *)
Definition GS3A3_COMPONENT : re := rplus GS3A3_CHAR.
(** regex.py:6-7 *)
Definition PADDED_NUMERIC_COMPONENT : re := rplus (RSet is_d).
Definition PADDED_NUMERIC_COMPONENT_OR_EMPTY : re := RStar (RSet is_d).
(** regex.py:8-9 the class of line 4 plus the double quote and %&/<>? *)
Definition gs1_elem_char (c : N) : bool :=
  gs3a3_plain c || (c =? 34) || (c =? 37) || (c =? 38) || (c =? 47) || (c =? 60) || (c =? 62) || (c =? 63).
Definition VERIFY_GS3A3_CHARS : re := rplus (RSet gs1_elem_char).
Definition GS1_ELEM_CHARS : re := RSet gs1_elem_char.
(** regex.py:10 [0-9A-Z\/\-\#] *)
Definition gs1_elem_char_cpi (c : N) : bool :=
  is_digit c || is_upper c || (c =? 47) || (c =? 45) || (c =? 35).
Definition GS1_ELEM_CHARS_CPI : re := RSet gs1_elem_char_cpi.
(** regex.py:11 *)
Definition DIGIT : re := RSet is_d.

Definition PNC := PADDED_NUMERIC_COMPONENT.
Definition PNCE := PADDED_NUMERIC_COMPONENT_OR_EMPTY.
Definition NC := NUMERIC_COMPONENT.

(** regex.py:13 *)
Definition FOUR_PADDED_NUMERIC_COMPONENTS : re := rseq [PNC; dot; PNC; dot; PNC; dot; PNC].

(** regex.py:15-80: EPC pure identity URIs *)
Definition SGTIN_URI_BODY := rseq [PNC; dot; PNC; dot; GS3A3_COMPONENT].
Definition SGTIN_URI := RSeq (rlit "urn:epc:id:sgtin:") SGTIN_URI_BODY.
Definition SSCC_URI_BODY := rseq [PNC; dot; PNC].
Definition SSCC_URI := RSeq (rlit "urn:epc:id:sscc:") SSCC_URI_BODY.
Definition SGLN_URI_BODY := rseq [PNC; dot; PNCE; dot; GS3A3_COMPONENT].
Definition SGLN_URI := RSeq (rlit "urn:epc:id:sgln:") SGLN_URI_BODY.
Definition GRAI_URI_BODY := rseq [PNC; dot; PNCE; dot; GS3A3_COMPONENT].
Definition GRAI_URI := RSeq (rlit "urn:epc:id:grai:") GRAI_URI_BODY.
Definition GIAI_URI_BODY := rseq [PNC; dot; GS3A3_COMPONENT].
Definition GIAI_URI := RSeq (rlit "urn:epc:id:giai:") GIAI_URI_BODY.
Definition GSRN_URI_BODY := rseq [PNC; dot; PNC].
Definition GSRN_URI := RSeq (rlit "urn:epc:id:gsrn:") GSRN_URI_BODY.
Definition GSRNP_URI_BODY := rseq [PNC; dot; PNC].
Definition GSRNP_URI := RSeq (rlit "urn:epc:id:gsrnp:") GSRN_URI_BODY.
Definition GDTI_URI_BODY := rseq [PNC; dot; PNCE; dot; GS3A3_COMPONENT].
Definition GDTI_URI := RSeq (rlit "urn:epc:id:gdti:") GDTI_URI_BODY.
Definition CPI_URI_BODY := rseq [PNC; dot; CPREF_COMPONENT; dot; NC].
Definition CPI_URI := RSeq (rlit "urn:epc:id:cpi:") CPI_URI_BODY.
Definition SGCN_URI_BODY := rseq [PNC; dot; PNCE; dot; PNC].
Definition SGCN_URI := RSeq (rlit "urn:epc:id:sgcn:") SGCN_URI_BODY.
Definition GINC_URI_BODY := rseq [PNC; dot; GS3A3_COMPONENT].
Definition GINC_URI := RSeq (rlit "urn:epc:id:ginc:") GINC_URI_BODY.
Definition GSIN_URI_BODY := rseq [PNC; dot; PNC].
Definition GSIN_URI := RSeq (rlit "urn:epc:id:gsin:") GSIN_URI_BODY.
Definition ITIP_URI_BODY := rseq [FOUR_PADDED_NUMERIC_COMPONENTS; dot; GS3A3_COMPONENT].
Definition ITIP_URI := RSeq (rlit "urn:epc:id:itip:") ITIP_URI_BODY.
Definition UPUI_URI_BODY := rseq [PNC; dot; PNCE; dot; GS3A3_COMPONENT].
Definition UPUI_URI := RSeq (rlit "urn:epc:id:upui:") UPUI_URI_BODY.
Definition PGLN_URI_BODY := rseq [PNC; dot; PNCE].
Definition PGLN_URI := RSeq (rlit "urn:epc:id:pgln:") PGLN_URI_BODY.
Definition GID_URI_BODY := rseq [NC; dot; NC; dot; NC].
Definition GID_URI := RSeq (rlit "urn:epc:id:gid:") GID_URI_BODY.
(** regex.py:66 "([0-9A-HJ-NP-Z]){5,6}" *)
Definition cage_char (c : N) : bool := is_digit c || inr 65 72 c || inr 74 78 c || inr 80 90 c.
Definition CAGE_CODE_OR_DODAAC := rrange 5 6 (RSet cage_char).
Definition USDOD_URI_BODY := rseq [CAGE_CODE_OR_DODAAC; dot; NC].
Definition USDOD_URI := RSeq (rlit "urn:epc:id:usdod:") USDOD_URI_BODY.
(** regex.py:70 "([A-Z0-9-]|(%2F))" *)
Definition ADI_CHAR := RAlt (RSet cpref_char) (rlit "%2F").
Definition ADI_URI_BODY :=
  rseq [CAGE_CODE_OR_DODAAC; dot; RStar ADI_CHAR; dot; ropt (rlit "%23"); rplus ADI_CHAR].
Definition ADI_URI := RSeq (rlit "urn:epc:id:adi:") ADI_URI_BODY.
(** regex.py:74 "[A-HJ-NP-Z]{3}[JUZ][0-9]{7}" *)
Definition bic_owner_char (c : N) : bool := inr 65 72 c || inr 74 78 c || inr 80 90 c.
Definition bic_cat_char (c : N) : bool := (c =? 74) || (c =? 85) || (c =? 90).
Definition BIC_URI_BODY :=
  rseq [rrep 3 (RSet bic_owner_char); RSet bic_cat_char; rrep 7 (RSet is_digit)].
Definition BIC_URI := RSeq (rlit "urn:epc:id:bic:") BIC_URI_BODY.
Definition IMOVN_URI_BODY := rrep 7 (RSet is_digit).
Definition IMOVN_URI := RSeq (rlit "urn:epc:id:imovn:") IMOVN_URI_BODY.
Definition LGTIN_CLASS :=
  RSeq (rlit "urn:epc:class:lgtin:") (rseq [PNC; dot; PNC; dot; GS3A3_COMPONENT]).

(** regex.py:82-86 *)
Definition EPC_URI :=
  ralt [SGTIN_URI; SSCC_URI; SGLN_URI; GRAI_URI; GIAI_URI; GSRN_URI; GSRNP_URI; GDTI_URI;
        CPI_URI; SGCN_URI; GINC_URI; GSIN_URI; ITIP_URI; UPUI_URI; PGLN_URI; GID_URI;
        USDOD_URI; ADI_URI; BIC_URI; IMOVN_URI; LGTIN_CLASS].

(** regex.py:88-116: IDPAT URIs *)
Definition st3 := rseq [star_c; dot; star_c; dot; star_c].   (* \*\.\*\.\* *)
Definition st2 := rseq [star_c; dot; star_c].                (* \*\.\* *)
Definition SGTIN_IDPAT_URI_BODY :=
  RSeq (rlit "sgtin:") (ralt [rseq [PNC; dot; PNC; dot; GS3A3_COMPONENT];
    rseq [PNC; dot; PNC; dot; star_c]; rseq [PNC; dot; star_c; dot; star_c]; st3]).
Definition SSCC_IDPAT_URI_BODY :=
  RSeq (rlit "sscc:") (ralt [rseq [PNC; dot; PNC]; rseq [PNC; dot; star_c]; st2]).
Definition SGLN_GRAI_IDPAT_URI_BODY_MAIN :=
  ralt [rseq [PNC; dot; PNCE; dot; GS3A3_COMPONENT];
    rseq [PNC; dot; PNCE; dot; star_c]; rseq [PNC; dot; star_c; dot; star_c]; st3].
Definition SGLN_IDPAT_URI_BODY := RSeq (rlit "sgln:") SGLN_GRAI_IDPAT_URI_BODY_MAIN.
Definition GRAI_IDPAT_URI_BODY := RSeq (rlit "grai:") SGLN_GRAI_IDPAT_URI_BODY_MAIN.
Definition GIAI_IDPAT_URI_BODY :=
  RSeq (rlit "giai:") (ralt [rseq [PNC; dot; GS3A3_COMPONENT]; rseq [PNC; dot; star_c]; st2]).
Definition GSRN_IDPAT_URI_BODY :=
  RSeq (rlit "gsrn:") (ralt [rseq [PNC; dot; PNC]; rseq [PNC; dot; star_c]; st2]).
Definition GSRNP_IDPAT_URI_BODY :=
  RSeq (rlit "gsrnp:") (ralt [rseq [PNC; dot; PNC]; rseq [PNC; dot; star_c]; st2]).
Definition GDTI_IDPAT_URI_BODY :=
  RSeq (rlit "gdti:") (ralt [rseq [PNC; dot; PNCE; dot; GS3A3_COMPONENT];
    rseq [PNC; dot; PNCE; dot; star_c]; rseq [PNC; dot; star_c; dot; star_c]; st3]).
Definition CPI_IDPAT_URI_BODY :=
  RSeq (rlit "cpi:") (ralt [rseq [PNC; dot; CPREF_COMPONENT; dot; NC];
    rseq [PNC; dot; CPREF_COMPONENT; dot; star_c]; rseq [PNC; dot; star_c; dot; star_c]; st3]).
Definition SGCN_IDPAT_URI_BODY :=
  RSeq (rlit "sgcn:") (ralt [rseq [PNC; dot; PNCE; dot; PNC];
    rseq [PNC; dot; PNCE; dot; star_c]; rseq [PNC; dot; star_c; dot; star_c]; st3]).
Definition GINC_IDPAT_URI_BODY :=
  RSeq (rlit "ginc:") (ralt [rseq [PNC; dot; GS3A3_COMPONENT]; rseq [PNC; dot; star_c]; st2]).
Definition GSIN_IDPAT_URI_BODY :=
  RSeq (rlit "gsin:") (ralt [rseq [PNC; dot; PNC]; rseq [PNC; dot; star_c]; st2]).
(** regex.py:102: the last alternative is written "\*\.\*\*\.\*\.\*" there, kept as is *)
Definition ITIP_IDPAT_URI_BODY :=
  RSeq (rlit "itip:") (ralt [rseq [FOUR_PADDED_NUMERIC_COMPONENTS; dot; GS3A3_COMPONENT];
    rseq [FOUR_PADDED_NUMERIC_COMPONENTS; dot; star_c];
    rseq [PNC; dot; PNC; dot; star_c; dot; star_c; dot; star_c];
    rseq [PNC; dot; star_c; dot; star_c; dot; star_c; dot; star_c];
    rseq [star_c; dot; star_c; star_c; dot; star_c; dot; star_c]]).
Definition UPUI_IDPAT_URI_BODY :=
  RSeq (rlit "upui:") (ralt [rseq [PNC; dot; PNC; dot; GS3A3_COMPONENT];
    rseq [PNC; dot; PNC; dot; star_c]; rseq [PNC; dot; star_c; dot; star_c]; st3]).
Definition PGLN_IDPAT_URI_BODY :=
  RSeq (rlit "pgln:") (ralt [rseq [PNC; dot; PNCE]; rseq [PNC; dot; star_c]; st2]).
Definition GID_IDPAT_URI_BODY :=
  RSeq (rlit "gid:") (ralt [rseq [NC; dot; NC; dot; NC]; rseq [NC; dot; NC; dot; star_c];
    rseq [NC; dot; star_c; dot; star_c]; st3]).
Definition USDOD_IDPAT_URI_BODY :=
  RSeq (rlit "usdod:") (ralt [rseq [CAGE_CODE_OR_DODAAC; dot; NC];
    rseq [CAGE_CODE_OR_DODAAC; dot; star_c]; st2]).
Definition ADI_IDPAT_URI_BODY :=
  RSeq (rlit "adi:") (ralt [ADI_URI_BODY;
    rseq [CAGE_CODE_OR_DODAAC; dot; RStar ADI_CHAR; dot; star_c];
    rseq [CAGE_CODE_OR_DODAAC; dot; star_c; dot; star_c]; st3]).
Definition IDPAT_BODY :=
  ralt [SGTIN_IDPAT_URI_BODY; SSCC_IDPAT_URI_BODY; SGLN_IDPAT_URI_BODY; GRAI_IDPAT_URI_BODY;
        GIAI_IDPAT_URI_BODY; GSRN_IDPAT_URI_BODY; GSRNP_IDPAT_URI_BODY; GDTI_IDPAT_URI_BODY;
        CPI_IDPAT_URI_BODY; SGCN_IDPAT_URI_BODY; GINC_IDPAT_URI_BODY; GSIN_IDPAT_URI_BODY;
        ITIP_IDPAT_URI_BODY; UPUI_IDPAT_URI_BODY; PGLN_IDPAT_URI_BODY; GID_IDPAT_URI_BODY;
        USDOD_IDPAT_URI_BODY; ADI_IDPAT_URI_BODY].
Definition IDPAT_URI := RSeq (rlit "urn:epc:idpat:") IDPAT_BODY.

(** regex.py:118-140: tag URIs *)
Definition tag_body (names : list re) (body : re) : re :=
  rseq [ralt names; rchar c_colon; NC; dot; body].
Definition SGTIN_TAG_URI_BODY := tag_body [rlit "sgtin-96"; rlit "sgtin-198"] SGTIN_URI_BODY.
Definition SSCC_TAG_URI_BODY := tag_body [rlit "sscc-96"] SSCC_URI_BODY.
Definition SGLN_TAG_URI_BODY := tag_body [rlit "sgln-96"; rlit "sgln-195"] SGLN_URI_BODY.
Definition GRAI_TAG_URI_BODY := tag_body [rlit "grai-96"; rlit "grai-170"] GRAI_URI_BODY.
Definition GIAI_TAG_URI_BODY := tag_body [rlit "giai-96"; rlit "giai-202"] GIAI_URI_BODY.
Definition GSRN_TAG_URI_BODY := tag_body [rlit "gsrn-96"] GSRN_URI_BODY.
Definition GSRNP_TAG_URI_BODY := tag_body [rlit "gsrnp-96"] GSRNP_URI_BODY.
Definition GDTI_TAG_URI_BODY := tag_body [rlit "gdti-96"; rlit "gdti-174"] GDTI_URI_BODY.
Definition CPI_TAG_URI_BODY := tag_body [rlit "cpi-96"; rlit "cpi-var"] CPI_URI_BODY.
Definition SGCN_TAG_URI_BODY := tag_body [rlit "sgcn-96"] SGCN_URI_BODY.
Definition ITIP_TAG_URI_BODY := tag_body [rlit "itip-110"; rlit "itip-212"] ITIP_URI_BODY.
Definition GID_TAG_URI_BODY := rseq [rlit "gid-96"; rchar c_colon; GID_URI_BODY].
Definition USDOD_TAG_URI_BODY := tag_body [rlit "usdod-96"] USDOD_URI_BODY.
Definition ADI_TAG_URI_BODY := tag_body [rlit "adi-var"] ADI_URI_BODY.
Definition TAG_URI_BODY :=
  ralt [SGTIN_TAG_URI_BODY; SSCC_TAG_URI_BODY; SGLN_TAG_URI_BODY; GRAI_TAG_URI_BODY;
        GIAI_TAG_URI_BODY; GSRN_TAG_URI_BODY; GSRNP_TAG_URI_BODY; GDTI_TAG_URI_BODY;
        CPI_TAG_URI_BODY; SGCN_TAG_URI_BODY; ITIP_TAG_URI_BODY; GID_TAG_URI_BODY;
        USDOD_TAG_URI_BODY; ADI_TAG_URI_BODY].
Definition TAG_URI := RSeq (rlit "urn:epc:tag:") TAG_URI_BODY.

(** regex.py:142-169: GS1 element strings *)
Definition SGTIN_GS1_ELEMENT_STRING :=
  rseq [rlit "(01)"; rrep 14 DIGIT; rlit "(21)"; rrange 1 20 GS1_ELEM_CHARS].
Definition SSCC_GS1_ELEMENT_STRING := rseq [rlit "(00)"; rrep 18 DIGIT].
Definition SGLN_GS1_ELEMENT_STRING :=
  rseq [rlit "(414)"; rrep 13 DIGIT; rlit "(254)"; rrange 1 20 GS1_ELEM_CHARS].
Definition GRAI_GS1_ELEMENT_STRING :=
  rseq [rlit "(8003)0"; rrep 13 DIGIT; rrange 1 16 GS1_ELEM_CHARS].
Definition GIAI_GS1_ELEMENT_STRING :=
  rseq [rlit "(8004)"; rrange 6 12 DIGIT; rrange 1 24 GS1_ELEM_CHARS].
Definition GSRN_GS1_ELEMENT_STRING := rseq [rlit "(8018)"; rrep 18 DIGIT].
Definition GSRNP_GS1_ELEMENT_STRING := rseq [rlit "(8017)"; rrep 18 DIGIT].
Definition GDTI_GS1_ELEMENT_STRING :=
  rseq [rlit "(253)"; rrep 13 DIGIT; rrange 1 17 GS1_ELEM_CHARS].
Definition CPI_GS1_ELEMENT_STRING :=
  rseq [rlit "(8010)"; rrange 6 12 DIGIT; rrange 0 24 GS1_ELEM_CHARS_CPI; rlit "(8011)"; rrange 1 12 DIGIT].
Definition SGCN_GS1_ELEMENT_STRING :=
  rseq [rlit "(255)"; rrep 13 DIGIT; rrange 1 12 GS1_ELEM_CHARS].
Definition GINC_GS1_ELEMENT_STRING :=
  rseq [rlit "(401)"; rrange 6 12 DIGIT; rrange 1 24 GS1_ELEM_CHARS].
Definition GSIN_GS1_ELEMENT_STRING := rseq [rlit "(402)"; rrep 17 DIGIT].
Definition ITIP_GS1_ELEMENT_STRING :=
  rseq [rlit "(8006)"; rrep 18 DIGIT; rlit "(21)"; rrange 1 20 GS1_ELEM_CHARS].
Definition UPUI_GS1_ELEMENT_STRING :=
  rseq [rlit "(01)"; rrep 14 DIGIT; rlit "(235)"; rrange 1 28 GS1_ELEM_CHARS].
Definition PGLN_GS1_ELEMENT_STRING := rseq [rlit "(417)"; rrep 13 DIGIT].
Definition LGTIN_GS1_ELEMENT_STRING :=
  rseq [rlit "(01)"; rrep 14 DIGIT; rlit "(10)"; rrange 1 20 GS1_ELEM_CHARS].
Definition GS1_ELEMENT_STRING :=
  ralt [SGTIN_GS1_ELEMENT_STRING; SSCC_GS1_ELEMENT_STRING; SGLN_GS1_ELEMENT_STRING;
        GRAI_GS1_ELEMENT_STRING; GIAI_GS1_ELEMENT_STRING; GSRN_GS1_ELEMENT_STRING;
        GSRNP_GS1_ELEMENT_STRING; GDTI_GS1_ELEMENT_STRING; CPI_GS1_ELEMENT_STRING;
        SGCN_GS1_ELEMENT_STRING; GINC_GS1_ELEMENT_STRING; GSIN_GS1_ELEMENT_STRING;
        ITIP_GS1_ELEMENT_STRING; UPUI_GS1_ELEMENT_STRING; PGLN_GS1_ELEMENT_STRING;
        LGTIN_GS1_ELEMENT_STRING].
