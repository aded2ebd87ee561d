(** What [tag_uri] returns and when, and what [binary] then returns: C70.

    The statements are about runs of the source and about texts; [has_room], [tag_spelling] (Spec/SpecTagUri.v) and [stands_for]
    (Spec/SpecWriting.v) use no function of the model. *)
From Coq Require Import String.
From Verif.Model Require Import Py PyFormat Syntax Machine.
From Verif.Source Require Import Program World.
From Verif.Spec Require Import Spec SpecEscapes SpecGrammar SpecSchemes SpecTags SpecLayout SpecCoding SpecReading SpecVarReading SpecRuns SpecWriting SpecTagUri.
From Verif.Proofs Require TagUriRuns.
Open Scope list_scope.

(** The keywords ask for exactly one coding scheme, one for the URI of the object.  Where it has room for the URI, [tag_uri] returns the tag URI of
    the standard, and [binary] the tag that stands for the URI; where it has not, [tag_uri] raises ConvertException. *)
Theorem C70_contract : forall u v kws, parses "epc_pure_identity_to_scheme" u v -> tag_keywords v kws ->
  exists k rest, asks_coding kws k /\ (forall k', asks_coding kws k' -> k' = k) /\ u = uri_start k ++ rest /\
    (has_room k u -> exists t, answers v "tag_uri" kws (VStr t) /\ tag_spelling k kws u t) /\
    (has_room k u -> standard_safe u -> exists b, answers v "binary" kws (VStr b) /\ stands_for k b u /\
       (k <> K_GID_96 -> exists n, asks_filter kws n /\ carries_filter k b n)) /\
    (~ has_room k u -> invokes W v "tag_uri" [] kws (Raised (XExn ConvertException))).
Proof. exact TagUriRuns.whole_contract. Qed.
Print Assumptions C70_contract.

Definition C70_uri (serial : str) : str := lit "urn:epc:id:sgtin:0614141.812345." ++ serial.
Definition C70_object (serial : str) : value := VObj "sgtin.SGTIN"
  [("epc_uri"%string, VStr (C70_uri serial)); ("_base64"%string, VNone); ("_binary"%string, VNone); ("_hex"%string, VNone); ("_tag_uri"%string, VNone);
   ("_company_pref"%string, VStr (lit "0614141")); ("_item_ref"%string, VStr (lit "812345")); ("_serial"%string, VStr serial);
   ("_gtin"%string, VStr (lit "80614141123458"))].
Definition C70_keywords : list (string * value) :=
  [("filter_value"%string, VEnum "sgtin.SGTINFilterValue" "FULL_CASE" (VStr (lit "2")));
   ("binary_coding_scheme"%string, VEnum "sgtin.SGTIN.BinaryCodingScheme" "SGTIN_96" (VStr (lit "sgtin-96")))].
Example C70_room_case :
  parses "epc_pure_identity_to_scheme" (C70_uri (lit "7")) (C70_object (lit "7")) /\ tag_keywords (C70_object (lit "7")) C70_keywords /\
  asks_coding C70_keywords K_SGTIN_96 /\ has_room K_SGTIN_96 (C70_uri (lit "7")).
Proof. exact TagUriRuns.seven_case. Qed.
Example C70_safe_case : standard_safe (C70_uri (lit "7")).
Proof. exact TagUriRuns.seven_safe. Qed.
Example C70_no_room_case :
  parses "epc_pure_identity_to_scheme" (C70_uri (lit "007")) (C70_object (lit "007")) /\ tag_keywords (C70_object (lit "007")) C70_keywords /\
  asks_coding C70_keywords K_SGTIN_96 /\ ~ has_room K_SGTIN_96 (C70_uri (lit "007")).
Proof. exact TagUriRuns.zeros_case. Qed.

(** That [binary] refuses what [tag_uri] refuses is false: it returns the tag that stands for another URI, which is also written as that tag. *)
Theorem C70_unchecked_refuted : exists u u' v v' kws k b, u <> u' /\
  parses "epc_pure_identity_to_scheme" u v /\ tag_keywords v kws /\ asks_coding kws k /\ ~ has_room k u /\
  invokes W v "tag_uri" [] kws (Raised (XExn ConvertException)) /\ answers v "binary" kws (VStr b) /\
  parses "epc_pure_identity_to_scheme" u' v' /\ tag_keywords v' kws /\ has_room k u' /\ answers v' "binary" kws (VStr b) /\ stands_for k b u'.
Proof. exact TagUriRuns.unchecked. Qed.
Print Assumptions C70_unchecked_refuted.
