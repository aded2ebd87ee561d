(** Which tags the library reads as the object they were written for: C71.

    The statements are about runs of the source and about texts; [comes_back] (Spec/SpecBack.v) uses no function of the library: [escape] in
    [canonical_text] is that of Spec/Spec.v. *)
From Coq Require Import String.
From Verif.Model Require Import Py PyFormat Syntax Machine.
From Verif.Source Require Import Program World.
From Verif.Spec Require Import Spec SpecEscapes SpecGrammar SpecSchemes SpecTags SpecLayout SpecCoding SpecReading SpecVarReading SpecRuns SpecWriting SpecBack.
From Verif.Proofs Require TagBack TagUriRuns.
Open Scope list_scope.

(** [binary] returns bits that [binary_to_tag_encodable] reads as an equal object exactly for the URIs that [comes_back] describes. *)
Theorem C71_back_exactly : forall u v kws k,
  parses "epc_pure_identity_to_scheme" u v -> tag_keywords v kws -> asks_coding kws k ->
  ((exists b, answers v "binary" kws (VStr b) /\ bitstring b /\ parses "binary_to_tag_encodable" b v) <-> comes_back k u).
Proof. exact TagBack.back_exactly. Qed.
Print Assumptions C71_back_exactly.

Definition C71_uri (serial : str) : str := lit "urn:epc:id:sgtin:0614141.812345." ++ serial.
Definition C71_object (serial : str) : value := VObj "sgtin.SGTIN"
  [("epc_uri"%string, VStr (C71_uri serial)); ("_base64"%string, VNone); ("_binary"%string, VNone); ("_hex"%string, VNone); ("_tag_uri"%string, VNone);
   ("_company_pref"%string, VStr (lit "0614141")); ("_item_ref"%string, VStr (lit "812345")); ("_serial"%string, VStr serial);
   ("_gtin"%string, VStr (lit "80614141123458"))].
Definition C71_keywords : list (string * value) :=
  [("filter_value"%string, VEnum "sgtin.SGTINFilterValue" "FULL_CASE" (VStr (lit "2")));
   ("binary_coding_scheme"%string, VEnum "sgtin.SGTIN.BinaryCodingScheme" "SGTIN_96" (VStr (lit "sgtin-96")))].
Example C71_made_case : parses "epc_pure_identity_to_scheme" (C71_uri (lit "7")) (C71_object (lit "7")).
Proof. exact (proj1 TagUriRuns.seven_case). Qed.
Example C71_made_zeros_case : parses "epc_pure_identity_to_scheme" (C71_uri (lit "007")) (C71_object (lit "007")).
Proof. exact (proj1 TagUriRuns.zeros_case). Qed.
Example C71_keywords_case : forall serial, tag_keywords (C71_object serial) C71_keywords.
Proof. exact TagUriRuns.case_keys. Qed.
Example C71_asks_case : asks_coding C71_keywords K_SGTIN_96.
Proof. exact TagUriRuns.case_asks. Qed.
Example C71_back_case : comes_back K_SGTIN_96 (C71_uri (lit "7")).
Proof. exact TagBack.seven_back. Qed.
Example C71_not_back_case : ~ comes_back K_SGTIN_96 (C71_uri (lit "007")).
Proof. exact TagBack.zeros_not_back. Qed.

(** That a tag comes back wherever [tag_uri] returns is false: an escape spelled %2f is read as %2F. *)
Theorem C71_accepted_refuted : exists u v v' kws t b, v <> v' /\ parses "epc_pure_identity_to_scheme" u v /\ tag_keywords v kws /\
  answers v "tag_uri" kws (VStr t) /\ answers v "binary" kws (VStr b) /\ bitstring b /\ parses "binary_to_tag_encodable" b v'.
Proof. exact TagBack.spelled_otherwise. Qed.
Print Assumptions C71_accepted_refuted.

(** That a tag comes back only where [tag_uri] returns is false too: [tag_uri] allows the part reference of a CPI-96 fewer digits than its bits hold. *)
Theorem C71_refused_refuted : exists u v kws b, parses "epc_pure_identity_to_scheme" u v /\ tag_keywords v kws /\
  invokes W v "tag_uri" [] kws (Raised (XExn ConvertException)) /\ answers v "binary" kws (VStr b) /\ bitstring b /\
  parses "binary_to_tag_encodable" b v.
Proof. exact TagBack.refused_yet_back. Qed.
Print Assumptions C71_refused_refuted.

(** That only bits are read is false: the serial -7 is written with a minus sign among the bits, and what is written is read as the same object. *)
Theorem C71_bits_refuted : exists u v kws b, parses "epc_pure_identity_to_scheme" u v /\ tag_keywords v kws /\
  answers v "binary" kws (VStr b) /\ ~ bitstring b /\ parses "binary_to_tag_encodable" b v.
Proof. exact TagBack.signed_back. Qed.
Print Assumptions C71_bits_refuted.
