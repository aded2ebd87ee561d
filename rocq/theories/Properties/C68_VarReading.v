(** Reading tags of no fixed size, CPI-var and ADI-var, and the decoding procedure of the Tag Data Standard: C68.

    [var_tag b u] (Spec/SpecVarReading.v): by the standard the tag [b] stands for the URI [u]; of ADI tags, those whose part number holds no six
    zeros across two of its characters.  The statements are about runs of the source and about texts; no function of the model occurs in them. *)
From Coq Require Import String.
From Verif.Model Require Import Py PyFormat Syntax Machine.
From Verif.Model Require Parsers.
From Verif.Source Require Import Program World.
From Verif.Spec Require Import Spec SpecEscapes SpecGrammar SpecSchemes SpecLayout SpecCoding SpecReading SpecVarReading SpecRuns.
From Verif.Proofs Require VarReading VarReadingRuns.
Open Scope list_scope.

(** A tag that stands for a URI within the limits of its class is read as the object that the URI makes; *)
Theorem C68_reads : forall b u,
  var_tag b u -> readable_var b ->
  exists v, parses "binary_to_tag_encodable" b v /\ attribute v "epc_uri" (VStr u) /\ parses "epc_pure_identity_to_scheme" u v.
Proof. exact VarReadingRuns.var_reads. Qed.
Print Assumptions C68_reads.
Example C68_cpi_case : let b := lit "001111010001010000100101011110111111011101010100000100011101111011110110101101001100110000000000000000000000000000000011000000111001" in
  var_tag b (lit "urn:epc:id:cpi:0614141.5PQ7%2FZ43.12345") /\ readable_var b.
Proof. exact VarReadingRuns.cpi_case. Qed.
Example C68_adi_case : let b := lit "00111011000011100000110010010011110001111001110100010000110001001110110011000000100011110110110111111000111001000000" in
  var_tag b (lit "urn:epc:id:adi:2S194.P1N3.%236789") /\ readable_var b.
Proof. exact VarReadingRuns.adi_case. Qed.

(** only then; *)
Theorem C68_only : forall b u v,
  var_tag b u -> parses "binary_to_tag_encodable" b v -> readable_var b /\ attribute v "epc_uri" (VStr u).
Proof. exact VarReadingRuns.var_only. Qed.
Print Assumptions C68_only.

(** a tag stands for at most one URI, and reading the tag ends as reading the URI does, be it with an object or with an exception. *)
Theorem C68_one_text : forall b u u', var_tag b u -> var_tag b u' -> u = u'.
Proof. exact VarReading.var_once. Qed.
Print Assumptions C68_one_text.
Theorem C68_same : forall b u r,
  var_tag b u ->
  (calls W (VFun "parsers.binary_to_tag_encodable") [VStr b] [] r <-> calls W (VFun "parsers.epc_pure_identity_to_scheme") [VStr u] [] r).
Proof. exact VarReadingRuns.var_same. Qed.
Print Assumptions C68_same.

(** That other tags are refused is false.  A CPI-var tag whose reference is not closed is read with the serial 0; *)
Theorem C68_unclosed_reference_refuted : let b := lit "00111101000101000010010101111011111101110101010000010001110111011010110100110011" in
  bitstring b /\ firstn 8 b = tag_header K_CPI_VAR /\ (forall u, ~ var_tag b u) /\
  exists v, parses "binary_to_tag_encodable" b v /\ attribute v "epc_uri" (VStr (lit "urn:epc:id:cpi:0614141.5PQ7Z43.0")).
Proof. exact VarReadingRuns.unclosed_cpi. Qed.
Print Assumptions C68_unclosed_reference_refuted.
(** one whose serial has fewer than 40 bits is read with those there are; *)
Theorem C68_short_serial_refuted : let b := lit "0011110100010100001001010111101111110111010101000001000111011101101011010011001100000000000011000000111001" in
  bitstring b /\ firstn 8 b = tag_header K_CPI_VAR /\ (forall u, ~ var_tag b u) /\
  exists v, parses "binary_to_tag_encodable" b v /\ attribute v "epc_uri" (VStr (lit "urn:epc:id:cpi:0614141.5PQ7Z43.12345")).
Proof. exact VarReadingRuns.short_cpi. Qed.
Print Assumptions C68_short_serial_refuted.
(** an ADI-var tag whose serial, here 6789, is not closed is read without the last character. *)
Theorem C68_unclosed_serial_refuted : let b := lit "00111011000011100000110010010011110001111001110100010000110001001110110011000000110110110111111000111001" in
  bitstring b /\ firstn 8 b = tag_header K_ADI_VAR /\
  closed_text b 50 (lit "P1N3") /\ codes_at b 80 6 4 = map code_six (lit "6789") /\ (forall u, ~ var_tag b u) /\
  exists v, parses "binary_to_tag_encodable" b v /\ attribute v "epc_uri" (VStr (lit "urn:epc:id:adi:2S194.P1N3.678")).
Proof. exact VarReadingRuns.lost_adi. Qed.
Print Assumptions C68_unclosed_serial_refuted.
(** That every ADI-var tag with the fields of the standard is read is false, too: the part number TAIL-03 holds seven zeros across T and A. *)
Theorem C68_early_zeros_refuted : let b := lit "00111011000011100000110010010011110001111001110100010100000001001001001100101101110000110011000000110110110111111000111001000000" in
  bitstring b /\ firstn 8 b = tag_header K_ADI_VAR /\ adi_var_fields b (lit "2S194") (lit "TAIL-03") (lit "6789") /\
  calls W (VFun "parsers.binary_to_tag_encodable") [VStr b] [] (Raised (XExn ConvertException)) /\
  exists v, parses "epc_pure_identity_to_scheme" (lit "urn:epc:id:adi:2S194.TAIL-03.6789") v.
Proof. exact VarReadingRuns.early_adi. Qed.
Print Assumptions C68_early_zeros_refuted.
