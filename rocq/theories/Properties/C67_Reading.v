(** Reading a tag and the decoding procedure of the Tag Data Standard: C67.

    [tag_text k b u] (Spec/SpecReading.v): by the standard, the tag [b] of the coding scheme [k] stands for the URI [u].  These statements are
    about runs of the source ([parses], [attribute]: SpecRuns.v) and about texts; no function of the model occurs in them.
    [whole_tag k b]: bits, with the header and at least the size of the coding scheme, one of those of a fixed size. *)
From Coq Require Import String.
From Verif.Model Require Import Py PyFormat Syntax Machine.
From Verif.Model Require Parsers.
From Verif.Source Require Import Program World.
From Verif.Spec Require Import Spec SpecEscapes SpecGrammar SpecSchemes SpecLayout SpecCoding SpecReading SpecRuns.
From Verif.Proofs Require Uni TagReading TagReadingRuns.
Open Scope list_scope.

(** A tag that stands for a URI, with a text its class accepts, is read: as the object that the URI makes. *)
Theorem C67_reads : forall k b u,
  whole_tag k b -> tag_text k b u -> readable_tag k b ->
  exists v, parses "binary_to_tag_encodable" b v /\ attribute v "epc_uri" (VStr u) /\ parses "epc_pure_identity_to_scheme" u v.
Proof. exact TagReadingRuns.run_reads. Qed.
Print Assumptions C67_reads.
Definition C67_tag : str := lit "001100000111010000100101011110111111011100011001010011100100000000000000000000000001101010000101".
Definition C67_uri : str := lit "urn:epc:id:sgtin:0614141.812345.6789".
Example C67_reads_case : whole_tag K_SGTIN_96 C67_tag /\ tag_text K_SGTIN_96 C67_tag C67_uri /\ readable_tag K_SGTIN_96 C67_tag.
Proof.
  split; [split; [apply Uni.bitstring_iff; vm_compute; reflexivity|split; [reflexivity|exists 96%nat; split; [reflexivity|apply Nat.leb_le; reflexivity]]]|]. split; [|exact I].
  exists (lit "0614141.812345.6789"). split; [|reflexivity]. exists (lit "0614141"), (lit "812345"), (lit "6789"). split; [|split; [apply TagReading.plain_iff; vm_compute; reflexivity|reflexivity]].
  exists 7%nat. split; [split; [split; apply Nat.leb_le; reflexivity|split; [reflexivity|]]|]; apply TagReading.padded_iff; try (apply Nat.leb_le; reflexivity); split; vm_compute; reflexivity.
Qed.

(** Nothing else is read. *)
Theorem C67_only : forall k b v,
  whole_tag k b -> parses "binary_to_tag_encodable" b v ->
  exists u, tag_text k b u /\ readable_tag k b /\ attribute v "epc_uri" (VStr u) /\ parses "epc_pure_identity_to_scheme" u v.
Proof. exact TagReadingRuns.run_only. Qed.
Print Assumptions C67_only.

(** A tag stands for at most one URI, and reading the tag ends as reading that URI does, be it with an object or with an exception. *)
Theorem C67_one_text : forall k b u u', whole_tag k b -> tag_text k b u -> tag_text k b u' -> u = u'.
Proof. exact TagReadingRuns.text_once. Qed.
Print Assumptions C67_one_text.
Theorem C67_same : forall k b u r,
  whole_tag k b -> tag_text k b u ->
  (calls W (VFun "parsers.binary_to_tag_encodable") [VStr b] [] r <-> calls W (VFun "parsers.epc_pure_identity_to_scheme") [VStr u] [] r).
Proof. exact TagReadingRuns.run_same. Qed.
Print Assumptions C67_same.
(** a text that opens with a slash: the tag stands for a URI, and both are refused with ValueError *)
Definition C67_slash_tag : str := lit "001101100111010000100101011110111111011100011001010011100101011111100111000000000000000000000000000000000000000000000000000000000000000000000000000000000000000000000000000000000000000000000000000000".
Example C67_same_case : whole_tag K_SGTIN_198 C67_slash_tag /\ characters (codes_at C67_slash_tag 58 7 20) = lit "/g" /\
  calls W (VFun "parsers.binary_to_tag_encodable") [VStr C67_slash_tag] [] (Raised (XExn ValueError)) /\
  calls W (VFun "parsers.epc_pure_identity_to_scheme") [VStr (lit "urn:epc:id:sgtin:0614141.812345.%2Fg")] [] (Raised (XExn ValueError)).
Proof.
  split; [split; [apply Uni.bitstring_iff; vm_compute; reflexivity|split; [reflexivity|exists 198%nat; split; [reflexivity|apply Nat.leb_le; reflexivity]]]|].
  split; [vm_compute; reflexivity|]. split; exists (300 * 100)%nat; vm_compute; reflexivity.
Qed.

(** A tag that stands for no URI is refused with ConvertException. *)
Theorem C67_refuses : forall k b,
  whole_tag k b -> (forall u, ~ tag_text k b u) -> calls W (VFun "parsers.binary_to_tag_encodable") [VStr b] [] (Raised (XExn ConvertException)).
Proof. exact TagReadingRuns.run_refuses. Qed.
Print Assumptions C67_refuses.
(** a company prefix of seven digits with the number 16777215 *)
Definition C67_wide_tag : str := lit "001100000111011111111111111111111111111100011001010011100100000000000000000000000001101010000101".
Example C67_refuses_case : whole_tag K_SGTIN_96 C67_wide_tag /\ forall u, ~ tag_text K_SGTIN_96 C67_wide_tag u.
Proof.
  split; [split; [apply Uni.bitstring_iff; vm_compute; reflexivity|split; [reflexivity|exists 96%nat; split; [reflexivity|apply Nat.leb_le; reflexivity]]]|].
  intros u (s & (cp & ref & v & (n & (Hn & P & C) & _) & _) & _). assert (E : n = 7%nat).
  { apply TagReading.partition_value_inj; [exact Hn|split; apply Nat.leb_le; reflexivity|]. rewrite <- P. vm_compute. reflexivity. }
  subst n. apply TagReading.padded_iff in C as [C _]; [|apply Nat.leb_le; reflexivity]. vm_compute in C. discriminate C.
Qed.

(** The standard has the text of a tag end with its first zero character.  The library skips zero characters wherever they stand: two tags with
    different texts are read as the same object. *)
Definition C67_gap_tag : str := lit "001101100111010000100101011110111111011100011001010011100111000010000000110001000000000000000000000000000000000000000000000000000000000000000000000000000000000000000000000000000000000000000000000000".
Definition C67_end_tag : str := lit "001101100111010000100101011110111111011100011001010011100111000011100010000000000000000000000000000000000000000000000000000000000000000000000000000000000000000000000000000000000000000000000000000000".
Theorem C67_zeros_only_at_the_end_refuted : exists v,
  whole_tag K_SGTIN_198 C67_gap_tag /\ whole_tag K_SGTIN_198 C67_end_tag /\
  codes_at C67_gap_tag 58 7 3 = [97; 0; 98]%N /\ codes_at C67_end_tag 58 7 3 = [97; 98; 0]%N /\
  parses "binary_to_tag_encodable" C67_gap_tag v /\ parses "binary_to_tag_encodable" C67_end_tag v /\ attribute v "epc_uri" (VStr (lit "urn:epc:id:sgtin:0614141.812345.ab")).
Proof. exact TagReadingRuns.gap_tag. Qed.
Print Assumptions C67_zeros_only_at_the_end_refuted.
