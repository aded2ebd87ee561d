(** Writing a tag, and what other readers of tags make of it: C69.

    [stands_for k b u] (Spec/SpecWriting.v): by the decoding procedure of the Tag Data Standard the bits [b] are a tag of the coding scheme [k],
    no bit too long, that stands for the URI [u].  The statements are about runs of the source and about texts; no function of the model occurs
    in them. *)
From Coq Require Import String.
From Verif.Model Require Import Py PyFormat Syntax Machine.
From Verif.Source Require Import Program World.
From Verif.Spec Require Import Spec SpecEscapes SpecGrammar SpecSchemes SpecLayout SpecCoding SpecReading SpecVarReading SpecRuns SpecWriting.
From Verif.Proofs Require TagWriting.
Open Scope list_scope.

(** Where [tag_uri] returns, [binary] returns a tag of the coding scheme that was asked for; it stands for the URI of the object and carries the
    filter value that was asked for (GID has none). *)
Theorem C69_stands : forall u v kws t,
  parses "epc_pure_identity_to_scheme" u v -> tag_keywords v kws -> answers v "tag_uri" kws (VStr t) -> standard_safe u ->
  exists k b, answers v "binary" kws (VStr b) /\ asks_coding kws k /\ stands_for k b u /\
    (k <> K_GID_96 -> exists n, asks_filter kws n /\ carries_filter k b n).
Proof. exact TagWriting.all_stand. Qed.
Print Assumptions C69_stands.
Definition C69_uri : str := lit "urn:epc:id:adi:2S194.TAIL-03.6789".
Definition C69_object : value := VObj "adi.ADI"
  [("epc_uri"%string, VStr C69_uri); ("_base64"%string, VNone); ("_binary"%string, VNone); ("_hex"%string, VNone); ("_tag_uri"%string, VNone);
   ("_cage_dodaac"%string, VStr (lit "2S194")); ("_part_number"%string, VStr (lit "TAIL-03")); ("_serial"%string, VStr (lit "6789"))].
Definition C69_keywords : list (string * value) :=
  [("binary_coding_scheme"%string, VEnum "adi.ADI.BinaryCodingScheme" "ADI_VAR" (VStr (lit "adi-var")));
   ("filter_value"%string, VEnum "adi.ADIFilterValue" "PALLET" (VStr (lit "6")))].
Example C69_stands_case :
  parses "epc_pure_identity_to_scheme" C69_uri C69_object /\ tag_keywords C69_object C69_keywords /\
  answers C69_object "tag_uri" C69_keywords (VStr (lit "urn:epc:tag:adi-var:6.2S194.TAIL-03.6789")) /\ standard_safe C69_uri.
Proof. exact TagWriting.tail_case. Qed.

(** A tag stands for at most one URI, as a tag of one coding scheme; *)
Theorem C69_once : forall k b u k' u', stands_for k b u -> stands_for k' b u' -> k = k' /\ u = u'.
Proof. exact TagWriting.stands_once. Qed.
Print Assumptions C69_once.
(** so that different objects are never written as the same tag, whatever their classes, coding schemes and filter values. *)
Theorem C69_distinct : forall u u' v v' kws kws' t t' b,
  parses "epc_pure_identity_to_scheme" u v -> tag_keywords v kws -> answers v "tag_uri" kws (VStr t) -> standard_safe u -> answers v "binary" kws (VStr b) ->
  parses "epc_pure_identity_to_scheme" u' v' -> tag_keywords v' kws' -> answers v' "tag_uri" kws' (VStr t') -> standard_safe u' -> answers v' "binary" kws' (VStr b) ->
  u = u'.
Proof. exact TagWriting.distinct. Qed.
Print Assumptions C69_distinct.

(** That the library reads every tag that it writes and that stands for its URI is false: the tag of the example is refused. *)
Theorem C69_own_reader_refuted : exists u v kws t k b,
  parses "epc_pure_identity_to_scheme" u v /\ tag_keywords v kws /\ answers v "tag_uri" kws (VStr t) /\ standard_safe u /\
  answers v "binary" kws (VStr b) /\ stands_for k b u /\ calls W (VFun "parsers.binary_to_tag_encodable") [VStr b] [] (Raised (XExn ConvertException)).
Proof. exact TagWriting.own_reader. Qed.
Print Assumptions C69_own_reader_refuted.
