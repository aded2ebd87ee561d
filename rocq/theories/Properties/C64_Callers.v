(** What a caller of the scheme classes sees: C64.

    As in C63 these statements are about runs of the source text on the machine and about texts; no function of the model occurs in them.
    [constructs c u v]: [c(u)] returns [v]; [class_reads c m s v]: [c.m(s)] returns [v]; [method_ends v m args kws good bad]: [v.m(args, kws)]
    ends with a value that [good] allows or an exception that [bad] allows (SpecCallers.v). *)
From Coq Require Import String.
From Verif.Model Require Import Py PyFormat Syntax Machine Loader.
From Verif.Source Require Import Program World.
From Verif.Spec Require Import Spec SpecEscapes SpecGrammar SpecSchemes SpecLayout SpecElements SpecErrors SpecHex SpecCallers.
From Verif.Proofs Require RunsClasses.

(** Every constructor ends for every text, and from_epc_uri with it: with an object of the class that keeps the text as its URI and that
    the parser makes of it too, or with ConvertException, ValueError or OverflowError. *)
Theorem C64_constructors : forall c u, In c scheme_names ->
  exists r, calls W (VClass c) [VStr u] [] r /\ invokes W (VClass c) "from_epc_uri" [VStr u] [] r /\
    match r with
    | Returned v => instance v c /\ attribute v "epc_uri" (VStr u) /\ parses "epc_pure_identity_to_scheme" u v
    | Raised (XExn x) => refused x
    | Raised _ => False
    end.
Proof. exact RunsClasses.constructors. Qed.
Print Assumptions C64_constructors.
(** A constructor makes what the parser makes, where that is an object of its class, and nothing else. *)
Theorem C64_constructor_is_parser : forall c u v, In c scheme_names ->
  (constructs c u v <-> parses "epc_pure_identity_to_scheme" u v /\ instance v c).
Proof. exact RunsClasses.constructor_parser. Qed.
Print Assumptions C64_constructor_is_parser.

(** from_tag_uri, from_binary, from_hex and from_base64 of every class end for every text: with an object of the class that its own URI
    makes again, or with an exception of the list; KeyError is for bits with the header of another class. *)
Theorem C64_readers_end : forall c m f p s, In c tag_names -> reader m f p -> p s ->
  method_ends (VClass c) m [VStr s] [] (object_of c) (fun x => refused x \/ (x = KeyError /\ m <> "from_tag_uri"%string)).
Proof. exact RunsClasses.readers_end. Qed.
Print Assumptions C64_readers_end.
(** A class reads what the parser for all classes reads, where that is an object of the class, and nothing else. *)
Theorem C64_reader_is_parser : forall c m f p s v, In c tag_names -> reader m f p -> p s ->
  (class_reads c m s v <-> parses f s v /\ instance v c).
Proof. exact RunsClasses.reader_parser. Qed.
Print Assumptions C64_reader_is_parser.
(** the same for GS1 element strings, with every number as length of the company prefix *)
Theorem C64_elements_end : forall c s n, In c element_names ->
  method_ends (VClass c) "from_gs1_element_string" [VStr s; VInt n] [] (object_of c) refused.
Proof. exact RunsClasses.elements_end. Qed.
Print Assumptions C64_elements_end.
Theorem C64_element_reader_is_parser : forall c s n v, In c element_names ->
  (class_reads_element c s n v <->
   calls W (VFun "parsers.gs1_element_string_to_gs1_element") [VStr s; VInt n] [] (Returned v) /\ instance v c).
Proof. exact RunsClasses.element_parser. Qed.
Print Assumptions C64_element_reader_is_parser.

(** The methods that write end on every object: with a text, or with the exceptions named here. *)
Theorem C64_tag_writers_end : forall v kws, is_object v -> tag_keywords v kws ->
  method_ends v "tag_uri" [] kws is_text (eq ConvertException) /\
  method_ends v "binary" [] kws is_text (fun x => x = ConvertException \/ x = ValueError) /\
  ((forall b, answers v "binary" kws (VStr b) -> fits (length b)) ->
   method_ends v "hex" [] kws is_text (fun x => x = ConvertException \/ x = ValueError) /\
   method_ends v "base64" [] kws is_text (fun x => x = ConvertException \/ x = ValueError)).
Proof. exact RunsClasses.tag_writers. Qed.
Print Assumptions C64_tag_writers_end.
Theorem C64_element_writers_end : forall v c, is_object v -> instance v c -> In c element_names ->
  method_ends v "gs1_element_string" [] [] is_text (fun x => x = IndexError /\ c = "upui.UPUI"%string).
Proof. exact RunsClasses.element_writers. Qed.
Print Assumptions C64_element_writers_end.
(** gs1_key() always returns; with a GTIN type, SGTIN and LGTIN may refuse it by ConvertException and the other classes do not take it *)
Theorem C64_key_writers_end : forall v c kws, is_object v -> instance v c -> In c keyed_names -> gtin_keyword kws ->
  method_ends v "gs1_key" [] kws is_text
    (fun x => kws <> [] /\ if in_dec string_dec c ["sgtin.SGTIN"; "lgtin.LGTIN"]%string then x = ConvertException else x = TypeError).
Proof. exact RunsClasses.key_writers. Qed.
Print Assumptions C64_key_writers_end.

(** What an object writes, its own class reads back as the same object, attribute by attribute. *)
Theorem C64_class_reads_back : forall u v c kws t,
  parses "epc_pure_identity_to_scheme" u v -> instance v c -> In c tag_names -> tag_keywords v kws ->
  answers v "tag_uri" kws (VStr t) -> tag_safe u ->
  constructs c u v /\ class_reads c "from_tag_uri" t v /\
  exists b h s, answers v "binary" kws (VStr b) /\ answers v "hex" kws (VStr h) /\ answers v "base64" kws (VStr s) /\
    class_reads c "from_binary" b v /\ class_reads c "from_hex" h v /\ class_reads c "from_base64" s v.
Proof. exact RunsClasses.class_back. Qed.
Print Assumptions C64_class_reads_back.
Theorem C64_class_reads_element_back : forall u v c cp,
  parses "epc_pure_identity_to_scheme" u v -> instance v c -> In c element_names -> element_safe u cp ->
  exists g, answers v "gs1_element_string" [] (VStr g) /\ class_reads_element c g (Z.of_nat (length cp)) v.
Proof. exact RunsClasses.element_back. Qed.
Print Assumptions C64_class_reads_element_back.

(** Runs of each kind. The hypotheses of the theorems about objects are met by the object of [C63_object_case] and [C63_element_case]. *)
Definition made (st : state) : value := match drive W 15 st with StDone (Returned v) _ => v | _ => VNone end.
Definition C64_sscc : value := Eval vm_compute in made (StCall (VClass "sscc.SSCC") [VStr (lit "urn:epc:id:sscc:0614141.1234567890")] [] false []).
Definition C64_sgtin : value := Eval vm_compute in made (StCall (VClass "sgtin.SGTIN") [VStr (lit "urn:epc:id:sgtin:0614141.812345.6789")] [] false []).
Definition C64_letters : value := Eval vm_compute in made (StCall (VClass "sgtin.SGTIN") [VStr (lit "urn:epc:id:sgtin:0614141.812345.ab")] [] false []).
Definition C64_upui : value := Eval vm_compute in made (StCall (VClass "upui.UPUI") [VStr (lit "urn:epc:id:upui:1234567890123..1")] [] false []).
Definition C64_keywords : list (string * value) :=
  [("filter_value"%string, VEnum "sgtin.SGTINFilterValue" "UNIT_LOAD" (VStr (lit "6")));
   ("binary_coding_scheme"%string, VEnum "sgtin.SGTIN.BinaryCodingScheme" "SGTIN_96" (VStr (lit "sgtin-96")))].
Definition C64_gtin : list (string * value) := [("gtin_type"%string, VEnum "sgtin.GTIN_TYPE" "GTIN13" (VInt 13))].
Example C64_constructors_case :
  constructs "sscc.SSCC" (lit "urn:epc:id:sscc:0614141.1234567890") C64_sscc /\ instance C64_sscc "sscc.SSCC" /\ is_object C64_sscc /\
  calls W (VClass "sscc.SSCC") [VStr (lit "urn:epc:id:sgtin:0614141.812345.6789")] [] (Raised (XExn ConvertException)) /\
  calls W (VClass "sgtin.SGTIN") [VStr (lit "urn:epc:id:sgtin:0614141.812345.%2Fxyz")] [] (Raised (XExn ValueError)).
Proof.
  split; [exists (300 * 100)%nat; vm_compute; reflexivity|]. split; [eexists; reflexivity|].
  split; [exists (lit "urn:epc:id:sscc:0614141.1234567890"); split; [eexists; eexists; split; reflexivity|exists (300 * 100)%nat; vm_compute; reflexivity]|].
  split; exists (300 * 100)%nat; vm_compute; reflexivity.
Qed.
Example C64_readers_case :
  class_reads "sgtin.SGTIN" "from_hex" (lit "3074257BF7194E4000001A85") C64_sgtin /\ instance C64_sgtin "sgtin.SGTIN" /\
  parses "hex_to_tag_encodable" (lit "3074257BF7194E4000001A85") C64_sgtin /\
  invokes W (VClass "sscc.SSCC") "from_hex" [VStr (lit "3074257BF7194E4000001A85")] [] (Raised (XExn KeyError)) /\
  invokes W (VClass "sscc.SSCC") "from_tag_uri" [VStr (lit "urn:epc:tag:sgtin-96:3.0614141.812345.6789")] [] (Raised (XExn ConvertException)) /\
  invokes W (VClass "sgtin.SGTIN") "from_base64" [VStr (lit "M")] [] (Raised (XExn ValueError)).
Proof.
  split; [exists (300 * 100)%nat; vm_compute; reflexivity|]. split; [eexists; reflexivity|].
  repeat split; exists (300 * 100)%nat; vm_compute; reflexivity.
Qed.
Example C64_elements_case :
  class_reads_element "sscc.SSCC" (lit "(00)106141412345678908") 7 C64_sscc /\
  answers C64_sscc "gs1_element_string" [] (VStr (lit "(00)106141412345678908")) /\ answers C64_sscc "gs1_key" [] (VStr (lit "106141412345678908")) /\
  gtin_keyword C64_gtin /\ invokes W C64_sscc "gs1_key" [] C64_gtin (Raised (XExn TypeError)) /\
  invokes W C64_sgtin "gs1_key" [] C64_gtin (Raised (XExn ConvertException)) /\
  invokes W (VClass "sscc.SSCC") "from_gs1_element_string" [VStr (lit "(01)80614141123458(21)6789"); VInt 7] [] (Raised (XExn ConvertException)).
Proof.
  repeat (split; [exists (300 * 100)%nat; vm_compute; reflexivity|]). split.
  { right. exists "sgtin.GTIN_TYPE"%string. exists (VEnum "sgtin.GTIN_TYPE" "GTIN13" (VInt 13)). split; [left; reflexivity|]. split; [|reflexivity]. vm_compute. auto 10. }
  repeat split; exists (300 * 100)%nat; vm_compute; reflexivity.
Qed.
(** the exceptions of the methods: letters do not fit in SGTIN-96; a UPUI without an indicator digit has no element string *)
Example C64_writers_case :
  constructs "sgtin.SGTIN" (lit "urn:epc:id:sgtin:0614141.812345.ab") C64_letters /\ tag_keywords C64_letters C64_keywords /\
  invokes W C64_letters "tag_uri" [] C64_keywords (Raised (XExn ConvertException)) /\
  invokes W C64_letters "binary" [] C64_keywords (Raised (XExn ValueError)) /\
  invokes W C64_letters "hex" [] C64_keywords (Raised (XExn ValueError)) /\
  constructs "upui.UPUI" (lit "urn:epc:id:upui:1234567890123..1") C64_upui /\
  invokes W C64_upui "gs1_element_string" [] [] (Raised (XExn IndexError)).
Proof.
  split; [exists (300 * 100)%nat; vm_compute; reflexivity|]. split.
  { exists "sgtin.SGTIN"%string. eexists. split; [eexists; reflexivity|]. split; [vm_compute; left; reflexivity|].
    eexists. split; [|right; reflexivity]. vm_compute. auto 10. }
  repeat split; exists (300 * 100)%nat; vm_compute; reflexivity.
Qed.
