(** Arguments of other types than the declared ones: C66.

    The first part is about runs of the source text on the machine and nothing else, as C63 and C64 are: [calls W f args kws r] and
    [invokes W v m args kws r] say that the call ends with [r]. The second part says that what C57 claims is what the source does. *)
From Coq Require Import String.
From Verif.Model Require Import Py PyFormat Syntax Machine Loader.
From Verif.Source Require Import Program World.
From Verif.Spec Require Import SpecRunTypes.
From Verif.Proofs Require RunsTypes RunsWriters RunsLengthUse.
Open Scope list_scope.

(** Every constructor raises TypeError for everything that is no text, given by position or by keyword, and from_epc_uri with it. *)
Theorem C66_constructors : forall v, ~ is_text v ->
  (forall c, In c scheme_names -> calls W (VClass c) [v] [] type_error) /\
  (forall c, In c scheme_names -> calls W (VClass c) [] [("epc_uri"%string, v)] type_error) /\
  (forall c, In c scheme_names -> invokes W (VClass c) "from_epc_uri" [v] [] type_error) /\
  (forall c, In c scheme_names -> invokes W (VClass c) "from_epc_uri" [] [("epc_uri"%string, v)] type_error).
Proof. exact RunsTypes.init_types. Qed.
Print Assumptions C66_constructors.
(** So do the methods and parsers that match their text first, whatever the other arguments are. *)
Theorem C66_matched : forall v, ~ is_text v ->
  (forall c, In c tag_names -> invokes W (VClass c) "from_tag_uri" [v] [] type_error) /\
  (forall flag c, In c tag_names -> invokes W (VClass c) "from_tag_uri" [v; flag] [] type_error) /\
  (forall l c, In c element_names -> invokes W (VClass c) "from_gs1_element_string" [v; l] [] type_error) /\
  (forall l, calls W (VFun "parsers.gs1_element_string_to_gs1_element") [v; l] [] type_error) /\
  calls W (VFun "parsers.get_gs1_key") [v] [] type_error /\
  (forall l, calls W (VFun "parsers.get_gs1_key") [v; l] [] type_error) /\
  (forall l t, calls W (VFun "parsers.get_gs1_key") [v; l] [("gtin_type"%string, t)] type_error).
Proof. exact RunsTypes.matched_types. Qed.
Print Assumptions C66_matched.
(** The parsers that split their text at colons raise AttributeError, for bytes TypeError. *)
Theorem C66_split : forall v, plain v -> forall f, In f splitting ->
  calls W (VFun ("parsers." ++ f)) [v] [] (match v with VBytes _ => type_error | _ => attribute_error end).
Proof. exact RunsTypes.split_types. Qed.
Print Assumptions C66_split.
(** Bits that are no text: TypeError; bytes are no header, which is ConvertException for the parser and KeyError for a class. *)
Theorem C66_bits : forall v, plain v ->
  calls W (VFun "parsers.binary_to_tag_encodable") [v] [] (match v with VBytes _ => Raised (XExn ConvertException) | _ => type_error end).
Proof. exact RunsTypes.binary_types. Qed.
Print Assumptions C66_bits.
Theorem C66_class_bits : forall v, plain v -> forall c, In c tag_names ->
  invokes W (VClass c) "from_binary" [v] [] (match v with VBytes _ => Raised (XExn KeyError) | _ => type_error end).
Proof. exact RunsTypes.from_binary_types. Qed.
Print Assumptions C66_class_bits.
(** Hexadecimal digits that are neither text nor bytes: TypeError. *)
Theorem C66_hex : forall v, plain v -> ~ is_bytes v ->
  calls W (VFun "common.hex_to_binary") [v] [] type_error /\ calls W (VFun "parsers.hex_to_tag_encodable") [v] [] type_error /\
  (forall c, In c tag_names -> invokes W (VClass c) "from_hex" [v] [] type_error).
Proof. exact RunsTypes.hex_types. Qed.
Print Assumptions C66_hex.

(** As length of the company prefix, True is 1, False is 0 and a member of an IntEnum its number. *)
Theorem C66_length_number : forall c s l z r, In c element_names -> number l z ->
  (invokes W (VClass c) "from_gs1_element_string" [VStr s; l] [] r <-> invokes W (VClass c) "from_gs1_element_string" [VStr s; VInt z] [] r).
Proof. exact RunsLengthUse.length_number. Qed.
Print Assumptions C66_length_number.
(** A length that is no number is never accepted: TypeError, ConvertException, or ValueError (brackets within a serial number); TypeError if
    the text can be read with some number; and ConvertException only for what is no element string with any number. *)
Theorem C66_length_refused : forall c s l, In c element_names -> no_length l -> l <> VNone ->
  exists x, invokes W (VClass c) "from_gs1_element_string" [VStr s; l] [] (Raised (XExn x)) /\ (x = TypeError \/ x = ConvertException \/ x = ValueError).
Proof. exact RunsLengthUse.length_refused. Qed.
Print Assumptions C66_length_refused.
Theorem C66_length_type_error : forall c s l n v, In c element_names -> no_length l -> l <> VNone -> class_reads_element c s n v ->
  invokes W (VClass c) "from_gs1_element_string" [VStr s; l] [] type_error.
Proof. exact RunsLengthUse.length_type_error. Qed.
Print Assumptions C66_length_type_error.
Theorem C66_length_no_element : forall c s l n, In c element_names -> no_length l -> l <> VNone ->
  invokes W (VClass c) "from_gs1_element_string" [VStr s; l] [] (Raised (XExn ConvertException)) ->
  invokes W (VClass c) "from_gs1_element_string" [VStr s; VInt n] [] (Raised (XExn ConvertException)).
Proof. exact RunsLengthUse.length_no_element. Qed.
Print Assumptions C66_length_no_element.
(** None as the length: the call ends, and only the class CPI can make an object of it. *)
Theorem C66_length_none : forall c s, In c element_names ->
  exists r, invokes W (VClass c) "from_gs1_element_string" [VStr s; VNone] [] r /\ forall v, r = Returned v -> c = "cpi.CPI"%string.
Proof. exact RunsLengthUse.length_none_run. Qed.
Print Assumptions C66_length_none.
(** which it does *)
Theorem C66_length_none_refuted :
  ~ (forall c s v, In c element_names -> ~ invokes W (VClass c) "from_gs1_element_string" [VStr s; VNone] [] (Returned v)).
Proof. exact RunsLengthUse.length_none_made. Qed.
Print Assumptions C66_length_none_refuted.

(** A coding scheme that is no member of an enumeration: AttributeError from all four methods of every object. *)
Theorem C66_coding_scheme : forall v c s f m kws, is_object v -> instance v c -> In c tag_names -> no_member s -> (exists cf nf vf, f = VEnum cf nf vf) ->
  tag_words c s f kws -> In m writers -> invokes W v m [] kws attribute_error.
Proof. exact RunsWriters.schemes. Qed.
Print Assumptions C66_coding_scheme.
(** A filter value that is none: AttributeError from binary, hex and base64. *)
Theorem C66_filter : forall v c s f m kws, is_object v -> instance v c -> In c tag_names -> c <> "gid.GID"%string ->
  In s (enum_members W (c ++ ".BinaryCodingScheme")) -> no_member f ->
  tag_words c s f kws -> In m ["binary"; "hex"; "base64"]%string -> invokes W v m [] kws attribute_error.
Proof. exact RunsWriters.filters. Qed.
Print Assumptions C66_filter.
(** A GTIN type that is None, a text or bytes: TypeError. *)
Theorem C66_gtin_type : forall v c t m, is_object v -> instance v c -> In c ["sgtin.SGTIN"; "lgtin.LGTIN"]%string -> In m ["gs1_key"; "gtin"]%string ->
  (t = VNone \/ (exists s, t = VStr s) \/ exists b, t = VBytes b) ->
  invokes W v m [] [("gtin_type"%string, t)] type_error /\ invokes W v m [t] [] type_error.
Proof. exact RunsWriters.key_types_of. Qed.
Print Assumptions C66_gtin_type.
(** from_gtin_plus_serial: a GTIN that is neither text nor bytes is AttributeError, a length that is no number TypeError. *)
Theorem C66_gtin_plus_serial : forall g s l,
  (plain g -> ~ is_bytes g -> invokes W (VClass "sgtin.SGTIN") "from_gtin_plus_serial" [g; s; l] [] attribute_error) /\
  (is_text g -> no_length l -> invokes W (VClass "sgtin.SGTIN") "from_gtin_plus_serial" [g; s; l] [] type_error).
Proof. exact RunsWriters.gtin_serial_types. Qed.
Print Assumptions C66_gtin_plus_serial.

(** Cases. *)
Definition made (st : state) : value := match drive W 15 st with StDone (Returned v) _ => v | _ => VNone end.
Definition C66_sgtin : value := Eval vm_compute in made (StCall (VClass "sgtin.SGTIN") [VStr (lit "urn:epc:id:sgtin:0614141.812345.6789")] [] false []).
Definition C66_cpi : value := Eval vm_compute in made (StCall (VClass "cpi.CPI") [VStr (lit "urn:epc:id:cpi:1234567.1234567.1")] [] false []).
Definition C66_unit_load : value := VEnum "sgtin.SGTINFilterValue" "UNIT_LOAD" (VStr (lit "6")).
Definition C66_sgtin_96 : value := VEnum "sgtin.SGTIN.BinaryCodingScheme" "SGTIN_96" (VStr (lit "sgtin-96")).
Ltac ran := exists (300 * 100)%nat; vm_compute; reflexivity.
Example C66_text_cases :
  ~ is_text VNone /\ ~ is_text C66_sgtin /\ plain C66_sgtin /\ plain (VInt 5) /\ plain (VBytes (lit "00110000")) /\
  calls W (VClass "sgtin.SGTIN") [C66_sgtin] [] type_error /\ calls W (VFun "parsers.get_gs1_key") [VInt 5] [] type_error /\
  calls W (VFun "parsers.epc_pure_identity_to_scheme") [VInt 5] [] attribute_error /\
  calls W (VFun "parsers.epc_pure_identity_to_scheme") [VBytes (lit "urn:epc:id:sgtin:0614141.812345.6789")] [] type_error /\
  calls W (VFun "parsers.binary_to_tag_encodable") [VBytes (lit "00110000")] [] (Raised (XExn ConvertException)) /\
  invokes W (VClass "sgtin.SGTIN") "from_binary" [VBytes (lit "00110000")] [] (Raised (XExn KeyError)) /\
  calls W (VFun "parsers.hex_to_tag_encodable") [VNone] [] type_error.
Proof.
  split; [intros (s & X); discriminate X|]. split; [intros (s & X); discriminate X|]. split; [cbn; auto|]. repeat (split; [exact I|]).
  repeat (split; [ran|]). ran.
Qed.
Example C66_length_cases :
  number (VBool true) 1 /\ number (VEnum "sgtin.GTIN_TYPE" "GTIN8" (VInt 8)) 8 /\ no_length (VStr (lit "7")) /\ no_length (VFloat (SpecFloat.S754_zero false)) /\
  class_reads_element "sgtin.SGTIN" (lit "(01)80614141123458(21)6789") 7 C66_sgtin /\
  invokes W (VClass "sgtin.SGTIN") "from_gs1_element_string" [VStr (lit "(01)80614141123458(21)6789"); VStr (lit "7")] [] type_error /\
  invokes W (VClass "sgtin.SGTIN") "from_gs1_element_string" [VStr (lit "(01)80614141123458(21)6789"); VNone] [] type_error /\
  invokes W (VClass "sgtin.SGTIN") "from_gs1_element_string" [VStr (lit "(01)80614141123458(21)6(ab)9"); VStr (lit "7")] [] (Raised (XExn ValueError)) /\
  invokes W (VClass "sgtin.SGTIN") "from_gs1_element_string" [VStr (lit "(00)106141412345678908"); VStr (lit "7")] [] (Raised (XExn ConvertException)) /\
  invokes W (VClass "sgtin.SGTIN") "from_gs1_element_string" [VStr (lit "(01)80614141123458(21)6789"); VBool true] [] (Raised (XExn ConvertException)) /\
  invokes W (VClass "cpi.CPI") "from_gs1_element_string" [VStr (lit "(8010)1234567(8011)1"); VNone] [] (Returned C66_cpi).
Proof. split; [exact (N_bool true)|]. split; [constructor|]. split; [exact I|]. split; [exact I|]. repeat (split; [ran|]). ran. Qed.
Example C66_writer_cases :
  is_object C66_sgtin /\ instance C66_sgtin "sgtin.SGTIN" /\ no_member (VStr (lit "sgtin-96")) /\ no_member (VInt 6) /\
  In C66_sgtin_96 (enum_members W "sgtin.SGTIN.BinaryCodingScheme") /\
  tag_words "sgtin.SGTIN" (VStr (lit "sgtin-96")) C66_unit_load [("binary_coding_scheme"%string, VStr (lit "sgtin-96")); ("filter_value"%string, C66_unit_load)] /\
  invokes W C66_sgtin "tag_uri" [] [("binary_coding_scheme"%string, VStr (lit "sgtin-96")); ("filter_value"%string, C66_unit_load)] attribute_error /\
  invokes W C66_sgtin "hex" [] [("filter_value"%string, VInt 6); ("binary_coding_scheme"%string, C66_sgtin_96)] attribute_error /\
  invokes W C66_sgtin "gs1_key" [] [("gtin_type"%string, VNone)] type_error /\
  invokes W (VClass "sgtin.SGTIN") "from_gtin_plus_serial" [VInt 80614141123458; VStr (lit "6789"); VInt 7] [] attribute_error /\
  invokes W (VClass "sgtin.SGTIN") "from_gtin_plus_serial" [VStr (lit "80614141123458"); VStr (lit "6789"); VNone] [] type_error.
Proof.
  split; [exists (lit "urn:epc:id:sgtin:0614141.812345.6789"); split; [eexists; eexists; split; reflexivity|ran]|].
  split; [eexists; reflexivity|]. split; [exact I|]. split; [exact I|]. split; [vm_compute; auto|]. split; [left; reflexivity|].
  repeat (split; [ran|]). ran.
Qed.
