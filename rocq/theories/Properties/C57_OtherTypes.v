(** Arguments of other types than the declared ones: C57. *)
From Coq Require Import String.
From Verif.Model Require Import Py Common Base.
From Verif.Model Require Import Adi Cpi Gdti Giai Gid Grai Gsrn Gsrnp Itip Lgtin Sgcn Sgln Sgtin Sscc Usdod Others Parsers Calls Registry Dynamic.
From Verif.Spec Require Import Spec SpecGrammar SpecSchemes SpecTags SpecElements SpecCalls SpecDynamic.
From Verif.Proofs Require Import Dynamic.

(** * With the declared types, the calls are those of the typed model *)

Theorem C57_declared_texts : forall s,
  (forall c, dyn_init c (V_str s) = known (init_of c s)) /\
  dyn_pure_identity_to_scheme (V_str s) = known (epc_pure_identity_to_scheme s) /\
  dyn_pure_identity_to_gs1_element (V_str s) = known (epc_pure_identity_to_gs1_element s) /\
  dyn_pure_identity_to_gs1_element_string (V_str s) = known (epc_pure_identity_to_gs1_element_string s) /\
  dyn_pure_identity_to_gs1_keyed (V_str s) = known (epc_pure_identity_to_gs1_keyed s) /\
  dyn_pure_identity_to_tag_encodable (V_str s) = known (epc_pure_identity_to_tag_encodable s) /\
  dyn_tag_uri_to_tag_encodable (V_str s) = known (tag_uri_to_tag_encodable s) /\
  (forall c, dyn_from_tag_uri c (V_str s) None = known (from_tag_uri_of c s)) /\
  dyn_binary_to_tag_encodable (V_str s) = known (binary_to_tag_encodable s) /\
  (forall c, dyn_from_binary c (V_str s) = known (from_binary_of c s)) /\
  dyn_hex_to_binary (V_str s) = known (hex_to_binary s) /\
  dyn_hex_to_tag_encodable (V_str s) = known (hex_to_tag_encodable s) /\
  (forall c, dyn_from_hex c (V_str s) = known (from_hex (from_binary_of c) s)) /\
  dyn_base64_to_hex (V_str s) = known (base64_to_hex s) /\
  dyn_base64_to_tag_encodable (V_str s) = known (base64_to_tag_encodable s) /\
  (forall c, dyn_from_base64 c (V_str s) = known (from_base64 (from_binary_of c) s)) /\
  (forall t z, dyn_from_gtin_plus_serial (V_str s) (V_str t) (V_int z) = known (lift E_SGTIN (sgtin_from_gtin_plus_serial s t z))).
Proof. exact declared_texts. Qed.
Print Assumptions C57_declared_texts.
Theorem C57_declared_key : forall s kw, dyn_pure_identity_to_gs1_key (V_str s) (kw_value kw) = known (epc_pure_identity_to_gs1_key s kw).
Proof. exact pure_key. Qed.
Print Assumptions C57_declared_key.
Theorem C57_declared_get_key : forall s l kw, dyn_get_gs1_key (V_str s) (length_value l) (kw_value kw) = known (get_gs1_key s l kw).
Proof. exact get_key_typed. Qed.
Print Assumptions C57_declared_get_key.
Theorem C57_declared_tag_uri : forall q c name n, req_filter q = Some n \/ req_filter q = None ->
  dyn_tag_uri (req_epc q) (V_scheme (req_scheme q)) (V_filter c name n) = known (req_tag_uri q).
Proof. exact declared_tag_uri. Qed.
Print Assumptions C57_declared_tag_uri.
Theorem C57_declared_binary : forall q c name n, possible (V_filter c name n) -> req_filter q = Some n \/ req_filter q = None ->
  dyn_binary (req_epc q) (V_scheme (req_scheme q)) (V_filter c name n) = known (req_binary q).
Proof. exact declared_binary. Qed.
Print Assumptions C57_declared_binary.
Theorem C57_declared_hex : forall q c name n, possible (V_filter c name n) -> req_filter q = Some n \/ req_filter q = None ->
  dyn_hex (req_epc q) (V_scheme (req_scheme q)) (V_filter c name n) = known (req_hex q) /\
  dyn_base64 (req_epc q) (V_scheme (req_scheme q)) (V_filter c name n) = known (req_base64 q).
Proof. exact declared_hex. Qed.
Print Assumptions C57_declared_hex.
Example C57_declared_case :
  exists x, sscc_init (lit "urn:epc:id:sscc:0614141.1234567890") = Ok x /\ possible (V_filter C_SSCC (lit "RESERVED_3") 3) /\
    dyn_hex (E_SSCC x) (V_scheme (M_SSCC SSCC_96)) (V_filter C_SSCC (lit "RESERVED_3") 3) = Returns (lit "3174257BF4499602D2000000").
Proof. eexists. split; [vm_compute; reflexivity|]. split; [vm_compute; tauto|]. vm_compute. reflexivity. Qed.

(** * Values that are no text *)

(** which exception is raised depends on what is done first: a regular expression, split, or the look-up of a header *)
Theorem C57_refused : forall x v ex, refusal (first_use x) v = Some ex -> enter x v = Raises ex.
Proof. exact refused. Qed.
Print Assumptions C57_refused.
Example C57_refused_case :
  enter (X_init C_SGTIN) V_none = Raises (Exn TypeError) /\ enter X_pure (V_int 5) = Raises AttributeError /\
  enter X_binary (V_bytes (lit "00110000")) = Raises (Exn ConvertException) /\ enter (X_from_binary C_SSCC) V_none = Raises (Exn TypeError).
Proof. repeat split. Qed.
(** bytes are taken for hexadecimal text *)
Theorem C57_bytes_as_hex : forall x b, first_use x = Number ->
  enter x (V_bytes b) = if forallb is_ascii b then enter x (V_str b) else Raises (Exn ValueError).
Proof. exact bytes_as_hex. Qed.
Print Assumptions C57_bytes_as_hex.
Example C57_bytes_case : exists e, dyn_hex_to_tag_encodable (V_bytes (lit "3174257BF4499602D2000000")) = Returns e /\
  epc_uri e = lit "urn:epc:id:sscc:0614141.1234567890".
Proof. eexists. split; vm_compute; reflexivity. Qed.
(** anything is taken for base64 by its text, but no object comes of it *)
Theorem C57_formatted : forall x v t, first_use x = Format -> text_of v = Ok t -> enter x v = enter x (V_str t).
Proof. exact formatted. Qed.
Print Assumptions C57_formatted.
Theorem C57_formatted_refused : forall x v, first_use x = Format -> x <> X_base64_hex -> tag_entry x -> possible v -> ~ is_text v ->
  exists e, enter x v = Raises (Exn e) /\ In e [ConvertException; KeyError; ValueError].
Proof. exact formatted_refused. Qed.
Print Assumptions C57_formatted_refused.
Example C57_none_as_base64 : dyn_base64_to_hex V_none = Returns (lit "3689de").
Proof. vm_compute. reflexivity. Qed.

(** * The length of the company prefix *)

Theorem C57_length_integer : forall c g l z, integer l z ->
  dyn_from_gs1_element_string c (V_str g) l = known (from_gs1_element_string_of c g z).
Proof. exact length_integer. Qed.
Print Assumptions C57_length_integer.
Theorem C57_element_integer : forall g l z, integer l z ->
  dyn_gs1_element_string_to_gs1_element (V_str g) l = known (gs1_element_string_to_gs1_element g z).
Proof. exact element_integer. Qed.
Print Assumptions C57_element_integer.
(** nothing else makes an object, *)
Theorem C57_length_other : forall c v l e, dyn_from_gs1_element_string c v l = Returns e ->
  is_text v /\ (l = V_none \/ exists z, integer l z).
Proof. exact length_other. Qed.
Print Assumptions C57_length_other.
Theorem C57_element_length : forall v l e, dyn_gs1_element_string_to_gs1_element v l = Returns e ->
  is_text v /\ (l = V_none \/ exists z, integer l z).
Proof. exact element_length. Qed.
Print Assumptions C57_element_length.
(** and None only for a CPI, where the whole reference becomes company prefix and part reference *)
Theorem C57_length_none : forall c g e, dyn_from_gs1_element_string c (V_str g) V_none = Returns e ->
  c = C_CPI /\ exists d n, g = lit "(8010)" ++ d ++ lit "(8011)" ++ n /\ company_prefix d /\
    epc_uri e = lit "urn:epc:id:cpi:" ++ d ++ lit "." ++ d ++ lit "." ++ n.
Proof. exact length_none. Qed.
Print Assumptions C57_length_none.
Theorem C57_length_none_refuted : ~ (forall c g e, dyn_from_gs1_element_string c (V_str g) V_none <> Returns e).
Proof. exact length_none_refuted. Qed.
Print Assumptions C57_length_none_refuted.
Example C57_length_case : exists e, dyn_from_gs1_element_string C_CPI (V_str (lit "(8010)1234567(8011)1")) V_none = Returns e /\
  epc_uri e = lit "urn:epc:id:cpi:1234567.1234567.1".
Proof. eexists. split; vm_compute; reflexivity. Qed.

(** * from_gtin_plus_serial *)

(** the GTIN must be a text and the length an integer; the serial is whatever [str] makes of the value *)
Theorem C57_gtin_serial : forall gtin serial l e, dyn_from_gtin_plus_serial gtin serial l = Returns e ->
  exists g s z x, gtin = V_str g /\ text_of serial = Ok s /\ integer l z /\ sgtin_from_gtin_plus_serial g s z = Ok x /\ e = E_SGTIN x.
Proof. exact gtin_serial. Qed.
Print Assumptions C57_gtin_serial.
Theorem C57_gtin_serial_text : forall g serial s l z, text_of serial = Ok s -> integer l z ->
  dyn_from_gtin_plus_serial (V_str g) serial l = known (lift E_SGTIN (sgtin_from_gtin_plus_serial g s z)).
Proof. exact gtin_serial_text. Qed.
Print Assumptions C57_gtin_serial_text.
(** what [str] makes of a value *)
Theorem C57_text : forall v t, str_text v t -> text_of v = Ok t.
Proof. exact text_value. Qed.
Print Assumptions C57_text.
Example C57_text_case : str_text (V_bool true) (lit "True") /\ str_text (V_int (-120)) (lit "-120") /\
  exists e, dyn_from_gtin_plus_serial (V_str (lit "00614141123452")) (V_bool true) (V_int 7) = Returns e /\
    epc_uri e = lit "urn:epc:id:sgtin:0614141.012345.True".
Proof.
  split; [constructor|]. split; [apply (T_neg (lit "120")); [| |discriminate|discriminate]|].
  - right. exists 49, (lit "20"). split; [reflexivity|]. split; [split; discriminate|]. intros c [<-|[<-|[]]]; vm_compute; discriminate.
  - intros c [<-|[<-|[<-|[]]]]; split; vm_compute; discriminate.
  - eexists. split; vm_compute; reflexivity.
Qed.
(** a missing serial is not noticed *)
Example C57_missing_serial : exists e, dyn_from_gtin_plus_serial (V_str (lit "00614141123452")) V_none (V_int 7) = Returns e /\
  epc_uri e = lit "urn:epc:id:sgtin:0614141.012345.None".
Proof. eexists. split; vm_compute; reflexivity. Qed.

(** * GS1 keys *)

Theorem C57_key_integer : forall e v k, dyn_gs1_key e (Some v) = Returns k ->
  exists z, integer v z /\ dyn_gs1_key e (Some (V_int z)) = Returns k /\ (class_of e = C_SGTIN \/ class_of e = C_LGTIN).
Proof. exact key_integer. Qed.
Print Assumptions C57_key_integer.
Theorem C57_get_key_absent : forall v l kw, counts_as_false l -> dyn_get_gs1_key v l kw = dyn_get_gs1_key v V_none kw.
Proof. exact get_key_absent. Qed.
Print Assumptions C57_get_key_absent.
Theorem C57_get_key_element : forall c s l kw k, element_string c s -> dyn_get_gs1_key (V_str s) l kw = Returns k -> exists z, integer l z.
Proof. exact get_key_element. Qed.
Print Assumptions C57_get_key_element.
Example C57_get_key_case :
  dyn_get_gs1_key (V_str (lit "(417)0614141123452")) (V_int 7) None = Returns (lit "0614141123452") /\
  dyn_get_gs1_key (V_str (lit "(417)0614141123452")) (V_gtin GTIN8) None = Returns (lit "0614141123452") /\
  dyn_get_gs1_key (V_str (lit "(417)0614141123452")) (V_str (lit "7")) None = Raises (Exn TypeError) /\
  dyn_get_gs1_key (V_str (lit "(417)0614141123452")) (V_float (lit "0.0")) None = Raises (Exn ConvertException).
Proof. repeat split; vm_compute; reflexivity. Qed.

(** * from_tag_uri: the flag counts by its truth *)
Theorem C57_flag : forall c s v, (counts_as_false v -> dyn_from_tag_uri c (V_str s) (Some v) = known (from_tag_uri_flag c s false)) /\
  (~ counts_as_false v -> dyn_from_tag_uri c (V_str s) (Some v) = known (from_tag_uri_flag c s true)).
Proof. exact flag. Qed.
Print Assumptions C57_flag.
Example C57_flag_case : exists e, dyn_from_tag_uri C_GID (V_str (lit "urn:epc:tag:gid-96:1.2.3")) (Some V_none) = Returns e /\
  epc_uri e = lit "urn:epc:id:gid:1.2.3".
Proof. eexists. split; vm_compute; reflexivity. Qed.

(** * Writing tags *)

Theorem C57_tag_uri_arguments : forall e s f t, dyn_tag_uri e s f = Returns t -> is_member s /\ (class_of e = C_GID \/ is_member f).
Proof. exact tag_uri_arguments. Qed.
Print Assumptions C57_tag_uri_arguments.
Theorem C57_binary_arguments : forall e s f b, possible s -> possible f -> dyn_binary e s f = Returns b ->
  names_scheme (class_of e) s /\ (class_of e = C_GID \/ numeric_member f).
Proof. exact binary_arguments. Qed.
Print Assumptions C57_binary_arguments.
(** a member of BinaryHeader does as coding scheme if it is that of the last one, *)
Theorem C57_header_member : forall e m bits f, last_scheme (class_of e) m ->
  dyn_binary e (V_header (class_of e) (coding_name m) bits) f = dyn_binary e (V_scheme m) f.
Proof. exact header_member. Qed.
Print Assumptions C57_header_member.
(** but that of a shorter one heads a tag with the layout of the longer one, which is refused or read as something else *)
Theorem C57_header_member_refuted : exists e m bits f b,
  init_of (class_of e) (epc_uri e) = Ok e /\ member_class m = Some (class_of e) /\ possible (V_header (class_of e) (coding_name m) bits) /\
  possible f /\ dyn_binary e (V_header (class_of e) (coding_name m) bits) f = Returns b /\ dyn_binary e (V_scheme m) f <> Returns b /\
  binary_to_tag_encodable b <> Ok e.
Proof. exact header_member_refuted. Qed.
Print Assumptions C57_header_member_refuted.
(** and a member that is no filter value can make the tag longer than its coding scheme *)
Theorem C57_filter_member_refuted : exists e m f b,
  init_of (class_of e) (epc_uri e) = Ok e /\ m = M_SGTIN SGTIN_96 /\ possible f /\ dyn_binary e (V_scheme m) f = Returns b /\ length b = 97%nat.
Proof. exact filter_member_refuted. Qed.
Print Assumptions C57_filter_member_refuted.

(** * Equality *)
Theorem C57_equal_objects : forall e v, dyn_eq e v = true <-> exists e' t, v = V_epc e' t /\ epc_uri e' = epc_uri e.
Proof. exact equal_objects. Qed.
Print Assumptions C57_equal_objects.
Example C57_equal_case : forall e, dyn_eq e V_none = false /\ dyn_eq e (V_str (epc_uri e)) = false.
Proof. split; reflexivity. Qed.
