(** Which exceptions leave each entry point, for every text: C39. *)
From Coq Require Import String Lia.
From Verif.Model Require Import Py Re Regexes Common Base.
From Verif.Model Require Import Adi Cpi Gdti Giai Gid Grai Gsrn Gsrnp Itip Lgtin Sgcn Sgln Sgtin Sscc Usdod Others Parsers.
From Verif.Spec Require Import Spec SpecEscapes SpecGrammar SpecSchemes SpecElements SpecTags SpecLayout SpecCoding SpecKeys SpecErrors.
From Verif.Proofs Require Import Exceptions2.

(** constructors *)
Theorem C39_constructors : forall c u e, 
  init_of c u = Raise e ->
  e = ConvertException \/ ((e = ValueError \/ e = OverflowError) /\
    exists body s rest, u = scheme_prefix c ++ body ++ s ++ rest /\ malformed_component s /\ (rest = [] \/ c = C_GIAI)) \/
  (e = ValueError /\ (c = C_GID \/ c = C_USDOD) /\
    exists body s rest, u = scheme_prefix c ++ body ++ s ++ rest /\ long_number s).
Proof. exact constructor_exn. Qed.
Print Assumptions C39_constructors.
Theorem C39_plain_constructors : forall c u e, 
  In c [C_ADI; C_BIC; C_CPI; C_GSIN; C_GSRN; C_GSRNP; C_IMOVN; C_PGLN; C_SGCN; C_SSCC] ->
  init_of c u = Raise e -> e = ConvertException.
Proof. exact plain_constructor_exn. Qed.
Print Assumptions C39_plain_constructors.
(** int() refuses more than 4300 digits before the bound of the number is looked at *)
Theorem C39_long_gid : forall m o s,
  long_number m -> numeral o -> numeral s ->
  init_of C_GID (lit "urn:epc:id:gid:" ++ m ++ lit "." ++ o ++ lit "." ++ s) = Raise ValueError.
Proof. exact long_gid_any. Qed.
Print Assumptions C39_long_gid.
Theorem C39_long_usdod : forall c s,
  cage_text c -> long_number s -> init_of C_USDOD (lit "urn:epc:id:usdod:" ++ c ++ lit "." ++ s) = Raise ValueError.
Proof. exact long_usdod_any. Qed.
Print Assumptions C39_long_usdod.
Example C39_long_case :
  init_of C_GID (lit "urn:epc:id:gid:" ++ repeat 57 4301 ++ lit ".1.2") = Raise ValueError /\
  init_of C_GID (lit "urn:epc:id:gid:" ++ repeat 57 4300 ++ lit ".1.2") = Raise ConvertException /\
  init_of C_USDOD (lit "urn:epc:id:usdod:2S194." ++ repeat 57 4301) = Raise ValueError.
Proof. repeat split; vm_compute; reflexivity. Qed.
Example C39_constructors_case :
  init_of C_SGTIN (lit "urn:epc:id:sgtin:0614141.812345.%2Fxyz") = Raise ValueError /\
  init_of C_SGTIN (lit "urn:epc:id:sgtin:0614141.812345.%2Fabcdefabcd") = Raise OverflowError /\
  init_of C_SGTIN (lit "urn:epc:id:sgtin:0614141.81234.5") = Raise ConvertException /\
  init_of C_SGTIN [] = Raise ConvertException /\ init_of C_SSCC (lit "urn:epc:id:sscc:0614141.12") = Raise ConvertException.
Proof. repeat split; vm_compute; reflexivity. Qed.
(** the parsers that look at the fourth field of a URI, and those that go on from there *)
Theorem C39_field_parsers : forall f, 
  In f [epc_pure_identity_to_scheme; epc_pure_identity_to_gs1_element; epc_pure_identity_to_gs1_keyed;
        epc_pure_identity_to_tag_encodable; tag_uri_to_tag_encodable] ->
  (forall t, (colons t < 3)%nat -> f t = Raise IndexError) /\
  (forall t e, (3 <= colons t)%nat -> f t = Raise e -> refused_text t e).
Proof. exact field_parsers. Qed.
Print Assumptions C39_field_parsers.
Theorem C39_id_patterns : forall t, 
  ((colons t < 3)%nat -> idpat_to_gs1_keyed_scheme t = Raise IndexError) /\
  (forall e, (3 <= colons t)%nat -> idpat_to_gs1_keyed_scheme t = Raise e -> refused e).
Proof. exact idpat_exn. Qed.
Print Assumptions C39_id_patterns.
Theorem C39_element_string_of_uri : forall t x, 
  epc_pure_identity_to_gs1_element_string t = Raise x ->
  ((colons t < 3)%nat /\ x = IndexError) \/ ((3 <= colons t)%nat /\ refused_text t x) \/
  (x = IndexError /\ exists cp tpx, upui_uri t cp [] tpx).
Proof. exact element_string_parser_exn. Qed.
Print Assumptions C39_element_string_of_uri.
Theorem C39_key_of_uri : forall t g x, 
  epc_pure_identity_to_gs1_key t g = Raise x ->
  ((colons t < 3)%nat /\ x = IndexError) \/ ((3 <= colons t)%nat /\ refused_text t x) \/
  (x = TypeError /\ g <> None /\ exists k, epc_pure_identity_to_gs1_key t None = Ok k).
Proof. exact key_parser_exn. Qed.
Print Assumptions C39_key_of_uri.
Theorem C39_from_tag_uri : forall c t e, 
  In c tag_classes -> from_tag_uri_of c t = Raise e -> refused_text t e.
Proof. exact from_tag_text_exn. Qed.
Print Assumptions C39_from_tag_uri.
Example C39_field_parsers_case :
  epc_pure_identity_to_scheme (lit "urn:epc:sgtin") = Raise IndexError /\
  tag_uri_to_tag_encodable (lit "urn:epc:sgtin-96") = Raise IndexError /\
  tag_uri_to_tag_encodable (lit "urn:epc:tag:sgtin-198:0.0614141.812345.%2Fxyz") = Raise ValueError /\
  from_tag_uri_of C_SGTIN (lit "urn:epc:tag:sgtin-96") = Raise ConvertException /\
  idpat_to_gs1_keyed_scheme (lit "*") = Raise IndexError /\
  epc_pure_identity_to_gs1_element_string (lit "urn:epc:id:upui:1234567890123..1") = Raise IndexError /\
  epc_pure_identity_to_gs1_key (lit "urn:epc:id:sscc:0614141.1234567890") (Some GTIN13) = Raise TypeError /\
  epc_pure_identity_to_gs1_key (lit "urn:epc:id:sscc:0614141.1234567890") None = Ok (lit "106141412345678908").
Proof. repeat split; vm_compute; reflexivity. Qed.
(** binary, hexadecimal, base64 and element strings, and get_gs1_key *)
Theorem C39_from_binary : forall c b, 
  In c tag_classes ->
  ((forall k, tag_class k = c -> firstn 8 b <> tag_header k) -> from_binary_of c b = Raise KeyError) /\
  (forall k e, tag_class k = c -> firstn 8 b = tag_header k -> from_binary_of c b = Raise e -> refused e).
Proof. exact from_binary_any. Qed.
Print Assumptions C39_from_binary.
Theorem C39_from_hex_and_base64 : forall c s e, 
  In c tag_classes ->
  from_hex (from_binary_of c) s = Raise e \/ from_base64 (from_binary_of c) s = Raise e -> refused e \/ e = KeyError.
Proof. exact hex_classes_exn. Qed.
Print Assumptions C39_from_hex_and_base64.
Theorem C39_text_parsers : forall s e, 
  binary_to_tag_encodable s = Raise e \/ hex_to_tag_encodable s = Raise e \/ base64_to_tag_encodable s = Raise e \/
  (exists l, gs1_element_string_to_gs1_element s l = Raise e) \/ (exists l, get_gs1_key s l None = Raise e) -> refused e.
Proof. exact text_parsers_exn. Qed.
Print Assumptions C39_text_parsers.
Theorem C39_get_gs1_key : forall s l g x, 
  get_gs1_key s l g = Raise x ->
  refused x \/ (x = TypeError /\ g <> None /\ exists k, get_gs1_key s l None = Ok k).
Proof. exact get_key_exn. Qed.
Print Assumptions C39_get_gs1_key.
Theorem C39_not_hexadecimal : forall s c k, 
  In c s -> ~ number_character c ->
  hex_to_tag_encodable s = Raise ValueError /\ from_hex (from_binary_of k) s = Raise ValueError.
Proof. exact not_hexadecimal_parsers. Qed.
Print Assumptions C39_not_hexadecimal.
Theorem C39_empty_hexadecimal : forall k, 
  hex_to_tag_encodable [] = Raise ValueError /\ from_hex (from_binary_of k) [] = Raise ValueError.
Proof. exact empty_hexadecimal. Qed.
Print Assumptions C39_empty_hexadecimal.
Theorem C39_base64_not_ascii : forall s k, 
  ~ ascii s ->
  base64_to_tag_encodable s = Raise ValueError /\ from_base64 (from_binary_of k) s = Raise ValueError.
Proof. exact base64_not_ascii. Qed.
Print Assumptions C39_base64_not_ascii.
Example C39_text_case :
  from_binary_of C_SGTIN (lit "11110000") = Raise KeyError /\ from_binary_of C_SGTIN [] = Raise KeyError /\
  binary_to_tag_encodable (lit "11110000") = Raise ConvertException /\
  from_binary_of C_SGTIN (lit "00110000" ++ repeat 50 88) = Raise ValueError /\
  from_hex (from_binary_of C_SGTIN) (lit "F0") = Raise KeyError /\
  from_hex (from_binary_of C_SGTIN) (lit "30 74") = Raise ValueError /\
  hex_to_tag_encodable (lit "30G4257BF7194E4000001A85") = Raise ValueError /\
  base64_to_tag_encodable (lit "M") = Raise ValueError /\
  from_base64 (from_binary_of C_SGTIN) (lit "////") = Raise KeyError /\
  gs1_element_string_to_gs1_element (lit "(01)80614141123458(21)(21)") 7 = Raise ValueError /\
  get_gs1_key (lit "30ZZ") None None = Raise ValueError /\
  get_gs1_key (lit "nonsense") None None = Raise ConvertException.
Proof. repeat split; vm_compute; reflexivity. Qed.
Example C39_not_hexadecimal_case : In 71 (lit "30G4257BF7194E4000001A85") /\ ~ number_character 71.
Proof.
  split; [cbn; tauto|]. unfold number_character, blank. intros [H|[H|[H|H]]]; [lia|exact (H eq_refl)|cbn in H; lia|cbn in H; lia].
Qed.
(** the methods of an object *)
Theorem C39_tag_uri_method : forall q u e, 
  init_of (class_of (req_epc q)) u = Ok (req_epc q) -> req_tag_uri q = Raise e -> e = ConvertException.
Proof. exact tag_uri_exn. Qed.
Print Assumptions C39_tag_uri_method.
Theorem C39_binary_method : forall q u e, 
  init_of (class_of (req_epc q)) u = Ok (req_epc q) -> req_binary q = Raise e -> e = ConvertException \/ e = ValueError.
Proof. exact binary_exn. Qed.
Print Assumptions C39_binary_method.
Theorem C39_hex_methods : forall q u e, 
  init_of (class_of (req_epc q)) u = Ok (req_epc q) ->
  req_hex q = Raise e \/ req_base64 q = Raise e -> e = ConvertException \/ e = ValueError.
Proof. exact hex_exn. Qed.
Print Assumptions C39_hex_methods.
Example C39_methods_case : exists x, sgtin_init (lit "urn:epc:id:sgtin:0614141.812345.ab") = Ok x /\
  req_tag_uri (T_SGTIN x SGTIN_96 0) = Raise ConvertException /\ req_binary (T_SGTIN x SGTIN_96 0) = Raise ValueError /\
  req_hex (T_SGTIN x SGTIN_96 0) = Raise ValueError.
Proof. eexists. repeat split; vm_compute; reflexivity. Qed.
