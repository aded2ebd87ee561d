(** get_gs1_key over the representations of an object: C31. *)
From Coq Require Import String Lia.
From Verif.Model Require Import Py Re Regexes Common Base.
From Verif.Model Require Import Adi Cpi Gdti Giai Gid Grai Gsrn Gsrnp Itip Lgtin Sgcn Sgln Sgtin Sscc Usdod Others Parsers.
From Verif.Spec Require Import Spec SpecEscapes SpecGrammar SpecSchemes SpecElements SpecTags SpecLayout SpecCoding SpecHex SpecKeys.
From Verif.Proofs Require Import GetKey GetKey2.

(** what each kind of text is taken for: every text of the kind, accepted or not *)
Theorem C31_pure : forall c b l g, 
  key_via (init_of c (scheme_prefix c ++ b)) g (get_gs1_key (scheme_prefix c ++ b) l g).
Proof. exact key_pure. Qed.
Print Assumptions C31_pure.
Theorem C31_tag_text : forall c nm f body l g, 
  In nm (coding_names c) -> c <> C_GID -> numeral f ->
  key_via (init_of c (scheme_prefix c ++ body)) g (get_gs1_key (lit "urn:epc:tag:" ++ nm ++ lit ":" ++ f ++ lit "." ++ body) l g).
Proof. exact key_tag. Qed.
Print Assumptions C31_tag_text.
Theorem C31_binary_text : forall k s l g, 
  firstn 8 s = tag_header k -> key_via (from_binary_of (tag_class k) s) g (get_gs1_key s l g).
Proof. exact key_binary. Qed.
Print Assumptions C31_binary_text.
Theorem C31_hex_text : forall k h l g, 
  hex_text h -> firstn 8 (hex_bits h) = tag_header k -> key_via (from_binary_of (tag_class k) (hex_bits h)) g (get_gs1_key h l g).
Proof. exact key_hex_text. Qed.
Print Assumptions C31_hex_text.
Theorem C31_element_text : forall c s l g, 
  element_string c s -> l <> 0%Z -> key_via (from_gs1_element_string_of c s l) g (get_gs1_key s (Some l) g).
Proof. exact key_element. Qed.
Print Assumptions C31_element_text.
Theorem C31_element_no_length : forall c s l g, 
  element_string c s -> l = None \/ l = Some 0%Z -> get_gs1_key s l g = Raise ConvertException.
Proof. exact keyed_element_none. Qed.
Print Assumptions C31_element_no_length.
Theorem C31_base64_text : forall k b s l g, 
  firstn 8 b = tag_header k -> base64_of b s -> get_gs1_key s l g = Raise ConvertException.
Proof. exact key_base64. Qed.
Print Assumptions C31_base64_text.
Theorem C31_anything_else : forall s l g, 
  (forall c b, s <> scheme_prefix c ++ b) -> (forall b, s <> lit "urn:epc:tag:" ++ b) -> (forall b, s <> lit "urn:epc:idpat:" ++ b) ->
  (forall c, ~ element_string c s) -> (forall k, firstn 8 s <> tag_header k) -> (forall k, ~ same_letters (firstn 2 s) (hex_header k)) ->
  get_gs1_key s l g = Raise ConvertException.
Proof. exact key_none. Qed.
Print Assumptions C31_anything_else.
(** the representations of one object *)
Theorem C31_agreement : forall q u l g, 
  proper_request q u -> In (class_of (req_epc q)) keyed_classes ->
  get_gs1_key u l g = epc_gs1_key (req_epc q) g /\
  (exists t, req_tag_uri q = Ok t /\ get_gs1_key t l g = epc_gs1_key (req_epc q) g) /\
  (exists b, req_binary q = Ok b /\ get_gs1_key b l g = epc_gs1_key (req_epc q) g) /\
  (exists h, req_hex q = Ok h /\ get_gs1_key h l g = epc_gs1_key (req_epc q) g).
Proof. exact key_agree. Qed.
Print Assumptions C31_agreement.
Theorem C31_tag_uri : forall q u t l g, 
  init_of (class_of (req_epc q)) u = Ok (req_epc q) -> req_tag_uri q = Ok t -> In (class_of (req_epc q)) keyed_classes ->
  get_gs1_key t l g = epc_gs1_key (req_epc q) g.
Proof. exact key_own_tag. Qed.
Print Assumptions C31_tag_uri.
Theorem C31_element_string : forall c u e cp rest g l k, 
  In c keyed_classes -> init_of c u = Ok e -> epc_gs1_element_string e = Ok g ->
  u = scheme_prefix c ++ cp ++ lit "." ++ rest -> ~ In 46 cp ->
  (c = C_GIAI \/ c = C_GINC -> ~ In 46 g \/ l = Z.of_nat (length cp)) ->
  get_gs1_key g (Some l) k = epc_gs1_key e k \/
  exists x, get_gs1_key g (Some l) k = Raise x /\ (l = 0%Z /\ x = ConvertException \/ from_gs1_element_string_of c g l = Raise x).
Proof. exact key_own_element. Qed.
Print Assumptions C31_element_string.

(** one SGTIN in all its forms; hexadecimal digits in either case; and the base64 form *)
Definition C31_key (s : string) : res str := get_gs1_key (lit s) (Some 7%Z) None.
Example C31_forms_case :
  C31_key "urn:epc:id:sgtin:0614141.812345.6789" = Ok (lit "80614141123458") /\
  C31_key "urn:epc:tag:sgtin-96:3.0614141.812345.6789" = Ok (lit "80614141123458") /\
  C31_key "urn:epc:tag:sgtin-198:3.0614141.812345.6789" = Ok (lit "80614141123458") /\
  C31_key "001100000111010000100101011110111111011100011001010011100100000000000000000000000001101010000101" = Ok (lit "80614141123458") /\
  C31_key "3074257BF7194E4000001A85" = Ok (lit "80614141123458") /\
  C31_key "3074257bf7194e4000001a85" = Ok (lit "80614141123458") /\
  C31_key "(01)80614141123458(21)6789" = Ok (lit "80614141123458") /\
  C31_key "MHQle/cZTkAAABqF" = Raise ConvertException /\
  get_gs1_key (lit "(01)80614141123458(21)6789") None None = Raise ConvertException.
Proof. repeat split; vm_compute; reflexivity. Qed.
(** the GTIN kind is passed on; a kind given for a key that has none is a TypeError *)
Example C31_kind_case :
  get_gs1_key (lit "urn:epc:id:sgtin:0614141.012345.6789") None (Some GTIN12) = Ok (lit "614141123452") /\
  get_gs1_key (lit "urn:epc:id:sscc:0614141.1234567890") None (Some GTIN12) = Raise TypeError /\
  get_gs1_key (lit "urn:epc:id:gid:1.2.3") None None = Raise ConvertException.
Proof. repeat split; vm_compute; reflexivity. Qed.
(** the key of a GIAI does not depend on what follows a colon, nor does its tag URI *)
Example C31_giai_colon_case :
  get_gs1_key (lit "urn:epc:id:giai:0614141.12:34") None None = Ok (lit "061414112") /\
  get_gs1_key (lit "urn:epc:tag:giai-202:0.0614141.12") None None = Ok (lit "061414112").
Proof. repeat split; vm_compute; reflexivity. Qed.
(** an element string that its own parser does not understand has no key *)
Example C31_bracket_case :
  C31_key "urn:epc:id:sgtin:0614141.812345.(21)" = Ok (lit "80614141123458") /\ C31_key "(01)80614141123458(21)(21)" = Raise ValueError.
Proof. repeat split; vm_compute; reflexivity. Qed.
(** [C31_agreement] and [C31_element_string] apply to these *)
Example C31_agreement_case : exists x, sgtin_init (lit "urn:epc:id:sgtin:0614141.812345.6789") = Ok x /\
  proper_request (T_SGTIN x SGTIN_96 3) (lit "urn:epc:id:sgtin:0614141.812345.6789") /\
  In (class_of (req_epc (T_SGTIN x SGTIN_96 3))) keyed_classes.
Proof.
  eexists. split; [vm_compute; reflexivity|]. split; [|cbn; tauto]. split; [vm_compute; reflexivity|].
  split; [intros c H; cbn in H; repeat (destruct H as [<-|H]; [reflexivity|]); destruct H|].
  split; [eexists; vm_compute; reflexivity|]. split; [vm_compute; auto|]. split; [vm_compute; reflexivity|]. split; [exact I|].
  intros H. discriminate H.
Qed.
