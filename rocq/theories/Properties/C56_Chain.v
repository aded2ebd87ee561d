(** Conversions one after the other: C56. *)
From Coq Require Import String Lia.
From Verif.Model Require Import Py Common Base.
From Verif.Model Require Import Adi Cpi Gdti Giai Gid Grai Gsrn Gsrnp Itip Lgtin Sgcn Sgln Sgtin Sscc Usdod Others Parsers Calls.
From Verif.Spec Require Import Spec SpecEscapes SpecGrammar SpecSchemes SpecTags SpecLayout SpecCoding SpecElements SpecExact SpecChain.
From Verif.Proofs Require Import Chain.

(** whatever is written from an object is read as that object *)
Theorem C56_one_conversion : forall c u e r,
  init_of c u = Ok e -> (c = C_GIAI -> nothing_ignored u) -> written e r -> read r = Ok e.
Proof. exact one_conversion. Qed.
Print Assumptions C56_one_conversion.

(** however many conversions are chained, and through whichever representations, the object stays the same *)
Theorem C56_conversions : forall r e r',
  read r = Ok e -> (class_of e = C_GIAI -> nothing_ignored (epc_uri e)) -> converted r r' -> read r' = Ok e.
Proof. exact conversions. Qed.
Print Assumptions C56_conversions.

(** every parser returns an object that the constructor of its class makes from its own URI *)
Theorem C56_read_sound : forall r e, read r = Ok e -> init_of (class_of e) (epc_uri e) = Ok e.
Proof. exact read_sound. Qed.
Print Assumptions C56_read_sound.
Theorem C56_idpat_sound : forall t e, idpat_to_gs1_keyed_scheme t = Ok e -> init_of (class_of e) (epc_uri e) = Ok e.
Proof. exact idpat_sound. Qed.
Print Assumptions C56_idpat_sound.
Theorem C56_gtin_serial_sound : forall g t l x, sgtin_from_gtin_plus_serial g t l = Ok x -> sgtin_init (sgtin_epc_uri x) = Ok x.
Proof. exact gtin_serial_sound. Qed.
Print Assumptions C56_gtin_serial_sound.
(** and so do the class methods, for their own class *)
Theorem C56_class_sound : forall c t f l e,
  from_tag_uri_flag c t f = Ok e \/ from_binary_of c t = Ok e \/ from_hex (from_binary_of c) t = Ok e \/
  from_base64 (from_binary_of c) t = Ok e \/ from_gs1_element_string_of c t l = Ok e ->
  class_of e = c /\ init_of c (epc_uri e) = Ok e.
Proof. exact class_sound. Qed.
Print Assumptions C56_class_sound.

(** the request must be a safe one: a serial with a lower-case escape comes back from a tag with another URI *)
Theorem C56_unsafe_refuted : exists r e q b e',
  read r = Ok e /\ req_epc q = e /\ req_binary q = Ok b /\ read (R_binary b) = Ok e' /\ epc_uri e' <> epc_uri e.
Proof. exact unsafe_refuted. Qed.
Print Assumptions C56_unsafe_refuted.
(** and the length of the company prefix the right one *)
Theorem C56_length_refuted : exists r e t l e',
  read r = Ok e /\ epc_gs1_element_string e = Ok t /\ read (R_element t l) = Ok e' /\ epc_uri e' <> epc_uri e.
Proof. exact length_refuted. Qed.
Print Assumptions C56_length_refuted.

(** a chain: pure identity URI, hexadecimal tag, tag URI, element string, base64; [C56_conversions] says what is read at its end *)
Example C56_chain_case :
  converted (R_pure (lit "urn:epc:id:sscc:0614141.1234567890")) (R_base64 (lit "MXQle/RJlgLSAAAA")) /\
  exists e, read (R_base64 (lit "MXQle/RJlgLSAAAA")) = Ok e /\ epc_uri e = lit "urn:epc:id:sscc:0614141.1234567890".
Proof.
  split; [|eexists; split; vm_compute; reflexivity].
  destruct (sscc_init (lit "urn:epc:id:sscc:0614141.1234567890")) as [x|z] eqn:E; [|vm_compute in E; discriminate E].
  assert (Q : safe_request (T_SSCC x SSCC_96 3)).
  { vm_compute in E. injection E as <-. split; [|intros ? ? ? H; discriminate H]. split; [vm_compute; reflexivity|].
    split; [intros c H; vm_compute in H; repeat (destruct H as [<-|H]; [reflexivity|]); destruct H|].
    split; [eexists; vm_compute; reflexivity|]. split; [exact I|]. split; [vm_compute; reflexivity|]. split; [exact I|].
    intros H. discriminate H. }
  vm_compute in E. injection E as E. subst x.
  match type of Q with safe_request ?r => set (q := r) in Q end.
  eapply converted_more; [eapply converted_more; [eapply converted_more; [eapply converted_more; [apply converted_none|]|]|]|].
  - eapply (conversion _ _ (R_hex (lit "3174257BF4499602D2000000"))); [vm_compute; reflexivity|].
    exists q. split; [reflexivity|]. split; [exact Q|]. vm_compute. reflexivity.
  - eapply (conversion _ _ (R_tag_uri (lit "urn:epc:tag:sscc-96:3.0614141.1234567890"))); [vm_compute; reflexivity|].
    exists q. split; [reflexivity|]. vm_compute. reflexivity.
  - eapply (conversion _ _ (R_element (lit "(00)106141412345678908") 7)); [vm_compute; reflexivity|].
    split; [vm_compute; reflexivity|]. exists (lit "0614141"), (lit "1234567890"). split; [vm_compute; reflexivity|].
    split; [cbn; lia|]. split; [reflexivity|]. exists (lit "1234567890"). split; [vm_compute; reflexivity|].
    split; [split; [|cbn; lia]|split; [|reflexivity]];
      intros c H; cbn in H; repeat (destruct H as [<-|H]; [vm_compute; discriminate|]); destruct H.
  - eapply conversion; [vm_compute; reflexivity|].
    exists q. split; [reflexivity|]. split; [exact Q|]. vm_compute. reflexivity.
Qed.
