(** The arguments of tag_uri, binary, hex and base64: C47. *)
From Coq Require Import String Lia.
From Verif.Model Require Import Py Re Regexes Common Base.
From Verif.Model Require Import Adi Cpi Gdti Giai Gid Grai Gsrn Gsrnp Itip Lgtin Sgcn Sgln Sgtin Sscc Usdod Others Parsers Calls.
From Verif.Spec Require Import Spec SpecEscapes SpecGrammar SpecSchemes SpecCalls SpecBinding.
From Verif.Proofs Require Import CallArgs CallErrors.

(** given by keyword, the arguments mean the same to all four methods *)
Theorem C47_keywords : forall q args, 
  call_tag_uri (req_epc q) [] (keywords q) = req_tag_uri q /\
  call_binary (req_epc q) [] (keywords q) = req_binary q /\
  call_hex (req_epc q) args (keywords q) = req_hex q /\
  call_base64 (req_epc q) args (keywords q) = req_base64 q.
Proof. exact call_keywords. Qed.
Print Assumptions C47_keywords.
Example C47_keywords_case :
  match init_of C_ITIP (lit "urn:epc:id:itip:4012345.012345.01.02.987") with
  | Ok (E_ITIP x) =>
      call_hex (E_ITIP x) [] (mkKw (Some (M_ITIP ITIP_110)) (Some (M_filter 3)) false) = Ok (lit "4074F4E4E40C0E40820000000F6C") /\
      req_hex (T_ITIP x ITIP_110 3) = Ok (lit "4074F4E4E40C0E40820000000F6C")
  | _ => False end.
Proof. vm_compute. repeat split; reflexivity. Qed.
(** by position, tag_uri and binary take them in these orders *)
Theorem C47_positional : forall q, 
  call_tag_uri (req_epc q) (positional (tag_uri_order (class_of (req_epc q))) q) kw_none = req_tag_uri q /\
  call_binary (req_epc q) (positional (binary_order (class_of (req_epc q))) q) kw_none = req_binary q.
Proof. exact call_positional. Qed.
Print Assumptions C47_positional.
(** and ITIP has a different one for each *)
Theorem C47_same_order_refuted : 
  ~ (forall q, call_tag_uri (req_epc q) (positional (binary_order (class_of (req_epc q))) q) kw_none = req_tag_uri q).
Proof. exact same_order_refuted. Qed.
Print Assumptions C47_same_order_refuted.
(** arguments left out *)
Theorem C47_defaults : forall e q, 
  default_request e = Some q ->
  call_tag_uri e [] kw_none = req_tag_uri q /\ call_binary e [] kw_none = req_binary q.
Proof. exact call_defaults. Qed.
Print Assumptions C47_defaults.
Theorem C47_filter_only : forall e f q, 
  filter_only_request e f = Some q ->
  call_tag_uri e [M_filter f] kw_none = req_tag_uri q /\ call_binary e [M_filter f] kw_none = req_binary q /\
  (forall args, call_hex e args (mkKw None (Some (M_filter f)) false) = req_hex q /\
                call_base64 e args (mkKw None (Some (M_filter f)) false) = req_base64 q).
Proof. exact call_filter_only. Qed.
Print Assumptions C47_filter_only.
Example C47_defaults_case :
  match init_of C_SSCC (lit "urn:epc:id:sscc:0614141.1234567890"), init_of C_GSRN (lit "urn:epc:id:gsrn:0614141.1234567890") with
  | Ok e, Ok e' =>
      call_tag_uri e [M_filter 6] kw_none = Ok (lit "urn:epc:tag:sscc-96:6.0614141.1234567890") /\
      call_tag_uri e [M_filter 6; M_SSCC SSCC_96] kw_none = Ok (lit "urn:epc:tag:sscc-96:6.0614141.1234567890") /\
      call_tag_uri e [M_SSCC SSCC_96; M_filter 6] kw_none = Ok (lit "urn:epc:tag:6:sscc-96.0614141.1234567890") /\
      call_tag_uri e [] kw_none = Raise TypeError /\
      call_tag_uri e' [] kw_none = Ok (lit "urn:epc:tag:gsrn-96:0.0614141.1234567890") /\
      call_tag_uri e' [M_GSRN GSRN_96; M_filter 1] (mkKw None (Some (M_filter 1)) false) = Raise TypeError
  | _, _ => False end.
Proof. vm_compute. repeat split; reflexivity. Qed.
(** hex and base64 ignore arguments given by position: an exception for most classes, the default tag for GSRN, GSRNP and GID *)
Theorem C47_hex_positional : forall e args, 
  In (class_of e) tag_classes ->
  match default_request e with
  | Some q => call_hex e args kw_none = req_hex q /\ call_base64 e args kw_none = req_base64 q
  | None => call_hex e args kw_none = Raise TypeError /\ call_base64 e args kw_none = Raise TypeError
  end.
Proof. exact hex_positional. Qed.
Print Assumptions C47_hex_positional.
Example C47_hex_positional_case :
  match init_of C_GSRN (lit "urn:epc:id:gsrn:0614141.1234567890"), init_of C_SGTIN (lit "urn:epc:id:sgtin:0614141.812345.6789") with
  | Ok e, Ok e' =>
      call_hex e [M_GSRN GSRN_96; M_filter 1] kw_none = Ok (lit "2D14257BF4499602D2000000") /\
      call_hex e [] (mkKw (Some (M_GSRN GSRN_96)) (Some (M_filter 1)) false) = Ok (lit "2D34257BF4499602D2000000") /\
      call_hex e' [M_SGTIN SGTIN_96; M_filter 3] kw_none = Raise TypeError
  | _, _ => False end.
Proof. vm_compute. repeat split; reflexivity. Qed.
(** so the filter value handed to hex can get lost without notice *)
Theorem C47_positional_hex_refuted : 
  ~ (forall q h, call_hex (req_epc q) (positional (binary_order (class_of (req_epc q))) q) kw_none = Ok h -> req_hex q = Ok h).
Proof. exact positional_hex_refuted. Qed.
Print Assumptions C47_positional_hex_refuted.
(** two arguments in the wrong order: binary raises KeyError, tag_uri returns a text nothing can read *)
Theorem C47_wrong_order : forall q, 
  req_filter q <> None ->
  call_binary (req_epc q) (positional (swap (binary_order (class_of (req_epc q)))) q) kw_none = Raise KeyError /\
  exists t, call_tag_uri (req_epc q) (positional (swap (tag_uri_order (class_of (req_epc q)))) q) kw_none = Ok t /\
    (forall c e, from_tag_uri_of c t <> Ok e) /\ (forall e, tag_uri_to_tag_encodable t <> Ok e).
Proof. exact wrong_order. Qed.
Print Assumptions C47_wrong_order.
Example C47_wrong_order_case :
  match init_of C_ITIP (lit "urn:epc:id:itip:4012345.012345.01.02.987") with
  | Ok e =>
      call_binary e [M_ITIP ITIP_110; M_filter 3] kw_none = Raise KeyError /\
      call_tag_uri e [M_filter 3; M_ITIP ITIP_110] kw_none = Ok (lit "urn:epc:tag:3:itip-110.4012345.012345.01.02.987") /\
      tag_uri_to_tag_encodable (lit "urn:epc:tag:3:itip-110.4012345.012345.01.02.987") = Raise ConvertException
  | _ => False end.
Proof. vm_compute. repeat split; reflexivity. Qed.
(** a coding scheme of another class: binary raises KeyError, tag_uri returns a text that is never read as an object of the class *)
Theorem C47_foreign_scheme : forall e s f, 
  In (class_of e) tag_classes -> member_class s <> Some (class_of e) ->
  (f = None <-> class_of e = C_GID) ->
  call_binary e [] (mkKw (Some s) f false) = Raise KeyError /\
  exists t, call_tag_uri e [] (mkKw (Some s) f false) = Ok t /\
    (forall c e', from_tag_uri_of c t = Ok e' -> member_class s = Some (class_of e')) /\
    (forall e', tag_uri_to_tag_encodable t = Ok e' -> member_class s = Some (class_of e')).
Proof. exact foreign_scheme. Qed.
Print Assumptions C47_foreign_scheme.
Example C47_foreign_scheme_case :
  match init_of C_GRAI (lit "urn:epc:id:grai:0614141.12345.400") with
  | Ok e =>
      call_binary e [] (mkKw (Some (M_SGLN SGLN_96)) (Some (M_filter 1)) false) = Raise KeyError /\
      call_tag_uri e [] (mkKw (Some (M_SGLN SGLN_96)) (Some (M_filter 1)) false) = Ok (lit "urn:epc:tag:sgln-96:1.0614141.12345.400") /\
      match tag_uri_to_tag_encodable (lit "urn:epc:tag:sgln-96:1.0614141.12345.400") with
      | Ok e' => epc_uri e' = lit "urn:epc:id:sgln:0614141.12345.400" | _ => False end
  | _ => False end.
Proof. vm_compute. repeat split; reflexivity. Qed.
(** but can be read as an object of another class *)
Theorem C47_foreign_tag_uri_refuted : 
  ~ (forall e s f t e', In (class_of e) tag_classes -> call_tag_uri e [] (mkKw (Some s) (Some (M_filter f)) false) = Ok t ->
       tag_uri_to_tag_encodable t = Ok e' -> class_of e' = class_of e).
Proof. exact foreign_tag_uri_refuted. Qed.
Print Assumptions C47_foreign_tag_uri_refuted.
(** a coding scheme where the filter value belongs *)
Theorem C47_scheme_as_filter : forall e s s' c, 
  In (class_of e) tag_classes -> class_of e <> C_GID -> member_class s = Some (class_of e) ->
  member_class s' = Some c -> call_binary e [] (mkKw (Some s) (Some s') false) = Raise ValueError.
Proof. exact scheme_as_filter. Qed.
Print Assumptions C47_scheme_as_filter.
Example C47_scheme_as_filter_case :
  match init_of C_SGTIN (lit "urn:epc:id:sgtin:0614141.812345.6789") with
  | Ok e => call_binary e [] (mkKw (Some (M_SGTIN SGTIN_96)) (Some (M_SGTIN SGTIN_198)) false) = Raise ValueError
  | _ => False end.
Proof. vm_compute. repeat split; reflexivity. Qed.
(** whatever the arguments, a tag that binary returns is one of the object it was called on *)
Theorem C47_binary_call : forall e args k b, 
  call_binary e args k = Ok b -> exists q, req_epc q = e /\ req_binary q = Ok b.
Proof. exact binary_call. Qed.
Print Assumptions C47_binary_call.
Example C47_binary_call_case :
  match init_of C_GID (lit "urn:epc:id:gid:95100000.12345.400") with
  | Ok e =>
      call_binary e [] kw_none = call_binary e [M_GID GID_96] kw_none /\
      call_binary e [] (mkKw None (Some (M_filter 0)) false) = Raise TypeError /\
      call_binary e [M_filter 0] kw_none = Raise KeyError /\
      call_binary e [M_GID GID_96; M_filter 0] kw_none = Raise TypeError /\
      match call_binary e [] kw_none with Ok b => length b = 96%nat | _ => False end
  | _ => False end.
Proof. vm_compute. repeat split; reflexivity. Qed.
(** TypeError means that the arguments do not fit the parameters, and nothing else does *)
Theorem C47_type_errors : forall c u e args k,
  In c tag_classes -> init_of c u = Ok e ->
  (call_tag_uri e args k = Raise TypeError <-> ~ well_called c (tag_uri_order c) args k) /\
  (call_binary e args k = Raise TypeError <-> ~ well_called c (binary_order c) args k) /\
  (call_hex e args k = Raise TypeError <-> ~ well_called c (binary_order c) [] k) /\
  (call_base64 e args k = Raise TypeError <-> ~ well_called c (binary_order c) [] k).
Proof. exact type_errors. Qed.
Print Assumptions C47_type_errors.
(** however the arguments are given, the call does what it does with keywords *)
Theorem C47_same_as_keywords : forall c u e args k s f,
  In c tag_classes -> init_of c u = Ok e ->
  (f = None <-> c = C_GID) ->
  (well_called c (tag_uri_order c) args k -> gives (tag_uri_order c) args k P_scheme s ->
     (forall m, f = Some m -> gives (tag_uri_order c) args k P_filter m) ->
     call_tag_uri e args k = call_tag_uri e [] (mkKw (Some s) f false)) /\
  (well_called c (binary_order c) args k -> gives (binary_order c) args k P_scheme s ->
     (forall m, f = Some m -> gives (binary_order c) args k P_filter m) ->
     call_binary e args k = call_binary e [] (mkKw (Some s) f false)).
Proof. exact same_as_keywords. Qed.
Print Assumptions C47_same_as_keywords.
(** one argument by position and one by keyword; the same parameter twice *)
Example C47_mixed_case :
  match init_of C_ITIP (lit "urn:epc:id:itip:4012345.012345.01.02.987") with
  | Ok e =>
      let k := mkKw None (Some (M_filter 1)) false in let s := M_ITIP ITIP_110 in
      gives (tag_uri_order C_ITIP) [s] k P_scheme s /\ gives (tag_uri_order C_ITIP) [s] k P_filter (M_filter 1) /\
      call_tag_uri e [s] k = Ok (lit "urn:epc:tag:itip-110:1.4012345.012345.01.02.987") /\
      call_binary e [s] k = Raise TypeError /\ ~ well_called C_ITIP (binary_order C_ITIP) [s] k
  | _ => False end.
Proof.
  vm_compute. split; [left; exists 0%nat; split; reflexivity|]. split; [right; reflexivity|]. repeat (split; [reflexivity|]).
  intros (_ & _ & _ & H). destruct (H 0%nat _ eq_refl) as [K _]. discriminate (K ltac:(repeat constructor)).
Qed.
