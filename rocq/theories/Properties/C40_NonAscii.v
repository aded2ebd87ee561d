(** Digits of other scripts: accepted, kept in keys, lost in tags: C40. *)
From Coq Require Import String Lia.
From Verif.Model Require Import Py Re Regexes Common Base.
From Verif.Model Require Import Adi Cpi Gdti Giai Gid Grai Gsrn Gsrnp Itip Lgtin Sgcn Sgln Sgtin Sscc Usdod Others Parsers.
From Verif.Spec Require Import Spec SpecEscapes SpecGrammar SpecSchemes SpecElements SpecTags SpecLayout SpecCoding SpecKeys.
From Verif.Proofs Require Import NonAscii.

(** every decimal digit Unicode knows is accepted, and ends up in the key *)
Theorem C40_any_script : forall d, 
  udigit d <> None -> exists e k,
  init_of C_SGTIN (lit "urn:epc:id:sgtin:061414" ++ [d] ++ lit ".812345.6789") = Ok e /\ epc_gs1_key e None = Ok k /\ In d k.
Proof. exact any_script. Qed.
Print Assumptions C40_any_script.
Example C40_any_script_case : udigit 1633 = Some 1 /\ udigit 0x1D7E7 = Some 5 /\
  match init_of C_SGTIN (lit "urn:epc:id:sgtin:061414" ++ [1633] ++ lit ".812345.6789") with
  | Ok e => epc_gs1_key e None = Ok (lit "8061414" ++ [1633] ++ lit "123458") | Raise _ => False end.
Proof. repeat split; vm_compute; reflexivity. Qed.
(** key, element string and tag URI are ASCII exactly when the URI is *)
Theorem C40_key_ascii : forall c u e g k, 
  init_of c u = Ok e -> epc_gs1_key e g = Ok k -> (ascii k <-> ascii u).
Proof. exact key_ascii. Qed.
Print Assumptions C40_key_ascii.
Theorem C40_element_string_ascii : forall c u e g, 
  init_of c u = Ok e -> epc_gs1_element_string e = Ok g -> (ascii g <-> ascii u).
Proof. exact element_string_ascii. Qed.
Print Assumptions C40_element_string_ascii.
Theorem C40_tag_uri_ascii : forall q u t, 
  init_of (class_of (req_epc q)) u = Ok (req_epc q) -> req_tag_uri q = Ok t -> (ascii t <-> ascii u).
Proof. exact tag_uri_ascii. Qed.
Print Assumptions C40_tag_uri_ascii.
Example C40_ascii_case :
  match init_of C_SGTIN (lit "urn:epc:id:sgtin:061414" ++ [1633] ++ lit ".812345.6789") with
  | Ok (E_SGTIN x) =>
      epc_gs1_key (E_SGTIN x) None = Ok (lit "8061414" ++ [1633] ++ lit "123458") /\
      epc_gs1_key (E_SGTIN x) (Some GTIN13) = Raise ConvertException /\
      epc_gs1_element_string (E_SGTIN x) = Ok (lit "(01)8061414" ++ [1633] ++ lit "123458(21)6789") /\
      req_tag_uri (T_SGTIN x SGTIN_96 3) = Ok (lit "urn:epc:tag:sgtin-96:3.061414" ++ [1633] ++ lit ".812345.6789")
  | _ => False end /\
  match init_of C_SSCC (lit "urn:epc:id:sscc:0614141.1234567890") with
  | Ok e => epc_gs1_key e None = Ok (lit "106141412345678908") | Raise _ => False end.
Proof. repeat split; vm_compute; reflexivity. Qed.
(** with ASCII digits in their place the URI is accepted too and has the same key in ASCII digits, but is equal only if nothing
    was replaced; this is what a tag yields *)
Theorem C40_ascii_form_accepted : forall c u e, 
  init_of c u = Ok e ->
  exists e', init_of c (ascii_form u) = Ok e' /\ ascii (ascii_form u) /\ (epc_eqb e' e = true <-> ascii u) /\
    (forall k, epc_gs1_key e None = Ok k -> epc_gs1_key e' None = Ok (ascii_form k)).
Proof. exact ascii_form_accepted. Qed.
Print Assumptions C40_ascii_form_accepted.
Theorem C40_binary : forall q u t, 
  init_of (class_of (req_epc q)) u = Ok (req_epc q) -> req_tag_uri q = Ok t ->
  canonical_request q -> filter_fits q -> pieces_fit q ->
  (class_of (req_epc q) = C_GIAI -> exists body, u = lit "urn:epc:id:giai:" ++ body /\ ~ In 58 body) ->
  ~ ascii u ->
  exists b e, req_binary q = Ok b /\ bitstring b /\ from_binary_of (class_of (req_epc q)) b = Ok e /\
    epc_uri e = ascii_form u /\ init_of (class_of (req_epc q)) (ascii_form u) = Ok e /\ epc_eqb e (req_epc q) = false.
Proof. exact binary_ascii. Qed.
Print Assumptions C40_binary.
Example C40_binary_case :
  ~ ascii (lit "urn:epc:id:sgtin:061414" ++ [1633] ++ lit ".812345.6789") /\
  ascii_form (lit "urn:epc:id:sgtin:061414" ++ [1633] ++ lit ".812345.6789") = lit "urn:epc:id:sgtin:0614141.812345.6789" /\
  match init_of C_SGTIN (lit "urn:epc:id:sgtin:061414" ++ [1633] ++ lit ".812345.6789") with
  | Ok (E_SGTIN x) =>
      (exists t, req_tag_uri (T_SGTIN x SGTIN_96 3) = Ok t) /\ canonical_request (T_SGTIN x SGTIN_96 3) /\
      filter_fits (T_SGTIN x SGTIN_96 3) /\ pieces_fit (T_SGTIN x SGTIN_96 3) /\
      match req_binary (T_SGTIN x SGTIN_96 3) with
      | Ok b => match from_binary_of C_SGTIN b with
                | Ok e => epc_uri e = lit "urn:epc:id:sgtin:0614141.812345.6789" /\ epc_eqb e (E_SGTIN x) = false
                | Raise _ => False end
      | Raise _ => False end
  | _ => False end.
Proof.
  split; [intros A; specialize (A 1633 ltac:(vm_compute; tauto)); discriminate A|]. split; [vm_compute; reflexivity|].
  vm_compute. repeat split. eexists. reflexivity.
Qed.
