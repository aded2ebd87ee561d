(** Converting from one representation to another, and on. *)
From Coq Require Import String.
From Verif.Model Require Import Py Common Base.
From Verif.Model Require Import Adi Cpi Gdti Giai Gid Grai Gsrn Gsrnp Itip Lgtin Sgcn Sgln Sgtin Sscc Usdod Others Parsers.
From Verif.Spec Require Import Spec SpecEscapes SpecGrammar SpecSchemes SpecTags SpecLayout SpecCoding SpecElements SpecExact.

(** a pure identity URI, a tag URI, a tag in three notations, an element string with the length of its company prefix *)
Inductive representation :=
| R_pure (t : str) | R_tag_uri (t : str) | R_binary (t : str) | R_hex (t : str) | R_base64 (t : str) | R_element (t : str) (l : Z).
(** the parser for each of them *)
Definition read (r : representation) : res epc :=
  match r with
  | R_pure t => epc_pure_identity_to_scheme t
  | R_tag_uri t => tag_uri_to_tag_encodable t
  | R_binary t => binary_to_tag_encodable t
  | R_hex t => hex_to_tag_encodable t
  | R_base64 t => base64_to_tag_encodable t
  | R_element t l => gs1_element_string_to_gs1_element t l
  end.
(** the request to write on a tag is one that survives *)
Definition safe_request (q : tagreq) : Prop :=
  proper_request q (epc_uri (req_epc q)) /\ forall x s f, q = T_ADI x s f -> no_early_zeros (adi_part x).
(** [r] is written from the object [e], with any coding scheme and filter value that suits it *)
Definition written (e : epc) (r : representation) : Prop :=
  match r with
  | R_pure t => t = epc_uri e
  | R_tag_uri t => exists q, req_epc q = e /\ req_tag_uri q = Ok t
  | R_binary t => exists q, req_epc q = e /\ safe_request q /\ req_binary q = Ok t
  | R_hex t => exists q, req_epc q = e /\ safe_request q /\ req_hex q = Ok t
  | R_base64 t => exists q, req_epc q = e /\ safe_request q /\ req_base64 q = Ok t
  | R_element t l => epc_gs1_element_string e = Ok t /\ exists cp rest, epc_uri e = scheme_prefix (class_of e) ++ cp ++ lit "." ++ rest /\
      ~ In 46 cp /\ l = Z.of_nat (length cp) /\ element_exact (class_of e) (epc_uri e) cp
  end.
(** one conversion, and any number of them one after the other *)
Inductive converts : representation -> representation -> Prop :=
| conversion r e r' : read r = Ok e -> written e r' -> converts r r'.
Inductive converted : representation -> representation -> Prop :=
| converted_none r : converted r r
| converted_more r r' r'' : converted r r' -> converts r' r'' -> converted r r''.
