(** Tag URIs and their round trip: C08. *)
From Coq Require Import String.
From Verif.Model Require Import Py Common Base.
From Verif.Model Require Import Adi Cpi Gdti Giai Gid Grai Gsrn Gsrnp Itip Lgtin Sgcn Sgln Sgtin Sscc Usdod Others Parsers Calls.
From Verif.Spec Require Import Spec SpecEscapes SpecGrammar SpecSchemes.
From Verif.Proofs Require Import TagUri TagUri2 FilterFlag.

(** the text of a tag URI *)
Theorem C08_tag_uri_spelling : forall q u t, 
  init_of (class_of (req_epc q)) u = Ok (req_epc q) -> req_tag_uri q = Ok t ->
  exists body ignored filter, u = scheme_prefix (class_of (req_epc q)) ++ body ++ ignored /\
    (ignored = [] \/ (class_of (req_epc q) = C_GIAI /\ (exists r, ignored = 58 :: r) /\ ~ In 58 body)) /\
    filter_part (req_filter q) filter /\
    t = lit "urn:epc:tag:" ++ req_coding q ++ lit ":" ++ filter ++ body.
Proof. exact tag_uri_spelling. Qed.
Print Assumptions C08_tag_uri_spelling.
Example C08_tag_uri_spelling_case :
  match sgtin_init (lit "urn:epc:id:sgtin:0614141.812345.32a%2Fb") with
  | Ok x => match req_tag_uri (T_SGTIN x SGTIN_198 3) with
            | Ok t => str_eqb t (lit "urn:epc:tag:sgtin-198:3.0614141.812345.32a%2Fb")
            | Raise _ => false
            end
  | Raise _ => false
  end = true.
Proof. vm_compute. reflexivity. Qed.

(** a tag URI gives the object back, through its class and through the generic parser *)
Theorem C08_tag_uri_roundtrip : forall q u t, 
  init_of (class_of (req_epc q)) u = Ok (req_epc q) -> req_tag_uri q = Ok t ->
  (class_of (req_epc q) = C_GIAI -> exists body, u = lit "urn:epc:id:giai:" ++ body /\ ~ In 58 body) ->
  from_tag_uri_of (class_of (req_epc q)) t = Ok (req_epc q) /\ tag_uri_to_tag_encodable t = Ok (req_epc q).
Proof. exact tag_uri_roundtrip. Qed.
Print Assumptions C08_tag_uri_roundtrip.
Example C08_tag_uri_roundtrip_case :
  match init_of C_CPI (lit "urn:epc:id:cpi:0614141.5PQ7%2FZ43.12345"), init_of C_GID (lit "urn:epc:id:gid:95100000.12345.400") with
  | Ok (E_CPI x), Ok (E_GID y) =>
      match req_tag_uri (T_CPI x CPI_VAR 7), req_tag_uri (T_GID y GID_96) with
      | Ok t, Ok t' =>
          match tag_uri_to_tag_encodable t, tag_uri_to_tag_encodable t' with
          | Ok e, Ok e' => epc_eqb e (E_CPI x) && epc_eqb e' (E_GID y)
          | _, _ => false
          end
      | _, _ => false
      end
  | _, _ => false
  end = true.
Proof. vm_compute. reflexivity. Qed.

(** GIAI: the constructor ignores what follows a further colon, so the tag URI gives the object back exactly
    when the URI has none *)
Theorem C08_giai_tag_uri : forall x u s f t, 
  giai_init u = Ok x -> giai_tag_uri x s f = Ok t ->
  exists y, giai_from_tag_uri t = Ok y /\ giai_cp y = giai_cp x /\ giai_asset y = giai_asset x /\ giai_giai y = giai_giai x /\
    (giai_epc_uri y = giai_epc_uri x <-> exists body, u = lit "urn:epc:id:giai:" ++ body /\ ~ In 58 body).
Proof. exact giai_tag_uri_cut. Qed.
Print Assumptions C08_giai_tag_uri.
(** the claim without that condition is false *)
Theorem C08_giai_colon_refuted :
  exists u x t y, giai_init u = Ok x /\ giai_tag_uri x GIAI_202 0 = Ok t /\ giai_from_tag_uri t = Ok y /\
    epc_eqb (E_GIAI y) (E_GIAI x) = false.
Proof. exact giai_colon_refuted. Qed.
Print Assumptions C08_giai_colon_refuted.

(** with includes_filter at odds with the scheme, from_tag_uri() never takes a tag URI that tag_uri() wrote *)
Theorem C08_wrong_filter_flag : forall q u t,
  init_of (class_of (req_epc q)) u = Ok (req_epc q) -> req_tag_uri q = Ok t ->
  (forall f, req_filter q = Some f -> f < 100) ->
  from_tag_uri_flag (class_of (req_epc q)) t (match req_filter q with Some _ => true | None => false end) = from_tag_uri_of (class_of (req_epc q)) t /\
  forall e, from_tag_uri_flag (class_of (req_epc q)) t (match req_filter q with Some _ => false | None => true end) <> Ok e.
Proof. exact wrong_flag. Qed.
Print Assumptions C08_wrong_filter_flag.
Example C08_wrong_filter_flag_case :
  from_tag_uri_flag C_SGTIN (lit "urn:epc:tag:sgtin-96:3.0614141.112345.400") false = Raise ConvertException /\
  from_tag_uri_flag C_GID (lit "urn:epc:tag:gid-96:95100000.12345.400") true = Raise ConvertException /\
  match from_tag_uri_flag C_SGTIN (lit "urn:epc:tag:sgtin-96:3.0614141.112345.400") true with
  | Ok e => str_eqb (epc_uri e) (lit "urn:epc:id:sgtin:0614141.112345.400") | Raise _ => false end = true.
Proof. vm_compute. auto. Qed.
(** of tag URIs at large that is false: the number before the first dot can be a company prefix *)
Theorem C08_filter_flag_refuted : exists t e e',
  from_tag_uri_flag C_SGTIN t true = Ok e /\ from_tag_uri_flag C_SGTIN t false = Ok e' /\ epc_eqb e e' = false.
Proof. exact both_flags. Qed.
Print Assumptions C08_filter_flag_refuted.
