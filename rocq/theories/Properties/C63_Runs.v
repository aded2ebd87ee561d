(** What a caller of epcpy sees: C63.

    These statements are about runs of the source text on the machine and about texts; no function of the model occurs in them.
    [parses f s v]: parsers.f(s) returns [v]; [answers v m kws v']: [v.m()] with the keywords [kws] returns [v'] (SpecRuns.v). *)
From Coq Require Import String.
From Verif.Model Require Import Py PyFormat Syntax Machine.
From Verif.Model Require Sgtin Parsers.
From Verif.Source Require Import Program World.
From Verif.Spec Require Import Spec SpecEscapes SpecGrammar SpecSchemes SpecLayout SpecElements SpecErrors SpecHex SpecRuns.
From Verif.Proofs Require CtorA RunsAll.

(** Every call of a parser ends, for every text: with an object that its own URI makes again, with a text, or with one of the named
    exceptions.  [fits]: 2^100. *)
Theorem C63_every_call_ends :
  (forall s f, In f ["epc_pure_identity_to_scheme"; "epc_pure_identity_to_gs1_element"; "epc_pure_identity_to_gs1_keyed";
                     "epc_pure_identity_to_tag_encodable"; "tag_uri_to_tag_encodable"; "_idpat_to_gs1_keyed_scheme"]%string ->
     ends f [VStr s] [] is_object (uri_refused s)) /\
  (forall s, ends "binary_to_tag_encodable" [VStr s] [] is_object refused) /\
  (forall s, fits (length s * 4) -> ends "hex_to_tag_encodable" [VStr s] [] is_object refused) /\
  (forall s, fits (length s * 8) -> ends "base64_to_tag_encodable" [VStr s] [] is_object refused) /\
  (forall s n, ends "gs1_element_string_to_gs1_element" [VStr s; VInt n] [] is_object refused) /\
  (forall s, ends "epc_pure_identity_to_gs1_element_string" [VStr s] [] is_text (fun x => refused x \/ x = IndexError)) /\
  (forall s kws, gtin_keyword kws ->
     ends "epc_pure_identity_to_gs1_key" [VStr s] kws is_text (fun x => uri_refused s x \/ (x = TypeError /\ kws <> []))) /\
  (forall s args kws, args = [VStr s] \/ (exists n, args = [VStr s; VInt n]) -> gtin_keyword kws -> fits (length s * 4) ->
     ends "get_gs1_key" args kws is_text (fun x => refused x \/ (x = TypeError /\ kws <> []))).
Proof. exact RunsAll.halts. Qed.
Print Assumptions C63_every_call_ends.

(** the object made from a URI has it as its [epc_uri] *)
Theorem C63_own_uri : forall u v, parses "epc_pure_identity_to_scheme" u v -> attribute v "epc_uri" (VStr u).
Proof. exact RunsAll.own_uri. Qed.
Print Assumptions C63_own_uri.

(** what [tag_uri] returns is read as the same object *)
Theorem C63_tag_uri_back : forall u v kws t,
  parses "epc_pure_identity_to_scheme" u v -> tag_keywords v kws -> answers v "tag_uri" kws (VStr t) ->
  (forall body, u = lit "urn:epc:id:giai:" ++ body -> ~ In 58%N body) -> parses "tag_uri_to_tag_encodable" t v.
Proof. exact RunsAll.tag_uri_back. Qed.
Print Assumptions C63_tag_uri_back.

(** and where [tag_uri] returns, [binary], [hex] and [base64] return and are read as the same object *)
Theorem C63_tags_back : forall u v kws t,
  parses "epc_pure_identity_to_scheme" u v -> tag_keywords v kws -> answers v "tag_uri" kws (VStr t) -> tag_safe u ->
  exists b h s, answers v "binary" kws (VStr b) /\ answers v "hex" kws (VStr h) /\ answers v "base64" kws (VStr s) /\
    bitstring b /\ hex_text h /\
    parses "binary_to_tag_encodable" b v /\ parses "hex_to_tag_encodable" h v /\ parses "base64_to_tag_encodable" s v.
Proof. exact RunsAll.tags_back. Qed.
Print Assumptions C63_tags_back.

(** the element string, with the length of the company prefix, is read as the same object *)
Theorem C63_elements_back : forall u v cp,
  parses "epc_pure_identity_to_scheme" u v -> element_safe u cp ->
  exists g, parses "epc_pure_identity_to_gs1_element_string" u (VStr g) /\
    calls W (VFun "parsers.gs1_element_string_to_gs1_element") [VStr g; VInt (Z.of_nat (length cp))] [] (Returned v).
Proof. exact RunsAll.elements_back. Qed.
Print Assumptions C63_elements_back.

(** [==] compares the URIs, which determine the objects *)
Theorem C63_equal : forall u u' v v',
  parses "epc_pure_identity_to_scheme" u v -> parses "epc_pure_identity_to_scheme" u' v' ->
  exists b, invokes W v "__eq__" [v'] [] (Returned (VBool b)) /\ (b = true <-> u = u') /\ (u = u' <-> v = v').
Proof. exact RunsAll.equal_uris. Qed.
Print Assumptions C63_equal.

(** the key of the URI is what [get_gs1_key] finds in the URI, in the tag URI, in the bits and in the hexadecimal digits *)
Theorem C63_keys_agree : forall u v gk k,
  parses "epc_pure_identity_to_scheme" u v -> gtin_keyword gk ->
  calls W (VFun "parsers.epc_pure_identity_to_gs1_key") [VStr u] gk (Returned k) ->
  (fits (length u * 4) -> calls W (VFun "parsers.get_gs1_key") [VStr u] gk (Returned k)) /\
  forall kws t, tag_keywords v kws -> answers v "tag_uri" kws (VStr t) ->
    (fits (length t * 4) -> calls W (VFun "parsers.get_gs1_key") [VStr t] gk (Returned k)) /\
    (tag_safe u -> exists b h, answers v "binary" kws (VStr b) /\ answers v "hex" kws (VStr h) /\
       calls W (VFun "parsers.get_gs1_key") [VStr b] gk (Returned k) /\ calls W (VFun "parsers.get_gs1_key") [VStr h] gk (Returned k)).
Proof. exact RunsAll.keys_agree. Qed.
Print Assumptions C63_keys_agree.

(** an object, keywords and a safe URI with an escape in it *)
Definition C63_uri : str := lit "urn:epc:id:sgtin:0614141.812345.32a%2Fb".
Definition C63_object : value := VObj "sgtin.SGTIN"
  [("epc_uri"%string, VStr C63_uri); ("_base64"%string, VNone); ("_binary"%string, VNone); ("_hex"%string, VNone); ("_tag_uri"%string, VNone);
   ("_company_pref"%string, VStr (lit "0614141")); ("_item_ref"%string, VStr (lit "812345")); ("_serial"%string, VStr (lit "32a%2Fb"));
   ("_gtin"%string, VStr (lit "80614141123458"))].
Definition C63_keywords : list (string * value) :=
  [("filter_value"%string, VEnum "sgtin.SGTINFilterValue" "UNIT_LOAD" (VStr (lit "6")));
   ("binary_coding_scheme"%string, VEnum "sgtin.SGTIN.BinaryCodingScheme" "SGTIN_198" (VStr (lit "sgtin-198")))].
Example C63_object_case :
  parses "epc_pure_identity_to_scheme" C63_uri C63_object /\ tag_keywords C63_object C63_keywords /\
  answers C63_object "tag_uri" C63_keywords (VStr (lit "urn:epc:tag:sgtin-198:6.0614141.812345.32a%2Fb")) /\ tag_safe C63_uri.
Proof.
  split; [exists (300 * 100)%nat; vm_compute; reflexivity|]. split.
  { exists "sgtin.SGTIN"%string. eexists. split; [eexists; reflexivity|]. split; [vm_compute; right; left; reflexivity|].
    eexists. split; [|right; reflexivity]. vm_compute. auto 10. }
  split; [exists (300 * 100)%nat; vm_compute; reflexivity|].
  split; [intros c H; vm_compute in H; repeat (destruct H as [<-|H]; [reflexivity|]); destruct H|].
  split.
  { intros p body P E. exists (lit "0614141.812345.32a/b"). cbn [In] in P.
    repeat (destruct P as [<-|P]; [first [discriminate E | vm_compute in E; repeat (injection E as E); subst; vm_compute; reflexivity]|]). destruct P. }
  split; [intros body E; discriminate E|]. split; [intros cp i p t s U; destruct U as (E & _); discriminate E|intros c p s U; destruct U as (E & _); discriminate E].
Qed.
Example C63_element_case : element_safe C63_uri (lit "0614141").
Proof.
  exists Parsers.C_SGTIN. exists (lit "812345.32a%2Fb"). split; [reflexivity|]. split; [vm_compute; intuition discriminate|].
  destruct (Sgtin.sgtin_init C63_uri) as [x|] eqn:E; [|vm_compute in E; discriminate E].
  pose proof (proj1 (proj1 (CtorA.sgtin_iff _ _) E)) as U. vm_compute in E. injection E as <-. cbn in U.
  exists (lit "812345"), (lit "32a%2Fb"). split; [exact U|]. split.
  - exists (lit "32a/b"). split; [discriminate|]. split; [|reflexivity].
    intros c H. cbn in H. decompose [or] H; subst; try contradiction; vm_compute; repeat first [left; reflexivity|right].
  - intros (a & g & b & H & _). assert (I : In 40%N (unescape (lit "32a%2Fb"))) by (rewrite H; apply in_or_app; right; left; reflexivity).
    vm_compute in I. intuition discriminate.
Qed.
(** a text of each kind of outcome *)
Example C63_ends_case :
  calls W (VFun "parsers.hex_to_tag_encodable") [VStr (lit "35ZZ")] [] (Raised (XExn ValueError)) /\
  calls W (VFun "parsers.tag_uri_to_tag_encodable") [VStr (lit "urn:epc:tag")] [] (Raised (XExn IndexError)) /\
  calls W (VFun "parsers.tag_uri_to_tag_encodable") [VStr (lit "urn:epc:tag:")] [] (Raised (XExn ConvertException)).
Proof. repeat split; exists (300 * 100)%nat; vm_compute; reflexivity. Qed.

(** [tag_safe] is needed: an escape in lower case comes back from a tag in upper case, as another object *)
Theorem C63_unsafe_refuted : exists u v kws t b v',
  parses "epc_pure_identity_to_scheme" u v /\ tag_keywords v kws /\ answers v "tag_uri" kws (VStr t) /\ answers v "binary" kws (VStr b) /\
  parses "binary_to_tag_encodable" b v' /\ v' <> v.
Proof. exact RunsAll.unsafe_refuted. Qed.
Print Assumptions C63_unsafe_refuted.
(** and a GIAI with a further colon comes back from its tag URI without it *)
Theorem C63_giai_refuted : exists u v kws t v',
  parses "epc_pure_identity_to_scheme" u v /\ tag_keywords v kws /\ answers v "tag_uri" kws (VStr t) /\
  parses "tag_uri_to_tag_encodable" t v' /\ v' <> v.
Proof. exact RunsAll.giai_refuted. Qed.
Print Assumptions C63_giai_refuted.
