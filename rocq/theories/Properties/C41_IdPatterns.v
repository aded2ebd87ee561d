(** ID patterns in get_gs1_key: C41. *)
From Coq Require Import String Lia.
From Verif.Model Require Import Py Re Regexes Common Base.
From Verif.Model Require Import Adi Cpi Gdti Giai Gid Grai Gsrn Gsrnp Itip Lgtin Sgcn Sgln Sgtin Sscc Usdod Others Parsers.
From Verif.Spec Require Import Spec SpecEscapes SpecGrammar SpecSchemes SpecElements SpecTags SpecLayout SpecCoding SpecHex SpecKeys.
From Verif.Proofs Require Import GetKey Idpat.

(** a pattern has the key of the URI it is spelled like, wildcards being ordinary characters; every pattern text *)
Theorem C41_pattern : forall c r l g, 
  In c keyed_classes -> c <> C_LGTIN -> key_via (init_of c (scheme_prefix c ++ r)) g (get_gs1_key (idpat_of c r) l g).
Proof. exact idpat_key. Qed.
Print Assumptions C41_pattern.
Theorem C41_other : forall t l g, 
  (forall c r, In c keyed_classes -> c <> C_LGTIN -> t <> scheme_name c ++ lit ":" ++ r) ->
  get_gs1_key (lit "urn:epc:idpat:" ++ t) l g = Raise ConvertException.
Proof. exact idpat_refused. Qed.
Print Assumptions C41_other.
(** a wildcard for the serial *)
Theorem C41_sgtin : forall cp i rest gtin l, 
  company_prefix cp -> digits (i :: rest) -> (length cp + length (i :: rest) = 13)%nat -> completed (i :: cp ++ rest) gtin ->
  get_gs1_key (lit "urn:epc:idpat:sgtin:" ++ cp ++ lit "." ++ (i :: rest) ++ lit ".*") l None = Ok gtin.
Proof. exact sgtin_star. Qed.
Print Assumptions C41_sgtin.
Theorem C41_sgln : forall cp loc gln l, 
  company_prefix cp -> digits loc -> (length cp + length loc = 12)%nat -> completed (cp ++ loc) gln ->
  get_gs1_key (lit "urn:epc:idpat:sgln:" ++ cp ++ lit "." ++ loc ++ lit ".*") l None = Ok gln.
Proof. exact sgln_star. Qed.
Print Assumptions C41_sgln.
Theorem C41_grai : forall cp asset k l, 
  company_prefix cp -> digits asset -> (length cp + length asset = 12)%nat -> completed (cp ++ asset) k ->
  get_gs1_key (lit "urn:epc:idpat:grai:" ++ cp ++ lit "." ++ asset ++ lit ".*") l None = Ok (k ++ lit "*").
Proof. exact grai_star. Qed.
Print Assumptions C41_grai.
Theorem C41_gdti : forall cp doc k l, 
  company_prefix cp -> digits doc -> (length cp + length doc = 12)%nat -> completed (cp ++ doc) k ->
  get_gs1_key (lit "urn:epc:idpat:gdti:" ++ cp ++ lit "." ++ doc ++ lit ".*") l None = Ok (k ++ lit "*").
Proof. exact gdti_star. Qed.
Print Assumptions C41_gdti.
Theorem C41_giai : forall cp l, 
  company_prefix cp -> get_gs1_key (lit "urn:epc:idpat:giai:" ++ cp ++ lit ".*") l None = Ok (cp ++ lit "*").
Proof. exact giai_star. Qed.
Print Assumptions C41_giai.
Theorem C41_ginc : forall cp l, 
  company_prefix cp -> get_gs1_key (lit "urn:epc:idpat:ginc:" ++ cp ++ lit ".*") l None = Ok (cp ++ lit "*").
Proof. exact ginc_star. Qed.
Print Assumptions C41_ginc.
Theorem C41_sgcn : forall p q l g, 
  ~ In 46 p -> ~ In 46 q -> get_gs1_key (lit "urn:epc:idpat:sgcn:" ++ p ++ lit "." ++ q ++ lit ".*") l g = Raise ConvertException.
Proof. exact sgcn_star. Qed.
Print Assumptions C41_sgcn.
(** a wildcard for the reference or the company prefix *)
Theorem C41_reference : forall c p q l g, 
  In c keyed_by_reference -> ~ In 46 p ->
  get_gs1_key (idpat_of c (p ++ lit ".*" ++ q)) l g = Raise ConvertException.
Proof. exact reference_star. Qed.
Print Assumptions C41_reference.
Theorem C41_company_prefix : forall c q l g, 
  In c keyed_classes -> get_gs1_key (idpat_of c (lit "*" ++ q)) l g = Raise ConvertException.
Proof. exact prefix_star. Qed.
Print Assumptions C41_company_prefix.

Definition C41_key (s : string) : res str := get_gs1_key (lit "urn:epc:idpat:" ++ lit s) None None.
Example C41_case :
  C41_key "sgtin:0614141.812345.*" = Ok (lit "80614141123458") /\ C41_key "sgtin:0614141.812345.6789" = Ok (lit "80614141123458") /\
  C41_key "sgln:0614141.12345.*" = Ok (lit "0614141123452") /\ C41_key "grai:0614141.12345.*" = Ok (lit "0614141123452*") /\
  C41_key "gdti:0614141.12345.*" = Ok (lit "0614141123452*") /\ C41_key "giai:0614141.*" = Ok (lit "0614141*") /\
  C41_key "ginc:0614141.*" = Ok (lit "0614141*") /\ C41_key "sgcn:0614141.12345.*" = Raise ConvertException /\
  C41_key "sgtin:0614141.*.*" = Raise ConvertException /\ C41_key "sgtin:*.*.*" = Raise ConvertException /\
  C41_key "sscc:0614141.*" = Raise ConvertException /\ C41_key "lgtin:0614141.812345.*" = Raise ConvertException /\
  C41_key "cpi:0614141.123.*" = Raise ConvertException.
Proof. repeat split; vm_compute; reflexivity. Qed.
(** the hypotheses of [C41_sgtin] and [C41_sgln] are met *)
Example C41_hypotheses_case : company_prefix (lit "0614141") /\ digits (lit "812345") /\
  completed (lit "8061414112345") (lit "80614141123458") /\ completed (lit "061414112345") (lit "0614141123452").
Proof.
  assert (D : forall s, forallb (fun c => match udigit c with Some _ => true | None => false end) s = true -> digits s).
  { intros s H c J. apply (proj1 (forallb_forall _ _) H) in J. intros X. rewrite X in J. discriminate J. }
  split; [split; [apply D; vm_compute; reflexivity|cbn; lia]|]. split; [apply D; vm_compute; reflexivity|].
  split; [exists 8|exists 2]; (split; [reflexivity|]); (split; [reflexivity|]); vm_compute; reflexivity.
Qed.
