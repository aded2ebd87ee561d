(** Keys and element strings: C04.  [completed body full] says that [full] is [body] followed by the digit
    satisfying the mod-10 law. *)
From Coq Require Import String.
From Verif.Model Require Import Py Common Base.
From Verif.Model Require Import Adi Cpi Gdti Giai Gid Grai Gsrn Gsrnp Itip Lgtin Sgcn Sgln Sgtin Sscc Usdod Others.
From Verif.Spec Require Import Spec SpecEscapes SpecGrammar.
From Verif.Proofs Require Import CtorA CtorB CtorC Keys.

(** every digit string has a completion, so the second hypothesis below can always be met *)
Theorem C04_completion_exists : forall s, exists k, completed s k.
Proof. exact completed_exists. Qed.
Print Assumptions C04_completion_exists.

Theorem C04_sgtin_keys : forall u cp i rest serial gtin, 
  sgtin_uri u cp (i :: rest) serial -> completed (i :: cp ++ rest) gtin ->
  exists x, sgtin_init u = Ok x /\ sgtin_gs1_key x GTIN14 = Ok gtin /\
    sgtin_gs1_element_string x = lit "(01)" ++ gtin ++ lit "(21)" ++ unescape serial.
Proof. exact sgtin_keys. Qed.
Print Assumptions C04_sgtin_keys.
Example C04_sgtin_case : sgtin_uri (lit "urn:epc:id:sgtin:0614141.812345.32a%2Fb") (lit "0614141") (lit "812345") (lit "32a%2Fb") /\
  completed (lit "8061414112345") (lit "80614141123458").
Proof.
  assert (B : sgtin_init (lit "urn:epc:id:sgtin:0614141.812345.32a%2Fb") = Ok (mkSgtin (lit "urn:epc:id:sgtin:0614141.812345.32a%2Fb") (lit "0614141") (lit "812345") (lit "32a%2Fb") (lit "80614141123458"))) by (vm_compute; reflexivity).
  apply sgtin_iff in B. destruct B as (U & _ & i & r & E & C). injection E as <- <-. exact (conj U C).
Qed.

Theorem C04_lgtin_keys : forall u cp i rest lot gtin, 
  lgtin_uri u cp (i :: rest) lot -> completed (i :: cp ++ rest) gtin ->
  exists x, lgtin_init u = Ok x /\ lgtin_gs1_key x GTIN14 = Ok gtin /\
    lgtin_gs1_element_string x = lit "(01)" ++ gtin ++ lit "(10)" ++ unescape lot.
Proof. exact lgtin_keys. Qed.
Print Assumptions C04_lgtin_keys.
Example C04_lgtin_case : exists lot, lgtin_uri (lit "urn:epc:class:lgtin:0614141.812345.6%2F89") (lit "0614141") (lit "812345") lot /\
  completed (lit "8061414112345") (lit "80614141123458").
Proof.
  assert (B : lgtin_init (lit "urn:epc:class:lgtin:0614141.812345.6%2F89") = Ok (mkLgtin (lit "urn:epc:class:lgtin:0614141.812345.6%2F89") (lit "0614141") (lit "812345") (lit "6/89") (lit "80614141123458"))) by (vm_compute; reflexivity).
  apply lgtin_iff in B. destruct B as (lot & U & _ & _ & i & r & E & C). injection E as <- <-. exact (ex_intro _ lot (conj U C)).
Qed.

Theorem C04_sscc_keys : forall u cp i rest sscc, 
  sscc_uri u cp (i :: rest) -> completed (i :: cp ++ rest) sscc ->
  exists x, sscc_init u = Ok x /\ sscc_gs1_key x = sscc /\ sscc_gs1_element_string x = lit "(00)" ++ sscc.
Proof. exact sscc_keys. Qed.
Print Assumptions C04_sscc_keys.
Example C04_sscc_case : sscc_uri (lit "urn:epc:id:sscc:0614141.1234567890") (lit "0614141") (lit "1234567890") /\
  completed (lit "10614141234567890") (lit "106141412345678908").
Proof.
  assert (B : sscc_init (lit "urn:epc:id:sscc:0614141.1234567890") = Ok (mkSscc (lit "urn:epc:id:sscc:0614141.1234567890") (lit "0614141") (lit "1234567890") (lit "106141412345678908"))) by (vm_compute; reflexivity).
  apply sscc_iff in B. destruct B as (U & _ & i & r & E & C). injection E as <- <-. exact (conj U C).
Qed.

Theorem C04_sgln_keys : forall u cp loc ext gln, 
  sgln_uri u cp loc ext -> completed (cp ++ loc) gln ->
  exists x, sgln_init u = Ok x /\ sgln_gs1_key x = gln /\
    sgln_gs1_element_string x = lit "(414)" ++ gln ++ lit "(254)" ++ unescape ext.
Proof. exact sgln_keys. Qed.
Print Assumptions C04_sgln_keys.
Example C04_sgln_case : sgln_uri (lit "urn:epc:id:sgln:0614141.12345.40%2F0") (lit "0614141") (lit "12345") (lit "40%2F0") /\
  completed (lit "061414112345") (lit "0614141123452").
Proof.
  assert (B : sgln_init (lit "urn:epc:id:sgln:0614141.12345.40%2F0") = Ok (mkSgln (lit "urn:epc:id:sgln:0614141.12345.40%2F0") (lit "0614141") (lit "12345") (lit "40%2F0") (lit "0614141123452"))) by (vm_compute; reflexivity).
  apply sgln_iff in B. destruct B as (U & _ & C). exact (conj U C).
Qed.

Theorem C04_grai_keys : forall u cp asset serial k, 
  grai_uri u cp asset serial -> completed (cp ++ asset) k ->
  exists x, grai_init u = Ok x /\ grai_gs1_key x = k ++ unescape serial /\
    grai_gs1_element_string x = lit "(8003)0" ++ k ++ unescape serial.
Proof. exact grai_keys. Qed.
Print Assumptions C04_grai_keys.
Example C04_grai_case : exists k, grai_uri (lit "urn:epc:id:grai:0614141.12345.40%2F0") (lit "0614141") (lit "12345") (lit "40%2F0") /\
  completed (lit "061414112345") k.
Proof.
  assert (B : grai_init (lit "urn:epc:id:grai:0614141.12345.40%2F0") = Ok (mkGrai (lit "urn:epc:id:grai:0614141.12345.40%2F0") (lit "0614141") (lit "12345") (lit "40%2F0") (lit "061414112345240/0"))) by (vm_compute; reflexivity).
  apply grai_iff in B. destruct B as (U & _ & k & C & _). exact (ex_intro _ k (conj U C)).
Qed.

Theorem C04_gdti_keys : forall u cp doc serial k, 
  gdti_uri u cp doc serial -> completed (cp ++ doc) k ->
  exists x, gdti_init u = Ok x /\ gdti_gs1_key x = k ++ unescape serial /\
    gdti_gs1_element_string x = lit "(253)" ++ k ++ unescape serial.
Proof. exact gdti_keys. Qed.
Print Assumptions C04_gdti_keys.
Example C04_gdti_case : exists k, gdti_uri (lit "urn:epc:id:gdti:0614141.12345.400") (lit "0614141") (lit "12345") (lit "400") /\
  completed (lit "061414112345") k.
Proof.
  assert (B : gdti_init (lit "urn:epc:id:gdti:0614141.12345.400") = Ok (mkGdti (lit "urn:epc:id:gdti:0614141.12345.400") (lit "0614141") (lit "12345") (lit "400") (lit "0614141123452400"))) by (vm_compute; reflexivity).
  apply gdti_iff in B. destruct B as (U & _ & k & C & _). exact (ex_intro _ k (conj U C)).
Qed.

Theorem C04_gsrn_keys : forall u cp service k, 
  gsrn_uri u cp service -> completed (cp ++ service) k ->
  exists x, gsrn_init u = Ok x /\ gsrn_gs1_key x = k /\ gsrn_gs1_element_string x = lit "(8018)" ++ k.
Proof. exact gsrn_keys. Qed.
Print Assumptions C04_gsrn_keys.
Example C04_gsrn_case : gsrn_uri (lit "urn:epc:id:gsrn:0614141.1234567890") (lit "0614141") (lit "1234567890") /\
  completed (lit "06141411234567890") (lit "061414112345678902").
Proof.
  assert (B : gsrn_init (lit "urn:epc:id:gsrn:0614141.1234567890") = Ok (mkGsrn (lit "urn:epc:id:gsrn:0614141.1234567890") (lit "0614141") (lit "1234567890") (lit "061414112345678902"))) by (vm_compute; reflexivity).
  apply gsrn_iff in B. destruct B as (U & _ & C). exact (conj U C).
Qed.

Theorem C04_gsrnp_keys : forall u cp service k, 
  gsrnp_uri u cp service -> completed (cp ++ service) k ->
  exists x, gsrnp_init u = Ok x /\ gsrnp_gs1_key x = k /\ gsrnp_gs1_element_string x = lit "(8017)" ++ k.
Proof. exact gsrnp_keys. Qed.
Print Assumptions C04_gsrnp_keys.
Example C04_gsrnp_case : gsrnp_uri (lit "urn:epc:id:gsrnp:0614141.1234567890") (lit "0614141") (lit "1234567890") /\
  completed (lit "06141411234567890") (lit "061414112345678902").
Proof.
  assert (B : gsrnp_init (lit "urn:epc:id:gsrnp:0614141.1234567890") = Ok (mkGsrnp (lit "urn:epc:id:gsrnp:0614141.1234567890") (lit "0614141") (lit "1234567890") (lit "061414112345678902"))) by (vm_compute; reflexivity).
  apply gsrnp_iff in B. destruct B as (U & _ & C). exact (conj U C).
Qed.

Theorem C04_sgcn_keys : forall u cp coupon serial k, 
  sgcn_uri u cp coupon serial -> completed (cp ++ coupon) k ->
  exists x, sgcn_init u = Ok x /\ sgcn_gs1_key x = k ++ serial /\ sgcn_gs1_element_string x = lit "(255)" ++ k ++ serial.
Proof. exact sgcn_keys. Qed.
Print Assumptions C04_sgcn_keys.
Example C04_sgcn_case : exists k, sgcn_uri (lit "urn:epc:id:sgcn:4012345.67890.04711") (lit "4012345") (lit "67890") (lit "04711") /\
  completed (lit "401234567890") k.
Proof.
  assert (B : sgcn_init (lit "urn:epc:id:sgcn:4012345.67890.04711") = Ok (mkSgcn (lit "urn:epc:id:sgcn:4012345.67890.04711") (lit "4012345") (lit "67890") (lit "04711") (lit "401234567890104711"))) by (vm_compute; reflexivity).
  apply sgcn_iff in B. destruct B as (U & _ & k & C & _). exact (ex_intro _ k (conj U C)).
Qed.

Theorem C04_pgln_keys : forall u cp party k, 
  pgln_uri u cp party -> completed (cp ++ party) k ->
  exists x, pgln_init u = Ok x /\ pgln_gs1_key x = k /\ pgln_gs1_element_string x = lit "(417)" ++ k.
Proof. exact pgln_keys. Qed.
Print Assumptions C04_pgln_keys.
Example C04_pgln_case : pgln_uri (lit "urn:epc:id:pgln:061414112345.") (lit "061414112345") [] /\
  completed (lit "061414112345") (lit "0614141123452").
Proof.
  assert (B : pgln_init (lit "urn:epc:id:pgln:061414112345.") = Ok (mkPgln (lit "urn:epc:id:pgln:061414112345.") (lit "061414112345") (lit "") (lit "0614141123452"))) by (vm_compute; reflexivity).
  apply pgln_iff in B. destruct B as (U & _ & C). exact (conj U C).
Qed.

Theorem C04_gsin_keys : forall u cp ref k, 
  gsin_uri u cp ref -> completed (cp ++ ref) k ->
  exists x, gsin_init u = Ok x /\ gsin_gs1_key x = k /\ gsin_gs1_element_string x = lit "(402)" ++ k.
Proof. exact gsin_keys. Qed.
Print Assumptions C04_gsin_keys.
Example C04_gsin_case : gsin_uri (lit "urn:epc:id:gsin:0614141.123456789") (lit "0614141") (lit "123456789") /\
  completed (lit "0614141123456789") (lit "06141411234567890").
Proof.
  assert (B : gsin_init (lit "urn:epc:id:gsin:0614141.123456789") = Ok (mkGsin (lit "urn:epc:id:gsin:0614141.123456789") (lit "0614141") (lit "123456789") (lit "06141411234567890"))) by (vm_compute; reflexivity).
  apply gsin_iff in B. destruct B as (U & _ & C). exact (conj U C).
Qed.

Theorem C04_giai_keys : forall u cp asset ignored, 
  giai_uri u cp asset ignored ->
  exists x, giai_init u = Ok x /\ giai_gs1_key x = cp ++ unescape asset /\
    giai_gs1_element_string x = lit "(8004)" ++ cp ++ unescape asset.
Proof. exact giai_keys. Qed.
Print Assumptions C04_giai_keys.
Example C04_giai_case : exists ignored, giai_uri (lit "urn:epc:id:giai:0614141.12345%2F400:7") (lit "0614141") (lit "12345%2F400") ignored.
Proof.
  assert (B : giai_init (lit "urn:epc:id:giai:0614141.12345%2F400:7") = Ok (mkGiai (lit "urn:epc:id:giai:0614141.12345%2F400:7") (lit "0614141") (lit "12345%2F400") (lit "061414112345/400"))) by (vm_compute; reflexivity).
  apply giai_iff in B. exact (proj1 B).
Qed.

Theorem C04_ginc_keys : forall u cp ref, 
  ginc_uri u cp ref ->
  exists x, ginc_init u = Ok x /\ ginc_gs1_key x = cp ++ unescape ref /\
    ginc_gs1_element_string x = lit "(401)" ++ cp ++ unescape ref.
Proof. exact ginc_keys. Qed.
Print Assumptions C04_ginc_keys.
Example C04_ginc_case : exists cp ref, ginc_uri (lit "urn:epc:id:ginc:0614141.xyz%2F47") cp ref.
Proof.
  assert (B : ginc_init (lit "urn:epc:id:ginc:0614141.xyz%2F47") = Ok (mkGinc (lit "urn:epc:id:ginc:0614141.xyz%2F47") (lit "0614141xyz/47"))) by (vm_compute; reflexivity).
  apply ginc_iff in B. destruct B as (_ & cp & ref & U & _). exact (ex_intro _ cp (ex_intro _ ref U)).
Qed.

Theorem C04_itip_element : forall u cp i rest piece total serial gtin, 
  itip_uri u cp (i :: rest) piece total serial -> completed (i :: cp ++ rest) gtin ->
  exists x, itip_init u = Ok x /\
    itip_gs1_element_string x = Ok (lit "(8006)" ++ gtin ++ piece ++ total ++ lit "(21)" ++ unescape serial).
Proof. exact itip_element. Qed.
Print Assumptions C04_itip_element.
Example C04_itip_case : itip_uri (lit "urn:epc:id:itip:4012345.012345.01.02.987") (lit "4012345") (lit "012345") (lit "01") (lit "02") (lit "987").
Proof.
  assert (B : itip_init (lit "urn:epc:id:itip:4012345.012345.01.02.987") = Ok (mkItip (lit "urn:epc:id:itip:4012345.012345.01.02.987") (lit "4012345") (lit "012345") (lit "01") (lit "02") (lit "987"))) by (vm_compute; reflexivity).
  apply itip_iff in B. exact (proj1 B).
Qed.

Theorem C04_upui_element : forall u cp i rest tpx gtin, 
  upui_uri u cp (i :: rest) tpx -> completed (i :: cp ++ rest) gtin ->
  exists x, upui_init u = Ok x /\ upui_gs1_element_string x = Ok (lit "(01)" ++ gtin ++ lit "(235)" ++ unescape tpx).
Proof. exact upui_element. Qed.
Print Assumptions C04_upui_element.
Example C04_upui_case : exists tpx, upui_uri (lit "urn:epc:id:upui:1234567.089456.51qIgY)%3C") (lit "1234567") (lit "089456") tpx.
Proof.
  assert (B : upui_init (lit "urn:epc:id:upui:1234567.089456.51qIgY)%3C") = Ok (mkUpui (lit "urn:epc:id:upui:1234567.089456.51qIgY)%3C") (lit "1234567") (lit "089456") (lit "51qIgY)<"))) by (vm_compute; reflexivity).
  apply upui_iff in B. destruct B as (tpx & U & _). exact (ex_intro _ tpx U).
Qed.

Theorem C04_cpi_element : forall u cp t serial, 
  company_prefix cp -> six_bit_text t -> cpi_uri u cp (escape6 t) serial ->
  exists x, cpi_init u = Ok x /\ cpi_gs1_element_string x = lit "(8010)" ++ cp ++ t ++ lit "(8011)" ++ serial.
Proof. exact cpi_element. Qed.
Print Assumptions C04_cpi_element.
Example C04_cpi_case : cpi_uri (lit "urn:epc:id:cpi:0614141.5PQ7%2FZ43.12345") (lit "0614141") (escape6 (lit "5PQ7/Z43")) (lit "12345").
Proof.
  assert (B : cpi_init (lit "urn:epc:id:cpi:0614141.5PQ7%2FZ43.12345") = Ok (mkCpi (lit "urn:epc:id:cpi:0614141.5PQ7%2FZ43.12345") (lit "0614141") (lit "5PQ7%2FZ43") (lit "12345"))) by (vm_compute; reflexivity).
  apply cpi_iff in B. exact (proj1 B).
Qed.

Theorem C04_upui_element_empty_item_refuted : forall u cp tpx, 
  upui_uri u cp [] tpx ->
  exists x, upui_init u = Ok x /\ upui_gs1_element_string x = Raise IndexError.
Proof. exact upui_element_fails. Qed.
Print Assumptions C04_upui_element_empty_item_refuted.
Example C04_upui_empty_item_case : 
  bind (upui_init (lit "urn:epc:id:upui:1234567089456..51")) upui_gs1_element_string = Raise IndexError /\
  exists x, upui_init (lit "urn:epc:id:upui:1234567089456..51") = Ok x.
Proof.
  split; [vm_compute; reflexivity|].
  exists (mkUpui (lit "urn:epc:id:upui:1234567089456..51") (lit "1234567089456") [] (lit "51")). vm_compute. reflexivity.
Qed.
