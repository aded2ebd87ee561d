(** The bits of a tag: C44. *)
From Coq Require Import String.
From Verif.Model Require Import Py Common Base.
From Verif.Model Require Import Adi Cpi Gdti Giai Gid Grai Gsrn Gsrnp Itip Lgtin Sgcn Sgln Sgtin Sscc Usdod Others Parsers.
From Verif.Spec Require Import Spec SpecEscapes SpecGrammar SpecSchemes SpecTags SpecLayout.
From Verif.Proofs Require Import BinAll.

Theorem C44_binary_layout : forall q u t, 
  init_of (class_of (req_epc q)) u = Ok (req_epc q) -> req_tag_uri q = Ok t ->
  canonical_request q -> filter_fits q -> pieces_fit q ->
  exists b, req_binary q = Ok b /\ spells (tag_layout q) b /\ match coding_bits q with Some n => length b = n | None => True end.
Proof. exact binary_layout. Qed.
Print Assumptions C44_binary_layout.
(** the examples of the Tag Data Standard: SGTIN-96, SSCC-96 and ADI-var *)
Example C44_sgtin_case :
  match sgtin_init (lit "urn:epc:id:sgtin:0614141.812345.6789") with
  | Ok x => match req_hex (T_SGTIN x SGTIN_96 3) with Ok h => str_eqb h (lit "3074257BF7194E4000001A85") | Raise _ => false end
  | Raise _ => false
  end = true.
Proof. vm_compute. reflexivity. Qed.
Example C44_sscc_case :
  match sscc_init (lit "urn:epc:id:sscc:0614141.1234567890") with
  | Ok x => match req_hex (T_SSCC x SSCC_96 3) with Ok h => str_eqb h (lit "3174257BF4499602D2000000") | Raise _ => false end
  | Raise _ => false
  end = true.
Proof. vm_compute. reflexivity. Qed.
Example C44_adi_case :
  match adi_init (lit "urn:epc:id:adi:35962.PQ7VZ4.M37GXB92") with
  | Ok x => match req_hex (T_ADI x ADI_VAR 3) with Ok h => str_eqb h (lit "3B0E0CF5E76C9047759AD00373DC7602E7200000") | Raise _ => false end
  | Raise _ => false
  end = true.
Proof. vm_compute. reflexivity. Qed.
Example C44_layout_case : spells [(3%nat, 5); (4%nat, 0)] (lit "1010000") /\ ~ spells [(3%nat, 5)] (lit "100").
Proof.
  split.
  - exists (lit "101"), (lit "0000"). repeat split; [intros c I; cbn in I; intuition|].
    exists (lit "0000"), []. repeat split. intros c I. cbn in I. intuition.
  - intros (a & r & E & L & B & N & R). cbn in R. subst r. rewrite app_nil_r in E. subst a. discriminate N.
Qed.
