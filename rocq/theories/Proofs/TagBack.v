(** Runs of [binary] whose tag is read as the same object. *)
From Coq Require Import String Lia.
From Verif.Model Require Import Py PyFormat Syntax Machine Common Base.
From Verif.Model Require Import Adi Cpi Gdti Giai Gid Grai Gsrn Gsrnp Itip Sgcn Sgln Sgtin Sscc Usdod Parsers.
From Verif.Source Require Import Program World.
From Verif.Spec Require Import Spec SpecEscapes SpecGrammar SpecSchemes SpecTags SpecLayout SpecCoding SpecReading SpecVarReading SpecParsers SpecWriting SpecTagUri SpecExact SpecBack SpecRuns.
From Verif.Proofs Require Import Run SrcUse Basics Num Uni Codecs Ctor CtorA CtorB CtorC CtorAll BinAll DecodeA Filter Exact RunsTag Runs RunsAll TagReadingRuns TagUriRuns.
Open Scope N_scope.
Open Scope list_scope.

Lemma itip_unique_all u x cp i p n s : itip_init u = Ok x -> itip_uri u cp i p n s -> p = itip_piece x /\ n = itip_total x /\ s = itip_serial x.
Proof.
  intros I H. assert (J : itip_init u = Ok (mkItip u cp i p n s)) by (apply itip_iff; auto). rewrite I in J. injection J as ->. repeat split.
Qed.
Lemma adi_unique u x c p s : adi_init u = Ok x -> adi_uri u c p s -> p = adi_part x.
Proof.
  intros I H. assert (J : adi_init u = Ok (mkAdi u c p s)) by (apply adi_iff; auto). rewrite I in J. injection J as ->. reflexivity.
Qed.
Lemma giai_whole u x : giai_init u = Ok x -> (nothing_ignored u <-> giai_uri u (giai_cp x) (giai_asset x) []).
Proof.
  intros I. split.
  - intros N. pose proof (core_uri_eq (T_GIAI x GIAI_96 0) u) as Q. cbn [init_of class_of req_epc] in Q. rewrite I in Q.
    specialize (Q eq_refl (fun _ => N)). cbn [core_uri] in Q. apply giai_iff in I as ((ig & U & C & S & NC & L & G) & _).
    split; [rewrite app_nil_r; symmetry; exact Q|]. repeat (split; [assumption|]). now left.
  - intros (U & (C & _) & _ & NC & _). exists (giai_cp x ++ lit "." ++ giai_asset x). rewrite app_nil_r in U. split; [exact U|].
    intros J. apply in_app_or in J as [J|J].
    + apply C in J. vm_compute in J. congruence.
    + destruct J as [J|J]; [discriminate J|exact (NC J)].
Qed.
Lemma back_iff q u : init_of (class_of (req_epc q)) u = Ok (req_epc q) -> survives q u <-> comes_back (req_kind q) u.
Proof.
  intros I. unfold survives, comes_back.
  destruct q as [x [] f|x [] f|x [] f|x [] f|x []|x [] f|x [] f|x [] f|x [] f|x [] f|x [] f|x [] f|x [] f|x [] f];
    cbn [field_room coding_has_room canonical_request text_part pieces_fit req_kind]; unfold canonical_request; cbn [text_part]; try tauto;
    cbn [class_of req_epc init_of] in I; apply lift_ok in I as (y & I & Y); injection Y as <-.
  - split.
    + intros (A & _ & _ & _ & X). split; [exact A|]. apply adi_iff in I as (H & _). eauto 8.
    + intros (A & c & p & s & H & X). rewrite (adi_unique _ _ _ _ _ I H) in X. tauto.
  - split.
    + intros (A & X & _). split; [exact A|]. apply cpi_iff in I as (H & _). eauto 8.
    + intros (A & cp & r & s & H & X). destruct (cpi_unique _ _ _ _ _ I H) as (-> & -> & ->). tauto.
  - split.
    + intros (A & X & _). split; [exact A|]. apply gdti_iff in I as (H & _). eauto 8.
    + intros (A & cp & r & s & H & X). rewrite (gdti_unique _ _ _ _ _ I H) in X. tauto.
  - split.
    + intros (A & _ & X & _). split; [exact A|]. apply gdti_iff in I as (H & _). eauto 8.
    + intros (A & cp & r & s & H & X). rewrite (gdti_unique _ _ _ _ _ I H) in X. tauto.
  - rewrite (giai_whole u x I). split.
    + intros (A & X & _ & _ & H). split; [exact A|]. eauto 8.
    + intros (A & cp & r & H & X). destruct (giai_unique _ _ _ _ _ I H) as (-> & ->). tauto.
  - rewrite (giai_whole u x I). split.
    + intros (A & _ & X & _ & H). split; [exact A|]. eauto 8.
    + intros (A & cp & r & H & X). destruct (giai_unique _ _ _ _ _ I H) as (-> & ->). tauto.
  - split.
    + intros (A & X & _). split; [exact A|]. apply grai_iff in I as (H & _). eauto 8.
    + intros (A & cp & r & s & H & X). rewrite (grai_unique _ _ _ _ _ I H) in X. tauto.
  - split.
    + intros (A & _ & X & _). split; [exact A|]. apply grai_iff in I as (H & _). eauto 8.
    + intros (A & cp & r & s & H & X). rewrite (grai_unique _ _ _ _ _ I H) in X. tauto.
  - unfold small_piece. split.
    + intros (A & X & _ & P & _). split; [exact A|]. apply itip_iff in I as (H & _).
      exists (itip_cp x), (itip_item x), (itip_piece x), (itip_total x), (itip_serial x). tauto.
    + intros (A & cp & i & p & n & s & H & X). destruct (itip_unique_all _ _ _ _ _ _ _ I H) as (-> & -> & ->). tauto.
  - unfold small_piece. split.
    + intros (A & _ & X & P & _). split; [exact A|]. apply itip_iff in I as (H & _).
      exists (itip_cp x), (itip_item x), (itip_piece x), (itip_total x), (itip_serial x). tauto.
    + intros (A & cp & i & p & n & s & H & X). destruct (itip_unique_all _ _ _ _ _ _ _ I H) as (-> & -> & ->). tauto.
  - split.
    + intros (A & X & _). split; [exact A|]. apply sgln_iff in I as (H & _). eauto 8.
    + intros (A & cp & r & s & H & X). rewrite (sgln_unique _ _ _ _ _ I H) in X. tauto.
  - split.
    + intros (A & _ & X & _). split; [exact A|]. apply sgln_iff in I as (H & _). eauto 8.
    + intros (A & cp & r & s & H & X). rewrite (sgln_unique _ _ _ _ _ I H) in X. tauto.
  - split.
    + intros (A & X & _). split; [exact A|]. apply sgtin_iff in I as (H & _). eauto 8.
    + intros (A & cp & r & s & H & X). rewrite (sgtin_unique _ _ _ _ _ I H) in X. tauto.
  - split.
    + intros (A & _ & X & _). split; [exact A|]. apply sgtin_iff in I as (H & _). eauto 8.
    + intros (A & cp & r & s & H & X). rewrite (sgtin_unique _ _ _ _ _ I H) in X. tauto.
Qed.

(** * Runs *)
Theorem back_exactly u v kws k : parses "epc_pure_identity_to_scheme" u v -> tag_keywords v kws -> asks_coding kws k ->
  ((exists b, answers v "binary" kws (VStr b) /\ bitstring b /\ parses "binary_to_tag_encodable" b v) <-> comes_back k u).
Proof.
  intros H K AK. destruct (made_inv u v H) as (e & -> & _ & I & U). destruct (keywords_say e kws K) as (q & (Q & F & _ & B & _) & SC & _). subst e.
  rewrite (asked_once _ _ _ _ K AK SC). rewrite <- (back_iff q u I), <- (survives_iff q u I F). split.
  - intros (b & A & BS & P). apply (written_by _ _ _ _ _ A) in B. exists b. split; [exact B|]. split; [exact BS|].
    pose proof (calls_once _ _ _ _ _ P (binary_runs b)) as E. symmetry in E. apply result_returned in E as (e & E & O). apply obj_of_inj in O. subst e.
    rewrite (dispatch (req_kind q)) in E by exact (binary_header q b B). rewrite kind_class in E. exact E.
  - intros (b & W & BS & R). exists b. rewrite W in B. split; [exact B|]. split; [exact BS|].
    pose proof (binary_runs b) as X. rewrite (dispatch (req_kind q)), kind_class, R in X by exact (binary_header q b W). exact X.
Qed.

(** * Cases *)
Lemma seven_back : comes_back K_SGTIN_96 (case_uri (lit "7")).
Proof.
  split; [|exact (proj2 (proj2 (proj2 seven_case)))].
  intros c H. vm_compute in H. repeat (destruct H as [<-|H]; [reflexivity|]). destruct H.
Qed.
Lemma zeros_not_back : ~ comes_back K_SGTIN_96 (case_uri (lit "007")).
Proof. intros (_ & H). exact (proj2 (proj2 (proj2 zeros_case)) H). Qed.

Definition long_keywords : list (string * value) :=
  [("binary_coding_scheme"%string, VEnum "sgtin.SGTIN.BinaryCodingScheme" "SGTIN_198" (VStr (lit "sgtin-198")));
   ("filter_value"%string, VEnum "sgtin.SGTINFilterValue" "FULL_CASE" (VStr (lit "2")))].
Lemma bits_string (b : str) : forallb (fun c => orb (c =? 48) (c =? 49)) b = true -> bitstring b.
Proof.
  intros H c I. rewrite forallb_forall in H. specialize (H c I). apply Bool.orb_true_iff in H as [H|H]; apply N.eqb_eq in H; auto.
Qed.
Lemma spelled_otherwise : exists u v v' kws t b, v <> v' /\ parses "epc_pure_identity_to_scheme" u v /\ tag_keywords v kws /\
  answers v "tag_uri" kws (VStr t) /\ answers v "binary" kws (VStr b) /\ bitstring b /\ parses "binary_to_tag_encodable" b v'.
Proof.
  exists (case_uri (lit "%2f")), (case_object (lit "%2f")), (case_object (lit "%2F")), long_keywords.
  assert (X : exists t, answers (case_object (lit "%2f")) "tag_uri" long_keywords (VStr t)). { eexists. exists (300 * 100)%nat. vm_compute. reflexivity. }
  assert (Y : exists b, answers (case_object (lit "%2f")) "binary" long_keywords (VStr b) /\ bitstring b /\
    parses "binary_to_tag_encodable" b (case_object (lit "%2F"))).
  { eexists. split; [exists (300 * 100)%nat; vm_compute; reflexivity|]. split; [apply bits_string; vm_compute; reflexivity|].
    exists (300 * 100)%nat. vm_compute. reflexivity. }
  destruct X as (t & X), Y as (b & Y). exists t, b. split; [discriminate|].
  split; [exists (300 * 100)%nat; vm_compute; reflexivity|]. split; [|split; [exact X|exact Y]].
  exists "sgtin.SGTIN"%string. eexists. split; [eexists; reflexivity|]. split; [vm_compute; right; left; reflexivity|].
  eexists. split; [|left; reflexivity]. vm_compute. auto 10.
Qed.

Definition wide_uri : str := lit "urn:epc:id:cpi:000000000001.2000.7".
Definition wide_keywords : list (string * value) :=
  [("binary_coding_scheme"%string, VEnum "cpi.CPI.BinaryCodingScheme" "CPI_96" (VStr (lit "cpi-96")));
   ("filter_value"%string, VEnum "cpi.CPIFilterValue" "ALL_OTHERS" (VStr (lit "0")))].
Lemma refused_yet_back : exists u v kws b, parses "epc_pure_identity_to_scheme" u v /\ tag_keywords v kws /\
  invokes W v "tag_uri" [] kws (Raised (XExn ConvertException)) /\ answers v "binary" kws (VStr b) /\ bitstring b /\
  parses "binary_to_tag_encodable" b v.
Proof.
  assert (P : exists v, parses "epc_pure_identity_to_scheme" wide_uri v /\ v = obj_of (E_CPI (mkCpi wide_uri (lit "000000000001") (lit "2000") (lit "7")))).
  { eexists. split; [exists (300 * 100)%nat; vm_compute; reflexivity|]. vm_compute. reflexivity. }
  destruct P as (v & P & E). vm_compute in E.
  assert (Y : exists b, answers v "binary" wide_keywords (VStr b) /\ bitstring b /\ parses "binary_to_tag_encodable" b v).
  { subst v. eexists. split; [exists (300 * 100)%nat; vm_compute; reflexivity|]. split; [apply bits_string; vm_compute; reflexivity|].
    exists (300 * 100)%nat. vm_compute. reflexivity. }
  destruct Y as (b & Y). exists wide_uri, v, wide_keywords, b. split; [exact P|]. split; [|split; [|exact Y]].
  - subst v. exists "cpi.CPI"%string. eexists. split; [eexists; reflexivity|]. split; [vm_compute; left; reflexivity|].
    eexists. split; [|left; reflexivity]. vm_compute. auto 10.
  - subst v. exists (300 * 100)%nat. vm_compute. reflexivity.
Qed.

Lemma signed_back : exists u v kws b, parses "epc_pure_identity_to_scheme" u v /\ tag_keywords v kws /\
  answers v "binary" kws (VStr b) /\ ~ bitstring b /\ parses "binary_to_tag_encodable" b v.
Proof.
  assert (Y : exists b, answers (case_object (lit "-7")) "binary" case_keywords (VStr b) /\ existsb (N.eqb 45) b = true /\
    parses "binary_to_tag_encodable" b (case_object (lit "-7"))).
  { eexists. split; [exists (300 * 100)%nat; vm_compute; reflexivity|]. split; [vm_compute; reflexivity|]. exists (300 * 100)%nat. vm_compute. reflexivity. }
  destruct Y as (b & A & M & R). exists (case_uri (lit "-7")), (case_object (lit "-7")), case_keywords, b.
  split; [exists (300 * 100)%nat; vm_compute; reflexivity|]. split; [apply case_keys|]. split; [exact A|]. split; [|exact R].
  intros B. apply existsb_exists in M as (c & I & E). apply N.eqb_eq in E. subst c. destruct (B 45 I); discriminate.
Qed.
