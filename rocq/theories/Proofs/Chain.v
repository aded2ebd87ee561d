(** Conversions keep the object. *)
From Coq Require Import String Lia.
From Verif.Model Require Import Py Re Regexes Common Base.
From Verif.Model Require Import Adi Cpi Gdti Giai Gid Grai Gsrn Gsrnp Itip Lgtin Sgcn Sgln Sgtin Sscc Usdod Others Parsers Calls.
From Verif.Spec Require Import Spec SpecEscapes SpecGrammar SpecSchemes SpecTags SpecLayout SpecCoding SpecElements SpecExact SpecChain.
From Verif.Proofs Require Import Basics CtorAll PureParsers TagUri2 HexTrip ElementRe ElementBack ElementDispatch ElementAccept.

Lemma epc_built c u e : init_of c u = Ok e -> init_of (class_of e) (epc_uri e) = Ok e.
Proof. intros I. destruct (init_class c u e I) as [-> ->]. exact I. Qed.
Theorem one_conversion c u e r : init_of c u = Ok e -> (c = C_GIAI -> nothing_ignored u) -> written e r -> read r = Ok e.
Proof.
  intros I G W. destruct (init_class c u e I) as [C U]. destruct r as [t|t|t|t|t|t l]; cbn [read written] in *.
  - subst t. rewrite U. exact (pure_built c u e I).
  - destruct W as (q & <- & T). eapply tag_uri_roundtrip; [|exact T|].
    + rewrite C. exact I.
    + rewrite C. exact G.
  - destruct W as (q & <- & (P & Z) & E). destruct (forms_roundtrip q _ P Z) as (b & h & s & E1 & E2 & E3 & R1 & R2 & R3 & _). rewrite E in E1. injection E1 as <-. exact R1.
  - destruct W as (q & <- & (P & Z) & E). destruct (forms_roundtrip q _ P Z) as (b & h & s & E1 & E2 & E3 & R1 & R2 & R3 & _). rewrite E in E2. injection E2 as <-. exact R2.
  - destruct W as (q & <- & (P & Z) & E). destruct (forms_roundtrip q _ P Z) as (b & h & s & E1 & E2 & E3 & R1 & R2 & R3 & _). rewrite E in E3. injection E3 as <-. exact R3.
  - destruct W as (E & cp & rest & S & D & -> & X). rewrite C, U in *.
    assert (K : In c element_classes) by (destruct c; cbn in X; try contradiction; cbn; tauto).
    destruct (proj2 (element_roundtrip c u e cp rest K I S D) X) as (g & E' & R). rewrite E in E'. injection E' as <-.
    rewrite <- R. apply element_dispatch. destruct (fullmatch (gs1_element_string_regex c) t) eqn:F; [now apply element_regex|].
    rewrite element_refused in R; [discriminate R|exact K|]. intros Y. apply element_regex in Y. congruence.
Qed.

(** every object that is read was made by its constructor *)
Definition made {T} (init : str -> res T) (r : res T) : Prop := forall x, r = Ok x -> exists u, init u = Ok x.
Lemma made_init {T} (init : str -> res T) u : made init (init u).
Proof. intros x E. eauto. Qed.
Lemma made_raise {T} (init : str -> res T) e : made init (Raise e).
Proof. intros x E. discriminate E. Qed.
Lemma made_bind {T A} (init : str -> res T) (r : res A) k : (forall a, made init (k a)) -> made init (bind r k).
Proof. intros H x E. destruct r as [a|e]; [exact (H a x E)|discriminate E]. Qed.
Lemma made_tag {T} (init : str -> res T) t f : made init (from_tag_uri init t f).
Proof. unfold from_tag_uri. repeat (apply made_bind; intros ?). apply made_init. Qed.
Ltac made :=
  repeat first
    [ apply made_init | apply made_raise | apply made_tag | apply made_bind; intros ?
    | match goal with
      | |- made _ (let (_, _) := ?p in _) => destruct p
      | |- made _ (if ?b then _ else _) => destruct b
      | |- made _ (match ?b with _ => _ end) => destruct b
      | |- made _ (let x := ?v in _) => cbv zeta
      end ].
Lemma made_lift {T} c (inj : T -> epc) init r : made init r -> (forall u, init_of c u = lift inj (init u)) -> made (init_of c) (lift inj r).
Proof.
  intros M I e E. apply lift_ok in E as (x & E & ->). destruct (M x E) as (u & U). exists u. rewrite I, U. reflexivity.
Qed.
Lemma made_from_tag_uri c t : made (init_of c) (from_tag_uri_of c t).
Proof. destruct c; try apply made_raise; (eapply made_lift; [|intros u; reflexivity]); apply made_tag. Qed.
Lemma made_from_binary c b : made (init_of c) (from_binary_of c b).
Proof.
  destruct c; try apply made_raise; (eapply made_lift; [|intros u; reflexivity]).
  all: cbv delta [adi_from_binary cpi_from_binary gdti_from_binary giai_from_binary gid_from_binary grai_from_binary gsrn_from_binary gsrnp_from_binary
    itip_from_binary sgcn_from_binary sgln_from_binary sgtin_from_binary sscc_from_binary usdod_from_binary
    adi_from_tag_uri cpi_from_tag_uri gdti_from_tag_uri giai_from_tag_uri gid_from_tag_uri grai_from_tag_uri gsrn_from_tag_uri gsrnp_from_tag_uri
    itip_from_tag_uri sgcn_from_tag_uri sgln_from_tag_uri sgtin_from_tag_uri sscc_from_tag_uri usdod_from_tag_uri]; cbv beta.
  all: made.
Qed.
Lemma made_from_element c g l : made (init_of c) (from_gs1_element_string_of c g l).
Proof.
  destruct c; try apply made_raise; (eapply made_lift; [|intros u; reflexivity]).
  all: cbv delta [cpi_from_gs1_element_string gdti_from_gs1_element_string giai_from_gs1_element_string ginc_from_gs1_element_string grai_from_gs1_element_string
    gsin_from_gs1_element_string gsrn_from_gs1_element_string gsrnp_from_gs1_element_string itip_from_gs1_element_string lgtin_from_gs1_element_string
    pgln_from_gs1_element_string sgcn_from_gs1_element_string sgln_from_gs1_element_string sgtin_from_gs1_element_string sscc_from_gs1_element_string
    upui_from_gs1_element_string]; cbv beta.
  all: made.
Qed.
Lemma made_flag c t f : made (init_of c) (from_tag_uri_flag c t f).
Proof. destruct c; try apply made_raise; (eapply made_lift; [|intros u; reflexivity]); apply made_tag. Qed.
Definition sound (r : res epc) : Prop := forall e, r = Ok e -> init_of (class_of e) (epc_uri e) = Ok e.
Lemma made_sound c r : made (init_of c) r -> sound r.
Proof. intros M e E. destruct (M e E) as (u & I). exact (epc_built c u e I). Qed.
Lemma sound_bind {A} (r : res A) k : (forall a, sound (k a)) -> sound (bind r k).
Proof. intros H x E. destruct r as [a|e]; [exact (H a x E)|discriminate E]. Qed.
Lemma pure_sound t : sound (epc_pure_identity_to_scheme t).
Proof. unfold epc_pure_identity_to_scheme. repeat (apply sound_bind; intros ?). eapply made_sound. apply made_init. Qed.
Lemma binary_sound t : sound (binary_to_tag_encodable t).
Proof. unfold binary_to_tag_encodable. repeat (apply sound_bind; intros ?). eapply made_sound. apply made_from_binary. Qed.
Theorem read_sound r e : read r = Ok e -> init_of (class_of e) (epc_uri e) = Ok e.
Proof.
  revert e. change (sound (read r)). destruct r; cbn [read].
  - apply pure_sound.
  - unfold tag_uri_to_tag_encodable. repeat (apply sound_bind; intros ?). eapply made_sound. apply made_from_tag_uri.
  - apply binary_sound.
  - apply sound_bind. intros b. apply binary_sound.
  - apply sound_bind. intros h. apply sound_bind. intros b. apply binary_sound.
  - unfold gs1_element_string_to_gs1_element. repeat (apply sound_bind; intros ?). eapply made_sound. apply made_from_element.
Qed.
Theorem idpat_sound t e : idpat_to_gs1_keyed_scheme t = Ok e -> init_of (class_of e) (epc_uri e) = Ok e.
Proof.
  revert e. change (sound (idpat_to_gs1_keyed_scheme t)). unfold idpat_to_gs1_keyed_scheme. do 2 (apply sound_bind; intros ?). cbv zeta.
  destruct (fullmatch EPC_URI _); [eapply made_sound; apply made_init|]. destruct (negb _); [intros e E; discriminate E|].
  destruct (fullmatch EPC_URI _); [eapply made_sound; apply made_init|intros e E; discriminate E].
Qed.
Theorem gtin_serial_sound g t l x : sgtin_from_gtin_plus_serial g t l = Ok x -> sgtin_init (sgtin_epc_uri x) = Ok x.
Proof.
  unfold sgtin_from_gtin_plus_serial. cbv zeta. destruct (idx (zfill 14 g) 0) as [d|]; [|discriminate]. cbn [bind]. intros E.
  assert (I : init_of C_SGTIN _ = Ok (E_SGTIN x)) by (cbn [init_of]; rewrite E; reflexivity).
  destruct (init_class _ _ _ I) as [_ U]. cbn [epc_uri] in U. rewrite U. exact E.
Qed.
Theorem class_sound c t f l e :
  from_tag_uri_flag c t f = Ok e \/ from_binary_of c t = Ok e \/ from_hex (from_binary_of c) t = Ok e \/ from_base64 (from_binary_of c) t = Ok e \/
  from_gs1_element_string_of c t l = Ok e -> class_of e = c /\ init_of c (epc_uri e) = Ok e.
Proof.
  assert (K : forall r, made (init_of c) r -> r = Ok e -> class_of e = c /\ init_of c (epc_uri e) = Ok e).
  { intros r M E. destruct (M e E) as (u & I). destruct (init_class c u e I) as [C U]. rewrite U. auto. }
  intros [E|[E|[E|[E|E]]]]; revert E; apply K.
  - apply made_flag.
  - apply made_from_binary.
  - unfold from_hex. apply made_bind. intros b. apply made_from_binary.
  - unfold from_base64, from_hex. repeat (apply made_bind; intros ?). apply made_from_binary.
  - apply made_from_element.
Qed.

Theorem conversions r e r' : read r = Ok e -> (class_of e = C_GIAI -> nothing_ignored (epc_uri e)) -> converted r r' -> read r' = Ok e.
Proof.
  intros R G H. induction H as [r|r r' r'' H IH C]; [exact R|]. inversion C as [? e' ? R' W]; subst.
  specialize (IH R). rewrite IH in R'. injection R' as <-. exact (one_conversion _ _ e _ (read_sound _ _ R) G W).
Qed.
Theorem unsafe_refuted : exists r e q b e',
  read r = Ok e /\ req_epc q = e /\ req_binary q = Ok b /\ read (R_binary b) = Ok e' /\ epc_uri e' <> epc_uri e.
Proof.
  destruct (sgtin_init (lit "urn:epc:id:sgtin:0614141.812345.a%2fb")) as [x|z] eqn:E; [|vm_compute in E; discriminate E].
  exists (R_pure (lit "urn:epc:id:sgtin:0614141.812345.a%2fb")), (E_SGTIN x), (T_SGTIN x SGTIN_198 0).
  vm_compute in E. injection E as <-.
  eexists. eexists. split; [vm_compute; reflexivity|]. split; [reflexivity|]. split; [vm_compute; reflexivity|].
  split; [vm_compute; reflexivity|]. vm_compute. discriminate.
Qed.
Theorem length_refuted : exists r e t l e',
  read r = Ok e /\ epc_gs1_element_string e = Ok t /\ read (R_element t l) = Ok e' /\ epc_uri e' <> epc_uri e.
Proof.
  exists (R_pure (lit "urn:epc:id:sgtin:0614141.812345.6789")). eexists. eexists. exists 8%Z. eexists.
  split; [vm_compute; reflexivity|]. split; [vm_compute; reflexivity|].
  split; [vm_compute; reflexivity|]. vm_compute. discriminate.
Qed.
