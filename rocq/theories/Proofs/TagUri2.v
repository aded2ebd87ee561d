(** Tag URIs of objects: spelling, round trip, and refusal of other schemes' tag URIs. *)
From Coq Require Import String Lia Setoid.
From Verif.Model Require Import Py Re Regexes Common Base.
From Verif.Model Require Import Adi Cpi Gdti Giai Gid Grai Gsrn Gsrnp Itip Lgtin Sgcn Sgln Sgtin Sscc Usdod Others Parsers.
From Verif.Spec Require Import Spec SpecEscapes SpecGrammar SpecSchemes.
From Verif.Proofs Require Import Basics Num ReLemmas Uni Grammar Ctor CtorA CtorB CtorC CtorAll TagUri.

Lemma ndec_decimal n : decimal (ndec n) = n.
Proof. destruct (ndec_spec n) as (V & D & _). rewrite decimal_ascii by exact D. exact V. Qed.

Lemma numeral_decimal_inj s t : numeral s -> numeral t -> ascii s -> ascii t -> decimal s = decimal t -> s = t.
Proof.
  intros S T As At E. apply numeral_iff in S, T. pose proof (numeral_digits _ S) as [S1 S2]. pose proof (numeral_digits _ T) as [T1 T2].
  apply (digits_ascii _ S1) in As. apply (digits_ascii _ T1) in At.
  assert (L : forall s, nc_shape s = true -> forallb is_digit s = true -> no_lead0 s).
  { clear. intros s H D. destruct s as [|c s]; [discriminate|]. cbn [nc_shape] in H. apply orb_true_iff in H as [H|H].
    - apply str_eqb_eq in H. left. exact H.
    - right. exists c, s. split; [reflexivity|]. apply andb_true_iff in H as [H _]. unfold inr in H. apply andb_true_iff in H. rewrite !N.leb_le in H. lia. }
  rewrite !decimal_ascii in E by assumption. rewrite <- (ndec_sval s), <- (ndec_sval t); auto. now rewrite E.
Qed.

(** tag_uri() spells the coding scheme, the filter and the body of the pure identity URI *)
Lemma tag_uri_text q u t : init_of (class_of (req_epc q)) u = Ok (req_epc q) -> req_tag_uri q = Ok t ->
  exists body rest, u = scheme_prefix (class_of (req_epc q)) ++ body ++ rest /\
    (rest = [] \/ (class_of (req_epc q) = C_GIAI /\ (exists r, rest = 58 :: r) /\ ~ In 58 body)) /\
    t = TAG_URI_PREFIX ++ req_coding q ++ [c_colon] ++ (match req_filter q with None => [] | Some f => ndec f ++ [c_dot] end) ++ body.
Proof.
  destruct q as [x s f|x s f|x s f|x s f|x s|x s f|x s f|x s f|x s f|x s f|x s f|x s f|x s f|x s f]; cbn [req_epc class_of init_of req_tag_uri req_filter]; intros I H;
  apply lift_ok in I as (y & I & E); injection E as <-.
  - unfold adi_tag_uri in H. injection H as <-. apply adi_iff in I as ((U & _) & _). exists (adi_cage x ++ [c_dot] ++ adi_part x ++ [c_dot] ++ adi_serial x), []. split; [rewrite app_nil_r; exact U|]. split; [now left|]. destruct s. rewrite <- !app_assoc. reflexivity.
  - unfold cpi_tag_uri in H. inv_ok H. inv_ok H. injection H as <-. apply cpi_iff in I as ((U & _) & _). exists (cpi_cp x ++ [c_dot] ++ cpi_ref x ++ [c_dot] ++ cpi_serial x), []. split; [rewrite app_nil_r; exact U|]. split; [now left|]. destruct s; rewrite <- !app_assoc; reflexivity.
  - unfold gdti_tag_uri in H. inv_ok H. inv_ok H. injection H as <-. apply gdti_iff in I as ((U & _) & _). exists (gdti_cp x ++ [c_dot] ++ gdti_doc x ++ [c_dot] ++ gdti_serial x), []. split; [rewrite app_nil_r; exact U|]. split; [now left|]. destruct s; rewrite <- !app_assoc; reflexivity.
  - unfold giai_tag_uri in H. inv_ok H. inv_ok H. injection H as <-. apply giai_iff in I as ((ig & U & C & _ & N & _ & G) & _). exists (giai_cp x ++ [c_dot] ++ giai_asset x), ig. split; [rewrite <- !app_assoc; exact U|]. split.
    + destruct G as [->|(r & -> & _)]; [now left|]. right. split; [reflexivity|]. split; [eauto|]. rewrite !in_app_iff. intros [H|[H|H]]; [|destruct H as [H|[]]; discriminate|now apply N].
      destruct C as [C _]. apply digits_iff in C. now apply (nocolon_digits _ C).
    + destruct s; rewrite <- !app_assoc; reflexivity.
  - unfold gid_tag_uri in H. injection H as <-. apply gid_iff in I as ((U & _) & _). exists (gid_manager x ++ [c_dot] ++ gid_object x ++ [c_dot] ++ gid_serial x), []. split; [rewrite app_nil_r; exact U|]. split; [now left|]. destruct s. reflexivity.
  - unfold grai_tag_uri in H. inv_ok H. inv_ok H. injection H as <-. apply grai_iff in I as ((U & _) & _). exists (grai_cp x ++ [c_dot] ++ grai_asset x ++ [c_dot] ++ grai_serial x), []. split; [rewrite app_nil_r; exact U|]. split; [now left|]. destruct s; rewrite <- !app_assoc; reflexivity.
  - unfold gsrn_tag_uri in H. injection H as <-. apply gsrn_iff in I as ((U & _) & _). exists (gsrn_cp x ++ [c_dot] ++ gsrn_service x), []. split; [rewrite app_nil_r; exact U|]. split; [now left|]. destruct s. rewrite <- !app_assoc. reflexivity.
  - unfold gsrnp_tag_uri in H. injection H as <-. apply gsrnp_iff in I as ((U & _) & _). exists (gsrnp_cp x ++ [c_dot] ++ gsrnp_service x), []. split; [rewrite app_nil_r; exact U|]. split; [now left|]. destruct s. rewrite <- !app_assoc. reflexivity.
  - unfold itip_tag_uri in H. inv_ok H. inv_ok H. injection H as <-. apply itip_iff in I as ((U & _) & _). exists (itip_cp x ++ [c_dot] ++ itip_item x ++ [c_dot] ++ itip_piece x ++ [c_dot] ++ itip_total x ++ [c_dot] ++ itip_serial x), []. split; [rewrite app_nil_r; exact U|]. split; [now left|]. destruct s; rewrite <- !app_assoc; reflexivity.
  - unfold sgcn_tag_uri in H. injection H as <-. apply sgcn_iff in I as ((U & _) & _). exists (sgcn_cp x ++ [c_dot] ++ sgcn_coupon x ++ [c_dot] ++ sgcn_serial x), []. split; [rewrite app_nil_r; exact U|]. split; [now left|]. destruct s. rewrite <- !app_assoc. reflexivity.
  - unfold sgln_tag_uri in H. inv_ok H. inv_ok H. injection H as <-. apply sgln_iff in I as ((U & _) & _). exists (sgln_cp x ++ [c_dot] ++ sgln_loc x ++ [c_dot] ++ sgln_serial x), []. split; [rewrite app_nil_r; exact U|]. split; [now left|]. destruct s; rewrite <- !app_assoc; reflexivity.
  - unfold sgtin_tag_uri in H. inv_ok H. inv_ok H. injection H as <-. apply sgtin_iff in I as ((U & _) & _). exists (sgtin_cp x ++ [c_dot] ++ sgtin_item x ++ [c_dot] ++ sgtin_serial x), []. split; [rewrite app_nil_r; exact U|]. split; [now left|]. destruct s; rewrite <- !app_assoc; reflexivity.
  - unfold sscc_tag_uri in H. injection H as <-. apply sscc_iff in I as ((U & _) & _). exists (sscc_cp x ++ [c_dot] ++ sscc_serial x), []. split; [rewrite app_nil_r; exact U|]. split; [now left|]. destruct s. rewrite <- !app_assoc. reflexivity.
  - unfold usdod_tag_uri in H. injection H as <-. apply usdod_iff in I as ((U & _) & _). exists (usdod_cage x ++ [c_dot] ++ usdod_serial x), []. split; [rewrite app_nil_r; exact U|]. split; [now left|]. destruct s. rewrite <- !app_assoc. reflexivity.
Qed.

Lemma req_coding_in q : In (req_coding q) (coding_names (class_of (req_epc q))).
Proof. destruct q as [x s f|x s f|x s f|x s f|x s|x s f|x s f|x s f|x s f|x s f|x s f|x s f|x s f|x s f]; destruct s; cbn; auto. Qed.

Theorem tag_uri_spelling q u t : init_of (class_of (req_epc q)) u = Ok (req_epc q) -> req_tag_uri q = Ok t ->
  exists body ignored filter, u = scheme_prefix (class_of (req_epc q)) ++ body ++ ignored /\
    (ignored = [] \/ (class_of (req_epc q) = C_GIAI /\ (exists r, ignored = 58 :: r) /\ ~ In 58 body)) /\
    filter_part (req_filter q) filter /\
    t = lit "urn:epc:tag:" ++ req_coding q ++ lit ":" ++ filter ++ body.
Proof.
  intros I H. destruct (tag_uri_text _ _ _ I H) as (b & r & U & R & T). eexists b, r, _. split; [exact U|]. split; [exact R|].
  split; [|exact T]. destruct (req_filter q) as [f|]; [|reflexivity]. exists (ndec f). split; [apply ascii_digits_iff, ndec_digits|]. split; [apply ndec_numeral|]. split; [apply ndec_decimal|reflexivity].
Qed.

Lemma gid_body_nocolon u e : init_of C_GID (lit "urn:epc:id:gid:" ++ u) = Ok e -> ~ In c_colon u.
Proof.
  intros H. cbn [init_of] in H. apply lift_ok in H as (x & H & _). apply gid_iff in H as ((U & A & B & C & _) & _).
  apply app_inv_head in U. subst u. apply numeral_iff in A, B, C. apply nosep_nc in A, B, C.
  rewrite !in_app_iff. intros [H|[H|[H|[H|H]]]]; try (destruct H as [H|[]]; discriminate); [now apply A|now apply B|now apply C].
Qed.

Lemma from_tag_req q u t : init_of (class_of (req_epc q)) u = Ok (req_epc q) -> req_tag_uri q = Ok t ->
  exists body rest, u = scheme_prefix (class_of (req_epc q)) ++ body ++ rest /\
    (rest = [] \/ (class_of (req_epc q) = C_GIAI /\ (exists r, rest = 58 :: r) /\ ~ In 58 body)) /\
    from_tag_uri_of (class_of (req_epc q)) t = init_of (class_of (req_epc q)) (scheme_prefix (class_of (req_epc q)) ++ body).
Proof.
  intros I H. destruct (tag_uri_text _ _ _ I H) as (b & r & U & R & T). exists b, r. split; [exact U|]. split; [exact R|]. subst t.
  pose proof (req_coding_in q) as N.
  destruct (req_filter q) as [f|] eqn:F.
  - rewrite <- (app_assoc (ndec f)). apply from_tag_of; [exact N| |apply ndec_nc].
    destruct q; discriminate.
  - destruct q as [ | | | |x s| | | | | | | | | ]; try discriminate F. destruct s. cbn [req_epc class_of] in *. cbn [app from_tag_uri_of req_coding].
    destruct R as [->|[R _]]; [|discriminate]. rewrite app_nil_r in U. subst u. apply gid_body_nocolon in I.
    cbn [init_of scheme_prefix]. f_equal. apply (from_tag_gid b I).
Qed.

Lemma tag_dispatch c nm r : In nm (coding_names c) ->
  tag_uri_to_tag_encodable (TAG_URI_PREFIX ++ nm ++ [c_colon] ++ r) = from_tag_uri_of c (TAG_URI_PREFIX ++ nm ++ [c_colon] ++ r).
Proof.
  intros N. destruct (coding_split _ _ N) as (NC & _ & sz & S). unfold tag_uri_to_tag_encodable.
  destruct (tag_split nm r NC) as (x & y & z & E). change TAG_URI_PREFIX with (lit "urn:epc:tag:") at 1. rewrite E.
  cbn [idx nth_error of_option]. rewrite bind_Ok, S. cbn [idx nth_error of_option]. rewrite bind_Ok.
  destruct c; cbn in N; try contradiction; reflexivity.
Qed.

Theorem tag_uri_roundtrip q u t : init_of (class_of (req_epc q)) u = Ok (req_epc q) -> req_tag_uri q = Ok t ->
  (class_of (req_epc q) = C_GIAI -> exists body, u = lit "urn:epc:id:giai:" ++ body /\ ~ In 58 body) ->
  from_tag_uri_of (class_of (req_epc q)) t = Ok (req_epc q) /\ tag_uri_to_tag_encodable t = Ok (req_epc q).
Proof.
  intros I H G. assert (F : from_tag_uri_of (class_of (req_epc q)) t = Ok (req_epc q)).
  { destruct (from_tag_req _ _ _ I H) as (b & r & U & R & F). rewrite F, <- I. f_equal. destruct R as [->|(C & (r' & ->) & _)]; [now rewrite U, app_nil_r|].
    destruct (G C) as (b' & U' & N). rewrite U, C in U'. apply (app_inv_head (lit "urn:epc:id:giai:")) in U'. subst b'. destruct N. apply in_app_iff. right. now left. }
  split; [exact F|]. destruct (tag_uri_text _ _ _ I H) as (b & r & U & R & T). subst t.
  rewrite (tag_dispatch (class_of (req_epc q)) _ _ (req_coding_in q)). exact F.
Qed.

Lemma giai_nomatch u : fullmatch GIAI_URI u = false -> giai_init u = Raise ConvertException.
Proof. intros H. unfold giai_init. rewrite H. reflexivity. Qed.
(** a GIAI URI with a further colon: the tag URI names the object without what follows it *)
Theorem giai_tag_uri_cut x u s f t : giai_init u = Ok x -> giai_tag_uri x s f = Ok t ->
  exists y, giai_from_tag_uri t = Ok y /\ giai_cp y = giai_cp x /\ giai_asset y = giai_asset x /\ giai_giai y = giai_giai x /\
    (giai_epc_uri y = giai_epc_uri x <-> exists body, u = lit "urn:epc:id:giai:" ++ body /\ ~ In 58 body).
Proof.
  intros I H. unfold giai_tag_uri in H. inv_ok H. inv_ok H. injection H as <-.
  pose proof (proj1 (giai_iff _ _) I) as ((ig & G & C & K & N & L & D) & U & Kx).
  set (v := lit "urn:epc:id:giai:" ++ giai_cp x ++ [c_dot] ++ giai_asset x).
  exists (mkGiai v (giai_cp x) (giai_asset x) (giai_giai x)). split.
  - unfold giai_from_tag_uri. etransitivity; [apply (from_tag_gen giai_init C_GIAI (giai_scheme_value s) (ndec f) (giai_cp x ++ [c_dot] ++ giai_asset x)); [apply giai_nomatch|destruct s; cbn; auto|discriminate|apply ndec_nc]|].
    apply giai_iff. cbn [giai_cp giai_asset giai_epc_uri giai_giai]. split; [|split; [reflexivity|exact Kx]].
    exists []. split; [rewrite app_nil_r; reflexivity|]. repeat (split; [assumption|]). now left.
  - cbn [giai_cp giai_asset giai_epc_uri giai_giai]. repeat (split; [reflexivity|]). rewrite U. 
    assert (NB : ~ In 58 (giai_cp x ++ lit "." ++ giai_asset x)).
    { destruct C as [C _]. apply digits_iff in C. rewrite !in_app_iff. intros [X|[X|X]]; [now apply (nocolon_digits _ C)|destruct X as [X|[]]; discriminate|now apply N]. }
    split.
    + intros EE. exists (giai_cp x ++ lit "." ++ giai_asset x). rewrite <- EE. split; [reflexivity|exact NB].
    + intros (b & EE & Nb). destruct D as [->|(r & -> & _)]; [rewrite G, app_nil_r; reflexivity|].
      rewrite G in EE. apply app_inv_head in EE. subst b. destruct Nb. rewrite !in_app_iff. right. right. right. now left.
Qed.

(** * Other schemes' tag URIs *)
Theorem from_tag_other c c' nm r : In nm (coding_names c') -> c <> c' -> is_tag_encodable c = true ->
  from_tag_uri_of c (TAG_URI_PREFIX ++ nm ++ [c_colon] ++ r) = Raise ConvertException.
Proof.
  intros N D T. assert (G : forall {A} (init : str -> res A) inc, (forall u, fullmatch (uri_re c) u = false -> init u = Raise ConvertException) ->
    from_tag_uri init (TAG_URI_PREFIX ++ nm ++ [c_colon] ++ r) inc = Raise ConvertException).
  { intros A init inc I. rewrite (from_tag_eval init c' nm r inc N). destruct (rmatch _ _); [|reflexivity]. cbn [negb cond].
    apply I. rewrite (prefix_tag c' nm _ N). destruct (fullmatch _ _) eqn:E; [|reflexivity].
    apply uri_re_prefix in E as (b & E). apply prefix_inj in E as [E _]. congruence. }
  pose proof (init_nomatch c) as I.
  destruct c; try discriminate T; cbn [from_tag_uri_of init_of] in *; apply lift_raise;
  (lazymatch goal with |- ?x _ = _ => unfold x end); apply G; intros u H; apply I in H; apply lift_raise in H; exact H.
Qed.
(** what from_tag_uri accepts: a tag URI naming one of its class's coding schemes *)
Theorem from_tag_shape c t e : from_tag_uri_of c t = Ok e ->
  exists nm r, In nm (coding_names c) /\ t = TAG_URI_PREFIX ++ nm ++ [c_colon] ++ r /\ class_of e = c.
Proof.
  intros H. assert (M : rmatch TAG_URI t = true).
  { destruct (rmatch TAG_URI t) eqn:E; [reflexivity|]. destruct c; cbn [from_tag_uri_of] in H; try discriminate H; apply lift_ok in H as (x & H & _);
    (lazymatch type of H with ?f _ = _ => unfold f in H end); unfold from_tag_uri in H; rewrite E in H; discriminate H. }
  assert (T : is_tag_encodable c = true) by (destruct c; try reflexivity; discriminate H).
  apply rmatch_lang in M as (p & q & -> & L). apply tag_uri_lang in L as (c' & nm & r & N & -> & _).
  replace ((lit "urn:epc:tag:" ++ nm ++ [c_colon] ++ r) ++ q) with (TAG_URI_PREFIX ++ nm ++ [c_colon] ++ r ++ q) in * by (rewrite <- !app_assoc; reflexivity).
  destruct (str_eq_dec (identifier c) (identifier c')) as [E|E].
  - assert (c = c') by (destruct c, c'; try reflexivity; discriminate E). subst c'. exists nm, (r ++ q). split; [exact N|]. split; [reflexivity|].
    destruct c; cbn [from_tag_uri_of] in H; try discriminate H; apply lift_ok in H as (x & _ & ->); reflexivity.
  - rewrite (from_tag_other c c' nm (r ++ q) N) in H; [discriminate H|congruence|exact T].
Qed.

Lemma giai_colon_refuted : exists u x t y,
  giai_init u = Ok x /\ giai_tag_uri x GIAI_202 0 = Ok t /\ giai_from_tag_uri t = Ok y /\ epc_eqb (E_GIAI y) (E_GIAI x) = false.
Proof.
  exists (lit "urn:epc:id:giai:0614141.A1:7").
  exists (mkGiai (lit "urn:epc:id:giai:0614141.A1:7") (lit "0614141") (lit "A1") (lit "0614141A1")).
  exists (lit "urn:epc:tag:giai-202:0.0614141.A1").
  exists (mkGiai (lit "urn:epc:id:giai:0614141.A1") (lit "0614141") (lit "A1") (lit "0614141A1")).
  repeat split; vm_compute; reflexivity.
Qed.
