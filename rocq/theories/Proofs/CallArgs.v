(** The arguments of [tag_uri], [binary], [hex] and [base64]. *)
From Coq Require Import String List Lia.
From Verif.Model Require Import Py Re Regexes Common Base.
From Verif.Model Require Import Adi Cpi Gdti Giai Gid Grai Gsrn Gsrnp Itip Lgtin Sgcn Sgln Sgtin Sscc Usdod Others Parsers Calls.
From Verif.Spec Require Import Spec SpecEscapes SpecGrammar SpecSchemes SpecCalls.
From Verif.Proofs Require Import Basics Num TagUri TagUri2 ElementBack PureParsers NonAscii.
Import ListNotations.

(** the text of a tag URI the methods return *)
Lemma req_members q n : req_filter q = Some n \/ req_filter q = None ->
  tag_uri_members (req_epc q) (req_scheme q) (M_filter n) = req_tag_uri q.
Proof.
  intros Hn; unfold tag_uri_members; destruct q; cbn [req_filter] in Hn;
    try (destruct Hn as [[= <-]|[=]]); cbn [req_epc req_scheme request req_tag_uri].
  all: try (unfold adi_tag_uri, cpi_tag_uri, gdti_tag_uri, giai_tag_uri, gid_tag_uri, grai_tag_uri, gsrn_tag_uri, gsrnp_tag_uri, itip_tag_uri,
    sgcn_tag_uri, sgln_tag_uri, sgtin_tag_uri, sscc_tag_uri, usdod_tag_uri).
  all: cbn [bind member_value tag_uri_body].
  all: try reflexivity.
  all: try (destruct s; cbn [bind]).
  all: rewrite <- ?app_assoc.
  all: try reflexivity.
  all: repeat match goal with
       | |- bind (bind ?g _) _ = _ => destruct g as [bad|]; cbn [bind]; [|reflexivity]
       | |- bind (bind (raise_if ?b _) _) _ = _ => destruct b; cbn [raise_if bind]
       | |- bind (if ?b then _ else _) _ = _ => destruct b; cbn [bind]
       end.
  all: try reflexivity.
  all: try (destruct bad; cbn [raise_if bind]; reflexivity).
Qed.

Lemma order_bind_kw c q : class_of (req_epc q) = c ->
  bind_call (tag_uri_params c) [] (keywords q) = bind_call (tag_uri_params c) (positional (tag_uri_order c) q) kw_none /\
  bind_call (binary_params c) [] (keywords q) = bind_call (binary_params c) (positional (binary_order c) q) kw_none.
Proof. intros <-; destruct q; split; reflexivity. Qed.
Lemma bound_kw q : exists n, (req_filter q = Some n \/ req_filter q = None) /\
  (forall l, bind_call (tag_uri_params (class_of (req_epc q))) [] (keywords q) = Ok l ->
     bound P_scheme l = req_scheme q /\ bound P_filter l = M_filter n) /\
  (forall l, bind_call (binary_params (class_of (req_epc q))) [] (keywords q) = Ok l ->
     bound P_scheme l = req_scheme q /\ bound P_filter l = M_filter n) /\
  (exists l, bind_call (tag_uri_params (class_of (req_epc q))) [] (keywords q) = Ok l) /\
  (exists l, bind_call (binary_params (class_of (req_epc q))) [] (keywords q) = Ok l).
Proof.
  exists (match req_filter q with Some n => n | None => 0 end); destruct q; (split; [cbn [req_filter]; tauto|]).
  all: repeat split; try (eexists; reflexivity); injection H as <-; reflexivity.
Qed.
Lemma kw_tag_uri q : call_tag_uri (req_epc q) [] (keywords q) = req_tag_uri q.
Proof.
  destruct (bound_kw q) as [n [Hn [H1 [_ [[l Hl] _]]]]]; unfold call_tag_uri; rewrite Hl; cbn [bind].
  destruct (H1 l Hl) as [-> ->]; exact (req_members q n Hn).
Qed.
Lemma binary_members_req q n : req_filter q = Some n \/ req_filter q = None ->
  binary_members (req_epc q) (req_scheme q) (M_filter n) = req_binary q.
Proof.
  intros Hn; unfold binary_members; destruct q; cbn [req_filter] in Hn; try (destruct Hn as [[= <-]|[=]]); reflexivity.
Qed.
Lemma kw_binary q : call_binary (req_epc q) [] (keywords q) = req_binary q.
Proof.
  destruct (bound_kw q) as [n [Hn [_ [H1 [_ [l Hl]]]]]]; unfold call_binary; rewrite Hl; cbn [bind].
  destruct (H1 l Hl) as [-> ->]; exact (binary_members_req q n Hn).
Qed.
Theorem call_keywords q args :
  call_tag_uri (req_epc q) [] (keywords q) = req_tag_uri q /\
  call_binary (req_epc q) [] (keywords q) = req_binary q /\
  call_hex (req_epc q) args (keywords q) = req_hex q /\
  call_base64 (req_epc q) args (keywords q) = req_base64 q.
Proof.
  unfold call_base64, call_hex, req_hex, req_base64; rewrite kw_tag_uri, kw_binary; repeat split; reflexivity.
Qed.
Theorem call_positional q :
  call_tag_uri (req_epc q) (positional (tag_uri_order (class_of (req_epc q))) q) kw_none = req_tag_uri q /\
  call_binary (req_epc q) (positional (binary_order (class_of (req_epc q))) q) kw_none = req_binary q.
Proof.
  destruct (order_bind_kw _ q eq_refl) as [H1 H2].
  rewrite <- kw_tag_uri, <- kw_binary; unfold call_tag_uri, call_binary; rewrite H1, H2; split; reflexivity.
Qed.
Theorem call_defaults e q : default_request e = Some q ->
  call_tag_uri e [] kw_none = req_tag_uri q /\ call_binary e [] kw_none = req_binary q.
Proof.
  destruct e; try discriminate; intros [= <-].
  all: split; [rewrite <- kw_tag_uri | rewrite <- kw_binary]; reflexivity.
Qed.
Theorem call_filter_only e f q : filter_only_request e f = Some q ->
  call_tag_uri e [M_filter f] kw_none = req_tag_uri q /\ call_binary e [M_filter f] kw_none = req_binary q /\
  (forall args, call_hex e args (mkKw None (Some (M_filter f)) false) = req_hex q /\
                call_base64 e args (mkKw None (Some (M_filter f)) false) = req_base64 q).
Proof.
  intros Hq.
  assert (H1 : call_tag_uri e [M_filter f] kw_none = req_tag_uri q)
    by (destruct e; try discriminate; injection Hq as <-; rewrite <- kw_tag_uri; reflexivity).
  assert (H2 : call_binary e [M_filter f] kw_none = req_binary q)
    by (destruct e; try discriminate; injection Hq as <-; rewrite <- kw_binary; reflexivity).
  assert (H3 : call_binary e [] (mkKw None (Some (M_filter f)) false) = req_binary q)
    by (destruct e; try discriminate; injection Hq as <-; rewrite <- kw_binary; reflexivity).
  repeat split; try assumption; unfold call_base64, call_hex, req_hex, req_base64; rewrite H3; reflexivity.
Qed.

(** ** hex() and base64() do not look at positional arguments *)
Theorem hex_positional e args : In (class_of e) tag_classes ->
  match default_request e with
  | Some q => call_hex e args kw_none = req_hex q /\ call_base64 e args kw_none = req_base64 q
  | None => call_hex e args kw_none = Raise TypeError /\ call_base64 e args kw_none = Raise TypeError
  end.
Proof.
  intros Hc; unfold call_base64, call_hex.
  destruct (default_request e) as [q|] eqn:D.
  - destruct (call_defaults e q D) as [_ ->]; split; reflexivity.
  - assert (call_binary e [] kw_none = Raise TypeError) as ->; [|split; reflexivity].
    destruct e; try discriminate D; try reflexivity; exfalso; cbn in Hc; repeat (destruct Hc as [Hc|Hc]; [discriminate Hc|]); exact Hc.
Qed.

(** ** Arguments in the wrong order *)
Lemma wrong_binary q : req_filter q <> None ->
  call_binary (req_epc q) (positional (swap (binary_order (class_of (req_epc q)))) q) kw_none = Raise KeyError.
Proof. destruct q; intros Hf; try reflexivity; exfalso; apply Hf; reflexivity. Qed.
Lemma wrong_tag_uri q : req_filter q <> None ->
  exists n rest, call_tag_uri (req_epc q) (positional (swap (tag_uri_order (class_of (req_epc q)))) q) kw_none
    = Ok (lit "urn:epc:tag:" ++ ndec n ++ lit ":" ++ rest).
Proof.
  destruct q; intros Hf; try (exfalso; apply Hf; reflexivity).
  all: exists f; eexists; reflexivity.
Qed.

Lemma ndec_no c n : (c < 48 \/ 57 < c) -> ~ In c (ndec n).
Proof.
  intros Hc Hi; pose proof (ndec_digits n) as D; rewrite forallb_forall in D; specialize (D c Hi).
  apply is_digit_iff in D; lia.
Qed.
Lemma member_no_colon m : ~ In c_colon (member_value m).
Proof.
  destruct m as [[]|[]|[]|[]|[]|[]|[]|[]|[]|[]|[]|[]|[]|[]|n]; cbn [member_value].
  all: try (unfold filter_value; apply ndec_no; right; reflexivity).
  all: intros H; vm_compute in H; repeat (destruct H as [H|H]; [discriminate H|]); exact H.
Qed.
Lemma member_names m c : In (member_value m) (coding_names c) -> member_class m = Some c.
Proof.
  intros H.
  assert (K : forall c', In (member_value m) (coding_names c') -> Some c' = Some c)
    by (intros c' H'; f_equal; exact (coding_class_inj _ _ _ H' H)).
  destruct m as [[]|[]|[]|[]|[]|[]|[]|[]|[]|[]|[]|[]|[]|[]|n]; cbn [member_class];
    try (apply K; vm_compute; tauto).
  exfalso; destruct (coding_split c _ H) as [_ [_ [sz E]]].
  cbn [member_value] in E; unfold filter_value in E.
  assert (In c_dash (ndec n)); [|revert H0; apply ndec_no; left; reflexivity].
  destruct (in_dec N.eq_dec c_dash (ndec n)) as [I|I]; [exact I|exfalso].
  rewrite split_nosep in E by exact I; discriminate E.
Qed.
Lemma text_class m rest c e' :
  from_tag_uri_of c (TAG_URI_PREFIX ++ member_value m ++ [c_colon] ++ rest) = Ok e' -> member_class m = Some (class_of e').
Proof.
  intros H; destruct (from_tag_shape _ _ _ H) as [nm [r [I [E K]]]].
  apply app_inv_head in E.
  destruct (cut_inj c_colon _ _ _ _ (member_no_colon m) (proj1 (coding_split c nm I)) E) as [E' _].
  subst nm; rewrite K; exact (member_names m c I).
Qed.
Lemma generic_class t e' : tag_uri_to_tag_encodable t = Ok e' -> exists c, from_tag_uri_of c t = Ok e'.
Proof.
  unfold tag_uri_to_tag_encodable; intros H.
  destruct (idx (split c_colon t) 3) as [f|]; [cbn [bind] in H|discriminate H].
  destruct (idx (split c_dash f) 0) as [i|]; [cbn [bind] in H|discriminate H].
  destruct (assoc_str i TAG_ENCODABLE_SCHEME_IDENTIFIERS) as [c|]; [|discriminate H].
  exists c; exact H.
Qed.
(** what the parsers make of a tag URI written with any members *)
Theorem wrong_order q : req_filter q <> None ->
  call_binary (req_epc q) (positional (swap (binary_order (class_of (req_epc q)))) q) kw_none = Raise KeyError /\
  exists t, call_tag_uri (req_epc q) (positional (swap (tag_uri_order (class_of (req_epc q)))) q) kw_none = Ok t /\
    (forall c e, from_tag_uri_of c t <> Ok e) /\ (forall e, tag_uri_to_tag_encodable t <> Ok e).
Proof.
  intros Hf; split; [exact (wrong_binary q Hf)|].
  destruct (wrong_tag_uri q Hf) as [n [rest ->]]; eexists; split; [reflexivity|].
  assert (K : forall c e, from_tag_uri_of c (lit "urn:epc:tag:" ++ ndec n ++ lit ":" ++ rest) <> Ok e)
    by (intros c e H; discriminate (text_class (M_filter n) rest c e H)).
  split; [exact K|]; intros e H; destruct (generic_class _ _ H) as [c H']; exact (K c e H').
Qed.
Theorem foreign_scheme e s f : In (class_of e) tag_classes -> member_class s <> Some (class_of e) ->
  (f = None <-> class_of e = C_GID) ->
  call_binary e [] (mkKw (Some s) f false) = Raise KeyError /\
  exists t, call_tag_uri e [] (mkKw (Some s) f false) = Ok t /\
    (forall c e', from_tag_uri_of c t = Ok e' -> member_class s = Some (class_of e')) /\
    (forall e', tag_uri_to_tag_encodable t = Ok e' -> member_class s = Some (class_of e')).
Proof.
  intros Hc Hs Hf.
  assert (R : forall n, request e s n = None).
  { intros n; destruct e; try reflexivity; destruct s; try reflexivity; exfalso; apply Hs; reflexivity. }
  assert (B : call_binary e [] (mkKw (Some s) f false) = Raise KeyError /\
    exists rest, call_tag_uri e [] (mkKw (Some s) f false) = Ok (TAG_URI_PREFIX ++ member_value s ++ [c_colon] ++ rest)).
  { unfold call_binary, call_tag_uri.
    destruct f as [f|].
    - destruct e; try (exfalso; cbn in Hc; repeat (destruct Hc as [Hc|Hc]; [discriminate Hc|]); exact Hc);
        try (discriminate (proj2 Hf eq_refl)).
      all: cbn [class_of tag_uri_params binary_params]; unfold bind_call, unexpected;
        cbn [kw_other kw_get kw_scheme kw_filter existsb is_param fst negb orb raise_if bind bind_params].
      all: unfold bound; cbn [find is_param fst]; unfold binary_members, tag_uri_members; rewrite !R; cbn [bind];
        (split; [reflexivity|eexists; reflexivity]).
    - pose proof (proj1 Hf eq_refl) as G; destruct e; try discriminate G.
      cbn [class_of tag_uri_params binary_params]; unfold bind_call, unexpected;
        cbn [kw_other kw_get kw_scheme kw_filter existsb is_param fst negb orb raise_if bind bind_params].
      unfold bound; cbn [find is_param fst]; unfold binary_members, tag_uri_members; rewrite !R; cbn [bind];
        (split; [reflexivity|eexists; reflexivity]). }
  destruct B as [B [rest T]]; split; [exact B|]; exists (TAG_URI_PREFIX ++ member_value s ++ [c_colon] ++ rest).
  split; [exact T|]; split; [intros c e'; apply text_class|].
  intros e' H; destruct (generic_class _ _ H) as [c H']; exact (text_class _ _ _ _ H').
Qed.
(** a scheme where a filter value belongs *)
Theorem scheme_as_filter e s s' c : In (class_of e) tag_classes -> class_of e <> C_GID -> member_class s = Some (class_of e) ->
  member_class s' = Some c -> call_binary e [] (mkKw (Some s) (Some s') false) = Raise ValueError.
Proof.
  intros Hc Hg Hs Hs'; unfold call_binary.
  destruct e; try (exfalso; cbn in Hc; repeat (destruct Hc as [Hc|Hc]; [discriminate Hc|]); exact Hc);
    try (exfalso; exact (Hg eq_refl)); destruct s; try discriminate Hs.
  all: cbn [class_of tag_uri_params binary_params]; unfold bind_call, unexpected;
        cbn [kw_other kw_get kw_scheme kw_filter existsb is_param fst negb orb raise_if bind bind_params].
  all: unfold bound; cbn [find is_param fst]; unfold binary_members; cbn [request].
  all: destruct s' as [[]|[]|[]|[]|[]|[]|[]|[]|[]|[]|[]|[]|[]|[]|n]; try discriminate Hs'; reflexivity.
Qed.
(** a call that succeeds encodes the object it is made on, with arguments of its own class *)
Lemma request_epc e s n q : request e s n = Some q -> req_epc q = e /\ req_scheme q = s /\ (req_filter q = Some n \/ req_filter q = None).
Proof. destruct e; try discriminate; destruct s; try discriminate; intros [= <-]; repeat split; cbn; tauto. Qed.
Theorem binary_call e args k b : call_binary e args k = Ok b -> exists q, req_epc q = e /\ req_binary q = Ok b.
Proof.
  unfold call_binary; intros H.
  destruct (bind_call (binary_params (class_of e)) args k) as [l|]; [cbn [bind] in H|discriminate H].
  unfold binary_members in H.
  destruct (request e _ _) as [q|] eqn:R; [|discriminate H].
  exists q; split; [exact (proj1 (request_epc _ _ _ _ R))|].
  destruct (match e with E_GID _ => _ | _ => _ end) as [x|] eqn:F in H; [exact H|discriminate H].
Qed.
(** ** Claims one might make that are false *)
Theorem positional_hex_refuted :
  ~ (forall q h, call_hex (req_epc q) (positional (binary_order (class_of (req_epc q))) q) kw_none = Ok h -> req_hex q = Ok h).
Proof.
  intros H.
  destruct (gsrn_init (lit "urn:epc:id:gsrn:0614141.1234567890")) as [x|] eqn:E; [|discriminate E].
  specialize (H (T_GSRN x GSRN_96 1)).
  vm_compute in E; injection E as <-.
  specialize (H _ eq_refl); vm_compute in H; discriminate H.
Qed.
Theorem same_order_refuted :
  ~ (forall q, call_tag_uri (req_epc q) (positional (binary_order (class_of (req_epc q))) q) kw_none = req_tag_uri q).
Proof.
  intros H.
  destruct (itip_init (lit "urn:epc:id:itip:4012345.012345.01.02.987")) as [x|] eqn:E; [|discriminate E].
  specialize (H (T_ITIP x ITIP_110 3)); vm_compute in E; injection E as <-; vm_compute in H; discriminate H.
Qed.
Theorem foreign_tag_uri_refuted :
  ~ (forall e s f t e', In (class_of e) tag_classes -> call_tag_uri e [] (mkKw (Some s) (Some (M_filter f)) false) = Ok t ->
       tag_uri_to_tag_encodable t = Ok e' -> class_of e' = class_of e).
Proof.
  intros H.
  assert (W : match init_of C_GRAI (lit "urn:epc:id:grai:0614141.12345.400") with
    | Ok e => match call_tag_uri e [] (mkKw (Some (M_SGLN SGLN_96)) (Some (M_filter 1)) false) with
              | Ok t => match tag_uri_to_tag_encodable t with
                        | Ok e' => class_of e = C_GRAI /\ class_of e' = C_SGLN | _ => False end
              | _ => False end
    | _ => False end) by (vm_compute; split; reflexivity).
  destruct (init_of C_GRAI _) as [e|]; [|exact W].
  destruct (call_tag_uri e _ _) as [t|] eqn:T; [|exact W].
  destruct (tag_uri_to_tag_encodable t) as [e'|] eqn:P; [|exact W].
  destruct W as [W W'].
  assert (I : In (class_of e) tag_classes) by (rewrite W; vm_compute; tauto).
  specialize (H _ _ _ _ _ I T P); rewrite W, W' in H; discriminate H.
Qed.
