(** from_tag_uri with the wrong idea about the filter *)
From Coq Require Import String Lia Setoid.
From Verif.Model Require Import Py Re Regexes Common Base.
From Verif.Model Require Import Adi Cpi Gdti Giai Gid Grai Gsrn Gsrnp Itip Lgtin Sgcn Sgln Sgtin Sscc Usdod Others Parsers Calls.
From Verif.Spec Require Import Spec SpecEscapes SpecGrammar SpecSchemes.
From Verif.Proofs Require Import Basics Num ReLemmas Uni Grammar Ctor CtorA CtorB CtorC CtorAll TagUri TagUri2.

Lemma flag_default c t : from_tag_uri_flag c t (match c with C_GID => false | _ => true end) = from_tag_uri_of c t.
Proof. destruct c; reflexivity. Qed.
Lemma flag_eval c nm r inc : In nm (coding_names c) ->
  from_tag_uri_flag c (TAG_URI_PREFIX ++ nm ++ [c_colon] ++ r) inc =
  cond (negb (rmatch TAG_URI (TAG_URI_PREFIX ++ nm ++ [c_colon] ++ r))) (init_of c (scheme_prefix c ++ tag_value inc r)).
Proof.
  intros N. rewrite <- (prefix_tag c nm _ N).
  destruct c; try (exfalso; exact N); cbn [from_tag_uri_flag init_of];
  match goal with |- context [from_tag_uri ?i _ _] => rewrite (from_tag_eval i _ nm r inc N) end;
  unfold cond; destruct (negb _); reflexivity.
Qed.

(** what stands before the first dot of an accepted URI has five characters or more, and GID has three parts *)
Lemma first_part c body e : init_of c (scheme_prefix c ++ body) = Ok e -> is_tag_encodable c = true -> c <> C_GID ->
  exists p r, body = p ++ [c_dot] ++ r /\ ~ In c_dot p /\ (5 <= length p)%nat.
Proof.
  assert (CP : forall b p r, b = p ++ [c_dot] ++ r -> company_prefix p -> exists p r, b = p ++ [c_dot] ++ r /\ ~ In c_dot p /\ (5 <= length p)%nat).
  { intros b p r -> (D & L). exists p, r. split; [reflexivity|]. split; [|lia]. apply digits_iff in D. now apply nosep_digits in D as [D _]. }
  assert (CG : forall b p r, b = p ++ [c_dot] ++ r -> cage_text p -> exists p r, b = p ++ [c_dot] ++ r /\ ~ In c_dot p /\ (5 <= length p)%nat).
  { intros b p r -> D. exists p, r. split; [reflexivity|]. destruct D as (L & D). split; [|lia]. intros I. specialize (D _ I). unfold c_dot in D. lia. }
  intros H T G. destruct c; try discriminate T; try (now destruct G); cbn [init_of] in H; apply lift_ok in H as (x & H & _); clear G T.
  - apply adi_iff in H as ((U & K & _) & _). apply app_inv_head in U. exact (CG _ _ _ U K).
  - apply cpi_iff in H as ((U & K & _) & _). apply app_inv_head in U. exact (CP _ _ _ U K).
  - apply gdti_iff in H as ((U & K & _) & _). apply app_inv_head in U. exact (CP _ _ _ U K).
  - apply giai_iff in H as ((ig & U & K & _) & _). apply app_inv_head in U. exact (CP _ _ _ U K).
  - apply grai_iff in H as ((U & K & _) & _). apply app_inv_head in U. exact (CP _ _ _ U K).
  - apply gsrn_iff in H as ((U & K & _) & _). apply app_inv_head in U. exact (CP _ _ _ U K).
  - apply gsrnp_iff in H as ((U & K & _) & _). apply app_inv_head in U. exact (CP _ _ _ U K).
  - apply itip_iff in H as ((U & K & _) & _). apply app_inv_head in U. exact (CP _ _ _ U K).
  - apply sgcn_iff in H as ((U & K & _) & _). apply app_inv_head in U. exact (CP _ _ _ U K).
  - apply sgln_iff in H as ((U & K & _) & _). apply app_inv_head in U. exact (CP _ _ _ U K).
  - apply sgtin_iff in H as ((U & K & _) & _). apply app_inv_head in U. exact (CP _ _ _ U K).
  - apply sscc_iff in H as ((U & K & _) & _). apply app_inv_head in U. exact (CP _ _ _ U K).
  - apply usdod_iff in H as ((U & K & _) & _). apply app_inv_head in U. exact (CG _ _ _ U K).
Qed.
Lemma hd_split_cut c a b : ~ In c a -> hd [] (split c (a ++ b)) = a ++ hd [] (split c b).
Proof. intros H. now rewrite split_pre by exact H. Qed.
Lemma first_inj c (a b x y : str) : ~ In c a -> ~ In c b -> a ++ [c] ++ x = b ++ [c] ++ y -> a = b /\ x = y.
Proof.
  revert b. induction a as [|p a IH]; intros [|q b] A B E; cbn in E.
  - injection E as E. auto.
  - injection E as E _. exfalso. apply B. now left.
  - injection E as E _. exfalso. apply A. now left.
  - injection E as <- E. destruct (IH b) as [-> ->]; [intros H; apply A; now right|intros H; apply B; now right|exact E|auto].
Qed.
Lemma ndec_short f : f < 100 -> (length (ndec f) <= 2)%nat.
Proof.
  intros H. assert (X : forallb (fun n => (length (ndec n) <=? 2)%nat) (map N.of_nat (seq 0 100)) = true) by (vm_compute; reflexivity).
  rewrite forallb_forall in X. specialize (X f). apply Nat.leb_le, X. apply in_map_iff. exists (N.to_nat f). rewrite in_seq. lia.
Qed.

Theorem wrong_flag q u t : init_of (class_of (req_epc q)) u = Ok (req_epc q) -> req_tag_uri q = Ok t ->
  (forall f, req_filter q = Some f -> f < 100) ->
  from_tag_uri_flag (class_of (req_epc q)) t (match req_filter q with Some _ => true | None => false end) = from_tag_uri_of (class_of (req_epc q)) t /\
  forall e, from_tag_uri_flag (class_of (req_epc q)) t (match req_filter q with Some _ => false | None => true end) <> Ok e.
Proof.
  intros I T F. destruct (tag_uri_text q u t I T) as (body & rest & U & R & ->). set (c := class_of (req_epc q)) in *.
  pose proof (req_coding_in q) as N. fold c in N.
  assert (G : (c = C_GID /\ req_filter q = None) \/ (c <> C_GID /\ exists f, req_filter q = Some f)).
  { subst c. destruct q; cbn; auto; right; split; try discriminate; eauto. }
  assert (TE : is_tag_encodable c = true) by (clear -N; destruct c; try reflexivity; destruct N).
  destruct G as [(G & E)|(G & f & E)]; rewrite E.
  - split; [rewrite G; reflexivity|]. intros e H. rewrite (flag_eval c _ _ true N) in H. unfold cond in H. destruct (negb _); [discriminate|].
    rewrite G in *. destruct R as [->|(X & _)]; [|discriminate]. rewrite app_nil_r in U. subst u. cbn [init_of] in I, H.
    apply lift_ok in I as (x & I & _). apply lift_ok in H as (y & H & _). apply gid_iff in I as ((U & A & B & C & _) & _). apply gid_iff in H as ((V & A' & B' & C' & _) & _).
    apply app_inv_head in U, V. apply numeral_iff in A, B, C, A', B', C'. apply nosep_nc in A as [A _], B as [B _], C as [C _], A' as [A' _], B' as [B' _], C' as [C' _].
    unfold tag_value in V. cbn [app] in V. rewrite U in V. change (lit ".") with [c_dot] in V.
    rewrite (split_app1 c_dot _ _ A) in V. cbn [skipn] in V. rewrite join_split in V.
    apply (f_equal (split c_dot)) in V. rewrite (split_app1 c_dot _ _ B), (split_app1 c_dot _ _ A'), (split_app1 c_dot _ _ B'), !split_nosep in V by assumption. discriminate V.
  - split; [subst c; destruct (class_of (req_epc q)); try reflexivity; now destruct G|]. intros e H. rewrite (flag_eval c _ _ false N) in H. unfold cond in H. destruct (negb _); [discriminate|].
    apply first_part in H as (p & r & V & D & L); [|exact TE|exact G]. unfold tag_value in V. rewrite <- app_assoc in V.
    assert (S : ~ In c_dot (ndec f) /\ ~ In c_colon (ndec f)) by (apply nosep_nc, ndec_nc). destruct S as (S1 & S2).
    rewrite hd_split_cut in V by exact S2. rewrite hd_split_cut in V by (intros [X|[]]; discriminate X).
    apply first_inj in V as (V & _); [|exact S1|exact D]. rewrite <- V in L. pose proof (ndec_short f (F f E)). lia.
Qed.

Lemma both_flags : exists t e e',
  from_tag_uri_flag C_SGTIN t true = Ok e /\ from_tag_uri_flag C_SGTIN t false = Ok e' /\ epc_eqb e e' = false.
Proof. exists (lit "urn:epc:tag:sgtin-198:112345.0614141.123456.1"). eexists _, _. split; [vm_compute; reflexivity|]. split; vm_compute; reflexivity. Qed.
