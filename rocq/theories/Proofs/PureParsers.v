(** The epc_pure_identity_* parsers. *)
From Coq Require Import String Lia Setoid.
From Verif.Model Require Import Py Re Regexes Common Base.
From Verif.Model Require Import Parsers.
From Verif.Spec Require Import Spec SpecEscapes SpecGrammar SpecSchemes.
From Verif.Proofs Require Import Basics Num ReLemmas Uni Grammar Ctor CtorAll.

Lemma assoc_identifier c : assoc_str (identifier c) EPC_SCHEME_IDENTIFIERS = Some c.
Proof. destruct c; reflexivity. Qed.
Lemma assoc_str_in {A} s (l : list (str * A)) a : assoc_str s l = Some a -> In (s, a) l.
Proof.
  induction l as [|[k v] l IH]; cbn [assoc_str]; [discriminate|]. destruct (str_eqb s k) eqn:E.
  - intros H. injection H as ->. apply str_eqb_eq in E. subst k. now left.
  - intros H. right. auto.
Qed.
Lemma assoc_identifier_inv s c : assoc_str s EPC_SCHEME_IDENTIFIERS = Some c -> s = identifier c.
Proof. intros H. apply assoc_str_in in H. unfold EPC_SCHEME_IDENTIFIERS in H. apply in_map_iff in H as (x & H & _). congruence. Qed.
Lemma split4 (u a b c d r : str) : ~ In 58 a -> ~ In 58 b -> ~ In 58 c -> ~ In 58 d ->
  u = a ++ lit ":" ++ b ++ lit ":" ++ c ++ lit ":" ++ d ++ r -> (r = [] \/ exists r', r = 58 :: r') ->
  exists l, split c_colon u = a :: b :: c :: d :: l.
Proof.
  intros A B C D -> R. change (lit ":") with [c_colon]. rewrite !split_app1 by assumption.
  destruct R as [->|(r' & ->)]; [rewrite app_nil_r, split_nosep by assumption; eauto|].
  rewrite (split_app c_colon) by assumption. eauto.
Qed.

Lemma name_identifier c : scheme_name c = identifier c.
Proof. destruct c; reflexivity. Qed.
Lemma fourth_idx u name : fourth_field u name -> idx (split c_colon u) 3 = Ok name.
Proof.
  intros (a & b & c & r & A & B & C & D & U & R). destruct (split4 _ _ _ _ _ _ A B C D U R) as (l & ->). reflexivity.
Qed.
Theorem scheme_known c u : fourth_field u (scheme_name c) -> epc_pure_identity_to_scheme u = init_of c u.
Proof. rewrite name_identifier. intros H. unfold epc_pure_identity_to_scheme. rewrite (fourth_idx _ _ H), bind_Ok, assoc_identifier. reflexivity. Qed.
Theorem scheme_unknown u name : fourth_field u name -> (forall c, name <> scheme_name c) ->
  epc_pure_identity_to_scheme u = Raise ConvertException.
Proof.
  intros H N. unfold epc_pure_identity_to_scheme. rewrite (fourth_idx _ _ H), bind_Ok.
  destruct (assoc_str _ _) as [c|] eqn:E; [apply assoc_identifier_inv in E; rewrite <- name_identifier in E; now apply N in E|reflexivity].
Qed.
Lemma count_split c s : length (split c s) = S (length (filter (N.eqb c) s)).
Proof.
  induction s as [|x s IH]; [reflexivity|]. cbn [split filter]. rewrite (N.eqb_sym c x). destruct (x =? c); [cbn [length]; now rewrite IH|].
  destruct (split c s); [cbn in *; lia|]. cbn [length] in *. exact IH.
Qed.
Theorem scheme_short u : (colons u < 3)%nat -> epc_pure_identity_to_scheme u = Raise IndexError.
Proof.
  unfold colons. intros H. unfold epc_pure_identity_to_scheme. pose proof (count_split c_colon u) as L. change (N.eqb 58) with (N.eqb c_colon) in H.
  destruct (split c_colon u) as [|a [|b [|c [|d l]]]]; cbn [length] in L; try reflexivity. exfalso. lia.
Qed.
Lemma pure_built c u e : init_of c u = Ok e -> epc_pure_identity_to_scheme u = Ok e.
Proof.
  intros H. destruct (init_prefix _ _ _ H) as (b & E). rewrite <- H. unfold epc_pure_identity_to_scheme.
  destruct (prefix_split c b) as (x & y & P). rewrite E, P. cbn [idx nth_error of_option]. rewrite bind_Ok, assoc_identifier. reflexivity.
Qed.

Lemma restricted_gen (can : cls -> bool) l f : (forall c, can c = true <-> In c l) ->
  (forall u, f u = (let* e := epc_pure_identity_to_scheme u in let* _ := raise_if (negb (can (class_of e))) ConvertException in Ok e)) -> restricted l f.
Proof.
  intros L F. split; [|split].
  - intros u e. rewrite F. destruct (epc_pure_identity_to_scheme u) as [e'|x]; cbn [bind]; [|split; [discriminate|intros [H _]; discriminate]].
    destruct (can (class_of e')) eqn:E; cbn; split; try discriminate.
    + intros H. injection H as <-. split; [reflexivity|]. now apply L.
    + intros [H _]. exact H.
    + intros [H C]. injection H as <-. apply L in C. congruence.
  - intros u e H C. rewrite F, H. cbn. destruct (can (class_of e)) eqn:E; [apply L in E; contradiction|reflexivity].
  - intros u x H. rewrite F, H. reflexivity.
Qed.
Ltac classes := let c := fresh in intros c; destruct c; cbn; split; intros H;
  solve [discriminate H|reflexivity|tauto|repeat (destruct H as [H|H]; [discriminate H|]); destruct H].
Lemma element_classes_iff : forall c, is_gs1_element c = true <-> In c element_classes. Proof. classes. Qed.
Lemma keyed_classes_iff : forall c, is_gs1_keyed c = true <-> In c keyed_classes. Proof. classes. Qed.
Lemma tag_classes_iff : forall c, is_tag_encodable c = true <-> In c tag_classes. Proof. classes. Qed.
Theorem restricted_element : restricted element_classes epc_pure_identity_to_gs1_element.
Proof. eapply restricted_gen; [exact element_classes_iff|reflexivity]. Qed.
Theorem restricted_keyed : restricted keyed_classes epc_pure_identity_to_gs1_keyed.
Proof. eapply restricted_gen; [exact keyed_classes_iff|reflexivity]. Qed.
Theorem restricted_tag : restricted tag_classes epc_pure_identity_to_tag_encodable.
Proof. eapply restricted_gen; [exact tag_classes_iff|reflexivity]. Qed.
Lemma restricted_ok l f c u e : restricted l f -> init_of c u = Ok e -> In c l -> f u = Ok e.
Proof.
  intros (R & _) H I. apply R. split; [exact (pure_built _ _ _ H)|]. destruct (init_class _ _ _ H) as [-> _]. exact I.
Qed.
Theorem element_string_of c u e : init_of c u = Ok e -> In c element_classes -> epc_pure_identity_to_gs1_element_string u = epc_gs1_element_string e.
Proof. intros H I. unfold epc_pure_identity_to_gs1_element_string. rewrite (restricted_ok _ _ _ _ _ restricted_element H I). reflexivity. Qed.
Theorem key_of c u e g : init_of c u = Ok e -> In c keyed_classes -> epc_pure_identity_to_gs1_key u g = epc_gs1_key e g.
Proof. intros H I. unfold epc_pure_identity_to_gs1_key. rewrite (restricted_ok _ _ _ _ _ restricted_keyed H I). reflexivity. Qed.
