(** What a caller sees of the lengths of company prefixes: runs of the source. *)
From Coq Require Import String Lia.
From Verif.Model Require Import Py PyFloat Re Sre PyFormat Syntax Machine Regexes Common Base.
From Verif.Model Require Import Adi Cpi Gdti Giai Gid Grai Gsrn Gsrnp Itip Lgtin Sgcn Sgln Sgtin Sscc Usdod Others Parsers Calls Registry Dynamic.
From Verif.Source Require Import World.
From Verif.Spec Require Import SpecSchemes SpecParsers SpecDynamic SpecStands SpecRunTypes.
From Verif.Proofs Require Import Basics Num SreTexts SreUse SrcUse SrcBase Runs RunsAll CtorAll RunsLengths RunsTypes RunsOther.
From Verif.Proofs Require SrcParsers SrcElement SrcKeys Dynamic RunsClasses.
Open Scope list_scope.

Lemma element_name c : In c element_names -> exists k, In k element_classes /\ VClass c = class_value k.
Proof. apply RunsClasses.named_element. Qed.
Theorem length_number c s l z r : In c element_names -> number l z ->
  (invokes W (VClass c) "from_gs1_element_string" [VStr s; l] [] r <-> invokes W (VClass c) "from_gs1_element_string" [VStr s; VInt z] [] r).
Proof.
  intros C N. destruct (element_name c C) as (k & K & E). rewrite E.
  assert (A : forall l, number l z -> invokes W (class_value k) "from_gs1_element_string" [VStr s; l] [] (result obj_of (from_gs1_element_string_of k s z)))
    by (intros l0 N0; eapply invokes_of; [exact (element_method k s l0 K)|exact (g_number k s l0 z [] K N0)]).
  split; intros H; [rewrite (invokes_once _ _ _ _ _ _ H (A l N)); apply A; constructor|rewrite (invokes_once _ _ _ _ _ _ H (A _ (N_int z))); apply A, N].
Qed.
Lemma bad_run k s l : In k element_classes -> no_length l -> l <> VNone -> invokes W (class_value k) "from_gs1_element_string" [VStr s; l] [] (no_length_outcome k s).
Proof. intros K N D. eapply invokes_of; [exact (element_method k s l K)|]. apply g_bad; [exact K|exact N|contradiction]. Qed.
Theorem length_refused c s l : In c element_names -> no_length l -> l <> VNone ->
  exists x, invokes W (VClass c) "from_gs1_element_string" [VStr s; l] [] (Raised (XExn x)) /\ (x = TypeError \/ x = ConvertException \/ x = ValueError).
Proof.
  intros C N D. destruct (element_name c C) as (k & K & E). rewrite E. pose proof (bad_run k s l K N D) as H. unfold no_length_outcome in H.
  destruct (fullmatch _ s); [|eauto]. destruct (cut_element_string k s) as [u|x] eqn:X; [eexists; split; [exact H|auto]|].
  exists x. split; [exact H|]. right; right. clear - X. destruct k; try discriminate X; cbn [cut_element_string] in X;
    unfold unpack3, unpack2 in X; repeat (match type of X with context [match ?y with _ => _ end] => destruct y end; try discriminate X); injection X as <-; reflexivity.
Qed.
(** an element string that can be read with some number is refused for its length *)
Theorem length_type_error c s l n v : In c element_names -> no_length l -> l <> VNone -> class_reads_element c s n v ->
  invokes W (VClass c) "from_gs1_element_string" [VStr s; l] [] type_error.
Proof.
  intros C N D R. destruct (element_name c C) as (k & K & E). unfold class_reads_element in R. rewrite E in *.
  pose proof (bad_run k s l K N D) as H. pose proof (RunsClasses.element_runs k s n K) as A. pose proof (invokes_once _ _ _ _ _ _ R A) as X.
  symmetry in X. apply result_returned in X as (e & X & _). clear A R.
  assert (Y : fullmatch (gs1_element_string_regex k) s = true /\ exists u, cut_element_string k s = Ok u).
  { clear - X K. cbn [element_classes In] in K. repeat destruct K as [<-|K]; [..|contradiction]; cbn [from_gs1_element_string_of] in X; apply lift_ok in X as (? & X & _).
    all: cbv [gs1_element_string_regex]; cbn [cut_element_string]; unfold cpi_from_gs1_element_string, gdti_from_gs1_element_string, giai_from_gs1_element_string, ginc_from_gs1_element_string, grai_from_gs1_element_string, gsin_from_gs1_element_string, gsrn_from_gs1_element_string, gsrnp_from_gs1_element_string, itip_from_gs1_element_string, lgtin_from_gs1_element_string, pgln_from_gs1_element_string, sgcn_from_gs1_element_string, sgln_from_gs1_element_string, sgtin_from_gs1_element_string, sscc_from_gs1_element_string, upui_from_gs1_element_string in X.
    all: try change lgtin_m_paren2 with Sgtin.m_paren2 in X; try change sscc_m_paren2 with Sgtin.m_paren2 in X.
    all: destruct (fullmatch _ s); [|discriminate X]; cbn [negb raise_if bind] in X; split; [reflexivity|].
    all: try (destruct (unpack3 _) as [[[? ?] ?]|]; [|discriminate X]); try (destruct (unpack2 _) as [[? ?]|]; [|discriminate X]); eexists; reflexivity. }
  unfold no_length_outcome in H. destruct Y as [Y (u & U)]. rewrite Y, U in H. exact H.
Qed.
(** what is no element string of the class is so with every length *)
Theorem length_no_element c s l n : In c element_names -> no_length l -> l <> VNone ->
  invokes W (VClass c) "from_gs1_element_string" [VStr s; l] [] (Raised (XExn ConvertException)) ->
  invokes W (VClass c) "from_gs1_element_string" [VStr s; VInt n] [] (Raised (XExn ConvertException)).
Proof.
  intros C N D R. destruct (element_name c C) as (k & K & E). rewrite E in *.
  pose proof (bad_run k s l K N D) as H. pose proof (RunsClasses.element_runs k s n K) as A. pose proof (invokes_once _ _ _ _ _ _ R H) as X. clear R H.
  assert (Y : fullmatch (gs1_element_string_regex k) s = false).
  { unfold no_length_outcome in X. destruct (fullmatch _ s); [|reflexivity]. destruct (cut_element_string k s) as [u|x] eqn:U; [discriminate X|]. injection X as <-.
    exfalso. clear - U. destruct k; try discriminate U; cbn [cut_element_string] in U;
    unfold unpack3, unpack2 in U; repeat (match type of U with context [match ?y with _ => _ end] => destruct y end; try discriminate U). }
  replace (from_gs1_element_string_of k s n) with (@Raise epc ConvertException) in A; [exact A|]. clear - Y K.
  cbn [element_classes In] in K. repeat destruct K as [<-|K]; [..|contradiction]; cbn [from_gs1_element_string_of]; cbv [gs1_element_string_regex] in Y;
    unfold cpi_from_gs1_element_string, gdti_from_gs1_element_string, giai_from_gs1_element_string, ginc_from_gs1_element_string, grai_from_gs1_element_string, gsin_from_gs1_element_string, gsrn_from_gs1_element_string, gsrnp_from_gs1_element_string, itip_from_gs1_element_string, lgtin_from_gs1_element_string, pgln_from_gs1_element_string, sgcn_from_gs1_element_string, sgln_from_gs1_element_string, sgtin_from_gs1_element_string, sscc_from_gs1_element_string, upui_from_gs1_element_string; rewrite Y; reflexivity.
Qed.
(** None as the length: nothing but a CPI is made of it *)
Theorem length_none_run c s : In c element_names ->
  exists r, invokes W (VClass c) "from_gs1_element_string" [VStr s; VNone] [] r /\ forall v, r = Returned v -> c = "cpi.CPI"%string.
Proof.
  intros C. destruct (element_name c C) as (k & K & E). rewrite E. eexists. split; [exact (length_run k s V_none VNone K S_none)|].
  intros v X. destruct (dyn_from_gs1_element_string k (V_str s) V_none) as [e|[]] eqn:R; try discriminate X.
  apply Dynamic.length_none in R as (-> & _). injection E as ->. reflexivity.
Qed.
Theorem length_none_made : ~ (forall c s v, In c element_names -> ~ invokes W (VClass c) "from_gs1_element_string" [VStr s; VNone] [] (Returned v)).
Proof.
  intros H. pose proof (length_run C_CPI (lit "(8010)1234567(8011)1") V_none VNone (or_introl eq_refl) S_none) as R. cbv [class_value] in R.
  destruct (dyn_from_gs1_element_string C_CPI (V_str (lit "(8010)1234567(8011)1")) V_none) as [e|x] eqn:E.
  - exact (H "cpi.CPI"%string _ _ (or_introl eq_refl) R).
  - clear - E. vm_compute in E. discriminate E.
Qed.
