(** Constructors of all classes together. *)
From Coq Require Import String Lia Setoid.
From Verif.Model Require Import Py Re Regexes Common Base.
From Verif.Model Require Import Adi Cpi Gdti Giai Gid Grai Gsrn Gsrnp Itip Lgtin Sgcn Sgln Sgtin Sscc Usdod Others Parsers.
From Verif.Spec Require Import Spec SpecEscapes SpecGrammar SpecSchemes.
From Verif.Proofs Require Import Basics Num ReLemmas Uni Verify Grammar Ctor CtorA CtorB CtorC.

Definition uri_re (c : cls) : re :=
  match c with
  | C_ADI => ADI_URI
  | C_BIC => BIC_URI
  | C_CPI => CPI_URI
  | C_GDTI => GDTI_URI
  | C_GIAI => GIAI_URI
  | C_GID => GID_URI
  | C_GINC => GINC_URI
  | C_GRAI => GRAI_URI
  | C_GSIN => GSIN_URI
  | C_GSRN => GSRN_URI
  | C_GSRNP => GSRNP_URI
  | C_IMOVN => IMOVN_URI
  | C_ITIP => ITIP_URI
  | C_LGTIN => LGTIN_CLASS
  | C_PGLN => PGLN_URI
  | C_SGCN => SGCN_URI
  | C_SGLN => SGLN_URI
  | C_SGTIN => SGTIN_URI
  | C_SSCC => SSCC_URI
  | C_UPUI => UPUI_URI
  | C_USDOD => USDOD_URI
  end.
Lemma lift_ok {T} (inj : T -> epc) r e : lift inj r = Ok e <-> exists x, r = Ok x /\ e = inj x.
Proof.
  unfold lift. rewrite bind_ok. split; intros (x & H & K); exists x; (split; [exact H|]); [injection K as <-; reflexivity|subst e; reflexivity].
Qed.
Lemma lift_raise {T} (inj : T -> epc) r e : lift inj r = Raise e <-> r = Raise e.
Proof.
  unfold lift. rewrite bind_raise. split; [intros [H|(x & _ & H)]; [exact H|discriminate]|auto].
Qed.
Lemma init_nomatch c u : fullmatch (uri_re c) u = false -> init_of c u = Raise ConvertException.
Proof.
  destruct c; cbn [uri_re init_of]; intros H; apply lift_raise;
  lazymatch goal with |- ?f u = _ => unfold f end; rewrite H; reflexivity.
Qed.
Lemma uri_re_prefix c u : fullmatch (uri_re c) u = true -> exists body, u = scheme_prefix c ++ body.
Proof.
  intros H. apply fullmatch_lang in H. destruct c; cbn [uri_re scheme_prefix] in *; apply lang_lit_seq in H as (b & -> & _); eauto.
Qed.
Lemma init_foreign c u : (forall body, u <> scheme_prefix c ++ body) -> init_of c u = Raise ConvertException.
Proof.
  intros H. apply init_nomatch. destruct (fullmatch (uri_re c) u) eqn:E; [|reflexivity].
  apply uri_re_prefix in E as (b & E). destruct (H b E).
Qed.
Lemma init_prefix c u e : init_of c u = Ok e -> exists body, u = scheme_prefix c ++ body.
Proof.
  intros H. destruct (fullmatch (uri_re c) u) eqn:E; [apply uri_re_prefix, E|]. rewrite (init_nomatch _ _ E) in H. discriminate.
Qed.
Lemma prefix_split c body : exists a b, split c_colon (scheme_prefix c ++ body) = a :: b :: (if match c with C_LGTIN => true | _ => false end then lit "class" else lit "id") :: identifier c :: split c_colon body.
Proof. destruct c; eexists _, _; reflexivity. Qed.
Lemma prefix_inj c c' b b' : scheme_prefix c ++ b = scheme_prefix c' ++ b' -> c = c' /\ b = b'.
Proof.
  intros H. assert (E : c = c').
  { destruct (prefix_split c b) as (x & y & P). destruct (prefix_split c' b') as (x' & y' & P').
    rewrite H in P. rewrite P in P'. injection P' as _ _ _ I _. destruct c, c'; try reflexivity; discriminate I. }
  subst c'. split; [reflexivity|]. exact (app_inv_head _ _ _ H).
Qed.
Lemma init_other c c' body : c <> c' -> init_of c (scheme_prefix c' ++ body) = Raise ConvertException.
Proof. intros N. apply init_foreign. intros b H. apply prefix_inj in H as [H _]. congruence. Qed.

Lemma init_class c u e : init_of c u = Ok e -> class_of e = c /\ epc_uri e = u.
Proof.
  destruct c; cbn [init_of]; intros H; apply lift_ok in H as (x & H & ->); cbn [class_of epc_uri]; (split; [reflexivity|]).
  - apply adi_iff in H. tauto.
  - apply bic_iff in H. tauto.
  - apply cpi_iff in H. tauto.
  - apply gdti_iff in H. tauto.
  - apply giai_iff in H. tauto.
  - apply gid_iff in H. tauto.
  - apply ginc_iff in H. tauto.
  - apply grai_iff in H. tauto.
  - apply gsin_iff in H. tauto.
  - apply gsrn_iff in H. tauto.
  - apply gsrnp_iff in H. tauto.
  - apply imovn_iff in H. tauto.
  - apply itip_iff in H. tauto.
  - apply lgtin_iff in H as (? & H). tauto.
  - apply pgln_iff in H. tauto.
  - apply sgcn_iff in H. tauto.
  - apply sgln_iff in H. tauto.
  - apply sgtin_iff in H. tauto.
  - apply sscc_iff in H. tauto.
  - apply upui_iff in H as (? & H). tauto.
  - apply usdod_iff in H. tauto.
Qed.

Lemma init_exn c u ex : init_of c u = Raise ex -> ex = ConvertException \/
  ((ex = ValueError \/ ex = OverflowError) /\ exists body s rest, u = scheme_prefix c ++ body ++ s ++ rest /\ malformed_component s /\ (rest = [] \/ c = C_GIAI)) \/
  (ex = ValueError /\ (c = C_GID \/ c = C_USDOD) /\ exists body s rest, u = scheme_prefix c ++ body ++ s ++ rest /\ long_number s).
Proof.
  destruct c; cbn [init_of scheme_prefix]; intros H; apply lift_raise in H.
  - left. exact (adi_refusal _ _ H).
  - left. exact (bic_refusal _ _ H).
  - left. exact (cpi_refusal _ _ H).
  - apply gdti_refusal in H as [H|[H K]]; [left; exact H|right; left; split; [exact H|]]. destruct K as (a & b & s & -> & K). exists (a ++ lit "." ++ b ++ lit "."), s, []. rewrite app_nil_r, <- !app_assoc. split; [reflexivity|]. tauto.
  - apply giai_refusal in H as [H|[H K]]; [left; exact H|right; left; split; [exact H|]]. destruct K as (a & s & i & -> & _ & K & _). exists (a ++ lit "."), s, i. rewrite <- !app_assoc. auto.
  - apply gid_refusal in H as [H|[H K]]; [left; exact H|right; right]. auto.
  - apply ginc_refusal in H as [H|[H K]]; [left; exact H|right; left; split; [exact H|]]. destruct K as (a & s & -> & K). exists (a ++ lit "."), s, []. rewrite app_nil_r, <- !app_assoc. split; [reflexivity|]. tauto.
  - apply grai_refusal in H as [H|[H K]]; [left; exact H|right; left; split; [exact H|]]. destruct K as (a & b & s & -> & K). exists (a ++ lit "." ++ b ++ lit "."), s, []. rewrite app_nil_r, <- !app_assoc. split; [reflexivity|]. tauto.
  - left. exact (gsin_refusal _ _ H).
  - left. exact (gsrn_refusal _ _ H).
  - left. exact (gsrnp_refusal _ _ H).
  - left. exact (imovn_refusal _ _ H).
  - apply itip_refusal in H as [H|[H K]]; [left; exact H|right; left; split; [exact H|]]. destruct K as (a & b & c & d & s & -> & K). exists (a ++ lit "." ++ b ++ lit "." ++ c ++ lit "." ++ d ++ lit "."), s, []. rewrite app_nil_r, <- !app_assoc. split; [reflexivity|]. tauto.
  - apply lgtin_refusal in H as [H|[H K]]; [left; exact H|right; left; split; [exact H|]]. destruct K as (a & b & s & -> & K). exists (a ++ lit "." ++ b ++ lit "."), s, []. rewrite app_nil_r, <- !app_assoc. split; [reflexivity|]. tauto.
  - left. exact (pgln_refusal _ _ H).
  - left. exact (sgcn_refusal _ _ H).
  - apply sgln_refusal in H as [H|[H K]]; [left; exact H|right; left; split; [exact H|]]. destruct K as (a & b & s & -> & K). exists (a ++ lit "." ++ b ++ lit "."), s, []. rewrite app_nil_r, <- !app_assoc. split; [reflexivity|]. tauto.
  - apply sgtin_refusal in H as [H|[H K]]; [left; exact H|right; left; split; [exact H|]]. destruct K as (a & b & s & -> & K). exists (a ++ lit "." ++ b ++ lit "."), s, []. rewrite app_nil_r, <- !app_assoc. split; [reflexivity|]. tauto.
  - left. exact (sscc_refusal _ _ H).
  - apply upui_refusal in H as [H|[H K]]; [left; exact H|right; left; split; [exact H|]]. destruct K as (a & b & s & -> & K). exists (a ++ lit "." ++ b ++ lit "."), s, []. rewrite app_nil_r, <- !app_assoc. split; [reflexivity|]. tauto.
  - apply usdod_refusal in H as [H|[H K]]; [left; exact H|right; right]. split; [exact H|]. split; [auto|].
    destruct K as (p & s & -> & K). exists p, s, []. rewrite app_nil_r. auto.
Qed.

(** * Equality *)
Theorem epc_eqb_equiv : (forall a, epc_eqb a a = true) /\ (forall a b, epc_eqb a b = epc_eqb b a) /\
  (forall a b c, epc_eqb a b = true -> epc_eqb b c = true -> epc_eqb a c = true).
Proof.
  unfold epc_eqb. repeat split.
  - intros a. apply str_eqb_refl.
  - intros a b. destruct (str_eqb (epc_uri a) (epc_uri b)) eqn:E.
    + apply str_eqb_eq in E. rewrite E. symmetry. apply str_eqb_refl.
    + symmetry. apply str_eqb_neq in E. apply str_eqb_neq. congruence.
  - intros a b c A B. apply str_eqb_eq in A, B. apply str_eqb_eq. congruence.
Qed.
Theorem epc_eqb_uri c c' u u' e e' : init_of c u = Ok e -> init_of c' u' = Ok e' ->
  (epc_eqb e e' = true <-> u = u') /\ (epc_eqb e e' = true -> c = c' /\ e = e').
Proof.
  intros H H'. destruct (init_class _ _ _ H) as [_ E]. destruct (init_class _ _ _ H') as [_ E'].
  unfold epc_eqb. rewrite E, E', str_eqb_eq. split; [tauto|]. intros <-.
  destruct (init_prefix _ _ _ H) as (b & B). destruct (init_prefix _ _ _ H') as (b' & B').
  rewrite B in B'. apply prefix_inj in B' as [<- _]. split; [reflexivity|]. congruence.
Qed.
