(** Proofs for C54: which URIs share an element string or a key. *)
From Coq Require Import String Lia List.
From Verif.Model Require Import Py Common Base Parsers.
From Verif.Model Require Import Adi Cpi Gdti Giai Gid Grai Gsrn Gsrnp Itip Lgtin Sgcn Sgln Sgtin Sscc Usdod Others.
From Verif.Spec Require Import Spec SpecEscapes SpecGrammar SpecSchemes SpecElements SpecCollide.
From Verif.Proofs Require Import Basics Escapes Grammar CtorA CtorB CtorC CtorAll Keys BinC Elements ElementBack ElementKey.
Import ListNotations.

Definition printed (c : cls) (d t g : str) : Prop :=
  match c with
  | C_SGTIN => exists f, completed d f /\ g = lit "(01)" ++ f ++ lit "(21)" ++ t
  | C_LGTIN => exists f, completed d f /\ g = lit "(01)" ++ f ++ lit "(10)" ++ t
  | C_UPUI => exists f, completed d f /\ g = lit "(01)" ++ f ++ lit "(235)" ++ t
  | C_SSCC => exists f, completed d f /\ g = lit "(00)" ++ f ++ t
  | C_SGLN => exists f, completed d f /\ g = lit "(414)" ++ f ++ lit "(254)" ++ t
  | C_GRAI => exists f, completed d f /\ g = lit "(8003)0" ++ f ++ t
  | C_GDTI => exists f, completed d f /\ g = lit "(253)" ++ f ++ t
  | C_SGCN => exists f, completed d f /\ g = lit "(255)" ++ f ++ t
  | C_GSRN => exists f, completed d f /\ g = lit "(8018)" ++ f ++ t
  | C_GSRNP => exists f, completed d f /\ g = lit "(8017)" ++ f ++ t
  | C_GSIN => exists f, completed d f /\ g = lit "(402)" ++ f ++ t
  | C_PGLN => exists f, completed d f /\ g = lit "(417)" ++ f ++ t
  | C_GIAI => g = lit "(8004)" ++ d ++ t
  | C_GINC => g = lit "(401)" ++ d ++ t
  | C_ITIP => g = lit "(8006)" ++ d ++ lit "(21)" ++ t
  | C_CPI => g = lit "(8010)" ++ d ++ lit "(8011)" ++ t
  | _ => False
  end.
Definition dlen (c : cls) : option nat :=
  match c with
  | C_SGTIN | C_LGTIN | C_UPUI => Some 13
  | C_SSCC | C_GSRN | C_GSRNP => Some 17
  | C_SGLN | C_GRAI | C_GDTI | C_SGCN | C_PGLN => Some 12
  | C_GSIN => Some 16
  | C_ITIP => Some 18
  | C_GIAI | C_GINC => Some 0
  | _ => None
  end%nat.
Definition wfd (c : cls) (d : str) : Prop := match dlen c with Some n => length d = n | None => ~ In 40 d end.

Lemma completed_len d f : completed d f -> length f = S (length d).
Proof. intros (x & _ & -> & _). rewrite app_length. cbn [length]. lia. Qed.
Lemma completed_inj d d' f : completed d f -> completed d' f -> d = d'.
Proof. intros (x & _ & -> & _) (y & _ & E & _). apply app_inj_tail in E. symmetry. symmetry. apply E. Qed.

Lemma no40_digits d : digits d -> ~ In 40 d.
Proof.
  intros D X. apply D in X. apply X. reflexivity.
Qed.
Lemma no40_six x : six_bit_text x -> ~ In 40 x.
Proof.
  intros D X. apply D in X. lia.
Qed.

Ltac len := repeat (rewrite app_length in * || cbn [length] in *); lia.
Lemma content_wf c u d t : content c u d t -> wfd c d.
Proof.
  intros H. destruct c; cbn [content] in H; try contradiction; unfold wfd; cbn [dlen].
  - destruct H as (cp & x & s & (_ & (D & _) & _) & S & -> & _). intros [K|K] % in_app_or; revert K; [apply no40_digits|apply no40_six]; assumption.
  - destruct H as (cp & x & s & (_ & _ & _ & L & _) & -> & _). len.
  - destruct H as (cp & x & s & _ & -> & _). reflexivity.
  - destruct H as (cp & x & _ & -> & _). reflexivity.
  - destruct H as (cp & x & s & (_ & _ & _ & L & _) & -> & _). len.
  - destruct H as (cp & x & (_ & _ & _ & L) & -> & _). len.
  - destruct H as (cp & x & (_ & _ & _ & L) & -> & _). len.
  - destruct H as (cp & x & (_ & _ & _ & L) & -> & _). len.
  - destruct H as (cp & i & r & p & n & s & g & U & C & -> & _). apply completed_len in C. destruct U as (_ & _ & _ & _ & _ & _ & _ & _ & L & _). len.
  - destruct H as (cp & i & r & s & (_ & _ & _ & L & _) & -> & _). len.
  - destruct H as (cp & x & (_ & _ & _ & L) & -> & _). len.
  - destruct H as (cp & x & s & (_ & _ & _ & L & _) & -> & _). len.
  - destruct H as (cp & x & s & (_ & _ & _ & L & _) & -> & _). len.
  - destruct H as (cp & i & r & s & (_ & _ & _ & L & _) & -> & _). len.
  - destruct H as (cp & i & r & (_ & _ & _ & L) & -> & _). len.
  - destruct H as (cp & i & r & s & (_ & _ & _ & _ & L & _) & -> & _). len.
Qed.

Ltac same_obj H I := cbn [init_of] in H; rewrite I in H; apply ok_same in H; subst; cbn [epc_gs1_element_string].
Ltac done := match goal with E : ?a = _ |- exists g, Ok ?a = Ok g /\ _ => rewrite E; eexists; split; [reflexivity|] | E : ?a = _ |- exists g, ?a = Ok g /\ _ => rewrite E; eexists; split; [reflexivity|] end.
Lemma content_print c u d t e : content c u d t -> init_of c u = Ok e -> exists g, epc_gs1_element_string e = Ok g /\ printed c d t g.
Proof.
  intros H I. destruct c; cbn [content] in H; try contradiction; cbn [init_of] in I; cbn [printed].
  - destruct H as (cp & x & s & U & S & -> & ->). destruct (cpi_element _ _ _ _ (proj1 (proj2 U)) S U) as (o & O & E).
    rewrite O in I. apply ok_same in I. subst e. cbn [epc_gs1_element_string]. rewrite E. eexists; split; [reflexivity|]. rewrite <- app_assoc. reflexivity.
  - destruct H as (cp & x & s & U & -> & ->). destruct (completed_exists (cp ++ x)) as [k K]. destruct (gdti_keys _ _ _ _ _ U K) as (o & O & _ & E).
    rewrite O in I. apply ok_same in I. subst e. cbn [epc_gs1_element_string]. rewrite E. eexists; split; [reflexivity|]. eauto.
  - destruct H as (cp & x & s & U & -> & ->). destruct (giai_keys _ _ _ _ U) as (o & O & _ & E).
    rewrite O in I. apply ok_same in I. subst e. cbn [epc_gs1_element_string]. rewrite E. eexists; split; reflexivity.
  - destruct H as (cp & x & U & -> & ->). destruct (ginc_keys _ _ _ U) as (o & O & _ & E).
    rewrite O in I. apply ok_same in I. subst e. cbn [epc_gs1_element_string]. rewrite E. eexists; split; reflexivity.
  - destruct H as (cp & x & s & U & -> & ->). destruct (completed_exists (cp ++ x)) as [k K]. destruct (grai_keys _ _ _ _ _ U K) as (o & O & _ & E).
    rewrite O in I. apply ok_same in I. subst e. cbn [epc_gs1_element_string]. rewrite E. eexists; split; [reflexivity|]. eauto.
  - destruct H as (cp & x & U & -> & ->). destruct (completed_exists (cp ++ x)) as [k K]. destruct (gsin_keys _ _ _ _ U K) as (o & O & _ & E).
    rewrite O in I. apply ok_same in I. subst e. cbn [epc_gs1_element_string]. rewrite E. eexists; split; [reflexivity|]. exists k. rewrite app_nil_r. auto.
  - destruct H as (cp & x & U & -> & ->). destruct (completed_exists (cp ++ x)) as [k K]. destruct (gsrn_keys _ _ _ _ U K) as (o & O & _ & E).
    rewrite O in I. apply ok_same in I. subst e. cbn [epc_gs1_element_string]. rewrite E. eexists; split; [reflexivity|]. exists k. rewrite app_nil_r. auto.
  - destruct H as (cp & x & U & -> & ->). destruct (completed_exists (cp ++ x)) as [k K]. destruct (gsrnp_keys _ _ _ _ U K) as (o & O & _ & E).
    rewrite O in I. apply ok_same in I. subst e. cbn [epc_gs1_element_string]. rewrite E. eexists; split; [reflexivity|]. exists k. rewrite app_nil_r. auto.
  - destruct H as (cp & i & r & p & n & s & g & U & C & -> & ->). destruct (itip_element _ _ _ _ _ _ _ _ U C) as (o & O & E).
    rewrite O in I. apply ok_same in I. subst e. cbn [epc_gs1_element_string]. rewrite E. eexists; split; [reflexivity|]. rewrite <- !app_assoc. reflexivity.
  - destruct H as (cp & i & r & s & U & -> & ->). destruct (completed_exists (i :: cp ++ r)) as [k K]. destruct (lgtin_keys _ _ _ _ _ _ U K) as (o & O & _ & E).
    rewrite O in I. apply ok_same in I. subst e. cbn [epc_gs1_element_string]. rewrite E. eexists; split; [reflexivity|]. eauto.
  - destruct H as (cp & x & U & -> & ->). destruct (completed_exists (cp ++ x)) as [k K]. destruct (pgln_keys _ _ _ _ U K) as (o & O & _ & E).
    rewrite O in I. apply ok_same in I. subst e. cbn [epc_gs1_element_string]. rewrite E. eexists; split; [reflexivity|]. exists k. rewrite app_nil_r. auto.
  - destruct H as (cp & x & s & U & -> & ->). destruct (completed_exists (cp ++ x)) as [k K]. destruct (sgcn_keys _ _ _ _ _ U K) as (o & O & _ & E).
    rewrite O in I. apply ok_same in I. subst e. cbn [epc_gs1_element_string]. rewrite E. eexists; split; [reflexivity|]. eauto.
  - destruct H as (cp & x & s & U & -> & ->). destruct (completed_exists (cp ++ x)) as [k K]. destruct (sgln_keys _ _ _ _ _ U K) as (o & O & _ & E).
    rewrite O in I. apply ok_same in I. subst e. cbn [epc_gs1_element_string]. rewrite E. eexists; split; [reflexivity|]. eauto.
  - destruct H as (cp & i & r & s & U & -> & ->). destruct (completed_exists (i :: cp ++ r)) as [k K]. destruct (sgtin_keys _ _ _ _ _ _ U K) as (o & O & _ & E).
    rewrite O in I. apply ok_same in I. subst e. cbn [epc_gs1_element_string]. rewrite E. eexists; split; [reflexivity|]. eauto.
  - destruct H as (cp & i & r & U & -> & ->). destruct (completed_exists (i :: cp ++ r)) as [k K]. destruct (sscc_keys _ _ _ _ _ U K) as (o & O & _ & E).
    rewrite O in I. apply ok_same in I. subst e. cbn [epc_gs1_element_string]. rewrite E. eexists; split; [reflexivity|]. exists k. rewrite app_nil_r. auto.
  - destruct H as (cp & i & r & s & U & -> & ->). destruct (completed_exists (i :: cp ++ r)) as [k K]. destruct (upui_element _ _ _ _ _ _ U K) as (o & O & E).
    rewrite O in I. apply ok_same in I. subst e. cbn [epc_gs1_element_string]. rewrite E. eexists; split; [reflexivity|]. eauto.
Qed.

Lemma content_exists c u e g : init_of c u = Ok e -> epc_gs1_element_string e = Ok g -> exists d t, content c u d t.
Proof.
  intros I E. destruct c; cbn [init_of] in I; apply lift_ok in I as (x & I & ->); cbn [epc_gs1_element_string] in E; try discriminate E; cbn [content].
  - apply cpi_iff in I as (U & _). destruct (proj1 (proj2 (proj2 U))) as (y & _ & S & R). rewrite R in U.
    exists (cpi_cp x ++ y), (cpi_serial x), (cpi_cp x), y, (cpi_serial x). auto.
  - apply gdti_iff in I as (U & _). eexists _, _, _, _, _. eauto.
  - apply giai_iff in I as ((ig & U) & _). eexists _, _, _, _, _. eauto.
  - apply ginc_iff in I as (_ & cp & r & U & _). eexists _, _, _, _. eauto.
  - apply grai_iff in I as (U & _). eexists _, _, _, _, _. eauto.
  - apply gsin_iff in I as (U & _). eexists _, _, _, _. eauto.
  - apply gsrn_iff in I as (U & _). eexists _, _, _, _. eauto.
  - apply gsrnp_iff in I as (U & _). eexists _, _, _, _. eauto.
  - apply itip_iff in I as (U & _). destruct (itip_item x) as [|i r] eqn:R; [destruct U as (_ & _ & _ & _ & _ & N & _); contradiction|].
    destruct (completed_exists (i :: itip_cp x ++ r)) as [k K]. eexists _, _, _, _, _, _, _, _, k. eauto.
  - apply lgtin_iff in I as (lot & U & _ & _ & i & r & R & _). rewrite R in U. eexists _, _, _, _, _, _. eauto.
  - apply pgln_iff in I as (U & _). eexists _, _, _, _. eauto.
  - apply sgcn_iff in I as (U & _). eexists _, _, _, _, _. eauto.
  - apply sgln_iff in I as (U & _). eexists _, _, _, _, _. eauto.
  - apply sgtin_iff in I as (U & _ & i & r & R & _). rewrite R in U. eexists _, _, _, _, _, _. eauto.
  - apply sscc_iff in I as (U & _ & i & r & R & _). rewrite R in U. eexists _, _, _, _, _. eauto.
  - apply upui_iff in I as (s & U & _). destruct (upui_item x) as [|i r] eqn:R.
    + destruct (upui_element_fails _ _ _ U) as (o & _ & _). exfalso. unfold upui_gs1_element_string in E. rewrite R in E. cbn in E. discriminate E.
    + eexists _, _, _, _, _, _. eauto.
Qed.

Lemma printed_fun c d t g g' : printed c d t g -> printed c d t g' -> g = g'.
Proof.
  intros H H'. destruct c; cbn [printed] in *; try contradiction; try congruence;
    (destruct H as (f & C & ->), H' as (f' & C' & ->); rewrite (completed_unique _ _ _ C C'); reflexivity).
Qed.

Lemma cut40 (a b x y : str) : ~ In 40 a -> ~ In 40 x -> a ++ 40 :: b = x ++ 40 :: y -> a = x /\ b = y.
Proof.
  revert x. induction a as [|c a IH]; intros [|d x] A X H; cbn [app] in H.
  - injection H as ->. auto.
  - injection H as <- _. exfalso. apply X. left. reflexivity.
  - injection H as -> _. exfalso. apply A. left. reflexivity.
  - injection H as -> H. destruct (IH x) as [-> ->]; auto; intros K; [apply A|apply X]; right; exact K.
Qed.
Lemma printed_inj c c' d d' t t' g : wfd c d -> wfd c' d' -> printed c d t g -> printed c' d' t' g -> c = c' /\ d = d' /\ t = t'.
Proof.
  intros W W' P P'. unfold wfd in *.
  destruct c; cbn [printed dlen] in *; try contradiction; destruct c'; cbn [printed dlen] in *; try contradiction;
    repeat match goal with H : exists _, _ |- _ => let f := fresh "f" in let K := fresh "K" in destruct H as (f & K & H) end;
    subst g;
    repeat match goal with K : completed ?d ?f |- _ => lazymatch goal with _ : length f = _ |- _ => fail | _ => pose proof (completed_len _ _ K) end end;
    try (exfalso; match goal with E : _ = _ |- _ => cbn in E; discriminate E end).
  { apply app_inv_head in P'. destruct (cut40 _ _ _ _ W W' P') as [-> E]. injection E as ->. auto. }
  all: match goal with E : _ = _ ++ _ |- _ => apply app_inv_head in E; apply app_len_inv in E as [? E]; [|len] end.
  all: try (exfalso; match goal with E : _ ++ _ = _ ++ _ |- _ => cbn in E; discriminate E end).
  all: try match goal with E : lit _ ++ _ = lit _ ++ _ |- _ => apply app_inv_head in E end.
  all: subst; split; [reflexivity|split; [|reflexivity]]; first [reflexivity|eapply completed_inj; eassumption].
Qed.

Theorem element_kernel c c' u u' e e' g g' : init_of c u = Ok e -> init_of c' u' = Ok e' ->
  epc_gs1_element_string e = Ok g -> epc_gs1_element_string e' = Ok g' ->
  (g = g' <-> c = c' /\ exists d t, content c u d t /\ content c' u' d t).
Proof.
  intros I I' G G'. split.
  - intros <-. destruct (content_exists _ _ _ _ I G) as (d & t & C). destruct (content_exists _ _ _ _ I' G') as (d' & t' & C').
    destruct (content_print _ _ _ _ _ C I) as (h & H & P). destruct (content_print _ _ _ _ _ C' I') as (h' & H' & P').
    rewrite G in H. rewrite G' in H'. apply ok_same in H. apply ok_same in H'. subst h h'.
    destruct (printed_inj _ _ _ _ _ _ _ (content_wf _ _ _ _ C) (content_wf _ _ _ _ C') P P') as (<- & <- & <-). eauto.
  - intros (<- & d & t & C & C').
    destruct (content_print _ _ _ _ _ C I) as (h & H & P). destruct (content_print _ _ _ _ _ C' I') as (h' & H' & P').
    rewrite G in H. rewrite G' in H'. apply ok_same in H. apply ok_same in H'. subst h h'. exact (printed_fun _ _ _ _ _ P P').
Qed.

(** keys *)
Definition key_printed (c : cls) (d t k : str) : Prop :=
  match c with
  | C_GIAI | C_GINC => k = d ++ t
  | _ => exists f, completed d f /\ k = f ++ t
  end.
Definition keyed_class (c : cls) : bool :=
  match c with
  | C_SGTIN | C_LGTIN | C_SGLN | C_SSCC | C_GRAI | C_GDTI | C_SGCN | C_GIAI | C_GINC | C_GSRN | C_GSRNP | C_GSIN | C_PGLN => true
  | _ => false
  end.
Lemma key_print c u d t e : key_content c u d t -> init_of c u = Ok e -> exists k, epc_gs1_key e None = Ok k /\ key_printed c d t k.
Proof.
  intros H I. destruct c; cbn [key_content content] in H; try contradiction; cbn [init_of] in I; cbn [key_printed].
  - destruct H as (cp & x & s & U & -> & ->). destruct (completed_exists (cp ++ x)) as [k K]. destruct (gdti_keys _ _ _ _ _ U K) as (o & O & E & _).
    rewrite O in I. apply ok_same in I. subst e. cbn [epc_gs1_key]. rewrite E. eexists; split; [reflexivity|]. eauto.
  - destruct H as (cp & x & s & U & -> & ->). destruct (giai_keys _ _ _ _ U) as (o & O & E & _).
    rewrite O in I. apply ok_same in I. subst e. cbn [epc_gs1_key]. rewrite E. eexists; split; reflexivity.
  - destruct H as (cp & x & U & -> & ->). destruct (ginc_keys _ _ _ U) as (o & O & E & _).
    rewrite O in I. apply ok_same in I. subst e. cbn [epc_gs1_key]. rewrite E. eexists; split; reflexivity.
  - destruct H as (cp & x & s & U & -> & ->). destruct (completed_exists (cp ++ x)) as [k K]. destruct (grai_keys _ _ _ _ _ U K) as (o & O & E & _).
    rewrite O in I. apply ok_same in I. subst e. cbn [epc_gs1_key]. rewrite E. eexists; split; [reflexivity|]. eauto.
  - destruct H as (cp & x & U & -> & ->). destruct (completed_exists (cp ++ x)) as [k K]. destruct (gsin_keys _ _ _ _ U K) as (o & O & E & _).
    rewrite O in I. apply ok_same in I. subst e. cbn [epc_gs1_key]. rewrite E. eexists; split; [reflexivity|]. exists k. rewrite app_nil_r. auto.
  - destruct H as (cp & x & U & -> & ->). destruct (completed_exists (cp ++ x)) as [k K]. destruct (gsrn_keys _ _ _ _ U K) as (o & O & E & _).
    rewrite O in I. apply ok_same in I. subst e. cbn [epc_gs1_key]. rewrite E. eexists; split; [reflexivity|]. exists k. rewrite app_nil_r. auto.
  - destruct H as (cp & x & U & -> & ->). destruct (completed_exists (cp ++ x)) as [k K]. destruct (gsrnp_keys _ _ _ _ U K) as (o & O & E & _).
    rewrite O in I. apply ok_same in I. subst e. cbn [epc_gs1_key]. rewrite E. eexists; split; [reflexivity|]. exists k. rewrite app_nil_r. auto.
  - destruct H as (-> & t' & cp & i & r & s & U & -> & ->). destruct (completed_exists (i :: cp ++ r)) as [k K]. destruct (lgtin_keys _ _ _ _ _ _ U K) as (o & O & E & _).
    rewrite O in I. apply ok_same in I. subst e. cbn [epc_gs1_key]. rewrite E. eexists; split; [reflexivity|]. exists k. rewrite app_nil_r. auto.
  - destruct H as (cp & x & U & -> & ->). destruct (completed_exists (cp ++ x)) as [k K]. destruct (pgln_keys _ _ _ _ U K) as (o & O & E & _).
    rewrite O in I. apply ok_same in I. subst e. cbn [epc_gs1_key]. rewrite E. eexists; split; [reflexivity|]. exists k. rewrite app_nil_r. auto.
  - destruct H as (cp & x & s & U & -> & ->). destruct (completed_exists (cp ++ x)) as [k K]. destruct (sgcn_keys _ _ _ _ _ U K) as (o & O & E & _).
    rewrite O in I. apply ok_same in I. subst e. cbn [epc_gs1_key]. rewrite E. eexists; split; [reflexivity|]. eauto.
  - destruct H as (-> & t' & cp & x & s & U & -> & ->). destruct (completed_exists (cp ++ x)) as [k K]. destruct (sgln_keys _ _ _ _ _ U K) as (o & O & E & _).
    rewrite O in I. apply ok_same in I. subst e. cbn [epc_gs1_key]. rewrite E. eexists; split; [reflexivity|]. exists k. rewrite app_nil_r. auto.
  - destruct H as (-> & t' & cp & i & r & s & U & -> & ->). destruct (completed_exists (i :: cp ++ r)) as [k K]. destruct (sgtin_keys _ _ _ _ _ _ U K) as (o & O & E & _).
    rewrite O in I. apply ok_same in I. subst e. cbn [epc_gs1_key]. rewrite E. eexists; split; [reflexivity|]. exists k. rewrite app_nil_r. auto.
  - destruct H as (cp & i & r & U & -> & ->). destruct (completed_exists (i :: cp ++ r)) as [k K]. destruct (sscc_keys _ _ _ _ _ U K) as (o & O & E & _).
    rewrite O in I. apply ok_same in I. subst e. cbn [epc_gs1_key]. rewrite E. eexists; split; [reflexivity|]. exists k. rewrite app_nil_r. auto.
Qed.
Lemma key_exists c u e k : init_of c u = Ok e -> epc_gs1_key e None = Ok k -> exists d t, key_content c u d t.
Proof.
  intros I K. assert (exists g, epc_gs1_element_string e = Ok g) as [g G].
  { destruct c; cbn [init_of] in I; apply lift_ok in I as (x & I & ->); cbn [epc_gs1_key] in K; try discriminate K; eexists; reflexivity. }
  destruct (content_exists _ _ _ _ I G) as (d & t & C).
  destruct c; cbn [init_of] in I; apply lift_ok in I as (x & I & ->); cbn [epc_gs1_key] in K; try discriminate K; cbn [key_content];
    first [exists d, []; split; [reflexivity|exists t; exact C]|exists d, t; exact C].
Qed.
Lemma key_wf c u d t : key_content c u d t -> wfd c d /\ keyed_class c = true.
Proof.
  destruct c; cbn [key_content]; try contradiction; intros H; (split; [|reflexivity]);
    first [exact (content_wf _ _ _ _ H)|destruct H as (_ & t' & H); exact (content_wf _ _ _ _ H)].
Qed.
Lemma key_printed_fun c d t k k' : key_printed c d t k -> key_printed c d t k' -> k = k'.
Proof.
  intros H H'. destruct c; cbn [key_printed] in *; try congruence;
    (destruct H as (f & C & ->), H' as (f' & C' & ->); rewrite (completed_unique _ _ _ C C'); reflexivity).
Qed.
Lemma key_printed_inj c d d' t t' k : keyed_class c = true -> wfd c d -> wfd c d' -> key_printed c d t k -> key_printed c d' t' k -> d = d' /\ t = t'.
Proof.
  intros Y W W' P P'. unfold wfd in *.
  destruct c; try discriminate Y; cbn [key_printed dlen] in *;
    repeat match goal with H : exists _, _ |- _ => let f := fresh "f" in let K := fresh "K" in destruct H as (f & K & H) end;
    subst k;
    repeat match goal with K : completed ?d ?f |- _ => lazymatch goal with _ : length f = _ |- _ => fail | _ => pose proof (completed_len _ _ K) end end;
    (match goal with E : _ = _ ++ _ |- _ => apply app_len_inv in E as [? E]; [|len] end);
    subst; (split; [|reflexivity]); first [reflexivity|eapply completed_inj; eassumption].
Qed.
Theorem key_kernel c u u' e e' k k' : init_of c u = Ok e -> init_of c u' = Ok e' ->
  epc_gs1_key e None = Ok k -> epc_gs1_key e' None = Ok k' ->
  (k = k' <-> exists d t, key_content c u d t /\ key_content c u' d t).
Proof.
  intros I I' G G'. split.
  - intros <-. destruct (key_exists _ _ _ _ I G) as (d & t & C). destruct (key_exists _ _ _ _ I' G') as (d' & t' & C').
    destruct (key_print _ _ _ _ _ C I) as (h & H & P). destruct (key_print _ _ _ _ _ C' I') as (h' & H' & P').
    rewrite G in H. rewrite G' in H'. apply ok_same in H. apply ok_same in H'. subst h h'.
    destruct (key_wf _ _ _ _ C) as [W Y]. destruct (key_wf _ _ _ _ C') as [W' _].
    destruct (key_printed_inj _ _ _ _ _ _ Y W W' P P') as (<- & <-). eauto.
  - intros (d & t & C & C').
    destruct (key_print _ _ _ _ _ C I) as (h & H & P). destruct (key_print _ _ _ _ _ C' I') as (h' & H' & P').
    rewrite G in H. rewrite G' in H'. apply ok_same in H. apply ok_same in H'. subst h h'. exact (key_printed_fun _ _ _ _ _ P P').
Qed.

(** with the length of the company prefix and a plainly spelled serial the element string identifies the URI *)
Lemma canon_same s s' : component s -> component s' -> canonical_serial s -> canonical_serial s' -> unescape s = unescape s' -> s = s'.
Proof. intros C C' K K' E. apply (comp_canon s C) in K. apply (comp_canon s' C') in K'. congruence. Qed.
Lemma cp_nodot cp : company_prefix cp -> ~ In 46 cp.
Proof. intros [D _]. exact (nodot_digits _ D). Qed.
Lemma shared c u u' e e' g d t d' t' : init_of c u = Ok e -> init_of c u' = Ok e' -> epc_gs1_element_string e = Ok g -> epc_gs1_element_string e' = Ok g ->
  content c u d t -> content c u' d' t' -> d = d' /\ t = t'.
Proof.
  intros I I' G G' C C'.
  destruct (content_print _ _ _ _ _ C I) as (h & H & P). destruct (content_print _ _ _ _ _ C' I') as (h' & H' & P').
  rewrite G in H. rewrite G' in H'. apply ok_same in H. apply ok_same in H'. subst h h'.
  exact (proj2 (printed_inj _ _ _ _ _ _ _ (content_wf _ _ _ _ C) (content_wf _ _ _ _ C') P P')).
Qed.
Lemma item_cons (cp item : str) n : company_prefix cp -> (length cp + length item = n)%nat -> (12 < n)%nat -> exists i r, item = i :: r.
Proof. intros [_ L] E M. destruct item; [cbn [length] in E; lia|eauto]. Qed.

Theorem same_object c u u' cp cp' e e' g : plainly_spelled c u cp -> plainly_spelled c u' cp' ->
  init_of c u = Ok e -> init_of c u' = Ok e' -> epc_gs1_element_string e = Ok g -> epc_gs1_element_string e' = Ok g ->
  length cp = length cp' -> u = u'.
Proof.
  intros S S' I I' G G' L. pose proof (fun d t d' t' => shared c u u' e e' g d t d' t' I I' G G') as SH.
  destruct c; cbn [plainly_spelled content] in *; try contradiction.
  - destruct S as (r & s & U), S' as (r' & s' & U'). destruct (proj1 (proj2 (proj2 U))) as (y & _ & Y & ->), (proj1 (proj2 (proj2 U'))) as (y' & _ & Y' & ->).
    destruct (SH (cp ++ y) s (cp' ++ y') s') as [D <-]; [eauto 8|eauto 8|]. apply app_len_inv in D as [<- <-]; [|exact L]. rewrite (proj1 U), (proj1 U'). reflexivity.
  - destruct S as (r & s & U & K), S' as (r' & s' & U' & K'). destruct (SH (cp ++ r) (unescape s) (cp' ++ r') (unescape s')) as [D T]; [eauto 8|eauto 8|].
    apply app_len_inv in D as [<- <-]; [|exact L]. apply canon_same in T; [|apply U|apply U'|exact K|exact K']. subst s'. rewrite (proj1 U), (proj1 U'). reflexivity.
  - destruct S as (s & U & K), S' as (s' & U' & K'). destruct (SH [] (cp ++ unescape s) [] (cp' ++ unescape s')) as [_ D]; [eauto 8|eauto 8|].
    apply app_len_inv in D as [<- T]; [|exact L]. apply canon_same in T; [|apply U|apply U'|exact K|exact K']. subst s'. rewrite (proj1 U), (proj1 U'). reflexivity.
  - destruct S as (s & U & K), S' as (s' & U' & K'). destruct (SH [] (cp ++ unescape s) [] (cp' ++ unescape s')) as [_ D]; [eauto 8|eauto 8|].
    apply app_len_inv in D as [<- T]; [|exact L]. apply canon_same in T; [|apply U|apply U'|exact K|exact K']. subst s'. rewrite (proj1 U), (proj1 U'). reflexivity.
  - destruct S as (r & s & U & K), S' as (r' & s' & U' & K'). destruct (SH (cp ++ r) (unescape s) (cp' ++ r') (unescape s')) as [D T]; [eauto 8|eauto 8|].
    apply app_len_inv in D as [<- <-]; [|exact L]. apply canon_same in T; [|apply U|apply U'|exact K|exact K']. subst s'. rewrite (proj1 U), (proj1 U'). reflexivity.
  - destruct S as (r & U), S' as (r' & U'). destruct (SH (cp ++ r) [] (cp' ++ r') []) as [D _]; [eauto 8|eauto 8|].
    apply app_len_inv in D as [<- <-]; [|exact L]. rewrite (proj1 U), (proj1 U'). reflexivity.
  - destruct S as (r & U), S' as (r' & U'). destruct (SH (cp ++ r) [] (cp' ++ r') []) as [D _]; [eauto 8|eauto 8|].
    apply app_len_inv in D as [<- <-]; [|exact L]. rewrite (proj1 U), (proj1 U'). reflexivity.
  - destruct S as (r & U), S' as (r' & U'). destruct (SH (cp ++ r) [] (cp' ++ r') []) as [D _]; [eauto 8|eauto 8|].
    apply app_len_inv in D as [<- <-]; [|exact L]. rewrite (proj1 U), (proj1 U'). reflexivity.
  - destruct S as (r & p & n & s & U & K & P & N), S' as (r' & p' & n' & s' & U' & K' & P' & N').
    destruct r as [|i r]; [destruct U as (_ & _ & _ & _ & _ & X & _); contradiction|]. destruct r' as [|i' r']; [destruct U' as (_ & _ & _ & _ & _ & X & _); contradiction|].
    destruct (completed_exists (i :: cp ++ r)) as [k Q]. destruct (completed_exists (i' :: cp' ++ r')) as [k' Q'].
    destruct (SH (k ++ p ++ n) (unescape s) (k' ++ p' ++ n') (unescape s')) as [D T]; [eauto 12|eauto 12|].
    apply app_len_inv in D as [<- D];
      [|apply completed_len in Q, Q'; destruct U as (_ & _ & _ & _ & _ & _ & _ & _ & J & _), U' as (_ & _ & _ & _ & _ & _ & _ & _ & J' & _); len].
    apply app_len_inv in D as [<- <-]; [|congruence]. pose proof (completed_inj _ _ _ Q Q') as E. injection E as <- E. apply app_len_inv in E as [<- <-]; [|exact L].
    apply canon_same in T; [|apply U|apply U'|exact K|exact K']. subst s'. rewrite (proj1 U), (proj1 U'). reflexivity.
  - destruct S as (r & s & U & K), S' as (r' & s' & U' & K').
    destruct (item_cons _ _ _ (proj1 (proj2 U)) (proj1 (proj2 (proj2 (proj2 U)))) ltac:(lia)) as (i & x & ->).
    destruct (item_cons _ _ _ (proj1 (proj2 U')) (proj1 (proj2 (proj2 (proj2 U')))) ltac:(lia)) as (i' & x' & ->).
    destruct (SH (i :: cp ++ x) (unescape s) (i' :: cp' ++ x') (unescape s')) as [D T]; [eauto 8|eauto 8|].
    injection D as <- D. apply app_len_inv in D as [<- <-]; [|exact L]. apply canon_same in T; [|apply U|apply U'|exact K|exact K']. subst s'. rewrite (proj1 U), (proj1 U'). reflexivity.
  - destruct S as (r & U), S' as (r' & U'). destruct (SH (cp ++ r) [] (cp' ++ r') []) as [D _]; [eauto 8|eauto 8|].
    apply app_len_inv in D as [<- <-]; [|exact L]. rewrite (proj1 U), (proj1 U'). reflexivity.
  - destruct S as (r & s & U), S' as (r' & s' & U'). destruct (SH (cp ++ r) s (cp' ++ r') s') as [D <-]; [eauto 8|eauto 8|].
    apply app_len_inv in D as [<- <-]; [|exact L]. rewrite (proj1 U), (proj1 U'). reflexivity.
  - destruct S as (r & s & U & K), S' as (r' & s' & U' & K'). destruct (SH (cp ++ r) (unescape s) (cp' ++ r') (unescape s')) as [D T]; [eauto 8|eauto 8|].
    apply app_len_inv in D as [<- <-]; [|exact L]. apply canon_same in T; [|apply U|apply U'|exact K|exact K']. subst s'. rewrite (proj1 U), (proj1 U'). reflexivity.
  - destruct S as (r & s & U & K), S' as (r' & s' & U' & K').
    destruct (item_cons _ _ _ (proj1 (proj2 U)) (proj1 (proj2 (proj2 (proj2 U)))) ltac:(lia)) as (i & x & ->).
    destruct (item_cons _ _ _ (proj1 (proj2 U')) (proj1 (proj2 (proj2 (proj2 U')))) ltac:(lia)) as (i' & x' & ->).
    destruct (SH (i :: cp ++ x) (unescape s) (i' :: cp' ++ x') (unescape s')) as [D T]; [eauto 8|eauto 8|].
    injection D as <- D. apply app_len_inv in D as [<- <-]; [|exact L]. apply canon_same in T; [|apply U|apply U'|exact K|exact K']. subst s'. rewrite (proj1 U), (proj1 U'). reflexivity.
  - destruct S as (r & U), S' as (r' & U').
    destruct (item_cons _ _ _ (proj1 (proj2 U)) (proj2 (proj2 (proj2 U))) ltac:(lia)) as (i & x & ->).
    destruct (item_cons _ _ _ (proj1 (proj2 U')) (proj2 (proj2 (proj2 U'))) ltac:(lia)) as (i' & x' & ->).
    destruct (SH (i :: cp ++ x) [] (i' :: cp' ++ x') []) as [D _]; [eauto 8|eauto 8|].
    injection D as <- D. apply app_len_inv in D as [<- <-]; [|exact L]. rewrite (proj1 U), (proj1 U'). reflexivity.
  - destruct S as (r & s & U & K), S' as (r' & s' & U' & K').
    assert (N : forall v cp r s o g, upui_uri v cp r s -> init_of C_UPUI v = Ok o -> epc_gs1_element_string o = Ok g -> r <> []).
    { intros v q ? w o h V O H ->. destruct (upui_element_fails _ _ _ V) as (z & Z & F). cbn [init_of] in O. rewrite Z in O. apply ok_same in O. subst o.
      cbn [epc_gs1_element_string] in H. rewrite F in H. discriminate H. }
    pose proof (N _ _ _ _ _ _ U I G). pose proof (N _ _ _ _ _ _ U' I' G').
    destruct r as [|i x]; [contradiction|]. destruct r' as [|i' x']; [contradiction|].
    destruct (SH (i :: cp ++ x) (unescape s) (i' :: cp' ++ x') (unescape s')) as [D T]; [eauto 8|eauto 8|].
    injection D as <- D. apply app_len_inv in D as [<- <-]; [|exact L]. apply canon_same in T; [|apply U|apply U'|exact K|exact K']. subst s'. rewrite (proj1 U), (proj1 U'). reflexivity.
Qed.

Theorem next_split u cp i x rest serial : sgtin_uri u cp (i :: x :: rest) serial -> (length cp < 12)%nat ->
  exists u' e e' g, sgtin_uri u' (cp ++ [x]) (i :: rest) serial /\ u' <> u /\ init_of C_SGTIN u = Ok e /\ init_of C_SGTIN u' = Ok e' /\
    epc_gs1_element_string e = Ok g /\ epc_gs1_element_string e' = Ok g /\ epc_eqb e e' = false.
Proof.
  intros U L. pose (u' := lit "urn:epc:id:sgtin:" ++ (cp ++ [x]) ++ lit "." ++ (i :: rest) ++ lit "." ++ serial).
  assert (U' : sgtin_uri u' (cp ++ [x]) (i :: rest) serial).
  { destruct U as (E & (D & M) & DI & N & R). split; [reflexivity|]. split; [split|split; [|split; [|exact R]]].
    - intros c [K|[<-|[]]] % in_app_or; [exact (D _ K)|]. apply DI. right. left. reflexivity.
    - rewrite app_length. cbn [length] in *. lia.
    - intros c [<-|K]; apply DI; [left; reflexivity|right; right; exact K].
    - rewrite app_length. cbn [length] in *. lia. }
  assert (NE : u' <> u).
  { rewrite (proj1 U). intros E. unfold u' in E. apply app_inv_head in E. rewrite <- app_assoc in E. apply app_inv_head in E. cbn [app lit] in E.
    injection E as E _. destruct U as (_ & _ & DI & _). assert (K : digits [x]) by (intros c [<-|[]]; apply DI; right; left; reflexivity).
    apply nodot_digits in K. apply K. left. exact E. }
  destruct (completed_exists (i :: cp ++ x :: rest)) as [k K].
  assert (K' : completed (i :: (cp ++ [x]) ++ rest) k) by (rewrite <- app_assoc; exact K).
  destruct (sgtin_keys _ _ _ _ _ _ U K) as (o & O & _ & E). destruct (sgtin_keys _ _ _ _ _ _ U' K') as (o' & O' & _ & E').
  exists u', (E_SGTIN o), (E_SGTIN o'), (lit "(01)" ++ k ++ lit "(21)" ++ unescape serial).
  assert (I : init_of C_SGTIN u = Ok (E_SGTIN o)) by (cbn [init_of]; rewrite O; reflexivity).
  assert (I' : init_of C_SGTIN u' = Ok (E_SGTIN o')) by (cbn [init_of]; rewrite O'; reflexivity).
  repeat split; auto; try apply U'; try (cbn [epc_gs1_element_string]; congruence).
  destruct (epc_eqb (E_SGTIN o) (E_SGTIN o')) eqn:Q; [|reflexivity]. exfalso. apply NE. symmetry. apply (proj1 (epc_eqb_uri _ _ _ _ _ _ I I')). exact Q.
Qed.

Definition some_epc (c : cls) (u : str) (e0 : epc) : epc := match init_of c u with Ok e => e | Raise _ => e0 end.
Definition epc0 : epc := E_PGLN (mkPgln [] [] [] []).
Definition some_string (r : res str) : str := match r with Ok s => s | Raise _ => [] end.
Theorem escape_collision : exists e e' g, 
  init_of C_SGTIN (lit "urn:epc:id:sgtin:0614141.812345.a%2f") = Ok e /\ init_of C_SGTIN (lit "urn:epc:id:sgtin:0614141.812345.a%252f") = Ok e' /\
  e <> e' /\ epc_gs1_element_string e = Ok g /\ epc_gs1_element_string e' = Ok g.
Proof.
  exists (some_epc C_SGTIN (lit "urn:epc:id:sgtin:0614141.812345.a%2f") epc0), (some_epc C_SGTIN (lit "urn:epc:id:sgtin:0614141.812345.a%252f") epc0),
    (lit "(01)80614141123458(21)a%2f").
  split; [vm_compute; reflexivity|]. split; [vm_compute; reflexivity|]. split; [vm_compute; discriminate|]. split; vm_compute; reflexivity.
Qed.
Theorem piece_collision : exists e e' g, 
  init_of C_ITIP (lit "urn:epc:id:itip:4012345.012345.01.02.987") = Ok e /\ init_of C_ITIP (lit "urn:epc:id:itip:4012345.012345.0.102.987") = Ok e' /\
  e <> e' /\ epc_gs1_element_string e = Ok g /\ epc_gs1_element_string e' = Ok g.
Proof.
  exists (some_epc C_ITIP (lit "urn:epc:id:itip:4012345.012345.01.02.987") epc0), (some_epc C_ITIP (lit "urn:epc:id:itip:4012345.012345.0.102.987") epc0),
    (lit "(8006)040123451234560102(21)987").
  split; [vm_compute; reflexivity|]. split; [vm_compute; reflexivity|]. split; [vm_compute; discriminate|]. split; vm_compute; reflexivity.
Qed.
Theorem class_collision : exists e e' e'' k, 
  init_of C_SSCC (lit "urn:epc:id:sscc:6141411.0234567890") = Ok e /\ init_of C_GSRN (lit "urn:epc:id:gsrn:0614141.1234567890") = Ok e' /\
  init_of C_GIAI (lit "urn:epc:id:giai:0614141.12345678902") = Ok e'' /\
  epc_gs1_key e None = Ok k /\ epc_gs1_key e' None = Ok k /\ epc_gs1_key e'' None = Ok k.
Proof.
  exists (some_epc C_SSCC (lit "urn:epc:id:sscc:6141411.0234567890") epc0), (some_epc C_GSRN (lit "urn:epc:id:gsrn:0614141.1234567890") epc0),
    (some_epc C_GIAI (lit "urn:epc:id:giai:0614141.12345678902") epc0), (lit "061414112345678902").
  repeat split; vm_compute; reflexivity.
Qed.
