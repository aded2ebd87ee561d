(** Element strings of any class: dispatch, refusals, and the way back. *)
From Coq Require Import String Lia Setoid.
From Verif.Model Require Import Py Re Regexes Common Base Parsers.
From Verif.Model Require Import Cpi Gdti Giai Grai Gsrn Gsrnp Itip Lgtin Sgcn Sgln Sgtin Sscc Others.
From Verif.Spec Require Import Spec SpecEscapes SpecGrammar SpecSchemes SpecElements.
From Verif.Proofs Require Import Basics Num ReLemmas Uni Escapes Checksum Verify Verify2 Grammar Ctor CtorA CtorB CtorC CtorAll Keys
  ElementRe Elements ElementBack.

Lemma first_regex_some l s c : (forall r k, In (r, k) l -> r = gs1_element_string_regex k) ->
  first_regex l s = Some c -> element_string c s.
Proof.
  induction l as [|[r k] l IH]; intros A H; [discriminate H|]. cbn [first_regex] in H.
  destruct (fullmatch r s) eqn:F.
  - injection H as <-. apply element_regex. rewrite <- (A r k (or_introl eq_refl)). exact F.
  - apply IH; [|exact H]. intros r' k' I. apply A. right. exact I.
Qed.
Lemma first_regex_none l s : (forall r k, In (r, k) l -> r = gs1_element_string_regex k) ->
  first_regex l s = None -> forall c, In c (map snd l) -> ~ element_string c s.
Proof.
  induction l as [|[r k] l IH]; intros A H c I; [destruct I|]. cbn [first_regex] in H.
  destruct (fullmatch r s) eqn:F; [discriminate H|]. destruct I as [<-|I].
  - intros E. apply element_regex in E. cbn [snd] in E. rewrite <- (A r k (or_introl eq_refl)) in E. congruence.
  - apply IH; [|exact H|exact I]. intros r' k' I'. apply A. right. exact I'.
Qed.
Lemma regex_map r k : In (r, k) GS1_ELEMENT_STRING_REGEX_TO_SCHEME -> r = gs1_element_string_regex k.
Proof. unfold GS1_ELEMENT_STRING_REGEX_TO_SCHEME. intros H. apply in_map_iff in H as (c & E & _). injection E as <- <-. reflexivity. Qed.
Lemma element_in c s : element_string c s -> In c element_classes.
Proof. destruct c; cbn; tauto. Qed.

Theorem element_dispatch c g l : element_string c g -> gs1_element_string_to_gs1_element g l = from_gs1_element_string_of c g l.
Proof.
  intros E. unfold gs1_element_string_to_gs1_element.
  destruct (first_regex GS1_ELEMENT_STRING_REGEX_TO_SCHEME g) as [k|] eqn:F.
  - apply (first_regex_some _ _ _ regex_map) in F. rewrite (element_class _ _ _ E F). reflexivity.
  - exfalso. apply (first_regex_none _ _ regex_map F c); [|exact E].
    unfold GS1_ELEMENT_STRING_REGEX_TO_SCHEME. rewrite map_map. cbn [snd]. rewrite map_id. destruct c; cbn in E |- *; tauto.
Qed.
Theorem element_dispatch_none g l : (forall c, ~ element_string c g) -> gs1_element_string_to_gs1_element g l = Raise ConvertException.
Proof.
  intros E. unfold gs1_element_string_to_gs1_element.
  destruct (first_regex GS1_ELEMENT_STRING_REGEX_TO_SCHEME g) as [k|] eqn:F; [|reflexivity].
  apply (first_regex_some _ _ _ regex_map) in F. destruct (E _ F).
Qed.
Theorem element_refused c g l : In c element_classes -> ~ element_string c g -> from_gs1_element_string_of c g l = Raise ConvertException.
Proof.
  intros I E. rewrite <- element_regex in E. apply not_true_is_false in E.
  destruct c; try (cbn in I; exfalso; repeat destruct I as [I|I]; try discriminate I; exact I);
    cbn [gs1_element_string_regex] in E; cbn [from_gs1_element_string_of];
    match goal with |- lift _ (?f g l) = _ => unfold f end; rewrite E; reflexivity.
Qed.
