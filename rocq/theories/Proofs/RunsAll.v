(** What a caller of epcpy sees: runs of the source, without the model. *)
From Coq Require Import String Lia.
From Verif.Model Require Import Py PyFormat Syntax Machine Common Base.
From Verif.Model Require Import Adi Cpi Gdti Giai Gid Grai Gsrn Gsrnp Itip Lgtin Sgcn Sgln Sgtin Sscc Usdod Others Parsers.
From Verif.Source Require Import Program World.
From Verif.Spec Require Import Spec SpecEscapes SpecGrammar SpecSchemes SpecTags SpecLayout SpecCoding SpecElements SpecExact SpecChain SpecErrors SpecHex SpecParsers SpecRuns.
From Verif.Proofs Require Import Run SrcUse Runs RunsTag CtorAll Chain PureParsers Exceptions2 TagUri2 BinAll Hex HexTrip ElementBack GetKey2.
From Verif.Proofs Require SrcKeys.
Open Scope N_scope.

(** * Pure identity URIs *)

Lemma one p v : passed1 p v [v] [].
Proof. left. auto. Qed.
Lemma scheme_runs u : calls W (VFun "parsers.epc_pure_identity_to_scheme") [VStr u] [] (result obj_of (epc_pure_identity_to_scheme u)).
Proof. apply (proj1 SrcKeys.identities), one. Qed.
Lemma result_returned {A} (f : A -> value) r v : result f r = Returned v -> exists x, r = Ok x /\ v = f x.
Proof. destruct r as [x|e]; cbn; [|discriminate]. intros [= <-]. eauto. Qed.
Lemma made_inv u v : parses "epc_pure_identity_to_scheme" u v ->
  exists e, v = obj_of e /\ epc_pure_identity_to_scheme u = Ok e /\ init_of (class_of e) u = Ok e /\ epc_uri e = u.
Proof.
  intros H. pose proof (calls_once _ _ _ _ _ H (scheme_runs u)) as E. symmetry in E. apply result_returned in E as (e & E & ->).
  exists e. split; [reflexivity|]. split; [exact E|]. pose proof (pure_ok_init u e E) as I. split; [exact I|]. apply (init_class _ _ _ I).
Qed.
Lemma made_of e : init_of (class_of e) (epc_uri e) = Ok e -> is_object (obj_of e).
Proof.
  intros I. exists (epc_uri e). split.
  - destruct (SrcKeys.obj_shape e) as (c & l & ->). exists c. eexists. split; reflexivity.
  - pose proof (scheme_runs (epc_uri e)) as H. rewrite (pure_built _ _ _ I) in H. exact H.
Qed.
Theorem own_uri u v : parses "epc_pure_identity_to_scheme" u v -> attribute v "epc_uri" (VStr u).
Proof.
  intros H. destruct (made_inv u v H) as (e & -> & _ & _ & U). destruct (SrcKeys.obj_shape e) as (c & l & ->). rewrite U.
  exists c. eexists. split; reflexivity.
Qed.

(** * Every call ends *)

Lemma ends_object f args kws (r : res epc) (bad : exn -> Prop) :
  calls W (VFun ("parsers." ++ f)) args kws (result obj_of r) -> (forall e, r = Ok e -> init_of (class_of e) (epc_uri e) = Ok e) ->
  (forall x, r = Raise x -> bad x) -> ends f args kws is_object bad.
Proof. intros C S B. exists (result obj_of r). split; [exact C|]. destruct r as [e|x]; cbn; [apply made_of, S; reflexivity|apply B; reflexivity]. Qed.
Lemma ends_text f args kws (r : res str) (bad : exn -> Prop) :
  calls W (VFun ("parsers." ++ f)) args kws (result VStr r) -> (forall x, r = Raise x -> bad x) -> ends f args kws is_text bad.
Proof. intros C B. exists (result VStr r). split; [exact C|]. destruct r as [e|x]; cbn; [eexists; reflexivity|apply B; reflexivity]. Qed.
Lemma field_refused f s x : 
  In f [epc_pure_identity_to_scheme; epc_pure_identity_to_gs1_element; epc_pure_identity_to_gs1_keyed; epc_pure_identity_to_tag_encodable; tag_uri_to_tag_encodable] ->
  f s = Raise x -> uri_refused s x.
Proof.
  intros I R. destruct (field_parsers f I) as [A B]. destruct (Nat.lt_ge_cases (colons s) 3) as [L|L].
  - right. rewrite (A s L) in R. injection R as <-. auto.
  - left. destruct (B s x L R) as [->|[([->| ->] & _)|(-> & _)]]; unfold refused; auto.
Qed.
Lemma raise_ok {A} b e (k : res A) x : (let* _ := raise_if b e in k) = Ok x -> k = Ok x.
Proof. destruct b; [discriminate|]. auto. Qed.
Lemma restricted_sound p u e : (let* e := epc_pure_identity_to_scheme u in let* _ := raise_if (negb (p (class_of e))) ConvertException in Ok e) = Ok e ->
  init_of (class_of e) (epc_uri e) = Ok e.
Proof.
  destruct (epc_pure_identity_to_scheme u) as [e'|] eqn:E; [|discriminate]. cbn [bind]. intros H. apply raise_ok in H. injection H as <-.
  exact (pure_sound u e' E).
Qed.

Lemma keyword_type kws : gtin_keyword kws -> exists t, key_kwargs t kws /\ (t <> None -> kws <> []).
Proof.
  intros [->|(c & g & C & G & ->)]; [exists None; split; [reflexivity|congruence]|].
  assert (exists t, g = gtin_member c t) as (t & ->).
  { destruct C as [-> | ->]; vm_compute in G; repeat destruct G as [<-|G]; try contradiction;
      first [exists GTIN8; reflexivity | exists GTIN12; reflexivity | exists GTIN13; reflexivity | exists GTIN14; reflexivity]. }
  exists (Some t). split; [exists c; auto|discriminate].
Qed.
Theorem halts :
  (forall s f, In f ["epc_pure_identity_to_scheme"; "epc_pure_identity_to_gs1_element"; "epc_pure_identity_to_gs1_keyed";
                     "epc_pure_identity_to_tag_encodable"; "tag_uri_to_tag_encodable"; "_idpat_to_gs1_keyed_scheme"]%string ->
     ends f [VStr s] [] is_object (uri_refused s)) /\
  (forall s, ends "binary_to_tag_encodable" [VStr s] [] is_object refused) /\
  (forall s, fits (length s * 4) -> ends "hex_to_tag_encodable" [VStr s] [] is_object refused) /\
  (forall s, fits (length s * 8) -> ends "base64_to_tag_encodable" [VStr s] [] is_object refused) /\
  (forall s n, ends "gs1_element_string_to_gs1_element" [VStr s; VInt n] [] is_object refused) /\
  (forall s, ends "epc_pure_identity_to_gs1_element_string" [VStr s] [] is_text (fun x => refused x \/ x = IndexError)) /\
  (forall s kws, gtin_keyword kws ->
     ends "epc_pure_identity_to_gs1_key" [VStr s] kws is_text (fun x => uri_refused s x \/ (x = TypeError /\ kws <> []))) /\
  (forall s args kws, args = [VStr s] \/ (exists n, args = [VStr s; VInt n]) -> gtin_keyword kws -> fits (length s * 4) ->
     ends "get_gs1_key" args kws is_text (fun x => refused x \/ (x = TypeError /\ kws <> []))).
Proof.
  destruct SrcKeys.identities as (I1 & I2 & I3 & I4 & I5). destruct SrcKeys.tags as (T1 & T2 & T3 & T4).
  destruct SrcKeys.others as (O1 & O2). destruct SrcKeys.keys as (K1 & K2).
  repeat split.
  - intros s f F. cbn [In] in F. repeat destruct F as [<-|F]; [..|contradiction].
    + eapply ends_object; [apply I1, one|apply pure_sound|intros x; eapply field_refused; cbn; auto 10].
    + eapply ends_object; [apply I2, one|intros e; apply restricted_sound|intros x; eapply field_refused; cbn; auto 10].
    + eapply ends_object; [apply I3, one|intros e; apply restricted_sound|intros x; eapply field_refused; cbn; auto 10].
    + eapply ends_object; [apply I4, one|intros e; apply restricted_sound|intros x; eapply field_refused; cbn; auto 10].
    + eapply ends_object; [apply T1, one|intros e; apply (read_sound (R_tag_uri s))|intros x; eapply field_refused; cbn; auto 10].
    + eapply ends_object; [apply O2, one|apply idpat_sound|]. intros x R. destruct (idpat_exn s) as [A B].
      destruct (Nat.lt_ge_cases (colons s) 3) as [L|L]; [right; rewrite (A L) in R; injection R as <-; auto|left; exact (B x L R)].
  - intros s. eapply ends_object; [apply T2, one|apply (read_sound (R_binary s))|intros x R; apply (text_parsers_exn s); auto].
  - intros s F. eapply ends_object; [apply T3; [apply one|exact F]|apply (read_sound (R_hex s))|intros x R; apply (text_parsers_exn s); auto].
  - intros s F. eapply ends_object; [apply T4; [apply one|exact F]|apply (read_sound (R_base64 s))|intros x R; apply (text_parsers_exn s); auto].
  - intros s n. eapply ends_object; [apply O1; left; auto|apply (read_sound (R_element s n))|intros x R; apply (text_parsers_exn s); eauto 6].
  - intros s. eapply ends_text; [apply I5, one|]. intros x R.
    destruct (element_string_parser_exn s x R) as [(_ & ->)|[(_ & H)|(-> & _)]]; auto. left.
    destruct H as [->|[([->| ->] & _)|(-> & _)]]; unfold refused; auto.
  - intros s kws K. destruct (keyword_type kws K) as (t & T & N). eapply ends_text; [exact (K1 s t [VStr s] [] kws (one _ _) T)|].
    intros x R. destruct (key_parser_exn s t x R) as [(L & ->)|[(_ & H)|(-> & G & _)]]; [left; right; auto| |right; auto].
    left. left. destruct H as [->|[([->| ->] & _)|(-> & _)]]; unfold refused; auto.
  - intros s args kws A K F. destruct (keyword_type kws K) as (t & T & N).
    assert (exists n, key_args s n args []) as (n & KA).
    { destruct A as [->|(n & ->)]; [exists None; right; split; [apply one|reflexivity]|exists (Some n); left; left; auto]. }
    eapply ends_text; [exact (K2 s n t args [] kws KA T F)|]. intros x R.
    destruct (get_key_exn s n t x R) as [H|(-> & G & _)]; auto.
Qed.

(** * Round trips *)

Lemma tag_uri_runs t : calls W (VFun "parsers.tag_uri_to_tag_encodable") [VStr t] [] (result obj_of (tag_uri_to_tag_encodable t)).
Proof. apply (proj1 SrcKeys.tags), one. Qed.
Lemma written_by v kws m t (r : res str) : answers v m kws (VStr t) -> invokes W v m [] kws (result VStr r) -> r = Ok t.
Proof. intros A B. pose proof (invokes_once _ _ _ _ _ _ A B) as E. symmetry in E. apply result_returned in E as (x & -> & [= ->]). reflexivity. Qed.
Theorem tag_uri_back u v kws t : parses "epc_pure_identity_to_scheme" u v -> tag_keywords v kws -> answers v "tag_uri" kws (VStr t) ->
  (forall body, u = lit "urn:epc:id:giai:" ++ body -> ~ In 58 body) -> parses "tag_uri_to_tag_encodable" t v.
Proof.
  intros H K T G. destruct (made_inv u v H) as (e & -> & _ & I & U). destruct (keywords_all e kws K) as (q & Q & _ & A & _).
  apply (written_by _ _ _ _ _ T) in A. subst e.
  destruct (tag_uri_roundtrip q u t I A) as [_ B].
  { intros C. rewrite C in I. destruct (init_prefix _ _ _ I) as (body & E). exists body. split; [exact E|]. apply G, E. }
  pose proof (tag_uri_runs t) as R. rewrite B in R. exact R.
Qed.
Lemma fits_small n : (Z.of_nat n <= 100000)%Z -> fits n.
Proof. intros L. unfold fits. eapply Z.le_lt_trans; [eassumption|]. vm_compute. reflexivity. Qed.
Lemma hex_bits_length h : length (hex_bits h) = (4 * length h)%nat.
Proof. unfold hex_bits. induction h as [|c h IH]; [reflexivity|]. cbn [flat_map length app]. rewrite app_length, IH. cbn [four_bits length]. lia. Qed.
Lemma base64_length b s : base64_of b s -> (length s <= length b + 10)%nat.
Proof.
  intros (vs & z & e & _ & Z & E & -> & B & _). rewrite app_length, map_length, repeat_length.
  assert (L : length (flat_map six_bits vs) = (6 * length vs)%nat).
  { clear. induction vs as [|v vs IH]; [reflexivity|]. cbn [flat_map length]. rewrite app_length, IH. cbn [six_bits length]. lia. }
  rewrite B, app_length, repeat_length in L. lia.
Qed.
Lemma tags_written u v kws t : parses "epc_pure_identity_to_scheme" u v -> tag_keywords v kws -> answers v "tag_uri" kws (VStr t) -> tag_safe u ->
  exists q b h s, v = obj_of (req_epc q) /\ proper_request q u /\ req_binary q = Ok b /\ req_hex q = Ok h /\ (length b <= 2000)%nat /\ (length h * 4 <= 3000)%nat /\ fits (length s * 8) /\
    answers v "binary" kws (VStr b) /\ answers v "hex" kws (VStr h) /\ answers v "base64" kws (VStr s) /\
    bitstring b /\ hex_text h /\ parses "binary_to_tag_encodable" b v /\ parses "hex_to_tag_encodable" h v /\ parses "base64_to_tag_encodable" s v.
Proof.
  intros H K T S. destruct (made_inv u v H) as (e & -> & _ & I & U). destruct (keywords_all e kws K) as (q & Q & F & A & B & C).
  apply (written_by _ _ _ _ _ T) in A. subst e. destruct (safe_proper q u t I S F A) as [P Z].
  pose proof P as P0. destruct (forms_roundtrip q u P Z) as (b & h & s & B1 & H1 & S1 & B2 & H2 & S2 & _).
  destruct P as (_ & _ & _ & PK & _ & PP & _). destruct (binary_written q u t I A PK F PP) as (b' & B' & SP & BS & BL & _).
  rewrite B1 in B'. injection B' as <-. pose proof (tag_length q u b I SP BL) as L.
  destruct (tag_forms q b B1 BS) as (h' & s' & pad & H' & S' & PL & _ & HT & _ & HB & SB & _).
  rewrite H1 in H'. injection H' as <-. rewrite S1 in S'. injection S' as <-.
  assert (HL : (length h * 4 <= 3000)%nat).
  { pose proof (hex_bits_length h) as E. rewrite HB, app_length, repeat_length in E. lia. }
  assert (SL : (Z.of_nat (length s * 8) <= 100000)%Z).
  { pose proof (base64_length _ _ SB) as E. rewrite app_length, repeat_length in E. lia. }
  rewrite B1 in B. destruct C as [C D]; [intros b0 E0; rewrite B1 in E0; injection E0 as <-; apply fits_small; lia|].
  rewrite H1 in C. rewrite S1 in D. destruct SrcKeys.tags as (T1 & T2 & T3 & T4).
  specialize (T2 b _ _ (one _ _)). rewrite B2 in T2. specialize (T3 h _ _ (one _ _) ltac:(apply fits_small; lia)). rewrite H2 in T3.
  specialize (T4 s _ _ (one _ _) ltac:(apply fits_small; lia)). rewrite S2 in T4.
  exists q, b, h, s. repeat (split; [first [reflexivity|exact P0|exact B1|exact H1|exact L|exact HL|exact (fits_small _ SL)|exact B|exact C|exact D|exact BS|exact HT|exact T2|exact T3]|]). exact T4.
Qed.
Theorem tags_back u v kws t : parses "epc_pure_identity_to_scheme" u v -> tag_keywords v kws -> answers v "tag_uri" kws (VStr t) -> tag_safe u ->
  exists b h s, answers v "binary" kws (VStr b) /\ answers v "hex" kws (VStr h) /\ answers v "base64" kws (VStr s) /\
    bitstring b /\ hex_text h /\ parses "binary_to_tag_encodable" b v /\ parses "hex_to_tag_encodable" h v /\ parses "base64_to_tag_encodable" s v.
Proof.
  intros H K T S. destruct (tags_written u v kws t H K T S) as (q & b & h & s & _ & _ & _ & _ & _ & _ & _ & R). exists b, h, s. exact R.
Qed.
Theorem elements_back u v cp : parses "epc_pure_identity_to_scheme" u v -> element_safe u cp ->
  exists g, parses "epc_pure_identity_to_gs1_element_string" u (VStr g) /\
    calls W (VFun "parsers.gs1_element_string_to_gs1_element") [VStr g; VInt (Z.of_nat (length cp))] [] (Returned v).
Proof.
  intros H (c & rest & E & D & X). destruct (made_inv u v H) as (e & -> & P & I & U).
  assert (class_of e = c) as C. { destruct (init_prefix _ _ _ I) as (b & E'). rewrite E in E'. apply prefix_inj in E' as [<- _]. reflexivity. }
  rewrite C in I. assert (J : In c element_classes) by (destruct c; try contradiction; cbn; auto 20).
  destruct (proj2 (element_roundtrip c u e cp rest J I E D) X) as (g & G & _).
  assert (R : read (R_element g (Z.of_nat (length cp))) = Ok e).
  { apply (one_conversion c u e _ I).
    - intros ->. destruct X as (asset & (V & CP & _ & N & _) & _). exists (cp ++ lit "." ++ asset). rewrite app_nil_r in V. split; [exact V|].
      intros IN. apply in_app_or in IN as [IN|IN]; [|apply in_app_or in IN as [IN|IN]; [cbn in IN; destruct IN as [IN|[]]; discriminate IN|exact (N IN)]].
      destruct CP as (CP & _). apply CP in IN. vm_compute in IN. first [discriminate IN|destruct IN as [? IN]; discriminate IN|apply IN; reflexivity].
    - cbn [written]. rewrite C, U. split; [exact G|]. exists cp, rest. auto. }
  exists g. destruct SrcKeys.identities as (_ & _ & _ & _ & I5). specialize (I5 u _ _ (one _ _)).
  rewrite (element_string_of c u e I J), G in I5. split; [exact I5|].
  destruct SrcKeys.others as (O1 & _). specialize (O1 g (Z.of_nat (length cp)) [VStr g; VInt (Z.of_nat (length cp))] [] ltac:(left; auto)).
  cbn [read] in R. rewrite R in O1. exact O1.
Qed.
Theorem equal_uris u u' v v' : parses "epc_pure_identity_to_scheme" u v -> parses "epc_pure_identity_to_scheme" u' v' ->
  exists b, invokes W v "__eq__" [v'] [] (Returned (VBool b)) /\ (b = true <-> u = u') /\ (u = u' <-> v = v').
Proof.
  intros H H'. destruct (made_inv u v H) as (e & -> & P & I & U). destruct (made_inv u' v' H') as (e' & -> & P' & I' & U').
  exists (epc_eqb e e'). split; [apply (proj1 SrcKeys.equality); apply one|]. unfold epc_eqb. rewrite U, U'. split; [apply Basics.str_eqb_eq|]. split.
  - intros <-. rewrite P in P'. injection P' as <-. reflexivity.
  - intros E. pose proof (own_uri _ _ H) as (c & l & A & B). pose proof (own_uri _ _ H') as (c' & l' & A' & B'). rewrite A, A' in E. injection E as <- <-.
    rewrite B in B'. injection B' as <-. reflexivity.
Qed.
Lemma obj_of_inj e e' : obj_of e = obj_of e' -> e = e'.
Proof.
  destruct e as [x|x|x|x|x|x|x|x|x|x|x|x|x|x|x|x|x|x|x|x|x], e' as [y|y|y|y|y|y|y|y|y|y|y|y|y|y|y|y|y|y|y|y|y]; try discriminate;
    destruct x, y; intros H; injection H; intros; subst; reflexivity.
Qed.
Lemma key_keyed u t k : epc_pure_identity_to_gs1_key u t = Ok k -> exists e, epc_pure_identity_to_scheme u = Ok e /\ In (class_of e) keyed_classes /\ epc_gs1_key e t = Ok k.
Proof.
  unfold epc_pure_identity_to_gs1_key, epc_pure_identity_to_gs1_keyed. destruct (epc_pure_identity_to_scheme u) as [e|]; [|discriminate]. cbn [bind].
  destruct (is_gs1_keyed (class_of e)) eqn:K; [|discriminate]. cbn [negb raise_if bind]. intros G. exists e. split; [reflexivity|]. split; [|exact G].
  destruct (class_of e); try discriminate K; cbn; auto 20.
Qed.
Theorem keys_agree u v gk k : parses "epc_pure_identity_to_scheme" u v -> gtin_keyword gk ->
  calls W (VFun "parsers.epc_pure_identity_to_gs1_key") [VStr u] gk (Returned k) ->
  (fits (length u * 4) -> calls W (VFun "parsers.get_gs1_key") [VStr u] gk (Returned k)) /\
  forall kws t, tag_keywords v kws -> answers v "tag_uri" kws (VStr t) ->
    (fits (length t * 4) -> calls W (VFun "parsers.get_gs1_key") [VStr t] gk (Returned k)) /\
    (tag_safe u -> exists b h, answers v "binary" kws (VStr b) /\ answers v "hex" kws (VStr h) /\
       calls W (VFun "parsers.get_gs1_key") [VStr b] gk (Returned k) /\ calls W (VFun "parsers.get_gs1_key") [VStr h] gk (Returned k)).
Proof.
  intros H G C. destruct (keyword_type gk G) as (g & KG & _). destruct (made_inv u v H) as (e & -> & P & I & U).
  destruct SrcKeys.keys as (K1 & K2). pose proof (calls_once _ _ _ _ _ C (K1 u g [VStr u] [] gk (one _ _) KG)) as E. symmetry in E.
  apply result_returned in E as (x & E & ->). apply key_keyed in E as (e' & E' & J & X). rewrite P in E'. injection E' as <-.
  assert (K3 : forall s, fits (length s * 4) -> get_gs1_key s None g = Ok x -> calls W (VFun "parsers.get_gs1_key") [VStr s] gk (Returned (VStr x))).
  { intros s F Y. assert (Z : key_args s None [VStr s] []) by (right; split; [apply one|reflexivity]). specialize (K2 s None g [VStr s] [] gk Z KG F).
    rewrite Y in K2. exact K2. }
  split.
  - intros F. apply K3; [exact F|]. destruct (init_prefix _ _ _ I) as (b & EB). rewrite EB.
    assert (get_gs1_key (scheme_prefix (class_of e) ++ b) None g = GetKey.keyed (init_of (class_of e) u) g) as ->.
    { rewrite <- EB. apply GetKey.keyed_pure. eauto. }
    rewrite I. unfold GetKey.keyed. cbn [bind]. rewrite X. clear - J. destruct e; cbn in J; repeat destruct J as [J|J]; try discriminate J; try contradiction; reflexivity.
  - intros kws t K T. destruct (keywords_all e kws K) as (q & Q & F & A & _). apply (written_by _ _ _ _ _ T) in A. rewrite <- Q in J, I, X. split.
    + intros L. apply K3; [exact L|]. rewrite (key_own_tag q u t None g I A J). exact X.
    + intros S. destruct (tags_written u (obj_of e) kws t H K T S) as (q' & b & h & s & V & PR & B1 & H1 & BL & HL & _ & B & HX & _).
      destruct (key_agree q' u None g PR) as (_ & _ & (b' & B2 & B3) & (h' & H2 & H3)).
      { destruct PR as (I' & _). destruct (init_class _ _ _ I) as [EC _]. rewrite Q in J. rewrite <- (obj_of_inj _ _ V). exact J. }
      rewrite B1 in B2. injection B2 as <-. rewrite H1 in H2. injection H2 as <-. rewrite <- (obj_of_inj _ _ V), <- Q, X in B3, H3.
      exists b, h. split; [exact B|]. split; [exact HX|]. split; apply K3; first [assumption|apply fits_small; lia].
Qed.

(** * What is not so *)

Theorem unsafe_refuted : exists u v kws t b v',
  parses "epc_pure_identity_to_scheme" u v /\ tag_keywords v kws /\ answers v "tag_uri" kws (VStr t) /\ answers v "binary" kws (VStr b) /\
  parses "binary_to_tag_encodable" b v' /\ v' <> v.
Proof.
  exists (lit "urn:epc:id:sgtin:0614141.812345.32a%2fb"). eexists.
  exists [("binary_coding_scheme"%string, VEnum "sgtin.SGTIN.BinaryCodingScheme" "SGTIN_198" (VStr (lit "sgtin-198")));
          ("filter_value"%string, VEnum "sgtin.SGTINFilterValue" "UNIT_LOAD" (VStr (lit "6")))].
  eexists. eexists. eexists. split; [exists (300 * 100)%nat; vm_compute; reflexivity|]. split.
  { exists "sgtin.SGTIN"%string. eexists. split; [eexists; reflexivity|]. split; [vm_compute; right; left; reflexivity|].
    eexists. split; [|left; reflexivity]. vm_compute. auto 10. }
  split; [exists (300 * 100)%nat; vm_compute; reflexivity|]. split; [exists (300 * 100)%nat; vm_compute; reflexivity|].
  split; [exists (300 * 100)%nat; vm_compute; reflexivity|]. discriminate.
Qed.
Theorem giai_refuted : exists u v kws t v',
  parses "epc_pure_identity_to_scheme" u v /\ tag_keywords v kws /\ answers v "tag_uri" kws (VStr t) /\
  parses "tag_uri_to_tag_encodable" t v' /\ v' <> v.
Proof.
  exists (lit "urn:epc:id:giai:0614141.12:34"). eexists.
  exists [("binary_coding_scheme"%string, VEnum "giai.GIAI.BinaryCodingScheme" "GIAI_202" (VStr (lit "giai-202")));
          ("filter_value"%string, VEnum "giai.GIAIFilterValue" "ALL_OTHERS" (VStr (lit "0")))].
  eexists. eexists. split; [exists (300 * 100)%nat; vm_compute; reflexivity|]. split.
  { exists "giai.GIAI"%string. eexists. split; [eexists; reflexivity|]. split; [vm_compute; right; left; reflexivity|].
    eexists. split; [|left; reflexivity]. vm_compute. auto 10. }
  split; [exists (300 * 100)%nat; vm_compute; reflexivity|].
  split; [exists (300 * 100)%nat; vm_compute; reflexivity|]. discriminate.
Qed.
