(** Constructors of the schemes with two digit groups, and of GIAI and GINC. *)
From Coq Require Import String Lia Setoid.
From Verif.Model Require Import Py Re Regexes Common Base.
From Verif.Model Require Import Giai Gsrn Gsrnp Sscc Others.
From Verif.Spec Require Import Spec SpecEscapes SpecGrammar.
From Verif.Proofs Require Import Basics Num ReLemmas Uni Escapes Checksum Verify Grammar Ctor CtorA.

(** prefix ++ digits . digits; the second group may be empty when [e] *)
Definition shape2 (p : str) (e : bool) (u cp ref : str) : Prop :=
  u = p ++ cp ++ [c_dot] ++ ref /\
  forallb is_d cp = true /\ cp <> [] /\ forallb is_d ref = true /\ (e = false -> ref <> []).

Lemma match2 p u : fullmatch (RSeq (rlit p) (rseq [PNC; dot; PNC])) u = true <->
  exists cp ref, shape2 (lit p) false u cp ref.
Proof.
  rewrite fullmatch_lang, lang2. unfold shape2. setoid_rewrite lang_PNC.
  split; intros (x & y & H); exists x, y; intuition congruence.
Qed.
Lemma match2e p u : fullmatch (RSeq (rlit p) (rseq [PNC; dot; PNCE])) u = true <->
  exists cp ref, shape2 (lit p) true u cp ref.
Proof.
  rewrite fullmatch_lang, lang2. unfold shape2. setoid_rewrite lang_PNC. setoid_rewrite lang_PNCE.
  split; intros (x & y & H); exists x, y; intuition congruence.
Qed.

Lemma shape2_body p e u cp ref : shape2 p e u cp ref ->
  ~ In c_colon (cp ++ [c_dot] ++ ref) /\ split c_dot (cp ++ [c_dot] ++ ref) = [cp; ref].
Proof.
  intros (_ & C & _ & I & _). split.
  - intros X. apply in_app_iff in X as [X|X]; [exact (nocolon_digits _ C X)|].
    apply in_app_iff in X as [[X|[]]|X]; [discriminate|exact (nocolon_digits _ I X)].
  - rewrite split_app1 by (apply nodot_digits; assumption). rewrite split_nosep by (apply nodot_digits; assumption). reflexivity.
Qed.
Lemma shape2_field p e u cp ref : upref p -> shape2 p e u cp ref ->
  field4 u = Ok (cp ++ [c_dot] ++ ref) /\ idx_last (split c_colon u) = Ok (cp ++ [c_dot] ++ ref) /\
  split c_dot (cp ++ [c_dot] ++ ref) = [cp; ref].
Proof.
  intros P S. destruct (shape2_body _ _ _ _ _ S) as [N D]. destruct S as (-> & _).
  rewrite (field4_upref _ _ P), (last_upref _ _ P N), hd_split_nosep by exact N. auto.
Qed.

Lemma shape2_of p (e : bool) u cp ref : u = p ++ cp ++ lit "." ++ ref ->
  digits cp -> cp <> [] -> digits ref -> (e = false -> ref <> []) -> shape2 p e u cp ref.
Proof. intros -> C CN I IN. apply digits_iff in C, I. unfold shape2. auto 10. Qed.

Definition refused2 {T} (init : str -> res T) (p : str) (e : bool) : Prop :=
  forall u, (exists cp ref, shape2 p e u cp ref) \/ init u = Raise ConvertException.

Ltac split2 S P :=
  let B := fresh in let L := fresh in let D := fresh in
  pose proof (shape2_field _ _ _ _ _ P S) as (B & L & D);
  rewrite ?raise_if_cond; cbn [negb cond]; rewrite ?B, ?L, ?bind_Ok, ?D; cbn [unpack2]; rewrite ?bind_Ok, ?raise_if_cond;
  clear B L D.

(** the outcome on a URI of the shape: total length [n], prefix length 6 to 12 *)
Definition eval2 {T} (init : str -> res T) (n : nat) (u cp ref : str) (r : T) : Prop :=
  init u = cond (negb (length (cp ++ ref) =? n)%nat || negb (cp_len_ok cp)) (Ok r).

Lemma eval2_ok {T} init n u cp ref (r x : T) : eval2 init n u cp ref r ->
  init u = Ok x <-> (length cp + length ref = n)%nat /\ (6 <= length cp <= 12)%nat /\ x = r.
Proof.
  unfold eval2. intros ->. rewrite cond_ok. arith. split.
  - intros [[L1 L2] [= <-]]. auto.
  - intros (L1 & L2 & ->). auto.
Qed.
Lemma eval2_raise {T} init n u cp ref (r : T) e : eval2 init n u cp ref r -> init u = Raise e -> e = ConvertException.
Proof. unfold eval2. intros ->. rewrite cond_raise. intros [[_ E]|[_ H]]; [exact E|discriminate]. Qed.

(** everything about a two-group scheme follows from its cases and its evaluation *)
Lemma ctor2 {T} (init : str -> res T) p e n (r : str -> str -> str -> T) :
  refused2 init p e -> (forall u cp ref, shape2 p e u cp ref -> eval2 init n u cp ref (r u cp ref)) ->
  (e = false -> (n >= 13)%nat) ->
  (forall u x, init u = Ok x <-> exists cp ref, u = p ++ cp ++ lit "." ++ ref /\ company_prefix cp /\ digits ref /\
     (length cp + length ref = n)%nat /\ x = r u cp ref) /\
  (forall u ex, init u = Raise ex -> ex = ConvertException).
Proof.
  intros R E N. split.
  - intros u x. split.
    + intros H. destruct (R u) as [(cp & ref & S)|F]; [|congruence].
      pose proof (proj1 (eval2_ok _ _ _ _ _ _ _ (E _ _ _ S)) H) as (L1 & L2 & X). subst x.
      destruct S as (U & C & CN & I & IN). exists cp, ref. apply digits_iff in C, I. unfold company_prefix. auto 10.
    + intros (cp & ref & U & (C & CL) & I & L & ->).
      assert (S : shape2 p e u cp ref).
      { apply shape2_of; auto; [apply len_nonempty; lia|]. intros X. specialize (N X). apply len_nonempty. lia. }
      apply (eval2_ok _ _ _ _ _ _ _ (E _ _ _ S)). auto.
  - intros u ex H. destruct (R u) as [(cp & ref & S)|F]; [|congruence]. exact (eval2_raise _ _ _ _ _ _ _ (E _ _ _ S) H).
Qed.

Lemma app_digits a b : forallb is_d a = true -> forallb is_d b = true -> forallb is_d (a ++ b) = true.
Proof. intros A B. rewrite forallb_app', A, B. reflexivity. Qed.

(** ** SSCC *)
Lemma sscc_ctor :
  (forall u x, sscc_init u = Ok x <-> exists cp ref, u = lit "urn:epc:id:sscc:" ++ cp ++ lit "." ++ ref /\
     company_prefix cp /\ digits ref /\ (length cp + length ref = 17)%nat /\
     x = mkSscc u cp ref (complete (gtin_body cp ref))) /\
  (forall u ex, sscc_init u = Raise ex -> ex = ConvertException).
Proof.
  apply (ctor2 sscc_init _ false 17 (fun u cp ref => mkSscc u cp ref (complete (gtin_body cp ref)))).
  - intros u. destruct (fullmatch SSCC_URI u) eqn:E; [left; apply match2, E|right].
    unfold sscc_init. rewrite E. reflexivity.
  - intros u cp ref S. assert (M : fullmatch SSCC_URI u = true) by (apply match2; eauto).
    unfold eval2, sscc_init. rewrite M. split2 S up_sscc. destruct S as (_ & C & _ & I & IN).
    specialize (IN eq_refl). unfold cond. destruct (_ || _); [reflexivity|].
    destruct (checksum_dec (gtin_body cp ref)) as (z & Z & D); [apply gtin_body_digits; assumption|].
    unfold complete. rewrite <- D. unfold gtin_body in *. destruct ref as [|i ref]; [congruence|].
    cbn [hd skipn nth_error of_option idx bind] in *. rewrite Z. cbn [bind app]. rewrite <- app_assoc. reflexivity.
  - lia.
Qed.
Theorem sscc_iff u x : sscc_init u = Ok x <->
  sscc_uri u (sscc_cp x) (sscc_serial x) /\ sscc_epc_uri x = u /\
  exists i rest, sscc_serial x = i :: rest /\ completed (i :: sscc_cp x ++ rest) (sscc_sscc x).
Proof.
  destruct sscc_ctor as [K _]. rewrite K. unfold sscc_uri. split.
  - intros (cp & ref & U & C & I & L & ->). cbn [sscc_cp sscc_serial sscc_epc_uri sscc_sscc].
    split; [auto|]. split; [reflexivity|]. destruct ref as [|i ref]; [destruct C as [_ C]; cbn in L; lia|].
    exists i, ref. split; [reflexivity|]. apply completed_iff. reflexivity.
  - destruct x as [u' cp ref g]. cbn [sscc_cp sscc_serial sscc_epc_uri sscc_sscc].
    intros ((U & C & I & L) & -> & i & rest & -> & Q). apply completed_iff in Q. subst g.
    exists cp, (i :: rest). auto.
Qed.
Theorem sscc_refusal u e : sscc_init u = Raise e -> e = ConvertException.
Proof. apply sscc_ctor. Qed.

Ltac cases2 rx init :=
  let u := fresh "u" in let E := fresh "E" in
  intros u; destruct (fullmatch rx u) eqn:E; [left; first [apply match2, E|apply match2e, E]|right];
  unfold init; rewrite E; reflexivity.
Ltac open2 rx init up u cp ref S :=
  let M := fresh "M" in
  intros u cp ref S; assert (M : fullmatch rx u = true) by (first [apply match2; eauto; fail|apply match2e; eauto; fail]);
  unfold eval2, init; rewrite M; split2 S up; clear M.

(** ** GSRN *)
Lemma gsrn_ctor :
  (forall u x, gsrn_init u = Ok x <-> exists cp ref, u = lit "urn:epc:id:gsrn:" ++ cp ++ lit "." ++ ref /\
     company_prefix cp /\ digits ref /\ (length cp + length ref = 17)%nat /\
     x = mkGsrn u cp ref (complete (cp ++ ref))) /\
  (forall u ex, gsrn_init u = Raise ex -> ex = ConvertException).
Proof.
  apply (ctor2 gsrn_init _ false 17 (fun u cp ref => mkGsrn u cp ref (complete (cp ++ ref)))).
  { cases2 GSRN_URI gsrn_init. }
  2: (discriminate || lia).
  open2 GSRN_URI gsrn_init up_gsrn u cp ref Sh.
  destruct Sh as (_ & C & _ & I & _). unfold cond. destruct (_ || _); [reflexivity|].
  destruct (checksum_dec (cp ++ ref)) as (z & Z & D); [apply app_digits; assumption|].
  rewrite Z. unfold complete. rewrite <- D, <- app_assoc. reflexivity.
Qed.
Theorem gsrn_iff u x : gsrn_init u = Ok x <->
  gsrn_uri u (gsrn_cp x) (gsrn_service x) /\ gsrn_epc_uri x = u /\
  completed (gsrn_cp x ++ gsrn_service x) (gsrn_key x).
Proof.
  destruct gsrn_ctor as [K _]. rewrite K. unfold gsrn_uri. split.
  - intros (cp & ref & U & C & I & L & ->). cbn [gsrn_cp gsrn_service gsrn_epc_uri gsrn_key].
    split; [auto|]. split; [reflexivity|]. apply completed_iff. reflexivity.
  - destruct x as [u' cp ref g]. cbn [gsrn_cp gsrn_service gsrn_epc_uri gsrn_key].
    intros ((U & C & I & L) & -> & Q). apply completed_iff in Q. subst g. exists cp, ref. auto.
Qed.
Theorem gsrn_refusal u e : gsrn_init u = Raise e -> e = ConvertException.
Proof. apply gsrn_ctor. Qed.

(** ** GSRNP *)
Lemma gsrnp_ctor :
  (forall u x, gsrnp_init u = Ok x <-> exists cp ref, u = lit "urn:epc:id:gsrnp:" ++ cp ++ lit "." ++ ref /\
     company_prefix cp /\ digits ref /\ (length cp + length ref = 17)%nat /\
     x = mkGsrnp u cp ref (complete (cp ++ ref))) /\
  (forall u ex, gsrnp_init u = Raise ex -> ex = ConvertException).
Proof.
  apply (ctor2 gsrnp_init _ false 17 (fun u cp ref => mkGsrnp u cp ref (complete (cp ++ ref)))).
  { cases2 GSRNP_URI gsrnp_init. }
  2: (discriminate || lia).
  open2 GSRNP_URI gsrnp_init up_gsrnp u cp ref Sh.
  destruct Sh as (_ & C & _ & I & _). unfold cond. destruct (_ || _); [reflexivity|].
  destruct (checksum_dec (cp ++ ref)) as (z & Z & D); [apply app_digits; assumption|].
  rewrite Z. unfold complete. rewrite <- D, <- app_assoc. reflexivity.
Qed.
Theorem gsrnp_iff u x : gsrnp_init u = Ok x <->
  gsrnp_uri u (gsrnp_cp x) (gsrnp_service x) /\ gsrnp_epc_uri x = u /\
  completed (gsrnp_cp x ++ gsrnp_service x) (gsrnp_key x).
Proof.
  destruct gsrnp_ctor as [K _]. rewrite K. unfold gsrnp_uri. split.
  - intros (cp & ref & U & C & I & L & ->). cbn [gsrnp_cp gsrnp_service gsrnp_epc_uri gsrnp_key].
    split; [auto|]. split; [reflexivity|]. apply completed_iff. reflexivity.
  - destruct x as [u' cp ref g]. cbn [gsrnp_cp gsrnp_service gsrnp_epc_uri gsrnp_key].
    intros ((U & C & I & L) & -> & Q). apply completed_iff in Q. subst g. exists cp, ref. auto.
Qed.
Theorem gsrnp_refusal u e : gsrnp_init u = Raise e -> e = ConvertException.
Proof. apply gsrnp_ctor. Qed.

(** ** GSIN *)
Lemma gsin_ctor :
  (forall u x, gsin_init u = Ok x <-> exists cp ref, u = lit "urn:epc:id:gsin:" ++ cp ++ lit "." ++ ref /\
     company_prefix cp /\ digits ref /\ (length cp + length ref = 16)%nat /\
     x = mkGsin u cp ref (complete (cp ++ ref))) /\
  (forall u ex, gsin_init u = Raise ex -> ex = ConvertException).
Proof.
  apply (ctor2 gsin_init _ false 16 (fun u cp ref => mkGsin u cp ref (complete (cp ++ ref)))).
  { cases2 GSIN_URI gsin_init. }
  2: (discriminate || lia).
  open2 GSIN_URI gsin_init up_gsin u cp ref Sh.
  destruct Sh as (_ & C & _ & I & _). unfold cond. destruct (_ || _) eqn:E; [reflexivity|].
  revert E. arith. intros [E _].
  destruct (gsin_checksum_dec (cp ++ ref)) as (z & Z & D);
    [apply app_digits; assumption|rewrite app_length, E; reflexivity|].
  rewrite Z. unfold complete. rewrite <- D, <- app_assoc. reflexivity.
Qed.
Theorem gsin_iff u x : gsin_init u = Ok x <->
  gsin_uri u (gsin_cp x) (gsin_ref x) /\ gsin_epc_uri x = u /\
  completed (gsin_cp x ++ gsin_ref x) (gsin_gsin x).
Proof.
  destruct gsin_ctor as [K _]. rewrite K. unfold gsin_uri. split.
  - intros (cp & ref & U & C & I & L & ->). cbn [gsin_cp gsin_ref gsin_epc_uri gsin_gsin].
    split; [auto|]. split; [reflexivity|]. apply completed_iff. reflexivity.
  - destruct x as [u' cp ref g]. cbn [gsin_cp gsin_ref gsin_epc_uri gsin_gsin].
    intros ((U & C & I & L) & -> & Q). apply completed_iff in Q. subst g. exists cp, ref. auto.
Qed.
Theorem gsin_refusal u e : gsin_init u = Raise e -> e = ConvertException.
Proof. apply gsin_ctor. Qed.

(** ** PGLN *)
Lemma pgln_ctor :
  (forall u x, pgln_init u = Ok x <-> exists cp ref, u = lit "urn:epc:id:pgln:" ++ cp ++ lit "." ++ ref /\
     company_prefix cp /\ digits ref /\ (length cp + length ref = 12)%nat /\
     x = mkPgln u cp ref (complete (cp ++ ref))) /\
  (forall u ex, pgln_init u = Raise ex -> ex = ConvertException).
Proof.
  apply (ctor2 pgln_init _ true 12 (fun u cp ref => mkPgln u cp ref (complete (cp ++ ref)))).
  { cases2 PGLN_URI pgln_init. }
  2: (discriminate || lia).
  open2 PGLN_URI pgln_init up_pgln u cp ref Sh.
  destruct Sh as (_ & C & _ & I & _). unfold cond. destruct (_ || _) eqn:E; [reflexivity|].
  destruct (checksum_dec (cp ++ ref)) as (z & Z & D); [apply app_digits; assumption|].
  rewrite Z. unfold complete. rewrite <- D, <- app_assoc. reflexivity.
Qed.
Theorem pgln_iff u x : pgln_init u = Ok x <->
  pgln_uri u (pgln_cp x) (pgln_party x) /\ pgln_epc_uri x = u /\
  completed (pgln_cp x ++ pgln_party x) (pgln_pgln x).
Proof.
  destruct pgln_ctor as [K _]. rewrite K. unfold pgln_uri. split.
  - intros (cp & ref & U & C & I & L & ->). cbn [pgln_cp pgln_party pgln_epc_uri pgln_pgln].
    split; [auto|]. split; [reflexivity|]. apply completed_iff. reflexivity.
  - destruct x as [u' cp ref g]. cbn [pgln_cp pgln_party pgln_epc_uri pgln_pgln].
    intros ((U & C & I & L) & -> & Q). apply completed_iff in Q. subst g. exists cp, ref. auto.
Qed.
Theorem pgln_refusal u e : pgln_init u = Raise e -> e = ConvertException.
Proof. apply pgln_ctor. Qed.

(** ** GINC *)
Definition shape_gc (p : str) (u cp ref : str) : Prop :=
  u = p ++ cp ++ [c_dot] ++ ref /\ forallb is_d cp = true /\ cp <> [] /\ gs3a3_shape ref = true /\ ref <> [].
Lemma match_gc p u : fullmatch (RSeq (rlit p) (rseq [PNC; dot; GS3A3_COMPONENT])) u = true <->
  exists cp ref, shape_gc (lit p) u cp ref.
Proof.
  rewrite fullmatch_lang, lang2. unfold shape_gc. setoid_rewrite lang_PNC. setoid_rewrite lang_GS3A3.
  split; intros (x & y & H); exists x, y; intuition congruence.
Qed.
Lemma shape_gc_tail p u cp ref : upref p -> shape_gc p u cp ref ->
  split c_dot (tail4 u) = cp :: split c_dot ref /\
  field4 u = Ok (cp ++ [c_dot] ++ hd [] (split c_colon ref)) /\
  split c_dot (cp ++ [c_dot] ++ hd [] (split c_colon ref)) = cp :: split c_dot (hd [] (split c_colon ref)).
Proof.
  intros P (-> & C & _). rewrite (tail4_upref _ _ P), (field4_upref _ _ P), hd_split2 by (apply nocolon_digits, C).
  rewrite !split_app1 by (apply nodot_digits; assumption). auto.
Qed.

Lemma ginc_eval u cp ref : shape_gc (lit "urn:epc:id:ginc:") u cp ref ->
  ginc_init u = (let* _ := verify_gs3a3_component ref in
    cond (negb (cp_len_ok cp)) (cond (30 <? length (cp ++ unescape ref))%nat (Ok (mkGinc u (cp ++ unescape ref))))).
Proof.
  intros S. assert (M : fullmatch GINC_URI u = true) by (apply match_gc; eauto).
  unfold ginc_init. rewrite M. destruct (shape_gc_tail _ _ _ _ up_ginc S) as (T & _ & _).
  rewrite raise_if_cond. cbn [negb cond]. rewrite T. cbn [unpack1_rest]. rewrite bind_Ok, join_split.
  destruct (verify_gs3a3_component ref) as [[]|e]; [|reflexivity]. cbn [bind].
  rewrite ?raise_if_cond. destruct (negb _); [reflexivity|]. cbn [cond]. rewrite ?raise_if_cond, <- !unescape_spec.
  destruct S as (_ & _ & _ & _ & N). pose proof (unescape_nonempty _ N) as L.
  replace (length (unescape ref) =? 0)%nat with false by (symmetry; apply Nat.eqb_neq; lia). reflexivity.
Qed.
Lemma ginc_cases u : (exists cp ref, shape_gc (lit "urn:epc:id:ginc:") u cp ref) \/ ginc_init u = Raise ConvertException.
Proof.
  destruct (fullmatch GINC_URI u) eqn:E; [left; apply match_gc, E|right]. unfold ginc_init. rewrite E. reflexivity.
Qed.
Lemma shape_gc_of p u cp ref : u = p ++ cp ++ lit "." ++ ref -> company_prefix cp -> component ref -> shape_gc p u cp ref.
Proof.
  intros -> (C & L) V. apply component_shape in V as [S N]. apply digits_iff in C.
  unfold shape_gc. repeat split; auto. apply len_nonempty. lia.
Qed.
Theorem ginc_iff u x : ginc_init u = Ok x <->
  ginc_epc_uri x = u /\ exists cp ref, ginc_uri u cp ref /\ ginc_ginc x = cp ++ unescape ref.
Proof.
  split.
  - intros H. destruct (ginc_cases u) as [(cp & ref & S)|R]; [|congruence].
    rewrite (ginc_eval _ _ _ S) in H. destruct S as (U & C & CN & G & GN).
    apply bind_verify_ok in H as [V H]; [|assumption|assumption]. apply cond_ok in H as [L1 H]. apply cond_ok in H as [L2 H].
    injection H as <-. cbn [ginc_epc_uri ginc_ginc]. split; [reflexivity|]. exists cp, ref. split; [|reflexivity].
    revert L1 L2. arith. intros L1 L2. apply digits_iff in C. unfold ginc_uri, company_prefix. auto 10.
  - destruct x as [u' g]. cbn [ginc_epc_uri ginc_ginc]. intros (-> & cp & ref & (U & C & V & L) & ->).
    pose proof (shape_gc_of _ _ _ _ U C V) as S. rewrite (ginc_eval _ _ _ S). destruct S as (_ & _ & _ & G & GN).
    destruct C as [C CL]. apply bind_verify_ok; [assumption|assumption|]. split; [exact V|].
    apply cond_ok. split; [arith; lia|]. apply cond_ok. split; [arith; lia|reflexivity].
Qed.
Theorem ginc_refusal u e : ginc_init u = Raise e -> e = ConvertException \/
  ((e = ValueError \/ e = OverflowError) /\ exists cp ref,
     u = lit "urn:epc:id:ginc:" ++ cp ++ lit "." ++ ref /\ digits cp /\ malformed_component ref).
Proof.
  intros H. destruct (ginc_cases u) as [(cp & ref & S)|R]; [|left; congruence].
  rewrite (ginc_eval _ _ _ S) in H. destruct S as (U & C & CN & G & GN).
  apply bind_verify_raise in H; [|assumption|assumption|].
  - destruct H as [E|[E M]]; [left; exact E|right]. split; [exact E|].
    exists cp, ref. apply digits_iff in C. auto.
  - intros K. repeat (apply cond_raise in K as [[_ E]|[_ K]]; [exact E|]). discriminate.
Qed.

(** ** GIAI *)
Lemma giai_eval u cp ref : shape_gc (lit "urn:epc:id:giai:") u cp ref ->
  let asset := hd [] (split c_colon ref) in
  giai_init u = cond (negb (cp_len_ok cp) || (30 <? length (cp ++ asset))%nat)
    (let* _ := verify_gs3a3_component asset in Ok (mkGiai u cp asset (cp ++ unescape asset))).
Proof.
  intros S. assert (M : fullmatch GIAI_URI u = true) by (apply match_gc; eauto). cbv zeta.
  unfold giai_init. rewrite M. destruct (shape_gc_tail _ _ _ _ up_giai S) as (_ & F & D).
  rewrite raise_if_cond. cbn [negb cond]. rewrite F, bind_Ok, D. cbn [unpack1_rest]. rewrite bind_Ok, join_split.
  rewrite raise_if_cond, <- unescape_spec. reflexivity.
Qed.
Lemma giai_cases u : (exists cp ref, shape_gc (lit "urn:epc:id:giai:") u cp ref) \/ giai_init u = Raise ConvertException.
Proof.
  destruct (fullmatch GIAI_URI u) eqn:E; [left; apply match_gc, E|right]. unfold giai_init. rewrite E. reflexivity.
Qed.
Lemma hd_split_in c s : ~ In c (hd [] (split c s)).
Proof.
  induction s as [|x s IH]; cbn [split]; [intros []|]. destruct (N.eqb_spec x c) as [->|N]; [intros []|].
  destruct (split c s) as [|h t]; cbn [hd] in *; [intros [X|[]]; congruence|intros [X|X]; [congruence|exact (IH X)]].
Qed.
Lemma hd_split_rest c s : exists r, s = hd [] (split c s) ++ r /\ (r = [] \/ exists r', r = c :: r').
Proof.
  induction s as [|x s (r & E & R)]; cbn [split]; [exists []; auto|].
  destruct (N.eqb_spec x c) as [->|N]; [exists (c :: s); eauto|].
  pose proof (split_nonempty c s) as NE. destruct (split c s) as [|h t]; [congruence|]. cbn [hd] in *.
  exists r. split; [cbn; congruence|exact R].
Qed.
Lemma gs3a3_cut a r : gs3a3_shape (a ++ 58 :: r) = true -> gs3a3_shape a = true /\ gs3a3_shape r = true.
Proof.
  revert a. refine (str_ind2 _ _). intros a IH H. destruct a as [|x a]; [split; [reflexivity|exact H]|].
  cbn [app gs3a3_shape] in *. destruct (x =? c_pct) eqn:E.
  - destruct a as [|h a]; cbn [app] in *.
    + discriminate.
    + apply andb_true_iff in H as [H1 H2]. rewrite H1. cbn [andb]. apply (IH a); [cbn; lia|exact H2].
  - apply andb_true_iff in H as [H1 H2]. rewrite H1. cbn [andb]. apply (IH a); [cbn; lia|exact H2].
Qed.
Lemma gs3a3_cut_iff a r : gs3a3_shape (a ++ 58 :: r) = true <-> gs3a3_shape a = true /\ gs3a3_shape r = true.
Proof.
  split; [apply gs3a3_cut|]. revert a. refine (str_ind2 _ _). intros a IH [H1 H2].
  destruct a as [|x a]; [exact H2|]. cbn [app gs3a3_shape] in *. destruct (x =? c_pct) eqn:E.
  - destruct a as [|h a]; cbn [app] in *; [discriminate|].
    apply andb_true_iff in H1 as [H0 H1]. rewrite H0. cbn [andb]. apply (IH a); [cbn; lia|auto].
  - apply andb_true_iff in H1 as [H0 H1]. rewrite H0. cbn [andb]. apply (IH a); [cbn; lia|auto].
Qed.
Lemma giai_parts ref : gs3a3_shape ref = true ->
  exists ignored, ref = hd [] (split c_colon ref) ++ ignored /\ gs3a3_shape (hd [] (split c_colon ref)) = true /\
    (ignored = [] \/ exists r, ignored = 58 :: r /\ uri_text r).
Proof.
  intros H. destruct (hd_split_rest c_colon ref) as (r & E & R). exists r. split; [exact E|].
  destruct R as [->|(r' & ->)].
  - rewrite app_nil_r in E. rewrite <- E. auto.
  - rewrite E in H. apply gs3a3_cut in H as [H1 H2]. split; [exact H1|]. right. exists r'. split; [reflexivity|].
    apply uri_text_iff, H2.
Qed.
Lemma verify_nil : verify_gs3a3_component [] = Raise ConvertException.
Proof. reflexivity. Qed.

Theorem giai_iff u x : giai_init u = Ok x <->
  (exists ignored, giai_uri u (giai_cp x) (giai_asset x) ignored) /\ giai_epc_uri x = u /\
  giai_giai x = giai_cp x ++ unescape (giai_asset x).
Proof.
  split.
  - intros H. destruct (giai_cases u) as [(cp & ref & S)|R]; [|congruence].
    rewrite (giai_eval _ _ _ S) in H. destruct S as (U & C & CN & G & GN).
    destruct (giai_parts ref G) as (ig & E & GA & I).
    pose proof (hd_split_in c_colon ref) as NC. set (asset := hd [] (split c_colon ref)) in *. clearbody asset.
    apply cond_ok in H as [L H].
    assert (AN : asset <> []) by (intros ->; rewrite verify_nil in H; discriminate H).
    apply bind_verify_ok in H as [V H]; [|assumption|assumption]. injection H as <-.
    cbn [giai_cp giai_asset giai_epc_uri giai_giai]. split; [|split; reflexivity]. exists ig.
    revert L. arith. intros [L1 L2]. apply digits_iff in C. unfold giai_uri, company_prefix.
    subst u. rewrite E. split; [reflexivity|]. auto 10.
  - destruct x as [u' cp asset g]. cbn [giai_cp giai_asset giai_epc_uri giai_giai].
    intros ((ig & U & (C & CL) & V & NC & L & I) & -> & ->).
    pose proof (component_shape _ V) as [GA GN].
    assert (HD : hd [] (split c_colon (asset ++ ig)) = asset).
    { rewrite split_pre by exact NC. cbn [hd]. destruct I as [->|(r & -> & _)]; cbn; apply app_nil_r. }
    assert (S : shape_gc (lit "urn:epc:id:giai:") u cp (asset ++ ig)).
    { apply digits_iff in C. split; [exact U|]. split; [exact C|]. split; [apply len_nonempty; lia|]. split.
      - destruct I as [->|(r & -> & R)]; [rewrite app_nil_r; exact GA|]. apply uri_text_iff in R. apply gs3a3_cut_iff. auto.
      - destruct asset; [congruence|discriminate]. }
    rewrite (giai_eval _ _ _ S), HD. apply cond_ok. split; [arith; split; lia|].
    apply bind_verify_ok; auto.
Qed.
Theorem giai_refusal u e : giai_init u = Raise e -> e = ConvertException \/
  ((e = ValueError \/ e = OverflowError) /\ exists cp asset ignored,
     u = lit "urn:epc:id:giai:" ++ cp ++ lit "." ++ asset ++ ignored /\ company_prefix cp /\
     malformed_component asset /\ ~ In 58 asset).
Proof.
  intros H. destruct (giai_cases u) as [(cp & ref & S)|R]; [|left; congruence].
  rewrite (giai_eval _ _ _ S) in H. destruct S as (U & C & CN & G & GN).
  destruct (giai_parts ref G) as (ig & E & GA & I).
  pose proof (hd_split_in c_colon ref) as NC. set (asset := hd [] (split c_colon ref)) in *. clearbody asset.
  apply cond_raise in H as [[_ X]|[L H]]; [left; exact X|].
  destruct asset as [|a asset]; [rewrite verify_nil in H; injection H as <-; left; reflexivity|].
  apply bind_verify_raise in H; [|discriminate|assumption|discriminate].
  destruct H as [X|[X M]]; [left; exact X|right]. split; [exact X|]. revert L. arith. intros [L1 _].
  exists cp, (a :: asset), ig. apply digits_iff in C. unfold company_prefix. subst u. rewrite E. auto 10.
Qed.
