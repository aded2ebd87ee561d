(** Arguments that do not fit the parameters. *)
From Coq Require Import String List Lia.
From Verif.Model Require Import Py Re Regexes Common Base.
From Verif.Model Require Import Adi Cpi Gdti Giai Gid Grai Gsrn Gsrnp Itip Lgtin Sgcn Sgln Sgtin Sscc Usdod Others Parsers Calls.
From Verif.Spec Require Import Spec SpecEscapes SpecGrammar SpecSchemes SpecCalls SpecBinding.
From Verif.Proofs Require Import Basics CallArgs CtorAll Exceptions Exceptions2.
Import ListNotations.

Definition fits_call (c : cls) (o : order) (ps : list (param * option member)) (args : list member) (k : kwargs) : Prop :=
  match bind_call ps args k with
  | Ok l => well_called c o args k /\
      (forall p m, In p (parameters o) -> gives o args k p m -> bound p l = m)
  | Raise x => x = TypeError /\ ~ well_called c o args k
  end.
Ltac not_called :=
  let A := fresh "A" in let B := fresh "B" in let C := fresh "C" in let D := fresh "D" in
  split; [reflexivity|]; cbn [tag_uri_order binary_order]; intros (A & B & C & D);
  try discriminate A; cbn [length parameters] in B; try lia;
  try (assert (K : In P_filter [P_scheme]) by (apply C; discriminate); cbn in K; destruct K as [K|[]]; discriminate K);
  try (destruct (D 0%nat _ eq_refl) as [K _]; specialize (K ltac:(cbn; lia)); discriminate K);
  try (destruct (D 1%nat _ eq_refl) as [K _]; specialize (K ltac:(cbn; lia)); discriminate K);
  try (destruct (D 0%nat _ eq_refl) as [_ K]; destruct (K ltac:(cbn; lia)) as [K'|K']; cbn in K';
       [congruence|]; repeat (destruct K' as [K'|K']; [discriminate K'|]); contradiction);
  try (destruct (D 1%nat _ eq_refl) as [_ K]; destruct (K ltac:(cbn; lia)) as [K'|K']; cbn in K';
       [congruence|]; repeat (destruct K' as [K'|K']; [discriminate K'|]); contradiction).
Ltac is_called :=
  split;
  [ split; [reflexivity|]; split; [cbn; lia|]; split;
    [ intros [|] K; cbn in *; first [congruence|left; reflexivity|right; left; reflexivity]
    | intros [|[|[|i]]] p K; cbn in K; try discriminate K; injection K as <-; cbn [length];
      (split; intros K; [try reflexivity; lia|try lia; first [left; cbn; discriminate|right; cbn; repeat (first [left; reflexivity|right])]]) ]
  | intros p mm K [(i & E & F)|E]; cbn in K;
    [ destruct i as [|[|[|i]]]; cbn in E, F; try discriminate E; try discriminate F; injection E as <-; injection F as <-; reflexivity
    | destruct p; cbn in E; try discriminate E; try injection E as <-; reflexivity ] ].
Lemma tag_fits c args k : In c tag_classes -> fits_call c (tag_uri_order c) (tag_uri_params c) args k.
Proof.
  intros H; destruct k as [s f o].
  repeat (destruct H as [<-|H]; [|]); try contradiction.
  all: destruct o; [unfold fits_call, bind_call, unexpected; cbn [kw_other orb raise_if bind]; solve [not_called]|].
  all: destruct args as [|a [|b [|d args]]]; destruct s, f; unfold fits_call;
    match goal with |- match ?b with _ => _ end => let b' := eval cbv in b in change b with b' end; cbv iota beta; cbn [tag_uri_order binary_order];
    solve [not_called|is_called].
Qed.
Lemma binary_fits c args k : In c tag_classes -> fits_call c (binary_order c) (binary_params c) args k.
Proof.
  intros H; destruct k as [s f o].
  repeat (destruct H as [<-|H]; [|]); try contradiction.
  all: destruct o; [unfold fits_call, bind_call, unexpected; cbn [kw_other orb raise_if bind]; solve [not_called]|].
  all: destruct args as [|a [|b [|d args]]]; destruct s, f; unfold fits_call;
    match goal with |- match ?b with _ => _ end => let b' := eval cbv in b in change b with b' end; cbv iota beta;
    cbn [tag_uri_order binary_order]; solve [not_called|is_called].
Qed.

Lemma request_epc e m n q : request e m n = Some q -> req_epc q = e.
Proof. destruct e, m; cbn [request]; intros [=]; subst; reflexivity. Qed.
Definition no_type (x : exn) : Prop := x <> TypeError.
Lemma tag_members_exn c u e s f : init_of c u = Ok e -> only no_type (tag_uri_members e s f).
Proof.
  intros H; unfold tag_uri_members. apply only_bind; [|intros; apply only_ok].
  destruct (request e s 0) as [q|] eqn:E; [|apply only_ok].
  pose proof (request_epc _ _ _ _ E) as He. intros x X.
  rewrite (tag_uri_exn q u x); [discriminate| |exact X]. rewrite He, (proj1 (init_class _ _ _ H)). exact H.
Qed.
Lemma binary_members_exn c u e s f : init_of c u = Ok e -> only no_type (binary_members e s f).
Proof.
  intros H; unfold binary_members. destruct (request e s _) as [q|] eqn:E; [|apply only_raise; discriminate].
  pose proof (request_epc _ _ _ _ E) as He.
  assert (Hq : only no_type (req_binary q)).
  { intros x X. destruct (binary_exn q u x) as [-> | ->]; [|exact X|discriminate|discriminate].
    rewrite He, (proj1 (init_class _ _ _ H)). exact H. }
  assert (Hs : forall t n, only no_type (str_to_binary t n)).
  { intros t n. apply (only_weak cv); [intros x [-> | ->]; discriminate|apply cv_str]. }
  apply only_bind; [|intros; exact Hq]. destruct e, f; first [apply only_ok|apply Hs].
Qed.
Lemma hex_no_type r : only no_type r -> only no_type (binary_hex r).
Proof.
  intros H; unfold binary_hex. apply only_bind; [exact H|intros b _].
  apply only_bind; [apply (only_weak cv); [intros x [-> | ->]; discriminate|apply cv_int]|intros; apply only_ok].
Qed.
Lemma base64_no_type h : only no_type (hex_to_base64 h).
Proof.
  apply (only_weak cv); [intros x [-> | ->]; discriminate|].
  unfold hex_to_base64, bytes_fromhex. apply only_bind; [auto with exn|intros; apply only_ok].
Qed.

Theorem type_errors c u e args k : In c tag_classes -> init_of c u = Ok e ->
  (call_tag_uri e args k = Raise TypeError <-> ~ well_called c (tag_uri_order c) args k) /\
  (call_binary e args k = Raise TypeError <-> ~ well_called c (binary_order c) args k) /\
  (call_hex e args k = Raise TypeError <-> ~ well_called c (binary_order c) [] k) /\
  (call_base64 e args k = Raise TypeError <-> ~ well_called c (binary_order c) [] k).
Proof.
  intros Hc H. pose proof (proj1 (init_class _ _ _ H)) as He.
  assert (B : forall args, (~ well_called c (binary_order c) args k -> call_binary e args k = Raise TypeError) /\
    (well_called c (binary_order c) args k -> only no_type (call_binary e args k))).
  { intros a. pose proof (binary_fits c a k Hc) as F. unfold fits_call in F. unfold call_binary. rewrite He.
    destruct (bind_call (binary_params c) a k) as [l|x]; cbn [bind].
    - destruct F as [F _]. split; [tauto|intros _; exact (binary_members_exn _ _ _ _ _ H)].
    - destruct F as [-> F]. split; [reflexivity|tauto]. }
  assert (G : forall (r : res str) (P : Prop), (~ P -> r = Raise TypeError) /\ (P -> only no_type r) -> (r = Raise TypeError <-> ~ P)).
  { intros r P [X Y]. split; [|exact X]. intros E p. exact (Y p _ E eq_refl). }
  assert (X : forall a, (~ well_called c (binary_order c) [] k -> call_hex e a k = Raise TypeError) /\
    (well_called c (binary_order c) [] k -> only no_type (call_hex e a k))).
  { intros a. unfold call_hex. destruct (B []) as [X Y]. split.
    - intros Z. rewrite (X Z). reflexivity.
    - intros Z. apply hex_no_type. exact (Y Z). }
  split; [|split; [|split]]; apply G.
  - pose proof (tag_fits c args k Hc) as F. unfold fits_call in F. unfold call_tag_uri. rewrite He.
    destruct (bind_call (tag_uri_params c) args k) as [l|x]; cbn [bind].
    + destruct F as [F _]. split; [tauto|intros _; exact (tag_members_exn _ _ _ _ _ H)].
    + destruct F as [-> F]. split; [reflexivity|tauto].
  - apply B.
  - apply X.
  - unfold call_base64. destruct (X []) as [Y Z]. split.
    + intros V. rewrite (Y V). reflexivity.
    + intros V. apply only_bind; [exact (Z V)|intros; apply base64_no_type].
Qed.

Theorem same_as_keywords c u e args k s f : In c tag_classes -> init_of c u = Ok e ->
  (f = None <-> c = C_GID) ->
  (well_called c (tag_uri_order c) args k -> gives (tag_uri_order c) args k P_scheme s ->
     (forall m, f = Some m -> gives (tag_uri_order c) args k P_filter m) ->
     call_tag_uri e args k = call_tag_uri e [] (mkKw (Some s) f false)) /\
  (well_called c (binary_order c) args k -> gives (binary_order c) args k P_scheme s ->
     (forall m, f = Some m -> gives (binary_order c) args k P_filter m) ->
     call_binary e args k = call_binary e [] (mkKw (Some s) f false)).
Proof.
  intros Hc H Hf. pose proof (proj1 (init_class _ _ _ H)) as He.
  split; intros HW S F.
  - pose proof (tag_fits c args k Hc) as A. pose proof (tag_fits c [] (mkKw (Some s) f false) Hc) as B.
    unfold fits_call in A, B. unfold call_tag_uri. rewrite He.
    destruct (bind_call (tag_uri_params c) args k) as [l|x]; [|tauto].
    destruct (bind_call (tag_uri_params c) [] _) as [l'|x] eqn:E.
    + cbn [bind]. destruct A as [_ A], B as [_ B].
      assert (I : In P_scheme (parameters (tag_uri_order c))) by (destruct c; cbn; tauto).
      rewrite (A _ _ I S), (B P_scheme s I) by (right; reflexivity).
      destruct f as [m|].
      * assert (J : In P_filter (parameters (tag_uri_order c))).
        { assert (c <> C_GID) by (intros K; apply Hf in K; discriminate). destruct c; cbn; try tauto; congruence. }
        rewrite (A _ _ J (F m eq_refl)), (B P_filter m J) by (right; reflexivity). reflexivity.
      * assert (c = C_GID) as -> by (apply Hf; reflexivity). destruct e; try discriminate He. reflexivity.
    + exfalso. destruct B as [_ B]. apply B. split; [reflexivity|]. split; [cbn; lia|]. split.
      * intros [|] K; cbn in K; [destruct c; cbn; tauto|]. destruct f; [|congruence].
        assert (c <> C_GID) by (intros K'; apply Hf in K'; discriminate). destruct c; cbn; try tauto; congruence.
      * intros i p K. split; [cbn; lia|intros _]. destruct p; cbn; [left; discriminate|].
        left. destruct f; [discriminate|]. assert (c = C_GID) as -> by (apply Hf; reflexivity).
        destruct i as [|[|i]]; discriminate K.
  - pose proof (binary_fits c args k Hc) as A. pose proof (binary_fits c [] (mkKw (Some s) f false) Hc) as B.
    unfold fits_call in A, B. unfold call_binary. rewrite He.
    destruct (bind_call (binary_params c) args k) as [l|x]; [|tauto].
    destruct (bind_call (binary_params c) [] _) as [l'|x] eqn:E.
    + cbn [bind]. destruct A as [_ A], B as [_ B].
      assert (I : In P_scheme (parameters (binary_order c))) by (destruct c; cbn; tauto).
      rewrite (A _ _ I S), (B P_scheme s I) by (right; reflexivity).
      destruct f as [m|].
      * assert (J : In P_filter (parameters (binary_order c))).
        { assert (c <> C_GID) by (intros K; apply Hf in K; discriminate). destruct c; cbn; try tauto; congruence. }
        rewrite (A _ _ J (F m eq_refl)), (B P_filter m J) by (right; reflexivity). reflexivity.
      * assert (c = C_GID) as -> by (apply Hf; reflexivity). destruct e; try discriminate He. unfold binary_members. cbn [request].
        destruct s; reflexivity.
    + exfalso. destruct B as [_ B]. apply B. split; [reflexivity|]. split; [cbn; lia|]. split.
      * intros [|] K; cbn in K; [destruct c; cbn; tauto|]. destruct f; [|congruence].
        assert (c <> C_GID) by (intros K'; apply Hf in K'; discriminate). destruct c; cbn; try tauto; congruence.
      * intros i p K. split; [cbn; lia|intros _]. destruct p; cbn; [left; discriminate|].
        left. destruct f; [discriminate|]. assert (c = C_GID) as -> by (apply Hf; reflexivity).
        destruct i as [|[|i]]; discriminate K.
Qed.
