(** Different requests give different tags. *)
From Coq Require Import String.
From Verif.Model Require Import Py Re Regexes Common Base.
From Verif.Model Require Import Adi Cpi Gdti Giai Gid Grai Gsrn Gsrnp Itip Sgcn Sgln Sgtin Sscc Usdod Parsers.
From Verif.Spec Require Import Spec SpecEscapes SpecGrammar SpecSchemes SpecTags SpecLayout SpecCoding.
From Verif.Proofs Require Import Basics Num Uni Codecs CodecSpec Ctor CtorC CtorAll Layout BinC BinD BinAll Decode DecodeA Filter.

Lemma ok_inj' {A} (a b : A) : Ok a = Ok b -> a = b. Proof. now intros [= ->]. Qed.
Lemma app_cut {A} (a b a' b' : list A) : length a = length a' -> a ++ b = a' ++ b' -> a = a' /\ b = b'.
Proof.
  revert a'. induction a as [|x a IH]; intros [|x' a'] L E; try discriminate L; [auto|].
  injection E as -> E. destruct (IH a' ltac:(cbn in L; lia) E) as [-> ->]. auto.
Qed.

(** * ADI *)

Definition adi_set (c : N) : Prop := c = 32 \/ c = 35 \/ c = 45 \/ c = 47 \/ 48 <= c <= 57 \/ 65 <= c <= 90.
Lemma adi_code_inj c d : adi_set c -> adi_set d -> code_six c = code_six d -> c = d.
Proof. unfold adi_set, code_six. intros H K E. pose proof (N.div_mod c 64 ltac:(lia)). pose proof (N.div_mod d 64 ltac:(lia)).
  assert (c / 64 = 0 \/ c / 64 = 1) by (assert (c / 64 < 2) by (apply N.div_lt_upper_bound; lia); lia).
  assert (d / 64 = 0 \/ d / 64 = 1) by (assert (d / 64 < 2) by (apply N.div_lt_upper_bound; lia); lia).
  lia.
Qed.
Lemma adi_code_pos c : adi_set c -> code_six c <> 0.
Proof. unfold adi_set, code_six. intros H E. pose proof (N.div_mod c 64 ltac:(lia)).
  assert (c / 64 < 2) by (apply N.div_lt_upper_bound; lia). lia. Qed.
Lemma adi_map_inj s t : Forall adi_set s -> Forall adi_set t -> map code_six s = map code_six t -> s = t.
Proof.
  intros S. revert t. induction S as [|c s C S IH]; intros [|d t] T E; try discriminate E; [reflexivity|].
  inversion_clear T as [|? ? D T']. injection E as E1 E2. f_equal; [now apply adi_code_inj|now apply IH].
Qed.
Lemma zero_split (a b a' b' : list N) : ~ In 0 a -> ~ In 0 a' -> a ++ 0 :: b = a' ++ 0 :: b' -> a = a' /\ b = b'.
Proof.
  revert a'. induction a as [|x a IH]; intros [|x' a'] H H' E; cbn in E.
  - now injection E.
  - injection E as E _. destruct H'. now left.
  - injection E as E _. destruct H. now left.
  - injection E as -> E. destruct (IH a' ltac:(intros J; apply H; now right) ltac:(intros J; apply H'; now right) E) as [-> ->]. auto.
Qed.
Lemma tobits_six_inj (a b : list N) : Forall (fun v => v < 64) a -> Forall (fun v => v < 64) b ->
  tobits (map (fun v => (6%nat, v)) a) = tobits (map (fun v => (6%nat, v)) b) -> a = b.
Proof.
  intros A. revert b. induction A as [|x a X A IH]; intros [|y b] B E.
  - reflexivity.
  - apply (f_equal (@length N)) in E. cbn [map] in E. rewrite tobits_cons, app_length, length_bits in E. cbn in E. lia.
  - apply (f_equal (@length N)) in E. cbn [map] in E. rewrite tobits_cons, app_length, length_bits in E. cbn in E. lia.
  - inversion_clear B as [|? ? Y B']. cbn [map] in E. rewrite !tobits_cons in E. 
    apply app_cut in E as E6; [|now rewrite !length_bits].
    destruct E6 as [E1 E2]. f_equal; [apply (bits_inj 6); assumption|now apply IH].
Qed.
Definition adi_codes (x : adi) : list N :=
  map code_six (repeat 32 (6 - length (adi_cage x)) ++ adi_cage x) ++ map code_six (unescape6 (adi_part x)) ++ 0 :: map code_six (unescape6 (adi_serial x)) ++ [0].
Lemma adi_layout_codes x s f : tag_layout (T_ADI x s f) = (8%nat, 0x3B) :: (6%nat, f) :: map (fun v => (6%nat, v)) (adi_codes x).
Proof.
  destruct s. unfold tag_layout, header_field, filter_fields, body_fields, req_filter, filter_bits, adi_codes, cage_fields, six_fields. cbn [app].
  do 2 f_equal. rewrite !map_app. cbn [map]. rewrite !map_app, !map_map, <- !app_assoc. reflexivity.
Qed.

Lemma adi_inject u1 u2 x1 x2 s1 s2 f1 f2 : adi_init u1 = Ok x1 -> adi_init u2 = Ok x2 -> f1 < 64 -> f2 < 64 ->
  adi_binary x1 s1 f1 = adi_binary x2 s2 f2 -> x1 = x2.
Proof.
  intros I1 I2 F1 F2 E.
  destruct (adi_coded u1 x1 s1 f1 I1 F1) as (R1 & B1 & _). destruct (adi_coded u2 x2 s2 f2 I2 F2) as (R2 & B2 & _).
  rewrite B1, B2 in E. apply ok_inj' in E. rewrite !adi_layout_codes in *. rewrite !tobits_cons in E.
  assert (E' : tobits (map (fun v => (6%nat, v)) (adi_codes x1)) = tobits (map (fun v => (6%nat, v)) (adi_codes x2))).
  { apply app_cut in E as [_ E]; [|now rewrite !length_bits]. now apply app_cut in E as [_ E]; [|now rewrite !length_bits]. }
  clear E B1 B2.
  assert (RG : forall l : list N, in_range (map (fun v => (6%nat, v)) l) -> Forall (fun v => v < 64) l).
  { intros l H. unfold in_range in H. rewrite Forall_map in H. exact H. }
  inversion_clear R1 as [|? ? _ R1']. inversion_clear R1' as [|? ? _ R1]. inversion_clear R2 as [|? ? _ R2']. inversion_clear R2' as [|? ? _ R2].
  apply tobits_six_inj in E'; [|now apply RG..]. clear R1 R2.
  assert (X : forall u x, adi_init u = Ok x -> exists t w, adi_part x = escape6 t /\ adi_serial x = escape6 w /\ unescape6 (adi_part x) = t /\ unescape6 (adi_serial x) = w /\
     Forall adi_set t /\ Forall adi_set w /\ Forall adi_set (adi_cage x) /\ length (repeat 32 (6 - length (adi_cage x)) ++ adi_cage x) = 6%nat /\ ~ In 32 (adi_cage x) /\
     u = lit "urn:epc:id:adi:" ++ adi_cage x ++ lit "." ++ adi_part x ++ lit "." ++ adi_serial x).
  { clear. intros u x I. apply adi_iff in I as ((U & [CL CC] & (t & T & TH & TE & TL) & (w & w' & W & _ & WN & WC & WE & WL)) & XU).
    exists t, w. split; [exact TE|]. split; [exact WE|].
    split; [rewrite TE; apply unescape6_escape6; now apply six_bit_text_iff|]. split; [rewrite WE; apply unescape6_escape6; now apply six_bit_text_iff|].
    split; [apply Forall_forall; intros c J; apply T in J; unfold adi_set; lia|]. split; [apply Forall_forall; intros c J; apply W in J; unfold adi_set; lia|].
    split; [apply Forall_forall; intros c J; apply CC in J; unfold adi_set; lia|]. split; [rewrite app_length, repeat_length; lia|].
    split; [intros J; apply CC in J; lia|exact U]. }
  destruct (X u1 x1 I1) as (t1 & w1 & TE1 & WE1 & TU1 & WU1 & T1 & W1 & C1 & L1 & N1 & U1).
  destruct (X u2 x2 I2) as (t2 & w2 & TE2 & WE2 & TU2 & WU2 & T2 & W2 & C2 & L2 & N2 & U2). clear X.
  unfold adi_codes in E'. rewrite TU1, WU1, TU2, WU2 in E'.
  set (p1 := repeat 32 (6 - length (adi_cage x1)) ++ adi_cage x1) in *. set (p2 := repeat 32 (6 - length (adi_cage x2)) ++ adi_cage x2) in *.
  apply app_cut in E' as EP; [|rewrite !map_length; congruence].
  destruct EP as [EP ER].
  assert (S32 : forall n l, Forall adi_set l -> Forall adi_set (repeat 32 n ++ l)).
  { intros n l H. apply Forall_app. split; [|exact H]. apply Forall_forall. intros c J. apply repeat_spec in J as ->. now left. }
  apply adi_map_inj in EP; [|now apply S32..].
  assert (CG : adi_cage x1 = adi_cage x2).
  { assert (F : forall n l, ~ In 32 l -> filter (fun c => negb (c =? 32)) (repeat 32 n ++ l) = l).
    { clear. intros n l H. induction n as [|n IH]; [|exact IH]. cbn [repeat app]. induction l as [|c l IH]; [reflexivity|]. cbn [filter].
      destruct (N.eqb_spec c 32) as [->|]; [destruct H; now left|]. cbn [negb]. f_equal. apply IH. intros J. apply H. now right. }
    rewrite <- (F (6 - length (adi_cage x1))%nat (adi_cage x1) N1), <- (F (6 - length (adi_cage x2))%nat (adi_cage x2) N2). unfold p1, p2 in EP. now rewrite EP. }
  assert (NZ : forall l, Forall adi_set l -> ~ In 0 (map code_six l)).
  { intros l H J. apply in_map_iff in J as (c & J1 & J2). rewrite Forall_forall in H. now apply (adi_code_pos c (H c J2)). }
  apply zero_split in ER as [ET EW]; [|now apply NZ..]. apply zero_split in EW as [EW _]; [|now apply NZ..].
  apply adi_map_inj in ET; [|assumption..]. apply adi_map_inj in EW; [|assumption..]. subst t2 w2.
  assert (u1 = u2) by congruence. subst u2. congruence.
Qed.

(** * All classes *)

Lemma with_own q f : req_filter q = Some f -> with_filter f q = q.
Proof. destruct q; cbn; intros E; injection E as <- || discriminate E; reflexivity. Qed.
Lemma filter_bits_width q : filter_bits q = filter_width (req_kind q).
Proof. destruct q; destruct s; reflexivity. Qed.

Lemma request_ext q q' : req_epc q = req_epc q' -> req_kind q = req_kind q' -> req_filter q = req_filter q' -> q = q'.
Proof.
  destruct q, q'; cbn [req_epc req_filter]; intros E K F; try discriminate E; injection E as <-; try injection F as <-; f_equal;
    destruct s, s0; (reflexivity || discriminate K).
Qed.

Lemma same_filter q q' b : req_binary q = Ok b -> req_binary q' = Ok b -> filter_fits q -> filter_fits q' -> req_filter q = req_filter q'.
Proof.
  intros E E' F F'. assert (K : req_kind q = req_kind q').
  { apply header_inj. rewrite <- (binary_header q b E), <- (binary_header q' b E'). reflexivity. }
  unfold filter_fits in *. rewrite filter_bits_width in F, F'.
  assert (G : forall p, req_kind p = K_GID_96 <-> req_filter p = None) by (intros p; destruct p; destruct s; split; (reflexivity || discriminate)).
  destruct (req_filter q) as [f|] eqn:Q, (req_filter q') as [f'|] eqn:Q'.
  - f_equal. pose proof (filter_rest q f F) as R. pose proof (filter_rest q' f' F') as R'. rewrite (with_own q f Q) in R. rewrite (with_own q' f' Q') in R'.
    rewrite E in R. rewrite E' in R'. rewrite <- K in F', R'.
    destruct (let* b := req_binary (with_filter 0 q) in _) as [s|]; [|discriminate R]. cbn [bind] in R. apply ok_inj' in R.
    destruct (let* b := req_binary (with_filter 0 q') in _) as [s'|]; [|discriminate R']. cbn [bind] in R'. apply ok_inj' in R'.
    rewrite R in R'. apply app_inv_head in R'. apply (bits_inj (filter_width (req_kind q))); [exact F|exact F'|].
    now apply app_cut in R' as [R' _]; [|now rewrite !length_bits].
  - apply G in Q'. rewrite <- K in Q'. apply G in Q'. congruence.
  - apply G in Q. rewrite K in Q. apply G in Q. congruence.
  - reflexivity.
Qed.

Theorem binary_injective q q' u u' : proper_request q u -> proper_request q' u' -> req_binary q = req_binary q' -> q = q' /\ u = u'.
Proof.
  intros (I & A & (t & T) & K & F & P & G) (I' & A' & (t' & T') & K' & F' & P' & G') E.
  destruct (binary_written q u t I T K F P) as (b & B1 & _ & _ & _ & B5).
  destruct (binary_written q' u' t' I' T' K' F' P') as (b' & B1' & _ & _ & _ & B5').
  assert (b' = b) by congruence. subst b'.
  assert (KK : req_kind q = req_kind q').
  { apply header_inj. rewrite <- (binary_header q b B1), <- (binary_header q' b B1'). reflexivity. }
  assert (FF : req_filter q = req_filter q') by (now apply (same_filter q q' b)).
  assert (EE : req_epc q = req_epc q').
  { destruct (B5 [] ltac:(intros c [])) as [C1 _]. destruct (B5' [] ltac:(intros c [])) as [C1' _].
    rewrite (core_uri_eq q u I G), (ascii_form_id u A) in C1. rewrite (core_uri_eq q' u' I' G'), (ascii_form_id u' A') in C1'.
    assert (CC : class_of (req_epc q) = class_of (req_epc q')) by (rewrite !header_of; now rewrite KK).
    destruct (class_of (req_epc q)) eqn:Q;
      try (specialize (C1 ltac:(discriminate)); rewrite <- CC in C1', I'; specialize (C1' ltac:(discriminate)); congruence).
    destruct q, q'; try discriminate Q; try discriminate CC. cbn [req_epc class_of init_of req_binary] in *.
    apply lift_ok in I as (y & I & Y). injection Y as <-. apply lift_ok in I' as (y' & I' & Y'). injection Y' as <-.
    f_equal. exact (adi_inject u u' x x0 s s0 f f0 I I' F F' E). }
  pose proof (request_ext q q' EE KK FF) as <-. split; [reflexivity|]. clear - I I'.
  rewrite <- (proj2 (init_class _ _ _ I)). now rewrite <- (proj2 (init_class _ _ _ I')).
Qed.

(** the small letter of an escape is lost in a tag *)
Theorem escapes_collide : exists u u' x x' b, u <> u' /\ sgtin_init u = Ok x /\ sgtin_init u' = Ok x' /\
  sgtin_binary x SGTIN_198 0 = Ok b /\ sgtin_binary x' SGTIN_198 0 = Ok b.
Proof.
  exists (lit "urn:epc:id:sgtin:0614141.812345.1%2F"), (lit "urn:epc:id:sgtin:0614141.812345.1%2f"). eexists. eexists. eexists.
  split; [discriminate|]. repeat split; vm_compute; reflexivity.
Qed.
