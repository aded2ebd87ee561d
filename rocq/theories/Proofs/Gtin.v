(** GTIN views and from_gtin_plus_serial *)
From Coq Require Import String Lia ZifyNat ZifyN ZifyBool.
From Verif.Model Require Import Py Re Regexes Common Base.
From Verif.Model Require Import Lgtin Sgtin Others Parsers.
From Verif.Spec Require Import Spec SpecEscapes SpecGrammar SpecSchemes SpecElements SpecGtin.
From Verif.Proofs Require Import Basics Uni Escapes Grammar CtorA Keys Elements ElementRe ElementBack ElementAccept.

Lemma view_zeros z n g : length g = 14%nat -> length z = (14 - n)%nat -> (n <= 14)%nat -> forall v,
  (let* _ := raise_if (negb (startswith z g)) ConvertException in Ok (sl (14 - n) 14 g)) = Ok v <-> length v = n /\ g = z ++ v.
Proof.
  intros L Lz Ln v. destruct (startswith z g) eqn:E; cbn [negb raise_if bind].
  - apply startswith_spec in E as (t & ->). rewrite app_length in L.
    assert (X : sl (14 - n) 14 (z ++ t) = t).
    { unfold sl. rewrite <- Lz, skipn_app, skipn_all, Nat.sub_diag. cbn [app skipn]. apply firstn_all2. lia. }
    rewrite X. split.
    + intros H. apply ok_same in H. subst v. split; [lia|reflexivity].
    + intros [_ H]. apply app_inv_head in H. subst v. reflexivity.
  - split; [discriminate|]. intros [_ ->]. rewrite startswith_app in E. discriminate E.
Qed.
Lemma view_spec g t : length g = 14%nat ->
  (forall v, gtin_view g t = Ok v <-> gtin_of_kind t v g) /\ (forall e, gtin_view g t = Raise e -> e = ConvertException).
Proof.
  intros L. split.
  - intros v. destruct t; cbn [gtin_of_kind].
    + exact (view_zeros (lit "000000") 8 g L eq_refl ltac:(lia) v).
    + exact (view_zeros (lit "00") 12 g L eq_refl ltac:(lia) v).
    + exact (view_zeros (lit "0") 13 g L eq_refl ltac:(lia) v).
    + rewrite gtin_view14 by exact L. split; [intros H; apply ok_same in H; subst v; auto|intros [_ ->]; reflexivity].
  - intros e. unfold gtin_view, raise_if. destruct t; [..|discriminate]; destruct (negb _); cbn [bind]; congruence.
Qed.

Lemma gtin_len14 cp i rest g : (length cp + length (i :: rest) = 13)%nat -> completed (i :: cp ++ rest) g -> length g = 14%nat.
Proof. intros L K. apply completed_length in K. cbn [length] in *. rewrite app_length in K. lia. Qed.

Theorem sgtin_views u x : sgtin_init u = Ok x -> exists g, sgtin_gtin x GTIN14 = Ok g /\ length g = 14%nat /\ forall t,
  (forall v, sgtin_gtin x t = Ok v <-> gtin_of_kind t v g) /\ (forall e, sgtin_gtin x t = Raise e -> e = ConvertException).
Proof.
  intros H. apply sgtin_iff in H as (U & _ & i & rest & Ei & K). destruct U as (_ & _ & _ & L & _). rewrite Ei in L.
  pose proof (gtin_len14 _ _ _ _ L K) as L'. exists (sgtin_gtin_ x). unfold sgtin_gtin. split; [apply gtin_view14, L'|].
  split; [exact L'|]. intros t. apply view_spec, L'.
Qed.
Theorem lgtin_views u x : lgtin_init u = Ok x -> exists g, lgtin_gtin x GTIN14 = Ok g /\ length g = 14%nat /\ forall t,
  (forall v, lgtin_gtin x t = Ok v <-> gtin_of_kind t v g) /\ (forall e, lgtin_gtin x t = Raise e -> e = ConvertException).
Proof.
  intros H. apply lgtin_iff in H as (lot & U & _ & _ & i & rest & Ei & K). destruct U as (_ & _ & _ & L & _). rewrite Ei in L.
  pose proof (gtin_len14 _ _ _ _ L K) as L'. exists (lgtin_gtin_ x). unfold lgtin_gtin. split; [apply gtin_view14, L'|].
  split; [exact L'|]. intros t. apply view_spec, L'.
Qed.

Lemma zfill_digits n s : digits s -> zfill n s = padl c_0 n s.
Proof.
  intros D. unfold zfill. destruct s as [|c s]; [reflexivity|].
  specialize (D c (or_introl eq_refl)). destruct (N.eqb_spec c 43) as [->|_]; [exfalso; apply D; reflexivity|].
  destruct (N.eqb_spec c 45) as [->|_]; [exfalso; apply D; reflexivity|reflexivity].
Qed.
Lemma padl_kind t v g : gtin_of_kind t v g -> padl c_0 14 v = g.
Proof. unfold padl. destruct t; intros [L ->]; rewrite L; reflexivity. Qed.
Lemma kind_digits t v g : gtin_of_kind t v g -> digits g -> digits v.
Proof. intros K D c I. apply D. destruct t; destruct K as [_ ->]; try (apply in_or_app; right); exact I. Qed.
Lemma plus_serial g s l : digits g -> sgtin_from_gtin_plus_serial g s l = sgtin_init (gtin_body_uri (lit "urn:epc:id:sgtin:") l (padl c_0 14 g) s).
Proof.
  intros D. unfold sgtin_from_gtin_plus_serial. rewrite zfill_digits by exact D. pose proof (length_padl c_0 14 g) as L.
  destruct (padl c_0 14 g) as [|h t]; [cbn [length] in L; lia|]. reflexivity.
Qed.

(** every view of the GTIN gives the object back *)
Theorem plus_serial_back u cp item serial x t v : sgtin_uri u cp item serial -> sgtin_init u = Ok x -> sgtin_gtin x t = Ok v ->
  sgtin_from_gtin_plus_serial v serial (Z.of_nat (length cp)) = Ok x.
Proof.
  intros U I V. pose proof U as (Eu & (Dc & Lc) & Di & L & C & Ls).
  destruct item as [|i rest]; [cbn [length] in L; lia|].
  destruct (completed_exists (i :: cp ++ rest)) as (k & K). destruct (sgtin_keys _ _ _ _ _ _ U K) as (x' & I' & G & _).
  pose proof (eq_trans (eq_sym I) I') as X. apply ok_same in X. subst x'.
  pose proof (gtin_len14 _ _ _ _ L K) as L'.
  destruct (sgtin_views _ _ I) as (g & G' & _ & W). unfold sgtin_gs1_key in G. rewrite G in G'. apply ok_same in G'. subst g.
  apply (proj1 (W t)) in V.
  assert (Dk : digits k).
  { apply completed_digits in K; [exact K|]. apply digits_cons in Di as [D1 D2]. change (i :: cp ++ rest) with ([i] ++ cp ++ rest).
    apply digits_app; [exact D1|apply digits_app; assumption]. }
  rewrite plus_serial by exact (kind_digits _ _ _ V Dk). rewrite (padl_kind _ _ _ V).
  apply completed_inv in K as (d & -> & Dd). rewrite gtin_body_uri_eq. rewrite <- Eu in *. exact I.
Qed.

Lemma slice_gtin_any (d : str) l cp rest : (2 <= length d)%nat ->
  slz (Some 1%Z) (Some (1 + l)%Z) d = cp -> slz (Some (1 + l)%Z) (Some (-1)%Z) d = rest -> cp <> [] ->
  (length cp + length rest = length d - 2)%nat \/ (length cp = length d - 1 /\ rest = [])%nat.
Proof.
  intros L Ec Er N. destruct d as [|h d]; [cbn in L; lia|].
  unfold slz in Ec, Er. set (n := length (h :: d)) in *.
  pose proof (norm_le (Z.of_nat n) (1 + l) ltac:(lia)) as B.
  set (i := norm_idx (Z.of_nat n) (1 + l)) in *. rewrite norm_m1 in Er by lia. rewrite (norm_pos _ 1) in Ec by lia.
  replace (Z.to_nat (Z.max 0 (Z.min 1 (Z.of_nat n)))) with 1%nat in Ec by lia.
  replace (Z.max 0 (Z.min 1 (Z.of_nat n))) with 1%Z in Ec by lia.
  assert (I1 : (1 <= i)%Z).
  { destruct (Z_lt_le_dec i 1) as [H|H]; [|exact H]. exfalso. apply N. rewrite <- Ec. replace (Z.to_nat (i - 1)) with 0%nat by lia. reflexivity. }
  rewrite <- Ec, <- Er, !firstn_length, !skipn_length. fold n.
  destruct (Z_le_gt_dec i (Z.of_nat n - 1)) as [H|H]; [left; lia|right]. split; [lia|].
  replace (Z.to_nat (Z.of_nat n - 1 - i)) with 0%nat by lia. reflexivity.
Qed.

(** what an accepted GTIN was: its check digit is not looked at *)
Theorem plus_serial_accept g serial l x : digits g -> sgtin_from_gtin_plus_serial g serial l = Ok x ->
  exists cp item full, sgtin_uri (sgtin_epc_uri x) cp item serial /\ sgtin_init (sgtin_epc_uri x) = Ok x /\
    (l = Z.of_nat (length cp) \/ l < 0)%Z /\ sgtin_gtin x GTIN14 = Ok full /\ gtin_rechecked g full.
Proof.
  intros D H. rewrite plus_serial in H by exact D. pose proof H as H0.
  apply sgtin_iff in H as (U & Eu & i & rest & Ei & K). rewrite <- Eu in H0, U. pose proof U as (U' & (Dc & Lc) & Di & L & C & Ls).
  set (d := padl c_0 14 g) in *. rewrite Eu in U'. unfold gtin_body_uri in U'.
  assert (Dd : digits d).
  { unfold d, padl. apply digits_app; [|exact D]. intros c J. apply repeat_spec in J. subst c. discriminate. }
  assert (Ld : (14 <= length d)%nat) by (unfold d; rewrite length_padl; lia).
  apply app_inv_head in U'. apply cut_dot in U' as [Hc U']; [|apply nodot_digits, slz_digits, Dd|apply nodot_digits, Dc].
  rewrite (app_assoc [hd 0 d]) in U'.
  apply cut_dot in U' as [Hi Hs]; [|apply nodot_digits, digits_app; [apply (digits_hd _ (length d - 1) Dd); lia|apply slz_digits, Dd]|apply nodot_digits, Di].
  rewrite Ei in Hi. apply cons_inv in Hi as [Hh Hr].
  assert (Nc : sgtin_cp x <> []) by (intros X; rewrite X in Lc; cbn in Lc; lia).
  rewrite Ei in L. cbn [length] in L.
  assert (Ld' : length d = 14%nat).
  { destruct (slice_gtin_any d l _ _ ltac:(lia) Hc Hr Nc) as [X|[X ->]]; [lia|]. cbn [length] in L. lia. }
  destruct (slice_gtin d 12 l _ _ Ld' Hc Hr Nc ltac:(lia)) as (k & Ed & Hl).
  exists (sgtin_cp x), (sgtin_item x), (sgtin_gtin_ x). rewrite <- Hs in U. split; [exact U|]. split; [exact H0|]. split; [exact Hl|].
  split; [apply gtin_view14, (gtin_len14 _ _ _ _ L K)|].
  exists (repeat c_0 (14 - length g)), (i :: sgtin_cp x ++ rest), k.
  split; [fold (padl c_0 14 g); fold d; rewrite Ed, Hh; reflexivity|]. split; [intros c J; apply repeat_spec in J; exact J|].
  split; [cbn [length]; rewrite app_length; lia|exact K].
Qed.
(** so the GTIN comes back exactly when its check digit is right *)
Theorem plus_serial_check g serial l x : length g = 14%nat -> digits g -> sgtin_from_gtin_plus_serial g serial l = Ok x ->
  (sgtin_gtin x GTIN14 = Ok g <-> exists body, completed body g).
Proof.
  intros L D H. destruct (plus_serial_accept _ _ _ _ D H) as (cp & item & full & _ & _ & _ & G & z & body & k & E & _ & Lb & K).
  rewrite G. split; [intros X; apply ok_same in X; subst full; eauto|]. intros (b' & K').
  assert (z = []). { apply (f_equal (@length _)) in E. rewrite !app_length in E. cbn in E. destruct z; [reflexivity|cbn in E; lia]. }
  subst z. cbn [app] in E. pose proof K' as K2. apply completed_inv in K' as (d & E' & _). rewrite E' in E.
  apply app_inj_tail in E as [-> ->]. f_equal. exact (completed_unique _ _ _ K K2).
Qed.
