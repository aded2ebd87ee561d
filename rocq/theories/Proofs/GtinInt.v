(** GTIN views with an integer for the GTIN type *)
From Coq Require Import String Lia ZifyNat ZifyN ZifyBool.
From Verif.Model Require Import Py Re Regexes Common Base.
From Verif.Model Require Import Lgtin Sgtin Others Parsers Calls.
From Verif.Spec Require Import Spec SpecEscapes SpecGrammar SpecSchemes SpecElements SpecGtin.
From Verif.Proofs Require Import Basics Uni Escapes Grammar CtorA Keys Elements ElementRe ElementBack ElementAccept Gtin.

Lemma slz_tail (g : str) (lo : Z) : length g = 14%nat ->
  slz (Some lo) (Some 14%Z) g = skipn (Z.to_nat (norm_idx 14 lo)) g.
Proof.
  intros L. unfold slz. rewrite L. change (Z.of_nat 14) with 14%Z. change (norm_idx 14 14) with 14%Z. apply firstn_all2.
  rewrite skipn_length, L. unfold norm_idx. lia.
Qed.
Lemma int_view_spec g k : length g = 14%nat ->
  (forall v, gtin_view_int g k = Ok v <-> gtin_for_integer k v g) /\ (forall e, gtin_view_int g k = Raise e -> e = ConvertException).
Proof.
  intros L. split; [|intros e; unfold gtin_view_int, raise_if; destruct (_ && _); cbn [bind]; congruence].
  intros v. unfold gtin_view_int. rewrite slz_tail by exact L. unfold norm_idx.
  destruct (Z.ltb_spec k 0) as [K0|K0].
  { replace (startswith _ g) with false; [replace (k =? 14)%Z with false by lia|].
    - cbn. split; [discriminate|]. intros [(H & _)|[(H & _)|(H & _)]]; lia.
    - symmetry. destruct (startswith _ g) eqn:E; [|reflexivity]. apply startswith_spec in E as (t & E). apply (f_equal (@length N)) in E.
      rewrite app_length, repeat_length in E. lia. }
  destruct (Z.leb_spec k 14) as [K1|K1].
  - replace (14 - k <? 0)%Z with false by lia. replace (Z.to_nat (Z.max 0 (Z.min (14 - k) 14))) with (Z.to_nat (14 - k)) by lia.
    set (m := Z.to_nat (14 - k)) in *.
    assert (X : (let* _ := raise_if (negb (k =? 14)%Z && negb (startswith (repeat c_0 m) g)) ConvertException in Ok (skipn m g)) =
                (let* _ := raise_if (negb (startswith (repeat c_0 m) g)) ConvertException in Ok (skipn m g))).
    { destruct (Z.eqb_spec k 14) as [->|]; [reflexivity|]. cbn [negb andb]. reflexivity. }
    rewrite X. clear X. split.
    + destruct (startswith (repeat c_0 m) g) eqn:E; [|discriminate]. cbn. intros H. apply ok_same in H. subst v. left.
      split; [lia|]. apply startswith_spec in E as (t & ->). rewrite app_length, repeat_length in L.
      rewrite skipn_app, skipn_all2, repeat_length, Nat.sub_diag by (rewrite repeat_length; lia). cbn [app skipn].
      split; [unfold m in L; lia|]. exists (repeat c_0 m). split; [reflexivity|]. intros c I. apply repeat_spec in I. exact I.
    + intros [(_ & Lv & z & -> & Z)|[(H & _)|(H & _)]]; [|lia|lia]. rewrite app_length in L.
      assert (Ez : z = repeat c_0 m).
      { assert (Lz : length z = m) by (unfold m; lia). rewrite <- Lz. clear -Z. induction z as [|c z IH]; [reflexivity|].
        cbn [length repeat]. rewrite (Z c (or_introl eq_refl)). f_equal. apply IH. intros d I. apply Z. now right. }
      rewrite Ez. rewrite startswith_app. cbn [negb raise_if bind]. rewrite skipn_app, skipn_all2, repeat_length, Nat.sub_diag by (rewrite repeat_length; lia). reflexivity.
  - replace (Z.to_nat (14 - k)) with 0%nat by lia. change (startswith (repeat c_0 0) g) with true. cbn [negb]. rewrite andb_false_r. cbn [raise_if bind].
    replace (14 - k <? 0)%Z with true by lia. destruct (Z.leb_spec k 28) as [K2|K2].
    + replace (Z.to_nat (Z.max 0 (Z.min (14 - k + 14) 14))) with (Z.to_nat (28 - k)) by lia. set (m := Z.to_nat (28 - k)). split.
      * intros H. apply ok_same in H. subst v. right; left. split; [lia|]. split; [rewrite skipn_length; unfold m; lia|].
        exists (firstn m g). now rewrite firstn_skipn.
      * intros [(H & _)|[(_ & Lv & f & ->)|(H & _)]]; [lia| |lia]. rewrite app_length in L.
        assert (Lf : length f = m) by (unfold m; lia). rewrite skipn_app, skipn_all2, Lf, Nat.sub_diag by lia. reflexivity.
    + replace (Z.to_nat (Z.max 0 (Z.min (14 - k + 14) 14))) with 0%nat by lia. cbn [skipn]. split.
      * intros H. apply ok_same in H. subst v. right; right. auto.
      * intros [(H & _)|[(H & _)|(_ & ->)]]; [lia|lia|reflexivity].
Qed.
Lemma view_of_type g t : length g = 14%nat -> gtin_view_int g (Z.of_nat (gtin_len t)) = gtin_view g t.
Proof.
  intros L. unfold gtin_view_int, gtin_view. rewrite slz_tail by exact L.
  assert (X : sl (14 - gtin_len t) 14 g = skipn (14 - gtin_len t) g).
  { unfold sl. apply firstn_all2. rewrite skipn_length. lia. }
  rewrite X. destruct t; reflexivity.
Qed.

Theorem sgtin_integer u x : sgtin_init u = Ok x -> exists g, sgtin_gtin x GTIN14 = Ok g /\ length g = 14%nat /\
  (forall t, sgtin_gtin_int x (Z.of_nat (gtin_len t)) = sgtin_gtin x t) /\
  forall k, (forall v, sgtin_gtin_int x k = Ok v <-> gtin_for_integer k v g) /\ (forall e, sgtin_gtin_int x k = Raise e -> e = ConvertException).
Proof.
  intros H. destruct (sgtin_views u x H) as (g & G & L & _). pose proof H as H'. apply sgtin_iff in H' as (U & _ & i & rest & Ei & K).
  destruct U as (_ & _ & _ & L' & _). rewrite Ei in L'. pose proof (gtin_len14 _ _ _ _ L' K) as L2.
  pose proof G as G'. unfold sgtin_gtin in G'. rewrite gtin_view14 in G' by exact L2. apply ok_same in G'. exists g. split; [exact G|].
  split; [exact L|]. split; [intros t; unfold sgtin_gtin_int, sgtin_gtin; now apply view_of_type|]. intros k. unfold sgtin_gtin_int. rewrite G'. apply int_view_spec, L.
Qed.
Theorem lgtin_integer u x : lgtin_init u = Ok x -> exists g, lgtin_gtin x GTIN14 = Ok g /\ length g = 14%nat /\
  (forall t, lgtin_gtin_int x (Z.of_nat (gtin_len t)) = lgtin_gtin x t) /\
  forall k, (forall v, lgtin_gtin_int x k = Ok v <-> gtin_for_integer k v g) /\ (forall e, lgtin_gtin_int x k = Raise e -> e = ConvertException).
Proof.
  intros H. destruct (lgtin_views u x H) as (g & G & L & _). pose proof H as H'. apply lgtin_iff in H' as (lot & U & _ & _ & i & rest & Ei & K).
  destruct U as (_ & _ & _ & L' & _). rewrite Ei in L'. pose proof (gtin_len14 _ _ _ _ L' K) as L2.
  pose proof G as G'. unfold lgtin_gtin in G'. rewrite gtin_view14 in G' by exact L2. apply ok_same in G'. exists g. split; [exact G|].
  split; [exact L|]. split; [intros t; unfold lgtin_gtin_int, lgtin_gtin; now apply view_of_type|]. intros k. unfold lgtin_gtin_int. rewrite G'. apply int_view_spec, L.
Qed.
