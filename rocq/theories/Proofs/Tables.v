(** Soundness of the partition tables of all schemes. *)
From Verif.Model Require Import Py Re Regexes Common Base Sgtin Sscc Gsrn Gsrnp Sgln Grai Gdti Giai Cpi Sgcn Itip.
From Verif.Spec Require Import Spec SpecTables.
From Verif.Proofs Require Import Basics Num Uni Partition.

Lemma sound_of rows (width : nat -> nat) ndigits (fits : row -> Prop) : rows_ok rows = true ->
  forallb (fun r => (rM r + rN r =? width (rL r))%nat && (rL r + rK r =? ndigits)%nat) rows = true ->
  (forall r, In r rows -> fits r) ->
  sound_table (table_L rows) (table_P rows) width ndigits fits.
Proof.
  intros Hr Hc Hf. split; [|split].
  - intros L HL. destruct (lookup_L _ _ Hr HL) as (r & Hin & H1 & H2 & H3 & (FP & FL & FM & FN & FB)).
    exists r. pose proof (forallb_In _ _ _ Hc Hin) as Hx. cbv beta in Hx. apply andb_true_iff in Hx.
    destruct Hx as [Hx1 Hx2]. apply Nat.eqb_eq in Hx1, Hx2. rewrite <- H3 at 3.
    repeat split; try assumption; try lia.
    + intros cp Hd Hlen. eapply N.lt_le_trans; [apply decimal_bound|]. rewrite Hlen, <- H3. exact FB.
    + now apply Hf.
  - intros k r H. destruct (rows_ok_shape _ Hr) as (r0 & r1 & r2 & r3 & r4 & r5 & r6 & -> & HP & HL & HF).
    unfold table_L in H. cbn [combine lookup] in H. decompose [and] HL.
    revert H. repeat match goal with |- (if (?x =? ?y)%Z then _ else _) = _ -> _ => destruct (Z.eqb_spec x y) as [->|] end;
      intros [= <-]; (split; [lia|apply HF; cbn; tauto]).
  - intros k r H. destruct (lookup_P _ _ _ Hr H) as (_ & -> & H2 & _). auto.
Qed.

Lemma numeric_fits rows : forallb (fun r => 10 ^ N.of_nat (rK r) <=? 2 ^ N.of_nat (rN r)) rows = true ->
  forall r, In r rows -> numeric_reference_fits r.
Proof.
  intros H r Hr ref Hd Hl. pose proof (forallb_In _ _ _ H Hr) as Hx. cbv beta in Hx. apply N.leb_le in Hx.
  eapply N.lt_le_trans; [apply decimal_bound|]. now rewrite Hl.
Qed.
Lemma text_fits w t rows : forallb (fun r => (w * rK r + t <=? rN r)%nat) rows = true ->
  forall r, In r rows -> text_reference_fits w t r.
Proof.
  intros H r Hr. pose proof (forallb_In _ _ _ H Hr) as Hx. cbv beta in Hx. apply Nat.leb_le in Hx. exact Hx.
Qed.

Ltac tbl := apply sound_of; [vm_compute; reflexivity|vm_compute; reflexivity|];
  first [apply numeric_fits; vm_compute; reflexivity | apply text_fits; vm_compute; reflexivity].

Lemma sgtin_table_sound : sound_table sgtin_table_L sgtin_table_P (fun _ => 44%nat) 13 numeric_reference_fits.
Proof. tbl. Qed.
Lemma itip_table_sound : sound_table itip_table_L itip_table_P (fun _ => 44%nat) 13 numeric_reference_fits.
Proof. tbl. Qed.
Lemma sscc_table_sound : sound_table sscc_table_L sscc_table_P (fun _ => 58%nat) 17 numeric_reference_fits.
Proof. tbl. Qed.
Lemma gsrn_table_sound : sound_table gsrn_table_L gsrn_table_P (fun _ => 58%nat) 17 numeric_reference_fits.
Proof. tbl. Qed.
Lemma gsrnp_table_sound : sound_table gsrnp_table_L gsrnp_table_P (fun _ => 58%nat) 17 numeric_reference_fits.
Proof. tbl. Qed.
Lemma sgln_table_sound : sound_table sgln_table_L sgln_table_P (fun _ => 41%nat) 12 numeric_reference_fits.
Proof. tbl. Qed.
Lemma gdti_table_sound : sound_table gdti_table_L gdti_table_P (fun _ => 41%nat) 12 numeric_reference_fits.
Proof. tbl. Qed.
Lemma sgcn_table_sound : sound_table sgcn_table_L sgcn_table_P (fun _ => 41%nat) 12 numeric_reference_fits.
Proof. tbl. Qed.
Lemma grai_table_sound : sound_table grai_table_L grai_table_P (fun _ => 44%nat) 12 numeric_reference_fits.
Proof. tbl. Qed.
Lemma cpi_96_table_sound : sound_table cpi_table_L_96 cpi_table_P_96 (fun _ => 51%nat) 15 numeric_reference_fits.
Proof. tbl. Qed.
Lemma cpi_var_table_sound : sound_table cpi_table_L_var cpi_table_P_var
  (fun L => match L with 12 => 154 | 11 => 157 | 10 => 160 | 9 => 162 | 8 => 165 | 7 => 168 | _ => 170 end%nat) 30 (text_reference_fits 6 6).
Proof. tbl. Qed.
Lemma giai_202_table_sound : sound_table giai_table_L_202 giai_table_P_202 (fun _ => 188%nat) 30 (text_reference_fits 7 0).
Proof. tbl. Qed.
Lemma giai_96_table_sound : sound_table giai_table_L_96 giai_table_P_96 (fun _ => 82%nat) 25 (fun _ => True).
Proof. apply sound_of; [vm_compute; reflexivity|vm_compute; reflexivity|auto]. Qed.
(** a K-digit reference may overflow the N bits of its giai-96 row *)
Lemma giai_96_overflow : exists r ref, lookup 12 giai_table_L_96 = Some r /\ digits ref /\ length ref = rK r /\
  ~ (decimal ref < 2 ^ N.of_nat (rN r)).
Proof.
  exists (mkRow 0 40 12 42 13), (repeat 57 13). split; [reflexivity|]. split.
  - apply digits_iff. reflexivity.
  - split; [reflexivity|]. vm_compute. discriminate.
Qed.
