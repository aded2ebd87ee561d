(** tag_uri() succeeds exactly when the coding scheme has room. *)
From Coq Require Import String Lia Setoid.
From Verif.Model Require Import Py Re Regexes Common Base.
From Verif.Model Require Import Adi Cpi Gdti Giai Gid Grai Gsrn Gsrnp Itip Lgtin Sgcn Sgln Sgtin Sscc Usdod Others Parsers.
From Verif.Spec Require Import Spec SpecEscapes SpecGrammar SpecSchemes SpecTags.
From Verif.Proofs Require Import Basics Num ReLemmas Uni Escapes Partition Tables Grammar Ctor CtorA CtorB CtorC CtorAll.

Lemma gs3a3_ascii s : gs3a3_shape s = true -> ascii s.
Proof.
  intros H c I. apply uri_text_iff in H. induction H as [|x s P U IH|h s P U IH].
  - destruct I.
  - destruct I as [<-|I]; [|auto]. destruct P as [P|[P|[P|P]]]; try lia. cbn in P. repeat (destruct P as [<-|P]; [reflexivity|]). destruct P.
  - destruct I as [<-|[<-|I]]; [reflexivity| |auto]. destruct P as [P|[P|P]]; lia.
Qed.
Lemma nc_iff_ascii s : ascii s -> (nc_shape s = true <-> s <> [] /\ forallb is_d s = true /\ ((1 <? length s)%nat && match s with c :: _ => c =? c_0 | [] => false end) = false).
Proof.
  intros A. split.
  - intros H. pose proof (numeral_digits _ H) as [D E]. repeat split; auto. now apply nc_lead.
  - intros (E & D & L). destruct s as [|c s]; [now destruct E|]. cbn [nc_shape]. apply orb_true_iff.
    pose proof (digits_ascii _ D A) as G. cbn [forallb] in D, G. apply andb_true_iff in D as [D1 D2]. apply andb_true_iff in G as [G1 G2]. apply is_digit_iff in G1.
    destruct s as [|d s]; cbn [length] in L.
    + destruct (N.eq_dec c 48) as [->|N]; [now left|]. right. unfold inr. cbn. rewrite !andb_true_r. apply andb_true_iff. rewrite !N.leb_le. lia.
    + right. cbn in L. change c_0 with 48 in L. apply N.eqb_neq in L. apply andb_true_iff. split; [|exact D2]. unfold inr. apply andb_true_iff. rewrite !N.leb_le. lia.
Qed.
Lemma bad_numeric_spec s k : ascii s -> intable s -> exists b, bad_numeric_serial s (Z.of_nat k) = Ok b /\ (b = false <-> serial_fits s (N.of_nat k)).
Proof.
  intros A I43. assert (X : serial_fits s (N.of_nat k) <-> (s <> [] /\ forallb is_d s = true /\ ((1 <? length s)%nat && match s with c :: _ => c =? c_0 | [] => false end) = false) /\ decimal s < 2 ^ N.of_nat k).
  { unfold serial_fits. rewrite numeral_iff, (nc_iff_ascii s A). reflexivity. }
  unfold bad_numeric_serial.
  destruct (isnumeric s) eqn:I; cbn [negb].
  - apply isnumeric_iff in I as [E D]. rewrite (int10_digits s E D I43), bind_Ok, zpow_le.
    destruct (2 ^ N.of_nat k <=? decimal s) eqn:L.
    + exists true. split; [reflexivity|]. apply N.leb_le in L. split; [discriminate|]. rewrite X. intros [_ H]. lia.
    + eexists. split; [reflexivity|]. rewrite X. apply N.leb_gt in L. tauto.
  - exists true. split; [reflexivity|]. split; [discriminate|]. rewrite X. intros [(E & D & _) _].
    assert (isnumeric s = true) by (apply isnumeric_iff; auto). congruence.
Qed.
Lemma component_ascii s : component s -> ascii s.
Proof. intros C. apply component_shape in C as [C _]. now apply gs3a3_ascii. Qed.

Lemma unesc_at_most t s : (length s <= 3 * length (unesc t s))%nat.
Proof.
  revert s. refine (str_ind2 _ _). intros s IH. destruct s as [|c s]; [cbn; lia|]. cbn [unesc length].
  assert (H : (length s <= 3 * length (unesc t s))%nat) by (apply IH; cbn [length]; lia).
  destruct (c =? c_pct); [|cbn [length]; lia].
  destruct s as [|a [|b s]]; try (cbn [length] in *; lia).
  destruct (tfind t a b); [|cbn [length] in *; lia].
  assert (H' : (length s <= 3 * length (unesc t s))%nat) by (apply IH; cbn [length]; lia). cbn [length]. lia.
Qed.
Lemma intable_unescape s : (length (unescape s) <= 20)%nat -> intable s.
Proof.
  intros H. rewrite unescape_spec, replace_uri_escapes_spec in H. apply (intable_le _ 60); [|lia].
  pose proof (unesc_at_most uri_table s). lia.
Qed.
Lemma unesc_length t s : (length (unesc t s) <= length s)%nat.
Proof.
  revert s. refine (str_ind2 _ _). intros s IH. destruct s as [|c s]; [cbn; lia|]. cbn [unesc length].
  assert (H : (length (unesc t s) <= length s)%nat) by (apply IH; cbn [length]; lia).
  destruct (c =? c_pct); [|cbn [length]; lia].
  destruct s as [|a [|b s]]; try (cbn [length] in *; lia).
  destruct (tfind t a b); [|cbn [length] in *; lia].
  assert (H' : (length (unesc t s) <= length s)%nat) by (apply IH; cbn [length]; lia). cbn [length]. lia.
Qed.
Lemma replace_length s : (length (replace_uri_escapes s) <= length s)%nat.
Proof. rewrite replace_uri_escapes_spec. apply unesc_length. Qed.
Lemma exactly_ok {A} (t : A) : succeeds_exactly_if (Ok t) True.
Proof. split; [eauto|tauto]. Qed.
Lemma exactly_check {A} (r : res bool) (t : A) (P : Prop) : (exists b, r = Ok b /\ (b = false <-> P)) ->
  succeeds_exactly_if (let* bad := r in let* _ := raise_if bad ConvertException in Ok t) P.
Proof.
  intros (b & -> & B). cbn [bind]. destruct b; cbn; split; intros H; eauto.
  - apply B in H. discriminate.
  - destruct H. now apply B.
Qed.
Lemma fits_ltb n m (P : Prop) : (m <= n)%nat -> P -> exists b, Ok (n <? m)%nat = Ok b /\ (b = false <-> P).
Proof. intros L H. eexists. split; [reflexivity|]. rewrite Nat.ltb_ge. tauto. Qed.

Lemma giai_96_row L : (6 <= L <= 12)%nat -> exists r, lookup (Z.of_nat L) giai_table_L_96 = Some r /\ (L + rK r = 25)%nat /\ N.of_nat (rN r) = giai_96_bits L.
Proof.
  intros H. assert (C : (L = 6 \/ L = 7 \/ L = 8 \/ L = 9 \/ L = 10 \/ L = 11 \/ L = 12)%nat) by lia.
  repeat destruct C as [C|C]; subst L; eexists; (split; [vm_compute; reflexivity|split; reflexivity]).
Qed.
Lemma giai_202_row L : (6 <= L <= 12)%nat -> exists r, lookup (Z.of_nat L) giai_table_L_202 = Some r /\ (L + rK r = 30)%nat.
Proof.
  intros H. assert (C : (L = 6 \/ L = 7 \/ L = 8 \/ L = 9 \/ L = 10 \/ L = 11 \/ L = 12)%nat) by lia.
  repeat destruct C as [C|C]; subst L; eexists; (split; [vm_compute; reflexivity|reflexivity]).
Qed.
Ltac short := first [apply (intable_le _ 30); lia|apply intable_unescape; lia].
Theorem tag_uri_exact q u : init_of (class_of (req_epc q)) u = Ok (req_epc q) -> succeeds_exactly_if (req_tag_uri q) (coding_has_room q).
Proof.
  destruct q as [x s f|x s f|x s f|x s f|x s|x s f|x s f|x s f|x s f|x s f|x s f|x s f|x s f|x s f]; cbn [req_epc class_of init_of req_tag_uri]; intros I;
  apply lift_ok in I as (y & I & E); injection E as <-; destruct s; cbn [coding_has_room]; try apply exactly_ok.
  - (* cpi-96 *) apply cpi_iff in I as ((U & [C CL] & (t & T & S & R) & L & N & SL) & _). unfold cpi_tag_uri. apply exactly_check.
    apply numeral_iff in N. rewrite (int10_nc _ N). unfold vcond. assert (long (cpi_serial x) = false) as -> by (apply N.ltb_ge; apply (intable_le _ 12); lia). rewrite bind_Ok. eexists. split; [reflexivity|].
    rewrite !orb_false_iff, negb_false_iff. change (2 ^ 31)%Z with (2 ^ Z.of_nat 31)%Z. rewrite zpow_le. change (N.of_nat 31) with 31.
    rewrite N.leb_gt, isnumeric_iff, Z.ltb_ge, numeral_iff. 
    assert (A : ascii (cpi_ref x)).
    { rewrite R. intros c Hc. rewrite escape6_eq in Hc. unfold cpi_escape in Hc. apply in_flat_map in Hc as (d & D & Hc).
      apply S in D. unfold cpi_esc_char in Hc. destruct (d =? 35); [|destruct (d =? 47)]; cbn in Hc; destruct Hc as [<-|Hc]; try lia; try (destruct Hc as [<-|[<-|[]]]; reflexivity); try reflexivity; try destruct Hc. }
    rewrite (nc_iff_ascii _ A). split; intros; repeat split; try tauto; try lia.
  - (* cpi-var *) apply cpi_iff in I as ((U & _ & _ & L & N & SL) & _). unfold cpi_tag_uri. apply exactly_check, fits_ltb; auto.
  - apply gdti_iff in I as ((U & _ & _ & _ & S & L) & _). unfold gdti_tag_uri. apply exactly_check.
    apply (bad_numeric_spec _ 41); [now apply component_ascii|short].
  - apply gdti_iff in I as ((U & _ & _ & _ & S & L) & _). unfold gdti_tag_uri. apply exactly_check, fits_ltb; auto. pose proof (replace_length (gdti_serial x)). lia.
  - apply giai_iff in I as ((ig & U & [C CL] & S & N & L & _) & _). unfold giai_tag_uri. apply exactly_check.
    pose proof (component_ascii _ S) as A. destruct (giai_96_row _ CL) as (r & R & RK & RN).
    destruct (isnumeric (giai_asset x)) eqn:Q; cbn [negb].
    + rewrite R. cbn [of_option]. rewrite bind_Ok. destruct (_ <? _)%nat eqn:K.
      * exists true. split; [reflexivity|]. apply Nat.ltb_lt in K. split; [discriminate|]. intros [_ H]. lia.
      * apply Nat.ltb_ge in K. destruct (bad_numeric_spec (giai_asset x) (rN r) A ltac:(short)) as (b & -> & B). exists b. split; [reflexivity|]. rewrite B, RN.
        split; [intros H; split; [exact H|lia]|intros [H _]; exact H].
    + exists true. split; [reflexivity|]. split; [discriminate|]. intros [[H _] _]. apply numeral_iff, numeral_digits in H as [D E].
      assert (isnumeric (giai_asset x) = true) by (apply isnumeric_iff; auto). congruence.
  - apply giai_iff in I as ((ig & U & [C CL] & S & N & L & _) & _). unfold giai_tag_uri. apply exactly_check.
    destruct (giai_202_row _ CL) as (r & R & RK). rewrite R. cbn [of_option]. rewrite bind_Ok. apply fits_ltb; [|exact Logic.I].
    pose proof (replace_length (giai_asset x)). lia.
  - apply grai_iff in I as ((U & _ & _ & _ & S & L) & _). unfold grai_tag_uri. apply exactly_check.
    apply (bad_numeric_spec _ 38); [now apply component_ascii|short].
  - apply grai_iff in I as ((U & _ & _ & _ & S & L) & _). unfold grai_tag_uri. apply exactly_check, fits_ltb; auto. pose proof (replace_length (grai_serial x)). lia.
  - apply itip_iff in I as ((U & _ & _ & _ & _ & _ & _ & _ & _ & S & L) & _). unfold itip_tag_uri. apply exactly_check.
    apply (bad_numeric_spec _ 38); [now apply component_ascii|short].
  - apply itip_iff in I as ((U & _ & _ & _ & _ & _ & _ & _ & _ & S & L) & _). unfold itip_tag_uri. apply exactly_check, fits_ltb; auto. rewrite <- unescape_spec. lia.
  - apply sgln_iff in I as ((U & _ & _ & _ & S & L) & _). unfold sgln_tag_uri. apply exactly_check.
    apply (bad_numeric_spec _ 41); [now apply component_ascii|short].
  - apply sgln_iff in I as ((U & _ & _ & _ & S & L) & _). unfold sgln_tag_uri. apply exactly_check, fits_ltb; auto. rewrite <- unescape_spec. lia.
  - apply sgtin_iff in I as ((U & _ & _ & _ & S & L) & _). unfold sgtin_tag_uri. apply exactly_check.
    apply (bad_numeric_spec _ 38); [now apply component_ascii|short].
Qed.
