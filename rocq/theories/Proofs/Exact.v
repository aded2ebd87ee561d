(** Exactly which requests survive being written on a tag and read back. *)
From Coq Require Import String.
From Coq Require Import Lia Setoid.
From Verif.Model Require Import Py Re Regexes Common Base.
From Verif.Model Require Import Adi Cpi Gdti Giai Gid Grai Gsrn Gsrnp Itip Sgcn Sgln Sgtin Sscc Usdod Parsers.
From Verif.Spec Require Import Spec SpecEscapes SpecGrammar SpecSchemes SpecTags SpecLayout SpecCoding SpecExact.
From Verif.Proofs Require Import Basics Num ReLemmas Uni Escapes Codecs Codecs2 Partition Grammar Ctor CtorA CtorB CtorC CtorAll TagUri TagFits Layout CodecSpec BinC BinD Decode DecodeA DecodeB Reencode BinAll Filter NumSerial ElementAccept.

Lemma binary_ok x z : forallb is_bit x = true -> binary_to_int x = Ok z -> z = Z.of_N (sval 2 x) /\ x <> [].
Proof.
  intros B H. destruct x as [|c x]; [discriminate H|]. rewrite binary_to_int_spec in H by (discriminate || exact B). now injection H as <-.
Qed.
Lemma sval2_fits x w : forallb is_bit x = true -> (length x <= w)%nat -> sval 2 x < 2 ^ N.of_nat w.
Proof.
  intros B L. eapply N.lt_le_trans; [apply (sval_bound 2), forallb_bit_in_base2, B|]. apply N.pow_le_mono_r; lia.
Qed.
Lemma dec7_canonical l : canonical_text (flat_map dec7 l).
Proof.
  exists (filter (fun c => negb (c =? 0)) (map (sval 2) l)). unfold escape. induction l as [|g l IH]; [reflexivity|].
  cbn [flat_map map filter]. rewrite IH. unfold dec7. destruct (sval 2 g =? 0); reflexivity.
Qed.
Lemma decoded_canonical b s : forallb is_bit b = true -> decode_string b = Ok s -> canonical_text s.
Proof. intros B H. rewrite decode_string_bits in H by exact B. injection H as <-. apply dec7_canonical. Qed.
(** a piece of a canonical text, up to a colon, is one *)
Lemma canonical_cut a i : canonical_text (a ++ 58 :: i) -> ~ In 58 a -> canonical_text a.
Proof.
  intros [t E] NI. destruct (escape_colon t a i NI (eq_sym E)) as (t1 & _ & _ & -> & _). now exists t1.
Qed.
(** what a partition is read as *)
Lemma partition_read rows b (unp sp six : bool) s : rows_ok rows = true -> forallb is_bit b = true ->
  decode_partition_table b (table_P rows) unp sp six = Ok s ->
  exists r C D, In r rows /\ s = C ++ [c_dot] ++ D /\ forallb is_digit C = true /\ length C = rL r /\ row_fine r /\
    (sp = true -> canonical_text D) /\
    (sp = false -> six = false -> forallb is_digit D = true /\ (unp = true -> rK r <> 0%nat -> exists d, D = ndec d /\ d < 2 ^ N.of_nat (rN r))).
Proof.
  intros R B H. assert (Bs : forall i j, forallb is_bit (sl i j b) = true) by (intros; now apply forallb_sl).
  unfold decode_partition_table in H. destruct (binary_to_int (firstn 3 b)) as [p|] eqn:P; [|discriminate H]. cbn [bind] in H.
  destruct (lookup p (table_P rows)) as [r|] eqn:K; [|discriminate H]. cbn [bind of_option] in H.
  apply lookup_P in K as (IN & _ & _ & F); [|exact R].
  destruct (binary_to_int (sl 3 (3 + rM r) b)) as [c|] eqn:C; [|discriminate H]. cbn [bind] in H.
  apply binary_ok in C as [-> _]; [|apply Bs]. set (c := sval 2 (sl 3 (3 + rM r) b)) in *. rewrite dec_of_N in H.
  set (db := sl (3 + rM r) (3 + rM r + rN r) b) in *. assert (Bd : forallb is_bit db = true) by apply Bs.
  assert (Ld : (length db <= rN r)%nat) by (unfold db; rewrite length_sl; lia).
  set (cd := negb (unp || sp || six)) in *.
  set (dr := if sp then _ else _) in H. destruct dr as [d|] eqn:DR; [|discriminate H]. cbn [bind] in H.
  destruct (raise_if (negb (Z.of_N c <? 10 ^ Z.of_nat (rL r))%Z) ConvertException) as [[]|] eqn:CC; [|discriminate H]. cbn [bind] in H.
  destruct (if negb match d with [] => true | _ => false end && cd then _ else _) as [[]|]; [|discriminate H]. cbn [bind] in H. injection H as <-.
  assert (C10 : c < 10 ^ N.of_nat (rL r)).
  { unfold raise_if in CC. destruct (negb _) eqn:X in CC; [discriminate CC|]. apply negb_false_iff, Z.ltb_lt in X.
    rewrite zpow10 in X. lia. }
  exists r, (padl c_0 (rL r) (ndec c)), (padl c_0 (if cd then rK r else 0%nat) d).
  split; [exact IN|]. split; [reflexivity|]. split; [apply forallb_padl; [reflexivity|apply ndec_digits]|].
  destruct F as (F1 & F2 & F3 & F4 & F5).
  split; [rewrite length_padl; pose proof (ndec_length c (rL r) ltac:(lia) C10); lia|]. split; [repeat split; tauto || lia|].
  split.
  - intros ->. unfold cd. rewrite orb_true_r. cbn [orb negb]. rewrite padl_ge by lia. unfold dr in DR. now apply decoded_canonical in DR.
  - intros -> ->. unfold dr in DR. destruct (rK r =? 0)%nat eqn:K0; cbn [negb] in DR.
    + injection DR as <-. split; [|intros _ X; apply Nat.eqb_eq in K0; contradiction]. apply forallb_padl; reflexivity.
    + destruct (binary_to_int db) as [z|] eqn:Z0; [|discriminate DR]. cbn [bind] in DR. injection DR as <-. apply binary_ok in Z0 as [-> _]; [|exact Bd].
      rewrite dec_of_N. split; [apply forallb_padl; [reflexivity|apply ndec_digits]|].
      intros -> _. unfold cd. cbn [orb negb]. rewrite padl_ge by lia. exists (sval 2 db). split; [reflexivity|now apply sval2_fits].
Qed.
Lemma digit_ascii s : forallb is_digit s = true -> ascii s.
Proof. intros H c I. apply (forallb_In _ _ _ H) in I. apply is_digit_iff in I. lia. Qed.
Lemma ndec_ascii n : ascii (ndec n).
Proof. apply digit_ascii, ndec_digits. Qed.
Lemma lit_ascii (l : string) : forallb (fun c => c <? 128) (lit l) = true -> ascii (lit l).
Proof. intros H c I. apply (forallb_In _ _ _ H) in I. cbv beta in I. lia. Qed.
Lemma dot_ascii : ascii [c_dot].
Proof. intros c [<-|[]]. reflexivity. Qed.
Lemma six_text_ascii t : six_bit_text t -> ascii (escape6 t).
Proof. intros H. now apply six_ascii, six_bit_text_iff. Qed.
Lemma six_no_dot t : six_bit_text t -> ~ In c_dot (escape6 t).
Proof.
  intros T6 X. unfold escape6 in X. apply in_flat_map in X as (c & X & Y). apply T6 in X.
  destruct (N.eqb_spec c 35) as [->|]; [now repeat destruct Y as [Y|Y]|]. destruct (N.eqb_spec c 47) as [->|]; [now repeat destruct Y as [Y|Y]|].
  destruct Y as [Y|[]]. unfold c_dot in Y. lia.
Qed.
Lemma dec_plain z : ascii (dec z) /\ ~ In c_dot (dec z).
Proof.
  destruct z as [|p|p]; [split; [apply (ndec_ascii 0)|apply (ndec_no_dot 0)]|split; [apply (ndec_ascii (N.pos p))|apply (ndec_no_dot (N.pos p))]|].
  split; [intros c [<-|I]; [reflexivity|exact (ndec_ascii (N.pos p) c I)]|intros [I|I]; [discriminate I|exact (ndec_no_dot (N.pos p) I)]].
Qed.
Lemma fixed_two q z : q <> [] -> forallb is_bit q = true -> length q = 7%nat -> decode_fixed_width_integer q = Ok z ->
  forallb is_digit z = true /\ length z = 2%nat.
Proof.
  intros Q1 Q2 Q3 Z. rewrite decode_fixed_bits in Z by (assumption || (apply (intable_le _ 7); lia)). rewrite Q3 in Z.
  change (fixed_width_digits 7) with 2%nat in Z. destruct (N.leb_spec (10 ^ N.of_nat 2) (sval 2 q)) as [|H]; [discriminate Z|]. apply ok_inj in Z. subst z.
  split; [apply forallb_padl; [reflexivity|apply ndec_digits]|]. rewrite length_padl. pose proof (ndec_length (sval 2 q) 2 ltac:(lia) H). lia.
Qed.
(** the table row is the one of the company prefix *)
Lemma row_of rows width tot r : rows_std rows width tot = true -> In r rows ->
  rN r = (width - prefix_bits (rL r))%nat /\ (rL r + rK r = tot)%nat.
Proof.
  intros R I. unfold rows_std in R. apply andb_true_iff in R as [_ R]. apply (forallb_In _ _ _ R) in I. cbv beta in I.
  rewrite !andb_true_iff, !Nat.eqb_eq in I. tauto.
Qed.
Lemma kind_class q : tag_class (req_kind q) = class_of (req_epc q).
Proof. destruct q; destruct s; reflexivity. Qed.

(** what a tag is read as, fits the fields of the tag *)
Theorem read_exact q b : forallb is_bit b = true -> firstn 8 b = tag_header (req_kind q) ->
  from_binary_of (class_of (req_epc q)) b = Ok (req_epc q) ->
  ascii (epc_uri (req_epc q)) /\ field_room q /\ canonical_request q /\ two_digit_pieces q.
Proof.
  intros B H E. rewrite <- kind_class in E. rewrite (from_binary_body _ b B H) in E. destruct (too_short _ b) eqn:T; [discriminate E|].
  pose proof (after_filter_bit (req_kind q) b B) as Br.
  assert (Lr : forall n, tag_size (req_kind q) = Some n -> length (after_filter (req_kind q) b) = (n - 8 - filter_width (req_kind q))%nat)
    by (intros n Sz; exact (after_filter_length _ n b Sz T)).
  set (r := after_filter (req_kind q) b) in *. destruct (k_body _ r) as [s|] eqn:K; [|discriminate E]. cbn [bind] in E.
  pose proof (init_class _ _ _ E) as (_ & EU). rewrite EU. clear H T B EU.
  Ltac pr rows G := let C := fresh "C" in let D := fresh "D" in let row := fresh "row" in
    apply (partition_read rows) in G as (row & C & D & IN & -> & DC & LC & RF & CAN & DD); [|vm_compute; reflexivity|bits].
  Ltac num V := rewrite numeric_text_bits in V by (bits || (apply nonempty_len; rewrite ?firstn_length, ?skipn_length, ?length_sl; lia)); apply ok_inj in V; subst.
  Ltac asc1 := rewrite ?ascii_app; repeat split; first [apply lit_ascii; reflexivity|apply dot_ascii|apply digit_ascii; assumption|apply ndec_ascii|idtac].
  Ltac fits Lr := apply number_fits; change 38 with (N.of_nat 38); change 41 with (N.of_nat 41); change 31 with (N.of_nat 31);
    apply sval2_fits; [bits|rewrite ?firstn_length, ?skipn_length, ?length_sl; lia].
  destruct q; destruct s0; cbn [req_kind] in *; try specialize (Lr _ eq_refl); cbn [tag_size filter_width] in Lr;
    cbn [tag_class k_body init_of req_epc field_room coding_has_room canonical_request text_part two_digit_pieces] in *;
    apply lift_ok in E as (y & I & Y); injection Y as <-.
  - (* adi *) apply adi_iff in I as (U & _). destruct U as (U & CA & (t & T6 & _ & PE & _) & (t2 & _ & T62 & _ & _ & _ & SE & _)).
    split; [|now repeat split]. rewrite U, PE, SE. asc1; auto using cage_ascii, six_text_ascii.
  - (* cpi 96 *) apply dotted2_ok in K as (g & v & G & V & ->). pr cpi_rows_96 G. destruct (DD eq_refl eq_refl) as [DD' UN].
    num V. apply cpi_iff in I as (U & _). destruct U as (U & (CP & _) & (t & _ & T6 & RE) & _).
    apply dots3 in U as (U1 & U2 & U3); auto using digit_no_dot, digits_spec_no_dot; [|rewrite RE; now apply six_no_dot].
    destruct (row_of cpi_rows_96 51 15 row eq_refl IN) as [RN RK]. destruct RF as (_ & RF & _).
    destruct (UN eq_refl ltac:(lia)) as (d & -> & dN). rewrite U1, U2, U3, LC.
    split; [asc1|]. rewrite RN in dN. apply number_fits in dN as [N1 N2].
    assert (X : serial_fits (ndec (sval 2 (skipn 54 r))) 31) by fits Lr. destruct X as [_ X]. now repeat split.
  - (* cpi var *) destruct (decode_partition_table r _ _ _ _) as [c|] eqn:G; [|discriminate K]. cbn [bind] in K.
    change cpi_table_P_var with (table_P cpi_rows_var) in G. pr cpi_rows_var G.
    destruct (binary_to_int (firstn 3 r)) as [p|] eqn:P; [|discriminate K]. cbn [bind] in K.
    destruct (lookup p cpi_table_P_var) as [row'|]; [|discriminate K]. cbn [bind of_option] in K.
    set (sb := if (0 <? _)%nat then _ else _) in K. destruct (binary_to_int sb) as [i|] eqn:SI; [|discriminate K]. cbn [bind] in K. injection K as <-.
    apply cpi_iff in I as (U & _). destruct U as (U & (CP & _) & (t & _ & T6 & RE) & _ & NS & _). pose proof U as U0.
    change (scheme_prefix C_CPI) with (lit "urn:epc:id:cpi:") in *. apply app_inv_head in U. rewrite <- !app_assoc in U.
    apply dot_split in U as (U1 & U); auto using digit_no_dot, digits_spec_no_dot.
    assert (AI : ascii (dec i) /\ ~ In c_dot (dec i)).
    { apply dec_plain. }
    destruct AI as [AI ND]. apply dot_split_last in U as (_ & U3); auto using numeral_no_dot.
    split; [|now repeat split]. rewrite U0, <- U1, <- U3, RE. asc1; auto using six_text_ascii.
  - (* gdti num *) apply dotted2_ok in K as (g & v & G & V & ->). pr gdti_rows G. destruct (DD eq_refl eq_refl) as [DD' _].
    num V.
    apply gdti_iff in I as (U & _). destruct U as (U & (CP & _) & IT & _ & CS & _).
    apply dots3 in U as (U1 & U2 & U3); auto using digit_no_dot, digits_spec_no_dot. rewrite U3 in *.
    split; [asc1|]. split; [fits Lr|]. split; [exact Logic.I|exact Logic.I].
  - (* gdti text *) apply dotted2_ok in K as (g & v & G & V & ->). pr gdti_rows G. destruct (DD eq_refl eq_refl) as [DD' _].
    apply decoded_canonical in V; [|bits].
    apply gdti_iff in I as (U & _). destruct U as (U & (CP & _) & IT & _ & CS & _).
    apply dots3 in U as (U1 & U2 & U3); auto using digit_no_dot, digits_spec_no_dot. rewrite U3 in *.
    split; [asc1; now apply component_ascii|]. split; [exact Logic.I|]. split; [exact V|exact Logic.I].
  - (* giai 96 *) pr giai_rows_96 K. destruct (DD eq_refl eq_refl) as [DD' UN]. split; [asc1|].
    apply giai_iff in I as ((ig & U) & _). destruct U as (U & (CP & _) & CA & NC & _ & IG).
    apply dots2 in U as (U1 & U2); auto using digit_no_dot, digits_spec_no_dot.
    assert (ig = []) as ->.
    { destruct IG as [->|(i & -> & _)]; [reflexivity|]. exfalso. assert (X : In 58 D) by (rewrite <- U2; apply in_or_app; right; now left).
      rewrite forallb_forall in DD'. apply DD' in X. discriminate. }
    rewrite app_nil_r in U2. destruct (row_of giai_rows_96 82 25 row eq_refl IN) as [RN RK]. destruct RF as (_ & RF & _).
    destruct (UN eq_refl ltac:(lia)) as (d & -> & dN). rewrite U1, U2, LC. rewrite RN in dN.
    split; [|now repeat split].
    assert (X : N.of_nat (82 - prefix_bits (rL row)) = giai_96_bits (rL row) /\ 2 ^ giai_96_bits (rL row) <= 10 ^ N.of_nat (25 - rL row)).
    { assert (O : (rL row = 6 \/ rL row = 7 \/ rL row = 8 \/ rL row = 9 \/ rL row = 10 \/ rL row = 11 \/ rL row = 12)%nat) by lia.
      repeat destruct O as [O|O]; rewrite O; (split; [reflexivity|vm_compute; discriminate]). }
    destruct X as [X1 X2]. rewrite X1 in dN. split; [now apply number_fits|].
    pose proof (ndec_length d (25 - rL row) ltac:(lia) ltac:(lia)). lia.
  - (* giai 202 *) change giai_table_P_202 with (table_P giai_rows_202) in K. pr giai_rows_202 K. specialize (CAN eq_refl).
    apply giai_iff in I as ((ig & U) & _). destruct U as (U & (CP & _) & CA & NC & _ & IG). pose proof U as U0.
    apply dots2 in U as (U1 & U2); auto using digit_no_dot, digits_spec_no_dot.
    split; [|split; [exact Logic.I|split; [|exact Logic.I]]].
    + asc1. rewrite <- U2. apply ascii_app. split; [now apply component_ascii|]. destruct IG as [->|(i & -> & UT)]; [intros ? []|].
      apply uri_text_iff, gs3a3_ascii in UT. intros c [<-|X]; [reflexivity|now apply UT].
    + rewrite <- U2 in CAN. destruct IG as [->|(i & -> & _)]; [now rewrite app_nil_r in CAN|]. exact (canonical_cut _ _ CAN NC).
  - (* gid *) apply dotted2_ok in K as (m & v & M & V & ->). apply dotted2_ok in V as (o & v' & O & V & ->).
    num M. num O. num V. split; [asc1|]. now repeat split.
  - (* grai num *) apply dotted2_ok in K as (g & v & G & V & ->). pr grai_rows G. destruct (DD eq_refl eq_refl) as [DD' _].
    num V.
    apply grai_iff in I as (U & _). destruct U as (U & (CP & _) & IT & _ & CS & _).
    apply dots3 in U as (U1 & U2 & U3); auto using digit_no_dot, digits_spec_no_dot. rewrite U3 in *.
    split; [asc1|]. split; [fits Lr|]. split; [exact Logic.I|exact Logic.I].
  - (* grai text *) apply dotted2_ok in K as (g & v & G & V & ->). pr grai_rows G. destruct (DD eq_refl eq_refl) as [DD' _].
    apply decoded_canonical in V; [|bits].
    apply grai_iff in I as (U & _). destruct U as (U & (CP & _) & IT & _ & CS & _).
    apply dots3 in U as (U1 & U2 & U3); auto using digit_no_dot, digits_spec_no_dot. rewrite U3 in *.
    split; [asc1; now apply component_ascii|]. split; [exact Logic.I|]. split; [exact V|exact Logic.I].
  - (* gsrn *) pr gsrn_rows K. destruct (DD eq_refl eq_refl) as [DD' _]. split; [asc1|]. now repeat split.
  - (* gsrnp *) pr gsrnp_rows K. destruct (DD eq_refl eq_refl) as [DD' _]. split; [asc1|]. now repeat split.
  - (* itip num *) apply dotted2_ok in K as (g & v & G & V & ->). apply dotted2_ok in V as (pc & v' & Pc & V & ->). apply dotted2_ok in V as (tt' & v & Tt & V & ->).
    pr itip_rows G. destruct (DD eq_refl eq_refl) as [DD' _].
    num V.
    apply fixed_two in Pc as [P1 P2]; [|apply nonempty_len; rewrite length_sl; lia|bits|rewrite length_sl; lia].
    apply fixed_two in Tt as [T1 T2]; [|apply nonempty_len; rewrite length_sl; lia|bits|rewrite length_sl; lia].
    apply itip_iff in I as (U & _). destruct U as (U & (CP & _) & IT & PI & TO & _ & _ & _ & _ & CS & _).
    change (scheme_prefix C_ITIP) with (lit "urn:epc:id:itip:") in *. apply app_inv_head in U. rewrite <- !app_assoc in U.
    apply dot_split in U as [U1 U]; auto using digit_no_dot, digits_spec_no_dot.
    apply dot_split in U as [U2 U]; auto using digit_no_dot, digits_spec_no_dot.
    apply dot_split in U as [U3 U]; auto using digit_no_dot, digits_spec_no_dot.
    apply dot_split in U as [U4 U5]; auto using digit_no_dot, digits_spec_no_dot.
    rewrite <- U5 in *. rewrite <- U3, <- U4.
    split; [asc1|]. split; [fits Lr|]. split; [exact Logic.I|now split].
  - (* itip text *) apply dotted2_ok in K as (g & v & G & V & ->). apply dotted2_ok in V as (pc & v' & Pc & V & ->). apply dotted2_ok in V as (tt' & v & Tt & V & ->).
    pr itip_rows G. destruct (DD eq_refl eq_refl) as [DD' _].
    apply decoded_canonical in V; [|bits].
    apply fixed_two in Pc as [P1 P2]; [|apply nonempty_len; rewrite length_sl; lia|bits|rewrite length_sl; lia].
    apply fixed_two in Tt as [T1 T2]; [|apply nonempty_len; rewrite length_sl; lia|bits|rewrite length_sl; lia].
    apply itip_iff in I as (U & _). destruct U as (U & (CP & _) & IT & PI & TO & _ & _ & _ & _ & CS & _).
    change (scheme_prefix C_ITIP) with (lit "urn:epc:id:itip:") in *. apply app_inv_head in U. rewrite <- !app_assoc in U.
    apply dot_split in U as [U1 U]; auto using digit_no_dot, digits_spec_no_dot.
    apply dot_split in U as [U2 U]; auto using digit_no_dot, digits_spec_no_dot.
    apply dot_split in U as [U3 U]; auto using digit_no_dot, digits_spec_no_dot.
    apply dot_split in U as [U4 U5]; auto using digit_no_dot, digits_spec_no_dot.
    rewrite <- U5 in *. rewrite <- U3, <- U4.
    split; [asc1; now apply component_ascii|]. split; [exact Logic.I|]. split; [exact V|now split].
  - (* sgcn *) apply dotted2_ok in K as (g & v & G & V & ->). pr sgcn_rows G. destruct (DD eq_refl eq_refl) as [DD' _].
    rewrite decode_numeric_bits in V by (bits || (apply nonempty_len; rewrite skipn_length; lia) || (apply (intable_le _ 100); [rewrite skipn_length; lia|lia])).
    destruct (ndec (sval 2 (skipn 44 r))) as [|c0 [|d0 s0']] eqn:ED; try discriminate V.
    destruct (N.eqb_spec c0 c_1) as [->|]; [|discriminate V]. apply ok_inj in V. subst v.
    assert (DS : forallb is_digit (d0 :: s0') = true).
    { pose proof (ndec_digits (sval 2 (skipn 44 r))) as Q. rewrite ED in Q. cbn [forallb] in Q. now apply andb_true_iff in Q as [_ Q]. }
    split; [asc1|]. now repeat split.
  - (* sgln num *) apply dotted2_ok in K as (g & v & G & V & ->). pr sgln_rows G. destruct (DD eq_refl eq_refl) as [DD' _].
    num V.
    apply sgln_iff in I as (U & _). destruct U as (U & (CP & _) & IT & _ & CS & _).
    apply dots3 in U as (U1 & U2 & U3); auto using digit_no_dot, digits_spec_no_dot. rewrite U3 in *.
    split; [asc1|]. split; [fits Lr|]. split; [exact Logic.I|exact Logic.I].
  - (* sgln text *) apply dotted2_ok in K as (g & v & G & V & ->). pr sgln_rows G. destruct (DD eq_refl eq_refl) as [DD' _].
    apply decoded_canonical in V; [|bits].
    apply sgln_iff in I as (U & _). destruct U as (U & (CP & _) & IT & _ & CS & _).
    apply dots3 in U as (U1 & U2 & U3); auto using digit_no_dot, digits_spec_no_dot. rewrite U3 in *.
    split; [asc1; now apply component_ascii|]. split; [exact Logic.I|]. split; [exact V|exact Logic.I].
  - (* sgtin num *) apply dotted2_ok in K as (g & v & G & V & ->). pr sgtin_rows G. destruct (DD eq_refl eq_refl) as [DD' _].
    num V.
    apply sgtin_iff in I as (U & _). destruct U as (U & (CP & _) & IT & _ & CS & _).
    apply dots3 in U as (U1 & U2 & U3); auto using digit_no_dot, digits_spec_no_dot. rewrite U3 in *.
    split; [asc1|]. split; [fits Lr|]. split; [exact Logic.I|exact Logic.I].
  - (* sgtin text *) apply dotted2_ok in K as (g & v & G & V & ->). pr sgtin_rows G. destruct (DD eq_refl eq_refl) as [DD' _].
    apply decoded_canonical in V; [|bits].
    apply sgtin_iff in I as (U & _). destruct U as (U & (CP & _) & IT & _ & CS & _).
    apply dots3 in U as (U1 & U2 & U3); auto using digit_no_dot, digits_spec_no_dot. rewrite U3 in *.
    split; [asc1; now apply component_ascii|]. split; [exact Logic.I|]. split; [exact V|exact Logic.I].
  - (* sscc *) pr sscc_rows K. destruct (DD eq_refl eq_refl) as [DD' _]. split; [asc1|]. now repeat split.
  - (* usdod *) apply dotted2_ok in K as (g & v & G & V & ->). num V. apply usdod_iff in I as (U & _). destruct U as (U & CT & NU & _).
    change (scheme_prefix C_USDOD) with (lit "urn:epc:id:usdod:") in *. apply app_inv_head in U.
    apply dot_split_last in U as (U1 & U2); auto using ndec_no_dot, numeral_no_dot.
    split; [|now repeat split]. asc1. rewrite U1. now apply cage_ascii.
Qed.

Lemma room_field q u : init_of (class_of (req_epc q)) u = Ok (req_epc q) -> coding_has_room q -> field_room q.
Proof.
  intros I R. destruct q; try exact R. destruct s; [|exact R]. cbn [class_of req_epc init_of] in I. apply lift_ok in I as (y & I & Y). injection Y as <-.
  apply cpi_iff in I as ((_ & C & _) & _). destruct R as (R1 & R2 & R3). split; [exact R1|]. split; [now apply cpi_96_bound|exact R3].
Qed.
Lemma field_written q u : init_of (class_of (req_epc q)) u = Ok (req_epc q) -> field_room q ->
  canonical_request q -> filter_fits q -> pieces_fit q ->
  exists b, req_binary q = Ok b /\ bitstring b /\
    (class_of (req_epc q) <> C_ADI -> from_binary_of (class_of (req_epc q)) b = init_of (class_of (req_epc q)) (ascii_form (core_uri q u))) /\
    (forall x s f, q = T_ADI x s f -> (adi_from_binary b = Ok x <-> no_early_zeros (adi_part x))).
Proof.
  intros I R K F P. destruct (room_dec q) as [R'|R'].
  - destruct (proj1 (tag_uri_exact q u I) R') as [t T]. destruct (binary_written q u t I T K F P) as (b & B1 & _ & B2 & _ & B3).
    exists b. split; [exact B1|]. split; [exact B2|]. specialize (B3 [] ltac:(intros ? [])). rewrite app_nil_r in B3. exact B3.
  - destruct q; try contradiction. destruct s; [|contradiction]. cbn [class_of req_epc init_of] in *. apply lift_ok in I as (y & I & Y). injection Y as <-.
    destruct R as (R1 & R2 & R3). destruct (coded_written E_CPI _ _ _ _ _ _ (cpi_96_coded_gen u x f I R1 R2 R3 F)) as (b & B1 & _ & B3 & _ & B5).
    exists b. split; [exact B1|]. split; [exact B3|]. split; [|discriminate]. intros _. specialize (B5 []). rewrite app_nil_r in B5. exact B5.
Qed.

Lemma core_ignored x u : giai_init u = Ok x -> u = ascii_form (giai_core x) -> nothing_ignored u.
Proof.
  intros I U. apply giai_iff in I as ((ig & (_ & (CP & _) & CA & NC & _)) & _). unfold giai_core in U.
  rewrite !ascii_form_app, (ascii_lit "urn:epc:id:giai:"), (ascii_lit ".") in U by reflexivity.
  exists (ascii_form (giai_cp x) ++ lit "." ++ ascii_form (giai_asset x)). split; [exact U|].
  rewrite (ascii_form_id (giai_asset x)) by now apply component_ascii. intros X. apply in_app_or in X as [X|X].
  - apply ascii_no_colon in X; [exact X|]. now apply digits_iff.
  - apply in_app_or in X as [[X|[]]|X]; [discriminate X|contradiction].
Qed.

(** exactly the requests of [survives] come back *)
Theorem survives_iff q u : init_of (class_of (req_epc q)) u = Ok (req_epc q) -> filter_fits q ->
  ((exists b, req_binary q = Ok b /\ bitstring b /\ from_binary_of (class_of (req_epc q)) b = Ok (req_epc q)) <-> survives q u).
Proof.
  intros I F. pose proof (init_class _ _ _ I) as (_ & EU). split.
  - intros (b & W & B & R). pose proof (binary_header q b W) as H. apply bitstring_iff in B.
    destruct (read_exact q b B H R) as (A & FR & K & TD). rewrite EU in A.
    assert (P : pieces_fit q).
    { destruct q; try exact Logic.I. cbn [class_of req_epc init_of] in I. apply lift_ok in I as (y & I & Y). injection Y as <-. destruct TD as [T1 T2].
      split; [exact T1|]. split; [exact T2|]. cbn [req_binary] in W.
      destruct (N.lt_ge_cases (decimal (itip_piece x)) 99) as [L1|L1]; [|rewrite (itip_99_refused u x s f I F T1 T2 (or_introl L1)) in W; discriminate W].
      destruct (N.lt_ge_cases (decimal (itip_total x)) 99) as [L2|L2]; [|rewrite (itip_99_refused u x s f I F T1 T2 (or_intror L2)) in W; discriminate W].
      now split. }
    destruct (field_written q u I FR K F P) as (b' & W' & _ & R1 & R2). assert (b' = b) by congruence. subst b'.
    repeat (split; [assumption|]). destruct q; try exact Logic.I.
    + apply (R2 _ _ _ eq_refl). cbn [class_of req_epc from_binary_of] in R. apply lift_ok in R as (y & R & Y). now injection Y as <-.
    + cbn [class_of req_epc from_binary_of init_of core_uri] in *. rewrite R1 in R by discriminate.
      apply (core_ignored x); [apply lift_ok in I as (y & I & Y); now injection Y as <-|].
      pose proof (init_class C_GIAI (ascii_form (giai_core x)) (E_GIAI x) R) as (_ & EU'). congruence.
  - intros (A & FR & K & P & X). destruct (field_written q u I FR K F P) as (b & W & B & R1 & R2).
    exists b. split; [exact W|]. split; [exact B|]. assert (C : class_of (req_epc q) = C_ADI \/ class_of (req_epc q) <> C_ADI) by (destruct q; first [now left|now right]). destruct C as [C|C].
    + destruct q; try discriminate C. cbn [class_of req_epc from_binary_of]. apply (R2 x s f eq_refl) in X. now rewrite X.
    + rewrite R1 by exact C. rewrite core_uri_eq; [|exact I|intros C'; destruct q; try discriminate C'; exact X]. now rewrite ascii_form_id.
Qed.

(** reading a tag, writing what was read and reading again *)
Theorem read_write_read q b : bitstring b -> firstn 8 b = tag_header (req_kind q) ->
  from_binary_of (class_of (req_epc q)) b = Ok (req_epc q) -> filter_fits q ->
  ((exists b', req_binary q = Ok b' /\ bitstring b' /\ from_binary_of (class_of (req_epc q)) b' = Ok (req_epc q)) <->
   rewritable q).
Proof.
  intros B H R F. apply bitstring_iff in B. destruct (read_exact q b B H R) as (A & FR & K & TD).
  assert (I : init_of (class_of (req_epc q)) (epc_uri (req_epc q)) = Ok (req_epc q)).
  { rewrite <- kind_class in R |- *. rewrite (from_binary_body _ b B H) in R. destruct (too_short _ b); [discriminate R|].
    destruct (k_body _ _) as [s|]; [|discriminate R]. cbn [bind] in R. pose proof (init_class _ _ _ R) as (_ & EU). now rewrite EU. }
  rewrite (survives_iff q _ I F). unfold survives, rewritable. split.
  - intros (_ & _ & _ & P & X). destruct q; try exact Logic.I; try exact X. now destruct P as (_ & _ & P).
  - intros X. split; [exact A|]. split; [exact FR|]. split; [exact K|]. destruct q; try (split; [exact Logic.I|exact X]).
    split; [|exact Logic.I]. destruct TD, X. now repeat split.
Qed.

Theorem tag_uri_field q u : init_of (class_of (req_epc q)) u = Ok (req_epc q) ->
  ((exists t, req_tag_uri q = Ok t) -> field_room q) /\
  (req_kind q <> K_CPI_96 -> field_room q -> exists t, req_tag_uri q = Ok t).
Proof.
  intros I. split.
  - intros [t T]. apply (room_field q u I). exact (tag_uri_room q u t I T).
  - intros K R. apply (proj1 (tag_uri_exact q u I)). destruct q; try exact R. destruct s; [now destruct K|exact R].
Qed.

Definition wide_ref : str := lit "urn:epc:id:cpi:000000000001.2000.7".
Lemma wide_ref_back : exists x b, cpi_init wide_ref = Ok x /\ cpi_tag_uri x CPI_96 0 = Raise ConvertException /\
  cpi_binary x CPI_96 0 = Ok b /\ cpi_from_binary b = Ok x.
Proof.
  set (x := match cpi_init wide_ref with Ok x => x | Raise _ => mkCpi [] [] [] [] end).
  set (b := match cpi_binary x CPI_96 0 with Ok b => b | Raise _ => [] end).
  exists x, b. unfold b, x. repeat split; vm_compute; reflexivity.
Qed.
Lemma read_fits q b : bitstring b -> firstn 8 b = tag_header (req_kind q) ->
  from_binary_of (class_of (req_epc q)) b = Ok (req_epc q) ->
  ascii (epc_uri (req_epc q)) /\ field_room q /\ canonical_request q /\ two_digit_pieces q.
Proof. intros B. apply read_exact. now apply bitstring_iff. Qed.
