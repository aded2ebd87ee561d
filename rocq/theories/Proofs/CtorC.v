(** Constructors of SGCN, CPI, GID, ITIP, USDOD, ADI, BIC and IMOVN. *)
From Coq Require Import String Lia Setoid.
From Verif.Model Require Import Py Re Regexes Common Base.
From Verif.Model Require Import Adi Cpi Gid Itip Sgcn Usdod Others.
From Verif.Spec Require Import Spec SpecEscapes SpecGrammar.
From Verif.Proofs Require Import Basics Num ReLemmas Uni Escapes Checksum Codecs Codecs2 CodecSpec Verify Grammar Ctor CtorA CtorB.

(** a part without separators *)
Definition nosep (s : str) : Prop := ~ In c_dot s /\ ~ In c_colon s.
Lemma nosep_digits s : forallb is_d s = true -> nosep s.
Proof. intros H. split; [apply nodot_digits, H|apply nocolon_digits, H]. Qed.
Lemma nosep_nc s : nc_shape s = true -> nosep s.
Proof. intros H. split; (apply nc_no_sep; [|exact H]); auto. Qed.
Lemma nosep_esc h s : esc_shape h s = true -> nosep s.
Proof. intros H. split; (apply (esc_no_sep h); [|exact H]); auto. Qed.
Lemma nosep_cage s : forallb cage_char s = true -> nosep s.
Proof. intros H. split; [apply cage_no_dot, H|apply cage_no_colon, H]. Qed.

Lemma field_triple p a b c : upref p -> nosep a -> nosep b -> nosep c ->
  field4 (p ++ a ++ [c_dot] ++ b ++ [c_dot] ++ c) = Ok (a ++ [c_dot] ++ b ++ [c_dot] ++ c) /\
  split c_dot (a ++ [c_dot] ++ b ++ [c_dot] ++ c) = [a; b; c].
Proof.
  intros P [A1 A2] [B1 B2] [C1 C2]. rewrite (field4_upref _ _ P). rewrite !hd_split2, hd_split_nosep by assumption.
  split; [reflexivity|]. rewrite !split_app1, split_nosep by assumption. reflexivity.
Qed.
Lemma field_pair p a b : upref p -> nosep a -> nosep b ->
  field4 (p ++ a ++ [c_dot] ++ b) = Ok (a ++ [c_dot] ++ b) /\ split c_dot (a ++ [c_dot] ++ b) = [a; b].
Proof.
  intros P [A1 A2] [B1 B2]. rewrite (field4_upref _ _ P). rewrite !hd_split2, hd_split_nosep by assumption.
  split; [reflexivity|]. rewrite !split_app1, split_nosep by assumption. reflexivity.
Qed.
Ltac triple P A B C :=
  let F := fresh in let D := fresh in
  match goal with |- context [field4 (?p ++ ?a ++ [c_dot] ++ ?b ++ [c_dot] ++ ?c)] =>
    destruct (field_triple p a b c P A B C) as [F D]; rewrite F, bind_Ok, D; cbn [unpack3]; rewrite bind_Ok; clear F D
  end.

(** ** SGCN *)
Lemma sgcn_eval cp coupon serial : forallb is_d cp = true -> cp <> [] -> forallb is_d coupon = true ->
  forallb is_d serial = true -> serial <> [] ->
  let u := lit "urn:epc:id:sgcn:" ++ cp ++ [c_dot] ++ coupon ++ [c_dot] ++ serial in
  fullmatch SGCN_URI u = true /\
  sgcn_init u = cond (negb (length (cp ++ coupon) =? 12)%nat || (12 <? length serial)%nat || negb (cp_len_ok cp))
    (Ok (mkSgcn u cp coupon serial (complete (cp ++ coupon) ++ serial))).
Proof.
  intros C CN I S SN u.
  assert (M : fullmatch SGCN_URI u = true).
  { apply fullmatch_lang, lang3. exists cp, coupon, serial. rewrite !lang_PNC, lang_PNCE. auto. }
  split; [exact M|]. unfold sgcn_init. rewrite M, raise_if_cond. cbn [negb cond]. unfold u at 1.
  triple up_sgcn (nosep_digits _ C) (nosep_digits _ I) (nosep_digits _ S). rewrite raise_if_cond.
  unfold cond. destruct (_ || _); [reflexivity|].
  destruct (checksum_dec (cp ++ coupon)) as (z & Z & D); [apply app_digits; assumption|].
  rewrite Z. cbn [bind]. unfold complete. rewrite <- D, <- !app_assoc. reflexivity.
Qed.
Lemma sgcn_match u : fullmatch SGCN_URI u = true -> exists cp coupon serial,
  forallb is_d cp = true /\ cp <> [] /\ forallb is_d coupon = true /\ forallb is_d serial = true /\ serial <> [] /\
  u = lit "urn:epc:id:sgcn:" ++ cp ++ [c_dot] ++ coupon ++ [c_dot] ++ serial.
Proof.
  intros H. apply fullmatch_lang, lang3 in H as (x & y & z & -> & X & Y & Z).
  apply lang_PNC in X, Z. apply lang_PNCE in Y. exists x, y, z. intuition congruence.
Qed.
Theorem sgcn_iff u x : sgcn_init u = Ok x <->
  sgcn_uri u (sgcn_cp x) (sgcn_coupon x) (sgcn_serial x) /\ sgcn_epc_uri x = u /\
  exists k, completed (sgcn_cp x ++ sgcn_coupon x) k /\ sgcn_gcn x = k ++ sgcn_serial x.
Proof.
  split.
  - intros H. destruct (fullmatch SGCN_URI u) eqn:M; [|unfold sgcn_init in H; rewrite M in H; discriminate].
    apply sgcn_match in M as (cp & coupon & serial & C & CN & I & S & SN & ->).
    rewrite (proj2 (sgcn_eval _ _ _ C CN I S SN)) in H. apply cond_ok in H as [L H]. injection H as <-.
    cbn [sgcn_cp sgcn_coupon sgcn_serial sgcn_epc_uri sgcn_gcn]. revert L. arith. intros [[L1 L2] L3].
    split; [|split; [reflexivity|eexists; split; [apply completed_iff; reflexivity|reflexivity]]].
    apply digits_iff in C, I, S. unfold sgcn_uri, company_prefix. repeat split; auto; try lia. destruct serial; [congruence|cbn; lia].
  - destruct x as [u' cp coupon serial g]. cbn [sgcn_cp sgcn_coupon sgcn_serial sgcn_epc_uri sgcn_gcn].
    intros ((U & (C & CL) & I & L & S & SL) & -> & k & K & ->). apply digits_iff in C, I, S. apply completed_iff in K. subst k.
    rewrite lit_dot in U. subst u. rewrite (fun a b => proj2 (sgcn_eval _ _ _ C a I S b)); try (apply len_nonempty; lia).
    apply cond_ok. split; [arith; repeat split; lia|reflexivity].
Qed.
Theorem sgcn_refusal u e : sgcn_init u = Raise e -> e = ConvertException.
Proof.
  intros H. destruct (fullmatch SGCN_URI u) eqn:M; [|unfold sgcn_init in H; rewrite M in H; injection H as <-; reflexivity].
  apply sgcn_match in M as (cp & coupon & serial & C & CN & I & S & SN & ->).
  rewrite (proj2 (sgcn_eval _ _ _ C CN I S SN)) in H. apply cond_raise in H as [[_ E]|[_ H]]; [exact E|discriminate].
Qed.

(** ** CPI *)
Lemma cpi_eval cp ref serial : forallb is_d cp = true -> cp <> [] -> esc_shape true ref = true -> ref <> [] ->
  nc_shape serial = true ->
  let u := lit "urn:epc:id:cpi:" ++ cp ++ [c_dot] ++ ref ++ [c_dot] ++ serial in
  fullmatch CPI_URI u = true /\
  cpi_init u = cond ((30 <? length (cp ++ ref))%nat || (12 <? length serial)%nat || negb (cp_len_ok cp)) (Ok (mkCpi u cp ref serial)).
Proof.
  intros C CN I IN S u.
  assert (M : fullmatch CPI_URI u = true).
  { apply fullmatch_lang, lang3. exists cp, ref, serial. rewrite lang_PNC, lang_CPREF, lang_NC. auto. }
  split; [exact M|]. unfold cpi_init. rewrite M, raise_if_cond. cbn [negb cond]. unfold u at 1.
  triple up_cpi (nosep_digits _ C) (nosep_esc _ _ I) (nosep_nc _ S). rewrite raise_if_cond. reflexivity.
Qed.
Lemma cpi_match u : fullmatch CPI_URI u = true -> exists cp ref serial,
  forallb is_d cp = true /\ cp <> [] /\ esc_shape true ref = true /\ ref <> [] /\ nc_shape serial = true /\
  u = lit "urn:epc:id:cpi:" ++ cp ++ [c_dot] ++ ref ++ [c_dot] ++ serial.
Proof.
  intros H. apply fullmatch_lang, lang3 in H as (x & y & z & -> & X & Y & Z).
  apply lang_PNC in X. apply lang_CPREF in Y. apply lang_NC in Z. exists x, y, z. intuition congruence.
Qed.
Theorem cpi_iff u x : cpi_init u = Ok x <-> cpi_uri u (cpi_cp x) (cpi_ref x) (cpi_serial x) /\ cpi_epc_uri x = u.
Proof.
  split.
  - intros H. destruct (fullmatch CPI_URI u) eqn:M; [|unfold cpi_init in H; rewrite M in H; discriminate].
    apply cpi_match in M as (cp & ref & serial & C & CN & I & IN & S & ->).
    rewrite (proj2 (cpi_eval _ _ _ C CN I IN S)) in H. apply cond_ok in H as [L H]. injection H as <-.
    cbn [cpi_cp cpi_ref cpi_serial cpi_epc_uri]. revert L. arith. intros [[L1 L2] L3].
    split; [|reflexivity]. apply digits_iff in C. apply esc_shape_iff in I as (t & T & _ & ->). apply numeral_iff in S.
    apply escape6_nonempty in IN. unfold cpi_uri, company_prefix. split; [reflexivity|]. split; [auto|]. split; [eauto|]. auto.
  - destruct x as [u' cp ref serial]. cbn [cpi_cp cpi_ref cpi_serial cpi_epc_uri].
    intros ((U & (C & CL) & (t & TN & T & ->) & L & S & SL) & ->). apply digits_iff in C. apply numeral_iff in S.
    apply escape6_nonempty in TN.
    assert (I : esc_shape true (escape6 t) = true) by (apply esc_shape_iff; exists t; split; [exact T|]; split; [discriminate|reflexivity]).
    rewrite lit_dot in U. subst u. rewrite (fun a => proj2 (cpi_eval _ _ _ C a I TN S)); try (apply len_nonempty; lia).
    apply cond_ok. split; [arith; repeat split; lia|reflexivity].
Qed.
Theorem cpi_refusal u e : cpi_init u = Raise e -> e = ConvertException.
Proof.
  intros H. destruct (fullmatch CPI_URI u) eqn:M; [|unfold cpi_init in H; rewrite M in H; injection H as <-; reflexivity].
  apply cpi_match in M as (cp & ref & serial & C & CN & I & IN & S & ->).
  rewrite (proj2 (cpi_eval _ _ _ C CN I IN S)) in H. apply cond_raise in H as [[_ E]|[_ H]]; [exact E|discriminate].
Qed.

(** ** GID *)
Lemma nc_lead s : nc_shape s = true -> ((1 <? length s)%nat && match s with c :: _ => c =? c_0 | [] => false end) = false.
Proof.
  intros H. apply numeral_iff in H as [->|(c & s' & -> & R & _)]; [reflexivity|].
  apply andb_false_iff. right. apply N.eqb_neq. unfold c_0. lia.
Qed.
Definition vcond {A} (b : bool) (r : res A) : res A := if b then Raise ValueError else r.
Definition long (s : str) : bool := int_max_str_digits <? N.of_nat (length s).
Lemma vcond_ok {A} b (r : res A) a : vcond b r = Ok a -> b = false /\ r = Ok a.
Proof. destruct b; [discriminate|auto]. Qed.
Lemma vcond_raise {A} b (r : res A) e : vcond b r = Raise e -> (b = true /\ e = ValueError) \/ (b = false /\ r = Raise e).
Proof. destruct b; cbn; [intros [= <-]|]; auto. Qed.
Lemma int10_nc s : nc_shape s = true -> int10 s = vcond (long s) (Ok (Z.of_N (decimal s))).
Proof. intros H. apply numeral_digits in H as [D N]. apply int10_all; assumption. Qed.
(** a number that fits a tag is short *)
Lemma nc_short s w : nc_shape s = true -> decimal s < 2 ^ N.of_nat w -> (w <= 4300)%nat -> intable s.
Proof.
  intros H B W. apply numeral_iff in H as [->|(c & s' & -> & R & _)]; [discriminate|].
  change (c :: s') with ([c] ++ s') in B. rewrite decimal_app in B.
  assert (E : decimal [c] = c - 48).
  { rewrite decimal_ascii by (cbn [forallb]; rewrite andb_true_r; apply is_digit_iff; lia). unfold sval. cbn [map].
    rewrite dv_digit by (apply is_digit_iff; lia). change (val 10 [c - 48]) with (0 * 10 + (c - 48)). lia. }
  rewrite E in B. assert (10 ^ N.of_nat (length s') < 10 ^ N.of_nat w).
  { apply N.le_lt_trans with ((c - 48) * 10 ^ N.of_nat (length s') + decimal s').
    - assert (1 <= c - 48) by lia. nia.
    - eapply N.lt_le_trans; [exact B|]. apply N.pow_le_mono_l. lia. }
  apply N.pow_lt_mono_r_iff in H; [|lia]. apply (intable_le _ w); [cbn [length]; lia|exact W].
Qed.
Lemma nc_not_long s w : nc_shape s = true -> decimal s < 2 ^ N.of_nat w -> (w <= 4300)%nat -> long s = false.
Proof. intros H B W. apply N.ltb_ge. exact (nc_short s w H B W). Qed.
Lemma zpow_le n k : (2 ^ Z.of_nat k <=? Z.of_N n)%Z = (2 ^ N.of_nat k <=? n).
Proof. rewrite zpow2. destruct (N.leb_spec (2 ^ N.of_nat k) n); [apply Z.leb_le|apply Z.leb_gt]; lia. Qed.

Lemma gid_eval m o s : nc_shape m = true -> nc_shape o = true -> nc_shape s = true ->
  let u := lit "urn:epc:id:gid:" ++ m ++ [c_dot] ++ o ++ [c_dot] ++ s in
  fullmatch GID_URI u = true /\
  gid_init u = vcond (long m) (cond (2 ^ 28 <=? decimal m) (vcond (long o) (cond (2 ^ 24 <=? decimal o)
    (vcond (long s) (cond (2 ^ 36 <=? decimal s) (Ok (mkGid u m o s))))))).
Proof.
  intros M O S u.
  assert (F : fullmatch GID_URI u = true).
  { apply fullmatch_lang, lang3. exists m, o, s. rewrite !lang_NC. auto. }
  split; [exact F|]. unfold gid_init. rewrite F, raise_if_cond. cbn [negb cond]. unfold u at 1.
  triple up_gid (nosep_nc _ M) (nosep_nc _ O) (nosep_nc _ S).
  rewrite (int10_nc _ M), (int10_nc _ O), (int10_nc _ S), (nc_lead _ S).
  change 28%Z with (Z.of_nat 28). change 24%Z with (Z.of_nat 24). change 36%Z with (Z.of_nat 36).
  unfold vcond, cond. destruct (long m); [reflexivity|]. cbn [bind]. rewrite !zpow_le.
  change (N.of_nat 28) with 28. destruct (2 ^ 28 <=? decimal m); [reflexivity|]. cbn [raise_if bind].
  destruct (long o); [reflexivity|]. cbn [bind]. rewrite !zpow_le.
  change (N.of_nat 24) with 24. destruct (2 ^ 24 <=? decimal o); [reflexivity|]. cbn [raise_if bind].
  destruct (long s); [reflexivity|]. cbn [bind]. rewrite orb_false_r, zpow_le. change (N.of_nat 36) with 36.
  destruct (2 ^ 36 <=? decimal s); reflexivity.
Qed.
Lemma gid_match u : fullmatch GID_URI u = true -> exists m o s, nc_shape m = true /\ nc_shape o = true /\ nc_shape s = true /\
  u = lit "urn:epc:id:gid:" ++ m ++ [c_dot] ++ o ++ [c_dot] ++ s.
Proof.
  intros H. apply fullmatch_lang, lang3 in H as (x & y & z & -> & X & Y & Z).
  apply lang_NC in X, Y, Z. exists x, y, z. auto.
Qed.
Theorem gid_iff u x : gid_init u = Ok x <-> gid_uri u (gid_manager x) (gid_object x) (gid_serial x) /\ gid_epc_uri x = u.
Proof.
  split.
  - intros H. destruct (fullmatch GID_URI u) eqn:F; [|unfold gid_init in H; rewrite F in H; discriminate].
    apply gid_match in F as (m & o & s & M & O & S & ->). rewrite (proj2 (gid_eval _ _ _ M O S)) in H.
    apply vcond_ok in H as [_ H]. apply cond_ok in H as [L1 H]. apply vcond_ok in H as [_ H]. apply cond_ok in H as [L2 H].
    apply vcond_ok in H as [_ H]. apply cond_ok in H as [L3 H]. injection H as <-.
    cbn [gid_manager gid_object gid_serial gid_epc_uri]. split; [|reflexivity].
    apply N.leb_gt in L1, L2, L3. apply numeral_iff in M, O, S. unfold gid_uri. auto 10.
  - destruct x as [u' m o s]. cbn [gid_manager gid_object gid_serial gid_epc_uri].
    intros ((U & M & O & S & L1 & L2 & L3) & ->). apply numeral_iff in M, O, S. rewrite lit_dot in U. subst u.
    rewrite (proj2 (gid_eval _ _ _ M O S)).
    rewrite (nc_not_long m 28 M L1), (nc_not_long o 24 O L2), (nc_not_long s 36 S L3) by lia.
    apply N.leb_gt in L1, L2, L3. rewrite L1, L2, L3. reflexivity.
Qed.
Lemma long_numeral s : nc_shape s = true -> long s = true -> long_number s.
Proof. intros H L. split; [now apply numeral_iff|now apply N.ltb_lt]. Qed.
Theorem gid_refusal u e : gid_init u = Raise e -> e = ConvertException \/
  (e = ValueError /\ exists p s r, u = lit "urn:epc:id:gid:" ++ p ++ s ++ r /\ long_number s).
Proof.
  intros H. destruct (fullmatch GID_URI u) eqn:F; [|unfold gid_init in H; rewrite F in H; injection H as <-; left; reflexivity].
  apply gid_match in F as (m & o & s & M & O & S & ->). rewrite (proj2 (gid_eval _ _ _ M O S)) in H.
  apply vcond_raise in H as [[L ->]|[_ H]].
  { right. split; [reflexivity|]. exists [], m, ([c_dot] ++ o ++ [c_dot] ++ s). split; [reflexivity|now apply long_numeral]. }
  apply cond_raise in H as [[_ E]|[_ H]]; [left; exact E|]. apply vcond_raise in H as [[L ->]|[_ H]].
  { right. split; [reflexivity|]. exists (m ++ [c_dot]), o, ([c_dot] ++ s). split; [now rewrite <- !app_assoc|now apply long_numeral]. }
  apply cond_raise in H as [[_ E]|[_ H]]; [left; exact E|]. apply vcond_raise in H as [[L ->]|[_ H]].
  { right. split; [reflexivity|]. exists (m ++ [c_dot] ++ o ++ [c_dot]), s, []. split; [now rewrite app_nil_r, <- !app_assoc|now apply long_numeral]. }
  apply cond_raise in H as [[_ E]|[_ H]]; [left; exact E|discriminate H].
Qed.

(** ** USDOD *)
Lemma usdod_eval c s : (5 <= length c <= 6)%nat -> forallb cage_char c = true -> nc_shape s = true ->
  let u := lit "urn:epc:id:usdod:" ++ c ++ [c_dot] ++ s in
  fullmatch USDOD_URI u = true /\ usdod_init u = vcond (long s) (cond (2 ^ 36 <=? decimal s) (Ok (mkUsdod u c s))).
Proof.
  intros L C S u.
  assert (F : fullmatch USDOD_URI u = true).
  { apply fullmatch_lang, lang2. exists c, s. rewrite lang_CAGE, lang_NC. auto. }
  split; [exact F|]. unfold usdod_init. rewrite F, raise_if_cond. cbn [negb cond]. unfold u at 1.
  destruct (field_pair _ c s up_usdod (nosep_cage _ C) (nosep_nc _ S)) as [X D]. rewrite X, bind_Ok, D. cbn [unpack2].
  rewrite bind_Ok, (int10_nc _ S), (nc_lead _ S). unfold vcond. destruct (long s); [reflexivity|]. cbn [bind].
  rewrite orb_false_r, raise_if_cond. change 36%Z with (Z.of_nat 36). rewrite zpow_le. reflexivity.
Qed.
Lemma usdod_match u : fullmatch USDOD_URI u = true -> exists c s, (5 <= length c <= 6)%nat /\ forallb cage_char c = true /\
  nc_shape s = true /\ u = lit "urn:epc:id:usdod:" ++ c ++ [c_dot] ++ s.
Proof.
  intros H. apply fullmatch_lang, lang2 in H as (x & y & -> & X & Y). apply lang_CAGE in X. apply lang_NC in Y.
  exists x, y. intuition.
Qed.
Theorem usdod_iff u x : usdod_init u = Ok x <-> usdod_uri u (usdod_cage x) (usdod_serial x) /\ usdod_epc_uri x = u.
Proof.
  split.
  - intros H. destruct (fullmatch USDOD_URI u) eqn:F; [|unfold usdod_init in H; rewrite F in H; discriminate].
    apply usdod_match in F as (c & s & L & C & S & ->). rewrite (proj2 (usdod_eval _ _ L C S)) in H.
    apply vcond_ok in H as [_ H]. apply cond_ok in H as [L1 H]. injection H as <-. cbn [usdod_cage usdod_serial usdod_epc_uri]. split; [|reflexivity].
    apply N.leb_gt in L1. apply numeral_iff in S. pose proof (proj2 (cage_text_iff c) (conj L C)). unfold usdod_uri. auto.
  - destruct x as [u' c s]. cbn [usdod_cage usdod_serial usdod_epc_uri].
    intros ((U & C & S & L1) & ->). apply numeral_iff in S. apply cage_text_iff in C as [L C]. rewrite lit_dot in U. subst u.
    rewrite (proj2 (usdod_eval _ _ L C S)), (nc_not_long s 36 S L1) by lia. apply N.leb_gt in L1. rewrite L1. reflexivity.
Qed.
Theorem usdod_refusal u e : usdod_init u = Raise e -> e = ConvertException \/
  (e = ValueError /\ exists p s, u = lit "urn:epc:id:usdod:" ++ p ++ s /\ long_number s).
Proof.
  intros H. destruct (fullmatch USDOD_URI u) eqn:F; [|unfold usdod_init in H; rewrite F in H; injection H as <-; left; reflexivity].
  apply usdod_match in F as (c & s & L & C & S & ->). rewrite (proj2 (usdod_eval _ _ L C S)) in H.
  apply vcond_raise in H as [[K ->]|[_ H]].
  { right. split; [reflexivity|]. exists (c ++ [c_dot]), s. split; [now rewrite <- !app_assoc|now apply long_numeral]. }
  apply cond_raise in H as [[_ E]|[_ H]]; [left; exact E|discriminate H].
Qed.

(** ** ITIP *)
Definition shape_itip (u cp item piece total serial : str) : Prop :=
  u = lit "urn:epc:id:itip:" ++ cp ++ [c_dot] ++ item ++ [c_dot] ++ piece ++ [c_dot] ++ total ++ [c_dot] ++ serial /\
  (forallb is_d cp = true /\ cp <> []) /\ (forallb is_d item = true /\ item <> []) /\
  (forallb is_d piece = true /\ piece <> []) /\ (forallb is_d total = true /\ total <> []) /\
  gs3a3_shape serial = true /\ serial <> [].
Lemma itip_match u : fullmatch ITIP_URI u = true <-> exists cp item piece total serial, shape_itip u cp item piece total serial.
Proof.
  rewrite fullmatch_lang. unfold ITIP_URI, ITIP_URI_BODY. rewrite lang2. unfold shape_itip. split.
  - intros (x & s & -> & X & S). apply lang_dot4 in X as (a & b & c & d & -> & A & B & C & D).
    apply lang_PNC in A, B, C, D. apply lang_GS3A3 in S. exists a, b, c, d, s.
    rewrite <- !app_assoc. intuition.
  - intros (a & b & c & d & s & -> & (A & AN) & (B & BN) & (C & CN) & (D & DN) & S & SN).
    exists (a ++ [c_dot] ++ b ++ [c_dot] ++ c ++ [c_dot] ++ d), s. rewrite <- !app_assoc. split; [reflexivity|].
    split; [|apply lang_GS3A3; auto]. apply lang_dot4. exists a, b, c, d. rewrite !lang_PNC. auto 10.
Qed.
Lemma itip_eval u cp item piece total serial : shape_itip u cp item piece total serial ->
  itip_init u = (let* _ := verify_gs3a3_component serial in
    cond (negb (length (cp ++ item ++ piece ++ total) =? 17)%nat || (20 <? length (unescape serial))%nat || negb (cp_len_ok cp))
      (Ok (mkItip u cp item piece total serial))).
Proof.
  intros S. assert (M : fullmatch ITIP_URI u = true) by (apply itip_match; eauto 10).
  unfold itip_init. rewrite M, raise_if_cond. cbn [negb cond].
  destruct S as (-> & (A & AN) & (B & BN) & (C & CN) & (D & DN) & S & SN).
  rewrite (tail4_upref _ _ up_itip). rewrite !split_app1 by (apply nodot_digits; assumption). cbn [unpack4_rest].
  rewrite bind_Ok, join_split. destruct (verify_gs3a3_component serial) as [[]|e]; [|reflexivity]. cbn [bind].
  rewrite raise_if_cond, <- unescape_spec. pose proof (unescape_nonempty _ SN) as L.
  replace (1 <=? length (unescape serial))%nat with true by (symmetry; apply Nat.leb_le, L).
  cbn [andb]. rewrite <- Nat.ltb_antisym. reflexivity.
Qed.
Lemma itip_cases u : (exists cp item piece total serial, shape_itip u cp item piece total serial) \/ itip_init u = Raise ConvertException.
Proof.
  destruct (fullmatch ITIP_URI u) eqn:E; [left; apply itip_match, E|right]. unfold itip_init. rewrite E. reflexivity.
Qed.
Theorem itip_iff u x : itip_init u = Ok x <->
  itip_uri u (itip_cp x) (itip_item x) (itip_piece x) (itip_total x) (itip_serial x) /\ itip_epc_uri x = u.
Proof.
  split.
  - intros H. destruct (itip_cases u) as [(cp & item & piece & total & serial & S)|R]; [|congruence].
    rewrite (itip_eval _ _ _ _ _ _ S) in H. destruct S as (U & (A & AN) & (B & BN) & (C & CN) & (D & DN) & S & SN).
    apply bind_verify_ok in H as [V H]; [|assumption|assumption]. apply cond_ok in H as [L H]. injection H as <-.
    cbn [itip_cp itip_item itip_piece itip_total itip_serial itip_epc_uri]. split; [|reflexivity].
    revert L. arith. intros [[L1 L2] L3]. apply digits_iff in A, B, C, D. unfold itip_uri, company_prefix.
    pose proof (unescape_nonempty _ SN). repeat split; auto; try apply V; try lia.
  - destruct x as [u' cp item piece total serial]. cbn [itip_cp itip_item itip_piece itip_total itip_serial itip_epc_uri].
    intros ((U & (A & AL) & B & C & D & BN & CN & DN & L & V & SL) & ->). apply digits_iff in A, B, C, D.
    pose proof (component_shape _ V) as [G GN].
    assert (S : shape_itip u cp item piece total serial).
    { unfold shape_itip. rewrite lit_dot in U. repeat split; auto. apply len_nonempty; lia. }
    rewrite (itip_eval _ _ _ _ _ _ S). apply bind_verify_ok; [assumption|assumption|]. split; [exact V|].
    apply cond_ok. split; [arith; repeat split; lia|reflexivity].
Qed.
Theorem itip_refusal u e : itip_init u = Raise e -> e = ConvertException \/
  ((e = ValueError \/ e = OverflowError) /\ exists cp item piece total serial,
     u = lit "urn:epc:id:itip:" ++ cp ++ lit "." ++ item ++ lit "." ++ piece ++ lit "." ++ total ++ lit "." ++ serial /\
     digits cp /\ digits item /\ digits piece /\ digits total /\ malformed_component serial).
Proof.
  intros H. destruct (itip_cases u) as [(cp & item & piece & total & serial & S)|R]; [|left; congruence].
  rewrite (itip_eval _ _ _ _ _ _ S) in H. destruct S as (U & (A & AN) & (B & BN) & (C & CN) & (D & DN) & S & SN).
  apply bind_verify_raise in H; [|assumption|assumption|].
  - destruct H as [E|[E M]]; [left; exact E|right]. split; [exact E|]. apply digits_iff in A, B, C, D.
    exists cp, item, piece, total, serial. auto 10.
  - intros K. repeat (apply cond_raise in K as [[_ E]|[_ K]]; [exact E|]). discriminate.
Qed.

(** ** ADI *)
Lemma unesc6 T t : six_bit_text t -> tfind T 50 70 = Some 47 -> (In 35 t -> tfind T 50 51 = Some 35) -> unesc T (escape6 t) = t.
Proof.
  intros S F1 F2. induction t as [|c t IH]; [reflexivity|]. unfold escape6. cbn [flat_map]. fold (escape6 t).
  assert (IH' : unesc T (escape6 t) = t).
  { apply IH; [intros x X; apply S; right; exact X|intros X; apply F2; right; exact X]. }
  destruct (N.eqb_spec c 35) as [->|N1].
  { change (lit "%23" ++ escape6 t) with (c_pct :: 50 :: 51 :: escape6 t).
    rewrite (unesc_hit _ _ _ 35) by (apply F2; left; reflexivity). rewrite IH'. reflexivity. }
  destruct (N.eqb_spec c 47) as [->|N2].
  { change (lit "%2F" ++ escape6 t) with (c_pct :: 50 :: 70 :: escape6 t). rewrite (unesc_hit _ _ _ 47 _ F1), IH'. reflexivity. }
  cbn [app]. rewrite unesc_nonpct, IH'; [reflexivity|]. intros ->. specialize (S c_pct (or_introl eq_refl)). unfold c_pct in S. lia.
Qed.
Lemma adi_part_len t : six_bit_text t -> ~ In 35 t -> replace (lit "%2F") (lit "/") (escape6 t) = t.
Proof.
  intros S N. change (lit "%2F") with [c_pct; 50; 70]. change (lit "/") with [47].
  rewrite replace_escape by discriminate. apply unesc6; [exact S|reflexivity|intros X; contradiction].
Qed.
Lemma adi_serial_len t : six_bit_text t -> replace (lit "%23") (lit "#") (replace (lit "%2F") (lit "/") (escape6 t)) = t.
Proof.
  intros S. change (lit "%2F") with [c_pct; 50; 70]. change (lit "/") with [47].
  change (lit "%23") with [c_pct; 50; 51]. change (lit "#") with [35].
  rewrite !replace_escape by discriminate. rewrite unesc_compose; [|tcond|notin|notin].
  apply unesc6; [exact S|reflexivity|reflexivity].
Qed.
Definition adi_serial_shape (s : str) : Prop :=
  exists t t', six_bit_text t /\ ~ In 35 t' /\ t' <> [] /\ (t = t' \/ t = 35 :: t') /\ s = escape6 t.
Lemma lang_opt r s : lang (ropt r) s <-> s = [] \/ lang r s.
Proof. unfold ropt. cbn [lang]. tauto. Qed.
Lemma adi_serial_lang s : lang (RSeq (ropt (rlit "%23")) (rplus ADI_CHAR)) s <-> adi_serial_shape s.
Proof.
  rewrite lang_seq. split.
  - intros (a & b & -> & A & B). apply lang_plus_ADI in B as [BN B]. apply esc_shape_iff in B as (t' & T & N & ->).
    apply escape6_nonempty in BN. specialize (N eq_refl). apply lang_opt in A as [->|A].
    + exists t', t'. auto 10.
    + apply lang_rlit in A. subst a. exists (35 :: t'), t'. repeat split; auto.
      intros c [<-|X]; [lia|exact (T c X)].
  - intros (t & t' & T & N & NN & E & ->). apply escape6_nonempty in NN.
    assert (T' : six_bit_text t') by (destruct E as [->| ->]; [exact T|intros c X; apply T; right; exact X]).
    assert (B : lang (rplus ADI_CHAR) (escape6 t')).
    { apply lang_plus_ADI. split; [exact NN|]. apply esc_shape_iff. exists t'. split; [exact T'|]. split; [intros _; exact N|reflexivity]. }
    destruct E as [->| ->].
    + exists [], (escape6 t'). split; [reflexivity|]. split; [apply lang_opt; auto|exact B].
    + exists (lit "%23"), (escape6 t'). split; [reflexivity|]. split; [apply lang_opt; right; apply lang_rlit; reflexivity|exact B].
Qed.
Definition shape_adi (u cage part serial : str) : Prop :=
  u = lit "urn:epc:id:adi:" ++ cage ++ [c_dot] ++ part ++ [c_dot] ++ serial /\ cage_text cage /\
  (exists t, six_bit_text t /\ ~ In 35 t /\ part = escape6 t) /\ adi_serial_shape serial.
Lemma adi_match u : fullmatch ADI_URI u = true <-> exists cage part serial, shape_adi u cage part serial.
Proof.
  rewrite fullmatch_lang. unfold ADI_URI, ADI_URI_BODY.
  change (rseq [CAGE_CODE_OR_DODAAC; dot; RStar ADI_CHAR; dot; ropt (rlit "%23"); rplus ADI_CHAR])
    with (rseq [CAGE_CODE_OR_DODAAC; dot; RStar ADI_CHAR; dot; RSeq (ropt (rlit "%23")) (rplus ADI_CHAR)]).
  rewrite lang3. unfold shape_adi. setoid_rewrite adi_serial_lang. setoid_rewrite lang_CAGE. setoid_rewrite lang_star_ADI.
  setoid_rewrite cage_text_iff. setoid_rewrite esc_shape_iff. unfold hash_ok.
  split; intros (x & y & z & -> & X & (t & T & N & ->) & Z); exists x, (escape6 t), z; repeat split; auto; try apply X; exists t; auto.
Qed.
Lemma adi_serial_nosep s : adi_serial_shape s -> nosep s.
Proof.
  intros (t & _ & T & _ & _ & _ & ->). apply (nosep_esc true). apply esc_shape_iff. exists t.
  split; [exact T|]. split; [discriminate|reflexivity].
Qed.
Lemma adi_eval cage t s :
  cage_text cage -> six_bit_text t -> ~ In 35 t -> adi_serial_shape (escape6 s) -> six_bit_text s ->
  let u := lit "urn:epc:id:adi:" ++ cage ++ [c_dot] ++ escape6 t ++ [c_dot] ++ escape6 s in
  adi_init u = cond (negb (length t <=? 32)%nat) (cond (negb ((1 <=? length s)%nat && (length s <=? 30)%nat))
    (Ok (mkAdi u cage (escape6 t) (escape6 s)))).
Proof.
  intros C T N S S6 u. assert (M : fullmatch ADI_URI u = true).
  { apply adi_match. exists cage, (escape6 t), (escape6 s). unfold shape_adi. eauto 10. }
  unfold adi_init. rewrite M, raise_if_cond. cbn [negb cond]. unfold u at 1.
  assert (C' := C). apply cage_text_iff in C' as [_ C'].
  assert (P : nosep (escape6 t)).
  { apply (nosep_esc true), esc_shape_iff. exists t. split; [exact T|]. split; [discriminate|reflexivity]. }
  triple up_adi (nosep_cage _ C') P (adi_serial_nosep _ S).
  rewrite (adi_part_len t T N), (adi_serial_len s S6). rewrite !raise_if_cond. reflexivity.
Qed.
Theorem adi_iff u x : adi_init u = Ok x <-> adi_uri u (adi_cage x) (adi_part x) (adi_serial x) /\ adi_epc_uri x = u.
Proof.
  split.
  - intros H. destruct (fullmatch ADI_URI u) eqn:F; [|unfold adi_init in H; rewrite F in H; discriminate].
    apply adi_match in F as (c & p & s & -> & C & (t & T & TN & ->) & S).
    assert (S' := S). destruct S' as (w & w' & W & WN & WN' & E & ->).
    rewrite (adi_eval c t w C T TN S W) in H. apply cond_ok in H as [L1 H]. apply cond_ok in H as [L2 H].
    injection H as <-. cbn [adi_cage adi_part adi_serial adi_epc_uri]. split; [|reflexivity].
    revert L1 L2. arith. intros L1 L2. unfold adi_uri. split; [reflexivity|]. split; [exact C|]. split; [exists t; auto|].
    exists w, w'. intuition.
  - destruct x as [u' c p s]. cbn [adi_cage adi_part adi_serial adi_epc_uri].
    intros ((U & C & (t & T & TN & -> & TL) & (w & w' & W & WN & WN' & E & -> & WL)) & ->).
    assert (S : adi_serial_shape (escape6 w)) by (exists w, w'; auto 10).
    rewrite lit_dot in U. subst u. rewrite (adi_eval c t w C T TN S W).
    apply cond_ok. split; [arith; lia|]. apply cond_ok. split; [arith; rewrite andb_true_iff; arith; split; [|lia]|reflexivity].
    destruct E as [->| ->]; [destruct w'; [congruence|cbn; lia]|cbn; lia].
Qed.
Theorem adi_refusal u e : adi_init u = Raise e -> e = ConvertException.
Proof.
  intros H. destruct (fullmatch ADI_URI u) eqn:F; [|unfold adi_init in H; rewrite F in H; injection H as <-; reflexivity].
  apply adi_match in F as (c & p & s & -> & C & (t & T & TN & ->) & S).
  assert (S' := S). destruct S' as (w & w' & W & WN & WN' & E & ->).
  rewrite (adi_eval c t w C T TN S W) in H. repeat (apply cond_raise in H as [[_ E']|[_ H]]; [exact E'|]). discriminate.
Qed.

(** ** BIC *)
Lemma bic_owner_iff c : bic_owner_char c = true <-> bic_letter c.
Proof. unfold bic_owner_char, bic_letter, inr. rewrite !orb_true_iff, !andb_true_iff, !N.leb_le. lia. Qed.
Lemma bic_cat_iff c : bic_cat_char c = true <-> In c (lit "JUZ").
Proof. unfold bic_cat_char. rewrite !orb_true_iff, !N.eqb_eq. cbn. lia. Qed.
Lemma split_last7 (s : str) : length s = 7%nat -> exists a c, s = a ++ [c] /\ length a = 6%nat.
Proof.
  intros L. destruct s as [|x0 [|x1 [|x2 [|x3 [|x4 [|x5 [|x6 [|]]]]]]]]; try discriminate.
  exists [x0; x1; x2; x3; x4; x5], x6. auto.
Qed.
Lemma bic_match u : fullmatch BIC_URI u = true <-> exists o cat s ck, bic_uri u o cat s ck.
Proof.
  rewrite fullmatch_lang. unfold BIC_URI, BIC_URI_BODY. rewrite lang_lit_seq. unfold rseq.
  split.
  - intros (s' & -> & H). apply lang_seq in H as (o & r & -> & O & H). apply lang_seq in H as (c & s & -> & C & S).
    apply lang_rep_set in O as [OL O]. cbn [lang] in C. destruct C as (cat & -> & C). apply lang_rep_set in S as [SL S].
    destruct (split_last7 s SL) as (a & ck & -> & AL). rewrite forallb_app' in S. apply andb_true_iff in S as [S1 S2].
    exists o, cat, a, ck. split; [reflexivity|]. split; [exact OL|]. split.
    { intros x X. apply bic_owner_iff. exact (forallb_In _ _ _ O X). }
    split; [apply bic_cat_iff, C|]. split; [exact AL|]. split; [apply ascii_digits_iff, S1|].
    cbn [forallb] in S2. rewrite andb_true_r in S2. apply is_digit_iff, S2.
  - intros (o & cat & s & ck & -> & OL & O & C & SL & S & K). eexists. split; [reflexivity|].
    apply lang_seq. exists o, (cat :: s ++ [ck]). split; [reflexivity|]. split.
    { apply lang_rep_set. split; [exact OL|]. apply forallb_forall. intros x X. apply bic_owner_iff, O, X. }
    apply lang_seq. exists [cat], (s ++ [ck]). split; [reflexivity|]. split.
    { cbn [lang]. exists cat. split; [reflexivity|]. apply bic_cat_iff, C. }
    apply lang_rep_set. split; [rewrite app_length, SL; reflexivity|]. rewrite forallb_app'. apply ascii_digits_iff in S. rewrite S.
    cbn [forallb andb]. rewrite andb_true_r. apply is_digit_iff, K.
Qed.
Lemma bic_nocolon u o cat s ck : bic_uri u o cat s ck -> ~ In c_colon (o ++ cat :: s ++ [ck]).
Proof.
  intros (_ & _ & O & C & _ & S & K) X. apply in_app_iff in X as [X|[X|X]].
  - specialize (O _ X). unfold bic_letter, c_colon in O. lia.
  - subst cat. cbn in C. unfold c_colon in C. lia.
  - apply in_app_iff in X as [X|[X|[]]]; [specialize (S _ X); unfold c_colon in S; lia|subst ck; unfold c_colon in K; lia].
Qed.
Theorem bic_iff u x : bic_init u = Ok x <->
  bic_uri u (bic_owner_code x) (bic_equipment_category_identifier x) (bic_serial x) (bic_check_digit x) /\
  bic_epc_uri x = u /\
  bic_container_code x = bic_owner_code x ++ bic_equipment_category_identifier x :: bic_serial x ++ [bic_check_digit x].
Proof.
  assert (EV : forall u o cat s ck, bic_uri u o cat s ck ->
    bic_init u = Ok (mkBic u (o ++ cat :: s ++ [ck]) o cat s ck)).
  { clear. intros u o cat s ck B. assert (M : fullmatch BIC_URI u = true) by (apply bic_match; eauto 10).
    unfold bic_init. rewrite M. pose proof (bic_nocolon _ _ _ _ _ B) as N.
    destruct B as (-> & OL & _ & _ & SL & _). rewrite raise_if_cond. cbn [negb cond].
    rewrite (field4_upref _ _ up_bic), hd_split_nosep by exact N. clear N M.
    destruct o as [|o0 [|o1 [|o2 [|]]]]; try discriminate. destruct s as [|s0 [|s1 [|s2 [|s3 [|s4 [|s5 [|]]]]]]]; try discriminate.
    reflexivity. }
  split.
  - intros H. destruct (fullmatch BIC_URI u) eqn:F; [|unfold bic_init in H; rewrite F in H; discriminate].
    apply bic_match in F as (o & cat & s & ck & B). rewrite (EV _ _ _ _ _ B) in H. injection H as <-.
    cbn [bic_owner_code bic_equipment_category_identifier bic_serial bic_check_digit bic_epc_uri bic_container_code]. auto.
  - destruct x as [u' cc o cat s ck]. cbn [bic_owner_code bic_equipment_category_identifier bic_serial bic_check_digit bic_epc_uri bic_container_code].
    intros (B & -> & ->). exact (EV _ _ _ _ _ B).
Qed.
Theorem bic_refusal u e : bic_init u = Raise e -> e = ConvertException.
Proof.
  intros H. destruct (fullmatch BIC_URI u) eqn:F; [|unfold bic_init in H; rewrite F in H; injection H as <-; reflexivity].
  apply bic_match in F as (o & cat & s & ck & B). exfalso.
  pose proof (proj2 (bic_iff u (mkBic u (o ++ cat :: s ++ [ck]) o cat s ck)) (conj B (conj eq_refl eq_refl))). congruence.
Qed.

(** ** IMOVN *)
Theorem imovn_iff u x : imovn_init u = Ok x <-> imovn_uri u (imovn_vessel_number x) /\ imovn_epc_uri x = u.
Proof.
  assert (EV : forall v, length v = 7%nat -> forallb is_digit v = true ->
    imovn_init (lit "urn:epc:id:imovn:" ++ v) = Ok (mkImovn (lit "urn:epc:id:imovn:" ++ v) v)).
  { clear. intros v L D. assert (M : fullmatch IMOVN_URI (lit "urn:epc:id:imovn:" ++ v) = true).
    { apply fullmatch_lang, lang_lit_seq. exists v. split; [reflexivity|]. apply lang_rep_set. auto. }
    unfold imovn_init. rewrite M, raise_if_cond. cbn [negb cond].
    rewrite (field4_upref _ _ up_imovn), hd_split_nosep; [reflexivity|]. apply nocolon_digits, forallb_digit_d, D. }
  split.
  - intros H. destruct (fullmatch IMOVN_URI u) eqn:F; [|unfold imovn_init in H; rewrite F in H; discriminate].
    apply fullmatch_lang, lang_lit_seq in F as (v & -> & F). apply lang_rep_set in F as [L D].
    rewrite (EV v L D) in H. injection H as <-. cbn [imovn_vessel_number imovn_epc_uri]. apply ascii_digits_iff in D. split; [|reflexivity]. split; [reflexivity|auto].
  - destruct x as [u' v]. cbn [imovn_vessel_number imovn_epc_uri]. intros ((-> & L & D) & ->). apply ascii_digits_iff in D. apply EV; assumption.
Qed.
Theorem imovn_refusal u e : imovn_init u = Raise e -> e = ConvertException.
Proof.
  intros H. destruct (fullmatch IMOVN_URI u) eqn:F; [|unfold imovn_init in H; rewrite F in H; injection H as <-; reflexivity].
  apply fullmatch_lang, lang_lit_seq in F as (v & -> & F). apply lang_rep_set in F as [L D]. exfalso. apply ascii_digits_iff in D.
  pose proof (proj2 (imovn_iff (lit "urn:epc:id:imovn:" ++ v) (mkImovn (lit "urn:epc:id:imovn:" ++ v) v))
    (conj (conj eq_refl (conj L D)) eq_refl)). congruence.
Qed.
