(** binary() and from_binary(), all classes. *)
From Coq Require Import String.
From Verif.Model Require Import Py Re Regexes Common Base.
From Verif.Model Require Import Adi Cpi Gdti Giai Gid Grai Gsrn Gsrnp Itip Sgcn Sgln Sgtin Sscc Usdod Parsers.
From Verif.Spec Require Import Spec SpecEscapes SpecGrammar SpecSchemes SpecTags SpecLayout.
From Verif.Proofs Require Import Basics Num ReLemmas Uni Escapes Codecs Codecs2 CodecSpec Partition Grammar Ctor CtorA CtorB CtorC CtorAll TagUri TagUri2 TagFits Layout BinA BinB BinC BinD.

Lemma serial_fits_dec s n : serial_fits s n \/ ~ serial_fits s n.
Proof.
  unfold serial_fits. rewrite numeral_iff. destruct (nc_shape s); [|right; now intros [? _]].
  destruct (N.lt_ge_cases (decimal s) (2 ^ n)); [left; auto|right; intros [_ ?]; lia].
Qed.
Lemma room_dec q : coding_has_room q \/ ~ coding_has_room q.
Proof.
  destruct q; try destruct s; cbn [coding_has_room]; try (left; exact I); try apply serial_fits_dec.
  - rewrite numeral_iff. destruct (nc_shape (cpi_ref x)); [|right; now intros [? _]].
    destruct (Nat.le_gt_cases (length (cpi_cp x) + length (cpi_ref x)) 15); [|right; intros (_ & ? & _); lia].
    destruct (N.lt_ge_cases (decimal (cpi_serial x)) (2 ^ 31)); [left; auto|right; intros (_ & _ & ?); lia].
  - destruct (serial_fits_dec (giai_asset x) (giai_96_bits (length (giai_cp x)))) as [H|H]; [|right; now intros [? _]].
    destruct (Nat.le_gt_cases (length (giai_cp x) + length (giai_asset x)) 25); [left; auto|right; intros [_ ?]; lia].
Qed.
Lemma tag_uri_room q u t : init_of (class_of (req_epc q)) u = Ok (req_epc q) -> req_tag_uri q = Ok t -> coding_has_room q.
Proof.
  intros I T. destruct (tag_uri_exact q u I) as [_ N]. destruct (room_dec q) as [R|R]; [exact R|]. rewrite (N R) in T. discriminate.
Qed.

Definition core_uri (q : tagreq) (u : str) : str := match q with T_GIAI x _ _ => giai_core x | _ => u end.
Lemma core_uri_eq q u : init_of (class_of (req_epc q)) u = Ok (req_epc q) ->
  (class_of (req_epc q) = C_GIAI -> exists body, u = lit "urn:epc:id:giai:" ++ body /\ ~ In 58 body) -> core_uri q u = u.
Proof.
  destruct q; cbn [core_uri req_epc class_of init_of]; try reflexivity. intros I H. destruct (H eq_refl) as (body & E & NB).
  apply lift_ok in I as (y & I & Y). injection Y as <-. apply giai_iff in I as ((ig & U & C & S & N & L & G) & _).
  unfold giai_core. rewrite E in U |- *. apply app_inv_head in U. destruct G as [->|(r & -> & _)].
  - rewrite app_nil_r in U. now rewrite U.
  - destruct NB. rewrite U. rewrite !in_app_iff. right. right. right. now left.
Qed.
Definition sized (n : option nat) (b : str) : Prop := match n with Some n => length b = n | None => True end.
Lemma coded_written {T} (inj : T -> epc) l n bin from init u : coded l n bin from init u ->
  exists b, bin = Ok b /\ spells l b /\ bitstring b /\ length b = n /\
    forall extra, lift inj (from (b ++ extra)) = lift inj (init (ascii_form u)).
Proof.
  intros (R & L & B & F). exists (tobits l). split; [exact B|]. split; [now apply spells_tobits|].
  split; [apply bitstring_iff, tobits_bit|]. split; [now rewrite length_tobits|]. intros extra. now rewrite F.
Qed.
Theorem binary_written q u t : init_of (class_of (req_epc q)) u = Ok (req_epc q) -> req_tag_uri q = Ok t ->
  canonical_request q -> filter_fits q -> pieces_fit q ->
  exists b, req_binary q = Ok b /\ spells (tag_layout q) b /\ bitstring b /\
    match coding_bits q with Some n => length b = n | None => True end /\
    forall extra, bitstring extra ->
      (class_of (req_epc q) <> C_ADI ->
       from_binary_of (class_of (req_epc q)) (b ++ extra) = init_of (class_of (req_epc q)) (ascii_form (core_uri q u))) /\
      (forall x s f, q = T_ADI x s f -> (adi_from_binary (b ++ extra) = Ok x <-> no_early_zeros (adi_part x))).
Proof.
  intros I T K F P. pose proof (tag_uri_room q u t I T) as R. clear T.
  destruct q; cbn [class_of req_epc init_of] in I; apply lift_ok in I as (y & I & Y); injection Y as <-;
    cbn [class_of req_epc init_of req_binary from_binary_of core_uri filter_fits req_filter filter_bits] in *.
  - destruct s. destruct (adi_coded u x ADI_VAR f I F) as (A & B & _ & D). exists (tobits (tag_layout (T_ADI x ADI_VAR f))).
    split; [exact B|]. split; [now apply spells_tobits|]. split; [apply bitstring_iff, tobits_bit|]. split; [exact Logic.I|].
    intros extra BE. split; [congruence|]. intros x' s f' E. injection E as <- <- <-. now apply D.
  - destruct s.
    + destruct (coded_written E_CPI _ _ _ _ _ _ (cpi_96_coded u x f I R F)) as (b & B1 & B2 & B3 & B4 & B5).
      exists b. repeat (split; [assumption|]). intros extra BE. split; [intros _; apply B5|discriminate].
    + destruct (cpi_var_coded u x f I F) as (A & B & _ & D). exists (tobits (tag_layout (T_CPI x CPI_VAR f))).
      split; [exact B|]. split; [now apply spells_tobits|]. split; [apply bitstring_iff, tobits_bit|]. split; [exact Logic.I|].
      intros extra BE. split; [intros _; now rewrite D|discriminate].
  - destruct (coded_written E_GDTI _ _ _ _ _ _ (gdti_coded u x s f I R K F)) as (b & B1 & B2 & B3 & B4 & B5).
    exists b. do 3 (split; [assumption|]). split; [destruct s; exact B4|]. intros extra BE. split; [intros _; apply B5|discriminate].
  - destruct (coded_written E_GIAI _ _ _ _ _ _ (giai_coded u x s f I R K F)) as (b & B1 & B2 & B3 & B4 & B5).
    exists b. do 3 (split; [assumption|]). split; [destruct s; exact B4|]. intros extra BE. split; [intros _; apply B5|discriminate].
  - destruct (coded_written E_GID _ _ _ _ _ _ (gid_coded u x s I)) as (b & B1 & B2 & B3 & B4 & B5).
    exists b. do 3 (split; [assumption|]). split; [destruct s; exact B4|]. intros extra BE. split; [intros _; apply B5|discriminate].
  - destruct (coded_written E_GRAI _ _ _ _ _ _ (grai_coded u x s f I R K F)) as (b & B1 & B2 & B3 & B4 & B5).
    exists b. do 3 (split; [assumption|]). split; [destruct s; exact B4|]. intros extra BE. split; [intros _; apply B5|discriminate].
  - destruct (coded_written E_GSRN _ _ _ _ _ _ (gsrn_coded u x s f I F)) as (b & B1 & B2 & B3 & B4 & B5).
    exists b. do 3 (split; [assumption|]). split; [destruct s; exact B4|]. intros extra BE. split; [intros _; apply B5|discriminate].
  - destruct (coded_written E_GSRNP _ _ _ _ _ _ (gsrnp_coded u x s f I F)) as (b & B1 & B2 & B3 & B4 & B5).
    exists b. do 3 (split; [assumption|]). split; [destruct s; exact B4|]. intros extra BE. split; [intros _; apply B5|discriminate].
  - destruct (coded_written E_ITIP _ _ _ _ _ _ (itip_coded u x s f I R K P F)) as (b & B1 & B2 & B3 & B4 & B5).
    exists b. do 3 (split; [assumption|]). split; [destruct s; exact B4|]. intros extra BE. split; [intros _; apply B5|discriminate].
  - destruct (coded_written E_SGCN _ _ _ _ _ _ (sgcn_coded u x s f I F)) as (b & B1 & B2 & B3 & B4 & B5).
    exists b. do 3 (split; [assumption|]). split; [destruct s; exact B4|]. intros extra BE. split; [intros _; apply B5|discriminate].
  - destruct (coded_written E_SGLN _ _ _ _ _ _ (sgln_coded u x s f I R K F)) as (b & B1 & B2 & B3 & B4 & B5).
    exists b. do 3 (split; [assumption|]). split; [destruct s; exact B4|]. intros extra BE. split; [intros _; apply B5|discriminate].
  - destruct (coded_written E_SGTIN _ _ _ _ _ _ (sgtin_coded u x s f I R K F)) as (b & B1 & B2 & B3 & B4 & B5).
    exists b. do 3 (split; [assumption|]). split; [destruct s; exact B4|]. intros extra BE. split; [intros _; apply B5|discriminate].
  - destruct (coded_written E_SSCC _ _ _ _ _ _ (sscc_coded u x s f I F)) as (b & B1 & B2 & B3 & B4 & B5).
    exists b. do 3 (split; [assumption|]). split; [destruct s; exact B4|]. intros extra BE. split; [intros _; apply B5|discriminate].
  - destruct (coded_written E_USDOD _ _ _ _ _ _ (usdod_coded u x s f I F)) as (b & B1 & B2 & B3 & B4 & B5).
    exists b. do 3 (split; [assumption|]). split; [destruct s; exact B4|]. intros extra BE. split; [intros _; apply B5|discriminate].
Qed.

(** ** each class *)
Lemma roundtrip {T} l n bin from (init : str -> res T) u x : coded l n bin from init u -> ascii u -> init u = Ok x ->
  exists b, bin = Ok b /\ bitstring b /\ length b = n /\ forall extra, from (b ++ extra) = Ok x.
Proof.
  intros (R & L & B & F) A I. exists (tobits l). split; [exact B|]. split; [apply bitstring_iff, tobits_bit|].
  split; [now rewrite length_tobits|]. intros extra. now rewrite F, ascii_form_id.
Qed.
Ltac room I T q := let R := fresh "R" in
  assert (R : coding_has_room q) by (eapply tag_uri_room; [cbn [init_of class_of req_epc]; rewrite I; reflexivity|exact T]).
Theorem sgtin_roundtrip u x s f t : sgtin_init u = Ok x -> ascii u -> sgtin_tag_uri x s f = Ok t ->
  (s = SGTIN_198 -> canonical_text (sgtin_serial x)) -> f < 8 ->
  exists b, sgtin_binary x s f = Ok b /\ bitstring b /\ length b = match s with SGTIN_96 => 96 | SGTIN_198 => 198 end%nat /\
    forall extra, sgtin_from_binary (b ++ extra) = Ok x.
Proof.
  intros I A T K F. room I T (T_SGTIN x s f). apply (roundtrip (tag_layout (T_SGTIN x s f)) _ _ _ sgtin_init u); auto.
  apply sgtin_coded; auto. destruct s; [exact Logic.I|now apply K].
Qed.
Theorem sscc_roundtrip u x s f : sscc_init u = Ok x -> ascii u -> f < 8 ->
  exists b, sscc_binary x s f = Ok b /\ bitstring b /\ length b = 96%nat /\ forall extra, sscc_from_binary (b ++ extra) = Ok x.
Proof. intros I A F. apply (roundtrip (tag_layout (T_SSCC x s f)) _ _ _ sscc_init u); auto. now apply sscc_coded. Qed.
Theorem sgln_roundtrip u x s f t : sgln_init u = Ok x -> ascii u -> sgln_tag_uri x s f = Ok t ->
  (s = SGLN_195 -> canonical_text (sgln_serial x)) -> f < 8 ->
  exists b, sgln_binary x s f = Ok b /\ bitstring b /\ length b = match s with SGLN_96 => 96 | SGLN_195 => 195 end%nat /\
    forall extra, sgln_from_binary (b ++ extra) = Ok x.
Proof.
  intros I A T K F. room I T (T_SGLN x s f). apply (roundtrip (tag_layout (T_SGLN x s f)) _ _ _ sgln_init u); auto.
  apply sgln_coded; auto. destruct s; [exact Logic.I|now apply K].
Qed.
Theorem grai_roundtrip u x s f t : grai_init u = Ok x -> ascii u -> grai_tag_uri x s f = Ok t ->
  (s = GRAI_170 -> canonical_text (grai_serial x)) -> f < 8 ->
  exists b, grai_binary x s f = Ok b /\ bitstring b /\ length b = match s with GRAI_96 => 96 | GRAI_170 => 170 end%nat /\
    forall extra, grai_from_binary (b ++ extra) = Ok x.
Proof.
  intros I A T K F. room I T (T_GRAI x s f). apply (roundtrip (tag_layout (T_GRAI x s f)) _ _ _ grai_init u); auto.
  apply grai_coded; auto. destruct s; [exact Logic.I|now apply K].
Qed.
Theorem giai_roundtrip u x s f t : giai_init u = Ok x -> ascii u -> giai_tag_uri x s f = Ok t ->
  (s = GIAI_202 -> canonical_text (giai_asset x)) -> f < 8 ->
  (exists body, u = lit "urn:epc:id:giai:" ++ body /\ ~ In 58 body) ->
  exists b, giai_binary x s f = Ok b /\ bitstring b /\ length b = match s with GIAI_96 => 96 | GIAI_202 => 202 end%nat /\
    forall extra, giai_from_binary (b ++ extra) = Ok x.
Proof.
  intros I A T K F NC. room I T (T_GIAI x s f). apply (roundtrip (tag_layout (T_GIAI x s f)) _ _ _ giai_init u); auto.
  rewrite <- (core_uri_eq (T_GIAI x s f) u); [|cbn [init_of class_of req_epc]; rewrite I; reflexivity|intros _; exact NC].
  cbn [core_uri]. apply (giai_coded u); auto. destruct s; [exact Logic.I|now apply K].
Qed.
Theorem gsrn_roundtrip u x s f : gsrn_init u = Ok x -> ascii u -> f < 8 ->
  exists b, gsrn_binary x s f = Ok b /\ bitstring b /\ length b = 96%nat /\ forall extra, gsrn_from_binary (b ++ extra) = Ok x.
Proof. intros I A F. apply (roundtrip (tag_layout (T_GSRN x s f)) _ _ _ gsrn_init u); auto. now apply gsrn_coded. Qed.
Theorem gsrnp_roundtrip u x s f : gsrnp_init u = Ok x -> ascii u -> f < 8 ->
  exists b, gsrnp_binary x s f = Ok b /\ bitstring b /\ length b = 96%nat /\ forall extra, gsrnp_from_binary (b ++ extra) = Ok x.
Proof. intros I A F. apply (roundtrip (tag_layout (T_GSRNP x s f)) _ _ _ gsrnp_init u); auto. now apply gsrnp_coded. Qed.
Theorem gdti_roundtrip u x s f t : gdti_init u = Ok x -> ascii u -> gdti_tag_uri x s f = Ok t ->
  (s = GDTI_174 -> canonical_text (gdti_serial x)) -> f < 8 ->
  exists b, gdti_binary x s f = Ok b /\ bitstring b /\ length b = match s with GDTI_96 => 96 | GDTI_174 => 174 end%nat /\
    forall extra, gdti_from_binary (b ++ extra) = Ok x.
Proof.
  intros I A T K F. room I T (T_GDTI x s f). apply (roundtrip (tag_layout (T_GDTI x s f)) _ _ _ gdti_init u); auto.
  apply gdti_coded; auto. destruct s; [exact Logic.I|now apply K].
Qed.
Theorem cpi_96_roundtrip u x f t : cpi_init u = Ok x -> ascii u -> cpi_tag_uri x CPI_96 f = Ok t -> f < 8 ->
  exists b, cpi_binary x CPI_96 f = Ok b /\ bitstring b /\ length b = 96%nat /\ forall extra, cpi_from_binary (b ++ extra) = Ok x.
Proof. intros I A T F. room I T (T_CPI x CPI_96 f). apply (roundtrip (tag_layout (T_CPI x CPI_96 f)) _ _ _ cpi_init u); auto. now apply cpi_96_coded. Qed.
Theorem cpi_var_roundtrip u x f : cpi_init u = Ok x -> ascii u -> f < 8 ->
  exists b, cpi_binary x CPI_VAR f = Ok b /\ bitstring b /\
    length b = (60 + prefix_bits (length (cpi_cp x)) + 6 * length (unescape6 (cpi_ref x)))%nat /\
    forall extra, bitstring extra -> cpi_from_binary (b ++ extra) = Ok x.
Proof.
  intros I A F. destruct (cpi_var_coded u x f I F) as (R & B & L & D). exists (tobits (tag_layout (T_CPI x CPI_VAR f))).
  split; [exact B|]. split; [apply bitstring_iff, tobits_bit|]. split; [now rewrite length_tobits|]. intros extra BE.
  now rewrite D, ascii_form_id.
Qed.
Theorem sgcn_roundtrip u x s f : sgcn_init u = Ok x -> ascii u -> f < 8 ->
  exists b, sgcn_binary x s f = Ok b /\ bitstring b /\ length b = 96%nat /\ forall extra, sgcn_from_binary (b ++ extra) = Ok x.
Proof. intros I A F. apply (roundtrip (tag_layout (T_SGCN x s f)) _ _ _ sgcn_init u); auto. now apply sgcn_coded. Qed.
Theorem itip_roundtrip u x s f t : itip_init u = Ok x -> ascii u -> itip_tag_uri x s f = Ok t ->
  (s = ITIP_212 -> canonical_text (itip_serial x)) -> f < 8 ->
  length (itip_piece x) = 2%nat -> length (itip_total x) = 2%nat -> decimal (itip_piece x) < 99 -> decimal (itip_total x) < 99 ->
  exists b, itip_binary x s f = Ok b /\ bitstring b /\ length b = match s with ITIP_110 => 110 | ITIP_212 => 212 end%nat /\
    forall extra, itip_from_binary (b ++ extra) = Ok x.
Proof.
  intros I A T K F P1 P2 P3 P4. room I T (T_ITIP x s f). apply (roundtrip (tag_layout (T_ITIP x s f)) _ _ _ itip_init u); auto.
  apply itip_coded; auto; [destruct s; [exact Logic.I|now apply K]|]. repeat split; auto.
Qed.
Theorem gid_roundtrip u x s : gid_init u = Ok x -> ascii u ->
  exists b, gid_binary x s = Ok b /\ bitstring b /\ length b = 96%nat /\ forall extra, gid_from_binary (b ++ extra) = Ok x.
Proof. intros I A. apply (roundtrip (tag_layout (T_GID x s)) _ _ _ gid_init u); auto. now apply gid_coded. Qed.
Theorem usdod_roundtrip u x s f : usdod_init u = Ok x -> ascii u -> f < 16 ->
  exists b, usdod_binary x s f = Ok b /\ bitstring b /\ length b = 96%nat /\ forall extra, usdod_from_binary (b ++ extra) = Ok x.
Proof. intros I A F. apply (roundtrip (tag_layout (T_USDOD x s f)) _ _ _ usdod_init u); auto. now apply usdod_coded. Qed.
Theorem adi_roundtrip u x s f : adi_init u = Ok x -> f < 64 ->
  exists b, adi_binary x s f = Ok b /\ bitstring b /\
    length b = (62 + 6 * (length (unescape6 (adi_part x)) + length (unescape6 (adi_serial x))))%nat /\
    forall extra, bitstring extra -> (adi_from_binary (b ++ extra) = Ok x <-> no_early_zeros (adi_part x)).
Proof.
  intros I F. destruct (adi_coded u x s f I F) as (R & B & L & D). exists (tobits (tag_layout (T_ADI x s f))).
  split; [exact B|]. split; [apply bitstring_iff, tobits_bit|]. split; [now rewrite length_tobits|]. exact D.
Qed.
Theorem binary_layout q u t : init_of (class_of (req_epc q)) u = Ok (req_epc q) -> req_tag_uri q = Ok t ->
  canonical_request q -> filter_fits q -> pieces_fit q ->
  exists b, req_binary q = Ok b /\ spells (tag_layout q) b /\ match coding_bits q with Some n => length b = n | None => True end.
Proof.
  intros I T K F P. destruct (binary_written q u t I T K F P) as (b & B & S & _ & L & _). now exists b.
Qed.
Lemma adi_even_refuted : exists u x b y, adi_init u = Ok x /\ adi_binary x ADI_VAR 5 = Ok b /\
  adi_from_binary b = Ok y /\ epc_eqb (E_ADI y) (E_ADI x) = false.
Proof.
  exists (lit "urn:epc:id:adi:2S194.12B.BB"). eexists. eexists. eexists.
  split; [vm_compute; reflexivity|]. split; [vm_compute; reflexivity|]. split; [vm_compute; reflexivity|vm_compute; reflexivity].
Qed.
Theorem itip_99_refused u x s f : itip_init u = Ok x -> f < 8 -> length (itip_piece x) = 2%nat -> length (itip_total x) = 2%nat ->
  99 <= decimal (itip_piece x) \/ 99 <= decimal (itip_total x) -> itip_binary x s f = Raise ConvertException.
Proof.
  intros I F Q1 Q2 Q. apply itip_iff in I as ((U & C & D & DP & DT & _ & _ & _ & L & S & B) & _).
  destruct (filter_written f 3) as (F1 & F2 & F3 & F4); [lia|exact F|].
  destruct (partition_written itip_rows 44 13 (itip_cp x) (itip_item x)) as (P1 & P2 & P3 & P4); [vm_compute; reflexivity|vm_compute; reflexivity|auto..|].
  { lia. }
  change (table_L itip_rows) with itip_table_L in P3. unfold itip_binary. rewrite F3, P3. cbn [bind].
  assert (X : forall z, digits z -> length z = 2%nat -> 99 <= decimal z -> encode_fixed_width_integer z 7 = Raise ConvertException).
  { intros z Dz Lz Hz. apply encode_fixed_refused; [destruct z; discriminate|now apply digits_iff|apply (intable_le _ 2); lia|].
    change (10 ^ N.of_nat (fixed_width_digits 7)) with 100. lia. }
  assert (Y : forall z, digits z -> length z = 2%nat -> (exists r, encode_fixed_width_integer z 7 = Ok r) \/ encode_fixed_width_integer z 7 = Raise ConvertException).
  { intros z Dz Lz. destruct (N.le_gt_cases 99 (decimal z)) as [H|H]; [right; auto|left].
    rewrite encode_fixed_ok; [eauto|destruct z; discriminate|now apply digits_iff|apply (intable_le _ 2); lia|lia|].
    change (10 ^ N.of_nat (fixed_width_digits 7)) with 100. lia. }
  destruct Q as [Q|Q]; [now rewrite (X _ DP Q1 Q)|].
  destruct (Y _ DP Q1) as [[r ->]| ->]; [|reflexivity]. cbn [bind]. now rewrite (X _ DT Q2 Q).
Qed.
