(** Reading a tag of no fixed size, as runs of the source. *)
From Coq Require Import String Lia.
From Verif.Model Require Import Py PyFormat Syntax Machine Common Base.
From Verif.Model Require Import Parsers.
From Verif.Source Require Import Program World.
From Verif.Spec Require Import Spec SpecSchemes SpecGrammar SpecLayout SpecCoding SpecReading SpecVarReading SpecParsers SpecRuns.
From Verif.Proofs Require Import Run SrcUse Runs Basics Codecs CtorAll PureParsers RunsAll TagReading TagReading2 TagReadingRuns VarReading.
From Verif.Proofs Require SrcKeys Uni Num.
Open Scope N_scope.
Open Scope list_scope.

Theorem var_same b u r : var_tag b u ->
  (calls W (VFun "parsers.binary_to_tag_encodable") [VStr b] [] r <-> calls W (VFun "parsers.epc_pure_identity_to_scheme") [VStr u] [] r).
Proof.
  intros T. destruct (var_reading b u T) as (c & s & -> & E). rewrite <- pure_any in E.
  pose proof (binary_runs b) as X. pose proof (scheme_runs (scheme_prefix c ++ s)) as Y. rewrite E in X.
  split; intros Z; [pose proof (calls_once _ _ _ _ _ Z X)|pose proof (calls_once _ _ _ _ _ Z Y)]; subst r; assumption.
Qed.
Lemma var_uri b u e : var_tag b u -> binary_to_tag_encodable b = Ok e -> epc_uri e = u.
Proof. intros T E. destruct (var_reading b u T) as (c & s & _ & R). rewrite R in E. exact (proj2 (init_class _ _ _ E)). Qed.
Theorem var_reads b u : var_tag b u -> readable_var b ->
  exists v, parses "binary_to_tag_encodable" b v /\ attribute v "epc_uri" (VStr u) /\ parses "epc_pure_identity_to_scheme" u v.
Proof.
  intros T R. apply (var_readable b u T) in R as (e & E). pose proof (var_uri b u e T E) as EU. pose proof (binary_runs b) as X. rewrite E in X.
  exists (obj_of e). split; [exact X|]. split.
  - destruct (SrcKeys.obj_shape e) as (c & l & ->). rewrite <- EU. exists c. eexists. split; reflexivity.
  - apply (var_same b u _ T). exact X.
Qed.
Theorem var_only b u v : var_tag b u -> parses "binary_to_tag_encodable" b v -> readable_var b /\ attribute v "epc_uri" (VStr u).
Proof.
  intros T P. pose proof (calls_once _ _ _ _ _ P (binary_runs b)) as E. symmetry in E. apply result_returned in E as (e & E & ->). split.
  - apply (var_readable b u T). now exists e.
  - rewrite <- (var_uri b u e T E). destruct (SrcKeys.obj_shape e) as (c & l & ->). exists c. eexists. split; reflexivity.
Qed.

(** * Tags that the standard gives no URI, and tags with early zeros *)
Lemma not_closed b i t0 : forallb is_bit b = true -> six_stop (map (Num.sval 2) (chunks 6 (skipn i b))) = t0 ->
  ((length b <? i + 6 * length t0 + 6)%nat || negb (bits_at b (i + 6 * length t0) 6 =? 0)) = true -> forall t, ~ closed_text b i t.
Proof.
  intros B E X t T. pose proof (closed_stop b i t B T) as S. rewrite E in S. clear E. subst t0. destruct T as (L & _ & _ & Z).
  apply orb_true_iff in X as [X|X]; [apply Nat.ltb_lt in X; exact (proj1 (Nat.lt_nge _ _) X L)|]. rewrite Z in X. discriminate X.
Qed.
Lemma prefix_seven b n cp : prefix_of b n cp -> bits_at b 11 3 = 5 -> n = 7%nat.
Proof.
  intros (Hn & P & _) E. rewrite P in E. assert (X : n = 6%nat \/ n = 7%nat \/ n = 8%nat \/ n = 9%nat \/ n = 10%nat \/ n = 11%nat \/ n = 12%nat) by lia.
  repeat destruct X as [X|X]; subst n; try discriminate E. reflexivity.
Qed.
Lemma unclosed_cpi : let b := lit "00111101000101000010010101111011111101110101010000010001110111011010110100110011" in
  bitstring b /\ firstn 8 b = tag_header K_CPI_VAR /\ (forall u, ~ var_tag b u) /\
  exists v, parses "binary_to_tag_encodable" b v /\ attribute v "epc_uri" (VStr (lit "urn:epc:id:cpi:0614141.5PQ7Z43.0")).
Proof.
  intros b. assert (B : forallb is_bit b = true) by (vm_compute; reflexivity). split; [now apply Uni.bitstring_iff|]. split; [reflexivity|]. split.
  - intros u (_ & [(_ & cp & t & v & (n & P & T & _) & _)|(H & _)]); [|discriminate H]. pose proof (prefix_seven b n cp P ltac:(vm_compute; reflexivity)) as ->. revert T.
    apply (not_closed b 38 (lit "5PQ7Z43") B); vm_compute; reflexivity.
  - eexists. split; [exists (300 * 100)%nat; vm_compute; reflexivity|]. eexists _, _. split; reflexivity.
Qed.
Lemma short_cpi : let b := lit "0011110100010100001001010111101111110111010101000001000111011101101011010011001100000000000011000000111001" in
  bitstring b /\ firstn 8 b = tag_header K_CPI_VAR /\ (forall u, ~ var_tag b u) /\
  exists v, parses "binary_to_tag_encodable" b v /\ attribute v "epc_uri" (VStr (lit "urn:epc:id:cpi:0614141.5PQ7Z43.12345")).
Proof.
  intros b. assert (B : forallb is_bit b = true) by (vm_compute; reflexivity). split; [now apply Uni.bitstring_iff|]. split; [reflexivity|]. split.
  - intros u (_ & [(_ & cp & t & v & (n & P & T & L & _) & _)|(H & _)]); [|discriminate H]. pose proof (prefix_seven b n cp P ltac:(vm_compute; reflexivity)) as ->.
    pose proof (closed_stop b _ t B T) as E. vm_compute in E. subst t. revert L. apply Nat.lt_nge, Nat.ltb_lt. vm_compute. reflexivity.
  - eexists. split; [exists (300 * 100)%nat; vm_compute; reflexivity|]. eexists _, _. split; reflexivity.
Qed.
Lemma lost_adi : let b := lit "00111011000011100000110010010011110001111001110100010000110001001110110011000000110110110111111000111001" in
  bitstring b /\ firstn 8 b = tag_header K_ADI_VAR /\ closed_text b 50 (lit "P1N3") /\ codes_at b 80 6 4 = map code_six (lit "6789") /\ (forall u, ~ var_tag b u) /\
  exists v, parses "binary_to_tag_encodable" b v /\ attribute v "epc_uri" (VStr (lit "urn:epc:id:adi:2S194.P1N3.678")).
Proof.
  intros b. assert (B : forallb is_bit b = true) by (vm_compute; reflexivity). split; [now apply Uni.bitstring_iff|]. split; [reflexivity|].
  assert (P : closed_text b 50 (lit "P1N3")).
  { split; [apply Nat.leb_le; vm_compute; reflexivity|]. split; [apply CodecSpec.six_bit_text_iff; vm_compute; reflexivity|]. split; vm_compute; reflexivity. }
  split; [exact P|]. split; [vm_compute; reflexivity|]. split.
  - intros u (_ & [(H & _)|(_ & c & t & w & (_ & T & W) & _)]); [discriminate H|]. pose proof (closed_once b 50 t _ B T P) as ->. revert W.
    apply (not_closed b 80 (lit "6789") B); vm_compute; reflexivity.
  - eexists. split; [exists (300 * 100)%nat; vm_compute; reflexivity|]. eexists _, _. split; reflexivity.
Qed.
Lemma early_adi : let b := lit "00111011000011100000110010010011110001111001110100010100000001001001001100101101110000110011000000110110110111111000111001000000" in
  bitstring b /\ firstn 8 b = tag_header K_ADI_VAR /\ adi_var_fields b (lit "2S194") (lit "TAIL-03") (lit "6789") /\
  calls W (VFun "parsers.binary_to_tag_encodable") [VStr b] [] (Raised (XExn ConvertException)) /\
  exists v, parses "epc_pure_identity_to_scheme" (lit "urn:epc:id:adi:2S194.TAIL-03.6789") v.
Proof.
  intros b. assert (B : forallb is_bit b = true) by (vm_compute; reflexivity). split; [now apply Uni.bitstring_iff|]. split; [reflexivity|]. split.
  - split; [split; [apply CodecSpec.cage_text_iff; split; [cbn; lia|vm_compute; reflexivity]|vm_compute; reflexivity]|].
    split; (split; [apply Nat.leb_le; vm_compute; reflexivity|]; split; [apply CodecSpec.six_bit_text_iff; vm_compute; reflexivity|]; split; vm_compute; reflexivity).
  - split; [exists (300 * 100)%nat; vm_compute; reflexivity|]. eexists. exists (300 * 100)%nat. vm_compute. reflexivity.
Qed.
Lemma cpi_case : let b := lit "001111010001010000100101011110111111011101010100000100011101111011110110101101001100110000000000000000000000000000000011000000111001" in var_tag b (lit "urn:epc:id:cpi:0614141.5PQ7%2FZ43.12345") /\ readable_var b.
Proof.
  intros b. assert (B : forallb is_bit b = true) by (vm_compute; reflexivity).
  assert (F : cpi_var_fields b (lit "0614141") (lit "5PQ7/Z43") (lit "12345")).
  { exists 7%nat. split; [split; [lia|split; [vm_compute; reflexivity|apply padded_iff; [lia|split; vm_compute; reflexivity]]]|].
    split; [split; [apply Nat.leb_le; vm_compute; reflexivity|]; split; [apply CodecSpec.six_bit_text_iff; vm_compute; reflexivity|]; split; vm_compute; reflexivity|].
    split; [apply Nat.leb_le; vm_compute; reflexivity|apply plain_iff; vm_compute; reflexivity]. }
  split.
  - split; [now apply Uni.bitstring_iff|]. left. split; [reflexivity|]. exists (lit "0614141"), (lit "5PQ7/Z43"), (lit "12345"). split; [exact F|reflexivity].
  - split; [|intros H; discriminate H]. intros _ cp t v F'. destruct (cpi_var_once b _ _ _ _ _ _ B F F') as (<- & <- & <-). split; [discriminate|]. split; apply Nat.leb_le; vm_compute; reflexivity.
Qed.
Lemma adi_case : let b := lit "00111011000011100000110010010011110001111001110100010000110001001110110011000000100011110110110111111000111001000000" in var_tag b (lit "urn:epc:id:adi:2S194.P1N3.%236789") /\ readable_var b.
Proof.
  intros b. assert (B : forallb is_bit b = true) by (vm_compute; reflexivity).
  assert (F : adi_var_fields b (lit "2S194") (lit "P1N3") (lit "#6789")).
  { split; [split; [apply CodecSpec.cage_text_iff; split; [cbn; lia|vm_compute; reflexivity]|vm_compute; reflexivity]|].
    split; (split; [apply Nat.leb_le; vm_compute; reflexivity|]; split; [apply CodecSpec.six_bit_text_iff; vm_compute; reflexivity|]; split; vm_compute; reflexivity). }
  split.
  - split; [now apply Uni.bitstring_iff|]. right. split; [reflexivity|]. exists (lit "2S194"), (lit "P1N3"), (lit "#6789"). split; [exact F|]. split; [|reflexivity].
    intros a c d r E (k & K & C & D). change (map code_six (unescape6 (escape6 (lit "P1N3"))) ++ [0]) with [16; 49; 14; 51; 0] in E.
    assert (X : (c = 16 /\ d = 49) \/ (c = 49 /\ d = 14) \/ (c = 14 /\ d = 51) \/ (c = 51 /\ d = 0)).
    { do 4 (destruct a as [|? a]; [injection E as <- <- _; tauto|injection E as _ E]). destruct a as [|? [|? a]]; discriminate E. }
    assert (Y : k = 1 \/ k = 2 \/ k = 3 \/ k = 4 \/ k = 5) by lia.
    repeat destruct X as [X|X]; destruct X as [-> ->]; repeat destruct Y as [Y|Y]; subst k; vm_compute in C, D; try discriminate C; discriminate D.
  - split; [intros H; discriminate H|]. intros _ c t w F'. destruct (adi_var_once b _ _ _ _ _ _ B F F') as (<- & <- & <-).
    split; [cbn; intuition discriminate|]. split; [apply Nat.leb_le; vm_compute; reflexivity|]. split; [apply Nat.leb_le; vm_compute; reflexivity|].
    exists (lit "6789"). split; [discriminate|]. split; [cbn; intuition discriminate|]. right. reflexivity.
Qed.
