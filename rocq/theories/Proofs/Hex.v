(** hex() and base64() spell the bits of binary(). *)
From Coq Require Import String.
From Verif.Model Require Import Py Re Regexes Common Base.
From Verif.Model Require Import Adi Cpi Gdti Giai Gid Grai Gsrn Gsrnp Itip Sgcn Sgln Sgtin Sscc Usdod Parsers.
From Verif.Spec Require Import Spec SpecEscapes SpecGrammar SpecSchemes SpecTags SpecLayout SpecCoding SpecHex.
From Verif.Proofs Require Import Basics Num Uni Layout Decode DecodeA Filter.
Ltac Zify.zify_post_hook ::= Z.div_mod_to_equations.

(** * Hexadecimal *)

Definition hexset : list N := lit "0123456789ABCDEFabcdef".
Lemma hex_in h : hex_text h <-> forall c, In c h -> In c hexset.
Proof.
  split; intros H c I; specialize (H c I).
  - assert (X : forall c, c <= 102 -> (48 <= c <= 57 \/ 65 <= c <= 70 \/ 97 <= c <= 102) -> In c hexset).
    { clear. intros c L H. cbn. lia. }
    apply X; [lia|exact H].
  - cbn in H. lia.
Qed.
Lemma hex_all (P : N -> bool) h : forallb P hexset = true -> hex_text h -> forallb P h = true.
Proof. intros A H. rewrite hex_in in H. rewrite forallb_forall in *. auto. Qed.

Lemma hex_in_base h : hex_text h -> forallb (in_base 16) h = true.
Proof. apply hex_all. vm_compute. reflexivity. Qed.
Lemma hex_dv c : In c hexset -> dv c = hex_value c.
Proof. intros H. apply N.eqb_eq. revert c H. apply (proj1 (forallb_forall (fun c => dv c =? hex_value c) hexset)). vm_compute. reflexivity. Qed.
Lemma hex_map_dv h : hex_text h -> map dv h = map hex_value h.
Proof. intros H. rewrite hex_in in H. apply map_ext_in. intros c I. now apply hex_dv, H. Qed.
Lemma hex_value_lt h : hex_text h -> Forall (fun v => v < 16) (map hex_value h).
Proof. intros H. rewrite <- hex_map_dv by exact H. now apply Forall_dv, hex_in_base. Qed.

Lemma sval_four v s : v < 16 -> sval 2 (four_bits v ++ s) = v * 2 ^ N.of_nat (length s) + sval 2 s.
Proof.
  intros L. rewrite sval_app. f_equal. f_equal. unfold sval, four_bits. cbn [map].
  assert (D : forall d, d < 2 -> dv (48 + d) = d) by (intros d Hd; rewrite dv_digit; [lia|apply is_digit_iff; lia]).
  rewrite !D by lia. unfold val. cbn [fold_left]. lia.
Qed.
Lemma four_bits_bit v : v < 16 -> forallb is_bit (four_bits v) = true.
Proof. intros L. unfold four_bits. cbn [forallb]. rewrite !andb_true_iff, !is_bit_iff. lia. Qed.
Lemma length_four vs : length (flat_map four_bits vs) = (4 * length vs)%nat.
Proof. induction vs as [|v vs IH]; [reflexivity|]. cbn [flat_map]. rewrite app_length, IH. cbn [length four_bits]. lia. Qed.
Lemma four_bits_all vs : Forall (fun v => v < 16) vs -> forallb is_bit (flat_map four_bits vs) = true.
Proof. induction 1 as [|v vs L F IH]; [reflexivity|]. cbn [flat_map]. rewrite forallb_app, IH, four_bits_bit by exact L. reflexivity. Qed.
Lemma sval_hex vs : Forall (fun v => v < 16) vs -> sval 2 (flat_map four_bits vs) = val 16 vs.
Proof.
  induction 1 as [|v vs L F IH]; [reflexivity|]. cbn [flat_map]. rewrite sval_four, val_cons, IH, length_four by exact L. f_equal. f_equal.
  replace (N.of_nat (4 * length vs)) with (4 * N.of_nat (length vs)) by lia. rewrite N.pow_mul_r. reflexivity.
Qed.
Lemma flat_map_map {A B C} (f : A -> B) (g : B -> list C) l : flat_map g (map f l) = flat_map (fun x => g (f x)) l.
Proof. induction l as [|x l IH]; [reflexivity|]. cbn. now rewrite IH. Qed.
Lemma flat_map_ext_in {A B} (f g : A -> list B) l : (forall x, In x l -> f x = g x) -> flat_map f l = flat_map g l.
Proof. induction l as [|x l IH]; intros H; [reflexivity|]. cbn. rewrite H by now left. f_equal. apply IH. intros y I. apply H. now right. Qed.
Lemma hex_bits_eq h : hex_bits h = flat_map four_bits (map hex_value h).
Proof. unfold hex_bits. now rewrite flat_map_map. Qed.

Theorem hex_reads h : hex_text h -> h <> [] -> hex_to_binary h = Ok (hex_bits h).
Proof.
  intros H NE. unfold hex_to_binary, int_base. rewrite py_int_spec; [|auto|exact NE|now apply hex_in_base]. cbn [of_option bind].
  f_equal. rewrite hex_bits_eq. pose proof (hex_value_lt h H) as L.
  assert (V : sval 16 h = sval 2 (flat_map four_bits (map hex_value h))) by (rewrite sval_hex by exact L; unfold sval; now rewrite hex_map_dv).
  assert (LL : (length h * 4)%nat = length (flat_map four_bits (map hex_value h))) by (rewrite length_four, map_length; lia).
  rewrite fmt_bin_bits.
  - rewrite V, LL. apply bits_sval, four_bits_all, L.
  - destruct h; [contradiction|cbn; lia].
  - rewrite V, LL. apply sval_bound, forallb_bit_in_base2, four_bits_all, L.
Qed.

Lemma nibbles m b : forallb is_bit b = true -> length b = (4 * m)%nat ->
  exists vs, length vs = m /\ Forall (fun v => v < 16) vs /\ b = flat_map four_bits vs.
Proof.
  revert b. induction m as [|m IH]; intros b B L.
  - exists []. destruct b; [|discriminate L]. auto.
  - destruct b as [|a1 [|a2 [|a3 [|a4 b]]]]; try (cbn in L; lia). cbn [forallb] in B. rewrite !andb_true_iff, !is_bit_iff in B.
    destruct B as (A1 & A2 & A3 & A4 & B). destruct (IH b B ltac:(cbn in L; lia)) as (vs & L1 & F & ->).
    exists ((a1 - 48) * 8 + (a2 - 48) * 4 + (a3 - 48) * 2 + (a4 - 48) :: vs). split; [cbn; lia|]. split; [constructor; [lia|exact F]|].
    cbn [flat_map]. unfold four_bits. cbn [app]. f_equal; [lia|f_equal; [lia|f_equal; [lia|f_equal; lia]]].
Qed.

Lemma dchar_hex v : v < 16 -> In (dchar_up v) hexset /\ hex_value (dchar_up v) = v /\ dchar_up v < 97.
Proof.
  intros L. assert (E : In v [0;1;2;3;4;5;6;7;8;9;10;11;12;13;14;15]) by (cbn; lia).
  cbn in E. repeat destruct E as [<-|E]; try contradiction; (split; [cbn; tauto|split; reflexivity]).
Qed.

(** hexadecimal of a whole number of digits that starts with a non-zero one *)
Lemma fmt_hex m b : forallb is_bit b = true -> length b = (4 * m)%nat -> firstn 4 b <> lit "0000" -> (1 <= m)%nat ->
  exists h, fmt_hex_up (Z.of_N (sval 2 b)) = h /\ hex_text h /\ upper_case h /\ hex_bits h = b /\ length h = m.
Proof.
  intros B L Z M. destruct (nibbles m b B L) as (vs & Lv & F & ->). eexists. split; [reflexivity|].
  unfold fmt_hex_up, signed. rewrite (proj2 (Z.ltb_ge _ _)) by lia. rewrite N2Z.id. unfold nhex_up. rewrite sval_hex by exact F.
  assert (C : canonical vs).
  { destruct vs as [|v vs]; [cbn in Lv; lia|]. right. exists v, vs. split; [reflexivity|]. intros ->. now apply Z. }
  rewrite to_base_val by (lia || assumption). rewrite Forall_forall in F.
  split; [|split; [|split]].
  - apply hex_in. intros c I. apply in_map_iff in I as (v & <- & I). now apply dchar_hex, F.
  - intros c I. apply in_map_iff in I as (v & <- & I). now apply dchar_hex, F.
  - unfold hex_bits. rewrite flat_map_map. apply flat_map_ext_in. intros v I. now rewrite (proj1 (proj2 (dchar_hex v (F v I)))).
  - rewrite map_length. exact Lv.
Qed.

Definition padding (n : nat) : nat := Nat.modulo (16 - Nat.modulo n 16) 16.
Lemma padding_ok n : (padding n < 16)%nat /\ Nat.modulo (n + padding n) 16 = 0%nat.
Proof. unfold padding. pose proof (Nat.mod_upper_bound n 16). lia. Qed.

Theorem hex_form b : bitstring b -> firstn 4 b <> lit "0000" -> (4 <= length b)%nat ->
  exists h pad, binary_hex (Ok b) = Ok h /\ hex_text h /\ upper_case h /\ (pad < 16)%nat /\ Nat.modulo (length b + pad) 16 = 0%nat /\
    hex_bits h = b ++ repeat 48 pad /\ hex_to_binary h = Ok (b ++ repeat 48 pad).
Proof.
  intros B Z L. apply bitstring_iff in B. destruct (padding_ok (length b)) as [P1 P2].
  set (b' := b ++ repeat 48 (padding (length b))).
  assert (B' : forallb is_bit b' = true).
  { unfold b'. rewrite forallb_app, B. clear. induction (padding (length b)); [reflexivity|assumption]. }
  assert (L' : length b' = (length b + padding (length b))%nat) by (unfold b'; now rewrite app_length, repeat_length).
  assert (M : exists m, length b' = (4 * m)%nat /\ (1 <= m)%nat).
  { exists ((length b + padding (length b)) / 4)%nat. rewrite L'. lia. }
  destruct M as (m & M1 & M2).
  assert (Z' : firstn 4 b' <> lit "0000").
  { unfold b'. rewrite firstn_app. replace (4 - length b)%nat with 0%nat by lia. now rewrite firstn_O, app_nil_r. }
  destruct (fmt_hex m b' B' M1 Z' M2) as (h & E & T & U & HB & HL).
  exists h, (padding (length b)). split.
  { unfold binary_hex. cbn [bind]. unfold padr. fold (padding (length b)). replace (length b + padding (length b) - length b)%nat with (padding (length b)) by lia.
    change (b ++ repeat c_0 (padding (length b))) with b'. rewrite int2_spec; [cbn [bind]; now rewrite E| |exact B'].
    intros X. rewrite X in L'. cbn in L'. lia. }
  split; [exact T|]. split; [exact U|]. split; [exact P1|]. split; [exact P2|]. split; [exact HB|]. rewrite hex_reads; [now rewrite HB|exact T|].
  intros ->. cbn in HL. lia.
Qed.

(** * Base64 *)

Definition byte_bits (x : N) : str := four_bits (x / 16) ++ four_bits (x mod 16).
Definition bytes (bs : list N) : Prop := Forall (fun x => x < 256) bs.

Lemma fromhex_ok n h : hex_text h -> length h = (2 * n)%nat ->
  exists bs, bytes_fromhex h = Ok bs /\ bytes bs /\ hex_bits h = flat_map byte_bits bs /\ length bs = n.
Proof.
  intros H L. unfold bytes_fromhex.
  assert (X : exists bs, fromhex_aux h None = Some bs /\ bytes bs /\ hex_bits h = flat_map byte_bits bs /\ length bs = n).
  { revert h H L. induction n as [|n IH]; intros h H L.
    - destruct h; [|discriminate L]. exists []. repeat split. constructor.
    - destruct h as [|a [|c h]]; try (cbn in L; lia).
      assert (Da : In a hexset) by (rewrite hex_in in H; apply H; now left).
      assert (Dc : In c hexset) by (rewrite hex_in in H; apply H; right; now left).
      destruct (IH h ltac:(intros x I; apply H; right; now right) ltac:(cbn in L; lia)) as (bs & E & B & HB & LB).
      assert (S : forall y, In y hexset -> digit_in 16 y = Some (hex_value y) /\ hex_value y < 16 /\ is_ascii_space y = false).
      { assert (S : forallb (fun y => match digit_in 16 y with Some d => d =? hex_value y | None => false end && (hex_value y <? 16) && negb (is_ascii_space y)) hexset = true) by (vm_compute; reflexivity).
        rewrite forallb_forall in S. intros y I. specialize (S y I). apply andb_true_iff in S as [S S3]. apply andb_true_iff in S as [S1 S2].
        destruct (digit_in 16 y); [|discriminate S1]. apply N.eqb_eq in S1 as ->. apply N.ltb_lt in S2. now apply negb_true_iff in S3. }
      destruct (S a Da) as (A1 & A2 & A3). destruct (S c Dc) as (C1 & C2 & _).
      exists (16 * hex_value a + hex_value c :: bs). cbn [fromhex_aux]. rewrite A3, A1, C1, E. split; [reflexivity|]. split; [constructor; [lia|exact B]|].
      split; [|cbn; lia]. unfold hex_bits in *. cbn [flat_map]. rewrite HB. unfold byte_bits.
      replace ((16 * hex_value a + hex_value c) / 16) with (hex_value a) by lia.
      replace ((16 * hex_value a + hex_value c) mod 16) with (hex_value c) by lia. now rewrite app_assoc. }
  destruct X as (bs & E & X). exists bs. now rewrite E.
Qed.

Lemma dlow_hex v : v < 16 -> In (dchar_low v) hexset /\ hex_value (dchar_low v) = v.
Proof.
  intros L. assert (E : In v [0;1;2;3;4;5;6;7;8;9;10;11;12;13;14;15]) by (cbn; lia).
  cbn in E. repeat destruct E as [<-|E]; try contradiction; (split; [cbn; tauto|reflexivity]).
Qed.
Lemma bytes_hex_ok bs : bytes bs -> hex_text (bytes_hex bs) /\ hex_bits (bytes_hex bs) = flat_map byte_bits bs /\ length (bytes_hex bs) = (2 * length bs)%nat.
Proof.
  intros B. induction B as [|x bs L B (IH1 & IH2 & IH3)]; [repeat split; intros c []|].
  destruct (dlow_hex (x / 16) ltac:(lia)) as [P1 P2]. destruct (dlow_hex (x mod 16) ltac:(lia)) as [Q1 Q2].
  unfold bytes_hex in *. cbn [flat_map app]. split; [|split].
  - apply hex_in. rewrite hex_in in IH1. intros c [<-|[<-|I]]; auto.
  - unfold hex_bits in *. cbn [flat_map]. rewrite P2, Q2, IH2. unfold byte_bits. now rewrite app_assoc.
  - cbn [length]. lia.
Qed.

Lemma b64_ok v : v < 64 -> b64_val (b64_char v) = Some v /\ (b64_char v =? 61) = false /\ is_ascii (b64_char v) = true /\
  b64_char v = nth (N.to_nat v) base64_alphabet 0.
Proof.
  assert (S : forallb (fun n => let v := N.of_nat n in match b64_val (b64_char v) with Some w => w =? v | None => false end && negb (b64_char v =? 61) && is_ascii (b64_char v) && (b64_char v =? nth n base64_alphabet 0)) (seq 0 64) = true) by (vm_compute; reflexivity).
  rewrite forallb_forall in S. intros L. specialize (S (N.to_nat v)). rewrite in_seq in S. specialize (S ltac:(lia)). cbn zeta in S. rewrite N2Nat.id in S.
  apply andb_true_iff in S as [S S4]. apply andb_true_iff in S as [S S3]. apply andb_true_iff in S as [S1 S2].
  destruct (b64_val (b64_char v)); [|discriminate S1]. apply N.eqb_eq in S1 as ->. apply negb_true_iff in S2. apply N.eqb_eq in S4. auto.
Qed.

Lemma three_ind (P : list N -> Prop) : P [] -> (forall x, P [x]) -> (forall x y, P [x; y]) ->
  (forall x y z l, P l -> P (x :: y :: z :: l)) -> forall l, P l.
Proof.
  intros H0 H1 H2 H3. fix IH 1. intros [|x [|y [|z l]]]; [exact H0|exact (H1 x)|exact (H2 x y)|apply H3, IH].
Qed.

Lemma a2b_0 v s l p : v < 64 -> a2b (b64_char v :: s) 0 l p = a2b s 1 v 0.
Proof. intros H. destruct (b64_ok v H) as (A & B & _). cbn [a2b]. now rewrite B, A. Qed.
Lemma a2b_1 v s l p : v < 64 -> a2b (b64_char v :: s) 1 l p = option_map (cons (l * 4 + v / 16)) (a2b s 2 (v mod 16) 0).
Proof. intros H. destruct (b64_ok v H) as (A & B & _). cbn [a2b]. now rewrite B, A. Qed.
Lemma a2b_2 v s l p : v < 64 -> a2b (b64_char v :: s) 2 l p = option_map (cons (l * 16 + v / 4)) (a2b s 3 (v mod 4) 0).
Proof. intros H. destruct (b64_ok v H) as (A & B & _). cbn [a2b]. now rewrite B, A. Qed.
Lemma a2b_3 v s l p : v < 64 -> a2b (b64_char v :: s) 3 l p = option_map (cons (l * 64 + v)) (a2b s 0 0 0).
Proof. intros H. destruct (b64_ok v H) as (A & B & _). cbn [a2b]. now rewrite B, A. Qed.

Lemma six_24 x y z : x < 256 -> y < 256 -> z < 256 ->
  six_bits (x / 4) ++ six_bits (x mod 4 * 16 + y / 16) ++ six_bits (y mod 16 * 4 + z / 64) ++ six_bits (z mod 64) =
  byte_bits x ++ byte_bits y ++ byte_bits z.
Proof.
  intros X Y Z. unfold six_bits, byte_bits, four_bits. cbn [app].
  repeat (f_equal; [lia|]). f_equal. lia.
Qed.
Lemma six_bits_0 : six_bits 0 = repeat 48 6. Proof. reflexivity. Qed.

Lemma b64_roundtrip bs : bytes bs -> a2b (b64encode bs ++ lit "==") 0 0 0 = Some bs /\ forallb is_ascii (b64encode bs) = true /\
  base64_of (flat_map byte_bits bs) (b64encode bs).
Proof.
  induction bs as [|x|x y|x y z bs IH] using three_ind; intros B.
  - repeat split. exists [], 0%nat, 0%nat. repeat split; try constructor; try lia.
  - inversion_clear B as [|? ? X _]. cbn [b64encode app]. rewrite a2b_0, a2b_1 by lia.
    split; [change (a2b _ 2 _ 0) with (Some (@nil N)); cbn [option_map]; do 2 f_equal; lia|].
    destruct (b64_ok (x / 4) ltac:(lia)) as (_ & _ & A1 & A2). destruct (b64_ok (x mod 4 * 16) ltac:(lia)) as (_ & _ & C1 & C2).
    split; [cbn [forallb]; now rewrite A1, C1|].
    exists [x / 4; x mod 4 * 16], 4%nat, 2%nat. split; [repeat constructor; lia|]. split; [lia|]. split; [lia|]. split; [cbn [map]; now rewrite A2, C2|].
    split; [|reflexivity]. pose proof (six_24 x 0 0 X eq_refl eq_refl) as S. change (0 / 16) with 0 in S. rewrite N.add_0_r in S.
    apply (f_equal (firstn 12)) in S. cbn [flat_map]. rewrite !app_nil_r. exact S.
  - inversion_clear B as [|? ? X B']. inversion_clear B' as [|? ? Y _]. cbn [b64encode app]. rewrite a2b_0, a2b_1, a2b_2 by lia.
    split; [change (a2b _ 3 _ 0) with (Some (@nil N)); cbn [option_map]; do 2 f_equal; [lia|f_equal; lia]|].
    destruct (b64_ok (x / 4) ltac:(lia)) as (_ & _ & A1 & A2). destruct (b64_ok (x mod 4 * 16 + y / 16) ltac:(lia)) as (_ & _ & C1 & C2).
    destruct (b64_ok (y mod 16 * 4) ltac:(lia)) as (_ & _ & D1 & D2).
    split; [cbn [forallb]; now rewrite A1, C1, D1|].
    exists [x / 4; x mod 4 * 16 + y / 16; y mod 16 * 4], 2%nat, 1%nat. split; [repeat constructor; lia|]. split; [lia|]. split; [lia|]. split; [cbn [map]; now rewrite A2, C2, D2|].
    split; [|reflexivity]. pose proof (six_24 x y 0 X Y eq_refl) as S. change (0 / 64) with 0 in S. rewrite N.add_0_r in S.
    apply (f_equal (firstn 18)) in S. cbn [flat_map]. rewrite !app_nil_r. exact S.
  - inversion_clear B as [|? ? X B']. inversion_clear B' as [|? ? Y B]. inversion_clear B as [|? ? Z B'].
    destruct (IH B') as (I1 & I2 & vs & zs & es & V & Z1 & E1 & S1 & S2 & S3). cbn [b64encode app].
    rewrite a2b_0, a2b_1, a2b_2, a2b_3, I1 by lia. split; [cbn [option_map]; f_equal; f_equal; [lia|f_equal; [lia|f_equal; lia]]|].
    destruct (b64_ok (x / 4) ltac:(lia)) as (_ & _ & A1 & A2). destruct (b64_ok (x mod 4 * 16 + y / 16) ltac:(lia)) as (_ & _ & C1 & C2).
    destruct (b64_ok (y mod 16 * 4 + z / 64) ltac:(lia)) as (_ & _ & D1 & D2). destruct (b64_ok (z mod 64) ltac:(lia)) as (_ & _ & F1 & F2).
    split; [cbn [forallb]; now rewrite A1, C1, D1, F1, I2|].
    exists (x / 4 :: x mod 4 * 16 + y / 16 :: y mod 16 * 4 + z / 64 :: z mod 64 :: vs), zs, es.
    split; [repeat (constructor; [lia|]); exact V|]. split; [exact Z1|]. split; [exact E1|]. split; [cbn [map app]; now rewrite A2, C2, D2, F2, S1|].
    split; [|cbn [length]; clear - S3; lia].
    cbn [flat_map]. rewrite S2. pose proof (six_24 x y z X Y Z) as S. rewrite !app_assoc in *. now rewrite S.
Qed.

Theorem base64_form h : hex_text h -> Nat.modulo (length h) 2 = 0%nat ->
  exists s h', hex_to_base64 h = Ok s /\ base64_of (hex_bits h) s /\ base64_to_hex s = Ok h' /\ hex_text h' /\ hex_bits h' = hex_bits h.
Proof.
  intros H L. destruct (fromhex_ok (length h / 2) h H ltac:(lia)) as (bs & E & B & HB & LB).
  destruct (b64_roundtrip bs B) as (R1 & R2 & R3). destruct (bytes_hex_ok bs B) as (X1 & X2 & X3).
  exists (b64encode bs), (bytes_hex bs). unfold hex_to_base64. rewrite E. cbn [bind]. split; [reflexivity|].
  rewrite HB. split; [exact R3|]. split; [|now split].
  unfold base64_to_hex, b64decode. rewrite forallb_app, R2, R1. reflexivity.
Qed.

Theorem base64_odd h : hex_text h -> Nat.modulo (length h) 2 = 1%nat -> hex_to_base64 h = Raise ValueError.
Proof.
  intros H L. unfold hex_to_base64, bytes_fromhex.
  assert (X : fromhex_aux h None = None).
  { assert (M : exists n, length h = (2 * n + 1)%nat) by (exists (length h / 2)%nat; lia). destruct M as [n M]. clear L.
    revert h H M. induction n as [|n IH]; intros h H M.
    - destruct h as [|c [|]]; try (cbn in M; lia). assert (D : In c hexset) by (rewrite hex_in in H; apply H; now left). cbn in D.
      repeat destruct D as [<-|D]; try contradiction; reflexivity.
    - destruct h as [|a [|c h]]; try (cbn in M; lia). cbn [fromhex_aux]. rewrite (IH h); [|intros x I; apply H; right; now right|cbn in M; lia].
      rewrite hex_in in H. destruct (is_ascii_space a) eqn:Sa.
      + exfalso. specialize (H a (or_introl eq_refl)). assert (Y : forallb (fun a => negb (is_ascii_space a)) hexset = true) by (vm_compute; reflexivity).
        rewrite forallb_forall in Y. apply Y in H. rewrite Sa in H. discriminate.
      + destruct (digit_in 16 a); [|reflexivity]. now destruct (digit_in 16 c). }
  now rewrite X.
Qed.

(** * Tags *)

Lemma header_nibble k b : firstn 8 b = tag_header k -> firstn 4 b <> lit "0000" /\ (4 <= length b)%nat.
Proof.
  intros H. split.
  - replace (firstn 4 b) with (firstn 4 (firstn 8 b)) by (rewrite firstn_firstn; f_equal). rewrite H. destruct k; discriminate.
  - apply (f_equal (@length N)) in H. rewrite firstn_length in H. assert (X : length (tag_header k) = 8%nat) by (destruct k; reflexivity); rewrite X in H; lia.
Qed.

(** the hexadecimal and the base64 form of a tag, and what the parsers make of them *)
Theorem tag_forms q b : req_binary q = Ok b -> bitstring b ->
  exists h s pad, req_hex q = Ok h /\ req_base64 q = Ok s /\ (pad < 16)%nat /\ Nat.modulo (length b + pad) 16 = 0%nat /\
    hex_text h /\ upper_case h /\ hex_bits h = b ++ repeat 48 pad /\ base64_of (b ++ repeat 48 pad) s /\
    let own := from_binary_of (class_of (req_epc q)) (b ++ repeat 48 pad) in
    from_hex (from_binary_of (class_of (req_epc q))) h = own /\ from_base64 (from_binary_of (class_of (req_epc q))) s = own /\
    binary_to_tag_encodable (b ++ repeat 48 pad) = own /\ hex_to_tag_encodable h = own /\ base64_to_tag_encodable s = own.
Proof.
  intros E B. destruct (header_nibble _ _ (binary_header q b E)) as [Z L].
  destruct (hex_form b B Z L) as (h & pad & H1 & H2 & H3 & H4 & H5 & H6 & H7).
  assert (Lh : (4 * length h = length b + pad)%nat).
  { apply (f_equal (@length N)) in H6. rewrite app_length, repeat_length, hex_bits_eq, length_four, map_length in H6. exact H6. }
  destruct (base64_form h H2 ltac:(lia)) as (s & h' & S1 & S2 & S3 & S4 & S5).
  exists h, s, pad. unfold req_hex, req_base64, binary_base64. rewrite E, H1. cbn [bind]. rewrite H6 in S2.
  split; [reflexivity|]. split; [exact S1|]. split; [exact H4|]. split; [exact H5|]. split; [exact H2|]. split; [exact H3|]. split; [exact H6|]. split; [exact S2|].
  cbn zeta. unfold from_base64, from_hex, hex_to_tag_encodable, base64_to_tag_encodable, hex_to_tag_encodable. rewrite H7, S3. cbn [bind].
  assert (NE : h' <> []).
  { intros ->. cbn in S5. rewrite H6 in S5. destruct b; [cbn in L; lia|discriminate S5]. }
  rewrite (hex_reads h' S4 NE), S5, H6. cbn [bind]. rewrite (dispatch_own q b (repeat 48 pad) E). auto.
Qed.
