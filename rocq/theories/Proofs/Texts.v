(** Which texts are read as hexadecimal and as base64. *)
From Coq Require Import String Lia.
From Verif.Model Require Import Py Re Regexes Common Base.
From Verif.Model Require Import Adi Cpi Gdti Giai Gid Grai Gsrn Gsrnp Itip Sgcn Sgln Sgtin Sscc Usdod Parsers.
From Verif.Spec Require Import Spec SpecEscapes SpecGrammar SpecSchemes SpecTags SpecLayout SpecCoding SpecHex SpecTexts.
From Verif.Proofs Require Import Basics Num Uni Layout Decode DecodeA Filter Hex.
Ltac Zify.zify_post_hook ::= Z.div_mod_to_equations.

(** * int(s, 16) *)
Definition cnt (s : str) : nat := length (filter (in_base 16) s).
Lemma cnt_le s : (cnt s <= length s)%nat.
Proof. apply filter_length_le. Qed.
Lemma cnt_full s : (length s <= cnt s)%nat -> forallb (in_base 16) s = true.
Proof.
  unfold cnt. induction s as [|c s IH]; [reflexivity|]. cbn [filter forallb length]. pose proof (filter_length_le (in_base 16) s).
  destruct (in_base 16 c); cbn [length andb]; intros L; [apply IH|]; lia.
Qed.
Lemma cnt_cons c s : (cnt s <= cnt (c :: s))%nat.
Proof. unfold cnt. cbn [filter]. destruct (in_base 16 c); cbn [length]; lia. Qed.
Lemma digit_in_base c d : digit_in 16 c = Some d -> in_base 16 c = true /\ d < 16.
Proof.
  unfold in_base. intros E. rewrite E. split; [reflexivity|]. unfold digit_in in E. destruct (digit_val c); [|discriminate].
  destruct (n <? 16) eqn:L; [|discriminate]. injection E as <-. lia.
Qed.
Lemma pow_le_nat a b : (a <= b)%nat -> 16 ^ N.of_nat a <= 16 ^ N.of_nat b.
Proof. intros L. apply N.pow_le_mono_r; lia. Qed.
Lemma scan_bound s : forall pu seen acc r, scan_digits 16 s pu seen acc = Some r -> r < (acc + 1) * 16 ^ N.of_nat (cnt s).
Proof.
  induction s as [|c s IH]; intros pu seen acc r H; cbn [scan_digits] in H.
  - destruct pu; [discriminate|]. destruct seen; [|discriminate]. injection H as <-. change (N.of_nat (cnt [])) with 0. rewrite N.pow_0_r. lia.
  - destruct (digit_in 16 c) eqn:D.
    + apply digit_in_base in D as [B L]. apply IH in H. unfold cnt in *. cbn [filter]. rewrite B. cbn [length].
      rewrite Nat2N.inj_succ, N.pow_succ_r'. eapply N.lt_le_trans; [exact H|]. rewrite N.mul_assoc. apply N.mul_le_mono_r. lia.
    + pose proof (pow_le_nat _ _ (cnt_cons c s)) as P.
      assert (K : forall a : N, a < (acc + 1) * 16 ^ N.of_nat (cnt s) -> a < (acc + 1) * 16 ^ N.of_nat (cnt (c :: s))).
      { intros a La. eapply N.lt_le_trans; [exact La|]. now apply N.mul_le_mono_l. }
      destruct (c =? c_us).
      * destruct pu; [discriminate|]. apply K. exact (IH _ _ _ _ H).
      * destruct pu; [discriminate|]. destruct seen; [|discriminate]. cbn [negb] in H. destruct (skip_space (c :: s)); [|discriminate].
        injection H as <-. apply N.lt_le_trans with ((acc + 1) * 1); [lia|]. apply N.mul_le_mono_l.
        assert (0 < 16 ^ N.of_nat (cnt (c :: s))) by (apply N.neq_0_lt_0, N.pow_nonzero; lia). lia.
Qed.
Lemma cnt_skip_prefix s : (cnt (skip_prefix 16 s) <= cnt s)%nat.
Proof.
  unfold skip_prefix. destruct s as [|z [|x t]]; try lia. destruct ((z =? 48) && _); [|lia].
  pose proof (cnt_cons z (x :: t)). pose proof (cnt_cons x t). destruct t as [|u t]; [lia|]. pose proof (cnt_cons u t). destruct (u =? c_us); lia.
Qed.
Lemma cnt_skip_space s : (cnt (skip_space s) <= cnt s)%nat.
Proof. induction s as [|c s IH]; [cbn; lia|]. cbn [skip_space]. pose proof (cnt_cons c s). destruct (is_ascii_space c); lia. Qed.
Lemma parse_bound s r : parse_unsigned 16 s = Some r -> r < 16 ^ N.of_nat (cnt s).
Proof.
  unfold parse_unsigned. intros H. pose proof (cnt_skip_prefix s) as L. destruct (skip_prefix 16 s) as [|u t]; [discriminate|].
  destruct (u =? c_us); [discriminate|]. apply scan_bound in H. eapply N.lt_le_trans; [exact H|]. rewrite N.mul_1_l. now apply pow_le_nat.
Qed.
Lemma py_int_bound s z : py_int 16 s = Some z -> Z.abs_N z < 16 ^ N.of_nat (cnt (to_ascii_num s)).
Proof.
  unfold py_int. intros H. pose proof (cnt_skip_space (to_ascii_num s)) as L. destruct (skip_space (to_ascii_num s)) as [|c t]; [discriminate|].
  pose proof (cnt_cons c t) as L'. pose proof (pow_le_nat _ _ L). pose proof (pow_le_nat _ _ L').
  destruct (c =? 43); [|destruct (c =? 45)].
  - destruct (parse_unsigned 16 t) as [r|] eqn:R; [|discriminate]. injection H as <-. apply parse_bound in R. lia.
  - destruct (parse_unsigned 16 t) as [r|] eqn:R; [|discriminate]. injection H as <-. apply parse_bound in R. lia.
  - destruct (parse_unsigned 16 (c :: t)) as [r|] eqn:R; [|discriminate]. injection H as <-. apply parse_bound in R. lia.
Qed.

(** digits of any script *)
Lemma in_base16_hex c : in_base 16 c = true <-> (48 <= c <= 57 \/ 65 <= c <= 70 \/ 97 <= c <= 102).
Proof.
  unfold in_base, digit_in, digit_val. destruct ((48 <=? c) && (c <=? 57)) eqn:A; [|destruct ((65 <=? c) && (c <=? 90)) eqn:B; [|destruct ((97 <=? c) && (c <=? 122)) eqn:C]].
  - replace (c - 48 <? 16) with true by lia. lia.
  - destruct (c - 55 <? 16) eqn:D; lia.
  - destruct (c - 87 <? 16) eqn:D; lia.
  - lia.
Qed.
Lemma hex_text_base h : hex_text h <-> forallb (in_base 16) h = true.
Proof. unfold hex_text. rewrite forallb_forall. split; intros H c I; apply in_base16_hex; auto. Qed.
Lemma udigit_space c : udigit c <> None -> is_uni_space c = false.
Proof. intros H. apply is_d_not_space. now apply is_d_iff. Qed.
Lemma to_ascii_char_writes c d : in_base 16 d = true ->
  (to_ascii_char c = d <-> c = d \/ (48 <= d <= 57 /\ udigit c = Some (d - 48))).
Proof.
  intros D. rewrite in_base16_hex in D. unfold to_ascii_char. split.
  - destruct (c <? 127) eqn:L; [auto|]. destruct (is_uni_space c); [lia|]. destruct (udigit c) as [v|] eqn:U; [|lia].
    intros <-. right. pose proof (udigit_lt _ _ U). split; [lia|]. f_equal. lia.
  - intros [->|[R U]].
    + replace (d <? 127) with true by lia. reflexivity.
    + destruct (c <? 127) eqn:L.
      * apply udigit_ascii in U; [|lia]. lia.
      * rewrite udigit_space by congruence. rewrite U. lia.
Qed.
Lemma writes_ascii s h : writes_digits s h <-> hex_text h /\ map to_ascii_char s = h.
Proof.
  unfold writes_digits. split; intros [H W]; (split; [exact H|]); apply hex_text_base in H.
  - induction W as [|c d s h E W IH]; [reflexivity|]. cbn [forallb] in H. apply andb_prop in H as [Hd H]. cbn [map]. rewrite IH by exact H.
    f_equal. now apply to_ascii_char_writes.
  - subst h. induction s as [|c s IH]; [constructor|]. cbn [map forallb] in H. apply andb_prop in H as [Hd H]. constructor; [|auto].
    now apply to_ascii_char_writes.
Qed.
Lemma to_ascii_num_hex s : forallb (in_base 16) (to_ascii_num s) = true -> map to_ascii_char s = to_ascii_num s.
Proof.
  unfold to_ascii_num. destruct (forallb is_ascii s) eqn:A; [|reflexivity]. intros H. rewrite <- (map_id s) at 2. apply map_ext_in. intros c I.
  rewrite forallb_forall in H. apply H, in_base16_hex in I. unfold to_ascii_char. replace (c <? 127) with true by lia. reflexivity.
Qed.
Lemma to_ascii_num_writes s h : writes_digits s h <-> hex_text h /\ to_ascii_num s = h.
Proof.
  rewrite writes_ascii. split; intros [H E]; (split; [exact H|]); subst h.
  - unfold to_ascii_num. destruct (forallb is_ascii s) eqn:A; [|reflexivity]. rewrite <- (map_id s) at 1. apply map_ext_in. intros c I.
    unfold to_ascii_char. destruct (c <? 127) eqn:L; [reflexivity|]. exfalso.
    assert (c = 127). { rewrite forallb_forall in A. apply A in I. unfold is_ascii in I. lia. } subst c.
    apply hex_text_base in H. rewrite forallb_forall in H. specialize (H 63). assert (X : In 63 (map to_ascii_char s)) by (change 63 with (to_ascii_char 127); now apply in_map).
    apply H in X. discriminate X.
  - apply to_ascii_num_hex. now apply hex_text_base.
Qed.

Lemma py_int_to_ascii s h : to_ascii_num s = h -> forallb is_ascii h = true -> py_int 16 s = py_int 16 h.
Proof. intros E A. unfold py_int. replace (to_ascii_num h) with h; [now rewrite E|]. unfold to_ascii_num. now rewrite A. Qed.
Theorem hex_written s h : writes_digits s h -> h <> [] -> hex_to_binary s = Ok (hex_bits h).
Proof.
  intros W NE. apply to_ascii_num_writes in W as [H E]. rewrite <- (hex_reads h H NE). unfold hex_to_binary, int_base.
  assert (A : forallb is_ascii h = true) by (apply (hex_all is_ascii); [vm_compute; reflexivity|exact H]).
  rewrite (py_int_to_ascii s h E A). replace (length s) with (length h); [reflexivity|]. rewrite <- E. apply to_ascii_num_length.
Qed.

(** anything else that int() takes *)
Lemma padl_zeros w k s : (length s + k <= w)%nat -> firstn k (padl c_0 w s) = repeat 48 k.
Proof.
  intros L. unfold padl. rewrite firstn_app, repeat_length. replace (k - (w - length s))%nat with 0%nat by lia. rewrite app_nil_r.
  clear - L. assert (X : (k <= w - length s)%nat) by lia. remember (w - length s)%nat as n eqn:E. clear - X. revert n X. induction k as [|k IH]; intros n X; [reflexivity|].
  destruct n as [|n]; [lia|]. cbn. f_equal. apply IH. lia.
Qed.
Definition no_header (b : str) : Prop := forall k, firstn 8 b <> tag_header k.
Theorem hex_decorated s b : (forall h, ~ writes_digits s h) -> hex_to_binary s = Ok b -> no_header b.
Proof.
  intros NW E k Hk. unfold hex_to_binary, int_base in E. destruct (py_int 16 s) as [z|] eqn:P; [|discriminate]. cbn [of_option bind] in E. injection E as <-.
  assert (C : (S (cnt (to_ascii_num s)) <= length s)%nat).
  { destruct (Nat.le_gt_cases (S (cnt (to_ascii_num s))) (length s)) as [L|L]; [exact L|]. exfalso.
    apply (NW (to_ascii_num s)). apply to_ascii_num_writes. split; [|reflexivity]. apply hex_text_base, cnt_full. rewrite to_ascii_num_length. lia. }
  apply py_int_bound in P. unfold fmt_bin in Hk. destruct (z <? 0)%Z eqn:N.
  - destruct k; discriminate Hk.
  - destruct (header_nibble _ _ Hk) as [Z _]. apply Z. change (lit "0000") with (repeat 48 4). apply padl_zeros.
    assert (B : Z.to_N z < 2 ^ N.of_nat (4 * (length s - 1))).
    { replace (N.of_nat (4 * (length s - 1))) with (4 * N.of_nat (length s - 1)) by lia. rewrite N.pow_mul_r. change (2 ^ 4) with 16.
      eapply N.lt_le_trans; [|apply pow_le_nat with (a := cnt (to_ascii_num s)); lia]. lia. }
    destruct (Nat.eq_dec (length s) 1) as [E1|E1].
    + rewrite E1 in *. change (4 * (1 - 1))%nat with 0%nat in B. exfalso.
      assert (X : Z.to_N z = 0) by (change (2 ^ N.of_nat 0) with 1 in B; lia). rewrite X in Hk. destruct k; discriminate Hk.
    + pose proof (nbin_length (Z.to_N z) (4 * (length s - 1)) ltac:(lia) B). lia.
Qed.

Theorem hex_accepted s e : hex_to_tag_encodable s = Ok e ->
  exists h, writes_digits s h /\ h <> [] /\ binary_to_tag_encodable (hex_bits h) = Ok e.
Proof.
  unfold hex_to_tag_encodable. intros H. destruct (hex_to_binary s) as [b|x] eqn:E; [|discriminate H]. cbn [bind] in H.
  destruct (forallb (in_base 16) (to_ascii_num s)) eqn:F.
  - exists (to_ascii_num s). assert (W : writes_digits s (to_ascii_num s)) by (apply to_ascii_num_writes; split; [now apply hex_text_base|reflexivity]).
    assert (NE : to_ascii_num s <> []). { intros X. destruct s as [|c s]; [discriminate E|]. apply (f_equal (@length N)) in X. rewrite to_ascii_num_length in X. discriminate X. }
    split; [exact W|]. split; [exact NE|]. rewrite (hex_written _ _ W NE) in E. injection E as <-. exact H.
  - exfalso. rewrite unknown_header in H; [discriminate H|]. apply (hex_decorated s); [|exact E].
    intros h W. apply to_ascii_num_writes in W as [X Y]. rewrite <- Y in X. apply hex_text_base in X. congruence.
Qed.
Theorem hex_other s : (forall h, ~ writes_digits s h) ->
  (hex_to_tag_encodable s = Raise ValueError /\ hex_to_binary s = Raise ValueError) \/
  (hex_to_tag_encodable s = Raise ConvertException /\ exists b, hex_to_binary s = Ok b).
Proof.
  intros NW. unfold hex_to_tag_encodable. destruct (hex_to_binary s) as [b|x] eqn:E.
  - right. cbn [bind]. rewrite unknown_header; [eauto|]. exact (hex_decorated s b NW E).
  - left. cbn [bind]. assert (x = ValueError) as ->; [|auto]. unfold hex_to_binary, int_base in E. destruct (py_int 16 s); [discriminate E|]. now injection E.
Qed.
Theorem from_hex_other c s : In c tag_classes -> (forall h, ~ writes_digits s h) ->
  from_hex (from_binary_of c) s = Raise ValueError \/ from_hex (from_binary_of c) s = Raise KeyError.
Proof.
  intros Hc NW. unfold from_hex. destruct (hex_to_binary s) as [b|x] eqn:E.
  - right. cbn [bind]. apply wrong_header; [exact Hc|]. intros k _. exact (hex_decorated s b NW E k).
  - left. cbn [bind]. assert (x = ValueError) as ->; [|auto]. unfold hex_to_binary, int_base in E. destruct (py_int 16 s); [discriminate E|]. now injection E.
Qed.

(** * base64 *)
Lemma position_val c : position c base64_alphabet = b64_val c.
Proof.
  destruct (c <? 128) eqn:L.
  - assert (A : forallb (fun c => match position c base64_alphabet, b64_val c with Some a, Some b => a =? b | None, None => true | _, _ => false end) (map N.of_nat (seq 0 128)) = true) by (vm_compute; reflexivity).
    rewrite forallb_forall in A. specialize (A c). assert (I : In c (map N.of_nat (seq 0 128))).
    { apply in_map_iff. exists (N.to_nat c). split; [lia|]. apply in_seq. lia. }
    apply A in I. destruct (position c base64_alphabet), (b64_val c); try discriminate I; [apply N.eqb_eq in I; now subst|reflexivity].
  - assert (P : forall l, forallb (fun x => x <? 128) l = true -> position c l = None).
    { induction l as [|x l IH]; [reflexivity|]. cbn [forallb position]. intros F. apply andb_prop in F as [F1 F2]. replace (c =? x) with false by lia. now rewrite IH. }
    rewrite P by (vm_compute; reflexivity). unfold b64_val. replace (c <=? 90) with false by lia. replace (c <=? 122) with false by lia. replace (c <=? 57) with false by lia.
    replace (c =? 43) with false by lia. replace (c =? 47) with false by lia. rewrite !andb_false_r. reflexivity.
Qed.
Lemma b64_val_lt c v : b64_val c = Some v -> v < 64.
Proof.
  unfold b64_val. destruct ((65 <=? c) && (c <=? 90)) eqn:A; [intros E; injection E as <-; lia|]. destruct ((97 <=? c) && (c <=? 122)) eqn:B; [intros E; injection E as <-; lia|].
  destruct ((48 <=? c) && (c <=? 57)) eqn:C; [intros E; injection E as <-; lia|]. destruct (c =? 43); [intros E; injection E as <-; lia|]. destruct (c =? 47); [intros E; injection E as <-; lia|discriminate].
Qed.
Lemma sextets_cons c s : sextets (c :: s) = match b64_val c with Some v => [v] | None => [] end ++ sextets s.
Proof. unfold sextets. cbn [flat_map]. now rewrite position_val. Qed.
Lemma sextets_app a b : sextets (a ++ b) = sextets a ++ sextets b.
Proof. apply flat_map_app. Qed.
Lemma sextets_eq s : sextets (61 :: s) = sextets s.
Proof. rewrite sextets_cons. reflexivity. Qed.

Fixpoint cut (s : str) (quad pads : N) : str :=
  match s with
  | [] => []
  | c :: s' =>
      if c =? 61 then
        if (2 <=? quad) && (4 <=? quad + (pads + 1)) then [c] else c :: cut s' quad (if 2 <=? quad then pads + 1 else pads)
      else match b64_val c with
           | None => c :: cut s' quad pads
           | Some _ => c :: cut s' ((quad + 1) mod 4) 0
           end
  end.
Fixpoint dec64 (vs : list N) (quad left : N) : option (list N) :=
  match vs with
  | [] => if quad =? 1 then None else Some []
  | v :: vs' =>
      if quad =? 0 then dec64 vs' 1 v
      else if quad =? 1 then option_map (cons (left * 4 + v / 16)) (dec64 vs' 2 (v mod 16))
      else if quad =? 2 then option_map (cons (left * 16 + v / 4)) (dec64 vs' 3 (v mod 4))
      else option_map (cons (left * 64 + v)) (dec64 vs' 0 0)
  end.
Lemma quad_cases q : q < 4 -> q = 0 \/ q = 1 \/ q = 2 \/ q = 3.
Proof. lia. Qed.
Lemma a2b_cut s : forall q l p, q < 4 -> (p = 0 \/ p = 1 /\ q = 2) -> a2b (s ++ lit "==") q l p = dec64 (sextets (cut s q p)) q l.
Proof.
  induction s as [|c s IH]; intros q l p Q P.
  - destruct P as [->|[-> ->]]; [|reflexivity]. destruct (quad_cases q Q) as [->|[->|[->| ->]]]; reflexivity.
  - cbn [app a2b cut]. destruct (c =? 61) eqn:E.
    + apply N.eqb_eq in E as ->. destruct ((2 <=? q) && (4 <=? q + (p + 1))) eqn:S.
      * change (sextets [61]) with (@nil N). cbn [dec64]. replace (q =? 1) with false by lia. reflexivity.
      * rewrite sextets_eq. apply IH; [exact Q|]. destruct P as [->|[-> ->]]; [|discriminate S]. destruct (2 <=? q) eqn:T; [|auto]. right. split; [reflexivity|]. cbn [andb] in S. lia.
    + destruct (b64_val c) as [v|] eqn:V.
      * rewrite sextets_cons, V. cbn [app dec64]. destruct (quad_cases q Q) as [->|[->|[->| ->]]]; cbn [N.eqb Pos.eqb].
        -- change ((0 + 1) mod 4) with 1. apply IH; [lia|auto].
        -- change ((1 + 1) mod 4) with 2. rewrite IH; [reflexivity|lia|auto].
        -- change ((2 + 1) mod 4) with 3. rewrite IH; [reflexivity|lia|auto].
        -- change ((3 + 1) mod 4) with 0. rewrite IH; [reflexivity|lia|auto].
      * rewrite sextets_cons, V. cbn [app]. now apply IH.
Qed.
Lemma four_ind (P : list N -> Prop) : P [] -> (forall x, P [x]) -> (forall x y, P [x; y]) -> (forall x y z, P [x; y; z]) ->
  (forall w x y z l, P l -> P (w :: x :: y :: z :: l)) -> forall l, P l.
Proof.
  intros H0 H1 H2 H3 H4. assert (K : forall n l, (length l <= n)%nat -> P l).
  { induction n as [|n IH]; intros l L; [destruct l; [exact H0|cbn in L; lia]|]. destruct l as [|w [|x [|y [|z l]]]]; auto. apply H4, IH. cbn in L. lia. }
  intros l. exact (K (length l) l (le_n _)).
Qed.
Lemma six_three w x y z : w < 64 -> x < 64 -> y < 64 -> z < 64 ->
  six_bits w ++ six_bits x ++ six_bits y ++ six_bits z = byte_bits (w * 4 + x / 16) ++ byte_bits (x mod 16 * 16 + y / 4) ++ byte_bits (y mod 4 * 64 + z).
Proof. intros A B C D. unfold six_bits, byte_bits, four_bits. cbn [app]. repeat (apply f_equal2; [lia|]). reflexivity. Qed.
Lemma whole_24 a b : length a = 24%nat -> whole_bytes (a ++ b) = a ++ whole_bytes b.
Proof.
  intros L. unfold whole_bytes. rewrite app_length, L. replace (8 * Nat.div (24 + length b) 8)%nat with (length a + 8 * Nat.div (length b) 8)%nat by lia.
  now rewrite firstn_app_2.
Qed.
Lemma dec64_spec vs : Forall (fun v => v < 64) vs ->
  if Nat.eqb (Nat.modulo (length vs) 4) 1 then dec64 vs 0 0 = None
  else exists bs, dec64 vs 0 0 = Some bs /\ bytes bs /\ flat_map byte_bits bs = whole_bytes (flat_map six_bits vs).
Proof.
  induction vs using four_ind; intros F.
  - exists []. repeat split; constructor.
  - reflexivity.
  - inversion_clear F as [|? ? X F']. inversion_clear F' as [|? ? Y _]. cbn [length]. change (Nat.eqb (Nat.modulo 2 4) 1) with false. cbn iota.
    exists [x * 4 + y / 16]. split; [reflexivity|]. split; [constructor; [lia|constructor]|]. cbn [flat_map]. rewrite !app_nil_r.
    unfold whole_bytes, six_bits, byte_bits, four_bits. cbn [app length Nat.div Nat.divmod fst Nat.mul Nat.add firstn]. repeat (apply f_equal2; [lia|]). reflexivity.
  - inversion_clear F as [|? ? X F']. inversion_clear F' as [|? ? Y F]. inversion_clear F as [|? ? Z _]. cbn [length]. change (Nat.eqb (Nat.modulo 3 4) 1) with false. cbn iota.
    exists [x * 4 + y / 16; y mod 16 * 16 + z / 4]. split; [reflexivity|]. split; [constructor; [lia|constructor; [lia|constructor]]|]. cbn [flat_map]. rewrite !app_nil_r.
    unfold whole_bytes, six_bits, byte_bits, four_bits. cbn [app length Nat.div Nat.divmod fst Nat.mul Nat.add firstn]. repeat (apply f_equal2; [lia|]). reflexivity.
  - inversion_clear F as [|? ? W F']. inversion_clear F' as [|? ? X F]. inversion_clear F as [|? ? Y F']. inversion_clear F' as [|? ? Z F]. specialize (IHvs F).
    assert (E : dec64 (w :: x :: y :: z :: vs) 0 0 = option_map (fun bs => w * 4 + x / 16 :: x mod 16 * 16 + y / 4 :: y mod 4 * 64 + z :: bs) (dec64 vs 0 0)).
    { cbn [dec64 N.eqb Pos.eqb]. destruct (dec64 vs 0 0); reflexivity. }
    rewrite E. cbn [length]. replace (Nat.modulo (S (S (S (S (length vs))))) 4) with (Nat.modulo (length vs) 4) by lia.
    destruct (Nat.eqb (Nat.modulo (length vs) 4) 1); [now rewrite IHvs|]. destruct IHvs as (bs & -> & B & R). cbn [option_map].
    eexists. split; [reflexivity|]. split; [repeat (constructor; [lia|]); exact B|]. 
    replace (flat_map six_bits (w :: x :: y :: z :: vs)) with ((six_bits w ++ six_bits x ++ six_bits y ++ six_bits z) ++ flat_map six_bits vs) by (cbn [flat_map]; now rewrite <- !app_assoc).
    rewrite whole_24 by reflexivity. rewrite six_three by assumption. cbn [flat_map]. rewrite R, <- !app_assoc. reflexivity.
Qed.
Lemma sextets_lt s : Forall (fun v => v < 64) (sextets s).
Proof.
  induction s as [|c s IH]; [constructor|]. rewrite sextets_cons. destruct (b64_val c) as [v|] eqn:V; [|exact IH]. constructor; [exact (b64_val_lt c v V)|exact IH].
Qed.

(** where reading stops *)
Definition quad (p : str) : nat := Nat.modulo (length (sextets p)) 4.
Definition half_closed (p : str) : Prop := exists a j, p = a ++ lit "=" ++ j /\ quad a = 2%nat /\ sextets j = [].
Lemma snoc_eq {A} (a b : list A) x y : a ++ [x] = b ++ [y] -> a = b /\ x = y.
Proof. apply app_inj_tail. Qed.
Lemma closed_snoc p c : closed (p ++ [c]) <-> c = 61 /\ (quad p = 3%nat \/ half_closed p).
Proof.
  unfold closed, half_closed, quad. split.
  - intros [(a & E & Q)|(a & j & E & Q & J)].
    + apply snoc_eq in E as [-> ->]. auto.
    + change (lit "=") with [61] in E. rewrite !app_assoc in E. apply snoc_eq in E as [-> ->]. split; [reflexivity|]. right. exists a, j. rewrite <- app_assoc. auto.
  - intros [-> [Q|(a & j & -> & Q & J)]]; [left; eauto|right]. exists a, j. rewrite <- !app_assoc. auto.
Qed.
Lemma snoc_prefix {A} (p : list A) c p' q' : p ++ [c] = p' ++ q' -> q' <> [] -> exists r, p = p' ++ r.
Proof.
  intros E N. destruct (exists_last N) as (r & x & ->). rewrite app_assoc in E. apply app_inj_tail in E as [-> _]. now exists r.
Qed.
Lemma quad_snoc p c : quad (p ++ [c]) = match b64_val c with Some _ => Nat.modulo (S (quad p)) 4 | None => quad p end.
Proof.
  unfold quad. rewrite sextets_app, app_length. change [c] with (c :: []). rewrite sextets_cons. destruct (b64_val c); cbn [app length]; change (sextets []) with (@nil N); cbn [length]; lia.
Qed.
Lemma half_snoc p c : half_closed (p ++ [c]) <-> (c = 61 /\ quad p = 2%nat) \/ (b64_val c = None /\ half_closed p).
Proof.
  unfold half_closed. split.
  - intros (a & j & E & Q & J). destruct (list_eq_dec N.eq_dec j []) as [->|N].
    + rewrite app_nil_r in E. apply snoc_eq in E as [-> ->]. auto.
    + right. destruct (exists_last N) as (r & x & ->). rewrite !app_assoc in E. apply snoc_eq in E as [-> ->]. rewrite sextets_app in J.
      apply app_eq_nil in J as [J1 J2]. split; [|exists a, r; rewrite <- app_assoc; auto]. rewrite sextets_cons in J2. destruct (b64_val x); [discriminate J2|reflexivity].
  - intros [[-> Q]|[V (a & j & -> & Q & J)]].
    + exists p, []. auto.
    + exists a, (j ++ [c]). rewrite <- !app_assoc. split; [reflexivity|]. split; [exact Q|]. rewrite sextets_app, J, sextets_cons, V. reflexivity.
Qed.
Lemma half_quad p : half_closed p -> quad p = 2%nat.
Proof. intros (a & j & -> & Q & J). unfold quad in *. rewrite !sextets_app, J. change (sextets (lit "=")) with (@nil N). rewrite !app_nil_r. exact Q. Qed.
Lemma cut_reads s : forall p q pads, (forall p' q', p = p' ++ q' -> ~ closed p') -> q = N.of_nat (quad p) -> (pads = 1 /\ half_closed p \/ pads = 0 /\ ~ half_closed p) ->
  read_part (p ++ s) (p ++ cut s q pads).
Proof.
  induction s as [|c s IH]; intros p q pads NC -> H.
  - cbn [cut]. rewrite !app_nil_r. exists []. rewrite app_nil_r. split; [reflexivity|]. split; [intros p' q' E _; exact (NC p' q' E)|]. right. split; [reflexivity|]. apply (NC p []). now rewrite app_nil_r.
  - assert (Q4 : (quad p < 4)%nat) by (unfold quad; apply Nat.mod_upper_bound; lia).
    assert (NS : ~ closed (p ++ [c]) -> forall p' q', p ++ [c] = p' ++ q' -> ~ closed p').
    { intros N p' q' E. destruct (list_eq_dec N.eq_dec q' []) as [->|Nq]; [rewrite app_nil_r in E; now subst|].
      destruct (snoc_prefix p c p' q' E Nq) as (r & ->). now apply (NC p' r). }
    assert (step : forall q' pads', ~ closed (p ++ [c]) -> q' = N.of_nat (quad (p ++ [c])) -> (pads' = 1 /\ half_closed (p ++ [c]) \/ pads' = 0 /\ ~ half_closed (p ++ [c])) ->
              read_part (p ++ c :: s) (p ++ c :: cut s q' pads')).
    { intros q' pads' N Eq Hp. specialize (IH (p ++ [c]) q' pads' (NS N) Eq Hp). rewrite <- !app_assoc in IH. exact IH. }
    cbn [cut]. destruct (c =? 61) eqn:E.
    + apply N.eqb_eq in E as ->. destruct ((2 <=? N.of_nat (quad p)) && (4 <=? N.of_nat (quad p) + (pads + 1))) eqn:S.
      * exists s. rewrite <- app_assoc. split; [reflexivity|]. split.
        -- intros p' q' E N. destruct (snoc_prefix p 61 p' q' E N) as (r & ->). now apply (NC p' r).
        -- left. apply closed_snoc. split; [reflexivity|]. destruct H as [[-> H]|[-> H]]; [auto|left; lia].
      * apply step.
        -- rewrite closed_snoc. intros [_ [K|K]]; [lia|]. pose proof (half_quad p K). destruct H as [[-> H]|[-> H]]; [lia|tauto].
        -- rewrite quad_snoc. reflexivity.
        -- rewrite half_snoc. destruct H as [[-> H]|[-> H]].
           ++ pose proof (half_quad p H). lia.
           ++ destruct (2 <=? N.of_nat (quad p)) eqn:T; [left|right]; (split; [reflexivity|]); [left; split; [reflexivity|lia]|]. intros [[_ K]|[_ K]]; [lia|tauto].
    + assert (NC' : ~ closed (p ++ [c])) by (rewrite closed_snoc; lia). destruct (b64_val c) as [v|] eqn:V; apply step; auto.
      * rewrite quad_snoc, V. lia.
      * right. split; [reflexivity|]. rewrite half_snoc. intros [[K _]|[K _]]; [lia|congruence].
      * rewrite quad_snoc, V. reflexivity.
      * rewrite half_snoc. destruct H as [[-> H]|[-> H]]; [left|right]; (split; [reflexivity|]); [auto|]. intros [[K _]|[_ K]]; [lia|tauto].
Qed.
Lemma closed_nonnil p : closed p -> p <> [].
Proof. intros [(a & -> & _)|(a & j & -> & _)]; destruct a; discriminate. Qed.
Theorem base64_read s : ascii s -> exists p, read_part s p /\
  if Nat.eqb (Nat.modulo (length (sextets p)) 4) 1 then base64_to_hex s = Raise ValueError
  else exists h, base64_to_hex s = Ok h /\ hex_text h /\ hex_bits h = whole_bytes (flat_map six_bits (sextets p)).
Proof.
  intros A. exists (cut s 0 0). split.
  - apply (cut_reads s [] 0 0); [|reflexivity|].
    + intros p' q' E. symmetry in E. apply app_eq_nil in E as [-> _]. intros C. exact (closed_nonnil _ C eq_refl).
    + right. split; [reflexivity|]. intros (a & j & E & _). destruct a; discriminate E.
  - pose proof (dec64_spec (sextets (cut s 0 0)) (sextets_lt _)) as D.
    unfold base64_to_hex, b64decode. rewrite forallb_app. replace (forallb is_ascii s) with true by (symmetry; now apply ascii_iff).
    change (forallb is_ascii (lit "==")) with true. cbn [andb]. rewrite a2b_cut by (lia || (left; reflexivity)).
    destruct (Nat.eqb _ 1); [now rewrite D|]. destruct D as (bs & -> & B & R). cbn [of_option bind]. destruct (bytes_hex_ok bs B) as (H1 & H2 & _).
    exists (bytes_hex bs). rewrite H2, R. auto.
Qed.
Lemma read_part_unique s p p' : read_part s p -> read_part s p' -> p = p'.
Proof.
  intros (q & E & N & C) (q' & E' & N' & C'). rewrite E in E'. apply app_eq_app in E' as (r & [[-> ->]|[-> ->]]).
  - destruct (list_eq_dec N.eq_dec r []) as [->|NR]; [now rewrite app_nil_r|]. exfalso. destruct C' as [C'|[E0 _]].
    + exact (N p' r eq_refl NR C').
    + apply app_eq_nil in E0 as [E0 _]. contradiction.
  - destruct (list_eq_dec N.eq_dec r []) as [->|NR]; [now rewrite app_nil_r|]. exfalso. destruct C as [C|[E0 _]].
    + exact (N' p r eq_refl NR C).
    + apply app_eq_nil in E0 as [E0 _]. contradiction.
Qed.
Theorem base64_non_ascii s : ~ ascii s -> base64_to_hex s = Raise ValueError.
Proof.
  intros N. unfold base64_to_hex, b64decode. rewrite forallb_app. destruct (forallb is_ascii s) eqn:A; [|reflexivity]. exfalso. apply N. now apply ascii_iff.
Qed.
Theorem base64_reads s p : ascii s -> read_part s p ->
  (Nat.modulo (length (sextets p)) 4 = 1%nat -> base64_to_hex s = Raise ValueError) /\
  (Nat.modulo (length (sextets p)) 4 <> 1%nat -> exists h, base64_to_hex s = Ok h /\ hex_text h /\ hex_bits h = whole_bytes (flat_map six_bits (sextets p))).
Proof.
  intros A R. destruct (base64_read s A) as (p' & R' & D). rewrite (read_part_unique s p p' R R').
  destruct (Nat.eqb_spec (Nat.modulo (length (sextets p')) 4) 1) as [E|E]; split; intros K; try contradiction; exact D.
Qed.
Lemma length_six vs : length (flat_map six_bits vs) = (6 * length vs)%nat.
Proof. induction vs as [|v vs IH]; [reflexivity|]. cbn [flat_map]. rewrite app_length, IH. cbn [length six_bits]. lia. Qed.
Theorem base64_tag s p : ascii s -> read_part s p -> (2 <= length (sextets p))%nat -> Nat.modulo (length (sextets p)) 4 <> 1%nat ->
  base64_to_tag_encodable s = binary_to_tag_encodable (whole_bytes (flat_map six_bits (sextets p))).
Proof.
  intros A R L Q. destruct (base64_reads s p A R) as [_ D]. destruct (D Q) as (h & E & H & B). unfold base64_to_tag_encodable, hex_to_tag_encodable. rewrite E. cbn [bind].
  assert (NE : h <> []).
  { intros ->. change (hex_bits []) with (@nil N) in B. symmetry in B. apply (f_equal (@length N)) in B. unfold whole_bytes in B. rewrite firstn_length, length_six in B. cbn [length] in B. lia. }
  rewrite (hex_reads h H NE), B. reflexivity.
Qed.
Theorem same_sextets s t p q : ascii s -> ascii t -> read_part s p -> read_part t q -> sextets p = sextets q ->
  base64_to_tag_encodable s = base64_to_tag_encodable t.
Proof.
  intros A B R S E. unfold base64_to_tag_encodable. destruct (base64_read s A) as (p' & R' & D). destruct (base64_read t B) as (q' & S' & D').
  rewrite <- (read_part_unique s p p' R R') in D. rewrite <- (read_part_unique t q q' S S'), <- E in D'.
  destruct (Nat.eqb _ 1); [now rewrite D, D'|]. destruct D as (h & -> & H & X). destruct D' as (h' & -> & H' & X'). cbn [bind]. rewrite <- X in X'.
  unfold hex_to_tag_encodable. assert (L : length h = length h').
  { apply (f_equal (@length N)) in X'. rewrite !hex_bits_eq, !length_four, !map_length in X'. lia. }
  destruct h as [|c h], h' as [|d h']; try discriminate L; [reflexivity|]. rewrite !hex_reads by (assumption || discriminate). now rewrite X'.
Qed.

(** * bytes.fromhex *)
Lemma space_blank c : is_ascii_space c = true <-> 9 <= c <= 13 \/ c = 32.
Proof. unfold is_ascii_space. lia. Qed.
Lemma fromhex_spaced n : forall s, (length s <= n)%nat -> (exists h, spaced_pairs s h) \/ fromhex_aux s None = None.
Proof.
  induction n as [|n IH]; intros s L.
  - destruct s; [left; exists []; constructor|cbn in L; lia].
  - destruct s as [|c s]; [left; exists []; constructor|]. cbn [length] in L. cbn [fromhex_aux]. destruct (is_ascii_space c) eqn:S.
    + destruct (IH s ltac:(lia)) as [(h & P)|E]; [left; exists h; constructor; [now apply space_blank|exact P]|auto].
    + destruct (digit_in 16 c) as [v|] eqn:D; [|auto]. destruct s as [|d s]; [auto|]. cbn [fromhex_aux]. destruct (digit_in 16 d) as [w|] eqn:D'; [|auto].
      cbn [length] in L. destruct (IH s ltac:(lia)) as [(h & P)|E]; [left; exists (c :: d :: h); constructor; [|exact P]|right; now rewrite E].
      apply hex_text_base. cbn [forallb]. apply digit_in_base in D as [-> _]. apply digit_in_base in D' as [-> _]. reflexivity.
Qed.
Lemma spaced_same s h : spaced_pairs s h -> fromhex_aux s None = fromhex_aux h None /\ hex_text h /\ Nat.modulo (length h) 2 = 0%nat.
Proof.
  induction 1 as [|c s h S P (IH & H & L)|c d s h X P (IH & H & L)].
  - split; [reflexivity|]. split; [intros c []|reflexivity].
  - split; [|auto]. cbn [fromhex_aux]. apply space_blank in S. now rewrite S.
  - split; [|split].
    + cbn [fromhex_aux]. destruct (is_ascii_space c) eqn:S.
      * exfalso. apply space_blank in S. specialize (X c (or_introl eq_refl)). lia.
      * destruct (digit_in 16 c); [|reflexivity]. destruct (digit_in 16 d); [|reflexivity]. now rewrite IH.
    + intros x [<-|[<-|I]]; [apply X; now left|apply X; right; now left|now apply H].
    + cbn [length]. lia.
Qed.
Theorem hex_to_base64_spaced s h : spaced_pairs s h -> hex_to_base64 s = hex_to_base64 h /\ hex_text h /\ Nat.modulo (length h) 2 = 0%nat.
Proof. intros P. destruct (spaced_same s h P) as (E & H & L). split; [|auto]. unfold hex_to_base64, bytes_fromhex. now rewrite E. Qed.
Theorem hex_to_base64_other s : (forall h, ~ spaced_pairs s h) -> hex_to_base64 s = Raise ValueError.
Proof.
  intros N. unfold hex_to_base64, bytes_fromhex. destruct (fromhex_spaced (length s) s (le_n _)) as [(h & P)|E]; [now apply N in P|]. now rewrite E.
Qed.
Lemma cut_whole s : read_part s (cut s 0 0).
Proof.
  apply (cut_reads s [] 0 0); [|reflexivity|].
  - intros p' q' E. symmetry in E. apply app_eq_nil in E as [-> _]. intros C. exact (closed_nonnil _ C eq_refl).
  - right. split; [reflexivity|]. intros (a & j & E & _). destruct a; discriminate E.
Qed.
Theorem read_part_exists s : exists p, read_part s p /\ forall p', read_part s p' -> p' = p.
Proof. exists (cut s 0 0). split; [apply cut_whole|]. intros p' R'. exact (read_part_unique s _ _ R' (cut_whole s)). Qed.
Theorem base64_collision : exists s t u e, 
  s <> t /\ t <> u /\ s <> u /\ base64_to_tag_encodable s = Ok e /\ base64_to_tag_encodable t = Ok e /\ base64_to_tag_encodable u = Ok e.
Proof.
  destruct (base64_to_tag_encodable (lit "MHQle/cZTkAAABqF")) as [e|x] eqn:E; [|vm_compute in E; discriminate E].
  exists (lit "MHQle/cZTkAAABqF"), (lit "MHQle-/cZ TkAAABqF"), (lit "MHQle/cZTkAAABqFgA==junk"), e.
  split; [discriminate|]. split; [discriminate|]. split; [discriminate|]. split; [exact E|].
  vm_compute in E. injection E as <-. split; vm_compute; reflexivity.
Qed.
Theorem binary_decorated : exists s t e e', 
  ~ bitstring s /\ length s = 96%nat /\ binary_to_tag_encodable s = Ok e /\ epc_uri e = lit "urn:epc:id:gid:127.5.7" /\
  ~ bitstring t /\ length t = 96%nat /\ binary_to_tag_encodable t = Ok e' /\ epc_uri e' = lit "urn:epc:id:sgln:0614141.12345.-5".
Proof.
  set (s := lit "00110101" ++ lit "0000_0000_0000_0000_01111111" ++ lit "+" ++ fmt_bin 23 5 ++ lit "  " ++ fmt_bin 33 7 ++ lit " ").
  set (t := lit "00110010" ++ lit "000" ++ lit "101" ++ fmt_bin 24 614141 ++ fmt_bin 17 12345 ++ lit "-" ++ fmt_bin 40 5).
  destruct (binary_to_tag_encodable s) as [e|x] eqn:E; [|vm_compute in E; discriminate E].
  destruct (binary_to_tag_encodable t) as [e'|x] eqn:E'; [|vm_compute in E'; discriminate E'].
  exists s, t, e, e'. split; [rewrite bitstring_iff; vm_compute; discriminate|]. split; [vm_compute; reflexivity|]. split; [exact E|].
  split; [vm_compute in E; injection E as <-; vm_compute; reflexivity|]. split; [rewrite bitstring_iff; vm_compute; discriminate|].
  split; [vm_compute; reflexivity|]. split; [exact E'|]. vm_compute in E'. injection E' as <-. vm_compute. reflexivity.
Qed.
