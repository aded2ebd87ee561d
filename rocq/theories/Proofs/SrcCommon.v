(** The functions of common.py do what the model says. *)
From Coq Require Import String Lia.
From Verif.Model Require Import Py PyFloat Re Sre PyFormat Syntax Machine Regexes Common.
From Verif.Source Require Import World.
From Verif.Spec Require SpecSre.
From Verif.Spec Require Import SpecSource.
From Verif.Proofs Require Import Basics Num Floats SreTexts SreUse RunTac Bridge.

Lemma length_repeat_str z s : length (repeat_str z s) = (length s * Z.to_nat z)%nat.
Proof. unfold repeat_str. induction (Z.to_nat z) as [|m IH]; [cbn; lia|]. cbn [repeat concat]. rewrite app_length, IH. lia. Qed.

Lemma g_replace_uri_escapes s : gives "common.replace_uri_escapes" [VStr s] (Returned (VStr (replace_uri_escapes s))).
Proof. intros k. enter. done. Qed.
Lemma g_revert_uri_escapes s : gives "common.revert_uri_escapes" [VStr s] (Returned (VStr (revert_uri_escapes s))).
Proof. intros k. enter. done. Qed.
Lemma g_int_to_binary z n : fits n -> gives "common.int_to_binary" [VInt z; vnat n] (Returned (VStr (int_to_binary z n))).
Proof. intros F k. enter. rewrite str_int_nat by exact F. rewrite fmt_int_bin. done. Qed.
Lemma g_binary_to_int s : gives "common.binary_to_int" [VStr s] (out VInt (binary_to_int s)).
Proof. intros k. enter. unfold binary_to_int. destruct (int_base 2 s); done. Qed.
Lemma g_str_to_binary s n : fits n -> gives "common.str_to_binary" [VStr s; vnat n] (out VStr (str_to_binary s n)).
Proof. intros F k. enter. unfold str_to_binary. destruct (int10 s); [|done]. call g_int_to_binary; [exact F|]. done. Qed.
Lemma g_base64_to_hex s : gives "common.base64_to_hex" [VStr s] (out VStr (base64_to_hex s)).
Proof. intros k. enter. unfold base64_to_hex. change (lit "==") with [61; 61]. destruct (b64decode _); done. Qed.
Lemma g_binary_to_hex s : gives "common.binary_to_hex" [VStr s] (out VStr (binary_to_hex s)).
Proof.
  intros k. enter. unfold binary_to_hex. destruct (int_base 2 s) as [z|]; [|done].
  destruct (fmt_int_x z) as (t & -> & E). cbn [bind result]. rewrite <- E. done.
Qed.
Lemma g_hex_to_binary s : fits (length s * 4) -> gives "common.hex_to_binary" [VStr s] (out VStr (hex_to_binary s)).
Proof.
  intros F k. enter. unfold hex_to_binary. destruct (int_base 16 s) as [z|]; [|done]. cbn [bind].
  rewrite length_repeat_str. change (Z.to_nat 4) with 4%nat. rewrite str_int_nat by exact F. rewrite fmt_int_bin. done.
Qed.
Ltac cut_group t m := match goal with |- context [text_split ?x ?s] =>
  rewrite (text_split_group x m (cut_in t m ltac:(unfold SpecSre.cutting_patterns; cbn [In]; tauto)) eq_refl s) end.
Lemma str_eqb1 c d : str_eqb [c] [d] = (c =? d).
Proof. cbn [str_eqb]. apply andb_true_r. Qed.
Lemma if_not (b : bool) : (if b then false else true) = negb b.
Proof. reflexivity. Qed.

Lemma g_encode_string s n : fits n -> gives "common.encode_string" [VStr s; vnat n] (out VStr (encode_string s n)).
Proof.
  intros F k. enter. cut_group (lit "(%[0-9a-fA-F]{2})") m_escape. unfold encode_string. pose (K := fun x => @Ok str (padr c_0 n x)).
  match goal with |- reach _ (StFor _ ?t ?b ?ss _ ?KK) (StDone (out _ (let* r := concat_map_res ?f _ in _)) _) =>
    enough (L : forall l acc g, reach W (StFor (ItStrs l) t b ss (mkEnv "common" None
      [("string"%string, Some (VStr s)); ("num_bits"%string, Some (vnat n)); ("res"%string, Some (VStr acc)); ("g"%string, g)]) KK)
      (StDone (out VStr (let* r := concat_map_res f l in K (acc ++ r))) k)) by apply L end.
  induction l as [|g l IH]; intros acc g0; enter.
  - rewrite str_int_nat by exact F. cbn [concat_map_res bind result K]. rewrite fmt_str_left, app_nil_r. done.
  - destruct g as [|c g]; [rewrite (acc_nil _ [] l acc K) by reflexivity; apply IH|].
    change (Z.of_nat (length (c :: g)) =? 0)%Z with false. cbv iota. rewrite py_index_z by lia. change (Z.to_nat 0) with 0%nat.
    cbn [nth_error]. rewrite str_eqb1, if_not. fold c_pct. destruct (negb (c =? c_pct)) eqn:E; cbv iota.
    + eapply reach_trans.
      { apply (comp_strs W "s" _ _ (fun x => match x with [c] => str_int_to_binary (Z.of_N c) 7 | _ => Raise TypeError end) VStr).
        intros x ac k'. go. destruct x as [|d [|d' x]]; [done| |done]. unfold str_int_to_binary. destruct (str_int (Z.of_N d)); [|done].
        cbn [bind]. callr (g_str_to_binary a 7) as [?|?] B; [apply fits_small; lia| |]; done. }
      rewrite map_res_map. destruct (map_res _ (c :: g)) as [r|e] eqn:M; cbn [ret_to].
      * go. cbn [rev app]. rewrite strs_of_map, join_nil. rewrite (acc_ok _ _ l acc (concat r) K); [apply IH|].
        rewrite E, concat_map_res_map, M. reflexivity.
      * go. rewrite (acc_raise _ _ l acc e K); [done|]. rewrite E, concat_map_res_map, M. reflexivity.
    + rewrite slz_from by lia. change (Z.to_nat 1) with 1%nat. cbn [skipn].
      destruct (int_base 16 g) as [v|e] eqn:I; [|rewrite (acc_raise _ _ l acc e K); [done|now rewrite E, I]].
      destruct (str_int v) as [t|e] eqn:T; [|rewrite (acc_raise _ _ l acc e K); [done|rewrite E, I; cbn [bind]; unfold str_int_to_binary; now rewrite T]].
      callr (g_str_to_binary t 7) as [r|e] B; [apply fits_small; lia| |].
      * rewrite (acc_ok _ _ l acc r K); [apply IH|]. rewrite E, I. cbn [bind]. unfold str_int_to_binary. rewrite T. exact B.
      * rewrite (acc_raise _ _ l acc e K); [done|]. rewrite E, I. cbn [bind]. unfold str_int_to_binary. rewrite T. exact B.
Qed.

Lemma b64_char_ascii v : is_ascii (b64_char v) = true.
Proof. unfold b64_char, is_ascii. destruct (N.ltb_spec v 26), (N.ltb_spec v 52), (N.ltb_spec v 62), (N.eqb_spec v 62); try reflexivity; apply N.ltb_lt; lia. Qed.
Fixpoint b64encode_ascii (b : list N) : forallb is_ascii (b64encode b) = true.
Proof.
  destruct b as [|x [|y [|z b]]]; [reflexivity| | |]; cbn [b64encode forallb]; rewrite ?b64_char_ascii; [reflexivity..|]. apply b64encode_ascii.
Qed.
Lemma g_hex_to_base64 s : gives "common.hex_to_base64" [VStr s] (out VStr (hex_to_base64 s)).
Proof. intros k. enter. unfold hex_to_base64. destruct (bytes_fromhex s) as [b|]; [|done]. rewrite b64encode_ascii. done. Qed.

Lemma ltb_nat a b : (Z.of_nat a <? Z.of_nat b)%Z = (a <? b)%nat.
Proof. destruct (Nat.ltb_spec a b); lia. Qed.

Lemma g_decode_string_six_bits s n : gives "common.decode_string_six_bits" [VStr s; vnat n] (out VStr (decode_string_six_bits s n)).
Proof.
  intros k. enter. cut_group (lit "([0-1]{6})") (m_bits 6). unfold decode_string_six_bits.
  pose (K := fun r => let* _ := raise_if (n <? length r)%nat ConvertException in
    Ok (replace (lit "/") (lit "%2F") (replace (lit "#") (lit "%23") r))).
  match goal with |- reach _ (StFor _ ?t ?b ?ss _ ?KK) _ =>
    enough (L : forall l acc g, reach W (StFor (ItStrs l) t b ss (mkEnv "common" None
      [("binary"%string, Some (VStr s)); ("max_chars"%string, Some (vnat n)); ("res"%string, Some (VStr acc)); ("g"%string, g)]) KK)
      (StDone (out VStr (let* r := six_bit_loop l in K (acc ++ r))) k)) by apply L end.
  assert (E : forall r, (if (Z.of_nat n <? Z.of_nat (length r))%Z then StDone (Raised (XExn ConvertException)) k
      else StDone (Returned (VStr (replace [47] [37; 50; 70] (replace [35] [37; 50; 51] r)))) k) = StDone (out VStr (K r)) k).
  { intros r. unfold K. rewrite ltb_nat. destruct (n <? length r)%nat; reflexivity. }
  induction l as [|g l IH]; intros acc g0; enter.
  - rewrite E. cbn [six_bit_loop bind]. rewrite app_nil_r. done.
  - cbn [six_bit_loop]. change (lit "000000") with [48; 48; 48; 48; 48; 48]. destruct (str_eqb g _) eqn:E0.
    { rewrite E. cbn [bind]. rewrite app_nil_r. done. }
    change (Z.of_nat (length g) <? 6)%Z with (Z.of_nat (length g) <? Z.of_nat 6)%Z. rewrite ltb_nat. destruct (length g <? 6)%nat; [apply IH|].
    change (lit "10") with [49; 48]. change (lit "11") with [49; 49].
    assert (G : forall x, (let* r := (let* r := six_bit_loop l in Ok (x :: r)) in K (acc ++ r)) = let* r := six_bit_loop l in K ((acc ++ [x]) ++ r)).
    { intros x. destruct (six_bit_loop l); cbn [bind]; [|reflexivity]. rewrite <- app_assoc. reflexivity. }
    destruct (startswith [49; 48] g) eqn:S1; [|destruct (startswith [49; 49] g) eqn:S2]; cbn [orb];
      (destruct (int_base 2 g) as [v|]; [|done]); cbn [bind]; (destruct (chr _) as [x|]; [|done]); cbn [bind]; rewrite G; apply IH.
Qed.
Ltac lits := change (lit "-") with [45] in *.
Lemma g_encode_string_six_bits s : gives "common.encode_string_six_bits" [VStr s] (out VStr (encode_string_six_bits s)).
Proof.
  intros k. enter. cut_group (lit "(%[0-9a-fA-F]{2}|-)") m_escape_or_dash. unfold encode_string_six_bits.
  pose (K := fun x => @Ok str (x ++ lit "000000")).
  match goal with |- reach _ (StFor _ ?t ?b ?ss _ ?KK) (StDone (out _ (let* r := concat_map_res ?f _ in _)) _) =>
    enough (L : forall l acc g, reach W (StFor (ItStrs l) t b ss (mkEnv "common" None
      [("string"%string, Some (VStr s)); ("res"%string, Some (VStr acc)); ("g"%string, g)]) KK)
      (StDone (out VStr (let* r := concat_map_res f l in K (acc ++ r))) k)) by apply L end.
  induction l as [|g l IH]; intros acc g0; enter.
  - cbn [concat_map_res bind result K]. rewrite app_nil_r. done.
  - destruct g as [|c g]; [rewrite (acc_nil _ [] l acc K) by reflexivity; apply IH|].
    change (Z.of_nat (length (c :: g)) =? 0)%Z with false. cbv iota.
    destruct (str_eqb (c :: g) [45]) eqn:D. { rewrite (acc_ok _ _ l acc (lit "101101") K); [apply IH|]. lits. now rewrite D. }
    rewrite py_index_z by lia. change (Z.to_nat 0) with 0%nat.
    cbn [nth_error]. rewrite str_eqb1, if_not. fold c_pct. destruct (negb (c =? c_pct)) eqn:E; cbv iota.
    + eapply reach_trans.
      { apply (comp_strs W "s" _ _ (fun x => if isnumeric x then let* v := int10 x in Ok (lit "11" ++ fmt_bin 4 v)
          else match x with [c] => Ok (fmt_bin 6 (Z.of_N c - 64)) | _ => Raise TypeError end) VStr).
        intros x ac k'. go. destruct (isnumeric x).
        { destruct (int10 x) as [v|]; [|done]. rewrite fmt_int_04b. done. }
        destruct x as [|d [|d' x]]; [done| |done]. rewrite fmt_int_06b. done. }
      rewrite map_res_map. change (map_res _ (c :: g)) with (map_res six_bit_char (c :: g)).
      destruct (map_res six_bit_char (c :: g)) as [r|e] eqn:M; cbn [ret_to].
      * go. cbn [rev app]. rewrite strs_of_map, join_nil. rewrite (acc_ok _ _ l acc (concat r) K); [apply IH|].
        lits. rewrite D, E, concat_map_res_map, M. reflexivity.
      * go. rewrite (acc_raise _ _ l acc e K); [done|]. lits. rewrite D, E, concat_map_res_map, M. reflexivity.
    + rewrite slz_from by lia. change (Z.to_nat 1) with 1%nat. cbn [skipn].
      destruct (int_base 16 g) as [v|e] eqn:I; [|rewrite (acc_raise _ _ l acc e K); [done|lits; now rewrite D, E, I]].
      destruct (str_int v) as [t|e] eqn:T; [|rewrite (acc_raise _ _ l acc e K); [done|lits; rewrite D, E, I; cbn [bind]; unfold str_int_to_binary; now rewrite T]].
      callr (g_str_to_binary t 6) as [r|e] B; [apply fits_small; lia| |].
      * rewrite (acc_ok _ _ l acc r K); [apply IH|]. lits. rewrite D, E, I. cbn [bind]. unfold str_int_to_binary. rewrite T. exact B.
      * rewrite (acc_raise _ _ l acc e K); [done|]. lits. rewrite D, E, I. cbn [bind]. unfold str_int_to_binary. rewrite T. exact B.
Qed.
Lemma get_is_key d k v : dict_get d k = Some v -> is_key k = true.
Proof. induction d as [|[a b] d IH]; [discriminate|]. cbn [dict_get]. destruct k; cbn [key_eqb is_key] in *; intros E; try reflexivity; exact (IH E). Qed.
Lemma get_some d k v kk : dict_get d k = Some v -> reach W (StGet (VDict d) k kk) (StVal v kk).
Proof. intros E. apply reach_step. cbn [step step_k]. rewrite (get_is_key _ _ _ E), E. apply reach_refl. Qed.
Lemma get_none d k kk : dict_get d k = None -> is_key k = true -> reach W (StGet (VDict d) k kk) (StExn (XExn KeyError) kk).
Proof. intros E K. apply reach_step. cbn [step step_k]. rewrite K, E. apply reach_refl. Qed.
Ltac get E := eapply reach_trans; [first [apply (get_some _ _ _ _ E)|apply (get_none _ _ _ E eq_refl)]|go].
Lemma dict_get_of {A} (g : A -> value) d s : dict_get (dict_of g d) (VStr s) = option_map g (assoc_str s d).
Proof. induction d as [|[k v] d IH]; [reflexivity|]. cbn [dict_of map dict_get key_eqb fst snd assoc_str]. destruct (str_eqb s k); [reflexivity|apply IH]. Qed.

Lemma g_decode_binary_char s : gives "common.decode_binary_char" [VStr s] (out VStr (decode_binary_char s)).
Proof.
  intros k. enter. unfold decode_binary_char. change (lit "0000000") with [48; 48; 48; 48; 48; 48; 48]. destruct (str_eqb s _); [done|].
  match goal with |- context [has_key ?d _] => change d with (dict_of VStr ESCAPE_CHARACTERS) end.
  unfold has_key. pose proof (dict_get_of VStr ESCAPE_CHARACTERS s) as G. destruct (assoc_str s ESCAPE_CHARACTERS) as [v|]; cbn [option_map] in G; rewrite G; cbn [is_some].
  - get G. done.
  - destruct (int_base 2 s) as [z|]; [|done]. cbn [bind]. destruct (chr z); done.
Qed.

Lemma map_strs {A} f (m : str -> res A) (g : A -> value) : (forall s, gives f [VStr s] (out g (m s))) ->
  forall l acc k0 k, reach W (StMap (VFun f) acc (ItStrs l) (k0 :: k)) (ret_to (fun r => VList (rev acc ++ map g r)) (map_res m l) (k0 :: k)).
Proof.
  intros H. induction l as [|s l IH]; intros acc k0 k.
  - apply reach_step. cbn [step step_k next_item map_res ret_to map]. rewrite vrev_rev. apply reach_refl.
  - apply reach_step. cbn [step step_k next_item map_res]. eapply reach_trans; [apply H|]. destruct (m s) as [v|e]; cbn [result bind ret_to].
    + do 2 apply reach_step. cbn [step step_k value_step]. eapply reach_trans; [apply IH|].
      destruct (map_res m l) as [r|e']; cbn [ret_to bind]; [|apply reach_refl]. cbn [rev map]. rewrite <- app_assoc. apply reach_refl.
    + do 2 apply reach_step. apply reach_refl.
Qed.
Lemma g_decode_string s : gives "common.decode_string" [VStr s] (out VStr (decode_string s)).
Proof.
  intros k. enter. unfold decode_string. change (repeat_str 7 [46]) with (lit ".......").
  rewrite (text_findall_plain _ (m_seq (repeat dotc 7)) (cut_in (lit ".......") _ ltac:(unfold SpecSre.cutting_patterns; cbn [In]; tauto)) eq_refl s).
  eapply reach_trans; [apply (map_strs _ _ _ g_decode_binary_char)|].
  rewrite concat_map_res_map. destruct (map_res decode_binary_char _) as [r|e]; cbn [ret_to bind result].
  - go. cbn [rev app]. rewrite strs_of_map, join_nil. done.
  - go. done.
Qed.
Lemma table_get d t k : table_of d t -> match Common.lookup k t with
  | Some r => exists v, dict_get d (VInt k) = Some v /\ row_of v r | None => dict_get d (VInt k) = None end.
Proof.
  induction 1 as [|[a v] [b r] d t (E & R) F IH]; [reflexivity|]. cbn [fst snd] in *. subst a. cbn [Common.lookup dict_get key_eqb].
  destruct (k =? b)%Z; [|exact IH]. exists v. auto.
Qed.


Lemma concat_repeat1 (c : N) n : concat (repeat [c] n) = repeat c n.
Proof. induction n as [|n IH]; [reflexivity|]. cbn [repeat concat app]. now rewrite IH. Qed.
Lemma g_encode_partition_table s C D d t b c : nth_error s 0 = Some C -> nth_error s 1 = Some D -> table_of d t ->
  gives "common.encode_partition_table" [VStrs s; VDict d; VBool b; VBool c] (out VStr (encode_partition_table C D t b c)).
Proof.
  intros E0 E1 T k. enter. rewrite !py_index_z by lia. change (Z.to_nat 0) with 0%nat. change (Z.to_nat 1) with 1%nat. rewrite E0, E1.
  unfold encode_partition_table. pose proof (table_get d t (Z.of_nat (length C)) T) as G. destruct (Common.lookup _ t) as [r|].
  - destruct G as (v & G & (e & -> & HP & HM & HL & HN & HK & bM & bL & bN & bK)). get G. cbn [of_option bind].
    get HP. change 3%Z with (Z.of_nat 3). call g_int_to_binary; [apply fits_small; lia|].
    get HM. callr (g_str_to_binary C (rM r)) as [x|?] B; [apply fits_small; lia| |done].
    destruct b; [|destruct c].
    + get HN. callr (g_encode_string D (rN r)) as [y|?] B2; [apply fits_small; lia| |]; cbn [bind result]; [|done]. rewrite app_assoc. done.
    + callr (g_encode_string_six_bits D) as [y|?] B2; cbn [bind result]; [|done]. rewrite app_assoc. done.
    + get HK. cbn [bind]. replace (Z.of_nat (rK r) =? 0)%Z with (rK r =? 0)%nat by (destruct (Nat.eqb_spec (rK r) 0); lia).
      destruct (rK r =? 0)%nat; cbn [negb].
      * get HN. unfold repeat_str. rewrite Nat2Z.id, concat_repeat1, <- app_assoc. done.
      * get HN. callr (g_str_to_binary D (rN r)) as [y|?] B2; [apply fits_small; lia| |]; cbn [bind result]; [|done]. rewrite app_assoc. done.
  - get G. done.
Qed.
Lemma g_encode_partition_list C D d t b c : table_of d t ->
  gives "common.encode_partition_table" [VList [VStr C; VStr D]; VDict d; VBool b; VBool c] (out VStr (encode_partition_table C D t b c)).
Proof.
  intros T k. enter.
  unfold encode_partition_table. pose proof (table_get d t (Z.of_nat (length C)) T) as G. destruct (Common.lookup _ t) as [r|].
  - destruct G as (v & G & (e & -> & HP & HM & HL & HN & HK & bM & bL & bN & bK)). get G. cbn [of_option bind].
    get HP. change 3%Z with (Z.of_nat 3). call g_int_to_binary; [apply fits_small; lia|].
    get HM. callr (g_str_to_binary C (rM r)) as [x|?] B; [apply fits_small; lia| |done].
    destruct b; [|destruct c].
    + get HN. callr (g_encode_string D (rN r)) as [y|?] B2; [apply fits_small; lia| |]; cbn [bind result]; [|done]. rewrite app_assoc. done.
    + callr (g_encode_string_six_bits D) as [y|?] B2; cbn [bind result]; [|done]. rewrite app_assoc. done.
    + get HK. cbn [bind]. replace (Z.of_nat (rK r) =? 0)%Z with (rK r =? 0)%nat by (destruct (Nat.eqb_spec (rK r) 0); lia).
      destruct (rK r =? 0)%nat; cbn [negb].
      * get HN. unfold repeat_str. rewrite Nat2Z.id, concat_repeat1, <- app_assoc. done.
      * get HN. callr (g_str_to_binary D (rN r)) as [y|?] B2; [apply fits_small; lia| |]; cbn [bind result]; [|done]. rewrite app_assoc. done.
  - get G. done.
Qed.
Lemma digit2_lt c d : digit_in 2 c = Some d -> d < 2.
Proof. unfold digit_in. destruct (digit_val c) as [x|]; [|discriminate]. destruct (N.ltb_spec x 2); intros [= <-]; lia. Qed.
Lemma scan_bound s p b acc n : scan_digits 2 s p b acc = Some n -> n < (acc + 1) * 2 ^ N.of_nat (length s).
Proof.
  revert p b acc. induction s as [|c s IH]; intros p b acc; cbn [scan_digits length].
  { destruct p; [discriminate|]. destruct b; [|discriminate]. intros [= <-]. change (2 ^ N.of_nat 0) with 1. lia. }
  replace (N.of_nat (S (length s))) with (N.succ (N.of_nat (length s))) by lia. rewrite N.pow_succ_r'.
  set (w := 2 ^ N.of_nat (length s)) in *. assert (0 < w) by (subst w; apply N.neq_0_lt_0, N.pow_nonzero; lia).
  destruct (digit_in 2 c) as [d|] eqn:D.
  - intros E. apply IH in E. apply digit2_lt in D. nia.
  - destruct (c =? c_us). { destruct p; [discriminate|]. intros E. apply IH in E. nia. }
    destruct p; [discriminate|]. destruct b; [|discriminate]. cbn [negb]. destruct (skip_space _); [|discriminate]. intros [= <-]. nia.
Qed.
Lemma skip_prefix_length b s : (length (skip_prefix b s) <= length s)%nat.
Proof.
  unfold skip_prefix. destruct s as [|z [|x s]]; [lia..|]. destruct (_ && _); [|lia]. destruct s as [|u s]; [cbn [length]; lia|]. destruct (u =? c_us); cbn [length]; lia.
Qed.
Lemma skip_space_length s : (length (skip_space s) <= length s)%nat.
Proof. induction s as [|c s IH]; [reflexivity|]. cbn [skip_space]. destruct (is_ascii_space c); cbn [length]; lia. Qed.
Lemma pow2_mono a b : (a <= b)%nat -> 2 ^ N.of_nat a <= 2 ^ N.of_nat b.
Proof. intros H. apply N.pow_le_mono_r; lia. Qed.
Lemma unsigned_bound s n : parse_unsigned 2 s = Some n -> n < 2 ^ N.of_nat (length s).
Proof.
  unfold parse_unsigned. intros H. pose proof (skip_prefix_length 2 s) as L. destruct (skip_prefix 2 s) as [|u t]; [discriminate|].
  destruct (u =? c_us); [discriminate|]. apply scan_bound in H. apply pow2_mono in L. lia.
Qed.
Lemma binary_bound s z : int_base 2 s = Ok z -> (Z.abs z < 2 ^ Z.of_nat (length s))%Z.
Proof.
  unfold int_base, py_int, of_option. intros H.
  assert (L : (length (skip_space (to_ascii_num s)) <= length s)%nat).
  { etransitivity; [apply skip_space_length|]. unfold to_ascii_num. destruct (forallb is_ascii s); [|rewrite map_length]; lia. }
  enough (G : exists n, (z = Z.of_N n \/ z = - Z.of_N n)%Z /\ n < 2 ^ N.of_nat (length s)).
  { destruct G as (n & E & B). apply N2Z.inj_lt in B. rewrite N2Z.inj_pow, nat_N_Z in B. change (Z.of_N 2) with 2%Z in B. lia. }
  destruct (skip_space (to_ascii_num s)) as [|c t]; [discriminate|]. pose proof (pow2_mono _ _ L) as P.
  assert (P' : 2 ^ N.of_nat (length t) <= 2 ^ N.of_nat (length (c :: t))) by (apply pow2_mono; cbn [length]; lia).
  destruct (c =? 43); [|destruct (c =? 45)].
  - destruct (parse_unsigned 2 t) as [n|] eqn:U; [|discriminate]. injection H as <-. apply unsigned_bound in U. exists n. split; [auto|lia].
  - destruct (parse_unsigned 2 t) as [n|] eqn:U; [|discriminate]. injection H as <-. apply unsigned_bound in U. exists n. split; [auto|lia].
  - destruct (parse_unsigned 2 (c :: t)) as [n|] eqn:U; [|discriminate]. injection H as <-. apply unsigned_bound in U. exists n. split; [auto|lia].
Qed.
Lemma str_int_bits s z : int_base 2 s = Ok z -> (length s <= 1000)%nat -> str_int z = Ok (dec z).
Proof.
  intros H L. apply binary_bound in H. unfold str_int.
  assert (B : (length (ndec (Z.abs_N z)) <= 1000)%nat).
  { apply ndec_length; [lia|]. apply N2Z.inj_lt. rewrite N2Z.inj_abs_N. eapply Z.lt_le_trans; [exact H|].
    rewrite N2Z.inj_pow, nat_N_Z. etransitivity; [apply Z.pow_le_mono_r with (c := 1000%Z); lia|]. change (Z.of_N 10) with 10%Z.
    apply Z.pow_le_mono_l. lia. }
  replace (int_max_str_digits <? _) with false; [reflexivity|]. symmetry. apply N.ltb_ge. unfold int_max_str_digits. lia.
Qed.

Lemma sl_length {A} a b (l : list A) : (length (sl a b l) <= b - a)%nat.
Proof. unfold sl. rewrite firstn_length. lia. Qed.
Ltac plain_tail := match goal with HL : dict_get _ (VStr (lit "L")) = Some (vnat (rL ?r)), SC : str_int ?C = Ok _ |- context [padl c_0 0 ?D] =>
  get HL; replace (Z.of_nat (rL r) <? 0)%Z with false by lia; destruct (C <? _)%Z; cbn [negb raise_if bind]; [|done];
  replace (if (if str_eqb D [] then false else true) then true else false) with (if str_eqb D [] then false else true) by (destruct (str_eqb D []); reflexivity);
  destruct (str_eqb D []); get HL;
     rewrite str_int_nat by (apply fits_small; lia); rewrite fmt_int_right, SC; cbn [bind];
     change (str_int 0) with (str_int (Z.of_nat 0)); rewrite str_int_nat by (apply fits_small; lia); rewrite fmt_str_right; done end.
Lemma g_decode_partition_table s d t x b c : table_of d t ->
  gives "common.decode_partition_table" [VStr s; VDict d; VBool x; VBool b; VBool c] (out VStr (decode_partition_table s t x b c)).
Proof.
  intros T k. enter. rewrite slz_to by lia. change (Z.to_nat 3) with 3%nat. unfold decode_partition_table.
  callr (g_binary_to_int (firstn 3 s)) as [p|e] B; [|destruct e; try done; unfold binary_to_int, int_base, of_option in B; destruct (py_int 2 (firstn 3 s)); discriminate B]. cbn [bind].
  pose proof (table_get d t p T) as G. destruct (Common.lookup _ t) as [r|]; [|get G; done].
  destruct G as (v & G & (e & -> & HP & HM & HL & HN & HK & bM & bL & bN & bK)). get G. cbn [of_option bind].
  get HM. rewrite <- (Nat2Z.inj_add 3). rewrite slz_mid by lia. change (Z.to_nat 3) with 3%nat. rewrite Nat2Z.id.
  callr (g_binary_to_int (sl 3 (3 + rM r) s)) as [C|?] BC; [|done]. cbn [bind].
  get HM. get HM. get HN. rewrite <- !(Nat2Z.inj_add 3), <- Nat2Z.inj_add. rewrite slz_mid by lia. rewrite !Nat2Z.id.
  assert (SC : str_int C = Ok (dec C)).
  { apply (str_int_bits _ _ BC). pose proof (sl_length 3 (3 + rM r) s). lia. }
  destruct b; [|destruct c].
  - callr (g_decode_string (sl (3 + rM r) (3 + rM r + rN r) s)) as [D|?] BD; cbn [bind]; [|done]. rewrite orb_true_r. cbn [orb negb].
    rewrite andb_false_r. cbn [bind].
    destruct x; plain_tail.
  - get HK. callr (g_decode_string_six_bits (sl (3 + rM r) (3 + rM r + rN r) s) (rK r)) as [D|?] BD; cbn [bind]; [|done].
    rewrite !orb_true_r. cbn [orb negb]. rewrite andb_false_r. cbn [bind].
    destruct x; plain_tail.
  - get HK. replace (Z.of_nat (rK r) =? 0)%Z with (rK r =? 0)%nat by (destruct (Nat.eqb_spec (rK r) 0); lia).
    rewrite !orb_false_r. destruct (rK r =? 0)%nat eqn:Z; cbn [negb].
    + cbn [bind andb]. destruct x; cbn [negb].
      * get HL. replace (Z.of_nat (rL r) <? 0)%Z with false by lia. destruct (C <? _)%Z; cbn [negb raise_if bind]; [|done]. get HL.
        rewrite str_int_nat by (apply fits_small; lia). rewrite fmt_int_right, SC. cbn [bind].
        change (str_int 0) with (str_int (Z.of_nat 0)). rewrite str_int_nat by (apply fits_small; lia). rewrite fmt_str_right. done.
      * get HL. replace (Z.of_nat (rL r) <? 0)%Z with false by lia. destruct (C <? _)%Z; cbn [negb raise_if bind]; [|done]. get HL.
        rewrite str_int_nat by (apply fits_small; lia). rewrite fmt_int_right, SC. cbn [bind].
        get HK. rewrite str_int_nat by (apply fits_small; lia). rewrite fmt_str_right. done.
    + callr (g_binary_to_int (sl (3 + rM r) (3 + rM r + rN r) s)) as [D|?] BD; cbn [bind]; [|done].
      assert (SD : str_int D = Ok (dec D)).
      { apply (str_int_bits _ _ BD). pose proof (sl_length (3 + rM r) (3 + rM r + rN r) s). lia. }
      rewrite SD. destruct x; cbn [negb]. { rewrite andb_false_r. cbn [bind]. plain_tail. }
      get HL. replace (Z.of_nat (rL r) <? 0)%Z with false by lia. destruct (C <? _)%Z; cbn [negb raise_if bind]; [|done].
      destruct (dec D) as [|dc D'] eqn:ED.
      { exfalso. revert ED. unfold dec, signed. destruct (D <? 0)%Z; [discriminate|]. apply ndec_nonempty. }
      change (str_eqb (dc :: D') []) with false. cbn [andb negb].
      destruct (int10 (dc :: D')) as [q|]; [|done]. cbn [bind]. get HK. replace (Z.of_nat (rK r) <? 0)%Z with false by lia.
      destruct (q <? _)%Z; cbn [negb raise_if bind]; [|done]. get HL.
      rewrite str_int_nat by (apply fits_small; lia). rewrite fmt_int_right, SC. cbn [bind].
      get HK. rewrite str_int_nat by (apply fits_small; lia). rewrite fmt_str_right. done.
Qed.

Lemma leb_nat a b : (Z.of_nat a <=? Z.of_nat b)%Z = (a <=? b)%nat.
Proof. destruct (Nat.leb_spec a b); lia. Qed.
Lemma eqb_nat a b : (Z.of_nat a =? Z.of_nat b)%Z = (a =? b)%nat.
Proof. destruct (Nat.eqb_spec a b); lia. Qed.
Lemma g_encode_numeric_string s n : fits n -> gives "common.encode_numeric_string" [VStr s; vnat n] (out VStr (encode_numeric_string s n)).
Proof.
  intros F k. enter. unfold encode_numeric_string. replace (Z.of_nat (length s) <? 0)%Z with false by lia. replace (Z.of_nat n <? 0)%Z with false by lia.
  destruct (_ <=? _)%Z; cbn [raise_if bind]; [done|]. callr (g_str_to_binary ([49] ++ s) n) as [?|?] E; [exact F| |].
  - change (str_to_binary (c_1 :: s) n) with (str_to_binary ([49] ++ s) n). rewrite E. done.
  - change (str_to_binary (c_1 :: s) n) with (str_to_binary ([49] ++ s) n). rewrite E. done.
Qed.
Lemma g_decode_numeric_string s : gives "common.decode_numeric_string" [VStr s] (out VStr (decode_numeric_string s)).
Proof.
  intros k. enter. unfold decode_numeric_string. destruct (int_base 2 s) as [z|]; [|done]. cbn [bind]. destruct (str_int z) as [t|]; [|done]. cbn [bind].
  change (Z.of_nat (length t) <=? 1)%Z with (Z.of_nat (length t) <=? Z.of_nat 1)%Z. rewrite leb_nat. destruct (length t <=? 1)%nat; [done|]. cbn [raise_if bind].
  rewrite py_index_z by lia. change (Z.to_nat 0) with 0%nat. unfold idx. destruct (nth_error t 0) as [c|]; [|done]. cbn [of_option bind].
  rewrite str_eqb1, if_not. fold c_1. destruct (negb (c =? c_1)); cbn [raise_if bind]; [done|]. rewrite slz_from by lia. done.
Qed.
Lemma digits_float n : (n <= 4300)%nat -> int_of_float (SpecFloat.SFdiv 53 1024 (SpecFloat.SFmul 53 1024 (float_of_int (Z.of_nat n)) log_2) log_10)
  = Z.of_nat (fixed_width_digits n) /\ (fixed_width_digits n <= 4300)%nat.
Proof.
  intros H. change (float_of_int (Z.of_nat n)) with (float_of_nat n). fold (int_n_log2_log10 n). unfold fixed_width_digits.
  destruct (Floats.digits_exact n H) as (D & -> & L & _). rewrite Z2Nat.id by lia. split; [reflexivity|].
  destruct (N.le_gt_cases D 4300) as [G|G]; [lia|]. exfalso. revert L. apply N.lt_nge.
  eapply N.le_lt_trans; [apply (N.pow_le_mono_r 2 (N.of_nat n) D); lia|]. apply N.pow_lt_mono_l; lia.
Qed.
Lemma g_encode_fixed_width_integer s n : (n <= 4300)%nat -> gives "common.encode_fixed_width_integer" [VStr s; vnat n] (out VStr (encode_fixed_width_integer s n)).
Proof.
  intros F k. enter. unfold encode_fixed_width_integer. destruct (int10 s) as [z|]; [|done]. cbn [bind].
  rewrite (proj1 (digits_float n F)). replace (Z.of_nat (fixed_width_digits n) <? 0)%Z with false by lia.
  destruct (_ <=? _)%Z; cbn [raise_if bind]; [done|]. callr (g_str_to_binary s n) as [?|?] E; [|done..]. unfold fits. change (2 ^ 100)%Z with 1267650600228229401496703205376%Z. lia.
Qed.
Lemma g_decode_fixed_width_integer s : (length s <= 4300)%nat -> gives "common.decode_fixed_width_integer" [VStr s] (out VStr (decode_fixed_width_integer s)).
Proof.
  intros F k. enter. unfold decode_fixed_width_integer. destruct (digits_float (length s) F) as (-> & B). destruct (int_base 2 s) as [z|]; [|done]. cbn [bind].
  replace (Z.of_nat (fixed_width_digits _) <? 0)%Z with false by lia.
  destruct (_ <? _)%Z; cbn [raise_if bind]; [done|]. rewrite str_int_nat. 2:{ unfold fits. change (2 ^ 100)%Z with 1267650600228229401496703205376%Z. lia. }
  rewrite fmt_int_fill. destruct (str_int z); done.
Qed.
Lemma g_decode_cage_code s : gives "common.decode_cage_code" [VStr s] (out VStr (decode_cage_code s)).
Proof.
  intros k. enter. cut_group (lit "([0-1]{8})") (m_bits 8). unfold decode_cage_code.
  eapply reach_trans.
  { apply (comp_strs W "g" _ _ (fun g => match g with [] => Ok [] | _ => let* v := int_base 2 g in let* c := chr v in Ok [c] end) VStr).
    intros x ac k'. go. destruct x as [|c x]; cbn [str_eqb]; [done|]. destruct (int_base 2 (c :: x)) as [z|]; [|done]. cbn [bind]. destruct (chr z); done. }
  rewrite concat_map_res_map. destruct (map_res _ _) as [r|e]; cbn [ret_to bind]; go; [|done].
  cbn [rev app]. rewrite strs_of_map, join_nil. done.
Qed.
Lemma g_encode_cage_code s : gives "common.encode_cage_code" [VStr s] (Returned (VStr (encode_cage_code s))).
Proof.
  intros k. enter. 
  eapply reach_trans.
  { apply (comp_strs W "char" _ _ (fun g => match g with [c] => Ok (padl c_0 8 (nbin c)) | _ => Raise TypeError end) VStr).
    intros x ac k'. go. destruct x as [|d [|d' x]]; [done| |done]. rewrite fmt_int_08b. done. }
  rewrite map_res_map. 
  assert (E : forall l, map_res (fun c : N => Ok (padl c_0 8 (nbin c))) l = Ok (map (fun c => padl c_0 8 (nbin c)) l)).
  { induction l as [|c l IH]; [reflexivity|]. cbn [map_res bind]. rewrite IH. reflexivity. }
  rewrite E. cbn [ret_to]. go. cbn [rev app]. rewrite strs_of_map, join_nil, <- flat_map_concat_map. done.
Qed.
Lemma g_decode_cage_code_six_bits s : gives "common.decode_cage_code_six_bits" [VStr s] (out VStr (decode_cage_code_six_bits s)).
Proof.
  intros k. enter. unfold decode_cage_code_six_bits. change (lit "100000") with [49; 48; 48; 48; 48; 48]. rewrite slz_from by lia. change (Z.to_nat 6) with 6%nat.
  change (VInt 6) with (vnat 6). destruct (startswith _ s).
  - callr (g_decode_string_six_bits (skipn 6 s) 6) as [?|?] E; done.
  - callr (g_decode_string_six_bits s 6) as [?|?] E; done.
Qed.
Lemma g_encode_cage_code_six_bits s : gives "common.encode_cage_code_six_bits" [VStr s] (out VStr (encode_cage_code_six_bits s)).
Proof.
  intros k. enter. unfold encode_cage_code_six_bits. callr (g_encode_string_six_bits s) as [t|?] E; [|done]. cbn [bind].
  rewrite slz_drop by lia. change (Z.to_nat (- -6)) with 6%nat. change 30%Z with (Z.of_nat 30). rewrite eqb_nat. destruct (_ =? _)%nat; done.
Qed.
Lemma g_verify_gs3a3_component s : gives "common.verify_gs3a3_component" [VStr s] (out (fun _ => VNone) (verify_gs3a3_component s)).
Proof.
  intros k. enter. cut_group (lit "(%\d\d)") m_escape_dd. unfold verify_gs3a3_component, gs3a3_decoded.
  pose (K := fun r => raise_if (negb (fullmatch VERIFY_GS3A3_CHARS r)) ConvertException).
  match goal with |- reach _ (StFor _ ?t ?b ?ss _ ?KK) (StDone (out _ (let* r := concat_map_res ?f _ in _)) _) =>
    enough (L : forall l acc g, reach W (StFor (ItStrs l) t b ss (mkEnv "common" None
      [("gs3a3_component"%string, Some (VStr s)); ("res"%string, Some (VStr acc)); ("g"%string, g)]) KK)
      (StDone (out (fun _ => VNone) (let* r := concat_map_res f l in K (acc ++ r))) k)) by apply L end.
  induction l as [|g l IH]; intros acc g0; enter.
  - match goal with |- context [text_fullmatch ?t _] => change t with RegexText.T_VERIFY_GS3A3_CHARS end.
    rewrite (text_full _ _ agree_VERIFY_GS3A3_CHARS), if_not. cbn [concat_map_res bind K]. rewrite app_nil_r. unfold K. destruct (negb _); done.
  - destruct g as [|c g]; [rewrite (acc_nil _ [] l acc K) by reflexivity; apply IH|].
    change (Z.of_nat (length (c :: g)) =? 0)%Z with false. cbv iota. rewrite py_index_z by lia. change (Z.to_nat 0) with 0%nat.
    cbn [nth_error]. rewrite str_eqb1, if_not. fold c_pct. destruct (negb (c =? c_pct)) eqn:E; cbv iota.
    + rewrite (acc_ok _ _ l acc (c :: g) K); [apply IH|]. now rewrite E.
    + rewrite slz_from by lia. change (Z.to_nat 1) with 1%nat. cbn [skipn].
      destruct (int_base 16 g) as [v|e] eqn:I; [|rewrite (acc_raise _ _ l acc e K); [done|now rewrite E, I]].
      destruct (chr v) as [t|e] eqn:T; [|rewrite (acc_raise _ _ l acc e K); [done|rewrite E, I; cbn [bind]; now rewrite T]].
      rewrite (acc_ok _ _ l acc [t] K); [apply IH|]. rewrite E, I. cbn [bind]. now rewrite T.
Qed.
Ltac Zify.zify_post_hook ::= Z.div_mod_to_equations.
Fixpoint evens_map {A B} (f : A -> B) (l : list A) : evens (map f l) = map f (evens l)
with odds_map {A B} (f : A -> B) (l : list A) : odds (map f l) = map f (odds l).
Proof. - destruct l as [|x l]; [reflexivity|]. cbn [map evens]. now rewrite odds_map. - destruct l as [|x l]; [reflexivity|]. cbn [map odds]. apply evens_map. Qed.
Lemma zadd_zsum l : zadd l = zsum l.
Proof. induction l as [|z l IH]; [reflexivity|]. cbn [zadd]. rewrite IH. reflexivity. Qed.
Lemma g_calculate_checksum s : gives "common.calculate_checksum" [VStr s] (out VInt (calculate_checksum s)).
Proof.
  intros k. enter. unfold calculate_checksum.
  eapply reach_trans.
  { apply (comp_strs W "d" _ _ int10 VInt). intros x ac k'. go. destruct (int10 x); done. }
  rewrite map_res_map. destruct (map_res _ s) as [l|] eqn:M; cbn [ret_to bind]; go; [|done]. cbn [rev app].
  change (2 =? 0)%Z with false. change (10 =? 0)%Z with false. cbv iota. rewrite odds_map, evens_map, !ints_of_map, !zadd_zsum.
  replace (Z.of_nat (length s) mod 2 =? 0)%Z with (Nat.even (length s)).
  2:{ destruct (Nat.even (length s)) eqn:Ev; [apply Nat.even_spec in Ev|rewrite <- Nat.negb_odd in Ev; apply negb_false_iff, Nat.odd_spec in Ev]; destruct Ev as (m & ->); symmetry; [apply Z.eqb_eq|apply Z.eqb_neq]; lia. }
  destruct (Nat.even (length s)); done.
Qed.
Lemma g_parse_header {S} (cls : string) (name : S -> string) (value : S -> str) s (h : list (str * S)) :
  gives "common.parse_header_and_truncate_binary" [VStr s; VDict (dict_of (fun x => VEnum cls (name x) (VStr (value x))) h)]
    (out (fun r => VTuple [VEnum cls (name (fst r)) (VStr (value (fst r))); VStr (snd r)]) (parse_header_and_truncate_binary value s h)).
Proof.
  intros k. enter. unfold parse_header_and_truncate_binary. rewrite slz_to by lia. change (Z.to_nat 8) with 8%nat.
  pose proof (dict_get_of (fun x => VEnum cls (name x) (VStr (value x))) h (firstn 8 s)) as G. destruct (assoc_str _ h) as [x|]; [|get G; done].
  cbn [option_map] in G. get G. cbn [of_option bind]. fold c_dash. destruct (split c_dash (value x)) as [|a [|b [|c l]]]; [done..| |done].
  destruct (isnumeric b); [|done]. destruct (int10 b) as [z|]; [|done]. cbn [bind].
  destruct (z =? 0)%Z; cbn [negb andb raise_if bind]; [done|]. destruct (_ <? _)%Z; done.
Qed.
