(** The operations of the machine as the operations of the model. *)
From Coq Require Import String Lia ZifyBool.
From Verif.Model Require Import Py PyFloat Re Sre PyFormat Syntax Machine Regexes RegexText Common Parsers Adi.
From Verif.Spec Require SpecSre.
From Verif.Spec Require Import SpecSource.
From Verif.Proofs Require Import Basics Num SreTexts SreUse.
Ltac Zify.zify_post_hook ::= Z.div_mod_to_equations.

Lemma slit_lit s : slit s = lit s.
Proof.
  unfold lit. induction s as [|a s IH]; [reflexivity|]. cbn [slit String.list_ascii_of_string map]. rewrite IH. f_equal.
  destruct a as [[] [] [] [] [] [] [] []]; reflexivity.
Qed.

(** * Texts of numbers *)

(** a number with at most 4300 digits *)
Lemma fits_le n m : (n <= m)%nat -> fits m -> fits n.
Proof. unfold fits. lia. Qed.
Lemma fits_small n : (n <= 1000)%nat -> fits n.
Proof. unfold fits. change (2 ^ 100)%Z with 1267650600228229401496703205376%Z. lia. Qed.
Lemma intable_fits n : fits n -> intable (ndec (N.of_nat n)).
Proof. intros H. apply (intable_ndec _ 100); [|lia]. unfold fits in H. apply N2Z.inj_lt. rewrite nat_N_Z. exact H. Qed.
Lemma str_int_nat n : fits n -> str_int (Z.of_nat n) = Ok (ndec (N.of_nat n)).
Proof. intros H. rewrite <- nat_N_Z. apply str_int_spec, intable_fits, H. Qed.

Lemma take_digits_app d t : forallb is_digit d = true -> (match t with c :: _ => is_digit c | [] => false end) = false ->
  take_digits (d ++ t) = (d, t).
Proof.
  induction d as [|c d IH]; intros H Ht.
  - cbn [app]. destruct t as [|c t]; cbn [take_digits]; [reflexivity|]. rewrite Ht. reflexivity.
  - cbn [forallb] in H. apply andb_prop in H as [H1 H2]. cbn [app take_digits]. rewrite H1, IH by assumption. reflexivity.
Qed.
Lemma digits_nat_sval s : forallb is_digit s = true -> digits_nat s = N.to_nat (sval 10 s).
Proof.
  unfold digits_nat, sval, val. intros H. revert H.
  enough (G : forall a, forallb is_digit s = true -> fold_left (fun a c => (a * 10 + N.to_nat (c - 48))%nat) s (N.to_nat a) =
    N.to_nat (fold_left (fun a d => a * 10 + d) (map dv s) a)) by exact (G 0).
  induction s as [|c s IH]; intros a H; [reflexivity|].
  cbn [forallb] in H. apply andb_prop in H as [H1 H2]. cbn [fold_left map]. rewrite <- IH by exact H2.
  rewrite dv_digit by exact H1. rewrite N2Nat.inj_add, N2Nat.inj_mul. reflexivity.
Qed.
Lemma digits_nat_ndec n : digits_nat (ndec (N.of_nat n)) = n.
Proof. destruct (ndec_spec (N.of_nat n)) as (A & B & _). rewrite digits_nat_sval by exact B. rewrite A. lia. Qed.
Lemma digit_not_align c : is_digit c = true -> is_align c = false.
Proof. intros H. apply is_digit_iff in H. unfold is_align, a_left, a_right, a_sign, a_centre. lia. Qed.
Lemma ndec_head n : exists c d, ndec n = c :: d /\ is_digit c = true.
Proof.
  destruct (ndec n) as [|c d] eqn:E; [destruct (ndec_nonempty n E)|]. exists c, d. split; [reflexivity|].
  pose proof (ndec_digits n) as H. rewrite E in H. cbn [forallb] in H. apply andb_prop in H. apply H.
Qed.
Definition no_digit (t : str) : bool := match t with c :: _ => negb (is_digit c) | [] => true end.
Lemma take_ndec n t : no_digit t = true -> take_digits (ndec n ++ t) = (ndec n, t).
Proof. intros H. apply take_digits_app; [apply ndec_digits|]. destruct t; [reflexivity|]. cbn [no_digit] in H. now apply negb_true_iff in H. Qed.
(** "0{w}" and "0{w}b" of a number *)
Lemma parse_zero n t : no_digit t = true -> (length t <= 1)%nat ->
  parse_spec true ([48] ++ ndec (N.of_nat n) ++ t) = Some (mkSpec 48 (Some a_sign) n (match t with [c] => Some c | _ => None end)).
Proof.
  intros H L. destruct (ndec_head (N.of_nat n)) as (c & d & E & D). unfold parse_spec, spec_align. cbn [app].
  rewrite E. cbn [app]. rewrite (digit_not_align c D). change (is_align 48) with false. cbv iota beta.
  unfold spec_zero. change (48 =? c_0) with true. cbv iota beta. change (c :: d ++ t) with ((c :: d) ++ t). rewrite <- E.
  rewrite take_ndec by exact H. rewrite digits_nat_ndec. destruct t as [|a [|b t]]; [reflexivity|reflexivity|cbn in L; lia].
Qed.
(** "<0{w}" and ">0{w}" *)
Lemma parse_align_zero b a n : is_align a = true ->
  parse_spec b ([a; 48] ++ ndec (N.of_nat n)) = Some (mkSpec 48 (Some a) n None).
Proof.
  intros A. unfold parse_spec, spec_align. cbn [app]. rewrite A. change (is_align 48) with false. cbv iota beta.
  unfold spec_zero. change (48 =? c_0) with true. cbv iota beta. rewrite <- (app_nil_r (ndec _)).
  rewrite take_ndec by reflexivity. rewrite digits_nat_ndec. reflexivity.
Qed.
(** "0>{w}" *)
Lemma parse_fill a n : is_align a = true -> parse_spec true ([48; a] ++ ndec (N.of_nat n)) = Some (mkSpec 48 (Some a) n None).
Proof.
  intros A. unfold parse_spec, spec_align. cbn [app]. rewrite A. cbv iota beta. unfold spec_zero. rewrite <- (app_nil_r (ndec _)).
  rewrite take_ndec by reflexivity. rewrite digits_nat_ndec. reflexivity.
Qed.

Lemma fmt_bin_spec z n : option_map Ok (fmt_align 48 (Some a_sign) n (if (z <? 0)%Z then [c_dash] else []) (nbin (Z.abs_N z))) = Some (Ok (fmt_bin n z)).
Proof.
  unfold fmt_align, fmt_bin. change (a_sign =? a_right) with false. change (a_sign =? a_left) with false. change (a_sign =? a_sign) with true.
  cbv iota. cbn [option_map]. do 2 f_equal. destruct (Z.ltb_spec z 0).
  - replace (Z.to_N (- z)) with (Z.abs_N z) by lia. reflexivity.
  - replace (Z.to_N z) with (Z.abs_N z) by lia. cbn [app length]. rewrite Nat.sub_0_r. reflexivity.
Qed.
Lemma fmt_int_bin z n : fmt_int z ([48] ++ ndec (N.of_nat n) ++ [98]) = Some (Ok (fmt_bin n z)).
Proof. unfold fmt_int. rewrite parse_zero by (reflexivity || cbn; lia). apply fmt_bin_spec. Qed.
Lemma fmt_int_04b z : fmt_int z [48; 52; 98] = Some (Ok (fmt_bin 4 z)).
Proof. apply fmt_bin_spec. Qed.
Lemma fmt_int_06b z : fmt_int z [48; 54; 98] = Some (Ok (fmt_bin 6 z)).
Proof. apply fmt_bin_spec. Qed.
Lemma fmt_int_08b c : fmt_int (Z.of_N c) [48; 62; 56; 98] = Some (Ok (padl c_0 8 (nbin c))).
Proof.
  unfold fmt_int. change (parse_spec true [48; 62; 56; 98]) with (Some (mkSpec 48 (Some a_right) 8 (Some 98))). cbv iota beta.
  unfold fmt_digits. change (98 =? 98) with true. cbv iota.
  replace (Z.abs_N (Z.of_N c)) with c by lia. destruct (Z.ltb_spec (Z.of_N c) 0); [lia|]. reflexivity.
Qed.
Lemma upper_low d : d < 16 -> upper_char (dchar_low d) = dchar_up d.
Proof.
  intros H. unfold upper_char, dchar_low, dchar_up. destruct (N.ltb_spec d 10).
  - destruct ((97 <=? 48 + d) && (48 + d <=? 122)) eqn:E; [lia|reflexivity].
  - destruct ((97 <=? 87 + d) && (87 + d <=? 122)) eqn:E; lia.
Qed.
Lemma upper_nhex n : upper (nhex_low n) = nhex_up n.
Proof.
  unfold upper, nhex_low, nhex_up. rewrite map_map. apply map_ext_in. intros d H. apply upper_low.
  destruct (to_base_spec 16 n) as (_ & F & _); [lia|]. rewrite Forall_forall in F. apply F, H.
Qed.
Lemma fmt_int_x z : exists s, fmt_int z [120] = Some (Ok s) /\ upper s = fmt_hex_up z.
Proof.
  exists ((if (z <? 0)%Z then [c_dash] else []) ++ nhex_low (Z.abs_N z)). split.
  - unfold fmt_int. change (parse_spec true [120]) with (Some (mkSpec 32 None 0 (Some 120))). cbv iota beta.
    unfold fmt_digits. change (120 =? 98) with false. change (120 =? 120) with true. cbv iota. cbn [fmt_align option_map].
    rewrite padl_ge by lia. reflexivity.
  - unfold fmt_hex_up, signed. unfold upper. rewrite map_app. fold (upper (nhex_low (Z.abs_N z))). rewrite upper_nhex.
    destruct (Z.ltb_spec z 0); [replace (Z.to_N (- z)) with (Z.abs_N z) by lia|replace (Z.to_N z) with (Z.abs_N z) by lia]; reflexivity.
Qed.
Lemma fmt_str_left s n : fmt_str s ([60; 48] ++ ndec (N.of_nat n)) = Some (Ok (padr c_0 n s)).
Proof. unfold fmt_str. rewrite parse_align_zero by reflexivity. reflexivity. Qed.
Lemma fmt_str_right s n : fmt_str s ([62; 48] ++ ndec (N.of_nat n)) = Some (Ok (padl c_0 n s)).
Proof. unfold fmt_str. rewrite parse_align_zero by reflexivity. reflexivity. Qed.
Lemma fmt_str_6 s : fmt_str s [62; 54] = Some (Ok (padl c_space 6 s)).
Proof. reflexivity. Qed.
Lemma fmt_dec fill n z : (match fmt_digits None (Z.abs_N z) with
      | Some (Ok d) => option_map Ok (fmt_align fill (Some a_right) n (if (z <? 0)%Z then [c_dash] else []) d)
      | Some (Raise e) => Some (Raise e)
      | None => None
      end) = Some (let* s := str_int z in Ok (padl fill n s)).
Proof.
  unfold fmt_digits, str_int. destruct (int_max_str_digits <? _); [reflexivity|]. cbn [fmt_align bind option_map].
  change (a_right =? a_right) with true. cbv iota. cbn [option_map]. do 3 f_equal. unfold dec, signed.
  destruct (Z.ltb_spec z 0); [replace (Z.to_N (- z)) with (Z.abs_N z) by lia|replace (Z.to_N z) with (Z.abs_N z) by lia]; reflexivity.
Qed.
Lemma fmt_int_right z n : fmt_int z ([62; 48] ++ ndec (N.of_nat n)) = Some (let* s := str_int z in Ok (padl c_0 n s)).
Proof. unfold fmt_int. rewrite parse_align_zero by reflexivity. apply fmt_dec. Qed.
Lemma fmt_int_fill z n : fmt_int z ([48; 62] ++ ndec (N.of_nat n)) = Some (let* s := str_int z in Ok (padl c_0 n s)).
Proof. unfold fmt_int. rewrite parse_fill by reflexivity. apply fmt_dec. Qed.

(** * Lists *)

Lemma py_index_nat {X} (l : list X) n : py_index l (Z.of_nat n) = nth_error l n.
Proof.
  unfold py_index. destruct (Z.ltb_spec (Z.of_nat n) 0); [lia|].
  destruct (Z.ltb_spec (Z.of_nat n) 0); [lia|]. cbn [orb].
  destruct (Z.leb_spec (Z.of_nat (length l)) (Z.of_nat n)).
  - symmetry. apply nth_error_None. lia.
  - rewrite Nat2Z.id. reflexivity.
Qed.
Lemma py_index_last {X} (l : list X) : py_index l (-1) = match l with [] => None | _ => nth_error l (length l - 1) end.
Proof.
  unfold py_index. change (-1 <? 0)%Z with true. cbv iota. destruct l as [|x l]; [reflexivity|].
  destruct (Z.ltb_spec (-1 + Z.of_nat (length (x :: l))) 0); [cbn [length] in *; lia|].
  destruct (Z.leb_spec (Z.of_nat (length (x :: l))) (-1 + Z.of_nat (length (x :: l)))); [cbn [length] in *; lia|]. cbn [orb].
  f_equal. cbn [length]. lia.
Qed.
Lemma norm_nat n i : norm_idx (Z.of_nat n) (Z.of_nat i) = Z.of_nat (Nat.min i n).
Proof. unfold norm_idx. destruct (Z.ltb_spec (Z.of_nat i) 0); lia. Qed.
Lemma norm_neg n i : norm_idx (Z.of_nat n) (- Z.of_nat (S i)) = Z.of_nat (n - S i).
Proof. unfold norm_idx. destruct (Z.ltb_spec (- Z.of_nat (S i)) 0); lia. Qed.
Lemma firstn_min {X} (l : list X) n : firstn (Nat.min n (length l)) l = firstn n l.
Proof. destruct (Nat.le_ge_cases n (length l)); [rewrite Nat.min_l by lia; reflexivity|]. rewrite Nat.min_r by lia. rewrite firstn_all, firstn_all2 by lia. reflexivity. Qed.
Lemma skipn_min {X} (l : list X) n : skipn (Nat.min n (length l)) l = skipn n l.
Proof. destruct (Nat.le_ge_cases n (length l)); [rewrite Nat.min_l by lia; reflexivity|]. rewrite Nat.min_r by lia. rewrite skipn_all, skipn_all2 by lia. reflexivity. Qed.
Lemma strs_of_map l : strs_of (map VStr l) = Some l.
Proof. induction l as [|s l IH]; [reflexivity|]. cbn [map strs_of]. rewrite IH. reflexivity. Qed.
Lemma ints_of_map l : ints_of (map VInt l) = Some l.
Proof. induction l as [|s l IH]; [reflexivity|]. cbn [map ints_of]. rewrite IH. reflexivity. Qed.
Lemma vrev_rev {X} (l acc : list X) : vrev l acc = rev l ++ acc.
Proof. revert acc. induction l as [|x l IH]; intros acc; [reflexivity|]. cbn [vrev rev]. rewrite IH, <- app_assoc. reflexivity. Qed.
Lemma join_nil l : join [] l = concat l.
Proof. induction l as [|x [|y l] IH]; [reflexivity|cbn; now rewrite app_nil_r|]. change (join [] (x :: y :: l)) with (x ++ [] ++ join [] (y :: l)). rewrite IH. reflexivity. Qed.

(** * re *)

Lemma text_full t r : agree t r -> forall s, text_fullmatch t s = Some (fullmatch r s).
Proof. intros (p & E & F & _) s. unfold text_fullmatch. rewrite E, F. reflexivity. Qed.
Lemma text_prefix t r : agree t r -> forall s, text_match t s = Some (rmatch r s).
Proof. intros (p & E & _ & F) s. unfold text_match. rewrite E. f_equal. rewrite <- F. reflexivity. Qed.
Lemma split_aux_ext b (m m' : str -> option nat) : (forall s, m s = m' s) -> forall s cur skip, split_aux b m s cur skip = split_aux b m' s cur skip.
Proof.
  intros E. induction s as [|c s IH]; intros cur skip; [reflexivity|]. cbn [split_aux]. destruct skip; [|apply IH].
  rewrite E. destruct (m' (c :: s)) as [[|k]|]; rewrite ?IH; reflexivity.
Qed.
Lemma findall_aux_ext (m m' : str -> option nat) : (forall s, m s = m' s) -> forall s skip, findall_aux m s skip = findall_aux m' s skip.
Proof.
  intros E. induction s as [|c s IH]; intros skip; [reflexivity|]. cbn [findall_aux]. destruct skip; [|apply IH].
  rewrite E. destruct (m' (c :: s)) as [[|k]|]; rewrite ?IH; reflexivity.
Qed.
Lemma text_split_group t m : cuts t m -> startswith [c_lpar] t = true -> forall s, text_split t s = Some (re_split_cap m s).
Proof. intros (p & E & F) G s. unfold text_split. rewrite E, G. f_equal. apply split_aux_ext, F. Qed.
Lemma text_split_plain t m : cuts t m -> startswith [c_lpar] t = false -> mem c_lpar (replace [c_bsl; c_lpar] [] t) = false ->
  forall s, text_split t s = Some (re_split m s).
Proof. intros (p & E & F) G H s. unfold text_split. rewrite E, G, H. f_equal. apply split_aux_ext, F. Qed.
Lemma text_findall_plain t m : cuts t m -> mem c_lpar t = false -> forall s, text_findall t s = Some (re_findall m s).
Proof. intros (p & E & F) G s. unfold text_findall. rewrite E, G. f_equal. apply findall_aux_ext, F. Qed.
Lemma cut_in t m : In (t, m) SpecSre.cutting_patterns -> cuts t m.
Proof. intros H. pose proof cutting_agree as A. rewrite Forall_forall in A. exact (A _ H). Qed.

(** * Slices and indices with integers that are not negative *)

Lemma py_index_z {X} (l : list X) z : (0 <= z)%Z -> py_index l z = nth_error l (Z.to_nat z).
Proof. intros H. rewrite <- (Z2Nat.id z) at 1 by exact H. apply py_index_nat. Qed.
Lemma slz_to {X} (l : list X) z : (0 <= z)%Z -> slz None (Some z) l = firstn (Z.to_nat z) l.
Proof.
  intros H. unfold slz. rewrite <- (Z2Nat.id z) at 1 by exact H. rewrite norm_nat, Z.sub_0_r, Nat2Z.id, firstn_min. reflexivity.
Qed.
Lemma slz_from {X} (l : list X) z : (0 <= z)%Z -> slz (Some z) None l = skipn (Z.to_nat z) l.
Proof.
  intros H. unfold slz. rewrite <- (Z2Nat.id z) at 1 2 by exact H. rewrite norm_nat, Nat2Z.id, skipn_min.
  apply firstn_all2. rewrite skipn_length. lia.
Qed.
Lemma slz_mid {X} (l : list X) y z : (0 <= y)%Z -> (0 <= z)%Z -> slz (Some y) (Some z) l = sl (Z.to_nat y) (Z.to_nat z) l.
Proof.
  intros H I. unfold slz, sl. rewrite <- (Z2Nat.id y) at 1 2 by exact H. rewrite <- (Z2Nat.id z) at 1 by exact I. rewrite !norm_nat, Nat2Z.id, skipn_min.
  set (a := Z.to_nat y). set (b := Z.to_nat z). destruct (Nat.le_ge_cases b (length l)) as [L|L].
  - f_equal. lia.
  - rewrite !firstn_all2; [reflexivity| |]; rewrite skipn_length; lia.
Qed.
Lemma slz_drop {X} (l : list X) z : (z < 0)%Z -> slz None (Some z) l = drop_last (Z.to_nat (- z)) l.
Proof.
  intros H. unfold slz, drop_last. rewrite Z.sub_0_r. replace z with (- Z.of_nat (S (Z.to_nat (- z) - 1)))%Z at 1 by lia.
  rewrite norm_neg, Nat2Z.id. cbn [skipn Z.to_nat]. f_equal. lia.
Qed.
