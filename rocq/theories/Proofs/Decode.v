(** from_binary() on arbitrary strings of bits. *)
From Coq Require Import String.
From Verif.Model Require Import Py Re Regexes Common Base.
From Verif.Model Require Import Adi Cpi Gdti Giai Gid Grai Gsrn Gsrnp Itip Sgcn Sgln Sgtin Sscc Usdod Parsers.
From Verif.Spec Require Import Spec SpecEscapes SpecGrammar SpecSchemes SpecTags SpecLayout SpecCoding.
From Verif.Proofs Require Import Basics Num ReLemmas Uni Escapes Codecs Codecs2 Partition Grammar Ctor CtorA CtorB CtorC CtorAll TagUri TagFits Layout.

Definition numeric_text (b : str) : res str := let* i := binary_to_int b in Ok (dec i).
Definition dotted2 (a b : res str) : res str := let* x := a in let* y := b in Ok (x ++ [c_dot] ++ y).

(** what follows the filter bits, decoded to the part of the pure identity URI behind the prefix *)
Definition k_body (k : coding) (r : str) : res str :=
  match k with
  | K_SGTIN_96 => dotted2 (decode_partition_table (firstn 47 r) sgtin_table_P false false false) (numeric_text (skipn 47 r))
  | K_SGTIN_198 => dotted2 (decode_partition_table (firstn 47 r) sgtin_table_P false false false) (decode_string (skipn 47 r))
  | K_SGLN_96 => dotted2 (decode_partition_table (firstn 44 r) sgln_table_P false false false) (numeric_text (skipn 44 r))
  | K_SGLN_195 => dotted2 (decode_partition_table (firstn 44 r) sgln_table_P false false false) (decode_string (skipn 44 r))
  | K_GRAI_96 => dotted2 (decode_partition_table (firstn 47 r) grai_table_P false false false) (numeric_text (skipn 47 r))
  | K_GRAI_170 => dotted2 (decode_partition_table (firstn 47 r) grai_table_P false false false) (decode_string (skipn 47 r))
  | K_GDTI_96 => dotted2 (decode_partition_table (firstn 44 r) gdti_table_P false false false) (numeric_text (skipn 44 r))
  | K_GDTI_174 => dotted2 (decode_partition_table (firstn 44 r) gdti_table_P false false false) (decode_string (skipn 44 r))
  | K_SGCN_96 => dotted2 (decode_partition_table (firstn 44 r) sgcn_table_P false false false) (decode_numeric_string (skipn 44 r))
  | K_SSCC_96 => decode_partition_table (firstn 61 r) sscc_table_P false false false
  | K_GSRN_96 => decode_partition_table (firstn 61 r) gsrn_table_P false false false
  | K_GSRNP_96 => decode_partition_table (firstn 61 r) gsrnp_table_P false false false
  | K_GIAI_96 => decode_partition_table r giai_table_P_96 true false false
  | K_GIAI_202 => decode_partition_table r giai_table_P_202 false true false
  | K_CPI_96 => dotted2 (decode_partition_table (firstn 54 r) cpi_table_P_96 true false false) (numeric_text (skipn 54 r))
  | K_CPI_VAR =>
      let* c := decode_partition_table r cpi_table_P_var false false true in
      let* p := binary_to_int (firstn 3 r) in
      let* partition := of_option KeyError (lookup p cpi_table_P_var) in
      let s := cpi_serial_loop (re_split_cap (m_bits 6) (skipn (3 + rM partition) r)) false in
      let* i := binary_to_int (if (0 <? length s)%nat then firstn 40 s else lit "0") in
      Ok (c ++ [c_dot] ++ dec i)
  | K_ITIP_110 => dotted2 (decode_partition_table (firstn 47 r) itip_table_P false false false)
      (dotted2 (decode_fixed_width_integer (sl 47 54 r)) (dotted2 (decode_fixed_width_integer (sl 54 61 r)) (numeric_text (skipn 61 r))))
  | K_ITIP_212 => dotted2 (decode_partition_table (firstn 47 r) itip_table_P false false false)
      (dotted2 (decode_fixed_width_integer (sl 47 54 r)) (dotted2 (decode_fixed_width_integer (sl 54 61 r)) (decode_string (skipn 61 r))))
  | K_GID_96 => dotted2 (numeric_text (firstn 28 r)) (dotted2 (numeric_text (sl 28 52 r)) (numeric_text (skipn 52 r)))
  | K_USDOD_96 => dotted2 (decode_cage_code (firstn 48 r)) (numeric_text (skipn 48 r))
  | K_ADI_VAR =>
      let* _ := raise_if (negb (rmatch adi_terminator (skipn 36 r))) ConvertException in
      let* (p, _, s) := unpack2_rest (re_split_cap m_zeros6 (skipn 36 r)) in
      dotted2 (decode_cage_code_six_bits (firstn 36 r))
        (dotted2 (decode_string_six_bits p 32) (decode_string_six_bits (drop_last 6 (concat s)) 30))
  end.

Definition too_short (k : coding) (b : str) : bool := match tag_size k with Some n => (length b <? n)%nat | None => false end.
Definition cut (k : coding) (b : str) : str := match tag_size k with Some n => firstn n b | None => b end.
Definition after_filter (k : coding) (b : str) : str := skipn (8 + filter_width k) (cut k b).

Lemma skipn_skipn' {A} i j (l : list A) : skipn i (skipn j l) = skipn (j + i) l.
Proof. revert l. induction j as [|j IH]; intros l; [reflexivity|]. destruct l as [|x l]; [now rewrite !skipn_nil|]. apply IH. Qed.
Lemma skipn_sl {A} n i j (t : list A) : sl (n + i) (n + j) t = sl i j (skipn n t).
Proof. unfold sl. rewrite skipn_skipn'. f_equal. lia. Qed.
Lemma forallb_sl (p : N -> bool) i j s : forallb p s = true -> forallb p (sl i j s) = true.
Proof. intros H. apply forallb_firstn, forallb_skipn, H. Qed.
Lemma length_sl {A} i j (s : list A) : length (sl i j s) = Nat.min (j - i) (length s - i).
Proof. unfold sl. now rewrite firstn_length, skipn_length. Qed.
Lemma int_sl i j t : forallb is_bit t = true -> (i < j)%nat -> (i < length t)%nat -> binary_to_int (sl i j t) = Ok (Z.of_N (sval 2 (sl i j t))).
Proof.
  intros H L1 L2. apply binary_to_int_spec; [|now apply forallb_sl].
  intros E. apply (f_equal (@length N)) in E. rewrite length_sl in E. cbn in E. lia.
Qed.

Lemma parse_kind {S} (value : S -> str) tbl k s nm size n b : firstn 8 b = tag_header k ->
  assoc_str (tag_header k) tbl = Some s -> split c_dash (value s) = [nm; size] ->
  isnumeric size = true -> int10 size = Ok (Z.of_nat n) -> (0 < n)%nat -> tag_size k = Some n ->
  parse_header_and_truncate_binary value b tbl = if too_short k b then Raise ConvertException else Ok (s, cut k b).
Proof.
  intros H A V I E N T. unfold too_short, cut. rewrite T. rewrite <- (firstn_skipn 8 b) at 1. rewrite H.
  rewrite (parse_fixed value tbl (tag_header k) (skipn 8 b) s nm size n); auto. 2:{ destruct k; reflexivity. }
  rewrite <- H, firstn_skipn. reflexivity.
Qed.
Lemma parse_kind_var {S} (value : S -> str) tbl k s nm size b : firstn 8 b = tag_header k ->
  assoc_str (tag_header k) tbl = Some s -> split c_dash (value s) = [nm; size] -> isnumeric size = false -> tag_size k = None ->
  parse_header_and_truncate_binary value b tbl = if too_short k b then Raise ConvertException else Ok (s, cut k b).
Proof.
  intros H A V I T. unfold too_short, cut. rewrite T. rewrite <- (firstn_skipn 8 b) at 1. rewrite H.
  rewrite (parse_var value tbl (tag_header k) (skipn 8 b) s nm size); auto. 2:{ destruct k; reflexivity. }
  rewrite <- H, firstn_skipn. reflexivity.
Qed.

Lemma cut_length k b n : tag_size k = Some n -> too_short k b = false -> length (cut k b) = n.
Proof. intros H L. unfold too_short, cut in *. rewrite H in *. apply Nat.ltb_ge in L. apply firstn_length_le, L. Qed.
Lemma cut_bit k b : forallb is_bit b = true -> forallb is_bit (cut k b) = true.
Proof. intros H. unfold cut. destruct (tag_size k); [now apply forallb_firstn|exact H]. Qed.

Ltac decoding :=
  repeat match goal with
  | |- context [bind (decode_partition_table ?a ?b ?c ?d ?e) _] => destruct (decode_partition_table a b c d e); cbn [bind lift]; try reflexivity
  | |- context [bind (decode_string ?a) _] => destruct (decode_string a); cbn [bind lift]; try reflexivity
  | |- context [bind (decode_string_six_bits ?a ?k) _] => destruct (decode_string_six_bits a k); cbn [bind lift]; try reflexivity
  | |- context [bind (decode_cage_code ?a) _] => destruct (decode_cage_code a); cbn [bind lift]; try reflexivity
  | |- context [bind (decode_cage_code_six_bits ?a) _] => destruct (decode_cage_code_six_bits a); cbn [bind lift]; try reflexivity
  | |- context [bind (decode_numeric_string ?a) _] => destruct (decode_numeric_string a); cbn [bind lift]; try reflexivity
  | |- context [bind (decode_fixed_width_integer ?a) _] => destruct (decode_fixed_width_integer a); cbn [bind lift]; try reflexivity
  | |- context [bind (binary_to_int ?a) _] => destruct (binary_to_int a); cbn [bind lift]; try reflexivity
  end.
Ltac fx X init value tbl s nm size n w b B H :=
  unfold X; rewrite (parse_kind value tbl _ s (lit nm) (lit size) n b H) by (try reflexivity; lia);
  match goal with |- context [too_short ?k b] =>
    let L := fresh "L" in destruct (too_short k b) eqn:L; [reflexivity|]; cbn [bind];
    let Lt := fresh "Lt" in let Bt := fresh "Bt" in
    pose proof (cut_length k b n eq_refl L) as Lt; pose proof (cut_bit k b B) as Bt;
    unfold after_filter; set (t := cut k b) in *;
    rewrite (int_sl 8 w t Bt) by lia end; cbn [bind]; cbn [filter_width Nat.add k_body]; unfold dotted2, numeric_text.
Ltac fin init c := rewrite dec_of_N; match goal with |- context [ndec ?v] => rewrite <- ?app_assoc;
    etransitivity; [apply f_equal; apply (from_tag_gen init c) with (f := ndec v); [nomatch init|cbn; tauto|discriminate|apply ndec_nc]|]; rewrite <- ?app_assoc; try reflexivity end.

Theorem from_binary_body k b : forallb is_bit b = true -> firstn 8 b = tag_header k ->
  from_binary_of (tag_class k) b =
  if too_short k b then Raise ConvertException
  else let* r := k_body k (after_filter k b) in init_of (tag_class k) (scheme_prefix (tag_class k) ++ r).
Proof.
  intros B H.
  destruct k; cbn [tag_class from_binary_of init_of].
  - fx gdti_from_binary gdti_init gdti_scheme_value gdti_header_to_schemes GDTI_96 "gdti"%string "96"%string 96%nat 11%nat b B H.
    rewrite (skipn_sl 11 0 44), (skipn_skipn' 44 11). unfold sl at 1. cbn [skipn Nat.sub Nat.add]. decoding. fin gdti_init C_GDTI.
  - fx gsrn_from_binary gsrn_init gsrn_scheme_value gsrn_header_to_schemes GSRN_96 "gsrn"%string "96"%string 96%nat 11%nat b B H.
    rewrite (skipn_sl 11 0 61). unfold sl at 1. cbn [skipn Nat.sub Nat.add]. decoding. fin gsrn_init C_GSRN.
  - fx gsrnp_from_binary gsrnp_init gsrnp_scheme_value gsrnp_header_to_schemes GSRNP_96 "gsrnp"%string "96"%string 96%nat 11%nat b B H.
    rewrite (skipn_sl 11 0 61). unfold sl at 1. cbn [skipn Nat.sub Nat.add]. decoding. fin gsrnp_init C_GSRNP.
  - fx usdod_from_binary usdod_init usdod_scheme_value usdod_header_to_schemes USDOD_96 "usdod"%string "96"%string 96%nat 12%nat b B H.
    rewrite (skipn_sl 12 0 48), (skipn_skipn' 48 12). unfold sl at 1. cbn [skipn Nat.sub Nat.add]. decoding. fin usdod_init C_USDOD.
  - fx sgtin_from_binary sgtin_init sgtin_scheme_value sgtin_header_to_schemes SGTIN_96 "sgtin"%string "96"%string 96%nat 11%nat b B H.
    rewrite (skipn_sl 11 0 47), (skipn_skipn' 47 11). unfold sl at 1. cbn [skipn Nat.sub Nat.add]. decoding. fin sgtin_init C_SGTIN.
  - fx sscc_from_binary sscc_init sscc_scheme_value sscc_header_to_schemes SSCC_96 "sscc"%string "96"%string 96%nat 11%nat b B H.
    rewrite (skipn_sl 11 0 61). unfold sl at 1. cbn [skipn Nat.sub Nat.add]. decoding. fin sscc_init C_SSCC.
  - fx sgln_from_binary sgln_init sgln_scheme_value sgln_header_to_schemes SGLN_96 "sgln"%string "96"%string 96%nat 11%nat b B H.
    rewrite (skipn_sl 11 0 44), (skipn_skipn' 44 11). unfold sl at 1. cbn [skipn Nat.sub Nat.add]. decoding. fin sgln_init C_SGLN.
  - fx grai_from_binary grai_init grai_scheme_value grai_header_to_schemes GRAI_96 "grai"%string "96"%string 96%nat 11%nat b B H.
    rewrite (skipn_sl 11 0 47), (skipn_skipn' 47 11). unfold sl at 1. cbn [skipn Nat.sub Nat.add]. decoding. fin grai_init C_GRAI.
  - fx giai_from_binary giai_init giai_scheme_value giai_header_to_schemes GIAI_96 "giai"%string "96"%string 96%nat 11%nat b B H.
     decoding. fin giai_init C_GIAI.
  - unfold gid_from_binary. rewrite (parse_kind gid_scheme_value gid_header_to_schemes _ GID_96 (lit "gid") (lit "96") 96 b H) by (try reflexivity; lia).
    destruct (too_short K_GID_96 b) eqn:L; [reflexivity|]. cbn [bind].
    pose proof (cut_length K_GID_96 b 96 eq_refl L) as Lt. pose proof (cut_bit K_GID_96 b B) as Bt.
    unfold after_filter. set (t := cut K_GID_96 b) in *. cbn [filter_width Nat.add k_body]. unfold dotted2, numeric_text.
    change (firstn 28 (skipn 8 t)) with (sl 8 36 t). rewrite <- (skipn_sl 8 28 52), (skipn_skipn' 52 8). cbn [Nat.add].
    rewrite (int_sl 8 36 t Bt), (int_sl 36 60 t Bt) by lia.
    rewrite (binary_to_int_spec (skipn 60 t)); [|intros E; apply (f_equal (@length N)) in E; rewrite skipn_length, Lt in E; discriminate E|now apply forallb_skipn].
    cbn [bind]. rewrite !dec_of_N. change (gid_scheme_value GID_96) with (lit "gid-96"). rewrite from_tag_gid; [reflexivity|].
    assert (Q : forall n, ~ In c_colon (ndec n)).
    { intros n I. pose proof (ndec_digits n) as D. rewrite forallb_forall in D. apply D in I. discriminate. }
    intros I. repeat (apply in_app_or in I as [I|I]); try (now apply Q in I); destruct I as [I|[]]; discriminate.
  - fx sgtin_from_binary sgtin_init sgtin_scheme_value sgtin_header_to_schemes SGTIN_198 "sgtin"%string "198"%string 198%nat 11%nat b B H.
    rewrite (skipn_sl 11 0 47), (skipn_skipn' 47 11). unfold sl at 1. cbn [skipn Nat.sub Nat.add]. decoding. fin sgtin_init C_SGTIN.
  - fx grai_from_binary grai_init grai_scheme_value grai_header_to_schemes GRAI_170 "grai"%string "170"%string 170%nat 11%nat b B H.
    rewrite (skipn_sl 11 0 47), (skipn_skipn' 47 11). unfold sl at 1. cbn [skipn Nat.sub Nat.add]. decoding. fin grai_init C_GRAI.
  - fx giai_from_binary giai_init giai_scheme_value giai_header_to_schemes GIAI_202 "giai"%string "202"%string 202%nat 11%nat b B H.
     decoding. fin giai_init C_GIAI.
  - fx sgln_from_binary sgln_init sgln_scheme_value sgln_header_to_schemes SGLN_195 "sgln"%string "195"%string 195%nat 11%nat b B H.
    rewrite (skipn_sl 11 0 44), (skipn_skipn' 44 11). unfold sl at 1. cbn [skipn Nat.sub Nat.add]. decoding. fin sgln_init C_SGLN.
  - unfold adi_from_binary. rewrite (parse_kind_var adi_scheme_value adi_header_to_schemes _ ADI_VAR (lit "adi") (lit "var") b H) by reflexivity.
    unfold after_filter. change (too_short K_ADI_VAR b) with false. change (cut K_ADI_VAR b) with b. cbn [bind filter_width Nat.add k_body].
    rewrite (skipn_skipn' 36 14 b). cbn [Nat.add]. change (firstn 36 (skipn 14 b)) with (sl 14 50 b).
    destruct (rmatch adi_terminator (skipn 50 b)) eqn:E1; [|reflexivity]. cbn [negb raise_if bind].
    assert (Lb : (50 < length b)%nat).
    { destruct (Nat.ltb_spec 50 (length b)) as [Q|Q]; [exact Q|]. exfalso. rewrite skipn_all2 in E1 by exact Q. vm_compute in E1. discriminate. }
    destruct (unpack2_rest _) as [[[p x] s]|]; [|reflexivity]. cbn [bind]. unfold dotted2. rewrite (int_sl 8 14 b B) by lia. cbn [bind].
    decoding. fin adi_init C_ADI.
  - fx cpi_from_binary cpi_init cpi_scheme_value cpi_header_to_schemes CPI_96 "cpi"%string "96"%string 96%nat 11%nat b B H.
    rewrite (skipn_sl 11 0 54), (skipn_skipn' 54 11). unfold sl at 1. cbn [skipn Nat.sub Nat.add]. decoding. fin cpi_init C_CPI.
  - unfold cpi_from_binary. rewrite (parse_kind_var cpi_scheme_value cpi_header_to_schemes _ CPI_VAR (lit "cpi") (lit "var") b H) by reflexivity.
    unfold after_filter. change (too_short K_CPI_VAR b) with false. change (cut K_CPI_VAR b) with b. cbn [bind filter_width Nat.add k_body].
    set (r := skipn 11 b).
    destruct (decode_partition_table r cpi_table_P_var false false true) as [a|] eqn:E1; [|reflexivity]. cbn [bind].
    destruct (binary_to_int (firstn 3 r)) as [p|] eqn:E2; [|reflexivity]. cbn [bind].
    destruct (lookup p cpi_table_P_var) as [q|]; [|reflexivity]. cbn [bind of_option]. pose proof (skipn_skipn' (3 + rM q) 11 b) as K. cbn [Nat.add] in K. rewrite <- K. fold r.
    assert (Lb : (11 < length b)%nat).
    { destruct (Nat.ltb_spec 11 (length b)) as [Q|Q]; [exact Q|]. exfalso. unfold r in E2. rewrite skipn_all2 in E2 by exact Q. discriminate. }
    rewrite (int_sl 8 11 b B) by lia. cbn [bind].
    match goal with |- lift _ (bind (binary_to_int ?x) _) = bind (bind (binary_to_int ?y) _) _ => change y with x; destruct (binary_to_int x) as [i|]; [|reflexivity] end. cbn [bind]. fin cpi_init C_CPI.
  - fx gdti_from_binary gdti_init gdti_scheme_value gdti_header_to_schemes GDTI_174 "gdti"%string "174"%string 174%nat 11%nat b B H.
    rewrite (skipn_sl 11 0 44), (skipn_skipn' 44 11). unfold sl at 1. cbn [skipn Nat.sub Nat.add]. decoding. fin gdti_init C_GDTI.
  - fx sgcn_from_binary sgcn_init sgcn_scheme_value sgcn_header_to_schemes SGCN_96 "sgcn"%string "96"%string 96%nat 11%nat b B H.
    rewrite (skipn_sl 11 0 44), (skipn_skipn' 44 11). unfold sl at 1. cbn [skipn Nat.sub Nat.add]. decoding. fin sgcn_init C_SGCN.
  - fx itip_from_binary itip_init itip_scheme_value itip_header_to_schemes ITIP_110 "itip"%string "110"%string 110%nat 11%nat b B H.
    rewrite (skipn_sl 11 0 47), (skipn_sl 11 47 54), (skipn_sl 11 54 61), (skipn_skipn' 61 11). unfold sl at 1. cbn [skipn Nat.sub Nat.add]. decoding. fin itip_init C_ITIP.
  - fx itip_from_binary itip_init itip_scheme_value itip_header_to_schemes ITIP_212 "itip"%string "212"%string 212%nat 11%nat b B H.
    rewrite (skipn_sl 11 0 47), (skipn_sl 11 47 54), (skipn_sl 11 54 61), (skipn_skipn' 61 11). unfold sl at 1. cbn [skipn Nat.sub Nat.add]. decoding. fin itip_init C_ITIP.
Qed.
