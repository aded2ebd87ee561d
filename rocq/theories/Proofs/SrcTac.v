(** Tactics that bring the operations of the machine into the words of the model and use what is known of common.py. *)
From Coq Require Import String Lia.
From Verif.Model Require Import Py PyFloat Re Sre PyFormat Syntax Machine Regexes Common Base Sgtin Sgln Cpi.
From Verif.Source Require Import World.
From Verif.Spec Require SpecSre.
From Verif.Proofs Require Import Basics Num SreTexts SreUse.
From Verif.Proofs Require Export RunTac Bridge SrcCommon.

(** run on through the constructors of the base classes *)
Ltac inits := enter; repeat match goal with
  | |- reach _ (StCall _ _ _ true _) _ => enter
  | |- reach _ (StDone _ (FSuper _ _ :: _)) _ => enter
  end.

Lemma eqb_z a p n : Z.of_nat n = Zpos p -> (Z.of_nat a =? Zpos p)%Z = (a =? n)%nat.
Proof. intros <-. apply eqb_nat. Qed.
Lemma ltb_z a p n : Z.of_nat n = Zpos p -> (Z.of_nat a <? Zpos p)%Z = (a <? n)%nat.
Proof. intros <-. apply ltb_nat. Qed.
Lemma gtb_z a p n : Z.of_nat n = Zpos p -> (Zpos p <? Z.of_nat a)%Z = (n <? a)%nat.
Proof. intros <-. apply ltb_nat. Qed.
Lemma leb_z a p n : Z.of_nat n = Zpos p -> (Z.of_nat a <=? Zpos p)%Z = (a <=? n)%nat.
Proof. intros <-. apply leb_nat. Qed.
Lemma geb_z a p n : Z.of_nat n = Zpos p -> (Zpos p <=? Z.of_nat a)%Z = (n <=? a)%nat.
Proof. intros <-. apply leb_nat. Qed.
Lemma eqb_0 a : (Z.of_nat a =? 0)%Z = (a =? 0)%nat.
Proof. apply (eqb_nat a 0). Qed.

Ltac lits := repeat match goal with |- context [lit ?s] => let v := eval vm_compute in (lit s) in change (lit s) with v end.
Ltac consts := unfold c_colon, c_dot, c_pct, c_dash, c_0, c_1, c_space.
Ltac nums := repeat match goal with
  | |- context [Z.to_nat (Zpos ?p)] => let n := eval vm_compute in (Pos.to_nat p) in change (Z.to_nat (Zpos p)) with n
  | |- context [Z.to_nat 0] => change (Z.to_nat 0) with 0%nat
  | |- context [(- Zneg ?p)%Z] => change (- Zneg p)%Z with (Zpos p)
  | |- context [(Z.of_nat ?a =? Zpos ?p)%Z] => let n := eval vm_compute in (Pos.to_nat p) in rewrite (eqb_z a p n eq_refl)
  | |- context [(Z.of_nat ?a <? Zpos ?p)%Z] => let n := eval vm_compute in (Pos.to_nat p) in rewrite (ltb_z a p n eq_refl)
  | |- context [(Zpos ?p <? Z.of_nat ?a)%Z] => let n := eval vm_compute in (Pos.to_nat p) in rewrite (gtb_z a p n eq_refl)
  | |- context [(Z.of_nat ?a <=? Zpos ?p)%Z] => let n := eval vm_compute in (Pos.to_nat p) in rewrite (leb_z a p n eq_refl)
  | |- context [(Zpos ?p <=? Z.of_nat ?a)%Z] => let n := eval vm_compute in (Pos.to_nat p) in rewrite (geb_z a p n eq_refl)
  | |- context [(Z.of_nat ?a =? 0)%Z] => rewrite (eqb_0 a)
  end.
Lemma checksum_str s z : calculate_checksum s = Ok z -> str_int z = Ok (dec z).
Proof.
  unfold calculate_checksum. destruct (map_res _ s) as [l|]; [|discriminate]. cbn [bind].
  enough (G : forall a, str_int (a mod 10) = Ok (dec (a mod 10))).
  { destruct (Nat.even (length s)); intros [= <-]; apply G. }
  intros a. pose proof (Z.mod_pos_bound a 10 eq_refl) as B. set (y := (a mod 10)%Z) in *. clearbody y. rewrite <- (Z2Nat.id y) by lia.
  rewrite <- nat_N_Z. rewrite dec_of_N. apply str_int_spec, (intable_ndec _ 10); lia.
Qed.
Ltac prims := repeat match goal with
  | |- context [[?a] ++ ?l] => change ([a] ++ l) with (a :: l)
  | E : calculate_checksum _ = Ok ?z |- context [str_int ?z] => rewrite (checksum_str _ _ E)
  | |- context [if ?b then false else true] => change (if b then false else true) with (negb b)
  | |- context [py_index ?l ?z] => rewrite (py_index_z l z) by lia
  | |- context [slz (Some ?z) None ?l] => rewrite (slz_from l z) by lia
  | |- context [slz None (Some ?z) ?l] => first [rewrite (slz_to l z) by lia | rewrite (slz_drop l z) by lia]
  | |- context [slz (Some ?y) (Some ?z) ?l] => rewrite (slz_mid l y z) by lia
  end; nums.
(** the next branch *)
Ltac split_goal := match goal with |- reach _ (match ?x with _ => _ end) _ => first [match goal with H : x = _ |- _ => rewrite H end | destruct x eqn:?] end;
  cbn [of_option bind raise_if negb orb andb result].
Ltac full X := match goal with |- context [text_fullmatch ?t _] => rewrite (text_full t _ X) end.
Ltac small := first [assumption | apply fits_small; lia].
Ltac numeral z := let n := eval vm_compute in (Z.to_nat z) in constr:(n).
(** a call of a function of common.py *)
Ltac known := match goal with |- reach _ (StCall (VFun ?q) ?args [] false _) _ =>
  match q with
  | "common.replace_uri_escapes"%string => call g_replace_uri_escapes
  | "common.revert_uri_escapes"%string => call g_revert_uri_escapes
  | "common.encode_cage_code"%string => call g_encode_cage_code
  | _ => match args with
    | [VStr ?s] =>
        let H := match q with
          | "common.verify_gs3a3_component"%string => constr:(g_verify_gs3a3_component s)
          | "common.calculate_checksum"%string => constr:(g_calculate_checksum s)
          | "common.binary_to_int"%string => constr:(g_binary_to_int s)
          | "common.base64_to_hex"%string => constr:(g_base64_to_hex s)
          | "common.hex_to_base64"%string => constr:(g_hex_to_base64 s)
          | "common.binary_to_hex"%string => constr:(g_binary_to_hex s)
          | "common.encode_string_six_bits"%string => constr:(g_encode_string_six_bits s)
          | "common.decode_string"%string => constr:(g_decode_string s)
          | "common.decode_numeric_string"%string => constr:(g_decode_numeric_string s)
          | "common.decode_cage_code"%string => constr:(g_decode_cage_code s)
          | "common.decode_cage_code_six_bits"%string => constr:(g_decode_cage_code_six_bits s)
          | "common.encode_cage_code_six_bits"%string => constr:(g_encode_cage_code_six_bits s)
          end in
        let E := fresh "E" in callr H as [?|?] E
    | [VStr ?s; VInt ?z] =>
        let n := numeral z in
        let H := match q with
          | "common.str_to_binary"%string => constr:(g_str_to_binary s n ltac:(small))
          | "common.encode_string"%string => constr:(g_encode_string s n ltac:(small))
          | "common.encode_numeric_string"%string => constr:(g_encode_numeric_string s n ltac:(small))
          | "common.encode_fixed_width_integer"%string => constr:(g_encode_fixed_width_integer s n ltac:(lia))
          | "common.decode_string_six_bits"%string => constr:(g_decode_string_six_bits s n)
          end in
        let E := fresh "E" in callr H as [?|?] E
    end
  end end; cbn [of_option bind raise_if negb orb andb result].
(** a call that binds its arguments to the same values *)
Lemma reach_alt s f args kws i k r k' : step W s = step W (StCall f args kws i k) ->
  reach W (StCall f args kws i k) (StDone r k') -> reach W s (StDone r k').
Proof. intros E [n H]. destruct n as [|n]; [discriminate H|]. exists (S n). cbn [steps] in *. rewrite E. exact H. Qed.
Lemma get_member c s v k : member_named s (enum_members W c) = Some v -> reach W (StGet (VClass c) (VStr s) k) (StVal v k).
Proof. intros H. exists 1%nat. cbn [steps step step_k]. now rewrite H. Qed.
(** a member of an enumeration, by its name *)
Ltac member := match goal with |- reach _ (StGet (VClass ?c) (VStr ?s) ?k) _ =>
  let r := eval vm_compute in (member_named s (enum_members W c)) in
  match r with Some ?v => eapply reach_trans; [exact (get_member c s v k (eq_refl (Some v) <: member_named s (enum_members W c) = Some v))|go] end end.
Lemma tail r en k : reach W (StDone r (FReturn en :: FCallB false :: k)) (StDone r k).
Proof. destruct r; [exists 3%nat|exists 3%nat]; reflexivity. Qed.
(** [return f(...)] *)
Ltac tailcall H := eapply reach_trans; [apply H|]; eapply reach_trans; [apply tail|].
(** a call that gives its arguments in another way *)
Ltac bound_alike H := eapply reach_alt; [|apply H]; mach_red; reflexivity.
Ltac tailalike H := eapply reach_trans; [bound_alike H|]; eapply reach_trans; [apply tail|].

Ltac answered := let E := fresh "E" in match goal with |- reach _ (StDone (result _ ?r) _) _ => destruct r as [?|?] eqn:E; cbn [result] end; enter;
  cbn [of_option bind raise_if negb orb andb result].
Ltac ept T := match goal with |- reach _ (StCall (VFun "common.encode_partition_table") [VList [VStr ?C; VStr ?D]; VDict ?d] ?kws false ?k) _ =>
  let H := match kws with
    | [] => constr:(g_encode_partition_list C D d _ false false T)
    | [("string_partition"%string, _)] => constr:(g_encode_partition_list C D d _ true false T)
    | [("six_bit_variable_partition"%string, _)] => constr:(g_encode_partition_list C D d _ false true T)
    end in
  eapply reach_trans; [eapply reach_alt; [|apply H]; mach_red; reflexivity|]; answered end.
Ltac dpt T := match goal with |- reach _ (StCall (VFun "common.decode_partition_table") [VStr ?s; VDict ?d] ?kws false ?k) _ =>
  let H := match kws with
    | [] => constr:(g_decode_partition_table s d _ false false false T)
    | [("unpadded_partition"%string, _)] => constr:(g_decode_partition_table s d _ true false false T)
    | [("string_partition"%string, _)] => constr:(g_decode_partition_table s d _ false true false T)
    | [("six_bit_variable_partition"%string, _)] => constr:(g_decode_partition_table s d _ false false true T)
    end in
  eapply reach_trans; [eapply reach_alt; [|apply H]; mach_red; reflexivity|]; answered end.
Lemma header_bound {S} (value : S -> str) s h sc t a n : parse_header_and_truncate_binary value s h = Ok (sc, t) ->
  split c_dash (value sc) = [a; n] -> isnumeric n = true -> (exists z, int10 n = Ok z /\ (0 <= z <= 1000)%Z) -> (length t <= 1000)%nat.
Proof.
  unfold parse_header_and_truncate_binary. intros H E1 E2 (z & E3 & B). destruct (assoc_str _ _) as [x|]; [|discriminate]. cbn [of_option bind] in H.
  destruct (split c_dash (value x)) as [|u [|v [|? ?]]] eqn:X; try discriminate H.
  destruct (isnumeric v) eqn:Y.
  - destruct (int10 v) as [y|] eqn:Z; [|discriminate H]. cbn [bind] in H. destruct (_ && _) in H; [discriminate H|]. injection H as -> <-.
    rewrite E1 in X. injection X as <- <-. rewrite E3 in Z. injection Z as <-. rewrite slz_to by lia. rewrite firstn_length. lia.
  - cbn [bind raise_if] in H. injection H as -> <-. rewrite E1 in X. injection X as <- <-. congruence.
Qed.
Lemma skipn_le {A} n (l : list A) m : (length l <= m)%nat -> (length (skipn n l) <= m)%nat.
Proof. intros H. rewrite skipn_length. lia. Qed.
Lemma sl_le {A} a b (l : list A) m : (length l <= m)%nat -> (length (sl a b l) <= m)%nat.
Proof. intros H. unfold sl. rewrite firstn_length, skipn_length. lia. Qed.
Ltac isz z := match z with Zpos _ => idtac | Zneg _ => idtac | Z0 => idtac end.
Ltac closed := repeat match goal with
  | |- context [(?a <? ?b)%Z] => isz a; isz b; let v := eval vm_compute in (a <? b)%Z in change (a <? b)%Z with v; cbv match
  | |- context [(?a <=? ?b)%Z] => isz a; isz b; let v := eval vm_compute in (a <=? b)%Z in change (a <=? b)%Z with v; cbv match
  | |- context [(?a =? ?b)%Z] => isz a; isz b; let v := eval vm_compute in (a =? b)%Z in change (a =? b)%Z with v; cbv match
  | |- context [(?a ^ ?b)%Z] => isz a; isz b; let v := eval vm_compute in (a ^ b)%Z in change (a ^ b)%Z with v
  | |- context [(?a - ?b)%Z] => isz a; isz b; let v := eval vm_compute in (a - b)%Z in change (a - b)%Z with v
  | |- context [(?a + ?b)%Z] => isz a; isz b; let v := eval vm_compute in (a + b)%Z in change (a + b)%Z with v
  end.
Lemma head_nth {B} (s : str) (f : N -> B) (d : B) : match s with [] => d | c :: _ => f c end = match nth_error s 0 with Some c => f c | None => d end.
Proof. destruct s; reflexivity. Qed.
Ltac is_str s := match type of s with str => idtac | list N => idtac end.
Ltac heads := repeat match goal with |- context [match ?s with [] => ?d | c :: _ => @?f c end] => is_str s; rewrite (head_nth s f d); cbv beta end.
Lemma str_eqb1 a b : str_eqb [a] [b] = (a =? b).
Proof. cbn [str_eqb]. apply andb_true_r. Qed.
Ltac texts := repeat match goal with
  | |- context [str_eqb [?a] [?b]] => rewrite (str_eqb1 a b)
  | |- context [repeat_str ?z ?l] => isz z; let v := eval vm_compute in (repeat_str z l) in change (repeat_str z l) with v
  | |- context [repeat ?c (14 - gtin_len ?t)] => let v := eval vm_compute in (repeat c (14 - gtin_len t)) in change (repeat c (14 - gtin_len t)) with v
  end.
Ltac finish := first [done | rewrite <- ?app_assoc; done
  | exfalso; match goal with H : nth_error ?s 0 = None, L : (_ <? length ?s)%nat = true |- _ => destruct s; discriminate end].
Ltac short := first [solve [repeat first [assumption | apply sl_le | apply skipn_le]]
  | eapply Nat.le_trans; [apply sl_length|lia] | eapply Nat.le_trans; [apply firstn_le_length|lia] | cbn [length]; lia].
Ltac decs := repeat match goal with
  | E : binary_to_int ?b = Ok ?z |- context [str_int ?z] => rewrite (str_int_bits b z E ltac:(short)); cbv match
  end.
Ltac next := match goal with
  | |- reach _ (StDone _ _) _ => finish
  | |- reach _ (match _ with _ => _ end) _ => split_goal
  | |- reach _ (StCall _ _ _ _ _) _ => known
  | |- reach _ (StGet (VClass _) (VStr _) _) _ => member
  end.
Ltac simples := decs; closed; texts; prims.
Ltac runs := repeat (simples; next); simples.
Ltac pref X := match goal with |- context [text_match ?t _] => rewrite (text_prefix t _ X) end.
Lemma g_from_tag_uri {T} c (obj : T -> value) (init : str -> res T) :
  (forall u k, reach W (StCall (VClass c) [VStr u] [] false k) (StDone (result obj (init u)) k)) ->
  forall s b, gives "base_scheme.TagEncodable.from_tag_uri" [VClass c; VStr s; VBool b] (result obj (from_tag_uri init s b)).
Proof. intros H s b k. enter. pref agree_TAG_URI. unfold from_tag_uri, idx; consts. destruct b; runs; tailcall H; done. Qed.

Lemma cut_paren2 : cuts (lit "\(.{2}\)") m_paren2.
Proof. apply cut_in. unfold SpecSre.cutting_patterns. do 9 right. left. reflexivity. Qed.
Lemma cut_paren3 : cuts (lit "\(.{3}\)") m_paren3.
Proof. apply cut_in. unfold SpecSre.cutting_patterns. do 8 right. left. reflexivity. Qed.
Lemma cut_paren4 : cuts (lit "\(.{4}\)") m_paren4.
Proof. apply cut_in. unfold SpecSre.cutting_patterns. do 7 right. left. reflexivity. Qed.
Ltac cut_at H := match goal with |- context [text_split ?t _] => rewrite (text_split_plain t _ H eq_refl eq_refl) end.

(** tables *)
Definition ns_dict (m x : string) : list (value * value) :=
  match assoc m (w_ns W) with Some l => match assoc x l with Some (VDict d) => d | _ => [] end | None => [] end.
Ltac table := match goal with |- table_of ?d ?t => let v := eval vm_compute in d in change (table_of v t) end;
  repeat (apply Forall2_cons; [split; [reflexivity|eexists; split; [reflexivity|repeat split; try reflexivity; cbn; lia]]|]); apply Forall2_nil.
