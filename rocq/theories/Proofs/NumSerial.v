(** binary() on serials tag_uri() refuses *)
From Coq Require Import String Lia ZifyNat ZifyN ZifyBool Setoid.
From Verif.Model Require Import Py Re Regexes Common Base Parsers.
From Verif.Model Require Import Cpi Gdti Giai Grai Itip Sgln Sgtin.
From Verif.Spec Require Import Spec SpecEscapes SpecGrammar SpecSchemes SpecTags SpecLayout SpecNumeric.
From Verif.Proofs Require Import Basics Num ReLemmas Uni Escapes Grammar Ctor CtorA CtorB CtorC CtorAll TagFits Layout BinA BinB BinC BinAll ElementBack.

(** * int() *)

Definition solid (c : N) : bool := (32 <? c) && (c <? 127).
Lemma digit_in10 c : 48 <= c <= 57 -> digit_in 10 c = Some (c - 48).
Proof.
  intros H. unfold digit_in, digit_val. replace ((48 <=? c) && (c <=? 57))%bool with true by lia.
  replace (c - 48 <? 10) with true by lia. reflexivity.
Qed.
Lemma digit_in10_none c : ~ 48 <= c <= 57 -> digit_in 10 c = None.
Proof.
  intros H. unfold digit_in, digit_val. replace ((48 <=? c) && (c <=? 57))%bool with false by lia.
  destruct ((65 <=? c) && (c <=? 90))%bool eqn:E; [replace (c - 55 <? 10) with false by lia; reflexivity|].
  destruct ((97 <=? c) && (c <=? 122))%bool eqn:E'; [replace (c - 87 <? 10) with false by lia; reflexivity|reflexivity].
Qed.
Lemma skip_solid c s : solid c = true -> skip_space (c :: s) = c :: s.
Proof.
  intros H. cbn [skip_space]. replace (is_ascii_space c) with false; [reflexivity|]. unfold solid in H. unfold is_ascii_space. lia.
Qed.
Lemma solid_ascii s : forallb solid s = true -> to_ascii_num s = s.
Proof.
  intros H. unfold to_ascii_num. match goal with |- (if ?b then _ else _) = _ => replace b with true; [reflexivity|] end.
  symmetry. apply forallb_forall. intros c I. rewrite forallb_forall in H. specialize (H c I). unfold solid in H. unfold is_ascii. lia.
Qed.

Definition dval (acc : N) (d : str) : N := fold_left (fun a x => a * 10 + (x - 48)) d acc.
Lemma dval_app acc d : dval acc d = acc * 10 ^ N.of_nat (length d) + dval 0 d.
Proof.
  revert acc. induction d as [|c d IH]; intros acc; [cbn; lia|]. unfold dval in *. cbn [fold_left length]. rewrite IH, (IH (0 * 10 + (c - 48))).
  rewrite Nat2N.inj_succ, N.pow_succ_r'. lia.
Qed.
Lemma decimal_dval d : ascii_digits d -> decimal d = dval 0 d.
Proof.
  intros H. apply ascii_digits_iff in H. rewrite decimal_ascii by exact H. unfold sval, val, dval. generalize 0.
  revert H. induction d as [|c d IH]; intros H acc; [reflexivity|]. cbn [forallb] in H. apply andb_prop in H as [Hc H].
  cbn [map fold_left]. rewrite dv_digit by exact Hc. apply IH, H.
Qed.
Lemma more_ascii s d : more_digits s d -> ascii_digits d.
Proof. induction 1; intros x I; [destruct I|destruct I as [<-|I]; auto|destruct I as [<-|I]; auto]. Qed.

Lemma scan_more s : forallb solid s = true -> forall acc r, scan_digits 10 s false true acc = Some r <-> exists d, more_digits s d /\ r = dval acc d.
Proof.
  refine (str_ind2 (fun s => forallb solid s = true -> forall acc r, scan_digits 10 s false true acc = Some r <-> exists d, more_digits s d /\ r = dval acc d) _ s).
  clear s. intros s IH S acc r. destruct s as [|c s].
  - cbn. split; [intros H; injection H as <-; exists []; split; [constructor|reflexivity]|]. intros (d & M & ->). inversion M; subst. reflexivity.
  - cbn [forallb] in S. apply andb_prop in S as [Sc S].
    assert (Cs : 48 <= c <= 57 \/ ~ 48 <= c <= 57) by lia. cbn [scan_digits]. destruct Cs as [L|L].
    + rewrite digit_in10 by lia. rewrite (IH s) by (cbn; auto; lia). split.
      * intros (d & M & ->). exists (c :: d). split; [constructor; [lia|exact M]|reflexivity].
      * intros (d & M & ->). inversion M; subst; [|lia]. eexists. split; [eassumption|]. reflexivity.
    + rewrite digit_in10_none by exact L. change c_us with 95. destruct (N.eqb_spec c 95) as [->|Nu].
      * destruct s as [|x s].
        { cbn. split; [discriminate|]. intros (d & M & _). inversion M; subst; lia. }
        cbn [forallb] in S. apply andb_prop in S as [Sx S]. cbn [scan_digits].
        assert (Cx : 48 <= x <= 57 \/ ~ 48 <= x <= 57) by lia. destruct Cx as [Lx|Lx].
        { rewrite digit_in10 by lia. rewrite (IH s) by (cbn; auto; lia). split.
          - intros (d & M & ->). exists (x :: d). split; [constructor; [lia|exact M]|reflexivity].
          - intros (d & M & ->). inversion M; subst; [lia|]. eexists. split; [eassumption|]. reflexivity. }
        rewrite digit_in10_none by exact Lx. change c_us with 95. split; [destruct (x =? 95); discriminate|].
        intros (d & M & _). inversion M; subst; lia.
      * cbn [negb]. fold (skip_space (c :: s)). rewrite skip_solid by exact Sc. split; [discriminate|].
        intros (d & M & _). inversion M; subst; lia.
Qed.
Lemma parse10 s : forallb solid s = true -> forall r, parse_unsigned 10 s = Some r <->
  exists c b d, s = c :: b /\ 48 <= c <= 57 /\ more_digits b d /\ r = decimal (c :: d).
Proof.
  intros S r. unfold parse_unsigned.
  assert (P : skip_prefix 10 s = s).
  { unfold skip_prefix. destruct s as [|z [|x s]]; try reflexivity. cbn [N.eqb]. rewrite andb_false_l. cbn [orb]. rewrite andb_false_r. reflexivity. }
  rewrite P. destruct s as [|c s]; [split; [discriminate|intros (? & ? & ? & E & _); discriminate E]|].
  cbn [forallb] in S. apply andb_prop in S as [Sc S]. change c_us with 95.
  assert (Cs : 48 <= c <= 57 \/ ~ 48 <= c <= 57) by lia. destruct Cs as [L|L].
  - replace (c =? 95) with false by lia. cbn [scan_digits]. rewrite digit_in10 by exact L. rewrite scan_more by exact S. split.
    + intros (d & M & ->). exists c, s, d. repeat split; try lia; try exact M. rewrite decimal_dval; [reflexivity|].
      intros x [<-|I]; [exact L|exact (more_ascii _ _ M x I)].
    + intros (c' & b & d & E & _ & M & ->). injection E as <- <-. exists d. split; [exact M|]. rewrite decimal_dval; [reflexivity|].
      intros x [<-|I]; [exact L|exact (more_ascii _ _ M x I)].
  - assert (X : ~ exists c' b d, c :: s = c' :: b /\ 48 <= c' <= 57 /\ more_digits b d /\ r = decimal (c' :: d)).
    { intros (c' & b & d & E & H & _). injection E as <- <-. exact (L H). }
    split; [|tauto]. intros H. exfalso. destruct (c =? 95) eqn:E; [discriminate H|]. cbn [scan_digits] in H. rewrite digit_in10_none in H by exact L.
    change c_us with 95 in H. rewrite E in H. cbn [negb] in H. discriminate H.
Qed.
Lemma opt_map_some {A B} (f : A -> B) o b : option_map f o = Some b <-> exists a, o = Some a /\ b = f a.
Proof. destruct o as [a|]; cbn; split; [intros H; injection H as <-; eauto|intros (a' & E & ->); injection E as <-; reflexivity|discriminate|intros (a' & E & _); discriminate E]. Qed.
Theorem int10_literal s : forallb solid s = true -> intable s -> forall z, int10 s = Ok z <-> int_literal s z.
Proof.
  intros S J z. rewrite int10_short by exact J. unfold int_base, py_int. rewrite solid_ascii by exact S.
  destruct s as [|c s].
  { cbn. split; [discriminate|]. intros (sg & c & b & d & E & _). symmetry in E. apply app_eq_nil in E as [_ E]. discriminate E. }
  pose proof S as S'. cbn [forallb] in S'. apply andb_prop in S' as [Sc Ss]. rewrite skip_solid by exact Sc.
  assert (W : forall o, of_option ValueError o = Ok z <-> o = Some z).
  { intros [y|]; cbn; split; intros H; try discriminate H; injection H as ->; reflexivity. }
  rewrite W. clear W. destruct (N.eqb_spec c 43) as [->|N1]; [|destruct (N.eqb_spec c 45) as [->|N2]]; rewrite opt_map_some.
  - split.
    + intros (n & P & ->). apply parse10 in P as (c & b & d & -> & L & M & ->); [|exact Ss].
      exists (lit "+"), c, b, d. split; [reflexivity|]. split; [exact L|]. split; [exact M|]. left. auto.
    + intros (sg & c & b & d & E & L & M & K). exists (decimal (c :: d)). rewrite parse10 by exact Ss.
      destruct K as [[[->| ->] ->]|[-> ->]]; [injection E as <- _; lia| |discriminate E].
      injection E as ->. split; [exists c, b, d; auto|reflexivity].
  - split.
    + intros (n & P & ->). apply parse10 in P as (c & b & d & -> & L & M & ->); [|exact Ss].
      exists (lit "-"), c, b, d. split; [reflexivity|]. split; [exact L|]. split; [exact M|]. right. auto.
    + intros (sg & c & b & d & E & L & M & K). exists (decimal (c :: d)). rewrite parse10 by exact Ss.
      destruct K as [[[->| ->] ->]|[-> ->]]; [injection E as <- _; lia|discriminate E|].
      injection E as ->. split; [exists c, b, d; auto|reflexivity].
  - split.
    + intros (n & P & ->). apply parse10 in P as (c' & b & d & E & L & M & ->); [|exact S].
      exists [], c', b, d. split; [exact E|]. split; [exact L|]. split; [exact M|]. left. auto.
    + intros (sg & c' & b & d & E & L & M & K). exists (decimal (c' :: d)). rewrite parse10 by exact S.
      destruct K as [[[->| ->] ->]|[-> ->]]; [|injection E as -> _; congruence|injection E as -> _; congruence].
      split; [exists c', b, d; auto|reflexivity].
Qed.
Lemma component_solid s : component s -> forallb solid s = true.
Proof.
  intros (_ & T & _). clear -T. induction T as [|c s P T IH|h s P T IH]; [reflexivity|cbn [forallb]; rewrite IH, andb_true_r|cbn [forallb]; rewrite IH, andb_true_r].
  - unfold solid. destruct P as [P|[P|[P|P]]]; try lia. cbn in P. repeat destruct P as [<-|P]; try reflexivity. destruct P.
  - unfold solid. destruct P as [P|[P|P]]; lia.
Qed.
Lemma int10_exn s e : int10 s = Raise e -> e = ValueError.
Proof. unfold int10, int_base. destruct (too_many_digits s); [congruence|]. destruct (py_int 10 s); cbn; congruence. Qed.

(** * fmt_bin beyond its width *)
Lemma fmt_bin_split w n : (1 <= w)%nat -> exists v extra, fmt_bin w (Z.of_N n) = bits w v ++ extra /\ v < 2 ^ N.of_nat w /\
  forallb is_bit extra = true /\ v = n / 2 ^ N.of_nat (length extra) /\ n < 2 ^ N.of_nat (w + length extra) /\
  (extra = [] \/ 2 ^ N.of_nat (w + length extra - 1) <= n).
Proof.
  intros W. destruct (N.lt_ge_cases n (2 ^ N.of_nat w)) as [L|L].
  - exists n, []. rewrite fmt_bin_bits, app_nil_r by assumption. split; [reflexivity|]. split; [exact L|]. split; [reflexivity|].
    cbn [length N.of_nat]. rewrite N.pow_0_r, N.div_1_r, Nat.add_0_r. auto.
  - unfold fmt_bin. replace (Z.of_N n <? 0)%Z with false by lia. rewrite N2Z.id.
    destruct (nbin_spec n) as (V & B & Ne). set (s := nbin n) in *.
    pose proof (sval_bound 2 s (forallb_bit_in_base2 _ B)) as U. rewrite V in U.
    assert (Ls : (w < length s)%nat).
    { destruct (Nat.lt_ge_cases w (length s)) as [H|H]; [exact H|]. exfalso.
      assert (2 ^ N.of_nat (length s) <= 2 ^ N.of_nat w) by (apply N.pow_le_mono_r; lia). lia. }
    rewrite padl_ge by lia. exists (sval 2 (firstn w s)), (skipn w s).
    rewrite <- (firstn_skipn w s) in B. rewrite forallb_app' in B; apply andb_prop in B as [B1 B2].
    assert (L1 : length (firstn w s) = w) by (rewrite firstn_length; lia).
    assert (L2 : (w + length (skipn w s) = length s)%nat) by (rewrite skipn_length; lia).
    pose proof (sval_bound 2 (firstn w s) (forallb_bit_in_base2 _ B1)) as U1. rewrite L1 in U1.
    pose proof (sval_bound 2 (skipn w s) (forallb_bit_in_base2 _ B2)) as U2.
    split; [|split; [exact U1|split; [exact B2|split; [|split]]]].
    + pose proof (bits_sval _ B1) as X. rewrite L1 in X. rewrite X. symmetry. apply firstn_skipn.
    + apply N.div_unique with (sval 2 (skipn w s)); [exact U2|]. rewrite <- V at 1. rewrite <- (firstn_skipn w s) at 1. rewrite sval_app. lia.
    + rewrite L2. exact U.
    + right. rewrite L2. destruct (to_base_spec 2 n ltac:(lia)) as (V' & _ & C).
      pose proof (canonical_lower 2 _ C) as Y.
      assert (Lb : length (to_base 2 n) = length s) by (unfold s, nbin; rewrite map_length; reflexivity).
      rewrite V', Lb in Y. replace (N.of_nat (length s - 1)) with (N.of_nat (length s) - 1) by lia. apply Y.
      intros X. rewrite X in Lb. cbn [length] in Lb. lia.
Qed.

(** * The coding schemes *)
Lemma number_component v : component (ndec v) /\ length (unescape (ndec v)) = length (ndec v) /\ ascii (ndec v).
Proof.
  pose proof (ndec_digits v) as D. pose proof (ndec_nonempty v) as Ne. set (s := ndec v) in *. clearbody s.
  rewrite forallb_forall in D. assert (D' : forall c, In c s -> 48 <= c <= 57) by (intros c I; apply is_digit_iff, D, I).
  assert (E : escape s = s).
  { apply escape_digits. exact D'. }
  split; [|split; [rewrite <- E at 1; rewrite unescape_escape; reflexivity|intros c I; specialize (D' c I); lia]].
  assert (P : ~ In 37 s) by (intros I; specialize (D' _ I); lia).
  split; [exact Ne|]. split.
  - clear -D'. induction s as [|c s IH]; constructor; [left; apply D'; now left|apply IH; intros x I; apply D'; now right].
  - destruct s as [|c p]; [contradiction|].
    rewrite <- (app_nil_r (c :: p)). apply escapes_ok_plain; [intros ->; apply P; now left| |now left|constructor].
    intros (a & d1 & d2 & b & X & _). apply P. rewrite X. apply in_or_app. right. now left.
Qed.
Lemma number_fits v w : v < 2 ^ w -> serial_fits (ndec v) w.
Proof. intros H. split; [apply TagUri.ndec_numeral|rewrite TagUri2.ndec_decimal; exact H]. Qed.
Lemma number_short v w : (w <= 41)%nat -> v < 2 ^ N.of_nat w -> (length (ndec v) <= 13)%nat.
Proof.
  intros W H. apply ndec_length; [lia|]. apply N.lt_le_trans with (2 ^ N.of_nat w); [exact H|].
  apply N.le_trans with (2 ^ 41); [apply N.pow_le_mono_r; lia|]. vm_compute. discriminate.
Qed.
(** the serial ends the tag *)
Definition num_tag (q : tagreq) (s : str) (w size : nat) : Prop :=
  exists pre, (length pre + w = size)%nat /\ bitstring pre /\
    req_binary q = (let* b := str_to_binary s w in Ok (pre ++ b)) /\
    forall v, v < 2 ^ N.of_nat w -> exists e, init_of (class_of (req_epc q)) (serial_replaced q (ndec v)) = Ok e /\
      forall extra, from_binary_of (class_of (req_epc q)) (pre ++ bits w v ++ extra) = Ok e.

Ltac same_parts B := match type of B with (bind ?m _) = Ok _ => let a := fresh "p" in destruct m as [a|]; [|discriminate B]; cbn [bind] in B |- * end.
Lemma number_bits v w : (1 <= w <= 4300)%nat -> v < 2 ^ N.of_nat w -> str_to_binary (ndec v) w = Ok (bits w v).
Proof.
  intros W H. destruct (ndec_spec v) as (V & D & _). rewrite str_to_binary_spec; rewrite ?V; auto using ndec_nonempty; [|lia]. apply (intable_ndec v w); [exact H|lia].
Qed.
Ltac same_uri A Eu U := rewrite Eu, U in A; rewrite !ascii_app in A.

Lemma sgtin_num u x f : sgtin_init u = Ok x -> ascii u -> f < 8 -> num_tag (T_SGTIN x SGTIN_96 f) (sgtin_serial x) 38 96.
Proof.
  intros I A F. apply sgtin_iff in I as (U & Eu & K). destruct U as (U & C & Di & L & Co & Ls). rewrite U, !ascii_app in A.
  assert (Y : forall v, v < 2 ^ N.of_nat 38 -> sgtin_init (serial_replaced (T_SGTIN x SGTIN_96 f) (ndec v)) = Ok (mkSgtin (serial_replaced (T_SGTIN x SGTIN_96 f) (ndec v)) (sgtin_cp x) (sgtin_item x) (ndec v) (sgtin_gtin_ x))).
  { intros v V. apply sgtin_iff. destruct (number_component v) as (C1 & C2 & _). pose proof (number_short v 38 ltac:(lia) V) as C3. pose proof (ndec_nonempty v) as C4.
    assert (C5 : (1 <= length (ndec v))%nat) by (destruct (ndec v); [contradiction|cbn [length]; lia]).
    unfold sgtin_uri. cbn [sgtin_epc_uri sgtin_cp sgtin_item sgtin_serial sgtin_gtin_]. repeat match goal with |- _ /\ _ => split end; try reflexivity; try assumption; try apply C; try (rewrite C2; lia); try lia; eauto. }
  assert (Z : forall v, v < 2 ^ N.of_nat 38 -> exists b, sgtin_binary (mkSgtin (serial_replaced (T_SGTIN x SGTIN_96 f) (ndec v)) (sgtin_cp x) (sgtin_item x) (ndec v) (sgtin_gtin_ x)) SGTIN_96 f = Ok b /\ bitstring b /\ length b = 96%nat /\ forall extra, sgtin_from_binary (b ++ extra) = Ok (mkSgtin (serial_replaced (T_SGTIN x SGTIN_96 f) (ndec v)) (sgtin_cp x) (sgtin_item x) (ndec v) (sgtin_gtin_ x))).
  { intros v V. destruct (number_component v) as (_ & _ & C2).
    apply (roundtrip (tag_layout (T_SGTIN (mkSgtin (serial_replaced (T_SGTIN x SGTIN_96 f) (ndec v)) (sgtin_cp x) (sgtin_item x) (ndec v) (sgtin_gtin_ x)) SGTIN_96 f)) _ _ _ sgtin_init (serial_replaced (T_SGTIN x SGTIN_96 f) (ndec v))).
    - apply sgtin_coded; [exact (Y v V)|exact (number_fits v _ V)|exact Logic.I|exact F].
    - cbn [serial_replaced]. rewrite !ascii_app. tauto.
    - exact (Y v V). }
  destruct (Z 0 ltac:(lia)) as (b & B & Bb & Lb & _). unfold sgtin_binary in B. cbn [sgtin_epc_uri sgtin_cp sgtin_item sgtin_serial sgtin_gtin_] in B.
  rewrite (number_bits 0 38) in B by lia. cbn [req_binary class_of req_epc init_of from_binary_of].
  repeat match type of B with context [bind ?m _] => let p := fresh "p" in destruct m as [p|] eqn:?; [|discriminate B]; cbn [bind] in B end.
  apply ok_same in B. rewrite <- B in Bb, Lb. clear B. rewrite !app_assoc in Bb, Lb. rewrite app_length, length_bits in Lb.
  apply bitstring_iff in Bb. rewrite forallb_app' in Bb. apply andb_prop in Bb as [Bb _]. apply bitstring_iff in Bb.
  eexists. split; [|split; [exact Bb|split]].
  - lia.
  - cbn [req_binary]. unfold sgtin_binary. repeat match goal with H : ?m = Ok _ |- context [?m] => rewrite H; cbn [bind] end.
    destruct (str_to_binary (sgtin_serial x) 38); [|reflexivity]. cbn [bind]. rewrite <- ?app_assoc. reflexivity.
  - intros v V. eexists. cbn [class_of req_epc init_of from_binary_of]. rewrite (Y v V). split; [reflexivity|]. intros extra.
    destruct (Z v V) as (b' & B & _ & _ & R). unfold sgtin_binary in B. cbn [sgtin_epc_uri sgtin_cp sgtin_item sgtin_serial sgtin_gtin_] in B. rewrite (number_bits v 38) in B by (try lia; exact V).
    repeat match goal with H : ?m = Ok ?a |- _ => match type of B with context [bind m _] => rewrite H in B; cbn [bind] in B end end.
    apply ok_same in B. specialize (R extra). rewrite <- B in R. rewrite <- ?app_assoc in *. rewrite R. reflexivity.
Qed.

Lemma sgln_num u x f : sgln_init u = Ok x -> ascii u -> f < 8 -> num_tag (T_SGLN x SGLN_96 f) (sgln_serial x) 41 96.
Proof.
  intros I A F. apply sgln_iff in I as (U & Eu & K). destruct U as (U & C & Di & L & Co & Ls). rewrite U, !ascii_app in A.
  assert (Y : forall v, v < 2 ^ N.of_nat 41 -> sgln_init (serial_replaced (T_SGLN x SGLN_96 f) (ndec v)) = Ok (mkSgln (serial_replaced (T_SGLN x SGLN_96 f) (ndec v)) (sgln_cp x) (sgln_loc x) (ndec v) (sgln_gln x))).
  { intros v V. apply sgln_iff. destruct (number_component v) as (C1 & C2 & _). pose proof (number_short v 41 ltac:(lia) V) as C3. pose proof (ndec_nonempty v) as C4.
    assert (C5 : (1 <= length (ndec v))%nat) by (destruct (ndec v); [contradiction|cbn [length]; lia]).
    unfold sgln_uri. cbn [sgln_epc_uri sgln_cp sgln_loc sgln_serial sgln_gln]. repeat match goal with |- _ /\ _ => split end; try reflexivity; try assumption; try apply C; try (rewrite C2; lia); try lia; eauto. }
  assert (Z : forall v, v < 2 ^ N.of_nat 41 -> exists b, sgln_binary (mkSgln (serial_replaced (T_SGLN x SGLN_96 f) (ndec v)) (sgln_cp x) (sgln_loc x) (ndec v) (sgln_gln x)) SGLN_96 f = Ok b /\ bitstring b /\ length b = 96%nat /\ forall extra, sgln_from_binary (b ++ extra) = Ok (mkSgln (serial_replaced (T_SGLN x SGLN_96 f) (ndec v)) (sgln_cp x) (sgln_loc x) (ndec v) (sgln_gln x))).
  { intros v V. destruct (number_component v) as (_ & _ & C2).
    apply (roundtrip (tag_layout (T_SGLN (mkSgln (serial_replaced (T_SGLN x SGLN_96 f) (ndec v)) (sgln_cp x) (sgln_loc x) (ndec v) (sgln_gln x)) SGLN_96 f)) _ _ _ sgln_init (serial_replaced (T_SGLN x SGLN_96 f) (ndec v))).
    - apply sgln_coded; [exact (Y v V)|exact (number_fits v _ V)|exact Logic.I|exact F].
    - cbn [serial_replaced]. rewrite !ascii_app. tauto.
    - exact (Y v V). }
  destruct (Z 0 ltac:(lia)) as (b & B & Bb & Lb & _). unfold sgln_binary in B. cbn [sgln_epc_uri sgln_cp sgln_loc sgln_serial sgln_gln] in B.
  rewrite (number_bits 0 41) in B by lia. cbn [req_binary class_of req_epc init_of from_binary_of].
  repeat match type of B with context [bind ?m _] => let p := fresh "p" in destruct m as [p|] eqn:?; [|discriminate B]; cbn [bind] in B end.
  apply ok_same in B. rewrite <- B in Bb, Lb. clear B. rewrite !app_assoc in Bb, Lb. rewrite app_length, length_bits in Lb.
  apply bitstring_iff in Bb. rewrite forallb_app' in Bb. apply andb_prop in Bb as [Bb _]. apply bitstring_iff in Bb.
  eexists. split; [|split; [exact Bb|split]].
  - lia.
  - cbn [req_binary]. unfold sgln_binary. repeat match goal with H : ?m = Ok _ |- context [?m] => rewrite H; cbn [bind] end.
    destruct (str_to_binary (sgln_serial x) 41); [|reflexivity]. cbn [bind]. rewrite <- ?app_assoc. reflexivity.
  - intros v V. eexists. cbn [class_of req_epc init_of from_binary_of]. rewrite (Y v V). split; [reflexivity|]. intros extra.
    destruct (Z v V) as (b' & B & _ & _ & R). unfold sgln_binary in B. cbn [sgln_epc_uri sgln_cp sgln_loc sgln_serial sgln_gln] in B. rewrite (number_bits v 41) in B by (try lia; exact V).
    repeat match goal with H : ?m = Ok ?a |- _ => match type of B with context [bind m _] => rewrite H in B; cbn [bind] in B end end.
    apply ok_same in B. specialize (R extra). rewrite <- B in R. rewrite <- ?app_assoc in *. rewrite R. reflexivity.
Qed.

Lemma grai_num u x f : grai_init u = Ok x -> ascii u -> f < 8 -> num_tag (T_GRAI x GRAI_96 f) (grai_serial x) 38 96.
Proof.
  intros I A F. apply grai_iff in I as (U & Eu & k & K & _). destruct U as (U & C & Di & L & Co & Ls). rewrite U, !ascii_app in A.
  assert (Y : forall v, v < 2 ^ N.of_nat 38 -> grai_init (serial_replaced (T_GRAI x GRAI_96 f) (ndec v)) = Ok (mkGrai (serial_replaced (T_GRAI x GRAI_96 f) (ndec v)) (grai_cp x) (grai_asset x) (ndec v) (k ++ unescape (ndec v)))).
  { intros v V. apply grai_iff. destruct (number_component v) as (C1 & C2 & _). pose proof (number_short v 38 ltac:(lia) V) as C3. pose proof (ndec_nonempty v) as C4.
    assert (C5 : (1 <= length (ndec v))%nat) by (destruct (ndec v); [contradiction|cbn [length]; lia]).
    unfold grai_uri. cbn [grai_epc_uri grai_cp grai_asset grai_serial grai_grai]. repeat match goal with |- _ /\ _ => split end; try reflexivity; try assumption; try apply C; try (rewrite C2; lia); try lia; eauto. }
  assert (Z : forall v, v < 2 ^ N.of_nat 38 -> exists b, grai_binary (mkGrai (serial_replaced (T_GRAI x GRAI_96 f) (ndec v)) (grai_cp x) (grai_asset x) (ndec v) (k ++ unescape (ndec v))) GRAI_96 f = Ok b /\ bitstring b /\ length b = 96%nat /\ forall extra, grai_from_binary (b ++ extra) = Ok (mkGrai (serial_replaced (T_GRAI x GRAI_96 f) (ndec v)) (grai_cp x) (grai_asset x) (ndec v) (k ++ unescape (ndec v)))).
  { intros v V. destruct (number_component v) as (_ & _ & C2).
    apply (roundtrip (tag_layout (T_GRAI (mkGrai (serial_replaced (T_GRAI x GRAI_96 f) (ndec v)) (grai_cp x) (grai_asset x) (ndec v) (k ++ unescape (ndec v))) GRAI_96 f)) _ _ _ grai_init (serial_replaced (T_GRAI x GRAI_96 f) (ndec v))).
    - apply grai_coded; [exact (Y v V)|exact (number_fits v _ V)|exact Logic.I|exact F].
    - cbn [serial_replaced]. rewrite !ascii_app. tauto.
    - exact (Y v V). }
  destruct (Z 0 ltac:(lia)) as (b & B & Bb & Lb & _). unfold grai_binary in B. cbn [grai_epc_uri grai_cp grai_asset grai_serial grai_grai] in B.
  rewrite (number_bits 0 38) in B by lia. cbn [req_binary class_of req_epc init_of from_binary_of].
  repeat match type of B with context [bind ?m _] => let p := fresh "p" in destruct m as [p|] eqn:?; [|discriminate B]; cbn [bind] in B end.
  apply ok_same in B. rewrite <- B in Bb, Lb. clear B. rewrite !app_assoc in Bb, Lb. rewrite app_length, length_bits in Lb.
  apply bitstring_iff in Bb. rewrite forallb_app' in Bb. apply andb_prop in Bb as [Bb _]. apply bitstring_iff in Bb.
  eexists. split; [|split; [exact Bb|split]].
  - lia.
  - cbn [req_binary]. unfold grai_binary. repeat match goal with H : ?m = Ok _ |- context [?m] => rewrite H; cbn [bind] end.
    destruct (str_to_binary (grai_serial x) 38); [|reflexivity]. cbn [bind]. rewrite <- ?app_assoc. reflexivity.
  - intros v V. eexists. cbn [class_of req_epc init_of from_binary_of]. rewrite (Y v V). split; [reflexivity|]. intros extra.
    destruct (Z v V) as (b' & B & _ & _ & R). unfold grai_binary in B. cbn [grai_epc_uri grai_cp grai_asset grai_serial grai_grai] in B. rewrite (number_bits v 38) in B by (try lia; exact V).
    repeat match goal with H : ?m = Ok ?a |- _ => match type of B with context [bind m _] => rewrite H in B; cbn [bind] in B end end.
    apply ok_same in B. specialize (R extra). rewrite <- B in R. rewrite <- ?app_assoc in *. rewrite R. reflexivity.
Qed.

Lemma gdti_num u x f : gdti_init u = Ok x -> ascii u -> f < 8 -> num_tag (T_GDTI x GDTI_96 f) (gdti_serial x) 41 96.
Proof.
  intros I A F. apply gdti_iff in I as (U & Eu & k & K & _). destruct U as (U & C & Di & L & Co & Ls). rewrite U, !ascii_app in A.
  assert (Y : forall v, v < 2 ^ N.of_nat 41 -> gdti_init (serial_replaced (T_GDTI x GDTI_96 f) (ndec v)) = Ok (mkGdti (serial_replaced (T_GDTI x GDTI_96 f) (ndec v)) (gdti_cp x) (gdti_doc x) (ndec v) (k ++ unescape (ndec v)))).
  { intros v V. apply gdti_iff. destruct (number_component v) as (C1 & C2 & _). pose proof (number_short v 41 ltac:(lia) V) as C3. pose proof (ndec_nonempty v) as C4.
    assert (C5 : (1 <= length (ndec v))%nat) by (destruct (ndec v); [contradiction|cbn [length]; lia]).
    unfold gdti_uri. cbn [gdti_epc_uri gdti_cp gdti_doc gdti_serial gdti_gdti]. repeat match goal with |- _ /\ _ => split end; try reflexivity; try assumption; try apply C; try (rewrite C2; lia); try lia; eauto. }
  assert (Z : forall v, v < 2 ^ N.of_nat 41 -> exists b, gdti_binary (mkGdti (serial_replaced (T_GDTI x GDTI_96 f) (ndec v)) (gdti_cp x) (gdti_doc x) (ndec v) (k ++ unescape (ndec v))) GDTI_96 f = Ok b /\ bitstring b /\ length b = 96%nat /\ forall extra, gdti_from_binary (b ++ extra) = Ok (mkGdti (serial_replaced (T_GDTI x GDTI_96 f) (ndec v)) (gdti_cp x) (gdti_doc x) (ndec v) (k ++ unescape (ndec v)))).
  { intros v V. destruct (number_component v) as (_ & _ & C2).
    apply (roundtrip (tag_layout (T_GDTI (mkGdti (serial_replaced (T_GDTI x GDTI_96 f) (ndec v)) (gdti_cp x) (gdti_doc x) (ndec v) (k ++ unescape (ndec v))) GDTI_96 f)) _ _ _ gdti_init (serial_replaced (T_GDTI x GDTI_96 f) (ndec v))).
    - apply gdti_coded; [exact (Y v V)|exact (number_fits v _ V)|exact Logic.I|exact F].
    - cbn [serial_replaced]. rewrite !ascii_app. tauto.
    - exact (Y v V). }
  destruct (Z 0 ltac:(lia)) as (b & B & Bb & Lb & _). unfold gdti_binary in B. cbn [gdti_epc_uri gdti_cp gdti_doc gdti_serial gdti_gdti] in B.
  rewrite (number_bits 0 41) in B by lia. cbn [req_binary class_of req_epc init_of from_binary_of].
  repeat match type of B with context [bind ?m _] => let p := fresh "p" in destruct m as [p|] eqn:?; [|discriminate B]; cbn [bind] in B end.
  apply ok_same in B. rewrite <- B in Bb, Lb. clear B. rewrite !app_assoc in Bb, Lb. rewrite app_length, length_bits in Lb.
  apply bitstring_iff in Bb. rewrite forallb_app' in Bb. apply andb_prop in Bb as [Bb _]. apply bitstring_iff in Bb.
  eexists. split; [|split; [exact Bb|split]].
  - lia.
  - cbn [req_binary]. unfold gdti_binary. repeat match goal with H : ?m = Ok _ |- context [?m] => rewrite H; cbn [bind] end.
    destruct (str_to_binary (gdti_serial x) 41); [|reflexivity]. cbn [bind]. rewrite <- ?app_assoc. reflexivity.
  - intros v V. eexists. cbn [class_of req_epc init_of from_binary_of]. rewrite (Y v V). split; [reflexivity|]. intros extra.
    destruct (Z v V) as (b' & B & _ & _ & R). unfold gdti_binary in B. cbn [gdti_epc_uri gdti_cp gdti_doc gdti_serial gdti_gdti] in B. rewrite (number_bits v 41) in B by (try lia; exact V).
    repeat match goal with H : ?m = Ok ?a |- _ => match type of B with context [bind m _] => rewrite H in B; cbn [bind] in B end end.
    apply ok_same in B. specialize (R extra). rewrite <- B in R. rewrite <- ?app_assoc in *. rewrite R. reflexivity.
Qed.

Lemma itip_num u x f : itip_init u = Ok x -> ascii u -> f < 8 -> pieces_fit (T_ITIP x ITIP_110 f) -> num_tag (T_ITIP x ITIP_110 f) (itip_serial x) 38 110.
Proof.
  intros I A F P. apply itip_iff in I as (U & Eu). destruct U as (U & C & Di & Dp & Dt & Ni & Np & Nt & L & Co & Ls). rewrite U, !ascii_app in A.
  assert (Y : forall v, v < 2 ^ N.of_nat 38 -> itip_init (serial_replaced (T_ITIP x ITIP_110 f) (ndec v)) = Ok (mkItip (serial_replaced (T_ITIP x ITIP_110 f) (ndec v)) (itip_cp x) (itip_item x) (itip_piece x) (itip_total x) (ndec v) )).
  { intros v V. apply itip_iff. destruct (number_component v) as (C1 & C2 & _). pose proof (number_short v 38 ltac:(lia) V) as C3. pose proof (ndec_nonempty v) as C4.
    assert (C5 : (1 <= length (ndec v))%nat) by (destruct (ndec v); [contradiction|cbn [length]; lia]).
    unfold itip_uri. cbn [itip_epc_uri itip_cp itip_item itip_piece itip_total itip_serial]. repeat match goal with |- _ /\ _ => split end; try reflexivity; try assumption; try apply C; try (rewrite C2; lia); try lia; eauto. }
  assert (Z : forall v, v < 2 ^ N.of_nat 38 -> exists b, itip_binary (mkItip (serial_replaced (T_ITIP x ITIP_110 f) (ndec v)) (itip_cp x) (itip_item x) (itip_piece x) (itip_total x) (ndec v) ) ITIP_110 f = Ok b /\ bitstring b /\ length b = 110%nat /\ forall extra, itip_from_binary (b ++ extra) = Ok (mkItip (serial_replaced (T_ITIP x ITIP_110 f) (ndec v)) (itip_cp x) (itip_item x) (itip_piece x) (itip_total x) (ndec v) )).
  { intros v V. destruct (number_component v) as (_ & _ & C2).
    apply (roundtrip (tag_layout (T_ITIP (mkItip (serial_replaced (T_ITIP x ITIP_110 f) (ndec v)) (itip_cp x) (itip_item x) (itip_piece x) (itip_total x) (ndec v) ) ITIP_110 f)) _ _ _ itip_init (serial_replaced (T_ITIP x ITIP_110 f) (ndec v))).
    - apply itip_coded; [exact (Y v V)|exact (number_fits v _ V)|exact Logic.I|exact P|exact F].
    - cbn [serial_replaced]. rewrite !ascii_app. tauto.
    - exact (Y v V). }
  destruct (Z 0 ltac:(lia)) as (b & B & Bb & Lb & _). unfold itip_binary in B. cbn [itip_epc_uri itip_cp itip_item itip_piece itip_total itip_serial] in B.
  rewrite (number_bits 0 38) in B by lia. cbn [req_binary class_of req_epc init_of from_binary_of].
  repeat match type of B with context [bind ?m _] => let p := fresh "p" in destruct m as [p|] eqn:?; [|discriminate B]; cbn [bind] in B end.
  apply ok_same in B. rewrite <- B in Bb, Lb. clear B. rewrite !app_assoc in Bb, Lb. rewrite app_length, length_bits in Lb.
  apply bitstring_iff in Bb. rewrite forallb_app' in Bb. apply andb_prop in Bb as [Bb _]. apply bitstring_iff in Bb.
  eexists. split; [|split; [exact Bb|split]].
  - lia.
  - cbn [req_binary]. unfold itip_binary. repeat match goal with H : ?m = Ok _ |- context [?m] => rewrite H; cbn [bind] end.
    destruct (str_to_binary (itip_serial x) 38); [|reflexivity]. cbn [bind]. rewrite <- ?app_assoc. reflexivity.
  - intros v V. eexists. cbn [class_of req_epc init_of from_binary_of]. rewrite (Y v V). split; [reflexivity|]. intros extra.
    destruct (Z v V) as (b' & B & _ & _ & R). unfold itip_binary in B. cbn [itip_epc_uri itip_cp itip_item itip_piece itip_total itip_serial] in B. rewrite (number_bits v 38) in B by (try lia; exact V).
    repeat match goal with H : ?m = Ok ?a |- _ => match type of B with context [bind m _] => rewrite H in B; cbn [bind] in B end end.
    apply ok_same in B. specialize (R extra). rewrite <- B in R. rewrite <- ?app_assoc in *. rewrite R. reflexivity.
Qed.

Definition giai_width (n : nat) : nat := N.to_nat (giai_96_bits n).
Lemma giai_short v n : (6 <= n <= 12)%nat -> v < 2 ^ N.of_nat (giai_width n) -> (n + length (ndec v) <= 25)%nat.
Proof.
  intros L H.
  assert (D : forall k, (1 <= k)%nat -> 2 ^ N.of_nat (giai_width n) <= 10 ^ N.of_nat k -> (length (ndec v) <= k)%nat).
  { intros k K B. apply ndec_length; [exact K|]. apply N.lt_le_trans with (1 := H). exact B. }
  assert (E : (n = 6 \/ n = 7 \/ n = 8 \/ n = 9 \/ n = 10 \/ n = 11 \/ n = 12)%nat) by lia.
  assert (K : (length (ndec v) <= 25 - n)%nat).
  { apply D; [lia|]. clear D H. decompose [or] E; subst n; vm_compute; discriminate. }
  lia.
Qed.
Lemma giai_num u x f : giai_init u = Ok x -> ascii u -> f < 8 -> num_tag (T_GIAI x GIAI_96 f) (giai_asset x) (giai_width (length (giai_cp x))) 96.
Proof.
  intros I A F. apply giai_iff in I as ((ig & U) & Eu & K). destruct U as (U & C & Co & Nc & L & G). rewrite U, !ascii_app in A.
  set (w := giai_width (length (giai_cp x))).
  assert (W : (42 <= w <= 62)%nat).
  { destruct C as (_ & C). subst w. assert (E : (length (giai_cp x) = 6 \/ length (giai_cp x) = 7 \/ length (giai_cp x) = 8 \/ length (giai_cp x) = 9 \/ length (giai_cp x) = 10 \/ length (giai_cp x) = 11 \/ length (giai_cp x) = 12)%nat) by lia.
    decompose [or] E; match goal with H : length _ = _ |- _ => rewrite H end; vm_compute; lia. }
  pose (y := fun v => mkGiai (serial_replaced (T_GIAI x GIAI_96 f) (ndec v)) (giai_cp x) (ndec v) (giai_cp x ++ unescape (ndec v))).
  assert (Y : forall v, v < 2 ^ N.of_nat w -> giai_init (serial_replaced (T_GIAI x GIAI_96 f) (ndec v)) = Ok (y v)).
  { intros v V. apply giai_iff. destruct (number_component v) as (C1 & C2 & C6). pose proof (giai_short v _ (proj2 C) V) as C3.
    split; [|split; reflexivity]. exists []. unfold giai_uri. cbn [y giai_epc_uri giai_cp giai_asset]. rewrite app_nil_r.
    split; [reflexivity|]. split; [exact C|]. split; [exact C1|]. split; [|split; [lia|left; reflexivity]].
    intros J. pose proof (ndec_digits v) as D. rewrite forallb_forall in D. specialize (D _ J). discriminate D. }
  assert (Z : forall v, v < 2 ^ N.of_nat w -> exists b, giai_binary (y v) GIAI_96 f = Ok b /\ bitstring b /\ length b = 96%nat /\ forall extra, giai_from_binary (b ++ extra) = Ok (y v)).
  { intros v V. destruct (number_component v) as (_ & _ & C2). pose proof (giai_short v _ (proj2 C) V) as C3.
    apply (roundtrip (tag_layout (T_GIAI (y v) GIAI_96 f)) _ _ _ giai_init (serial_replaced (T_GIAI x GIAI_96 f) (ndec v))).
    - apply (giai_coded (serial_replaced (T_GIAI x GIAI_96 f) (ndec v)) (y v) GIAI_96 f); [exact (Y v V)| |exact Logic.I|exact F].
      cbn [coding_has_room y giai_asset giai_cp]. split; [|exact C3]. apply number_fits. unfold w, giai_width in V. rewrite N2Nat.id in V. exact V.
    - cbn [serial_replaced]. rewrite !ascii_app. tauto.
    - exact (Y v V). }
  assert (P0 : 0 < 2 ^ N.of_nat w) by (apply N.neq_0_lt_0, N.pow_nonzero; discriminate).
  assert (Q : exists r, lookup (Z.of_nat (length (giai_cp x))) giai_table_L_96 = Some r /\ rN r = w /\ (rK r =? 0)%nat = false).
  { destruct C as (_ & C). subst w. assert (E : (length (giai_cp x) = 6 \/ length (giai_cp x) = 7 \/ length (giai_cp x) = 8 \/ length (giai_cp x) = 9 \/ length (giai_cp x) = 10 \/ length (giai_cp x) = 11 \/ length (giai_cp x) = 12)%nat) by lia.
    decompose [or] E; match goal with H : length _ = _ |- _ => rewrite H end; eexists; vm_compute; auto. }
  destruct Q as (r & Q & QN & QK).
  assert (B0 : forall z, giai_cp z = giai_cp x -> giai_binary z GIAI_96 f =
    (let* fb := str_to_binary (filter_value f) 3 in let* cb := str_to_binary (giai_cp x) (rM r) in let* d := str_to_binary (giai_asset z) w in
     Ok ((giai_header GIAI_96 ++ fb ++ int_to_binary (rP r) 3 ++ cb) ++ d))).
  { intros z Ez. unfold giai_binary, encode_partition_table. rewrite Ez, Q. cbn [of_option bind]. rewrite QN, QK. cbn [negb].
    destruct (str_to_binary (filter_value f) 3) as [fb|]; [|reflexivity]. cbn [bind]. destruct (str_to_binary (giai_cp x) (rM r)) as [cb|]; [|reflexivity]. cbn [bind].
    destruct (str_to_binary (giai_asset z) w); [|reflexivity]. cbn [bind]. now rewrite <- !app_assoc. }
  destruct (Z 0 P0) as (b & B & Bb & Lb & _). rewrite (B0 (y 0) eq_refl) in B. cbn [y giai_asset] in B.
  rewrite (number_bits 0 w) in B by (try lia; exact P0).
  destruct (str_to_binary (filter_value f) 3) as [fb|] eqn:E1; [|discriminate B]. cbn [bind] in B.
  destruct (str_to_binary (giai_cp x) (rM r)) as [cb|] eqn:E2; [|discriminate B]. cbn [bind] in B.
  apply ok_same in B. set (pre := giai_header GIAI_96 ++ fb ++ int_to_binary (rP r) 3 ++ cb) in *. rewrite <- B in Bb, Lb. clear B. rewrite app_length, length_bits in Lb.
  apply bitstring_iff in Bb. rewrite forallb_app' in Bb. apply andb_prop in Bb as [Bb _]. apply bitstring_iff in Bb.
  exists pre. split; [lia|]. split; [exact Bb|]. split.
  - cbn [req_binary]. rewrite (B0 x eq_refl). reflexivity.
  - intros v V. exists (E_GIAI (y v)). cbn [class_of req_epc init_of from_binary_of]. rewrite (Y v V). split; [reflexivity|]. intros extra.
    destruct (Z v V) as (b' & B & _ & _ & R). rewrite (B0 (y v) eq_refl) in B. cbn [y giai_asset] in B. rewrite (number_bits v w) in B by (try lia; exact V).
    cbn [bind] in B. apply ok_same in B. specialize (R extra). rewrite <- B in R. fold pre in R. rewrite <- app_assoc in R. rewrite R. reflexivity.
Qed.

Lemma giai_number s : numeral s -> component s -> ndec (decimal s) = s.
Proof.
  intros N C. apply TagUri2.numeral_decimal_inj; [apply TagUri.ndec_numeral|exact N|apply number_component| |apply TagUri2.ndec_decimal].
  intros c Jc. pose proof (component_solid s C) as X. rewrite forallb_forall in X. specialize (X c Jc). unfold solid in X. lia.
Qed.
Lemma cpi_num u x f : cpi_init u = Ok x -> ascii u -> f < 8 -> parts_fit (T_CPI x CPI_96 f) -> num_tag (T_CPI x CPI_96 f) (cpi_serial x) 31 96.
Proof.
  intros I A F (_ & P1 & P2). apply cpi_iff in I as (U & Eu). destruct U as (U & C & Rf & L & Ns & Ls). rewrite U, !ascii_app in A.
  pose (y := fun v => mkCpi (serial_replaced (T_CPI x CPI_96 f) (ndec v)) (cpi_cp x) (cpi_ref x) (ndec v)).
  assert (Y : forall v, v < 2 ^ N.of_nat 31 -> cpi_init (serial_replaced (T_CPI x CPI_96 f) (ndec v)) = Ok (y v)).
  { intros v V. apply cpi_iff. split; [|reflexivity]. unfold cpi_uri. cbn [y cpi_epc_uri cpi_cp cpi_ref cpi_serial].
    split; [reflexivity|]. split; [exact C|]. split; [exact Rf|]. split; [exact L|]. split; [apply TagUri.ndec_numeral|].
    apply ndec_length; [lia|]. apply N.lt_le_trans with (1 := V). vm_compute. discriminate. }
  assert (Z : forall v, v < 2 ^ N.of_nat 31 -> exists b, cpi_binary (y v) CPI_96 f = Ok b /\ bitstring b /\ length b = 96%nat /\ forall extra, cpi_from_binary (b ++ extra) = Ok (y v)).
  { intros v V. destruct (number_component v) as (_ & _ & C2).
    apply (roundtrip (tag_layout (T_CPI (y v) CPI_96 f)) _ _ _ cpi_init (serial_replaced (T_CPI x CPI_96 f) (ndec v))).
    - apply cpi_96_coded; [exact (Y v V)| |exact F]. cbn [coding_has_room y cpi_ref cpi_cp cpi_serial]. split; [exact P1|]. split; [exact P2|].
      rewrite TagUri2.ndec_decimal. exact V.
    - cbn [serial_replaced]. rewrite !ascii_app. tauto.
    - exact (Y v V). }
  destruct (Z 0 ltac:(lia)) as (b & B & Bb & Lb & _). unfold cpi_binary in B. cbn [y cpi_epc_uri cpi_cp cpi_ref cpi_serial] in B.
  rewrite (number_bits 0 31) in B by lia. cbn [req_binary class_of req_epc init_of from_binary_of].
  destruct (str_to_binary (filter_value f) 3) as [fb|] eqn:E1; [|discriminate B]. cbn [bind] in B.
  destruct (encode_partition_table (cpi_cp x) (cpi_ref x) cpi_table_L_96 false false) as [pb|] eqn:E2; [|discriminate B]. cbn [bind] in B.
  apply ok_same in B. rewrite <- B in Bb, Lb. clear B. rewrite !app_assoc in Bb, Lb. rewrite app_length, length_bits in Lb.
  apply bitstring_iff in Bb. rewrite forallb_app' in Bb. apply andb_prop in Bb as [Bb _]. apply bitstring_iff in Bb.
  eexists. split; [|split; [exact Bb|split]].
  - lia.
  - cbn [req_binary]. unfold cpi_binary. rewrite E1. cbn [bind]. rewrite E2. cbn [bind].
    destruct (str_to_binary (cpi_serial x) 31); [|reflexivity]. cbn [bind]. rewrite <- ?app_assoc. reflexivity.
  - intros v V. exists (E_CPI (y v)). cbn [class_of req_epc init_of from_binary_of]. rewrite (Y v V). split; [reflexivity|]. intros extra.
    destruct (Z v V) as (b' & B & _ & _ & R). unfold cpi_binary in B. cbn [y cpi_epc_uri cpi_cp cpi_ref cpi_serial] in B. rewrite (number_bits v 31) in B by (try lia; exact V).
    rewrite E1 in B. cbn [bind] in B. rewrite E2 in B. cbn [bind] in B. apply ok_same in B. specialize (R extra). rewrite <- B in R.
    rewrite <- ?app_assoc in *. rewrite R. reflexivity.
Qed.
Lemma num_tag_of q u s w : init_of (class_of (req_epc q)) u = Ok (req_epc q) -> ascii u -> filter_fits q -> parts_fit q ->
  numeric_serial q = Some (s, w) -> component s /\ intable s /\ (31 <= w <= 62)%nat /\
  (whole_uri q u -> u = serial_replaced q s) /\ (coding_has_room q <-> serial_fits s (N.of_nat w)) /\
  exists size, (64 <= size)%nat /\ coding_bits q = Some size /\ num_tag q s w size.
Proof.
  intros I A F P S. destruct q as [x c f|x c f|x c f|x c f|x c|x c f|x c f|x c f|x c f|x c f|x c f|x c f|x c f|x c f];
    try discriminate S; destruct c; try discriminate S; cbn [numeric_serial] in S; injection S as <- <-;
    cbn [init_of class_of req_epc] in I; apply lift_ok in I as (y & I & Y); injection Y as <-; cbn [filter_fits req_filter filter_bits] in F;
    change (2 ^ N.of_nat 3) with 8 in F.
  - pose proof I as J. apply cpi_iff in J as ((U & _ & _ & _ & Ns & Lc) & _).
    assert (C : component (cpi_serial x)).
    { rewrite U, !ascii_app in A.
      assert (E : ndec (decimal (cpi_serial x)) = cpi_serial x)
        by (apply TagUri2.numeral_decimal_inj; [apply TagUri.ndec_numeral|exact Ns|apply number_component|apply A|apply TagUri2.ndec_decimal]).
      rewrite <- E. apply number_component. }
    split; [exact C|]. split; [apply (intable_le _ 30); lia|]. split; [lia|]. split; [intros _; exact U|]. split.
    { destruct P as (_ & P1 & P2). cbn [coding_has_room]. unfold serial_fits. change (N.of_nat 31) with 31. tauto. }
    exists 96%nat. split; [lia|]. split; [reflexivity|exact (cpi_num u x f I A F P)].
  - pose proof I as J. apply gdti_iff in J as ((U & _ & _ & _ & C & Lc) & _). split; [exact C|]. split; [first [apply (intable_le _ 30); lia|apply TagFits.intable_unescape; lia]|]. split; [lia|]. split; [intros _; exact U|]. split; [reflexivity|].
    exists 96%nat. split; [lia|]. split; [reflexivity|exact (gdti_num u x f I A F)].
  - pose proof I as J. apply giai_iff in J as ((ig & U & CP & C & Nc & Lc & G) & _). split; [exact C|]. split; [apply (intable_le _ 30); lia|].
    fold (giai_width (length (giai_cp x))). split.
    { clear -CP. destruct CP as (_ & CP). assert (E : (length (giai_cp x) = 6 \/ length (giai_cp x) = 7 \/ length (giai_cp x) = 8 \/ length (giai_cp x) = 9 \/ length (giai_cp x) = 10 \/ length (giai_cp x) = 11 \/ length (giai_cp x) = 12)%nat) by lia.
      decompose [or] E; match goal with H : length _ = _ |- _ => rewrite H end; vm_compute; lia. }
    split.
    { intros W. pose proof (core_uri_eq (T_GIAI x GIAI_96 f) u) as Q. cbn [init_of class_of req_epc] in Q. rewrite I in Q. symmetry. apply Q; [reflexivity|exact W]. }
    split.
    { cbn [coding_has_room]. unfold giai_width. rewrite N2Nat.id. split; [tauto|]. intros R. split; [exact R|]. destruct R as (R1 & R2).
      rewrite <- (N2Nat.id (giai_96_bits _)) in R2. pose proof (giai_short _ _ (proj2 CP) R2) as GS.
      enough (length (giai_asset x) <= length (ndec (decimal (giai_asset x))))%nat by lia. rewrite <- (f_equal (@length N) (giai_number _ R1 C)). lia. }
    exists 96%nat. split; [lia|]. split; [reflexivity|exact (giai_num u x f I A F)].
  - pose proof I as J. apply grai_iff in J as ((U & _ & _ & _ & C & Lc) & _). split; [exact C|]. split; [first [apply (intable_le _ 30); lia|apply TagFits.intable_unescape; lia]|]. split; [lia|]. split; [intros _; exact U|]. split; [reflexivity|].
    exists 96%nat. split; [lia|]. split; [reflexivity|exact (grai_num u x f I A F)].
  - pose proof I as J. apply itip_iff in J as ((U & _ & _ & _ & _ & _ & _ & _ & _ & C & Lc) & _). split; [exact C|]. split; [first [apply (intable_le _ 30); lia|apply TagFits.intable_unescape; lia]|]. split; [lia|]. split; [intros _; exact U|]. split; [reflexivity|].
    exists 110%nat. split; [lia|]. split; [reflexivity|exact (itip_num u x f I A F (proj1 P))].
  - pose proof I as J. apply sgln_iff in J as ((U & _ & _ & _ & C & Lc) & _). split; [exact C|]. split; [first [apply (intable_le _ 30); lia|apply TagFits.intable_unescape; lia]|]. split; [lia|]. split; [intros _; exact U|]. split; [reflexivity|].
    exists 96%nat. split; [lia|]. split; [reflexivity|exact (sgln_num u x f I A F)].
  - pose proof I as J. apply sgtin_iff in J as ((U & _ & _ & _ & C & Lc) & _). split; [exact C|]. split; [first [apply (intable_le _ 30); lia|apply TagFits.intable_unescape; lia]|]. split; [lia|]. split; [intros _; exact U|]. split; [reflexivity|].
    exists 96%nat. split; [lia|]. split; [reflexivity|exact (sgtin_num u x f I A F)].
Qed.

Theorem numeric_none q u s w : init_of (class_of (req_epc q)) u = Ok (req_epc q) -> ascii u -> filter_fits q -> parts_fit q ->
  numeric_serial q = Some (s, w) -> (forall z, ~ int_literal s z) -> req_binary q = Raise ValueError.
Proof.
  intros I A F P S L. destruct (num_tag_of q u s w I A F P S) as (C & J & _ & _ & _ & size & _ & _ & pre & _ & _ & B & _).
  rewrite B. unfold str_to_binary. destruct (int10 s) as [z|e] eqn:E; cbn [bind].
  - apply int10_literal in E; [destruct (L z E)|apply component_solid, C|exact J].
  - apply int10_exn in E. subst e. reflexivity.
Qed.

Theorem numeric_number q u s w z : init_of (class_of (req_epc q)) u = Ok (req_epc q) -> ascii u -> filter_fits q -> parts_fit q ->
  numeric_serial q = Some (s, w) -> int_literal s z -> (0 <= z)%Z ->
  exists size k b n e, coding_bits q = Some size /\ req_binary q = Ok b /\ bitstring b /\ length b = (size + k)%nat /\
    (z < 2 ^ Z.of_nat (w + k))%Z /\ (k = 0%nat \/ 2 ^ Z.of_nat (w + k - 1) <= z)%Z /\
    numeral n /\ ascii n /\ Z.of_N (decimal n) = (z / 2 ^ Z.of_nat k)%Z /\
    init_of (class_of (req_epc q)) (serial_replaced q n) = Ok e /\
    forall extra, from_binary_of (class_of (req_epc q)) (b ++ extra) = Ok e.
Proof.
  intros I A F P S L Z0. destruct (num_tag_of q u s w I A F P S) as (C & J & W & _ & _ & size & _ & Sz & pre & Lp & Bp & B & V).
  apply int10_literal in L; [|apply component_solid, C|exact J]. rewrite <- (Z2N.id z Z0) in L |- *. set (m := Z.to_N z) in *.
  destruct (fmt_bin_split w m) as (v & ex & Ef & Hv & Be & Ev & Hu & Hl); [lia|].
  destruct (V v Hv) as (e & Ie & Fe).
  exists size, (length ex), (pre ++ bits w v ++ ex), (ndec v), e. split; [exact Sz|]. split.
  { rewrite B. unfold str_to_binary, int_to_binary. rewrite L. cbn [bind]. rewrite Ef. reflexivity. }
  split. { apply bitstring_iff. apply bitstring_iff in Bp. rewrite !forallb_app', Bp, bits_bit, Be. reflexivity. }
  split. { rewrite !app_length, length_bits. lia. }
  assert (T : forall k, (2 ^ Z.of_nat k)%Z = Z.of_N (2 ^ N.of_nat k)) by (intros k; rewrite N2Z.inj_pow, nat_N_Z; reflexivity).
  rewrite !T. split; [lia|]. split; [destruct Hl as [->|Hl]; [left; reflexivity|right; lia]|].
  split; [apply TagUri.ndec_numeral|]. split; [apply number_component|]. split; [rewrite TagUri2.ndec_decimal, Ev, N2Z.inj_div; reflexivity|].
  split; [exact Ie|]. intros extra. rewrite <- !app_assoc. apply Fe.
Qed.

Lemma scan_minus p r acc : forallb is_bit p = true -> scan_digits 2 (p ++ 45 :: r) false true acc = None.
Proof.
  revert acc. induction p as [|c p IH]; intros acc B; [reflexivity|]. cbn [forallb] in B. apply andb_prop in B as [Bc B]. cbn [app scan_digits].
  apply is_bit_iff in Bc as [->| ->]; cbn [digit_in digit_val]; apply IH, B.
Qed.
Lemma int2_minus p r : (2 <= length p)%nat -> forallb is_bit p = true -> ascii r -> int_base 2 (p ++ 45 :: r) = Raise ValueError.
Proof.
  intros L B A. destruct p as [|a [|b p]]; try (cbn [length] in L; lia). unfold int_base, py_int.
  assert (X : to_ascii_num ((a :: b :: p) ++ 45 :: r) = (a :: b :: p) ++ 45 :: r).
  { unfold to_ascii_num. match goal with |- (if ?t then _ else _) = _ => replace t with true; [reflexivity|] end. symmetry.
    rewrite forallb_app'. apply andb_true_intro. split; [|cbn [forallb]; apply andb_true_intro; split; [reflexivity|apply ascii_iff, A]].
    apply forallb_forall. intros c I. rewrite forallb_forall in B. specialize (B c I). apply is_bit_iff in B. unfold is_ascii. lia. }
  rewrite X. cbn [forallb] in B. apply andb_prop in B as [Ba B]. apply andb_prop in B as [Bb B].
  pose proof (fun acc => scan_minus p r acc B) as Y. apply is_bit_iff in Ba, Bb.
  cbn [app]. destruct Ba as [->| ->], Bb as [->| ->];
    cbn [skip_space is_ascii_space N.leb N.eqb andb orb app parse_unsigned skip_prefix];
    unfold parse_unsigned, skip_prefix; cbn -[scan_digits]; cbn [scan_digits digit_in digit_val]; cbn -[scan_digits]; rewrite Y; reflexivity.
Qed.
Theorem numeric_negative q u s w z : init_of (class_of (req_epc q)) u = Ok (req_epc q) -> ascii u -> filter_fits q -> parts_fit q ->
  numeric_serial q = Some (s, w) -> int_literal s z -> (z < 0)%Z ->
  exists a b, req_binary q = Ok (a ++ lit "-" ++ b) /\ bitstring a /\ bitstring b /\ req_hex q = Raise ValueError.
Proof.
  intros I A F P S L Z0. destruct (num_tag_of q u s w I A F P S) as (C & J & W & _ & _ & size & Lz & Sz & pre & Lp & Bp & B & V).
  apply int10_literal in L; [|apply component_solid, C|exact J].
  exists pre, (padl c_0 (w - 1) (nbin (Z.to_N (- z)))).
  assert (E : req_binary q = Ok (pre ++ lit "-" ++ padl c_0 (w - 1) (nbin (Z.to_N (- z))))).
  { rewrite B. unfold str_to_binary, int_to_binary, fmt_bin. rewrite L. cbn [bind]. replace (z <? 0)%Z with true by lia. reflexivity. }
  assert (Bn : forallb is_bit (padl c_0 (w - 1) (nbin (Z.to_N (- z)))) = true).
  { apply forallb_padl; [reflexivity|apply nbin_spec]. }
  split; [exact E|]. split; [exact Bp|]. split; [apply bitstring_iff, Bn|].
  unfold req_hex, binary_hex. rewrite E. cbn [bind]. unfold padr. rewrite <- !app_assoc.
  change (lit "-") with [45]. cbn [app]. rewrite int2_minus; [reflexivity|lia|apply bitstring_iff, Bp|].
  apply ascii_app. split.
  - intros c Jc. rewrite forallb_forall in Bn. specialize (Bn c Jc). apply is_bit_iff in Bn. lia.
  - intros c Jc. apply repeat_spec in Jc. subst c. reflexivity.
Qed.

(** the tag gives the object back exactly when tag_uri accepts the serial *)
Theorem numeric_exact q u s w b : init_of (class_of (req_epc q)) u = Ok (req_epc q) -> ascii u -> filter_fits q -> parts_fit q ->
  numeric_serial q = Some (s, w) -> whole_uri q u -> req_binary q = Ok b -> bitstring b ->
  (from_binary_of (class_of (req_epc q)) b = Ok (req_epc q) <-> exists t, req_tag_uri q = Ok t).
Proof.
  intros I A F P S WU B Bb. destruct (num_tag_of q u s w I A F P S) as (C & J & W & Eu & R & _). specialize (Eu WU).
  assert (L : exists z, int_literal s z /\ (0 <= z)%Z).
  { destruct (int10 s) as [z|] eqn:E.
    - apply int10_literal in E; [|apply component_solid, C|exact J]. exists z. split; [exact E|]. destruct (Z_lt_le_dec z 0) as [N|N]; [|exact N].
      destruct (numeric_negative q u s w z I A F P S E N) as (a & b' & E' & _). rewrite B in E'. apply ok_same in E'. subst b.
      exfalso. specialize (Bb 45 ltac:(apply in_or_app; right; now left)). lia.
    - assert (N : forall z, ~ int_literal s z).
      { intros z H. apply int10_literal in H; [congruence|apply component_solid, C|exact J]. }
      rewrite (numeric_none q u s w I A F P S N) in B. discriminate B. }
  destruct L as (z & L & Z0). destruct (numeric_number q u s w z I A F P S L Z0) as (size & k & b' & n & e & _ & B' & _ & _ & Hu & Hl & N & An & V & Ie & Fe).
  rewrite B in B'. apply ok_same in B'. subst b'. specialize (Fe []). rewrite app_nil_r in Fe. rewrite Fe.
  assert (T : (exists t, req_tag_uri q = Ok t) <-> coding_has_room q).
  { split; [intros (t & T); exact (tag_uri_room q u t I T)|]. intros H. exact (proj1 (tag_uri_exact q u I) H). }
  rewrite T, R. clear T R.
  assert (Ii : forall s', init_of (class_of (req_epc q)) (serial_replaced q s') = Ok (req_epc q) -> s' = s).
  { intros s' H. pose proof (proj2 (init_class _ _ _ H)) as X. pose proof (proj2 (init_class _ _ _ I)) as Y. rewrite X in Y. rewrite Eu in Y.
    destruct q; try discriminate S; cbn [serial_replaced] in Y; repeat (apply app_inv_head in Y); exact Y. }
  split.
  - intros H. apply ok_same in H. subst e. apply Ii in Ie. subst n. split; [exact N|].
    assert (Lz : z = Z.of_N (decimal s)).
    { apply numeral_iff in N. apply numeral_digits in N as [D Ne]. apply int10_literal in L; [|apply component_solid, C|exact J].
      rewrite int10_digits in L by assumption. apply ok_same in L. congruence. }
    assert (K : (k = 0 \/ 1 <= k)%nat) by lia. destruct K as [->|K].
    + rewrite Nat.add_0_r in Hu. subst z. apply N2Z.inj_lt. rewrite N2Z.inj_pow, nat_N_Z. exact Hu.
    + exfalso. destruct Hl as [Hl|Hl]; [lia|]. assert (0 < 2 ^ Z.of_nat (w + k - 1))%Z by (apply Z.pow_pos_nonneg; lia).
      assert (z / 2 ^ Z.of_nat k < z)%Z by (apply Z.div_lt; [lia|]; apply Z.pow_gt_1; lia). lia.
  - intros (Ns & Hs).
    assert (Lz : z = Z.of_N (decimal s)).
    { apply numeral_iff in Ns. apply numeral_digits in Ns as [D Ne]. apply int10_literal in L; [|apply component_solid, C|exact J].
      rewrite int10_digits in L by assumption. apply ok_same in L. congruence. }
    assert (K : k = 0%nat).
    { destruct Hl as [Hl|Hl]; [exact Hl|]. assert (K : (k = 0 \/ 1 <= k)%nat) by lia. destruct K as [K|K]; [exact K|].
      exfalso. apply N2Z.inj_lt in Hs. rewrite N2Z.inj_pow, nat_N_Z, <- Lz in Hs.
      assert (2 ^ Z.of_nat w <= 2 ^ Z.of_nat (w + k - 1))%Z by (apply Z.pow_le_mono_r; lia). cbn [Z.of_N] in Hs. lia. }
    subst k. change (2 ^ Z.of_nat 0)%Z with 1%Z in V. rewrite Z.div_1_r in V.
    assert (n = s).
    { apply TagUri2.numeral_decimal_inj; [exact N|exact Ns|exact An| |lia]. intros c Jc. pose proof (component_solid s C) as X.
      rewrite forallb_forall in X. specialize (X c Jc). unfold solid in X. lia. }
    subst n. rewrite <- Eu, I in Ie. symmetry. exact Ie.
Qed.

(** a part reference that is no number *)
Lemma to_binary_exn s w e : str_to_binary s w = Raise e -> e = ValueError.
Proof. unfold str_to_binary. destruct (int10 s) as [z|e'] eqn:E; cbn [bind]; [discriminate|]. intros X. injection X as <-. exact (int10_exn _ _ E). Qed.
Lemma escape6_solid t : six_bit_text t -> forallb solid (escape6 t) = true.
Proof.
  intros H. apply forallb_forall. intros c J. unfold escape6 in J. apply in_flat_map in J as (d & I & J). specialize (H d I). unfold solid.
  destruct (d =? 35); [|destruct (d =? 47)].
  - cbn in J. repeat destruct J as [<-|J]; try reflexivity. destruct J.
  - cbn in J. repeat destruct J as [<-|J]; try reflexivity. destruct J.
  - destruct J as [<-|[]]. lia.
Qed.
Theorem cpi_reference_none u x f : cpi_init u = Ok x -> (forall z, ~ int_literal (cpi_ref x) z) -> cpi_binary x CPI_96 f = Raise ValueError.
Proof.
  intros I N. apply cpi_iff in I as ((_ & (_ & C) & (t & _ & T & R) & L & _) & _).
  assert (Q : exists r, lookup (Z.of_nat (length (cpi_cp x))) cpi_table_L_96 = Some r /\ (rK r =? 0)%nat = false).
  { assert (E : (length (cpi_cp x) = 6 \/ length (cpi_cp x) = 7 \/ length (cpi_cp x) = 8 \/ length (cpi_cp x) = 9 \/ length (cpi_cp x) = 10 \/ length (cpi_cp x) = 11 \/ length (cpi_cp x) = 12)%nat) by lia.
    decompose [or] E; match goal with H : length _ = _ |- _ => rewrite H end; eexists; vm_compute; auto. }
  destruct Q as (r & Q & QK). unfold cpi_binary, encode_partition_table. rewrite Q. cbn [of_option bind]. rewrite QK. cbn [negb].
  destruct (str_to_binary (filter_value f) 3) as [fb|e] eqn:E1; [|now rewrite (to_binary_exn _ _ _ E1)]. cbn [bind].
  destruct (str_to_binary (cpi_cp x) (rM r)) as [cb|e] eqn:E2; [|now rewrite (to_binary_exn _ _ _ E2)]. cbn [bind].
  destruct (str_to_binary (cpi_ref x) (rN r)) as [d|e] eqn:E3; [|now rewrite (to_binary_exn _ _ _ E3)].
  exfalso. unfold str_to_binary in E3. destruct (int10 (cpi_ref x)) as [z|] eqn:E; [|discriminate E3].
  apply int10_literal in E; [exact (N z E)|rewrite R; now apply escape6_solid|apply (intable_le _ 30); lia].
Qed.
