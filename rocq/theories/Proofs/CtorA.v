(** Constructors of the schemes with two digit groups and a serial component. *)
From Coq Require Import String Lia Setoid.
From Verif.Model Require Import Py Re Regexes Common Base.
From Verif.Model Require Import Gdti Grai Lgtin Sgln Sgtin Others.
From Verif.Spec Require Import Spec SpecEscapes SpecGrammar.
From Verif.Proofs Require Import Basics Num ReLemmas Uni Escapes Checksum Verify Grammar Ctor.

(** shape of prefix ++ digits . digits . component; the middle group may be empty when [e] *)
Definition shape3 (p : str) (e : bool) (u cp item serial : str) : Prop :=
  u = p ++ cp ++ [c_dot] ++ item ++ [c_dot] ++ serial /\
  forallb is_d cp = true /\ cp <> [] /\ forallb is_d item = true /\ (e = false -> item <> []) /\
  gs3a3_shape serial = true /\ serial <> [].

Lemma match3 p u : fullmatch (RSeq (rlit p) (rseq [PNC; dot; PNC; dot; GS3A3_COMPONENT])) u = true <->
  exists cp item serial, shape3 (lit p) false u cp item serial.
Proof.
  rewrite fullmatch_lang, lang3. unfold shape3. setoid_rewrite lang_PNC. setoid_rewrite lang_GS3A3.
  split; intros (x & y & z & H); exists x, y, z; intuition congruence.
Qed.
Lemma match3e p u : fullmatch (RSeq (rlit p) (rseq [PNC; dot; PNCE; dot; GS3A3_COMPONENT])) u = true <->
  exists cp item serial, shape3 (lit p) true u cp item serial.
Proof.
  rewrite fullmatch_lang, lang3. unfold shape3. setoid_rewrite lang_PNC. setoid_rewrite lang_PNCE. setoid_rewrite lang_GS3A3.
  split; intros (x & y & z & H); exists x, y, z; intuition congruence.
Qed.

Lemma shape3_tail p e u cp item serial : upref p -> shape3 p e u cp item serial ->
  tail4 u = cp ++ [c_dot] ++ item ++ [c_dot] ++ serial /\
  split c_dot (tail4 u) = cp :: item :: split c_dot serial /\
  field4 u = Ok (cp ++ [c_dot] ++ item ++ [c_dot] ++ hd [] (split c_colon serial)) /\
  split c_dot (cp ++ [c_dot] ++ item ++ [c_dot] ++ hd [] (split c_colon serial))
    = cp :: item :: split c_dot (hd [] (split c_colon serial)).
Proof.
  intros P (-> & C & _ & I & _). rewrite (tail4_upref _ _ P), (field4_upref _ _ P).
  rewrite hd_split2 by (apply nocolon_digits, C). rewrite hd_split2 by (apply nocolon_digits, I).
  split; [reflexivity|]. split; [|split; [reflexivity|]].
  - rewrite !split_app1 by (apply nodot_digits; assumption). reflexivity.
  - rewrite !split_app1 by (apply nodot_digits; assumption). reflexivity.
Qed.

Ltac split3 S P :=
  let T := fresh in let A := fresh in let B := fresh in let C := fresh in
  pose proof (shape3_tail _ _ _ _ _ _ P S) as (T & A & B & C);
  rewrite ?raise_if_cond; cbn [negb cond]; rewrite ?A, ?B; rewrite ?bind_Ok; rewrite ?C;
  cbn [idx nth_error of_option skipn firstn unpack2 unpack2_rest]; rewrite ?bind_Ok; rewrite ?join_split;
  clear T A B C.

Lemma lit_app_prefix p s t : lit p ++ s = lit p ++ t -> s = t.
Proof. apply app_inv_head. Qed.

(** ** SGTIN *)
Definition gtin_body (cp item : str) : str := hd 0 item :: cp ++ skipn 1 item.
Lemma gtin_body_digits cp item : forallb is_d cp = true -> forallb is_d item = true -> item <> [] ->
  forallb is_d (gtin_body cp item) = true.
Proof.
  intros C I N. unfold gtin_body. destruct item as [|i item]; [congruence|]. cbn [hd skipn forallb] in *.
  apply andb_true_iff in I as [I1 I2]. rewrite I1, forallb_app', C, I2. reflexivity.
Qed.
Lemma gtin_body_length cp item : item <> [] -> length (gtin_body cp item) = (length cp + length item)%nat.
Proof. destruct item; [congruence|]. intros _. cbn [gtin_body hd skipn length]. rewrite app_length. cbn [length]. lia. Qed.

Lemma sgtin_eval u cp item serial : shape3 (lit "urn:epc:id:sgtin:") false u cp item serial ->
  sgtin_init u =
    cond (negb (length (cp ++ item) =? 13)%nat || negb (cp_len_ok cp))
      (let* _ := verify_gs3a3_component serial in
       cond (20 <? length (replace_uri_escapes serial))%nat
         (Ok (mkSgtin u cp item serial (complete (gtin_body cp item))))).
Proof.
  intros S. assert (M : fullmatch SGTIN_URI u = true) by (apply match3; eauto).
  unfold sgtin_init. rewrite M. split3 S up_sgtin.
  destruct S as (_ & C & _ & I & IN & G & GN). specialize (IN eq_refl).
  unfold cond at 1. unfold cond at 1. destruct (negb _ || negb _) eqn:E; [reflexivity|].
  destruct (verify_gs3a3_component serial) as [[]|e]; [|reflexivity]. cbn [bind].
  rewrite ?raise_if_cond. rewrite <- unescape_spec. pose proof (unescape_nonempty _ GN) as L.
  replace (1 <=? length (unescape serial))%nat with true by (symmetry; apply Nat.leb_le, L).
  cbn [andb]. rewrite <- Nat.ltb_antisym. unfold cond. destruct (20 <? _)%nat; [reflexivity|].
  destruct (checksum_dec (gtin_body cp item)) as (z & Z & D); [apply gtin_body_digits; assumption|].
  apply orb_false_iff in E as [E _]. apply negb_false_iff, Nat.eqb_eq in E. rewrite app_length in E.
  pose proof (gtin_body_length cp item IN) as GL. pose proof (complete_length (gtin_body cp item)) as CL.
  unfold complete in *. rewrite <- D in *. unfold gtin_body in *. destruct item as [|i item]; [congruence|].
  cbn [hd skipn nth_error of_option idx bind] in *. rewrite Z. cbn [bind].
  f_equal. f_equal. rewrite zfill_full.
  - cbn [app]. rewrite <- app_assoc. reflexivity.
  - cbn [forallb] in I. apply andb_true_iff in I as [I _]. exact I.
  - cbn [app] in CL. rewrite <- app_assoc in CL. rewrite CL, GL. lia.
Qed.

Ltac unmatched u := unfold bind, raise_if; let E := fresh "E" in
  match goal with |- context [fullmatch ?r u] => destruct (fullmatch r u) eqn:E end; cbn [negb].

Lemma component_iff s : s <> [] -> gs3a3_shape s = true -> (component s <-> verify_gs3a3_component s = Ok tt).
Proof.
  intros N S. unfold component. rewrite (verify_shape s S N), uri_text_iff. tauto.
Qed.
Lemma component_shape s : component s -> gs3a3_shape s = true /\ s <> [].
Proof. intros (N & T & _). split; [apply uri_text_iff, T|exact N]. Qed.
Lemma verify_raise s e : s <> [] -> gs3a3_shape s = true -> verify_gs3a3_component s = Raise e ->
  malformed_component s /\ (e = ConvertException \/ e = ValueError \/ e = OverflowError).
Proof.
  intros N S H. split.
  - split; [exact N|]. split; [apply uri_text_iff, S|]. intros X. apply (verify_shape s S N) in X. congruence.
  - destruct (verify_result s) as [V|(e' & V & E)]; [congruence|]. rewrite V in H. injection H as <-. exact E.
Qed.
Lemma bind_verify_ok {A} s (k : res A) x : s <> [] -> gs3a3_shape s = true ->
  ((let* _ := verify_gs3a3_component s in k) = Ok x <-> component s /\ k = Ok x).
Proof.
  intros N S. rewrite bind_ok, (component_iff s N S). split.
  - intros ([] & H & K). auto.
  - intros [H K]. exists tt. auto.
Qed.
Lemma bind_verify_raise {A} s (k : res A) e : s <> [] -> gs3a3_shape s = true -> (k = Raise e -> e = ConvertException) ->
  (let* _ := verify_gs3a3_component s in k) = Raise e ->
  e = ConvertException \/ ((e = ValueError \/ e = OverflowError) /\ malformed_component s).
Proof.
  intros N S K H. apply bind_raise in H as [H|(a & _ & H)]; [|left; auto].
  destruct (verify_raise _ _ N S H) as [M [->|E]]; auto.
Qed.

(** turn the program's length conditions into arithmetic *)
Ltac arith :=
  rewrite ?orb_false_iff, ?andb_true_iff, ?andb_false_iff, ?negb_false_iff, ?negb_true_iff, ?cpl_iff,
    ?Nat.eqb_eq, ?Nat.eqb_neq, ?Nat.ltb_ge, ?Nat.ltb_lt, ?Nat.leb_le, ?app_length, <- ?unescape_spec.

Lemma shape3_of p (e : bool) u cp item serial : u = p ++ cp ++ lit "." ++ item ++ lit "." ++ serial ->
  digits cp -> cp <> [] -> digits item -> (e = false -> item <> []) -> component serial -> shape3 p e u cp item serial.
Proof.
  intros -> C CN I IN S. apply component_shape in S as [S SN]. apply digits_iff in C, I.
  unfold shape3. auto 10.
Qed.

Lemma len_nonempty {A} (l : list A) : (1 <= length l)%nat -> l <> [].
Proof. destruct l; cbn; [lia|discriminate]. Qed.

(** the outcome of a constructor on a string without the shape *)
Definition refused3 {T} (init : str -> res T) (p : str) (e : bool) : Prop :=
  forall u, (exists cp item serial, shape3 p e u cp item serial) \/ init u = Raise ConvertException.

Lemma sgtin_cases : refused3 sgtin_init (lit "urn:epc:id:sgtin:") false.
Proof.
  intros u. destruct (fullmatch SGTIN_URI u) eqn:E; [left; apply match3, E|right].
  unfold sgtin_init. rewrite E. reflexivity.
Qed.

Theorem sgtin_iff u x : sgtin_init u = Ok x <->
  sgtin_uri u (sgtin_cp x) (sgtin_item x) (sgtin_serial x) /\ sgtin_epc_uri x = u /\
  exists i rest, sgtin_item x = i :: rest /\ completed (i :: sgtin_cp x ++ rest) (sgtin_gtin_ x).
Proof.
  split.
  - intros H. destruct (sgtin_cases u) as [(cp & item & serial & S)|R]; [|congruence].
    rewrite (sgtin_eval _ _ _ _ S) in H. destruct S as (U & C & CN & I & IN & G & GN).
    apply cond_ok in H as [L H]. apply bind_verify_ok in H as [V H]; [|assumption|assumption].
    apply cond_ok in H as [L2 H]. injection H as <-. cbn [sgtin_cp sgtin_item sgtin_serial sgtin_epc_uri sgtin_gtin_].
    specialize (IN eq_refl). revert L L2. arith. intros [L1 L2] L3.
    split; [|split; [reflexivity|]].
    + split; [exact U|]. repeat split; try (apply digits_iff; assumption); try apply V; try lia. apply unescape_nonempty, GN.
    + destruct item as [|i item]; [congruence|]. exists i, item. split; [reflexivity|]. apply completed_iff. reflexivity.
  - destruct x as [u' cp item serial g]. cbn [sgtin_cp sgtin_item sgtin_serial sgtin_epc_uri sgtin_gtin_].
    intros ((U & (C & CL) & I & L & V & SL) & -> & i & rest & -> & K).
    assert (S : shape3 (lit "urn:epc:id:sgtin:") false u cp (i :: rest) serial).
    { apply shape3_of; auto; [apply len_nonempty; lia|discriminate]. }
    rewrite (sgtin_eval _ _ _ _ S). destruct S as (_ & _ & _ & _ & _ & G & GN).
    apply cond_ok. split; [arith; split; lia|]. apply bind_verify_ok; [assumption|assumption|]. split; [exact V|].
    apply cond_ok. split; [arith; lia|]. apply completed_iff in K. subst g. reflexivity.
Qed.

Theorem sgtin_refusal u e : sgtin_init u = Raise e -> e = ConvertException \/
  ((e = ValueError \/ e = OverflowError) /\ exists cp item serial,
     u = lit "urn:epc:id:sgtin:" ++ cp ++ lit "." ++ item ++ lit "." ++ serial /\
     company_prefix cp /\ digits item /\ (length cp + length item = 13)%nat /\ malformed_component serial).
Proof.
  intros H. destruct (sgtin_cases u) as [(cp & item & serial & S)|R]; [|left; congruence].
  rewrite (sgtin_eval _ _ _ _ S) in H. destruct S as (U & C & CN & I & IN & G & GN).
  apply cond_raise in H as [[_ E]|[L H]]; [left; exact E|].
  apply bind_verify_raise in H; [|assumption|assumption|].
  - destruct H as [E|[E M]]; [left; exact E|right]. split; [exact E|]. revert L. arith. intros [L1 L2].
    exists cp, item, serial. apply digits_iff in C, I. unfold company_prefix. auto 10.
  - intros K. apply cond_raise in K as [[_ E]|[_ K]]; [exact E|discriminate].
Qed.

(** ** LGTIN *)
Lemma lgtin_eval u cp item lot : shape3 (lit "urn:epc:class:lgtin:") false u cp item lot ->
  lgtin_init u =
    (let* _ := verify_gs3a3_component lot in
     cond (negb (cp_len_ok cp)) (cond (negb (length (cp ++ item) =? 13)%nat)
      (cond (20 <? length (replace_uri_escapes lot))%nat
         (Ok (mkLgtin u cp item (unescape lot) (complete (gtin_body cp item))))))).
Proof.
  intros S. assert (M : fullmatch LGTIN_CLASS u = true) by (apply match3; eauto).
  unfold lgtin_init. rewrite M. split3 S up_lgtin.
  destruct S as (_ & C & _ & I & IN & G & GN). specialize (IN eq_refl).
  unfold cond at 1. destruct (verify_gs3a3_component lot) as [[]|e]; [|reflexivity]. cbn [bind].
  rewrite ?raise_if_cond. destruct (negb (cp_len_ok cp)); [reflexivity|]. cbn [cond].
  rewrite ?raise_if_cond. destruct (negb _) eqn:E; [reflexivity|]. cbn [cond].
  rewrite ?raise_if_cond. rewrite <- !unescape_spec. pose proof (unescape_nonempty _ GN) as L.
  replace (1 <=? length (unescape lot))%nat with true by (symmetry; apply Nat.leb_le, L).
  cbn [andb]. rewrite <- Nat.ltb_antisym. unfold cond. destruct (20 <? _)%nat; [reflexivity|].
  destruct (checksum_dec (gtin_body cp item)) as (z & Z & D); [apply gtin_body_digits; assumption|].
  apply negb_false_iff, Nat.eqb_eq in E. rewrite app_length in E.
  pose proof (gtin_body_length cp item IN) as GL. pose proof (complete_length (gtin_body cp item)) as CL.
  unfold complete in *. rewrite <- D in *. unfold gtin_body in *. destruct item as [|i item]; [congruence|].
  cbn [hd skipn nth_error of_option idx bind] in *. rewrite Z. cbn [bind].
  f_equal. f_equal. rewrite zfill_full.
  - cbn [app]. rewrite <- app_assoc. reflexivity.
  - cbn [forallb] in I. apply andb_true_iff in I as [I _]. exact I.
  - cbn [app] in CL. rewrite <- app_assoc in CL. rewrite CL, GL. lia.
Qed.
Lemma lgtin_cases : refused3 lgtin_init (lit "urn:epc:class:lgtin:") false.
Proof.
  intros u. destruct (fullmatch LGTIN_CLASS u) eqn:E; [left; apply match3, E|right].
  unfold lgtin_init. rewrite E. reflexivity.
Qed.
Theorem lgtin_iff u x : lgtin_init u = Ok x <->
  exists lot, lgtin_uri u (lgtin_cp x) (lgtin_item x) lot /\ lgtin_epc_uri x = u /\ lgtin_lot x = unescape lot /\
  exists i rest, lgtin_item x = i :: rest /\ completed (i :: lgtin_cp x ++ rest) (lgtin_gtin_ x).
Proof.
  split.
  - intros H. destruct (lgtin_cases u) as [(cp & item & serial & S)|R]; [|congruence].
    rewrite (lgtin_eval _ _ _ _ S) in H. destruct S as (U & C & CN & I & IN & G & GN).
    apply bind_verify_ok in H as [V H]; [|assumption|assumption].
    apply cond_ok in H as [L1 H]. apply cond_ok in H as [L2 H]. apply cond_ok in H as [L3 H].
    injection H as <-. cbn [lgtin_cp lgtin_item lgtin_lot lgtin_epc_uri lgtin_gtin_].
    specialize (IN eq_refl). revert L1 L2 L3. arith. intros L1 L2 L3. exists serial.
    split; [|split; [reflexivity|split; [reflexivity|]]].
    + split; [exact U|]. repeat split; try (apply digits_iff; assumption); try apply V; try lia. apply unescape_nonempty, GN.
    + destruct item as [|i item]; [congruence|]. exists i, item. split; [reflexivity|]. apply completed_iff. reflexivity.
  - destruct x as [u' cp item lot' g]. cbn [lgtin_cp lgtin_item lgtin_lot lgtin_epc_uri lgtin_gtin_].
    intros (lot & (U & (C & CL) & I & L & V & SL) & -> & -> & i & rest & -> & K).
    assert (S : shape3 (lit "urn:epc:class:lgtin:") false u cp (i :: rest) lot).
    { apply shape3_of; auto; [apply len_nonempty; lia|discriminate]. }
    rewrite (lgtin_eval _ _ _ _ S). destruct S as (_ & _ & _ & _ & _ & G & GN).
    apply bind_verify_ok; [assumption|assumption|]. split; [exact V|].
    apply cond_ok. split; [arith; lia|]. apply cond_ok. split; [arith; lia|].
    apply cond_ok. split; [arith; lia|]. apply completed_iff in K. subst g. reflexivity.
Qed.
Theorem lgtin_refusal u e : lgtin_init u = Raise e -> e = ConvertException \/
  ((e = ValueError \/ e = OverflowError) /\ exists cp item lot,
     u = lit "urn:epc:class:lgtin:" ++ cp ++ lit "." ++ item ++ lit "." ++ lot /\
     digits cp /\ digits item /\ malformed_component lot).
Proof.
  intros H. destruct (lgtin_cases u) as [(cp & item & serial & S)|R]; [|left; congruence].
  rewrite (lgtin_eval _ _ _ _ S) in H. destruct S as (U & C & CN & I & IN & G & GN).
  apply bind_verify_raise in H; [|assumption|assumption|].
  - destruct H as [E|[E M]]; [left; exact E|right]. split; [exact E|].
    exists cp, item, serial. apply digits_iff in C, I. auto.
  - intros K. repeat (apply cond_raise in K as [[_ E]|[_ K]]; [exact E|]). discriminate.
Qed.

(** ** SGLN *)
Lemma sgln_eval u cp loc ext : shape3 (lit "urn:epc:id:sgln:") true u cp loc ext ->
  sgln_init u =
    cond (negb (length (cp ++ loc) =? 12)%nat || negb (cp_len_ok cp) || (20 <? length (replace_uri_escapes ext))%nat)
      (let* _ := verify_gs3a3_component ext in Ok (mkSgln u cp loc ext (complete (cp ++ loc)))).
Proof.
  intros S. assert (M : fullmatch SGLN_URI u = true) by (apply match3e; eauto).
  unfold sgln_init. rewrite M. split3 S up_sgln.
  destruct S as (_ & C & _ & I & _).
  unfold cond at 1. destruct (_ || _) eqn:E; [reflexivity|]. cbn [cond].
  destruct (verify_gs3a3_component ext) as [[]|e]; [|reflexivity]. cbn [bind].
  destruct (checksum_dec (cp ++ loc)) as (z & Z & D); [rewrite forallb_app', C, I; reflexivity|].
  rewrite Z. cbn [bind]. unfold complete. rewrite <- D, <- app_assoc. reflexivity.
Qed.
Lemma sgln_cases : refused3 sgln_init (lit "urn:epc:id:sgln:") true.
Proof.
  intros u. destruct (fullmatch SGLN_URI u) eqn:E; [left; apply match3e, E|right].
  unfold sgln_init. rewrite E. reflexivity.
Qed.
Theorem sgln_iff u x : sgln_init u = Ok x <->
  sgln_uri u (sgln_cp x) (sgln_loc x) (sgln_serial x) /\ sgln_epc_uri x = u /\
  completed (sgln_cp x ++ sgln_loc x) (sgln_gln x).
Proof.
  split.
  - intros H. destruct (sgln_cases u) as [(cp & item & serial & S)|R]; [|congruence].
    rewrite (sgln_eval _ _ _ _ S) in H. destruct S as (U & C & CN & I & IN & G & GN).
    apply cond_ok in H as [L H]. apply bind_verify_ok in H as [V H]; [|assumption|assumption].
    injection H as <-. cbn [sgln_cp sgln_loc sgln_serial sgln_epc_uri sgln_gln].
    revert L. arith. intros [[L1 L2] L3].
    split; [|split; [reflexivity|apply completed_iff; reflexivity]].
    split; [exact U|]. repeat split; try (apply digits_iff; assumption); try apply V; try lia.
  - destruct x as [u' cp item serial g]. cbn [sgln_cp sgln_loc sgln_serial sgln_epc_uri sgln_gln].
    intros ((U & (C & CL) & I & L & V & SL) & -> & K).
    assert (S : shape3 (lit "urn:epc:id:sgln:") true u cp item serial).
    { apply shape3_of; auto; [apply len_nonempty; lia|discriminate]. }
    rewrite (sgln_eval _ _ _ _ S). destruct S as (_ & _ & _ & _ & _ & G & GN).
    apply cond_ok. split; [arith; repeat split; lia|]. apply bind_verify_ok; [assumption|assumption|]. split; [exact V|].
    apply completed_iff in K. subst g. reflexivity.
Qed.
Theorem sgln_refusal u e : sgln_init u = Raise e -> e = ConvertException \/
  ((e = ValueError \/ e = OverflowError) /\ exists cp loc ext,
     u = lit "urn:epc:id:sgln:" ++ cp ++ lit "." ++ loc ++ lit "." ++ ext /\
     company_prefix cp /\ digits loc /\ (length cp + length loc = 12)%nat /\ malformed_component ext).
Proof.
  intros H. destruct (sgln_cases u) as [(cp & item & serial & S)|R]; [|left; congruence].
  rewrite (sgln_eval _ _ _ _ S) in H. destruct S as (U & C & CN & I & IN & G & GN).
  apply cond_raise in H as [[_ E]|[L H]]; [left; exact E|].
  apply bind_verify_raise in H; [|assumption|assumption|discriminate].
  destruct H as [E|[E M]]; [left; exact E|right]. split; [exact E|]. revert L. arith. intros [[L1 L2] _].
  exists cp, item, serial. apply digits_iff in C, I. unfold company_prefix. auto 10.
Qed.

(** ** GRAI *)
Lemma grai_eval u cp asset serial : shape3 (lit "urn:epc:id:grai:") true u cp asset serial ->
  grai_init u =
    (let* _ := verify_gs3a3_component serial in
     cond (negb (length (cp ++ asset) =? 12)%nat || negb (cp_len_ok cp) || (16 <? length serial)%nat)
       (Ok (mkGrai u cp asset serial (complete (cp ++ asset) ++ unescape serial)))).
Proof.
  intros S. assert (M : fullmatch GRAI_URI u = true) by (apply match3e; eauto).
  unfold grai_init. rewrite M. split3 S up_grai.
  destruct S as (_ & C & _ & I & _). cbn [cond].
  destruct (verify_gs3a3_component serial) as [[]|e]; [|reflexivity]. cbn [bind].
  rewrite ?raise_if_cond. unfold cond. destruct (_ || _) eqn:E; [reflexivity|].
  destruct (checksum_dec (cp ++ asset)) as (z & Z & D); [rewrite forallb_app', C, I; reflexivity|].
  rewrite Z. cbn [bind]. unfold complete. rewrite <- D, <- !app_assoc, unescape_spec. reflexivity.
Qed.
Lemma grai_cases : refused3 grai_init (lit "urn:epc:id:grai:") true.
Proof.
  intros u. destruct (fullmatch GRAI_URI u) eqn:E; [left; apply match3e, E|right].
  unfold grai_init. rewrite E. reflexivity.
Qed.
Theorem grai_iff u x : grai_init u = Ok x <->
  grai_uri u (grai_cp x) (grai_asset x) (grai_serial x) /\ grai_epc_uri x = u /\
  exists k, completed (grai_cp x ++ grai_asset x) k /\ grai_grai x = k ++ unescape (grai_serial x).
Proof.
  split.
  - intros H. destruct (grai_cases u) as [(cp & item & serial & S)|R]; [|congruence].
    rewrite (grai_eval _ _ _ _ S) in H. destruct S as (U & C & CN & I & IN & G & GN).
    apply bind_verify_ok in H as [V H]; [|assumption|assumption]. apply cond_ok in H as [L H].
    injection H as <-. cbn [grai_cp grai_asset grai_serial grai_epc_uri grai_grai].
    revert L. arith. intros [[L1 L2] L3].
    split; [|split; [reflexivity|eexists; split; [apply completed_iff; reflexivity|reflexivity]]].
    split; [exact U|]. repeat split; try (apply digits_iff; assumption); try apply V; try lia.
  - destruct x as [u' cp item serial g]. cbn [grai_cp grai_asset grai_serial grai_epc_uri grai_grai].
    intros ((U & (C & CL) & I & L & V & SL) & -> & k & K & ->).
    assert (S : shape3 (lit "urn:epc:id:grai:") true u cp item serial).
    { apply shape3_of; auto; [apply len_nonempty; lia|discriminate]. }
    rewrite (grai_eval _ _ _ _ S). destruct S as (_ & _ & _ & _ & _ & G & GN).
    apply bind_verify_ok; [assumption|assumption|]. split; [exact V|].
    apply cond_ok. split; [arith; repeat split; lia|].
    apply completed_iff in K. subst k. reflexivity.
Qed.
Theorem grai_refusal u e : grai_init u = Raise e -> e = ConvertException \/
  ((e = ValueError \/ e = OverflowError) /\ exists cp asset serial,
     u = lit "urn:epc:id:grai:" ++ cp ++ lit "." ++ asset ++ lit "." ++ serial /\
     digits cp /\ digits asset /\ malformed_component serial).
Proof.
  intros H. destruct (grai_cases u) as [(cp & item & serial & S)|R]; [|left; congruence].
  rewrite (grai_eval _ _ _ _ S) in H. destruct S as (U & C & CN & I & IN & G & GN).
  apply bind_verify_raise in H; [|assumption|assumption|].
  - destruct H as [E|[E M]]; [left; exact E|right]. split; [exact E|].
    exists cp, item, serial. apply digits_iff in C, I. auto.
  - intros K. repeat (apply cond_raise in K as [[_ E]|[_ K]]; [exact E|]). discriminate.
Qed.

(** ** GDTI *)
Lemma gdti_eval u cp doc serial : shape3 (lit "urn:epc:id:gdti:") true u cp doc serial ->
  gdti_init u =
    (let* _ := verify_gs3a3_component serial in
     cond (negb (length (cp ++ doc) =? 12)%nat || (17 <? length serial)%nat || negb (cp_len_ok cp))
       (Ok (mkGdti u cp doc serial (complete (cp ++ doc) ++ unescape serial)))).
Proof.
  intros S. assert (M : fullmatch GDTI_URI u = true) by (apply match3e; eauto).
  unfold gdti_init. rewrite M. split3 S up_gdti.
  destruct S as (_ & C & _ & I & _). cbn [cond].
  destruct (verify_gs3a3_component serial) as [[]|e]; [|reflexivity]. cbn [bind].
  rewrite ?raise_if_cond. unfold cond. destruct (_ || _) eqn:E; [reflexivity|].
  destruct (checksum_dec (cp ++ doc)) as (z & Z & D); [rewrite forallb_app', C, I; reflexivity|].
  rewrite Z. cbn [bind]. unfold complete. rewrite <- D, <- !app_assoc, unescape_spec. reflexivity.
Qed.
Lemma gdti_cases : refused3 gdti_init (lit "urn:epc:id:gdti:") true.
Proof.
  intros u. destruct (fullmatch GDTI_URI u) eqn:E; [left; apply match3e, E|right].
  unfold gdti_init. rewrite E. reflexivity.
Qed.
Theorem gdti_iff u x : gdti_init u = Ok x <->
  gdti_uri u (gdti_cp x) (gdti_doc x) (gdti_serial x) /\ gdti_epc_uri x = u /\
  exists k, completed (gdti_cp x ++ gdti_doc x) k /\ gdti_gdti x = k ++ unescape (gdti_serial x).
Proof.
  split.
  - intros H. destruct (gdti_cases u) as [(cp & item & serial & S)|R]; [|congruence].
    rewrite (gdti_eval _ _ _ _ S) in H. destruct S as (U & C & CN & I & IN & G & GN).
    apply bind_verify_ok in H as [V H]; [|assumption|assumption]. apply cond_ok in H as [L H].
    injection H as <-. cbn [gdti_cp gdti_doc gdti_serial gdti_epc_uri gdti_gdti].
    revert L. arith. intros [[L1 L2] L3].
    split; [|split; [reflexivity|eexists; split; [apply completed_iff; reflexivity|reflexivity]]].
    split; [exact U|]. repeat split; try (apply digits_iff; assumption); try apply V; try lia.
  - destruct x as [u' cp item serial g]. cbn [gdti_cp gdti_doc gdti_serial gdti_epc_uri gdti_gdti].
    intros ((U & (C & CL) & I & L & V & SL) & -> & k & K & ->).
    assert (S : shape3 (lit "urn:epc:id:gdti:") true u cp item serial).
    { apply shape3_of; auto; [apply len_nonempty; lia|discriminate]. }
    rewrite (gdti_eval _ _ _ _ S). destruct S as (_ & _ & _ & _ & _ & G & GN).
    apply bind_verify_ok; [assumption|assumption|]. split; [exact V|].
    apply cond_ok. split; [arith; repeat split; lia|].
    apply completed_iff in K. subst k. reflexivity.
Qed.
Theorem gdti_refusal u e : gdti_init u = Raise e -> e = ConvertException \/
  ((e = ValueError \/ e = OverflowError) /\ exists cp doc serial,
     u = lit "urn:epc:id:gdti:" ++ cp ++ lit "." ++ doc ++ lit "." ++ serial /\
     digits cp /\ digits doc /\ malformed_component serial).
Proof.
  intros H. destruct (gdti_cases u) as [(cp & item & serial & S)|R]; [|left; congruence].
  rewrite (gdti_eval _ _ _ _ S) in H. destruct S as (U & C & CN & I & IN & G & GN).
  apply bind_verify_raise in H; [|assumption|assumption|].
  - destruct H as [E|[E M]]; [left; exact E|right]. split; [exact E|].
    exists cp, item, serial. apply digits_iff in C, I. auto.
  - intros K. repeat (apply cond_raise in K as [[_ E]|[_ K]]; [exact E|]). discriminate.
Qed.

(** ** UPUI *)
Lemma upui_eval u cp item tpx : shape3 (lit "urn:epc:id:upui:") true u cp item tpx ->
  upui_init u =
    (let* _ := verify_gs3a3_component tpx in
     cond (28 <? length (replace_uri_escapes tpx))%nat
       (cond (negb (length (cp ++ item) =? 13)%nat) (Ok (mkUpui u cp item (unescape tpx))))).
Proof.
  intros S. assert (M : fullmatch UPUI_URI u = true) by (apply match3e; eauto).
  unfold upui_init. rewrite M. split3 S up_upui.
  destruct S as (_ & C & _ & I & IN & G & GN). cbn [cond].
  destruct (verify_gs3a3_component tpx) as [[]|e]; [|reflexivity]. cbn [bind].
  rewrite ?raise_if_cond. rewrite <- !unescape_spec. pose proof (unescape_nonempty _ GN) as L.
  replace (1 <=? length (unescape tpx))%nat with true by (symmetry; apply Nat.leb_le, L).
  cbn [andb]. rewrite <- Nat.ltb_antisym. reflexivity.
Qed.
Lemma upui_cases : refused3 upui_init (lit "urn:epc:id:upui:") true.
Proof.
  intros u. destruct (fullmatch UPUI_URI u) eqn:E; [left; apply match3e, E|right].
  unfold upui_init. rewrite E. reflexivity.
Qed.
Theorem upui_iff u x : upui_init u = Ok x <->
  exists tpx, upui_uri u (upui_cp x) (upui_item x) tpx /\ upui_epc_uri x = u /\ upui_tpx x = unescape tpx.
Proof.
  split.
  - intros H. destruct (upui_cases u) as [(cp & item & serial & S)|R]; [|congruence].
    rewrite (upui_eval _ _ _ _ S) in H. destruct S as (U & C & CN & I & IN & G & GN).
    apply bind_verify_ok in H as [V H]; [|assumption|assumption].
    apply cond_ok in H as [L1 H]. apply cond_ok in H as [L2 H].
    injection H as <-. cbn [upui_cp upui_item upui_tpx upui_epc_uri].
    revert L1 L2. arith. intros L1 L2. exists serial.
    split; [|split; reflexivity].
    split; [exact U|]. repeat split; try (apply digits_iff; assumption); try apply V; try assumption; try lia.
    apply unescape_nonempty, GN.
  - destruct x as [u' cp item tpx' ]. cbn [upui_cp upui_item upui_tpx upui_epc_uri].
    intros (tpx & (U & C & CN & I & L & V & SL) & -> & ->).
    assert (S : shape3 (lit "urn:epc:id:upui:") true u cp item tpx) by (apply shape3_of; auto; discriminate).
    rewrite (upui_eval _ _ _ _ S). destruct S as (_ & _ & _ & _ & _ & G & GN).
    apply bind_verify_ok; [assumption|assumption|]. split; [exact V|].
    apply cond_ok. split; [arith; lia|]. apply cond_ok. split; [arith; lia|]. reflexivity.
Qed.
Theorem upui_refusal u e : upui_init u = Raise e -> e = ConvertException \/
  ((e = ValueError \/ e = OverflowError) /\ exists cp item tpx,
     u = lit "urn:epc:id:upui:" ++ cp ++ lit "." ++ item ++ lit "." ++ tpx /\
     digits cp /\ digits item /\ malformed_component tpx).
Proof.
  intros H. destruct (upui_cases u) as [(cp & item & serial & S)|R]; [|left; congruence].
  rewrite (upui_eval _ _ _ _ S) in H. destruct S as (U & C & CN & I & IN & G & GN).
  apply bind_verify_raise in H; [|assumption|assumption|].
  - destruct H as [E|[E M]]; [left; exact E|right]. split; [exact E|].
    exists cp, item, serial. apply digits_iff in C, I. auto.
  - intros K. repeat (apply cond_raise in K as [[_ E]|[_ K]]; [exact E|]). discriminate.
Qed.
