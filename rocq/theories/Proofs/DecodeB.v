(** Which exceptions from_binary() can raise on strings of bits. *)
From Coq Require Import String.
From Verif.Model Require Import Py Re Regexes Common Base.
From Verif.Model Require Import Adi Cpi Gdti Giai Gid Grai Gsrn Gsrnp Itip Sgcn Sgln Sgtin Sscc Usdod Parsers.
From Verif.Spec Require Import Spec SpecEscapes SpecGrammar SpecSchemes SpecTags SpecLayout SpecCoding.
From Verif.Proofs Require Import Basics Num ReLemmas Uni Escapes Codecs Codecs2 Partition Grammar Ctor CtorA CtorB CtorC CtorAll TagUri TagFits Layout BinC BinD Decode DecodeA.

Definition only_ce {A} (r : res A) : Prop := forall e, r = Raise e -> e = ConvertException.
Lemma only_ce_ok {A} (a : A) : only_ce (Ok a).
Proof. intros e H. discriminate. Qed.
Lemma only_ce_ce {A} : only_ce (@Raise A ConvertException).
Proof. intros e H. now injection H. Qed.
Lemma only_ce_bind {A B} (r : res A) (f : A -> res B) : only_ce r -> (forall a, r = Ok a -> only_ce (f a)) -> only_ce (bind r f).
Proof. intros H K. destruct r as [a|e]; cbn [bind]; [now apply K|]. intros e' E. apply H. injection E as ->. reflexivity. Qed.
Lemma only_ce_if (b : bool) : only_ce (raise_if b ConvertException).
Proof. destruct b; [apply only_ce_ce|apply only_ce_ok]. Qed.
Lemma only_ce_dotted a b : only_ce a -> only_ce b -> only_ce (dotted2 a b).
Proof. intros A B. apply only_ce_bind; [exact A|]. intros x _. apply only_ce_bind; [exact B|]. intros y _. apply only_ce_ok. Qed.

Lemma numeric_text_bits b : b <> [] -> forallb is_bit b = true -> numeric_text b = Ok (ndec (sval 2 b)).
Proof. intros N B. unfold numeric_text. rewrite binary_to_int_spec by assumption. cbn [bind]. now rewrite dec_of_N. Qed.
Lemma nonempty_len {A} (l : list A) : (0 < length l)%nat -> l <> [].
Proof. destruct l; cbn; [lia|discriminate]. Qed.

Lemma ce_numeric b : (0 < length b)%nat -> forallb is_bit b = true -> only_ce (numeric_text b).
Proof. intros L B. rewrite numeric_text_bits by auto using nonempty_len. apply only_ce_ok. Qed.
Lemma ce_string b : forallb is_bit b = true -> only_ce (decode_string b).
Proof. intros B. rewrite decode_string_bits by exact B. apply only_ce_ok. Qed.
Lemma ce_six b k : forallb is_bit b = true -> only_ce (decode_string_six_bits b k).
Proof. intros B. rewrite decode_six_bits by exact B. cbn zeta. destruct (_ <? _)%nat; [apply only_ce_ce|apply only_ce_ok]. Qed.
Lemma ce_fixed b : (0 < length b <= 4300)%nat -> forallb is_bit b = true -> only_ce (decode_fixed_width_integer b).
Proof. intros L B. rewrite decode_fixed_bits by (auto || (apply nonempty_len; lia) || (apply (intable_le _ 4300); lia)). destruct (_ <=? _); [apply only_ce_ce|apply only_ce_ok]. Qed.
Lemma ce_numeric_string b : (0 < length b <= 4300)%nat -> forallb is_bit b = true -> only_ce (decode_numeric_string b).
Proof.
  intros L B. rewrite decode_numeric_bits by (auto || (apply nonempty_len; lia) || (apply (intable_le _ 4300); lia)).
  destruct (ndec _) as [|c [|d s]]; try apply only_ce_ce. destruct (c =? c_1); [apply only_ce_ok|apply only_ce_ce].
Qed.
Lemma ce_cage b : forallb is_bit b = true -> (length b mod 8 = 0)%nat -> only_ce (decode_cage_code b).
Proof. intros B L. rewrite decode_cage_whole by assumption. apply only_ce_ok. Qed.
Lemma ce_cage6 b : forallb is_bit b = true -> only_ce (decode_cage_code_six_bits b).
Proof.
  intros B. unfold decode_cage_code_six_bits. destruct (startswith _ b); [|now apply ce_six]. apply ce_six. now apply forallb_skipn.
Qed.
Lemma ce_partition b rows (unp sp six : bool) : rows_ok rows = true -> forallb is_bit b = true ->
  (3 < length b)%nat -> ((sp || six)%bool = false -> forall r, In r rows -> (3 + rM r < length b /\ rN r <= 4300)%nat) ->
  only_ce (decode_partition_table b (table_P rows) unp sp six).
Proof.
  intros R B L K. unfold decode_partition_table.
  rewrite binary_to_int_spec; [|apply nonempty_len; rewrite firstn_length; lia|now apply forallb_firstn]. cbn [bind].
  destruct (lookup _ _) as [r|] eqn:E; [|apply only_ce_ce]. cbn [of_option bind].
  apply lookup_P in E as (I & _ & _ & F); [|exact R]. destruct F as (_ & _ & M1 & N1 & _).
  rewrite (int_sl 3 (3 + rM r)) by (assumption || lia). cbn [bind].
  apply only_ce_bind.
  - destruct sp; [now apply ce_string, forallb_sl|]. destruct six; [now apply ce_six, forallb_sl|].
    destruct (rK r =? 0)%nat; cbn [negb]; [apply only_ce_ok|]. specialize (K eq_refl r I).
    rewrite int_sl by (assumption || lia). apply only_ce_ok.
  - intros d Ed. apply only_ce_bind; [apply only_ce_if|]. intros _ _. apply only_ce_bind; [|intros; apply only_ce_ok].
    destruct (negb _ && negb _) eqn:C; [|apply only_ce_ok]. apply andb_true_iff in C as [Cd C].
    apply negb_true_iff, orb_false_iff in C as [C Cs]. apply orb_false_iff in C as [_ Cp]. subst sp six.
    destruct (rK r =? 0)%nat; cbn [negb] in Ed; [injection Ed as <-; discriminate Cd|].
    specialize (K eq_refl r I). rewrite int_sl in Ed by (assumption || lia). cbn [bind] in Ed. injection Ed as <-.
    rewrite dec_of_N, int10_spec; [apply only_ce_if|apply ndec_nonempty|apply ndec_digits|].
    apply (intable_ndec _ (rN r)); [|lia]. eapply N.lt_le_trans; [apply sval_bound, forallb_bit_in_base2; now apply forallb_sl|].
    apply N.pow_le_mono_r; [lia|]. unfold sl. rewrite firstn_length. lia.
Qed.

Lemma rows_in_dec rows (p : row -> bool) : forallb p rows = true -> forall r, In r rows -> p r = true.
Proof. intros H. now apply forallb_forall. Qed.
Ltac rowlen rows L := let r := fresh in let I := fresh in intros _ r I;
  let H := fresh in assert (H : ((rM r <=? 40) && (rN r <=? 200))%nat = true) by (revert r I; apply (rows_in_dec rows (fun r => ((rM r <=? 40) && (rN r <=? 200))%nat)); vm_compute; reflexivity);
  apply andb_true_iff in H; rewrite !Nat.leb_le in H; rewrite ?firstn_length, ?skipn_length, ?L; lia.

Definition body_len (k : coding) : option nat := match tag_size k with Some n => Some (n - 8 - filter_width k)%nat | None => None end.

Lemma adi_zeros s : rmatch adi_terminator s = true -> exists a r, s = a ++ lit "000000" ++ r.
Proof.
  intros H. apply rmatch_lang in H as (p & q & -> & H). unfold adi_terminator, rseq in H. cbn [fold_right] in H.
  apply lang_seq in H as (a & x & -> & _ & H). apply lang_seq in H as (y & z & -> & H & _).
  unfold rplus in H. apply lang_seq in H as (u & v & -> & H & _).
  apply lang_rep_set in H as [L Z].
  exists a, (v ++ z ++ q). rewrite <- !app_assoc. f_equal. f_equal.
  destruct u as [|u1 [|u2 [|u3 [|u4 [|u5 [|u6 [|]]]]]]]; try discriminate L. cbn [forallb] in Z.
  rewrite !andb_true_iff, !N.eqb_eq in Z. destruct Z as (<- & <- & <- & <- & <- & <- & _). reflexivity.
Qed.
Lemma adi_pieces s : forallb is_bit s = true -> rmatch adi_terminator s = true -> exists p y l,
  re_split_cap m_zeros6 s = p :: y :: l /\ forallb is_bit p = true /\ forallb is_bit (concat l) = true.
Proof.
  intros B H. apply adi_zeros in H as (a & r & E).
  destruct (split_first m_zeros6 5 (length a) s []) as (p & y & l & _ & S).
  - reflexivity.
  - rewrite E, skipn_app, skipn_all, Nat.sub_diag. cbn [skipn app]. reflexivity.
  - cbn [rev app] in S. exists (firstn p s), y, l. split; [exact S|]. split; [now apply forallb_firstn|].
    pose proof (concat_split m_zeros6 s [] 0) as C. rewrite S in C. cbn [concat rev app skipn] in C.
    rewrite <- C in B. rewrite !forallb_app, !andb_true_iff in B. tauto.
Qed.

Lemma serial_loop_bit gs (b : bool) : forallb is_bit (concat gs) = true -> forallb is_bit (cpi_serial_loop gs b) = true.
Proof.
  revert b. induction gs as [|g gs IH]; intros b H; [reflexivity|]. cbn [concat] in H. rewrite forallb_app in H. apply andb_true_iff in H as [G H].
  cbn [cpi_serial_loop]. rewrite forallb_app, IH by exact H. destruct b; [now rewrite G|reflexivity].
Qed.
Lemma body_ce k r : forallb is_bit r = true -> match body_len k with Some n => length r = n | None => (3 < length r)%nat \/ k = K_ADI_VAR end ->
  only_ce (k_body k r).
Proof.
  intros B L. destruct k; cbn [body_len tag_size filter_width Nat.sub] in L; cbn [k_body].
  Ltac bits := first [assumption|apply forallb_firstn; assumption|apply forallb_skipn; assumption|apply forallb_sl; assumption].
  Ltac lens L := rewrite ?firstn_length, ?skipn_length, ?length_sl, ?L; lia.
  Ltac part rows L := apply (ce_partition _ rows); [vm_compute; reflexivity|bits|lens L|rowlen rows L].
  Ltac ce L := first [apply ce_numeric; [lens L|bits]|apply ce_string; bits|apply ce_fixed; [lens L|bits]|apply ce_numeric_string; [lens L|bits]|idtac].
  all: try (apply only_ce_dotted; ce L).
  all: try (apply only_ce_dotted; ce L).
  all: try (apply only_ce_dotted; ce L).
  - part gdti_rows L.
  - part gsrn_rows L.
  - part gsrnp_rows L.
  - apply ce_cage; [bits|]. rewrite firstn_length, L. reflexivity.
  - part sgtin_rows L.
  - part sscc_rows L.
  - part sgln_rows L.
  - part grai_rows L.
  - part giai_rows_96 L.
  - part sgtin_rows L.
  - part grai_rows L.
  - part giai_rows_202 L.
  - part sgln_rows L.
  - destruct (rmatch adi_terminator (skipn 36 r)) eqn:E; [|apply only_ce_ce]. cbn [negb raise_if bind].
    apply adi_pieces in E as (p & y & l & -> & P1 & P2); [|bits]. cbn [unpack2_rest bind].
    apply only_ce_dotted; [apply ce_cage6; bits|]. apply only_ce_dotted; [apply ce_six; exact P1|]. apply ce_six. unfold drop_last. now apply forallb_firstn.
  - part cpi_rows_96 L.
  - destruct L as [L|L]; [|discriminate L].
    apply only_ce_bind; [apply (ce_partition _ cpi_rows_var); [vm_compute; reflexivity|bits|lia|discriminate]|].
    intros a Ea. rewrite binary_to_int_spec; [|apply nonempty_len; rewrite firstn_length; lia|bits]. cbn [bind].
    unfold decode_partition_table in Ea. rewrite binary_to_int_spec in Ea; [|apply nonempty_len; rewrite firstn_length; lia|bits]. cbn [bind] in Ea.
    destruct (lookup _ _) as [q|]; [|discriminate Ea]. cbn [of_option bind].
    rewrite binary_to_int_spec; [apply only_ce_ok| |].
    + set (s := cpi_serial_loop _ _). destruct (0 <? length s)%nat eqn:E; [|discriminate]. apply Nat.ltb_lt in E. apply nonempty_len. rewrite firstn_length. lia.
    + set (s := cpi_serial_loop _ _). destruct (0 <? length s)%nat; [|reflexivity]. apply forallb_firstn. apply serial_loop_bit.
      unfold re_split_cap. rewrite concat_split. cbn [rev app skipn]. bits.
  - part gdti_rows L.
  - part sgcn_rows L.
  - part itip_rows L.
  - part itip_rows L.
Qed.

(** * What the constructors make of decoded text *)
Lemma no_pct_component s : ~ In 37 s -> ~ malformed_component s.
Proof.
  intros H (N & _ & M). apply M. destruct s as [|c p]; [contradiction|].
  rewrite <- (app_nil_r (c :: p)). apply escapes_ok_plain; [intros ->; apply H; now left| |now left|constructor].
  intros (a & d1 & d2 & b & E & _). apply H. rewrite E. apply in_or_app. right. now left.
Qed.
Lemma init_no_pct c body : c <> C_GID -> c <> C_USDOD -> ~ In 37 body -> only_ce (init_of c (scheme_prefix c ++ body)).
Proof.
  intros G U H e E. apply init_exn in E as [E|[(_ & a & s & r & E & M & _)|(_ & [E|E] & _)]]; [exact E| |contradiction|contradiction].
  apply app_inv_head in E. subst body. exfalso. apply (no_pct_component s); [|exact M].
  intros I. apply H. apply in_or_app. right. apply in_or_app. now left.
Qed.
Lemma init_plain_class c u : In c [C_ADI; C_CPI; C_GSRN; C_GSRNP; C_SGCN; C_SSCC] -> only_ce (init_of c u).
Proof.
  intros I e H. destruct c; try (cbn in I; intuition discriminate); cbn [init_of] in H; apply lift_raise in H.
  - exact (adi_refusal _ _ H).
  - exact (cpi_refusal _ _ H).
  - exact (gsrn_refusal _ _ H).
  - exact (gsrnp_refusal _ _ H).
  - exact (sgcn_refusal _ _ H).
  - exact (sscc_refusal _ _ H).
Qed.
Lemma init_short c body : In c [C_GID; C_USDOD] -> (length body <= 4300)%nat -> only_ce (init_of c (scheme_prefix c ++ body)).
Proof.
  intros I L e E. destruct I as [<-|[<-|[]]]; cbn [init_of scheme_prefix] in E; apply lift_raise in E.
  - apply gid_refusal in E as [E|(_ & p & s & r & E & _ & M)]; [exact E|exfalso]. apply app_inv_head in E. subst body. rewrite !app_length in L. lia.
  - apply usdod_refusal in E as [E|(_ & p & s & E & _ & M)]; [exact E|exfalso]. apply app_inv_head in E. subst body. rewrite !app_length in L. lia.
Qed.

Definition no_pct (s : str) : bool := forallb (fun c => negb (c =? 37)) s.
Lemma no_pct_in s : no_pct s = true -> ~ In 37 s.
Proof. intros H I. unfold no_pct in H. rewrite forallb_forall in H. apply H in I. discriminate. Qed.
Lemma no_pct_digits s : forallb is_digit s = true -> no_pct s = true.
Proof.
  unfold no_pct. rewrite !forallb_forall. intros H x I. apply H in I. apply negb_true_iff, N.eqb_neq. intros ->. discriminate.
Qed.
Lemma no_pct_app a b : no_pct (a ++ b) = no_pct a && no_pct b.
Proof. apply forallb_app. Qed.
Lemma no_pct_ndec n : no_pct (ndec n) = true.
Proof. apply no_pct_digits, ndec_digits. Qed.
Lemma no_pct_padl k s : no_pct s = true -> no_pct (padl c_0 k s) = true.
Proof. intros H. now apply forallb_padl. Qed.

Lemma dotted2_ok a b s : dotted2 a b = Ok s -> exists x y, a = Ok x /\ b = Ok y /\ s = x ++ [c_dot] ++ y.
Proof. unfold dotted2. destruct a as [x|]; [|discriminate]. destruct b as [y|]; [|discriminate]. cbn [bind]. intros H. injection H as <-. eauto. Qed.
Lemma partition_no_pct b rows (unp : bool) w s : rows_ok rows = true -> forallb is_bit b = true -> (forall r, In r rows -> (rM r + rN r <= w)%nat) ->
  (w <= 4300)%nat -> (3 + w <= length b)%nat -> decode_partition_table b (table_P rows) unp false false = Ok s -> no_pct s = true.
Proof.
  intros R B W W' L H. rewrite (decode_num rows b unp w) in H by assumption.
  destruct (lookup _ _) as [r|]; [|discriminate H]. cbn zeta in H. destruct (_ && _); [|discriminate H].
  injection H as <-. rewrite !no_pct_app. rewrite no_pct_padl by apply no_pct_ndec. cbn [no_pct forallb andb].
  destruct (rK r =? 0)%nat; [reflexivity|]. change (no_pct (c_dot :: padl c_0 (if unp then 0%nat else rK r) (ndec (sval 2 (sl (3 + rM r) (3 + rM r + rN r) b)))) = true).
  apply (no_pct_padl _ _ (no_pct_ndec _)).
Qed.

Lemma after_filter_length k n b : tag_size k = Some n -> too_short k b = false -> length (after_filter k b) = (n - 8 - filter_width k)%nat.
Proof. intros S T. unfold after_filter. rewrite skipn_length, (cut_length k b n S T). lia. Qed.
Lemma after_filter_bit k b : forallb is_bit b = true -> forallb is_bit (after_filter k b) = true.
Proof. intros B. apply forallb_skipn, cut_bit, B. Qed.

Lemma body_no_pct k r s : In k [K_SGTIN_96; K_SGLN_96; K_GRAI_96; K_GDTI_96; K_ITIP_110; K_GIAI_96] -> forallb is_bit r = true ->
  body_len k = Some (length r) -> k_body k r = Ok s -> no_pct s = true.
Proof.
  intros I B L H.
  Ltac np rows w L H := apply (partition_no_pct _ rows _ w) in H; [|vm_compute; reflexivity|bits| |lia|rewrite ?firstn_length, <- ?L; lia];
    [|intros q Q; apply Nat.leb_le; revert q Q; apply (rows_in_dec rows (fun r => (rM r + rN r <=? w)%nat)); vm_compute; reflexivity].
  Ltac nt H L := rewrite numeric_text_bits in H by (bits || (apply nonempty_len; rewrite skipn_length, <- L; lia)); injection H as <-.
  Ltac fl x b H := rewrite decode_fixed_bits in H by (bits || (apply nonempty_len; rewrite length_sl; lia) || (apply (intable_le _ 4300); rewrite ?length_sl; lia)); destruct (_ <=? _) in H; [discriminate H|]; injection H as <-.
  destruct k; try (cbn in I; intuition discriminate); cbn [body_len tag_size filter_width Nat.sub] in L; cbn [k_body] in H; injection L as L.
  - apply dotted2_ok in H as (x & y & X & Y & ->). np gdti_rows 41%nat L X. nt Y L. rewrite !no_pct_app, X, no_pct_ndec. reflexivity.
  - apply dotted2_ok in H as (x & y & X & Y & ->). np sgtin_rows 44%nat L X. nt Y L. rewrite !no_pct_app, X, no_pct_ndec. reflexivity.
  - apply dotted2_ok in H as (x & y & X & Y & ->). np sgln_rows 41%nat L X. nt Y L. rewrite !no_pct_app, X, no_pct_ndec. reflexivity.
  - apply dotted2_ok in H as (x & y & X & Y & ->). np grai_rows 44%nat L X. nt Y L. rewrite !no_pct_app, X, no_pct_ndec. reflexivity.
  - np giai_rows_96 82%nat L H. exact H.
  - apply dotted2_ok in H as (x & y & X & Y & ->). apply dotted2_ok in Y as (y1 & z & Y1 & Z & ->). apply dotted2_ok in Z as (z1 & v & Z1 & V & ->).
    np itip_rows 44%nat L X. nt V L. fl y1 b Y1. fl z1 b Z1.
    rewrite !no_pct_app, X, no_pct_ndec, !no_pct_padl by apply no_pct_ndec. reflexivity.
Qed.

Lemma chunks_few n s : (1 <= n)%nat -> (length (chunks n s) <= length s)%nat.
Proof.
  intros Hn. revert s. refine (chunks_ind n _ Hn _ _).
  - intros s H. rewrite chunks_short by assumption. cbn. lia.
  - intros a s A IH. rewrite chunks_app by assumption. rewrite app_length. cbn [length]. lia.
Qed.
Lemma filter_few {A} (f : A -> bool) l : (length (filter f l) <= length l)%nat.
Proof. induction l as [|a l IH]; [apply le_n|]. cbn [filter]. destruct (f a); cbn [length]; lia. Qed.
Lemma numeric_text_few b k s : forallb is_bit b = true -> length b = S k -> (S k <= 100)%nat -> numeric_text b = Ok s -> (length s <= 100)%nat.
Proof.
  intros B L K E. rewrite numeric_text_bits in E by (exact B || (apply nonempty_len; lia)). injection E as <-.
  apply ndec_length; [lia|]. eapply N.lt_le_trans; [apply sval_bound, forallb_bit_in_base2, B|]. rewrite L.
  eapply N.le_trans; [apply (N.pow_le_mono_r 2 _ 100); lia|]. vm_compute. discriminate.
Qed.
Lemma body_few k r s : k = K_GID_96 \/ k = K_USDOD_96 -> forallb is_bit r = true -> body_len k = Some (length r) -> k_body k r = Ok s ->
  (length s <= 4300)%nat.
Proof.
  intros K B L H. destruct K as [-> | ->]; cbn [body_len tag_size filter_width Nat.sub] in L; cbn [k_body] in H; injection L as L.
  - apply dotted2_ok in H as (x & y & X & Y & ->). apply dotted2_ok in Y as (y1 & z & Y1 & Z & ->).
    apply (numeric_text_few _ 27) in X; [|bits|rewrite firstn_length, <- L; reflexivity|lia].
    apply (numeric_text_few _ 23) in Y1; [|bits|rewrite length_sl, <- L; reflexivity|lia].
    apply (numeric_text_few _ 35) in Z; [|bits|rewrite skipn_length, <- L; reflexivity|lia].
    rewrite !app_length. cbn [length]. lia.
  - apply dotted2_ok in H as (x & y & X & Y & ->).
    apply (numeric_text_few _ 35) in Y; [|bits|rewrite skipn_length, <- L; reflexivity|lia].
    rewrite decode_cage_whole in X by (bits || (rewrite firstn_length, <- L; reflexivity)). assert (X' : forall a b : str, Ok a = Ok b -> b = a) by congruence. apply X' in X. subst x.
    rewrite replace_space, !app_length. cbn [length].
    pose proof (filter_few (fun c => negb (c =? c_space)) (map (sval 2) (chunks 8 (firstn 48 r)))) as Q. rewrite map_length in Q.
    pose proof (chunks_few 8 (firstn 48 r) ltac:(lia)) as Q2. rewrite firstn_length in Q2. lia.
Qed.

Theorem decode_exn k b e : forallb is_bit b = true -> firstn 8 b = tag_header k -> from_binary_of (tag_class k) b = Raise e ->
  e = ConvertException \/ (seven_bit k = true /\ (e = ValueError \/ e = OverflowError)) \/
  (k = K_CPI_VAR /\ e = ValueError /\ (length b < 15)%nat).
Proof.
  intros B H E. rewrite (from_binary_body k b B H) in E. destruct (too_short k b) eqn:T; [left; now injection E|].
  pose proof (after_filter_bit k b B) as Ba.
  destruct (k_body k (after_filter k b)) as [r|e'] eqn:K.
  - cbn [bind] in E. destruct (seven_bit k) eqn:S.
    { apply init_exn in E as [E|[([E|E] & _)|(E & _)]]; auto. }
    assert (Q : only_ce (init_of (tag_class k) (scheme_prefix (tag_class k) ++ r))); [|left; exact (Q e E)].
    destruct k; try discriminate S; cbn [tag_class]; try (apply init_plain_class; cbn; tauto);
      try (apply init_short; [cbn; tauto|]; (eapply body_few; [|exact Ba| |exact K]; [auto|]);
        unfold body_len; cbn [tag_size]; f_equal; symmetry; apply after_filter_length; (exact T || reflexivity));
      (apply init_no_pct; [discriminate|discriminate|]); apply no_pct_in; (eapply body_no_pct; [|exact Ba| |exact K]; [cbn; tauto|]);
      unfold body_len; cbn [tag_size]; f_equal; symmetry; apply after_filter_length; (exact T || reflexivity).
  - cbn [bind] in E. injection E as <-.
    assert (D : (exists n, tag_size k = Some n) \/ k = K_ADI_VAR \/ k = K_CPI_VAR) by (destruct k; cbn; eauto).
    destruct D as [[n S]|[->| ->]].
    + left. revert K. apply body_ce; [exact Ba|]. unfold body_len. rewrite S. now apply after_filter_length.
    + left. revert K. apply body_ce; [exact Ba|]. cbn. auto.
    + destruct (Nat.ltb_spec 14 (length b)) as [L|L].
      * left. revert K. apply body_ce; [exact Ba|]. cbn [body_len tag_size]. left. unfold after_filter. rewrite skipn_length. cbn [cut tag_size filter_width]. lia.
      * cbn [k_body] in K. unfold after_filter in *. cbn [cut tag_size filter_width Nat.add] in *. set (r := skipn 11 b) in *.
        unfold decode_partition_table in K. destruct (Nat.ltb_spec 0 (length r)) as [Lr|Lr].
        -- rewrite binary_to_int_spec in K; [|apply nonempty_len; rewrite firstn_length; lia|bits]. cbn [bind] in K.
           destruct (lookup _ _) as [q|]; [|left; now injection K]. cbn [of_option bind] in K.
           replace (sl 3 (3 + rM q) r) with (@nil N) in K; [right; right; split; [reflexivity|]; split; [now injection K|lia]|].
           symmetry. apply length_zero_iff_nil. rewrite length_sl. unfold r. rewrite skipn_length. lia.
        -- destruct r; [|cbn in Lr; lia]. right. right. split; [reflexivity|]. split; [now injection K|lia].
Qed.

Theorem cpi_var_short b : firstn 8 b = tag_header K_CPI_VAR -> forallb is_bit b = true -> (length b < 15)%nat ->
  skipn 11 b <> lit "111" -> cpi_from_binary b = Raise ValueError.
Proof.
  intros H B L N. pose proof (from_binary_body K_CPI_VAR b B H) as E. cbn [tag_class from_binary_of too_short tag_size] in E.
  assert (Q : k_body K_CPI_VAR (after_filter K_CPI_VAR b) = Raise ValueError).
  { unfold after_filter. cbn [cut tag_size filter_width Nat.add]. set (r := skipn 11 b) in *.
    assert (Br : forallb is_bit r = true) by now apply forallb_skipn.
    assert (Lr : (length r <= 3)%nat) by (unfold r; rewrite skipn_length; lia). clearbody r. clear - N Br Lr.
    assert (bitp : forall x, is_bit x = true -> x = 48 \/ x = 49).
    { intros x Hx. apply bitstring_iff with (s := [x]); [cbn; now rewrite Hx|now left]. }
    destruct r as [|x [|y [|z [|]]]]; cbn [forallb] in Br; try reflexivity; cbn in Lr; try lia;
      rewrite ?andb_true_iff in Br; repeat match goal with H : _ /\ _ |- _ => destruct H end;
      repeat match goal with H : is_bit _ = true |- _ => apply bitp in H as [->| ->] end; try reflexivity; contradiction N; reflexivity. }
  rewrite Q in E. cbn [bind] in E. now apply lift_raise in E.
Qed.
