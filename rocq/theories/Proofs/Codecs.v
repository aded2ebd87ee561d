(** The field codecs of common.py. *)
From Coq Require Import String.
From Verif.Model Require Import Py Re Regexes Common Base.
From Verif.Spec Require Import Spec.
From Verif.Proofs Require Import Basics Num Uni Escapes ReLemmas.

Ltac Zify.zify_post_hook ::= Z.div_mod_to_equations.

(** * concat_map_res *)

Lemma cmr_app {A} (f : A -> res str) l1 l2 r1 : concat_map_res f l1 = Ok r1 ->
  concat_map_res f (l1 ++ l2) = let* r2 := concat_map_res f l2 in Ok (r1 ++ r2).
Proof.
  revert r1; induction l1 as [|x l1 IH]; intros r1 H; cbn [concat_map_res app] in *.
  - injection H as <-. cbn. destruct (concat_map_res f l2); reflexivity.
  - destruct (f x) as [y|e]; cbn [bind] in *; [|discriminate].
    destruct (concat_map_res f l1) as [ys|e]; cbn [bind] in *; [|discriminate].
    injection H as <-. rewrite (IH ys eq_refl). destruct (concat_map_res f l2); cbn; [|reflexivity].
    now rewrite app_assoc.
Qed.

Lemma cmr_ok {A} (f : A -> res str) (g : A -> str) l : (forall x, In x l -> f x = Ok (g x)) ->
  concat_map_res f l = Ok (flat_map g l).
Proof.
  induction l as [|x l IH]; intros H; [reflexivity|]. cbn. rewrite (H x (or_introl eq_refl)). cbn.
  rewrite IH by (intros; apply H; now right). reflexivity.
Qed.

(** * chunks *)

(** the whole [n]-character groups of a text *)
Fixpoint chunks_aux (fuel n : nat) (s : str) : list str :=
  match fuel with
  | O => []
  | S k => if (n <=? length s)%nat then firstn n s :: chunks_aux k n (skipn n s) else []
  end.
Definition chunks (n : nat) (s : str) : list str := chunks_aux (length s) n s.

Lemma chunks_aux_fuel n s k1 k2 : (1 <= n)%nat -> (length s <= k1)%nat -> (length s <= k2)%nat ->
  chunks_aux k1 n s = chunks_aux k2 n s.
Proof.
  intros Hn. revert s k2; induction k1 as [|k1 IH]; intros s k2 H1 H2.
  - destruct s; [|cbn in H1; lia]. destruct k2; [reflexivity|]. cbn. destruct n; [lia|reflexivity].
  - destruct k2 as [|k2].
    + destruct s; [|cbn in H2; lia]. cbn. destruct n; [lia|reflexivity].
    + cbn. destruct (Nat.leb_spec n (length s)); [|reflexivity]. f_equal. apply IH; rewrite skipn_length; lia.
Qed.

Lemma chunks_app n a s : (1 <= n)%nat -> length a = n -> chunks n (a ++ s) = a :: chunks n s.
Proof.
  intros Hn Ha. unfold chunks. rewrite app_length. destruct (length a + length s)%nat eqn:E; [lia|].
  cbn [chunks_aux]. rewrite app_length. replace (n <=? length a + length s)%nat with true by lia.
  rewrite firstn_exact, skipn_exact by exact Ha. f_equal. apply chunks_aux_fuel; lia.
Qed.

Lemma chunks_short n s : (1 <= n)%nat -> (length s < n)%nat -> chunks n s = [].
Proof. intros Hn H. unfold chunks. destruct (length s) eqn:E; [reflexivity|]. cbn. rewrite E. replace (n <=? S n0)%nat with false by lia. reflexivity. Qed.

Lemma chunks_ind n (P : str -> Prop) : (1 <= n)%nat ->
  (forall s, (length s < n)%nat -> P s) -> (forall a s, length a = n -> P s -> P (a ++ s)) -> forall s, P s.
Proof.
  intros Hn H0 H1 s. induction s as [s IH] using str_ind2.
  destruct (Nat.lt_ge_cases (length s) n) as [H|H]; [now apply H0|].
  rewrite <- (firstn_skipn n s). apply H1; [rewrite firstn_length; lia|].
  apply IH. rewrite skipn_length. lia.
Qed.

Lemma chunks_forallb (p : N -> bool) n s : (1 <= n)%nat -> forallb p s = true ->
  forall c, In c (chunks n s) -> length c = n /\ forallb p c = true.
Proof.
  intros Hn. revert s. refine (chunks_ind n _ _ _ _); [exact Hn|intros s H|intros a s Ha IH]; intros Hp c Hc.
  - rewrite chunks_short in Hc by assumption. destruct Hc.
  - rewrite chunks_app in Hc by assumption. rewrite forallb_app in Hp. apply andb_true_iff in Hp.
    destruct Hc as [<-|Hc]; [tauto|]. now apply IH.
Qed.

Lemma seqmatch_repeat p n s : seqmatch (repeat p n) s = true <-> (n <= length s)%nat /\ forallb p (firstn n s) = true.
Proof.
  revert s; induction n as [|n IH]; intros s; [cbn; split; [intros _; split; [lia|reflexivity]|reflexivity]|].
  destruct s as [|c s]; cbn [repeat seqmatch length firstn forallb].
  - split; [discriminate|intros [H _]; lia].
  - rewrite !andb_true_iff, IH. split; intros H; repeat split; try tauto; lia.
Qed.

Lemma findall_skip m a s : findall_aux m (a ++ s) (length a) = findall_aux m s 0.
Proof. induction a; [destruct s; reflexivity|]. exact IHa. Qed.
Lemma findall_short p n s : (1 <= n)%nat -> (length s < n)%nat -> findall_aux (m_seq (repeat p n)) s 0 = [].
Proof.
  intros Hn. induction s as [|c s IH]; intros H; [reflexivity|]. cbn [findall_aux].
  unfold m_seq at 1. destruct (seqmatch (repeat p n) (c :: s)) eqn:E.
  - apply seqmatch_repeat in E. cbn in *. lia.
  - apply IH. cbn in H. lia.
Qed.

Lemma findall_chunks p n s : (1 <= n)%nat -> forallb p s = true ->
  re_findall (m_seq (repeat p n)) s = chunks n s.
Proof.
  intros Hn. unfold re_findall. revert s. refine (chunks_ind n _ _ _ _); [exact Hn|intros s H|intros a s Ha IH]; intros Hp.
  - rewrite chunks_short by assumption. now apply findall_short.
  - rewrite chunks_app by assumption. rewrite forallb_app in Hp. apply andb_true_iff in Hp.
    destruct a as [|c a]; [cbn in Ha; lia|]. cbn [app findall_aux]. unfold m_seq at 1.
    replace (seqmatch (repeat p n) (c :: a ++ s)) with true.
    2:{ symmetry. apply seqmatch_repeat. change (c :: a ++ s) with ((c :: a) ++ s).
        rewrite firstn_exact by exact Ha. rewrite app_length. split; [lia|tauto]. }
    rewrite repeat_length. destruct n as [|n]; [lia|].
    change (c :: a ++ s) with ((c :: a) ++ s). rewrite firstn_exact by exact Ha.
    f_equal. cbn in Ha. injection Ha as <-. rewrite findall_skip. apply IH; tauto.
Qed.

(** re.split with a fixed-width group pattern: an empty text before each group, a rest at the end *)
Lemma split_skip keep m a s cur : split_aux keep m (a ++ s) cur (length a) = split_aux keep m s cur 0.
Proof. induction a; [destruct s; reflexivity|]. exact IHa. Qed.

Lemma split_chunk p n a s : (1 <= n)%nat -> length a = n -> forallb p a = true ->
  re_split_cap (m_seq (repeat p n)) (a ++ s) = [] :: a :: re_split_cap (m_seq (repeat p n)) s.
Proof.
  intros Hn Ha Hp. unfold re_split_cap. destruct a as [|c a]; [cbn in Ha; lia|]. cbn [app split_aux].
  unfold m_seq at 1. replace (seqmatch (repeat p n) (c :: a ++ s)) with true.
  2:{ symmetry. apply seqmatch_repeat. change (c :: a ++ s) with ((c :: a) ++ s).
      rewrite firstn_exact by exact Ha. rewrite app_length. split; [lia|tauto]. }
  rewrite repeat_length. destruct n as [|n]; [lia|].
  change (c :: a ++ s) with ((c :: a) ++ s). rewrite firstn_exact by exact Ha.
  cbn [rev]. do 2 f_equal. cbn in Ha. injection Ha as <-. apply split_skip.
Qed.

Lemma split_short_aux p n s cur : (1 <= n)%nat -> (length s < n)%nat ->
  split_aux true (m_seq (repeat p n)) s cur 0 = [rev cur ++ s].
Proof.
  intros Hn. revert cur; induction s as [|c s IH]; intros cur H; [cbn; now rewrite app_nil_r|].
  cbn [split_aux]. unfold m_seq at 1. destruct (seqmatch (repeat p n) (c :: s)) eqn:E.
  - apply seqmatch_repeat in E. cbn in *. lia.
  - rewrite IH by (cbn in H; lia). cbn [rev]. now rewrite <- app_assoc.
Qed.
Lemma split_short p n s : (1 <= n)%nat -> (length s < n)%nat -> re_split_cap (m_seq (repeat p n)) s = [s].
Proof. intros. unfold re_split_cap. now rewrite split_short_aux. Qed.

(** * Seven-bit text *)

(** the seven bits of each character *)
Definition text7 (t : str) : str := flat_map (bits 7) t.

Lemma length_text7 t : length (text7 t) = (7 * length t)%nat.
Proof. unfold text7. induction t; cbn [flat_map length]; [reflexivity|]. rewrite app_length, length_bits, IHt. lia. Qed.
Lemma text7_bit t : forallb is_bit (text7 t) = true.
Proof. unfold text7. induction t; cbn [flat_map]; [reflexivity|]. now rewrite forallb_app, bits_bit, IHt. Qed.

Definition enc7_piece (g : str) : res str :=
  match g with
  | [] => Ok []
  | c :: g' =>
      if negb (c =? c_pct)
      then concat_map_res (fun s => str_int_to_binary (Z.of_N s) 7) g
      else let* v := int_base 16 g' in str_int_to_binary v 7
  end.

Lemma bin7 c : c < 128 -> str_int_to_binary (Z.of_N c) 7 = Ok (bits 7 c).
Proof.
  intros H. assert (I : intable (ndec c)) by (apply (intable_ndec _ 7); [exact H|lia]).
  unfold str_int_to_binary. rewrite str_int_spec by exact I. cbn [bind]. destruct (ndec_spec c) as (V & D & _).
  rewrite str_to_binary_spec; [now rewrite V|apply ndec_nonempty|exact D|exact I|lia|rewrite V; exact H].
Qed.

Lemma enc7_plain g : forallb is_ascii g = true -> ~ In c_pct g -> enc7_piece g = Ok (text7 g).
Proof.
  intros H Hp. destruct g as [|c g]; [reflexivity|]. unfold enc7_piece.
  destruct (N.eqb_spec c c_pct) as [->|Hc]; [exfalso; apply Hp; now left|]. cbn [negb].
  revert H. generalize (c :: g). intros l H. induction l as [|x l IH]; [reflexivity|].
  unfold text7 in *. cbn [flat_map concat_map_res forallb] in *. apply andb_true_iff in H. destruct H as [Hx H].
  rewrite IH by exact H. rewrite bin7 by (unfold is_ascii in Hx; lia). reflexivity.
Qed.

Lemma escape_char_hex c : reserved c -> exists h1 h2, escape_char c = [c_pct; h1; h2] /\
  is_hex h1 = true /\ is_hex h2 = true /\ enc7_piece [c_pct; h1; h2] = Ok (bits 7 c).
Proof.
  unfold reserved. cbn. intros H.
  repeat (destruct H as [<-|H]; [do 2 eexists; split; [reflexivity|]; repeat split; vm_compute; reflexivity|]). destruct H.
Qed.

Lemma m_escape_hit h1 h2 s : is_hex h1 = true -> is_hex h2 = true -> m_escape (c_pct :: h1 :: h2 :: s) = Some 3%nat.
Proof. intros H1 H2. unfold m_escape, m_seq. cbn [seqmatch]. now rewrite H1, H2, N.eqb_refl. Qed.
Lemma m_escape_miss c s : c <> c_pct -> m_escape (c :: s) = None.
Proof. intros H. unfold m_escape, m_seq. cbn [seqmatch]. rewrite N.eqb_sym. apply N.eqb_neq in H. now rewrite H. Qed.

Lemma encode_string_pieces t cur : forallb is_ascii t = true -> forallb is_ascii cur = true -> ~ In c_pct cur ->
  concat_map_res enc7_piece (split_aux true m_escape (escape t) cur 0) = Ok (text7 (rev cur) ++ text7 t).
Proof.
  revert cur; induction t as [|c t IH]; intros cur Ht Hcur Hp.
  - cbn [escape flat_map split_aux concat_map_res].
    rewrite enc7_plain; [reflexivity|apply forallb_forall; intros x Hx; apply in_rev in Hx; eapply forallb_In; eauto|].
    intros Hx. apply in_rev in Hx. auto.
  - cbn [forallb] in Ht. apply andb_true_iff in Ht. destruct Ht as [Hc Ht].
    unfold escape. cbn [flat_map]. fold (escape t).
    destruct (reserved_dec c) as [Hr|Hr].
    + destruct (escape_char_hex c Hr) as (h1 & h2 & -> & H1 & H2 & He). cbn [app split_aux].
      rewrite m_escape_hit by assumption. cbn [firstn].
      change (split_aux true m_escape (h1 :: h2 :: escape t) [] 2) with (split_aux true m_escape (escape t) [] 0).
      cbn [concat_map_res].
      rewrite enc7_plain; [|apply forallb_forall; intros x Hx; apply in_rev in Hx; eapply forallb_In; eauto|
        intros Hx; apply in_rev in Hx; auto].
      rewrite He. cbn [bind]. rewrite (IH []); [|exact Ht|reflexivity|intros []]. cbn [bind rev].
      unfold text7. cbn [flat_map app]. reflexivity.
    + rewrite escape_char_other by exact Hr. cbn [app split_aux].
      assert (Hcp : c <> c_pct) by (intros ->; apply Hr; right; now left).
      rewrite m_escape_miss by exact Hcp. rewrite IH.
      * cbn [rev]. unfold text7. rewrite flat_map_app. cbn [flat_map]. rewrite <- app_assoc. cbn [app].
        now rewrite app_nil_r.
      * exact Ht.
      * cbn [forallb]. now rewrite Hc.
      * intros [E|E]; [congruence|auto].
Qed.

Theorem encode_string_escape t n : ascii t -> encode_string (escape t) n = Ok (padr c_0 n (text7 t)).
Proof.
  intros H. unfold encode_string, re_split_cap. fold enc7_piece. rewrite encode_string_pieces; [reflexivity| |reflexivity|intros []].
  now apply ascii_iff.
Qed.

Definition dec7 (g : str) : str := let c := sval 2 g in if c =? 0 then [] else escape_char c.

Lemma upto_forallb (p : N -> bool) k : forallb p (map N.of_nat (seq 0 k)) = true -> forall n, n < N.of_nat k -> p n = true.
Proof.
  intros H n Hn. apply (forallb_In _ _ _ H). apply in_map_iff. exists (N.to_nat n). split; [lia|].
  apply in_seq. lia.
Qed.

Lemma res_str_dec (a b : res str) : {a = b} + {a <> b}.
Proof. decide equality; [apply list_eq_dec, N.eq_dec|decide equality]. Defined.

Lemma decode_char_all : forallb (fun c =>
    if res_str_dec (decode_binary_char (bits 7 c)) (Ok (if c =? 0 then [] else escape_char c)) then true else false)
    (map N.of_nat (seq 0 128)) = true.
Proof. vm_compute. reflexivity. Qed.

Lemma decode_binary_char_bits g : length g = 7%nat -> forallb is_bit g = true -> decode_binary_char g = Ok (dec7 g).
Proof.
  intros Hl Hb. assert (Hc : sval 2 g < 128).
  { pose proof (sval_bound 2 g (forallb_bit_in_base2 _ Hb)) as H. rewrite Hl in H. exact H. }
  pose proof (upto_forallb _ 128 decode_char_all _ Hc) as H. cbv beta in H.
  rewrite <- Hl in H. rewrite (bits_sval g Hb) in H. unfold dec7.
  destruct (res_str_dec _ _) as [E|E] in H; [exact E|discriminate].
Qed.

Lemma is_bit_dotc s : forallb is_bit s = true -> forallb dotc s = true.
Proof. apply forallb_imp. intros c H. apply is_bit_iff in H. unfold dotc. destruct H as [->| ->]; reflexivity. Qed.

Theorem decode_string_bits b : forallb is_bit b = true -> decode_string b = Ok (flat_map dec7 (chunks 7 b)).
Proof.
  intros H. unfold decode_string. rewrite findall_chunks by (try lia; now apply is_bit_dotc).
  apply cmr_ok. intros g Hg. apply (chunks_forallb is_bit) in Hg; [|lia|exact H].
  apply decode_binary_char_bits; tauto.
Qed.

Lemma chunks_text7 t s : chunks 7 (text7 t ++ s) = map (bits 7) t ++ chunks 7 s.
Proof.
  unfold text7. induction t as [|c t IH]; [reflexivity|]. cbn [flat_map map app].
  rewrite <- app_assoc, chunks_app, IH; [reflexivity|lia|apply length_bits].
Qed.

Lemma dec7_zeros k : flat_map dec7 (chunks 7 (repeat c_0 k)) = [].
Proof.
  remember (repeat c_0 k) as s eqn:E. assert (Hs : forallb (N.eqb 48) s = true) by (subst; apply forallb_repeat; reflexivity).
  clear E k. revert Hs. revert s. refine (chunks_ind 7 _ _ _ _); [lia|intros s H|intros a s Ha IH]; intros Hs.
  - rewrite chunks_short by (assumption || lia). reflexivity.
  - rewrite chunks_app by (assumption || lia). cbn [flat_map]. rewrite forallb_app in Hs. apply andb_true_iff in Hs.
    rewrite IH by tauto. destruct Hs as [Hs _].
    do 7 (destruct a as [|? a]; [discriminate Ha|]). destruct a; [|discriminate Ha].
    cbn [forallb] in Hs. repeat (apply andb_true_iff in Hs; destruct Hs as [? Hs]).
    repeat match goal with H : (48 =? _) = true |- _ => apply N.eqb_eq in H; subst end. reflexivity.
Qed.

(** what was encoded comes back, whatever the padding *)
Theorem decode_encode_7bit t n : ascii t -> ~ In 0 t -> 
  decode_string (padr c_0 n (text7 t)) = Ok (escape t).
Proof.
  intros Ha H0. unfold padr. rewrite decode_string_bits.
  - rewrite chunks_text7, flat_map_app, dec7_zeros, app_nil_r. f_equal.
    induction t as [|c t IH]; [reflexivity|]. cbn [map flat_map]. unfold escape. cbn [flat_map]. fold (escape t).
    rewrite IH.
    + f_equal. unfold dec7. rewrite sval_bits by (apply (Ha c); now left). 
      destruct (N.eqb_spec c 0) as [->|]; [|reflexivity]. exfalso. apply H0. now left.
    + intros x Hx. apply Ha. now right.
    + intros Hx. apply H0. now right.
  - rewrite forallb_app, text7_bit, forallb_repeat; reflexivity.
Qed.

(** AI-82 text *)
Lemma ai82_ascii t : ai82_text t -> ascii t /\ ~ In 0 t.
Proof.
  intros H. split; [intros c Hc|intros Hc]; apply H in Hc.
  - assert (G : forallb (fun c => c <? 128) ai82 = true) by reflexivity.
    pose proof (forallb_In _ _ _ G Hc) as L. cbv beta in L. lia.
  - assert (G : forallb (fun c => 0 <? c) ai82 = true) by reflexivity.
    pose proof (forallb_In _ _ _ G Hc) as L. discriminate L.
Qed.

(** * Six-bit text *)

(** the characters a six-bit text may have: A-Z 0-9 - # / *)
Definition six_char (c : N) : bool := is_digit c || is_upper c || (c =? 45) || (c =? 35) || (c =? 47).
Definition code6 (c : N) : N := if is_upper c then c - 64 else c.
Definition text6 (t : str) : str := flat_map (fun c => bits 6 (code6 c)) t.

Lemma length_text6 t : length (text6 t) = (6 * length t)%nat.
Proof. unfold text6. induction t; cbn [flat_map length]; [reflexivity|]. rewrite app_length, length_bits, IHt. lia. Qed.
Lemma text6_bit t : forallb is_bit (text6 t) = true.
Proof. unfold text6. induction t; cbn [flat_map]; [reflexivity|]. now rewrite forallb_app, bits_bit, IHt. Qed.

Definition enc6_piece (g : str) : res str :=
  match g with
  | [] => Ok []
  | c :: g' =>
      if str_eqb g (lit "-") then Ok (lit "101101")
      else if negb (c =? c_pct) then concat_map_res six_bit_char g
      else let* v := int_base 16 g' in str_int_to_binary v 6
  end.

Lemma six_char_lt c : six_char c = true -> c < 128.
Proof. unfold six_char, is_digit, is_upper, inr. lia. Qed.

Lemma six_bit_char_all : forallb (fun c =>
    if negb (is_digit c || is_upper c) then true else
    if res_str_dec (six_bit_char c) (Ok (bits 6 (code6 c))) then true else false) (map N.of_nat (seq 0 128)) = true.
Proof. vm_compute. reflexivity. Qed.
Lemma six_bit_char_spec c : is_digit c || is_upper c = true -> six_bit_char c = Ok (bits 6 (code6 c)).
Proof.
  intros H. assert (Hc : c < N.of_nat 128) by (apply six_char_lt; unfold six_char; rewrite H; reflexivity).
  pose proof (upto_forallb _ _ six_bit_char_all _ Hc) as G. cbv beta in G. rewrite H in G. cbn [negb] in G.
  destruct (res_str_dec _ _) as [E|E] in G; [exact E|discriminate].
Qed.

Lemma enc6_plain g : forallb (fun c => is_digit c || is_upper c) g = true -> enc6_piece g = Ok (text6 g).
Proof.
  intros H. destruct g as [|c g]; [reflexivity|]. unfold enc6_piece.
  assert (Hc : is_digit c || is_upper c = true) by (cbn [forallb] in H; apply andb_true_iff in H; tauto).
  destruct (str_eqb (c :: g) (lit "-")) eqn:E.
  { apply str_eqb_eq in E. injection E as -> _. discriminate Hc. }
  destruct (N.eqb_spec c c_pct) as [->|_]; [discriminate Hc|]. cbn [negb].
  apply cmr_ok. intros x Hx. apply six_bit_char_spec. exact (forallb_In _ _ _ H Hx).
Qed.

Lemma six_escape_hex c : c = 35 \/ c = 47 -> exists h1 h2, cpi_esc_char c = [c_pct; h1; h2] /\
  is_hex h1 = true /\ is_hex h2 = true /\ enc6_piece [c_pct; h1; h2] = Ok (bits 6 (code6 c)).
Proof.
  intros [-> | ->]; do 2 eexists; (split; [reflexivity|]); repeat split; vm_compute; reflexivity.
Qed.

Lemma encode_six_pieces t cur : forallb six_char t = true -> forallb (fun c => is_digit c || is_upper c) cur = true ->
  concat_map_res enc6_piece (split_aux true m_escape_or_dash (cpi_escape t) cur 0) = Ok (text6 (rev cur) ++ text6 t).
Proof.
  revert cur; induction t as [|c t IH]; intros cur Ht Hcur.
  - cbn [cpi_escape flat_map split_aux concat_map_res].
    rewrite enc6_plain; [reflexivity|]. apply forallb_forall. intros x Hx. apply in_rev in Hx.
    exact (forallb_In _ _ _ Hcur Hx).
  - cbn [forallb] in Ht. apply andb_true_iff in Ht. destruct Ht as [Hc Ht].
    unfold cpi_escape. cbn [flat_map]. fold (cpi_escape t).
    assert (Hrev : forallb (fun c => is_digit c || is_upper c) (rev cur) = true).
    { apply forallb_forall. intros x Hx. apply in_rev in Hx. exact (forallb_In _ _ _ Hcur Hx). }
    destruct (N.eq_dec c 35) as [E1|E1]; [|destruct (N.eq_dec c 47) as [E2|E2]].
    1,2: destruct (six_escape_hex c ltac:(tauto)) as (h1 & h2 & -> & H1 & H2 & He); cbn [app split_aux];
      unfold m_escape_or_dash at 1; rewrite m_escape_hit by assumption; cbn [firstn];
      change (split_aux true m_escape_or_dash (h1 :: h2 :: cpi_escape t) [] 2)
        with (split_aux true m_escape_or_dash (cpi_escape t) [] 0);
      cbn [concat_map_res]; rewrite enc6_plain by exact Hrev;
      rewrite He; cbn [bind]; rewrite (IH []) by (exact Ht || reflexivity); cbn [bind rev];
      unfold text6; cbn [flat_map app]; reflexivity.
    unfold cpi_esc_char. apply N.eqb_neq in E1 as E1', E2 as E2'. rewrite E1', E2'. cbn [app split_aux].
    assert (Hcp : c <> c_pct) by (intros ->; discriminate Hc).
    unfold m_escape_or_dash at 1. rewrite m_escape_miss by exact Hcp. unfold m_seq. cbn [seqmatch].
    rewrite andb_true_r. destruct (N.eqb_spec c_dash c) as [<-|Hd].
    + cbn [length firstn]. cbn [concat_map_res]. rewrite enc6_plain by exact Hrev. cbn [bind].
      change (enc6_piece [c_dash]) with (@Ok str (lit "101101")). cbn [bind].
      rewrite (IH []) by (exact Ht || reflexivity). cbn [bind rev]. unfold text6. cbn [flat_map app]. reflexivity.
    + rewrite IH.
      * cbn [rev]. unfold text6. rewrite flat_map_app. cbn [flat_map]. rewrite <- app_assoc.
        now rewrite app_nil_r.
      * exact Ht.
      * cbn [forallb]. rewrite Hcur. unfold six_char in Hc. rewrite andb_true_r. 
        destruct (is_digit c); [reflexivity|]. destruct (is_upper c); [reflexivity|]. unfold c_dash in Hd. lia.
Qed.

Theorem encode_six_escape t : forallb six_char t = true ->
  encode_string_six_bits (cpi_escape t) = Ok (text6 t ++ lit "000000").
Proof.
  intros H. unfold encode_string_six_bits, re_split_cap. fold enc6_piece.
  rewrite encode_six_pieces by (exact H || reflexivity). reflexivity.
Qed.

(** a group of six bits *)
Definition dec6 (v : N) : N := if v <? 32 then 64 + v else v.
Fixpoint six_stop (vs : list N) : str :=
  match vs with [] => [] | v :: vs' => if v =? 0 then [] else dec6 v :: six_stop vs' end.

Lemma six_group g : length g = 6%nat -> forallb is_bit g = true ->
  (str_eqb g (lit "000000") = (sval 2 g =? 0)) /\
  (startswith (lit "10") g || startswith (lit "11") g = negb (sval 2 g <? 32)).
Proof.
  intros Hl Hb.
  assert (Hc : sval 2 g < N.of_nat 64).
  { pose proof (sval_bound 2 g (forallb_bit_in_base2 _ Hb)) as H. rewrite Hl in H. exact H. }
  assert (A : forallb (fun v => Bool.eqb (str_eqb (bits 6 v) (lit "000000")) (v =? 0) &&
     Bool.eqb (startswith (lit "10") (bits 6 v) || startswith (lit "11") (bits 6 v)) (negb (v <? 32))) (map N.of_nat (seq 0 64)) = true)
    by (vm_compute; reflexivity).
  pose proof (upto_forallb _ _ A _ Hc) as G. cbv beta in G. rewrite <- Hl in G. rewrite (bits_sval g Hb) in G.
  apply andb_true_iff in G. destruct G as [G1 G2]. apply Bool.eqb_prop in G1, G2. auto.
Qed.

Lemma six_bit_loop_bits b : forallb is_bit b = true ->
  six_bit_loop (re_split_cap (m_bits 6) b) = Ok (six_stop (map (sval 2) (chunks 6 b))).
Proof.
  intros Hb. revert Hb. revert b. refine (chunks_ind 6 _ _ _ _); [lia|intros s H|intros a s Ha IH]; intros Hb.
  - unfold m_bits. rewrite split_short, chunks_short by (assumption || lia). cbn [six_bit_loop map six_stop].
    destruct (str_eqb s (lit "000000")) eqn:E; [apply str_eqb_eq in E; subst; cbn in H; lia|].
    replace (length s <? 6)%nat with true by lia. reflexivity.
  - rewrite forallb_app in Hb. apply andb_true_iff in Hb. destruct Hb as [Hba Hbs].
    unfold m_bits in *. rewrite split_chunk, chunks_app by (assumption || lia). cbn [six_bit_loop map six_stop].
    change (str_eqb [] (lit "000000")) with false. cbn [length Nat.ltb Nat.leb].
    destruct (six_group a Ha Hba) as [-> ->]. destruct (sval 2 a =? 0); [reflexivity|].
    rewrite Ha. cbn [Nat.ltb Nat.leb].
    assert (Hne : a <> []) by (intros ->; discriminate Ha). rewrite int2_spec by assumption. cbn [bind].
    assert (Hc : sval 2 a < 64).
    { pose proof (sval_bound 2 a (forallb_bit_in_base2 _ Hba)) as H. rewrite Ha in H. exact H. }
    unfold dec6. destruct (N.ltb_spec (sval 2 a) 32); cbn [negb]; unfold chr;
      [replace (64 + Z.of_N (sval 2 a))%Z with (Z.of_N (64 + sval 2 a)) by lia|];
      match goal with |- context [(?x <? ?y)%Z || (?z <? ?x)%Z] =>
        replace ((x <? y)%Z || (z <? x)%Z) with false by lia end;
      match goal with |- context [(?x <? ?y)%Z || (?z <? ?x)%Z] =>
        replace ((x <? y)%Z || (z <? x)%Z) with false by lia end; cbn [bind];
      rewrite IH by exact Hbs; cbn [bind]; now rewrite N2Z.id.
Qed.

Theorem decode_six_bits b k : forallb is_bit b = true ->
  decode_string_six_bits b k =
    let r := six_stop (map (sval 2) (chunks 6 b)) in
    if (k <? length r)%nat then Raise ConvertException else Ok (cpi_escape r).
Proof.
  intros Hb. unfold decode_string_six_bits. rewrite six_bit_loop_bits by exact Hb. cbn [bind]. cbv zeta.
  destruct (k <? length _)%nat; [reflexivity|]. cbn [raise_if bind].
  change (lit "/") with [47]. change (lit "#") with [35].
  rewrite !replace_char, flat_map_flat_map. f_equal. apply flat_map_ext'. intros c. unfold cpi_esc_char.
  destruct (N.eqb_spec c 35) as [->|H]; [reflexivity|]. cbn [flat_map app]. apply app_nil_r.
Qed.

Lemma code6_spec c : six_char c = true -> 0 < code6 c < 64 /\ dec6 (code6 c) = c.
Proof. unfold six_char, code6, dec6, is_digit, is_upper, inr. intros H. destruct ((65 <=? c) && (c <=? 90)) eqn:E; [destruct (N.ltb_spec (c - 64) 32)|destruct (N.ltb_spec c 32)]; lia. Qed.

Lemma chunks_text6 t s : chunks 6 (text6 t ++ s) = map (fun c => bits 6 (code6 c)) t ++ chunks 6 s.
Proof.
  unfold text6. induction t as [|c t IH]; [reflexivity|]. cbn [flat_map map app].
  rewrite <- app_assoc, chunks_app, IH; [reflexivity|lia|apply length_bits].
Qed.

Lemma six_stop_text6 t rest : forallb six_char t = true ->
  six_stop (map (sval 2) (chunks 6 (text6 t ++ lit "000000" ++ rest))) = t.
Proof.
  intros H. rewrite chunks_text6, chunks_app by (lia || reflexivity). rewrite map_app.
  induction t as [|c t IH].
  - cbn [map app six_stop]. reflexivity.
  - cbn [forallb] in H. apply andb_true_iff in H. destruct H as [Hc H]. cbn [map app six_stop].
    destruct (code6_spec c Hc) as [H1 H2]. rewrite sval_bits by (change (2 ^ N.of_nat 6) with 64; lia).
    replace (code6 c =? 0) with false by lia. rewrite H2. f_equal. now apply IH.
Qed.

Theorem decode_encode_6bit t rest k : forallb six_char t = true -> forallb is_bit rest = true -> (length t <= k)%nat ->
  decode_string_six_bits (text6 t ++ lit "000000" ++ rest) k = Ok (cpi_escape t).
Proof.
  intros H Hr Hk. rewrite decode_six_bits.
  - rewrite six_stop_text6 by exact H. cbv zeta. replace (k <? length t)%nat with false by lia. reflexivity.
  - rewrite !forallb_app, text6_bit, Hr. reflexivity.
Qed.
