(** The round trip through the GS1 element string, class by class. *)
From Coq Require Import String Lia Setoid.
From Verif.Model Require Import Py Re Regexes Common Base Parsers.
From Verif.Model Require Import Cpi Gdti Giai Grai Gsrn Gsrnp Itip Lgtin Sgcn Sgln Sgtin Sscc Others.
From Verif.Spec Require Import Spec SpecEscapes SpecGrammar SpecSchemes SpecElements.
From Verif.Proofs Require Import Basics Num ReLemmas Uni Escapes Checksum Verify Verify2 Grammar Ctor CtorA CtorB CtorC CtorAll Keys
  ElementRe Elements.

Lemma ok_same {A} (a b : A) : Ok a = Ok b -> a = b. Proof. congruence. Qed.
Ltac okinj I I' := let X := fresh in pose proof (eq_trans (eq_sym I) I') as X; apply ok_same in X; clear I'; subst.
(** the object built again is the object iff the URI is spelled again *)
Ltac digs := repeat first [apply digits_app | assumption].
Lemma digits_one d : is_d d = true -> digits [d].
Proof. intros D. apply digits_iff. cbn. rewrite D. reflexivity. Qed.
Lemma digits_cons i r : digits (i :: r) -> digits [i] /\ digits r.
Proof. intros D. split; intros c I; apply D; cbn [In] in *; tauto. Qed.

Lemma gtin_body_uri_eq p i cp rest k t :
  gtin_body_uri p (Z.of_nat (length cp)) ((i :: cp ++ rest) ++ [k]) t = p ++ cp ++ lit "." ++ (i :: rest) ++ lit "." ++ t.
Proof. unfold gtin_body_uri. destruct (cut_gtin i cp rest k) as (_ & -> & ->). reflexivity. Qed.
Lemma plain_body_uri_eq p cp rest k t :
  plain_body_uri p (Z.of_nat (length cp)) ((cp ++ rest) ++ [k]) t = p ++ cp ++ lit "." ++ rest ++ lit "." ++ t.
Proof. unfold plain_body_uri. destruct (cut_plain cp rest k) as (-> & ->). reflexivity. Qed.

Lemma same_tail (p a b t t' : str) : p ++ a ++ lit "." ++ b ++ lit "." ++ t = p ++ a ++ lit "." ++ b ++ lit "." ++ t' <-> t = t'.
Proof. split; [|congruence]. intros E. do 5 apply app_inv_head in E. exact E. Qed.

Theorem sgtin_back u cp item serial x : sgtin_uri u cp item serial -> sgtin_init u = Ok x ->
  (sgtin_from_gs1_element_string (sgtin_gs1_element_string x) (Z.of_nat (length cp)) = Ok x <->
   canonical_serial serial /\ ~ bracketed 2 (unescape serial)).
Proof.
  intros U I. pose proof U as (Eu & (Dc & Lc) & Di & L & C & Ls).
  destruct item as [|i rest]; [cbn [length] in L; lia|].
  destruct (completed_exists (i :: cp ++ rest)) as (k & K). destruct (sgtin_keys _ _ _ _ _ _ U K) as (x' & I' & _ & G).
  okinj I I'. rewrite G. apply completed_inv in K as (d & -> & Dd).
  apply digits_cons in Di as [D1 D2].
  assert (N : ndigits 14 ((i :: cp ++ rest) ++ [d])).
  { split; [change (i :: cp ++ rest) with ([i] ++ cp ++ rest); digs; apply digits_one, Dd|].
    rewrite app_length. cbn [length] in *. rewrite app_length. lia. }
  destruct (sgtin_from _ _ (Z.of_nat (length cp)) N (comp_upto _ 20 C ltac:(lia))) as [[B E]|[B E]].
  - rewrite E, gtin_body_uri_eq, comp_canon by exact C. split.
    + intros H. split; [|exact B]. apply sgtin_iff in H as (_ & H & _). apply sgtin_iff in I as (_ & I & _). rewrite I in H.
      apply same_tail in H. symmetry. exact H.
    + intros [H _]. rewrite H. exact I.
  - rewrite E. split; [discriminate|tauto].
Qed.
Theorem lgtin_back u cp item lot x : lgtin_uri u cp item lot -> lgtin_init u = Ok x ->
  (lgtin_from_gs1_element_string (lgtin_gs1_element_string x) (Z.of_nat (length cp)) = Ok x <->
   canonical_serial lot /\ ~ bracketed 2 (unescape lot)).
Proof.
  intros U I. pose proof U as (Eu & (Dc & Lc) & Di & L & C & Ls).
  destruct item as [|i rest]; [cbn [length] in L; lia|].
  destruct (completed_exists (i :: cp ++ rest)) as (k & K). destruct (lgtin_keys _ _ _ _ _ _ U K) as (x' & I' & _ & G).
  okinj I I'. rewrite G. apply completed_inv in K as (d & -> & Dd).
  apply digits_cons in Di as [D1 D2].
  assert (N : ndigits 14 ((i :: cp ++ rest) ++ [d])).
  { split; [change (i :: cp ++ rest) with ([i] ++ cp ++ rest); digs; apply digits_one, Dd|].
    rewrite app_length. cbn [length] in *. rewrite app_length. lia. }
  destruct (lgtin_from _ _ (Z.of_nat (length cp)) N (comp_upto _ 20 C ltac:(lia))) as [[B E]|[B E]].
  - rewrite E, gtin_body_uri_eq, comp_canon by exact C. split.
    + intros H. split; [|exact B]. apply lgtin_iff in H as (? & _ & H & _). apply lgtin_iff in I as (? & _ & I & _). rewrite I in H.
      apply same_tail in H. symmetry. exact H.
    + intros [H _]. rewrite H. exact I.
  - rewrite E. split; [discriminate|tauto].
Qed.
Theorem sgln_back u cp loc ext x : sgln_uri u cp loc ext -> sgln_init u = Ok x ->
  (sgln_from_gs1_element_string (sgln_gs1_element_string x) (Z.of_nat (length cp)) = Ok x <->
   canonical_serial ext /\ ~ bracketed 3 (unescape ext)).
Proof.
  intros U I. pose proof U as (Eu & (Dc & Lc) & Di & L & C & Ls).
  destruct (completed_exists (cp ++ loc)) as (k & K). destruct (sgln_keys _ _ _ _ _ U K) as (x' & I' & _ & G).
  okinj I I'. rewrite G. apply completed_inv in K as (d & -> & Dd).
  assert (N : ndigits 13 ((cp ++ loc) ++ [d])).
  { split; [digs; apply digits_one, Dd|]. rewrite !app_length. cbn [length]. lia. }
  destruct (sgln_from _ _ (Z.of_nat (length cp)) N (comp_upto _ 20 C ltac:(lia))) as [[B E]|[B E]].
  - rewrite E, plain_body_uri_eq, comp_canon by exact C. split.
    + intros H. split; [|exact B]. apply sgln_iff in H as (_ & H & _). apply sgln_iff in I as (_ & I & _). rewrite I in H.
      apply same_tail in H. symmetry. exact H.
    + intros [H _]. rewrite H. exact I.
  - rewrite E. split; [discriminate|tauto].
Qed.
Theorem grai_back u cp asset serial x : grai_uri u cp asset serial -> grai_init u = Ok x ->
  (grai_from_gs1_element_string (grai_gs1_element_string x) (Z.of_nat (length cp)) = Ok x <-> canonical_serial serial).
Proof.
  intros U I. pose proof U as (Eu & (Dc & Lc) & Di & L & C & Ls). pose proof (unescape_le serial) as Le.
  destruct (completed_exists (cp ++ asset)) as (k & K). destruct (grai_keys _ _ _ _ _ U K) as (x' & I' & _ & G).
  okinj I I'. rewrite G. apply completed_inv in K as (d & -> & Dd).
  assert (N : ndigits 13 ((cp ++ asset) ++ [d])).
  { split; [digs; apply digits_one, Dd|]. rewrite !app_length. cbn [length]. lia. }
  rewrite (grai_from _ _ (Z.of_nat (length cp)) N (comp_upto _ 16 C ltac:(lia))), plain_body_uri_eq, comp_canon by exact C. split.
  - intros H. apply grai_iff in H as (_ & H & _). apply grai_iff in I as (_ & I & _). rewrite I in H.
    apply same_tail in H. symmetry. exact H.
  - intros H. rewrite H. exact I.
Qed.
Theorem gdti_back u cp doc serial x : gdti_uri u cp doc serial -> gdti_init u = Ok x ->
  (gdti_from_gs1_element_string (gdti_gs1_element_string x) (Z.of_nat (length cp)) = Ok x <-> canonical_serial serial).
Proof.
  intros U I. pose proof U as (Eu & (Dc & Lc) & Di & L & C & Ls). pose proof (unescape_le serial) as Le.
  destruct (completed_exists (cp ++ doc)) as (k & K). destruct (gdti_keys _ _ _ _ _ U K) as (x' & I' & _ & G).
  okinj I I'. rewrite G. apply completed_inv in K as (d & -> & Dd).
  assert (N : ndigits 13 ((cp ++ doc) ++ [d])).
  { split; [digs; apply digits_one, Dd|]. rewrite !app_length. cbn [length]. lia. }
  rewrite (gdti_from _ _ (Z.of_nat (length cp)) N (comp_upto _ 17 C ltac:(lia))), plain_body_uri_eq, comp_canon by exact C. split.
  - intros H. apply gdti_iff in H as (_ & H & _). apply gdti_iff in I as (_ & I & _). rewrite I in H.
    apply same_tail in H. symmetry. exact H.
  - intros H. rewrite H. exact I.
Qed.

Lemma escape_digits s : ascii_digits s -> escape s = s.
Proof.
  induction s as [|c s IH]; intros A; [reflexivity|]. cbn [escape flat_map].
  rewrite escape_char_other.
  - cbn [app]. f_equal. apply IH. intros x I. apply A. right. exact I.
  - intros R. specialize (A c (or_introl eq_refl)). cbn in R. repeat destruct R as [<-|R]; lia || destruct R.
Qed.
Lemma ascii_ai82 s : ascii_digits s -> ai82_text s.
Proof.
  intros A c I. apply ai82_iff. specialize (A c I). assert (X : is_digit c = true) by (apply is_digit_iff; exact A).
  unfold gs1_elem_char, gs3a3_plain. rewrite X, ?orb_true_r. reflexivity.
Qed.
Lemma digits_ai82_ascii s : digits s -> ai82_text s -> ascii_digits s.
Proof.
  intros D A c I. specialize (D c I). destruct (udigit c) as [d|] eqn:E; [|congruence].
  assert (L : c < 128). { apply ai82_text_iff, elem_ascii in A. exact (A c I). }
  apply udigit_ascii in E as [H _]; assumption.
Qed.
Theorem sgcn_back u cp coupon serial x : sgcn_uri u cp coupon serial -> sgcn_init u = Ok x ->
  (sgcn_from_gs1_element_string (sgcn_gs1_element_string x) (Z.of_nat (length cp)) = Ok x <-> ascii_digits serial).
Proof.
  intros U I. pose proof U as (Eu & (Dc & Lc) & Di & L & C & Ls).
  destruct (completed_exists (cp ++ coupon)) as (k & K). destruct (sgcn_keys _ _ _ _ _ U K) as (x' & I' & _ & G).
  okinj I I'. rewrite G. apply completed_inv in K as (d & -> & Dd).
  assert (N : ndigits 13 ((cp ++ coupon) ++ [d])).
  { split; [digs; apply digits_one, Dd|]. rewrite !app_length. cbn [length]. lia. }
  split.
  - intros H. unfold sgcn_from_gs1_element_string in H.
    destruct (fullmatch SGCN_GS1_ELEMENT_STRING (lit "(255)" ++ ((cp ++ coupon) ++ [d]) ++ serial)) eqn:F; [|discriminate H].
    apply (element_regex C_SGCN) in F. destruct F as (d' & t & E & [_ L'] & [T _]). apply app_inv_head in E.
    apply app_cut' in E as [_ ->]; [|destruct N as [_ N]; congruence]. apply digits_ai82_ascii; assumption.
  - intros A. rewrite (sgcn_from _ _ (Z.of_nat (length cp)) N) by (split; [apply ascii_ai82, A|exact Ls]).
    rewrite plain_body_uri_eq, escape_digits by exact A. exact I.
Qed.
Theorem upui_back u cp item tpx x : upui_uri u cp item tpx -> upui_init u = Ok x ->
  ((exists g, upui_gs1_element_string x = Ok g /\ upui_from_gs1_element_string g (Z.of_nat (length cp)) = Ok x) <->
   canonical_serial tpx /\ item <> []).
Proof.
  intros U I. pose proof U as (Eu & Dc & Nc & Di & L & C & Ls).
  destruct item as [|i rest].
  { split; [|intros [_ H]; congruence]. intros (g & G & _). destruct (upui_element_fails _ _ _ U) as (x' & I' & G').
    okinj I I'. congruence. }
  destruct (completed_exists (i :: cp ++ rest)) as (k & K). destruct (upui_element _ _ _ _ _ _ U K) as (x' & I' & G).
  okinj I I'. rewrite G. apply completed_inv in K as (d & -> & Dd).
  apply digits_cons in Di as [D1 D2].
  assert (N : ndigits 14 ((i :: cp ++ rest) ++ [d])).
  { split; [change (i :: cp ++ rest) with ([i] ++ cp ++ rest); digs; apply digits_one, Dd|].
    rewrite app_length. cbn [length] in *. rewrite app_length. lia. }
  pose proof (upui_from _ _ (Z.of_nat (length cp)) N (comp_upto _ 28 C ltac:(lia))) as E. rewrite gtin_body_uri_eq in E.
  rewrite comp_canon by exact C. split.
  - intros (g & Eg & H). apply ok_same in Eg. subst g. rewrite E in H.
    apply upui_iff in H as (? & _ & H & _). apply upui_iff in I as (? & _ & I & _). rewrite I in H.
    apply same_tail in H. split; [symmetry; exact H|discriminate].
  - intros [H _]. eexists. split; [reflexivity|]. rewrite E, H. exact I.
Qed.

Lemma same_end (p a t t' : str) : p ++ a ++ lit "." ++ t = p ++ a ++ lit "." ++ t' -> t = t'.
Proof. intros E. do 3 apply app_inv_head in E. exact E. Qed.

Theorem sscc_back u cp serial x : sscc_uri u cp serial -> sscc_init u = Ok x ->
  sscc_from_gs1_element_string (sscc_gs1_element_string x) (Z.of_nat (length cp)) = Ok x.
Proof.
  intros U I. pose proof U as (Eu & (Dc & Lc) & Di & L).
  destruct serial as [|i rest]; [cbn [length] in L; lia|].
  destruct (completed_exists (i :: cp ++ rest)) as (k & K). destruct (sscc_keys _ _ _ _ _ U K) as (x' & I' & _ & G).
  okinj I I'. rewrite G. apply completed_inv in K as (d & -> & Dd). apply digits_cons in Di as [D1 D2].
  rewrite sscc_from.
  - destruct (cut_gtin i cp rest d) as (_ & -> & ->). exact I.
  - split; [change (i :: cp ++ rest) with ([i] ++ cp ++ rest); digs; apply digits_one, Dd|].
    rewrite app_length. cbn [length] in *. rewrite app_length. lia.
Qed.
Theorem gsrn_back u cp service x : gsrn_uri u cp service -> gsrn_init u = Ok x ->
  gsrn_from_gs1_element_string (gsrn_gs1_element_string x) (Z.of_nat (length cp)) = Ok x.
Proof.
  intros U I. pose proof U as (Eu & (Dc & Lc) & Di & L).
  destruct (completed_exists (cp ++ service)) as (k & K). destruct (gsrn_keys _ _ _ _ U K) as (x' & I' & _ & G).
  okinj I I'. rewrite G. apply completed_inv in K as (d & -> & Dd).
  rewrite gsrn_from.
  - destruct (cut_plain cp service d) as (-> & ->). exact I.
  - split; [digs; apply digits_one, Dd|]. rewrite !app_length. cbn [length]. lia.
Qed.
Theorem gsrnp_back u cp service x : gsrnp_uri u cp service -> gsrnp_init u = Ok x ->
  gsrnp_from_gs1_element_string (gsrnp_gs1_element_string x) (Z.of_nat (length cp)) = Ok x.
Proof.
  intros U I. pose proof U as (Eu & (Dc & Lc) & Di & L).
  destruct (completed_exists (cp ++ service)) as (k & K). destruct (gsrnp_keys _ _ _ _ U K) as (x' & I' & _ & G).
  okinj I I'. rewrite G. apply completed_inv in K as (d & -> & Dd).
  rewrite gsrnp_from.
  - destruct (cut_plain cp service d) as (-> & ->). exact I.
  - split; [digs; apply digits_one, Dd|]. rewrite !app_length. cbn [length]. lia.
Qed.
Theorem pgln_back u cp party x : pgln_uri u cp party -> pgln_init u = Ok x ->
  pgln_from_gs1_element_string (pgln_gs1_element_string x) (Z.of_nat (length cp)) = Ok x.
Proof.
  intros U I. pose proof U as (Eu & (Dc & Lc) & Di & L).
  destruct (completed_exists (cp ++ party)) as (k & K). destruct (pgln_keys _ _ _ _ U K) as (x' & I' & _ & G).
  okinj I I'. rewrite G. apply completed_inv in K as (d & -> & Dd).
  rewrite pgln_from.
  - destruct (cut_plain cp party d) as (-> & ->). exact I.
  - split; [digs; apply digits_one, Dd|]. rewrite !app_length. cbn [length]. lia.
Qed.
Theorem gsin_back u cp ref x : gsin_uri u cp ref -> gsin_init u = Ok x ->
  gsin_from_gs1_element_string (gsin_gs1_element_string x) (Z.of_nat (length cp)) = Ok x.
Proof.
  intros U I. pose proof U as (Eu & (Dc & Lc) & Di & L).
  destruct (completed_exists (cp ++ ref)) as (k & K). destruct (gsin_keys _ _ _ _ U K) as (x' & I' & _ & G).
  okinj I I'. rewrite G. apply completed_inv in K as (d & -> & Dd).
  rewrite gsin_from.
  - rewrite slz_head, slz_tail by reflexivity. exact I.
  - split; [digs; apply digits_one, Dd|]. rewrite !app_length. cbn [length]. lia.
Qed.
Lemma cut_key (p cp t : str) n : Z.of_nat (length p) = n ->
  slz (Some n) (Some (n + Z.of_nat (length cp))%Z) (p ++ cp ++ t) = cp /\
  slz (Some (n + Z.of_nat (length cp))%Z) None (p ++ cp ++ t) = t.
Proof.
  intros <-. split; [apply slz_mid; lia|]. rewrite app_assoc. apply slz_tail. rewrite app_length. lia.
Qed.
Theorem ginc_back u cp ref x : ginc_uri u cp ref -> ginc_init u = Ok x ->
  (ginc_from_gs1_element_string (ginc_gs1_element_string x) (Z.of_nat (length cp)) = Ok x <-> canonical_serial ref).
Proof.
  intros U I. pose proof U as (Eu & (Dc & Lc) & C & L).
  destruct (ginc_keys _ _ _ U) as (x' & I' & _ & G). okinj I I'. rewrite G.
  rewrite ginc_from.
  - destruct (cut_key (lit "(401)") cp (unescape ref) 5 eq_refl) as (-> & ->). rewrite comp_canon by exact C. split.
    + intros H. apply ginc_iff in H as (H & _). apply ginc_iff in I as (I & _). rewrite I in H. symmetry. exact (same_end _ _ _ _ H).
    + intros H. rewrite H. exact I.
  - cbn [element_string]. exists cp, (unescape ref). pose proof (comp_upto _ 24 C ltac:(lia)). auto.
Qed.
Theorem giai_back u cp asset ignored x : giai_uri u cp asset ignored -> giai_init u = Ok x ->
  (giai_from_gs1_element_string (giai_gs1_element_string x) (Z.of_nat (length cp)) = Ok x <->
   canonical_serial asset /\ ignored = []).
Proof.
  intros U I. pose proof U as (Eu & (Dc & Lc) & C & NC & L & Ig). pose proof (unescape_le asset) as Le.
  destruct (giai_keys _ _ _ _ U) as (x' & I' & _ & G). okinj I I'. rewrite G.
  rewrite giai_from.
  - destruct (cut_key (lit "(8004)") cp (unescape asset) 6 eq_refl) as (-> & ->). split.
    + intros H. apply giai_iff in H as (_ & H & _). apply giai_iff in I as (_ & I & _). rewrite I in H. apply same_end in H.
      destruct Ig as [->|(r & -> & _)].
      * rewrite app_nil_r in H. split; [apply comp_canon; [exact C|congruence]|reflexivity].
      * exfalso. pose proof (comp_ai82 _ C) as [_ _]. revert H. clear - NC.
        assert (X : ~ In 58 (escape (unescape asset))).
        { intros X. unfold escape in X. apply in_flat_map in X as (c & X & Y).
          assert (Z : ~ In 58 (unescape asset)).
          { rewrite unescape_unesc. revert NC. clear. refine (str_ind2 (fun s => ~ In 58 s -> ~ In 58 (unesc uri_table s)) _ asset).
            clear asset. intros s IH N. destruct s as [|c s]; [exact N|].
            assert (K : ~ In 58 (c :: unesc uri_table s)).
            { intros [->|K]; [apply N; left; reflexivity|]. revert K. apply IH; [cbn [length]; lia|]. intros J. apply N. right. exact J. }
            cbn [unesc]. destruct (c =? c_pct); [|exact K]. destruct s as [|a s]; [exact K|]. destruct s as [|b s]; [exact K|].
            destruct (tfind uri_table a b) as [x|] eqn:T; [|exact K]. apply tfind_chars in T as (_ & _ & X).
            intros [->|J]; [cbn in X; repeat destruct X as [X|X]; try discriminate X; destruct X|].
            revert J. apply IH; [cbn [length]; lia|]. intros J. apply N. right. right. right. exact J. }
          destruct (reserved_dec c) as [R|R].
          - cbn in R. repeat destruct R as [<-|R]; try (cbn in Y; repeat destruct Y as [Y|Y]; try discriminate Y; exact Y). destruct R.
          - rewrite escape_char_other in Y by exact R. destruct Y as [->|[]]. exact (Z X). }
        intros E. apply X. rewrite <- E. apply in_or_app. right. left. reflexivity.
    + intros [H ->]. rewrite comp_canon in H by exact C. rewrite H. rewrite app_nil_r in I. exact I.
  - cbn [element_string]. exists cp, (unescape asset). pose proof (comp_upto _ 24 C ltac:(lia)). auto.
Qed.
Theorem cpi_back u cp ref serial x : cpi_uri u cp ref serial -> cpi_init u = Ok x ->
  cpi_from_gs1_element_string (cpi_gs1_element_string x) (Z.of_nat (length cp)) = Ok x.
Proof.
  intros U I. pose proof U as (Eu & Cp & (t & Nt & T & Er) & L & Nu & Ls). subst ref.
  destruct (cpi_element _ _ _ _ Cp T U) as (x' & I' & G). okinj I I'. rewrite G. destruct Cp as [Dc Lc].
  assert (Lt : (length t <= length (escape6 t))%nat).
  { clear. induction t as [|c t IH]; [reflexivity|]. cbn [escape6 flat_map]. rewrite app_length.
    fold (escape6 t). destruct (c =? 35); [cbn; lia|]. destruct (c =? 47); cbn [length lit app]; cbn; lia. }
  apply numeral_iff, numeral_digits in Nu as [Dn Nn].
  rewrite cpi_from; [|exact Dc|exact Lc|exact T|lia|apply digits_iff, Dn|destruct serial; [congruence|cbn [length] in *; lia]].
  rewrite slz_head, slz_tail, <- escape6_eq by reflexivity. exact I.
Qed.
Theorem itip_back u cp item piece total serial x : itip_uri u cp item piece total serial -> itip_init u = Ok x ->
  ((exists g, itip_gs1_element_string x = Ok g /\ itip_from_gs1_element_string g (Z.of_nat (length cp)) = Ok x) <->
   canonical_serial serial /\ length piece = 2%nat /\ length total = 2%nat).
Proof.
  intros U I. pose proof U as (Eu & (Dc & Lc) & Di & Dp & Dt & Ni & Np & Nt & L & C & Ls).
  destruct item as [|i rest]; [congruence|].
  destruct (completed_exists (i :: cp ++ rest)) as (k & K). destruct (itip_element _ _ _ _ _ _ _ _ U K) as (x' & I' & G).
  okinj I I'. rewrite G. apply completed_inv in K as (d & -> & Dd). apply digits_cons in Di as [D1 D2].
  set (D := ((i :: cp ++ rest) ++ [d]) ++ piece ++ total).
  assert (N : ndigits 18 D).
  { split; [change (i :: cp ++ rest) with ([i] ++ cp ++ rest) in D; unfold D; digs; apply digits_one, Dd|].
    unfold D. rewrite !app_length. cbn [length] in *. rewrite app_length. lia. }
  assert (A : lit "(8006)" ++ ((i :: cp ++ rest) ++ [d]) ++ piece ++ total ++ lit "(21)" ++ unescape serial
              = lit "(8006)" ++ D ++ lit "(21)" ++ unescape serial) by (unfold D; rewrite <- !app_assoc; reflexivity).
  rewrite A. pose proof (itip_from _ _ (Z.of_nat (length cp)) N (comp_upto _ 20 C ltac:(lia))) as E.
  assert (C1 : slz (Some 1%Z) (Some (1 + Z.of_nat (length cp))%Z) D = cp).
  { unfold D. change (i :: cp ++ rest) with ([i] ++ cp ++ rest). rewrite <- !app_assoc. apply slz_mid; cbn [length]; lia. }
  (* the last four digits, in twos *)
  assert (W : exists q p2 t2, D = q ++ p2 ++ t2 /\ length p2 = 2%nat /\ length t2 = 2%nat).
  { exists (firstn 14 D), (firstn 2 (skipn 14 D)), (skipn 2 (skipn 14 D)).
    destruct N as [_ N]. split; [rewrite !firstn_skipn; reflexivity|]. rewrite firstn_length, !skipn_length. lia. }
  destruct W as (q & p2 & t2 & Eq & Lp & Lt).
  assert (C3 : slz (Some (-4)%Z) (Some (-2)%Z) D = p2).
  { rewrite Eq. apply slz_mid_negneg; [rewrite app_length, Lp, Lt; reflexivity|rewrite Lt; reflexivity|destruct t2; [discriminate Lt|discriminate]]. }
  assert (C4 : slz (Some (-2)%Z) None D = t2).
  { rewrite Eq, app_assoc. apply slz_tail_neg; [rewrite Lt; reflexivity|destruct t2; [discriminate Lt|discriminate]]. }
  split.
  - intros (g & Eg & H). apply ok_same in Eg. subst g. rewrite E in H. unfold itip_body_uri in H. rewrite C1, C3, C4 in H.
    apply itip_iff in H as (_ & H). apply itip_iff in I as (_ & I). rewrite I in H.
    do 3 apply app_inv_head in H.
    assert (Z : digits ([hd 0 D] ++ slz (Some (1 + Z.of_nat (length cp))%Z) (Some (-5)%Z) D)).
    { destruct N as [DD ND]. intros c J. apply DD. apply in_app_or in J as [[<-|[]]|J].
      - destruct D; [discriminate ND|]. left. reflexivity.
      - exact (slz_in _ _ _ _ J). }
    assert (Dq : digits p2 /\ digits t2).
    { destruct N as [DD _]. split; intros c J; apply DD; rewrite Eq; apply in_or_app; right; apply in_or_app; auto. }
    rewrite (app_assoc [hd 0 D]) in H.
    symmetry in H. change [c_dot] with (lit ".") in H. apply cut_dot in H as [_ H]; [|apply nodot_digits, Z|apply nodot_digits; change (i :: rest) with ([i] ++ rest); digs].
    apply cut_dot in H as [H1 H]; [|apply nodot_digits, Dq|apply nodot_digits, Dp].
    apply cut_dot in H as [H2 H]; [|apply nodot_digits, Dq|apply nodot_digits, Dt].
    rewrite comp_canon by exact C. split; [congruence|]. split; congruence.
  - intros (H & Lp' & Lt'). rewrite comp_canon in H by exact C. eexists. split; [reflexivity|]. rewrite E. unfold itip_body_uri.
    assert (X : q = (i :: cp ++ rest) ++ [d] /\ p2 = piece /\ t2 = total).
    { assert (Y : q ++ p2 ++ t2 = ((i :: cp ++ rest) ++ [d]) ++ piece ++ total) by (rewrite <- Eq; reflexivity).
      apply app_cut' in Y as [-> Y].
      - apply app_cut' in Y as [-> ->]; [auto|congruence].
      - pose proof (f_equal (@length _) Y) as LY. rewrite !app_length in LY. rewrite !app_length. lia. }
    destruct X as (_ & -> & ->). rewrite C1, C3, C4, H.
    replace (slz (Some (1 + Z.of_nat (length cp))%Z) (Some (-5)%Z) D) with rest; [exact I|]. symmetry.
    replace D with (([i] ++ cp) ++ rest ++ ([d] ++ piece ++ total)) by (unfold D; cbn [app]; rewrite <- !app_assoc; reflexivity).
    apply slz_mid_neg; [rewrite app_length; cbn [length]; lia|cbn [length app]; rewrite app_length, Lp', Lt'; reflexivity|discriminate].
Qed.

(** * All classes *)

Lemma cp_of c u cp rest cp' rest' : u = scheme_prefix c ++ cp ++ lit "." ++ rest -> ~ In 46 cp -> digits cp' ->
  u = scheme_prefix c ++ cp' ++ lit "." ++ rest' -> cp' = cp.
Proof.
  intros E N D E'. rewrite E in E'. apply app_inv_head in E'. symmetry in E'.
  apply cut_dot in E' as [H _]; [exact H|apply nodot_digits, D|exact N].
Qed.
Lemma ex_ok {A} (g : A) (P : A -> Prop) : (exists h, Ok g = Ok h /\ P h) <-> P g.
Proof. split; [intros (h & E & H); apply ok_same in E; subst; exact H|eauto]. Qed.
Lemma lift_same {A} (f : A -> epc) (r : res A) x : (forall a b, f a = f b -> a = b) -> (lift f r = Ok (f x) <-> r = Ok x).
Proof. intros I. destruct r; cbn; split; try congruence. intros H. apply ok_same, I in H. congruence. Qed.

Ltac start I E U := apply lift_ok in I as (x & I & ->); cbn [epc_gs1_element_string from_gs1_element_string_of element_exact];
  rewrite ?ex_ok, lift_same by congruence.

Theorem element_roundtrip c u e cp rest : In c element_classes -> init_of c u = Ok e ->
  u = scheme_prefix c ++ cp ++ lit "." ++ rest -> ~ In 46 cp ->
  ((exists g, epc_gs1_element_string e = Ok g /\ from_gs1_element_string_of c g (Z.of_nat (length cp)) = Ok e) <->
   element_exact c u cp).
Proof.
  intros J I E N. destruct c; try (cbn in J; exfalso; repeat destruct J as [J|J]; try discriminate J; exact J); clear J;
    cbn [init_of] in I; apply lift_ok in I as (x & I & ->);
    cbn [epc_gs1_element_string from_gs1_element_string_of element_exact]; rewrite ?ex_ok.
  - pose proof I as I0. apply cpi_iff in I0 as (U & _). pose proof U as U0.
    destruct U0 as (Eu & (Dc & _) & _).
    pose proof (cp_of C_CPI _ _ _ _ _ E N Dc Eu) as Ec. rewrite Ec in U. clear Eu Dc E.
    rewrite (lift_same E_CPI) by congruence.
    split; [intros _; exists (cpi_ref x), (cpi_serial x); exact U|intros _; exact (cpi_back _ _ _ _ _ U I)].
  - pose proof I as I0. apply gdti_iff in I0 as (U & _). pose proof U as U0.
    destruct U0 as (Eu & (Dc & _) & _).
    pose proof (cp_of C_GDTI _ _ _ _ _ E N Dc Eu) as Ec. rewrite Ec in U. clear Eu Dc E.
    rewrite (lift_same E_GDTI) by congruence.
    rewrite (gdti_back _ _ _ _ _ U I). split.
    + intros H. exists (gdti_doc x), (gdti_serial x). split; [exact U|exact H].
    + intros (v0 & v1 & V & H). apply (gdti_back _ _ _ _ _ U I), (gdti_back _ _ _ _ _ V I). exact H.
  - pose proof I as I0. apply giai_iff in I0 as ((ig & U) & _). pose proof U as U0.
    destruct U0 as (Eu & (Dc & _) & _).
    pose proof (cp_of C_GIAI _ _ _ _ _ E N Dc Eu) as Ec. rewrite Ec in U. clear Eu Dc E.
    rewrite (lift_same E_GIAI) by congruence.
    rewrite (giai_back _ _ _ _ _ U I). split.
    + intros [H ->]. exists (giai_asset x). split; [exact U|exact H].
    + intros (v0 & V & H). apply (giai_back _ _ _ _ _ U I), (giai_back _ _ _ _ _ V I). split; [exact H|reflexivity].
  - pose proof I as I0. apply ginc_iff in I0 as (_ & cp0 & w & U & _). pose proof U as U0.
    destruct U0 as (Eu & (Dc & _) & _).
    pose proof (cp_of C_GINC _ _ _ _ _ E N Dc Eu) as Ec. rewrite Ec in U. clear Eu Dc E.
    rewrite (lift_same E_GINC) by congruence.
    rewrite (ginc_back _ _ _ _ U I). split.
    + intros H. exists w. split; [exact U|exact H].
    + intros (v0 & V & H). apply (ginc_back _ _ _ _ U I), (ginc_back _ _ _ _ V I). exact H.
  - pose proof I as I0. apply grai_iff in I0 as (U & _). pose proof U as U0.
    destruct U0 as (Eu & (Dc & _) & _).
    pose proof (cp_of C_GRAI _ _ _ _ _ E N Dc Eu) as Ec. rewrite Ec in U. clear Eu Dc E.
    rewrite (lift_same E_GRAI) by congruence.
    rewrite (grai_back _ _ _ _ _ U I). split.
    + intros H. exists (grai_asset x), (grai_serial x). split; [exact U|exact H].
    + intros (v0 & v1 & V & H). apply (grai_back _ _ _ _ _ U I), (grai_back _ _ _ _ _ V I). exact H.
  - pose proof I as I0. apply gsin_iff in I0 as (U & _). pose proof U as U0.
    destruct U0 as (Eu & (Dc & _) & _).
    pose proof (cp_of C_GSIN _ _ _ _ _ E N Dc Eu) as Ec. rewrite Ec in U. clear Eu Dc E.
    rewrite (lift_same E_GSIN) by congruence.
    split; [intros _; exists (gsin_ref x); exact U|intros _; exact (gsin_back _ _ _ _ U I)].
  - pose proof I as I0. apply gsrn_iff in I0 as (U & _). pose proof U as U0.
    destruct U0 as (Eu & (Dc & _) & _).
    pose proof (cp_of C_GSRN _ _ _ _ _ E N Dc Eu) as Ec. rewrite Ec in U. clear Eu Dc E.
    rewrite (lift_same E_GSRN) by congruence.
    split; [intros _; exists (gsrn_service x); exact U|intros _; exact (gsrn_back _ _ _ _ U I)].
  - pose proof I as I0. apply gsrnp_iff in I0 as (U & _). pose proof U as U0.
    destruct U0 as (Eu & (Dc & _) & _).
    pose proof (cp_of C_GSRNP _ _ _ _ _ E N Dc Eu) as Ec. rewrite Ec in U. clear Eu Dc E.
    rewrite (lift_same E_GSRNP) by congruence.
    split; [intros _; exists (gsrnp_service x); exact U|intros _; exact (gsrnp_back _ _ _ _ U I)].
  - pose proof I as I0. apply itip_iff in I0 as (U & _). pose proof U as U0.
    destruct U0 as (Eu & (Dc & _) & _).
    pose proof (cp_of C_ITIP _ _ _ _ _ E N Dc Eu) as Ec. rewrite Ec in U. clear Eu Dc E.
    assert (X : forall g, lift E_ITIP (itip_from_gs1_element_string g (Z.of_nat (length cp))) = Ok (E_ITIP x)
               <-> itip_from_gs1_element_string g (Z.of_nat (length cp)) = Ok x) by (intros g; apply lift_same; congruence).
    setoid_rewrite X. clear X. rewrite (itip_back _ _ _ _ _ _ _ U I). split.
    + intros H. exists (itip_item x), (itip_piece x), (itip_total x), (itip_serial x). split; [exact U|exact H].
    + intros (v0 & v1 & v2 & v3 & V & H). apply (itip_back _ _ _ _ _ _ _ U I), (itip_back _ _ _ _ _ _ _ V I). exact H.
  - pose proof I as I0. apply lgtin_iff in I0 as (w & U & _). pose proof U as U0.
    destruct U0 as (Eu & (Dc & _) & _).
    pose proof (cp_of C_LGTIN _ _ _ _ _ E N Dc Eu) as Ec. rewrite Ec in U. clear Eu Dc E.
    rewrite (lift_same E_LGTIN) by congruence.
    rewrite (lgtin_back _ _ _ _ _ U I). split.
    + intros H. exists (lgtin_item x), w. split; [exact U|exact H].
    + intros (v0 & v1 & V & H). apply (lgtin_back _ _ _ _ _ U I), (lgtin_back _ _ _ _ _ V I). exact H.
  - pose proof I as I0. apply pgln_iff in I0 as (U & _). pose proof U as U0.
    destruct U0 as (Eu & (Dc & _) & _).
    pose proof (cp_of C_PGLN _ _ _ _ _ E N Dc Eu) as Ec. rewrite Ec in U. clear Eu Dc E.
    rewrite (lift_same E_PGLN) by congruence.
    split; [intros _; exists (pgln_party x); exact U|intros _; exact (pgln_back _ _ _ _ U I)].
  - pose proof I as I0. apply sgcn_iff in I0 as (U & _). pose proof U as U0.
    destruct U0 as (Eu & (Dc & _) & _).
    pose proof (cp_of C_SGCN _ _ _ _ _ E N Dc Eu) as Ec. rewrite Ec in U. clear Eu Dc E.
    rewrite (lift_same E_SGCN) by congruence.
    rewrite (sgcn_back _ _ _ _ _ U I). split.
    + intros H. exists (sgcn_coupon x), (sgcn_serial x). split; [exact U|exact H].
    + intros (v0 & v1 & V & H). apply (sgcn_back _ _ _ _ _ U I), (sgcn_back _ _ _ _ _ V I). exact H.
  - pose proof I as I0. apply sgln_iff in I0 as (U & _). pose proof U as U0.
    destruct U0 as (Eu & (Dc & _) & _).
    pose proof (cp_of C_SGLN _ _ _ _ _ E N Dc Eu) as Ec. rewrite Ec in U. clear Eu Dc E.
    rewrite (lift_same E_SGLN) by congruence.
    rewrite (sgln_back _ _ _ _ _ U I). split.
    + intros H. exists (sgln_loc x), (sgln_serial x). split; [exact U|exact H].
    + intros (v0 & v1 & V & H). apply (sgln_back _ _ _ _ _ U I), (sgln_back _ _ _ _ _ V I). exact H.
  - pose proof I as I0. apply sgtin_iff in I0 as (U & _). pose proof U as U0.
    destruct U0 as (Eu & (Dc & _) & _).
    pose proof (cp_of C_SGTIN _ _ _ _ _ E N Dc Eu) as Ec. rewrite Ec in U. clear Eu Dc E.
    rewrite (lift_same E_SGTIN) by congruence.
    rewrite (sgtin_back _ _ _ _ _ U I). split.
    + intros H. exists (sgtin_item x), (sgtin_serial x). split; [exact U|exact H].
    + intros (v0 & v1 & V & H). apply (sgtin_back _ _ _ _ _ U I), (sgtin_back _ _ _ _ _ V I). exact H.
  - pose proof I as I0. apply sscc_iff in I0 as (U & _). pose proof U as U0.
    destruct U0 as (Eu & (Dc & _) & _).
    pose proof (cp_of C_SSCC _ _ _ _ _ E N Dc Eu) as Ec. rewrite Ec in U. clear Eu Dc E.
    rewrite (lift_same E_SSCC) by congruence.
    split; [intros _; exists (sscc_serial x); exact U|intros _; exact (sscc_back _ _ _ _ U I)].
  - pose proof I as I0. apply upui_iff in I0 as (w & U & _). pose proof U as U0.
    destruct U0 as (Eu & Dc & _).
    pose proof (cp_of C_UPUI _ _ _ _ _ E N Dc Eu) as Ec. rewrite Ec in U. clear Eu Dc E.
    assert (X : forall g, lift E_UPUI (upui_from_gs1_element_string g (Z.of_nat (length cp))) = Ok (E_UPUI x)
               <-> upui_from_gs1_element_string g (Z.of_nat (length cp)) = Ok x) by (intros g; apply lift_same; congruence).
    setoid_rewrite X. clear X. rewrite (upui_back _ _ _ _ _ U I). split.
    + intros H. exists (upui_item x), w. split; [exact U|exact H].
    + intros (v0 & v1 & V & H). apply (upui_back _ _ _ _ _ U I), (upui_back _ _ _ _ _ V I). exact H.
Qed.
