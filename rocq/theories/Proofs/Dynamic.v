(** Calls with values of any type. *)
From Coq Require Import String Lia Setoid.
From Verif.Model Require Import Py Re Regexes Common Base.
From Verif.Model Require Import Adi Cpi Gdti Giai Gid Grai Gsrn Gsrnp Itip Lgtin Sgcn Sgln Sgtin Sscc Usdod Others Parsers Calls Registry Dynamic.
From Verif.Spec Require Import Spec SpecEscapes SpecGrammar SpecSchemes SpecTags SpecLayout SpecCoding SpecElements SpecCalls SpecHex SpecTexts SpecChain SpecDynamic.
From Verif.Proofs Require Import Basics Num ReLemmas Uni Escapes Grammar Ctor CtorA CtorB CtorC CtorAll Keys ElementRe Elements ElementBack
  ElementAccept Layout Decode DecodeA Filter Hex Texts GtinInt CallArgs GetKey Chain.

Ltac inv H := injection H as <-.

(** * Values that are no text *)

Theorem refused x v ex : refusal (first_use x) v = Some ex -> enter x v = Raises ex.
Proof.
  destruct x; destruct v; cbn [first_use refusal]; intros H; try discriminate H; injection H as <-; reflexivity.
Qed.
Theorem bytes_as_hex x b : first_use x = Number ->
  enter x (V_bytes b) = if forallb is_ascii b then enter x (V_str b) else Raises (Exn ValueError).
Proof.
  destruct x; cbn [first_use]; intros H; try discriminate H; cbn [enter];
    unfold dyn_hex_to_tag_encodable, dyn_from_hex; cbn [dyn_hex_to_binary]; destruct (forallb is_ascii b); reflexivity.
Qed.
Theorem formatted x v t : first_use x = Format -> text_of v = Ok t -> enter x v = enter x (V_str t).
Proof.
  destruct x; cbn [first_use]; intros H T; try discriminate H; cbn [enter];
    unfold dyn_base64_to_tag_encodable, dyn_from_base64, dyn_base64_to_hex; rewrite T; reflexivity.
Qed.

(** a text whose first base64 digit cannot open a header *)
Definition no_opening (s : str) : Prop := match sextets s with [] => True | v :: _ => v < 11 \/ 16 < v end.
Lemma closed_sextets p : closed p -> sextets p <> [].
Proof.
  intros [(a & -> & H)|(a & j & -> & H & _)] E; rewrite sextets_app in E; apply app_eq_nil in E as [E _]; rewrite E in H; discriminate H.
Qed.
Lemma read_part_opening s p : read_part s p -> no_opening s -> no_opening p.
Proof.
  intros (q & -> & _ & [C|[-> _]]); [|rewrite app_nil_r; auto]. unfold no_opening. rewrite sextets_app.
  apply closed_sextets in C. destruct (sextets p); [contradiction|]. cbn [app]. auto.
Qed.
Definition six_headers : list str := map (fun v => six_bits (N.of_nat v)) (seq 11 6).
Lemma header_six k : In (firstn 6 (tag_header k)) six_headers.
Proof. destruct k; vm_compute; tauto. Qed.
Lemma six_bits_in v : v < 64 -> In (six_bits v) six_headers -> 11 <= v <= 16.
Proof.
  intros L. assert (F : forallb (fun n => negb (existsb (str_eqb (six_bits (N.of_nat n))) six_headers) || ((11 <=? n) && (n <=? 16))%nat)
                        (seq 0 64) = true) by (vm_compute; reflexivity).
  rewrite forallb_forall in F. specialize (F (N.to_nat v)). rewrite in_seq in F. specialize (F ltac:(lia)). rewrite N2Nat.id in F.
  intros I. apply Bool.orb_true_iff in F as [F|F].
  - apply Bool.negb_true_iff in F. rewrite <- Bool.not_true_iff_false in F. exfalso. apply F. apply existsb_exists.
    exists (six_bits v). split; [exact I|]. apply str_eqb_eq. reflexivity.
  - apply Bool.andb_true_iff in F as [A B]. apply Nat.leb_le in A, B. lia.
Qed.
Lemma opening_bits p : no_opening p -> no_header (whole_bytes (flat_map six_bits (sextets p))).
Proof.
  intros H k E. unfold no_opening in H. pose proof (sextets_lt p) as L.
  destruct (sextets p) as [|v vs]; [destruct k; discriminate E|].
  inversion L as [|? ? Lv _]; subst. cbn [flat_map] in E. unfold whole_bytes in E.
  set (b := six_bits v ++ flat_map six_bits vs) in *.
  assert (E6 : firstn 6 (firstn 8 (firstn (8 * Nat.div (length b) 8) b)) = firstn 6 (tag_header k)) by now rewrite E.
  assert (L8 : length (firstn 8 (firstn (8 * Nat.div (length b) 8) b)) = 8%nat) by (rewrite E; destruct k; reflexivity).
  rewrite !firstn_length in L8. rewrite !firstn_firstn in E6.
  replace (Nat.min (Nat.min 6 8) (8 * Nat.div (length b) 8)) with 6%nat in E6 by lia.
  unfold b in E6. change 6%nat with (length (six_bits v)) in E6 at 1. rewrite firstn_app, firstn_all, Nat.sub_diag, firstn_O, app_nil_r in E6.
  pose proof (header_six k) as I. rewrite <- E6 in I. apply six_bits_in in I; [|exact Lv]. lia.
Qed.
Lemma unopened s : no_opening s ->
  (base64_to_tag_encodable s = Raise ValueError \/ base64_to_tag_encodable s = Raise ConvertException) /\
  forall c, In c tag_classes -> (from_base64 (from_binary_of c) s = Raise ValueError \/ from_base64 (from_binary_of c) s = Raise KeyError).
Proof.
  intros H. destruct (forallb is_ascii s) eqn:A.
  2:{ assert (E : base64_to_hex s = Raise ValueError).
      { apply base64_non_ascii. intros X. apply ascii_iff in X. congruence. }
      unfold base64_to_tag_encodable, from_base64. rewrite E. auto. }
  apply ascii_iff in A. destruct (base64_read s A) as (p & R & D). apply (read_part_opening _ _ R) in H.
  unfold base64_to_tag_encodable, from_base64.
  destruct (Nat.eqb _ 1); [rewrite D; cbn [bind]; auto|]. destruct D as (h & -> & X & B). cbn [bind].
  unfold hex_to_tag_encodable, from_hex. apply opening_bits in H. rewrite <- B in H.
  destruct h as [|a h]; [cbn [bind]; auto|]. rewrite hex_reads by (try exact X; discriminate). cbn [bind].
  split; [right; apply unknown_header; exact H|]. intros c C. right. apply wrong_header; [exact C|]. intros k _. apply H.
Qed.

Lemma digit_opening c : 48 <= c <= 57 -> position c base64_alphabet = Some (c + 4).
Proof. intros H. assert (c = 48 \/ c = 49 \/ c = 50 \/ c = 51 \/ c = 52 \/ c = 53 \/ c = 54 \/ c = 55 \/ c = 56 \/ c = 57) as D by lia.
  repeat destruct D as [->|D]; subst; reflexivity. Qed.
Lemma opening_cons c s v : position c base64_alphabet = Some v -> v < 11 \/ 16 < v -> no_opening (c :: s).
Proof. intros P H. unfold no_opening. cbn [sextets flat_map]. rewrite P. exact H. Qed.
Lemma opening_skip c s : position c base64_alphabet = None -> no_opening s -> no_opening (c :: s).
Proof. intros P H. unfold no_opening. cbn [sextets flat_map]. rewrite P. exact H. Qed.
Lemma opening_digit c s : 48 <= c <= 57 -> no_opening (c :: s).
Proof. intros H. apply (opening_cons _ _ _ (digit_opening c H)). lia. Qed.
Lemma opening_ndec n s : no_opening (ndec n ++ s).
Proof.
  pose proof (ndec_digits n) as D. pose proof (ndec_nonempty n) as E. destruct (ndec n) as [|c r]; [contradiction|].
  cbn [forallb] in D. apply Bool.andb_true_iff in D as [D _]. apply opening_digit. unfold is_digit in D.
  apply Bool.andb_true_iff in D as [A B]. apply N.leb_le in A, B. unfold c_0 in *. lia.
Qed.
Lemma text_opening v t : possible v -> ~ is_text v -> v <> V_none -> text_of v = Ok t -> no_opening t.
Proof.
  intros P NT NN T. destruct v; cbn [text_of] in T; try (injection T as <-).
  - contradiction.
  - destruct b; (eapply opening_cons; [reflexivity|lia]).
  - unfold str_int in T. destruct (_ <? _) in T; [discriminate T|]. injection T as <-. unfold dec, signed.
    destruct (z <? 0)%Z; [apply opening_skip; [reflexivity|]|]; rewrite <- (app_nil_r (ndec _)); apply opening_ndec.
  - destruct P as (sg & c & r & -> & S & C).
    assert (X : no_opening (c :: r)).
    { destruct C as [C|[<-|[<-|[]]]]; [now apply opening_digit| |]; (eapply opening_cons; [reflexivity|lia]). }
    destruct S as [->| ->]; [exact X|]. apply opening_skip; [reflexivity|exact X].
  - exfalso. apply NT. eexists. reflexivity.
  - unfold bytes_repr. cbn [lit app]. eapply opening_cons; [reflexivity|lia].
  - cbn [lit app]. eapply opening_cons; [reflexivity|lia].
  - cbn [lit app]. eapply opening_cons; [reflexivity|lia].
  - destruct c; cbn [class_name lit app]; cbn [possible filter_value_enum] in P; try contradiction P; (eapply opening_cons; [reflexivity|lia]).
  - rewrite <- (app_nil_r (ndec _)). apply opening_ndec.
  - destruct P as (r & ->). cbn [lit app]. apply opening_skip; [reflexivity|]. eapply opening_cons; [reflexivity|lia].
Qed.
Theorem formatted_refused x v : first_use x = Format -> x <> X_base64_hex -> tag_entry x -> possible v -> ~ is_text v ->
  exists e, enter x v = Raises (Exn e) /\ In e [ConvertException; KeyError; ValueError].
Proof.
  intros F NH C P NT.
  destruct (text_of v) as [t|ex] eqn:T.
  2:{ exists ex. assert (ex = ValueError) as ->.
      { destruct v; try discriminate T. cbn [text_of] in T. unfold str_int in T. destruct (_ <? _) in T; [|discriminate T]. now injection T. }
      split; [|cbn; auto]. destruct x; try discriminate F; [contradiction| |]; cbn [enter];
        unfold dyn_base64_to_tag_encodable, dyn_from_base64, dyn_base64_to_hex; rewrite T; reflexivity. }
  rewrite (formatted x v t F T).
  assert (D : v = V_none \/ v <> V_none) by (destruct v; [left; reflexivity|right; discriminate..]).
  destruct D as [->|NN].
  - injection T as <-. destruct x; try discriminate F; [contradiction| |].
    + eexists. split; [vm_compute; reflexivity|]. cbn. auto.
    + cbn [tag_entry] in C. destruct c; try (exfalso; revert C; vm_compute; repeat (intros [X|C]; [discriminate X|revert C]); intros []; fail);
        (eexists; split; [vm_compute; reflexivity|cbn; auto]).
  - pose proof (text_opening v t P NT NN T) as O. destruct (unopened t O) as [A B].
    destruct x; try discriminate F; [contradiction| |]; cbn [enter].
    + change (dyn_base64_to_tag_encodable (V_str t)) with (pybind (known (base64_to_hex t)) (fun h => known (hex_to_tag_encodable h))).
      unfold base64_to_tag_encodable in A. destruct (base64_to_hex t); cbn [known pybind bind] in *.
      * destruct A as [->| ->]; cbn; eauto 6.
      * destruct A as [A|A]; injection A as ->; cbn; eauto 6.
    + specialize (B c C).
      change (dyn_from_base64 c (V_str t)) with (pybind (known (base64_to_hex t)) (fun h => known (from_hex (from_binary_of c) h))).
      unfold from_base64 in B. destruct (base64_to_hex t); cbn [known pybind bind] in *.
      * destruct B as [->| ->]; cbn; eauto 6.
      * destruct B as [B|B]; injection B as ->; cbn; eauto 6.
Qed.

(** * The length of the company prefix *)

Lemma integer_as_int v z : integer v z <-> as_int v = Some z.
Proof.
  split.
  - intros [->|[[-> ->]|[[-> ->]|(t & -> & ->)]]]; reflexivity.
  - destruct v; cbn [as_int]; intros H; try discriminate H; injection H as <-.
    + destruct b; [right; left|right; right; left]; auto.
    + left. reflexivity.
    + right; right; right. eauto.
Qed.
Theorem length_integer c g l z : integer l z -> dyn_from_gs1_element_string c (V_str g) l = known (from_gs1_element_string_of c g z).
Proof. intros H. apply integer_as_int in H. unfold dyn_from_gs1_element_string. cbn [match_first]. rewrite H. reflexivity. Qed.
Lemma first_regex_class d g c : first_regex d g = Some c -> exists r, In (r, c) d /\ fullmatch r g = true.
Proof.
  induction d as [|[r c'] d IH]; cbn [first_regex]; [discriminate|]. destruct (fullmatch r g) eqn:F.
  - intros H. injection H as ->. exists r. split; [left; reflexivity|exact F].
  - intros H. destruct (IH H) as (r' & I & F'). exists r'. split; [right; exact I|exact F'].
Qed.
Theorem element_integer g l z : integer l z -> dyn_gs1_element_string_to_gs1_element (V_str g) l = known (gs1_element_string_to_gs1_element g z).
Proof.
  intros H. unfold dyn_gs1_element_string_to_gs1_element, gs1_element_string_to_gs1_element. cbn [match_first].
  destruct (first_regex GS1_ELEMENT_STRING_REGEX_TO_SCHEME g) as [c|]; cbn [of_option known pybind bind]; [|reflexivity].
  apply length_integer. exact H.
Qed.
Theorem length_other c v l e : dyn_from_gs1_element_string c v l = Returns e -> is_text v /\ (l = V_none \/ exists z, integer l z).
Proof.
  intros H. destruct v; try discriminate H. split; [eexists; reflexivity|]. unfold dyn_from_gs1_element_string in H. cbn [match_first] in H.
  destruct (as_int l) as [z|] eqn:E; [right; exists z; now apply integer_as_int|].
  destruct l; try (left; reflexivity); exfalso; revert H; (destruct (fullmatch _ s); [destruct (cut_element_string c s)|]); discriminate.
Qed.

Lemma slz_all {A} (d : list A) : slz None None d = d.
Proof. unfold slz. rewrite Z.sub_0_r, Nat2Z.id. cbn [Z.to_nat skipn]. apply firstn_all. Qed.
Lemma long_prefix p (d rest cp rest' : str) :
  p ++ d ++ [c_dot] ++ rest = p ++ cp ++ lit "." ++ rest' -> digits d -> company_prefix cp -> (12 < length d)%nat -> False.
Proof.
  intros E D [Dc Lc] L. apply app_inv_head in E. apply cut_dot in E as [-> _]; [lia|apply nodot_digits, D|apply nodot_digits, Dc].
Qed.
Lemma known_returns {A} (r : res A) a : known r = Returns a <-> r = Ok a.
Proof. destruct r; cbn; split; intros H; try discriminate H; injection H as ->; reflexivity. Qed.

Lemma raise_if_ok b e x : raise_if b e = Ok x -> b = false.
Proof. destruct b; cbn; [discriminate|reflexivity]. Qed.
Lemma length_none_slice c g e : slice_length c = true -> from_gs1_element_string_slice c g None = Ok e -> c = C_CPI.
Proof.
  intros S H. destruct c; try discriminate S; try reflexivity; exfalso; cbn [from_gs1_element_string_slice] in H;
    match type of H with context [fullmatch ?r g] => destruct (fullmatch r g) eqn:F; [|discriminate H]; cbn [negb raise_if bind] in H end.
  - apply (element_regex C_GDTI) in F as (d & t & -> & [D L] & T). rewrite !slz_all in H.
    pose proof (sl_lit (lit "(253)") d t) as A. rewrite L in A. change (sl 5 18 (lit "(253)" ++ d ++ t) = d) in A. rewrite A in H.
    apply lift_ok in H as (x & H & _). apply gdti_iff in H as ((U & C & _) & _). eapply long_prefix; [exact U|exact D|exact C|lia].
  - apply (element_regex C_GRAI) in F as (d & t & -> & [D L] & T). rewrite !slz_all in H.
    pose proof (sl_lit (lit "(8003)0") d t) as A. rewrite L in A. change (sl 7 20 (lit "(8003)0" ++ d ++ t) = d) in A. rewrite A in H.
    apply lift_ok in H as (x & H & _). apply grai_iff in H as ((U & C & _) & _). eapply long_prefix; [exact U|exact D|exact C|lia].
  - apply (element_regex C_GSIN) in F as (d' & -> & [D' L']). destruct (snoc_of d' 16 L') as (d & k & -> & L).
    assert (D : digits d) by (intros c I; apply D', in_or_app; left; exact I).
    rewrite (slz_mid_neg (lit "(402)") d [k]) in H by (try reflexivity; discriminate). rewrite !slz_all in H.
    apply lift_ok in H as (x & H & _). apply gsin_iff in H as ((U & C & _) & _). eapply long_prefix; [exact U|exact D|exact C|lia].
  - apply (element_regex C_GSRN) in F as (d & -> & [D L]). rewrite !slz_all in H. change (skipn 6 (lit "(8018)" ++ d)) with d in H.
    apply lift_ok in H as (x & H & _). apply gsrn_iff in H as ((U & C & _) & _). eapply long_prefix; [exact U|exact D|exact C|lia].
  - apply (element_regex C_GSRNP) in F as (d & -> & [D L]). rewrite !slz_all in H. change (skipn 6 (lit "(8017)" ++ d)) with d in H.
    apply lift_ok in H as (x & H & _). apply gsrnp_iff in H as ((U & C & _) & _). eapply long_prefix; [exact U|exact D|exact C|lia].
  - apply (element_regex C_PGLN) in F as (d & -> & [D L]). rewrite !slz_all in H. change (skipn 5 (lit "(417)" ++ d)) with d in H.
    apply lift_ok in H as (x & H & _). apply pgln_iff in H as ((U & C & _) & _). eapply long_prefix; [exact U|exact D|exact C|lia].
  - apply (element_regex C_SGCN) in F as (d & t & -> & [D L] & T). rewrite !slz_all in H.
    pose proof (sl_lit (lit "(255)") d t) as A. rewrite L in A. change (sl 5 18 (lit "(255)" ++ d ++ t) = d) in A. rewrite A in H.
    apply lift_ok in H as (x & H & _). apply sgcn_iff in H as ((U & C & _) & _). eapply long_prefix; [exact U|exact D|exact C|lia].
  - apply (element_regex C_SGLN) in F as (d & t & -> & [D L] & T). change m_paren3 with (m_group 3) in H.
    destruct (split3 3 (lit "414") d (lit "254") t) as [[S' B]|[S' B]];
      try reflexivity; try (intros [X|[X|[X|[]]]]; discriminate X); [exact D|apply T| |].
    + pose proof (eq_trans (eq_sym (bind_ok_eq _ _ _ S')) H) as H'. cbv beta iota in H'. rewrite !slz_all in H'.
      apply lift_ok in H' as (x & H' & _). apply sgln_iff in H' as ((U & C & _) & _). eapply long_prefix; [exact U|exact D|exact C|lia].
    + pose proof (eq_trans (eq_sym (bind_raise_eq _ _ _ S')) H) as H'. discriminate H'.
Qed.
Lemma cpi_escape_digits d : digits d -> cpi_escape d = d.
Proof.
  induction d as [|c d IH]; [reflexivity|]. intros D. unfold cpi_escape in *. cbn [flat_map].
  rewrite IH by (intros x I; apply D; right; exact I). specialize (D c (or_introl eq_refl)). unfold cpi_esc_char.
  destruct (N.eqb_spec c 35) as [->|_]; [exfalso; apply D; reflexivity|].
  destruct (N.eqb_spec c 47) as [->|_]; [exfalso; apply D; reflexivity|]. reflexivity.
Qed.
Theorem length_none c g e : dyn_from_gs1_element_string c (V_str g) V_none = Returns e ->
  c = C_CPI /\ exists d n, g = lit "(8010)" ++ d ++ lit "(8011)" ++ n /\ company_prefix d /\
    epc_uri e = lit "urn:epc:id:cpi:" ++ d ++ lit "." ++ d ++ lit "." ++ n.
Proof.
  intros H. unfold dyn_from_gs1_element_string in H. cbn [match_first as_int] in H.
  destruct (fullmatch (gs1_element_string_regex c) g) eqn:F; cbn [negb raise_if known pybind] in H; [|discriminate H].
  destruct (cut_element_string c g); cbn [known pybind] in H; [|discriminate H]. destruct (slice_length c) eqn:S; [|discriminate H]. apply known_returns in H. pose proof (length_none_slice c g e S H) as ->.
  split; [reflexivity|]. apply element_regex in F as (d & t & n & -> & D & D' & T & T' & N & N').
  cbn [from_gs1_element_string_slice] in H. destruct (fullmatch _ _) in H; [|discriminate H]. cbn [negb raise_if bind] in H.
  assert (Sp : re_split m_paren4 (lit "(8010)" ++ d ++ t ++ lit "(8011)" ++ n) = [[]; d ++ t; n]).
  { change m_paren4 with (m_group 4). assert (P : ~ In 40 (d ++ t)).
    { intros I. apply in_app_or in I as [I|I]; [exact (digits_noparen _ D I)|]. apply T in I. lia. }
    unfold re_split. pose proof (re_split_hit 4 (lit "8010") (d ++ t ++ lit "(8011)" ++ n) []) as X.
    refine (eq_trans (X eq_refl _) _); [intros [Y|[Y|[Y|[Y|[]]]]]; discriminate Y|]. cbn [rev]. f_equal.
    rewrite app_assoc, re_split_run by exact P. rewrite app_nil_r.
    pose proof (re_split_hit 4 (lit "8011") n (rev (d ++ t))) as X'.
    refine (eq_trans (X' eq_refl _) _); [intros [Y|[Y|[Y|[Y|[]]]]]; discriminate Y|]. rewrite rev_involutive. f_equal.
    pose proof (re_split_run 4 n [] [] (digits_noparen _ N)) as R. rewrite !app_nil_r in R. rewrite R. cbn [split_aux].
    rewrite rev_involutive. reflexivity. }
  rewrite Sp in H. cbn [unpack3 bind] in H. rewrite !slz_all, revert_cpi_escapes_spec in H.
  apply lift_ok in H as (x & H & ->). apply cpi_iff in H as ((U & C & _) & Eu).
  assert (C0 := C). destruct C as [Dc Lc].
  pose proof U as U'. apply app_inv_head in U'. apply cut_dot in U' as [Hc _].
  2:{ intros I. apply in_app_or in I as [I|I]; [exact (nodot_digits _ D I)|]. apply T in I. lia. }
  2:{ apply nodot_digits, Dc. }
  exists (d ++ t), n. split; [rewrite <- !app_assoc; reflexivity|]. rewrite Hc in *. split; [exact C0|].
  cbn [epc_uri]. rewrite Eu, cpi_escape_digits by exact Dc. reflexivity.
Qed.
Theorem length_none_refuted : ~ (forall c g e, dyn_from_gs1_element_string c (V_str g) V_none <> Returns e).
Proof.
  intros H. destruct (cpi_init (lit "urn:epc:id:cpi:1234567.1234567.1")) as [x|] eqn:E; [|vm_compute in E; discriminate E].
  apply (H C_CPI (lit "(8010)1234567(8011)1") (E_CPI x)). vm_compute in E. injection E as <-. vm_compute. reflexivity.
Qed.
Theorem element_length v l e : dyn_gs1_element_string_to_gs1_element v l = Returns e ->
  is_text v /\ (l = V_none \/ exists z, integer l z).
Proof.
  intros H. destruct v; try discriminate H. split; [eexists; reflexivity|]. unfold dyn_gs1_element_string_to_gs1_element in H. cbn [match_first] in H.
  destruct (first_regex _ s) as [c|]; [|discriminate H]. cbn [of_option known pybind] in H. apply length_other in H. apply H.
Qed.

(** * from_gtin_plus_serial *)

Theorem gtin_serial gtin serial l e : dyn_from_gtin_plus_serial gtin serial l = Returns e ->
  exists g s z x, gtin = V_str g /\ text_of serial = Ok s /\ integer l z /\ sgtin_from_gtin_plus_serial g s z = Ok x /\ e = E_SGTIN x.
Proof.
  intros H. destruct gtin; try discriminate H; cbn [dyn_from_gtin_plus_serial] in H; destruct (as_int l) as [z|] eqn:L; try discriminate H.
  - destruct (text_of serial) as [t|] eqn:T; [|discriminate H]. cbn [known pybind] in H. apply known_returns, lift_ok in H as (x & H & ->).
    exists s, t, z, x. rewrite integer_as_int. auto.
  - exfalso. destruct (idx _ 0); [|discriminate H]. cbn [known pybind] in H. destruct (text_of serial); [|discriminate H].
    cbn [known pybind] in H. apply known_returns, lift_ok in H as (x & H & _). apply sgtin_iff in H as ((U & (Dc & Lc) & _) & _).
    apply app_inv_head in U. destruct (sgtin_cp x) as [|c cp]; [cbn in Lc; lia|]. unfold bytes_repr in U. cbn [lit app] in U.
    injection U as <- _. specialize (Dc 98 (or_introl eq_refl)). apply Dc. reflexivity.
Qed.
Theorem gtin_serial_text g serial s l z : text_of serial = Ok s -> integer l z ->
  dyn_from_gtin_plus_serial (V_str g) serial l = known (lift E_SGTIN (sgtin_from_gtin_plus_serial g s z)).
Proof. intros T L. apply integer_as_int in L. unfold dyn_from_gtin_plus_serial. rewrite L, T. reflexivity. Qed.

(** * gs1_key *)

Theorem key_integer e v k : dyn_gs1_key e (Some v) = Returns k ->
  exists z, integer v z /\ dyn_gs1_key e (Some (V_int z)) = Returns k /\ (class_of e = C_SGTIN \/ class_of e = C_LGTIN).
Proof.
  unfold dyn_gs1_key. destruct (as_int v) as [z|] eqn:L; intros H; destruct e; try discriminate H; exists z; rewrite integer_as_int; cbn [as_int class_of]; auto.
Qed.
Lemma key_type e t : init_of (class_of e) (epc_uri e) = Ok e -> dyn_gs1_key e (Some (V_gtin t)) = known (epc_gs1_key e (Some t)).
Proof.
  intros I. destruct e; try reflexivity; cbn [class_of epc_uri init_of] in I; apply lift_ok in I as (y & I & E); injection E as <-.
  - destruct (lgtin_integer _ _ I) as (g & _ & _ & X & _). cbn [dyn_gs1_key as_int epc_gs1_key]. rewrite X. reflexivity.
  - destruct (sgtin_integer _ _ I) as (g & _ & _ & X & _). cbn [dyn_gs1_key as_int epc_gs1_key]. rewrite X. reflexivity.
Qed.
Lemma key_value e kw : init_of (class_of e) (epc_uri e) = Ok e -> dyn_gs1_key e (kw_value kw) = known (epc_gs1_key e kw).
Proof. intros I. destruct kw as [t|]; [now apply key_type|reflexivity]. Qed.
Theorem pure_key s kw : dyn_pure_identity_to_gs1_key (V_str s) (kw_value kw) = known (epc_pure_identity_to_gs1_key s kw).
Proof.
  unfold dyn_pure_identity_to_gs1_key, epc_pure_identity_to_gs1_key. cbn [dyn_pure_identity_to_gs1_keyed split_first].
  destruct (epc_pure_identity_to_gs1_keyed s) as [e|] eqn:E; [|reflexivity]. cbn [known pybind bind]. apply key_value.
  apply (read_sound (R_pure s)). cbn [read]. unfold epc_pure_identity_to_gs1_keyed in E.
  destruct (epc_pure_identity_to_scheme s); [|discriminate E]. cbn [bind] in E. destruct (is_gs1_keyed (class_of a)); [|discriminate E]. cbn in E. congruence.
Qed.
Lemma get_key_parts (r : res epc) kw : (forall e, r = Ok e -> init_of (class_of e) (epc_uri e) = Ok e) ->
  pybind (known (lift Some r)) (fun scheme => match scheme with
    | Some e => if is_gs1_keyed (class_of e) then dyn_gs1_key e (kw_value kw) else Raises (Exn ConvertException)
    | None => Raises (Exn ConvertException) end) =
  known (bind (lift Some r) (fun scheme => match scheme with
    | Some e => if is_gs1_keyed (class_of e) then epc_gs1_key e kw else Raise ConvertException
    | None => Raise ConvertException end)).
Proof.
  intros H. destruct r as [e|]; [|reflexivity]. unfold lift. cbn [bind known pybind]. destruct (is_gs1_keyed _); [|reflexivity]. apply key_value, H. reflexivity.
Qed.
Theorem get_key_typed s l kw : dyn_get_gs1_key (V_str s) (length_value l) (kw_value kw) = known (get_gs1_key s l kw).
Proof.
  unfold dyn_get_gs1_key, get_gs1_key. cbn [match_first].
  destruct (fullmatch EPC_URI s); [apply get_key_parts; intros e; apply (read_sound (R_pure s))|].
  assert (T : true_value (length_value l) = match truthy l with Some _ => true | None => false end).
  { destruct l as [z|]; [|reflexivity]. cbn [length_value true_value]. unfold truthy. destruct z; reflexivity. }
  rewrite T. destruct (fullmatch GS1_ELEMENT_STRING s).
  - cbn [andb]. destruct (truthy l) as [z|] eqn:L.
    + assert (l = Some z) as ->. { unfold truthy in L. destruct l as [w|]; [destruct (w =? 0)%Z; congruence|discriminate L]. }
      rewrite (element_integer s (length_value (Some z)) z) by (left; reflexivity).
      rewrite <- (get_key_parts (gs1_element_string_to_gs1_element s z)); [|intros e; apply (read_sound (R_element s z))].
      destruct (gs1_element_string_to_gs1_element s z); reflexivity.
    + destruct (fullmatch TAG_URI s); [apply get_key_parts; intros e; apply (read_sound (R_tag_uri s))|].
      destruct (fullmatch IDPAT_URI s); [apply get_key_parts; intros e; apply idpat_sound|].
      destruct (is_some _); [apply get_key_parts; intros e; apply (read_sound (R_binary s))|].
      destruct (is_some _); [apply get_key_parts; intros e; apply (read_sound (R_hex s))|]. reflexivity.
  - cbn [andb].
    destruct (fullmatch TAG_URI s); [apply get_key_parts; intros e; apply (read_sound (R_tag_uri s))|].
      destruct (fullmatch IDPAT_URI s); [apply get_key_parts; intros e; apply idpat_sound|].
      destruct (is_some _); [apply get_key_parts; intros e; apply (read_sound (R_binary s))|].
      destruct (is_some _); [apply get_key_parts; intros e; apply (read_sound (R_hex s))|]. reflexivity.
Qed.
Theorem get_key_false v l kw : true_value l = false -> dyn_get_gs1_key v l kw = dyn_get_gs1_key v V_none kw.
Proof. intros H. unfold dyn_get_gs1_key. destruct v; try reflexivity. cbn [match_first]. rewrite H.
  change (true_value V_none) with false. destruct (fullmatch GS1_ELEMENT_STRING s); reflexivity. Qed.
Theorem get_key_element c s l kw k : element_string c s -> dyn_get_gs1_key (V_str s) l kw = Returns k -> exists z, integer l z.
Proof.
  intros E H. unfold dyn_get_gs1_key in H. cbn [match_first] in H.
  assert (G : fullmatch GS1_ELEMENT_STRING s = true) by (apply gs1_element_any; eauto). rewrite G in H.
  destruct (element_paren s G) as (r & X). destruct (not_uri s 40 r X ltac:(discriminate)) as (U1 & U2 & U3). rewrite U1, U2, U3 in H.
  rewrite (no_bin s 40 r X), (no_hex s 40 r X) in H by (discriminate || lia).
  destruct (true_value l) eqn:T; cbn [andb] in H; [|discriminate H].
  destruct (dyn_gs1_element_string_to_gs1_element (V_str s) l) as [e|] eqn:D; [|discriminate H].
  apply element_length in D as [_ [->|D]]; [discriminate T|exact D].
Qed.

(** * tag_uri and binary *)

Lemma pybind_returns {A B} (x : pyres A) (f : A -> pyres B) b : pybind x f = Returns b -> exists a, x = Returns a /\ f a = Returns b.
Proof. destruct x; cbn; [eauto|discriminate]. Qed.
Lemma attr_member v t : attr_value v = Returns t -> is_member v.
Proof. destruct v; cbn; intros H; try discriminate H; exact I. Qed.
Theorem tag_uri_arguments e s f t : dyn_tag_uri e s f = Returns t -> is_member s /\ (class_of e = C_GID \/ is_member f).
Proof.
  intros H. unfold dyn_tag_uri in H. apply pybind_returns in H as (a & _ & H). apply pybind_returns in H as (a' & _ & H).
  apply pybind_returns in H as (a2 & _ & H). apply pybind_returns in H as (sv & S & H). apply pybind_returns in H as (fv & F & _).
  split; [exact (attr_member _ _ S)|].
  destruct e; try (left; reflexivity); right; apply pybind_returns in F as (y & Fy & _); exact (attr_member _ _ Fy).
Qed.

Definition all_schemes : list member :=
  [M_ADI ADI_VAR; M_CPI CPI_96; M_CPI CPI_VAR; M_GDTI GDTI_96; M_GDTI GDTI_174; M_GIAI GIAI_96; M_GIAI GIAI_202; M_GID GID_96;
   M_GRAI GRAI_96; M_GRAI GRAI_170; M_GSRN GSRN_96; M_GSRNP GSRNP_96; M_ITIP ITIP_110; M_ITIP ITIP_212; M_SGCN SGCN_96;
   M_SGLN SGLN_96; M_SGLN SGLN_195; M_SGTIN SGTIN_96; M_SGTIN SGTIN_198; M_SSCC SSCC_96; M_USDOD USDOD_96].
Lemma all_schemes_in m : member_class m <> None -> In m all_schemes.
Proof. intros H. destruct m; cbn [member_class] in H; try congruence; destruct s; cbn [In all_schemes]; tauto. Qed.
Definition cls_eqb (c d : cls) : bool := str_eqb (class_name c) (class_name d).
Lemma cls_eqb_eq c d : cls_eqb c d = true -> c = d.
Proof. destruct c, d; intros H; try reflexivity; discriminate H. Qed.
Definition has_header (c : cls) (name : str) : bool := match header_of_scheme c name with Ok _ => true | Raise _ => false end.
Lemma all_classes c : In c EPC_SCHEMES.
Proof. destruct c; cbn; tauto. Qed.
Lemma scheme_headers c m : member_class m <> None -> has_header c (coding_name m) = true -> member_class m = Some c.
Proof.
  intros M. assert (F : forallb (fun m => forallb (fun c => negb (has_header c (coding_name m)) ||
      match member_class m with Some d => cls_eqb d c | None => false end) EPC_SCHEMES) all_schemes = true) by (vm_compute; reflexivity).
  rewrite forallb_forall in F. specialize (F m (all_schemes_in m M)). rewrite forallb_forall in F. specialize (F c (all_classes c)).
  intros H. rewrite H in F. cbn [negb orb] in F. destruct (member_class m) as [d|]; [|discriminate F]. apply cls_eqb_eq in F as ->. reflexivity.
Qed.
Lemma header_headers c d name bits : In (name, bits) (binary_header_enum d) -> has_header c name = true -> d = c.
Proof.
  intros M. assert (F : forallb (fun d => forallb (fun p => forallb (fun c => negb (has_header c (fst p)) || cls_eqb d c) EPC_SCHEMES) (binary_header_enum d)) EPC_SCHEMES = true)
    by (vm_compute; reflexivity).
  rewrite forallb_forall in F. specialize (F d (all_classes d)). rewrite forallb_forall in F. specialize (F _ M). rewrite forallb_forall in F.
  specialize (F c (all_classes c)). cbn [fst] in F. intros H. rewrite H in F. apply cls_eqb_eq, F.
Qed.
Lemma filter_headers c d name v : In (name, v) (filter_value_enum d) -> has_header c name = false.
Proof.
  intros M. assert (F : forallb (fun d => forallb (fun p => forallb (fun c => negb (has_header c (fst p))) EPC_SCHEMES) (filter_value_enum d)) EPC_SCHEMES = true)
    by (vm_compute; reflexivity).
  rewrite forallb_forall in F. specialize (F d (all_classes d)). rewrite forallb_forall in F. specialize (F _ M). rewrite forallb_forall in F.
  specialize (F c (all_classes c)). cbn [fst] in F. now apply Bool.negb_true_iff in F.
Qed.
Lemma gtin_headers c t : has_header c (gtin_name t) = false.
Proof. destruct c, t; vm_compute; reflexivity. Qed.
Lemma scheme_number m : member_class m <> None -> int10 (member_value m) = Raise ValueError.
Proof. intros M. apply all_schemes_in in M. repeat (destruct M as [<-|M]; [vm_compute; reflexivity|]). destruct M. Qed.
Theorem binary_arguments e s f b : possible s -> possible f -> dyn_binary e s f = Returns b ->
  names_scheme (class_of e) s /\ (class_of e = C_GID \/ numeric_member f).
Proof.
  intros Ps Pf H. unfold dyn_binary in H. apply pybind_returns in H as (name & Nm & H). apply pybind_returns in H as (h & Hh & H).
  apply pybind_returns in H as (n & F & _). apply known_returns in Hh. assert (X : has_header (class_of e) name = true) by (unfold has_header; rewrite Hh; reflexivity).
  split.
  - destruct s; try discriminate Nm; injection Nm as <-.
    + left. eexists. split; [reflexivity|]. apply scheme_headers; assumption.
    + right. cbn [possible] in Ps. rewrite <- (header_headers (class_of e) _ _ _ Ps X). eauto.
    + cbn [possible] in Ps. rewrite (filter_headers _ _ _ _ Ps) in X. discriminate X.
    + rewrite gtin_headers in X. discriminate X.
  - assert (D : class_of e = C_GID \/ (let? t := attr_value f in known (int10 t)) = Returns n).
    { destruct e; try (right; exact F). left. reflexivity. }
    destruct D as [D|D]; [left; exact D|right]. apply pybind_returns in D as (t & T & D). apply known_returns in D.
    destruct f; try discriminate T; try exact I. injection T as <-. rewrite scheme_number in D by exact Pf. discriminate D.
Qed.

Lemma last_other c m : last_scheme c m -> m = other_scheme c.
Proof. intros [M V]. destruct m; cbn [member_class] in M; try discriminate M; injection M as <-; destruct s; try reflexivity; discriminate V. Qed.
Lemma own_request e m : member_class m = Some (class_of e) -> own_scheme e (V_scheme m) = Some m.
Proof. intros M. unfold own_scheme. destruct e, m; try discriminate M; reflexivity. Qed.
Theorem header_member e m bits f : last_scheme (class_of e) m ->
  dyn_binary e (V_header (class_of e) (coding_name m) bits) f = dyn_binary e (V_scheme m) f.
Proof.
  intros L. pose proof (last_other _ _ L) as O. unfold dyn_binary. cbn [attr_name]. rewrite (own_request e m) by apply L.
  cbn [own_scheme]. rewrite <- O. reflexivity.
Qed.

(** * Arguments of the declared types *)

Lemma filter_number c name n : In (name, ndec n) (filter_value_enum c) -> int10 (filter_value n) = Ok (Z.of_N n).
Proof.
  intros M. assert (F : forallb (fun d => forallb (fun p => (length (snd p) <=? 2)%nat) (filter_value_enum d)) EPC_SCHEMES = true)
    by (vm_compute; reflexivity).
  rewrite forallb_forall in F. specialize (F c (all_classes c)). rewrite forallb_forall in F. specialize (F _ M). cbn [snd] in F. apply Nat.leb_le in F.
  unfold filter_value. rewrite int10_spec.
  - f_equal. f_equal. apply ndec_spec.
  - apply ndec_nonempty.
  - apply ndec_digits.
  - unfold intable, int_max_str_digits. lia.
Qed.
Lemma req_name q : header_of_scheme (class_of (req_epc q)) (coding_name (req_scheme q)) = Ok (tag_header (req_kind q)).
Proof. destruct q; destruct s; vm_compute; reflexivity. Qed.
Theorem declared_binary q c name n : possible (V_filter c name n) -> req_filter q = Some n \/ req_filter q = None ->
  dyn_binary (req_epc q) (V_scheme (req_scheme q)) (V_filter c name n) = known (req_binary q).
Proof.
  intros P F. unfold dyn_binary. cbn [attr_name pybind]. rewrite req_name. cbn [known pybind].
  assert (N : match req_epc q with E_GID _ => Returns 0%Z | _ => let? t := attr_value (V_filter c name n) in known (int10 t) end
              = Returns (match req_epc q with E_GID _ => 0%Z | _ => Z.of_N n end)).
  { cbn [attr_value pybind]. rewrite (filter_number _ _ _ P). destruct (req_epc q); reflexivity. }
  rewrite N. cbn [pybind].
  assert (R : request (req_epc q) (req_scheme q) (Z.to_N (match req_epc q with E_GID _ => 0%Z | _ => Z.of_N n end)) = Some q).
  { destruct q; cbn [req_epc req_scheme request]; rewrite ?N2Z.id; cbn [req_filter] in F;
      try (destruct F as [[= ->]|[=]]); reflexivity. }
  assert (O : own_scheme (req_epc q) (V_scheme (req_scheme q)) = Some (req_scheme q)) by (apply own_request; destruct q; reflexivity).
  rewrite O, R. destruct (req_binary q) as [b|] eqn:B; [|reflexivity]. cbn [known pybind]. f_equal.
  rewrite <- (binary_header q b B). apply firstn_skipn.
Qed.
Theorem declared_hex q c name n : possible (V_filter c name n) -> req_filter q = Some n \/ req_filter q = None ->
  dyn_hex (req_epc q) (V_scheme (req_scheme q)) (V_filter c name n) = known (req_hex q) /\
  dyn_base64 (req_epc q) (V_scheme (req_scheme q)) (V_filter c name n) = known (req_base64 q).
Proof.
  intros P F. unfold dyn_base64, dyn_hex, req_hex, req_base64, binary_base64. rewrite (declared_binary q c name n P F).
  destruct (req_binary q) as [b|]; [|split; reflexivity]. cbn [known pybind]. split; [reflexivity|]. destruct (binary_hex (Ok b)); reflexivity.
Qed.
Theorem declared_tag_uri q c name n : req_filter q = Some n \/ req_filter q = None ->
  dyn_tag_uri (req_epc q) (V_scheme (req_scheme q)) (V_filter c name n) = known (req_tag_uri q).
Proof.
  intros F. rewrite <- (req_members q n F). unfold dyn_tag_uri, tag_uri_members, dyn_guard.
  destruct q; cbn [req_epc req_scheme request attr_value pybind];
    (match goal with |- context [req_tag_uri ?r] => destruct (req_tag_uri r) end; cbn [known pybind bind]; reflexivity).
Qed.
Theorem declared_texts s : 
  (forall c, dyn_init c (V_str s) = known (init_of c s)) /\
  dyn_pure_identity_to_scheme (V_str s) = known (epc_pure_identity_to_scheme s) /\
  dyn_pure_identity_to_gs1_element (V_str s) = known (epc_pure_identity_to_gs1_element s) /\
  dyn_pure_identity_to_gs1_element_string (V_str s) = known (epc_pure_identity_to_gs1_element_string s) /\
  dyn_pure_identity_to_gs1_keyed (V_str s) = known (epc_pure_identity_to_gs1_keyed s) /\
  dyn_pure_identity_to_tag_encodable (V_str s) = known (epc_pure_identity_to_tag_encodable s) /\
  dyn_tag_uri_to_tag_encodable (V_str s) = known (tag_uri_to_tag_encodable s) /\
  (forall c, dyn_from_tag_uri c (V_str s) None = known (from_tag_uri_of c s)) /\
  dyn_binary_to_tag_encodable (V_str s) = known (binary_to_tag_encodable s) /\
  (forall c, dyn_from_binary c (V_str s) = known (from_binary_of c s)) /\
  dyn_hex_to_binary (V_str s) = known (hex_to_binary s) /\
  dyn_hex_to_tag_encodable (V_str s) = known (hex_to_tag_encodable s) /\
  (forall c, dyn_from_hex c (V_str s) = known (from_hex (from_binary_of c) s)) /\
  dyn_base64_to_hex (V_str s) = known (base64_to_hex s) /\
  dyn_base64_to_tag_encodable (V_str s) = known (base64_to_tag_encodable s) /\
  (forall c, dyn_from_base64 c (V_str s) = known (from_base64 (from_binary_of c) s)) /\
  (forall t z, dyn_from_gtin_plus_serial (V_str s) (V_str t) (V_int z) = known (lift E_SGTIN (sgtin_from_gtin_plus_serial s t z))).
Proof.
  repeat split; try reflexivity; intros;
    unfold dyn_hex_to_tag_encodable, hex_to_tag_encodable, dyn_from_hex, from_hex, dyn_base64_to_tag_encodable, base64_to_tag_encodable,
      dyn_from_base64, from_base64; cbn [dyn_hex_to_binary dyn_base64_to_hex text_of bind];
    try (destruct (hex_to_binary s); reflexivity); change (dyn_base64_to_hex (V_str s)) with (known (base64_to_hex s));
    destruct (base64_to_hex s); reflexivity.
Qed.
Theorem flag c s v : (counts_as_false v -> dyn_from_tag_uri c (V_str s) (Some v) = known (from_tag_uri_flag c s false)) /\
  (~ counts_as_false v -> dyn_from_tag_uri c (V_str s) (Some v) = known (from_tag_uri_flag c s true)).
Proof.
  unfold dyn_from_tag_uri. cbn [match_first]. split; intros H.
  - repeat destruct H as [->|H]; subst; reflexivity.
  - assert (T : true_value v = true); [|rewrite T; reflexivity]. unfold counts_as_false in H. destruct v; cbn [true_value]; try reflexivity.
    + tauto.
    + destruct b; [reflexivity|tauto].
    + destruct (Z.eqb_spec z 0) as [->|]; [tauto|reflexivity].
    + destruct (str_eqb text (lit "0.0")) eqn:A; [apply str_eqb_eq in A as ->; tauto|].
      destruct (str_eqb text (lit "-0.0")) eqn:B; [apply str_eqb_eq in B as ->; tauto|]. reflexivity.
    + destruct s0; [tauto|reflexivity].
    + destruct b; [tauto|reflexivity].
Qed.
Theorem get_key_absent v l kw : counts_as_false l -> dyn_get_gs1_key v l kw = dyn_get_gs1_key v V_none kw.
Proof. intros H. apply get_key_false. repeat destruct H as [->|H]; subst; reflexivity. Qed.
Theorem equal_objects e v : dyn_eq e v = true <-> exists e' t, v = V_epc e' t /\ epc_uri e' = epc_uri e.
Proof.
  split.
  - destruct v; cbn [dyn_eq]; intros H; try discriminate H. exists e0, text. split; [reflexivity|]. apply str_eqb_eq in H. congruence.
  - intros (e' & t & -> & H). cbn [dyn_eq]. apply str_eqb_eq. congruence.
Qed.
Theorem header_member_refuted : exists e m bits f b,
  init_of (class_of e) (epc_uri e) = Ok e /\ member_class m = Some (class_of e) /\ possible (V_header (class_of e) (coding_name m) bits) /\
  possible f /\ dyn_binary e (V_header (class_of e) (coding_name m) bits) f = Returns b /\ dyn_binary e (V_scheme m) f <> Returns b /\
  binary_to_tag_encodable b <> Ok e.
Proof.
  destruct (init_of C_SGTIN (lit "urn:epc:id:sgtin:0614141.812345.6789")) as [e|] eqn:E; [|vm_compute in E; discriminate E].
  destruct (init_class _ _ _ E) as [C U].
  exists e, (M_SGTIN SGTIN_96), (lit "00110000"), (V_filter C_SGTIN (lit "ALL_OTHERS") 0). rewrite C.
  destruct (dyn_binary e (V_header C_SGTIN (coding_name (M_SGTIN SGTIN_96)) (lit "00110000")) (V_filter C_SGTIN (lit "ALL_OTHERS") 0)) as [b|] eqn:B.
  - exists b. rewrite U. split; [exact E|]. split; [reflexivity|]. split; [vm_compute; tauto|]. split; [vm_compute; tauto|]. split; [reflexivity|].
    vm_compute in E. injection E as <-. vm_compute in B. injection B as <-. split; vm_compute; intros X; discriminate X.
  - exfalso. vm_compute in E. injection E as <-. vm_compute in B. discriminate B.
Qed.
Theorem filter_member_refuted : exists e m f b,
  init_of (class_of e) (epc_uri e) = Ok e /\ m = M_SGTIN SGTIN_96 /\ possible f /\ dyn_binary e (V_scheme m) f = Returns b /\ length b = 97%nat.
Proof.
  destruct (init_of C_SGTIN (lit "urn:epc:id:sgtin:0614141.812345.6789")) as [e|] eqn:E; [|vm_compute in E; discriminate E].
  destruct (init_class _ _ _ E) as [C U]. exists e, (M_SGTIN SGTIN_96), (V_gtin GTIN14).
  destruct (dyn_binary e (V_scheme (M_SGTIN SGTIN_96)) (V_gtin GTIN14)) as [b|] eqn:B.
  - exists b. rewrite C, U. split; [exact E|]. split; [reflexivity|]. split; [exact I|]. split; [reflexivity|].
    vm_compute in E. injection E as <-. vm_compute in B. injection B as <-. reflexivity.
  - exfalso. vm_compute in E. injection E as <-. vm_compute in B. discriminate B.
Qed.
Theorem text_value v t : str_text v t -> text_of v = Ok t.
Proof.
  assert (A : forall t, numeral t -> ascii_digits t -> ndec (decimal t) = t).
  { intros u Nu F. assert (D : forallb is_digit u = true).
    { apply forallb_forall. intros c I. apply is_digit_iff. exact (F c I). }
    rewrite decimal_ascii by exact D. apply ndec_sval; [exact D|]. destruct Nu as [->|(c & s' & -> & B & _)]; [left; reflexivity|].
    right. exists c, s'. split; [reflexivity|]. intros ->. lia. }
  intros [| | |u Nu F L|u Nu F L Z|s]; try reflexivity; cbn [text_of]; unfold str_int, dec, signed, int_max_str_digits.
  - rewrite Zabs2N.id, N2Z.id, (A u Nu F). destruct (N.ltb_spec 4300 (N.of_nat (length u))); [lia|].
    destruct (Z.ltb_spec (Z.of_N (decimal u)) 0); [lia|reflexivity].
  - rewrite Zabs2N.inj_opp, Zabs2N.id, Z.opp_involutive, N2Z.id, (A u Nu F). destruct (N.ltb_spec 4300 (N.of_nat (length u))); [lia|].
    destruct (Z.ltb_spec (- Z.of_N (decimal u)) 0); [reflexivity|lia].
Qed.
