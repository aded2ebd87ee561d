(** get_gs1_key on the representations of one object, and on everything else *)
From Coq Require Import String Lia ZifyNat ZifyN ZifyBool Setoid.
From Verif.Model Require Import Py Re Regexes Common Base.
From Verif.Model Require Import Adi Cpi Gdti Giai Gid Grai Gsrn Gsrnp Itip Lgtin Sgcn Sgln Sgtin Sscc Usdod Others Parsers.
From Verif.Spec Require Import Spec SpecEscapes SpecGrammar SpecSchemes SpecElements SpecTags SpecLayout SpecCoding SpecHex SpecKeys.
From Verif.Proofs Require Import Basics Num ReLemmas Uni Grammar Escapes Ctor CtorA CtorB CtorC CtorAll Elements ElementRe ElementDispatch ElementBack ElementAccept
  Keys PureParsers TagUri TagUri2 TagFits Filter BinAll Hex HexTrip GetKey Idpat ElementKey.

(** ** Per representation *)
Theorem key_pure c b l g : key_via (init_of c (scheme_prefix c ++ b)) g (get_gs1_key (scheme_prefix c ++ b) l g).
Proof. rewrite (keyed_pure c) by eauto. apply keyed_via. Qed.
Theorem key_tag c nm f body l g : In nm (coding_names c) -> c <> C_GID -> numeral f ->
  key_via (init_of c (scheme_prefix c ++ body)) g (get_gs1_key (lit "urn:epc:tag:" ++ nm ++ lit ":" ++ f ++ lit "." ++ body) l g).
Proof. intros N G F. rewrite (keyed_tag c) by assumption. apply keyed_via. Qed.
Theorem key_binary k s l g : firstn 8 s = tag_header k -> key_via (from_binary_of (tag_class k) s) g (get_gs1_key s l g).
Proof. intros H. rewrite (keyed_binary k) by assumption. apply keyed_via. Qed.
Theorem key_hex k a r l g : same_letters a (hex_header k) -> key_via (hex_to_tag_encodable (a ++ r)) g (get_gs1_key (a ++ r) l g).
Proof. intros H. rewrite (keyed_hex k) by assumption. apply keyed_via. Qed.
Theorem key_element c s l g : element_string c s -> l <> 0%Z -> key_via (from_gs1_element_string_of c s l) g (get_gs1_key s (Some l) g).
Proof. intros H L. rewrite (keyed_element c) by assumption. apply keyed_via. Qed.

(** hexadecimal text, in either case, is read as the bits it stands for *)
Definition all_codings : list coding := [K_GDTI_96; K_GSRN_96; K_GSRNP_96; K_USDOD_96; K_SGTIN_96; K_SSCC_96; K_SGLN_96; K_GRAI_96; K_GIAI_96; K_GID_96; K_SGTIN_198; K_GRAI_170;
  K_GIAI_202; K_SGLN_195; K_ADI_VAR; K_CPI_96; K_CPI_VAR; K_GDTI_174; K_SGCN_96; K_ITIP_110; K_ITIP_212].
Lemma all_codings_in k : In k all_codings. Proof. destruct k; cbn [In all_codings]; tauto. Qed.
Lemma hex_pairs : forallb (fun k => forallb (fun a => forallb (fun b =>
  negb (str_eqb (four_bits (hex_value a) ++ four_bits (hex_value b)) (tag_header k)) || str_eqb (upper [a; b]) (hex_header k))%bool hexset) hexset) all_codings = true.
Proof. vm_compute. reflexivity. Qed.
Lemma hex_opens k h : hex_text h -> firstn 8 (hex_bits h) = tag_header k -> exists a r, h = a ++ r /\ same_letters a (hex_header k).
Proof.
  intros H F. pose proof (proj1 (hex_in h) H) as I. destruct h as [|a [|b r]].
  - destruct k; discriminate F.
  - exfalso. apply (f_equal (@length N)) in F. unfold hex_bits in F. cbn [flat_map app] in F. rewrite app_nil_r in F.
    assert (L : length (tag_header k) = 8%nat) by (destruct k; reflexivity). rewrite L in F. discriminate F.
  - exists [a; b], r. split; [reflexivity|]. apply upper_letters.
    pose proof (proj1 (forallb_forall _ _) hex_pairs k (all_codings_in k)) as X.
    pose proof (proj1 (forallb_forall _ _) X a (I a (or_introl eq_refl))) as Y. cbn beta in Y.
    pose proof (proj1 (forallb_forall _ _) Y b (I b (or_intror (or_introl eq_refl)))) as Z. cbn beta in Z.
    apply Bool.orb_true_iff in Z as [Z|Z]; [|now apply str_eqb_eq].
    apply Bool.negb_true_iff in Z. assert (W : four_bits (hex_value a) ++ four_bits (hex_value b) = tag_header k) by exact F.
    rewrite W, str_eqb_refl in Z. discriminate Z.
Qed.
Lemma keyed_hex_text k h l g : hex_text h -> firstn 8 (hex_bits h) = tag_header k -> get_gs1_key h l g = keyed (from_binary_of (tag_class k) (hex_bits h)) g.
Proof.
  intros H F. destruct (hex_opens k h H F) as (a & r & -> & S). rewrite (keyed_hex k a r l g S). f_equal.
  unfold hex_to_tag_encodable. rewrite hex_reads; [|exact H|destruct a; [destruct k; inversion S|discriminate]]. cbn [bind].
  unfold binary_to_tag_encodable. rewrite F, header_assoc. reflexivity.
Qed.
Theorem key_hex_text k h l g : hex_text h -> firstn 8 (hex_bits h) = tag_header k -> key_via (from_binary_of (tag_class k) (hex_bits h)) g (get_gs1_key h l g).
Proof. intros H F. rewrite (keyed_hex_text k) by assumption. apply keyed_via. Qed.

(** ** Anything else *)
Theorem key_none s l g :
  (forall c b, s <> scheme_prefix c ++ b) -> (forall b, s <> lit "urn:epc:tag:" ++ b) -> (forall b, s <> lit "urn:epc:idpat:" ++ b) ->
  (forall c, ~ element_string c s) -> (forall k, firstn 8 s <> tag_header k) -> (forall k, ~ same_letters (firstn 2 s) (hex_header k)) ->
  get_gs1_key s l g = Raise ConvertException.
Proof.
  intros A B C D E F. unfold get_gs1_key.
  assert (X1 : fullmatch EPC_URI s = false) by (nomatch ltac:(fun X => apply epc_uri_prefix in X as (c & b & X); exact (A c b X))).
  assert (X2 : fullmatch TAG_URI s = false) by (nomatch ltac:(fun X => apply tag_uri_prefix in X as (b & X); exact (B b X))).
  assert (X3 : fullmatch IDPAT_URI s = false) by (nomatch ltac:(fun X => apply idpat_prefix in X as (b & X); exact (C b X))).
  assert (X4 : fullmatch GS1_ELEMENT_STRING s = false) by (nomatch ltac:(fun X => apply gs1_element_any in X as (c & X); exact (D c X))).
  rewrite X1, X2, X3, X4.
  destruct (assoc_str (firstn 8 s) TAG_ENCODABLE_BINARY_HEADERS) eqn:X5; [apply header_assoc_inv in X5 as (k & X5 & _); destruct (E k X5)|].
  destruct (assoc_str (upper (firstn 2 s)) TAG_ENCODABLE_HEX_HEADERS) eqn:X6; [apply hex_assoc_inv in X6 as (k & X6 & _); destruct (F k); now apply upper_letters|].
  reflexivity.
Qed.

(** ** The element string of an object is not taken for one of another class *)
Lemma own_element_class c u e g c' : In c keyed_classes -> init_of c u = Ok e -> epc_gs1_element_string e = Ok g -> element_string c' g -> c' = c.
Proof.
  intros I N E X. destruct (checked_key c) eqn:K.
  - destruct (keyform c u e K N) as (b & f & t & _ & L & C & G & _). pose proof (completed_length _ _ C) as CL. rewrite L in CL.
    assert (T : (c = C_SGTIN -> exists t', t = lit "(21)" ++ t') /\ (c = C_LGTIN -> exists t', t = lit "(10)" ++ t')).
    { split; intros ->; cbn [init_of] in N; apply lift_ok in N as (x & N & ->); cbn [epc_gs1_element_string ai_of nd] in *; apply ok_same, app_inv_head in G.
      - unfold sgtin_gs1_element_string in G. apply sgtin_iff in N as (U & _ & i & r & Ei & C'). apply completed_length in C'.
        apply app_len_inv in G as [_ <-]; [eauto|]. destruct U as (_ & _ & _ & U & _). rewrite Ei in U. cbn [length] in *. rewrite app_length in C'. lia.
      - unfold lgtin_gs1_element_string in G. apply lgtin_iff in N as (lot & U & _ & _ & i & r & Ei & C'). apply completed_length in C'.
        apply app_len_inv in G as [_ <-]; [eauto|]. destruct U as (_ & _ & _ & U & _). rewrite Ei in U. cbn [length] in *. rewrite app_length in C'. lia. }
    rewrite G in E. apply ok_same in E. subst g. destruct T as [T1 T2].
    destruct c; try discriminate K; destruct c'; try reflexivity; cbn [element_string ai_of nd] in *; try (exfalso; exact X);
      repeat match goal with H : exists _, _ |- _ => destruct H | H : _ /\ _ |- _ => destruct H end; try discriminate.
    all: try (destruct (T1 eq_refl) as (t' & ->)); try (destruct (T2 eq_refl) as (t' & ->)).
    all: match goal with H : _ = lit "(01)" ++ _, D : ndigits _ _ |- _ => apply app_inv_head in H; apply app_len_inv in H as [_ H]; [discriminate H|rewrite CL; symmetry; apply D] end.
  - assert (Y : c = C_GIAI \/ c = C_GINC) by (destruct c; try discriminate K; cbn [In keyed_classes] in I; intuition discriminate).
    destruct Y as [-> | ->]; cbn [init_of] in N; apply lift_ok in N as (x & N & ->); cbn [epc_gs1_element_string] in E; apply ok_same in E;
      unfold giai_gs1_element_string, ginc_gs1_element_string in E; subst g;
      (destruct c'; try reflexivity; cbn [element_string] in X; try (exfalso; exact X);
      repeat match goal with H : exists _, _ |- _ => destruct H | H : _ /\ _ |- _ => destruct H end; discriminate).
Qed.
Lemma own_paren c u e g : In c keyed_classes -> init_of c u = Ok e -> epc_gs1_element_string e = Ok g -> exists r, g = 40 :: r.
Proof.
  intros I N E. cbn [In keyed_classes] in I.
  repeat (destruct I as [<-|I]; [cbn [init_of] in N; apply lift_ok in N as (x & N & ->); cbn [epc_gs1_element_string] in E; apply ok_same in E; subst g; eexists; reflexivity|]).
  destruct I.
Qed.
Lemma element_string_dec c g : element_string c g \/ ~ element_string c g.
Proof.
  destruct (fullmatch (gs1_element_string_regex c) g) eqn:E; [left; now apply element_regex|right]. intros X. apply element_regex in X. congruence.
Qed.
Lemma keyed_own_element c u e g l k : In c keyed_classes -> init_of c u = Ok e -> epc_gs1_element_string e = Ok g -> l <> 0%Z ->
  get_gs1_key g (Some l) k = keyed (from_gs1_element_string_of c g l) k.
Proof.
  intros I N E L. destruct (element_string_dec c g) as [X|X]; [apply keyed_element; assumption|].
  assert (R : from_gs1_element_string_of c g l = Raise ConvertException).
  { apply element_refused; [|exact X]. cbn [In keyed_classes element_classes] in *. tauto. }
  rewrite R. cbn [keyed bind]. destruct (own_paren c u e g I N E) as (r & ->).
  apply key_none.
  - intros c' b H. destruct c'; discriminate H.
  - discriminate.
  - discriminate.
  - intros c' Y. apply X. pose proof (own_element_class c u e _ c' I N E Y). subst c'. exact Y.
  - intros h H. destruct h; discriminate H.
  - intros h H. apply upper_letters in H. destruct (hex_first h) as (a & b & Y & Z). rewrite Y in H. destruct r as [|x r]; [discriminate H|].
    cbn [firstn upper map] in H. injection H as H _. subst a. revert Z. vm_compute. intros [Z _]. apply Z. reflexivity.
Qed.
(** the key is that of the object, or there is no key at all *)
Theorem key_own_element c u e cp rest g l k : In c keyed_classes -> init_of c u = Ok e -> epc_gs1_element_string e = Ok g ->
  u = scheme_prefix c ++ cp ++ lit "." ++ rest -> ~ In 46 cp ->
  (c = C_GIAI \/ c = C_GINC -> ~ In 46 g \/ l = Z.of_nat (length cp)) ->
  get_gs1_key g (Some l) k = epc_gs1_key e k \/
  exists x, get_gs1_key g (Some l) k = Raise x /\ (l = 0%Z /\ x = ConvertException \/ from_gs1_element_string_of c g l = Raise x).
Proof.
  intros I N E U P D. destruct (Z.eq_dec l 0) as [-> |L].
  - right. exists ConvertException. split; [|left; auto].
    destruct (element_string_dec c g) as [X|X]; [apply (keyed_element_none c); auto|].
    destruct (own_paren c u e g I N E) as (r & ->). apply key_none.
    + intros c' b H. destruct c'; discriminate H.
    + discriminate.
    + discriminate.
    + intros c' Y. apply X. pose proof (own_element_class c u e _ c' I N E Y). subst c'. exact Y.
    + intros h H. destruct h; discriminate H.
    + intros h H. apply upper_letters in H. destruct (hex_first h) as (a & b & Y & Z). rewrite Y in H. destruct r as [|x r]; [discriminate H|].
      cbn [firstn upper map] in H. injection H as H _. subst a. revert Z. vm_compute. intros [Z _]. apply Z. reflexivity.
  - rewrite (keyed_own_element c u e g l k I N E L). destruct (from_gs1_element_string_of c g l) as [e'|x] eqn:F.
    + left. unfold keyed. cbn [bind]. pose proof (from_init c g l e' I F) as N'. apply init_class in N' as [-> _].
      rewrite (proj2 (keyed_classes_iff c) I). exact (element_key c u e cp rest g l e' I N E F U P D k).
    + right. exists x. split; [reflexivity|right; reflexivity].
Qed.

(** ** All representations of one object *)
Theorem key_agree q u l g : proper_request q u -> In (class_of (req_epc q)) keyed_classes ->
  get_gs1_key u l g = epc_gs1_key (req_epc q) g /\
  (exists t, req_tag_uri q = Ok t /\ get_gs1_key t l g = epc_gs1_key (req_epc q) g) /\
  (exists b, req_binary q = Ok b /\ get_gs1_key b l g = epc_gs1_key (req_epc q) g) /\
  (exists h, req_hex q = Ok h /\ get_gs1_key h l g = epc_gs1_key (req_epc q) g).
Proof.
  intros P K. pose proof P as (N & A & (t & T) & CQ & FF & PF & G).
  assert (O : forall o, o = Ok (req_epc q) -> keyed o g = epc_gs1_key (req_epc q) g).
  { intros o ->. unfold keyed. cbn [bind]. rewrite (proj2 (keyed_classes_iff _) K). reflexivity. }
  destruct (forms_roundtrip q u P) as (b & h & s & B & H & S & BD & HD & _).
  { intros x sc f ->. cbn in K. intuition discriminate. }
  split.
  { destruct (init_prefix _ _ _ N) as (body & E). rewrite (keyed_pure (class_of (req_epc q)) u) by eauto. apply O, N. }
  split.
  { exists t. split; [exact T|]. destruct (tag_uri_roundtrip q u t N T G) as [_ RT].
    destruct (tag_uri_text q u t N T) as (body & rest & _ & _ & E).
    destruct (req_filter q) as [f|] eqn:Ff; [|exfalso; destruct q; try discriminate Ff; cbn in K; intuition discriminate].
    assert (GG : class_of (req_epc q) <> C_GID) by (intros X; rewrite X in K; cbn in K; intuition discriminate).
    rewrite E. rewrite E in RT.
    pose proof (keyed_tag (class_of (req_epc q)) (req_coding q) (ndec f) body l g (req_coding_in q) GG) as KT.
    rewrite <- app_assoc. change TAG_URI_PREFIX with (lit "urn:epc:tag:"). change [c_colon] with (lit ":"). change [c_dot] with (lit ".").
    rewrite KT by apply ndec_numeral. apply O.
    rewrite <- (from_tag_of (class_of (req_epc q)) (req_coding q) (ndec f) body (req_coding_in q) GG) by apply numeral_iff, ndec_numeral.
    rewrite <- tag_dispatch by apply req_coding_in. rewrite <- app_assoc in RT. exact RT. }
  split.
  - exists b. split; [exact B|]. unfold binary_to_tag_encodable in BD.
    destruct (assoc_str (firstn 8 b) TAG_ENCODABLE_BINARY_HEADERS) as [c|] eqn:X; [|discriminate BD]. cbn [of_option bind] in BD.
    apply header_assoc_inv in X as (k & X & ->). rewrite (keyed_binary k b l g X). apply O, BD.
  - exists h. split; [exact H|]. destruct (binary_written q u t N T CQ FF PF) as (b' & B1 & _ & B3 & _).
    rewrite B1 in B. apply ok_same in B. subst b'.
    destruct (tag_forms q b B1 B3) as (h' & s' & pad & H1 & _ & _ & _ & H5 & _ & H7 & _). rewrite H1 in H. apply ok_same in H. subst h'.
    pose proof (binary_header q b B1) as X.
    assert (L : length (tag_header (req_kind q)) = 8%nat) by (destruct (req_kind q); reflexivity).
    assert (Y : firstn 8 (hex_bits h) = tag_header (req_kind q)).
    { rewrite H7, firstn_app, X. rewrite <- X, firstn_length in L. replace (8 - length b)%nat with 0%nat by lia. apply app_nil_r. }
    destruct (hex_opens _ h H5 Y) as (a & r & -> & S'). rewrite (keyed_hex _ a r l g S'). apply O, HD.
Qed.

(** the base64 form of a tag is not understood *)
Lemma b64_first : forallb (fun k => forallb (fun v => let v := N.of_nat v in
  negb (str_eqb (six_bits v) (firstn 6 (tag_header k))) || ((76 <=? nth (N.to_nat v) base64_alphabet 0) && (nth (N.to_nat v) base64_alphabet 0 <=? 81)))%bool (seq 0 64)) all_codings = true.
Proof. vm_compute. reflexivity. Qed.
Theorem key_base64 k b s l g : firstn 8 b = tag_header k -> base64_of b s -> get_gs1_key s l g = Raise ConvertException.
Proof.
  intros H (vs & z & eqs & V & _ & _ & -> & E & _).
  assert (L : length (firstn 8 b) = 8%nat) by (rewrite H; destruct k; reflexivity).
  destruct vs as [|v vs].
  { exfalso. apply (f_equal (@length N)) in E. cbn [flat_map length] in E. rewrite app_length in E. rewrite firstn_length in L. lia. }
  assert (S : six_bits v = firstn 6 (tag_header k)).
  { rewrite <- H, firstn_firstn. change (Nat.min 6 8) with 6%nat. rewrite firstn_length in L.
    assert (F : firstn 6 (six_bits v ++ flat_map six_bits vs) = firstn 6 (b ++ repeat 48 z)) by (rewrite <- E; reflexivity).
    change (firstn 6 (six_bits v ++ flat_map six_bits vs)) with (six_bits v) in F. rewrite F, firstn_app.
    replace (6 - length b)%nat with 0%nat by lia. rewrite firstn_O. apply app_nil_r. }
  pose proof (Forall_inv V) as Vv. cbn beta in Vv.
  pose proof (proj1 (forallb_forall _ _) b64_first k (all_codings_in k)) as X. cbn beta in X.
  pose proof (proj1 (forallb_forall _ _) X (N.to_nat v) ltac:(apply in_seq; lia)) as Y. cbn beta zeta in Y. rewrite N2Nat.id in Y.
  apply Bool.orb_true_iff in Y as [Y|Y]; [rewrite S, str_eqb_refl in Y; discriminate Y|].
  cbn [map app]. set (x := nth (N.to_nat v) base64_alphabet 0) in *. set (r := map _ vs ++ _). clearbody x r.
  assert (Z : 76 <= x <= 81) by lia. clear - Z.
  apply key_none.
  - intros c c0 E. assert (x = 117) by (destruct c; injection E as E _; exact E). lia.
  - intros c0 E. injection E as E _. lia.
  - intros c0 E. injection E as E _. lia.
  - intros c E. assert (F : fullmatch GS1_ELEMENT_STRING (x :: r) = true) by (apply gs1_element_any; eauto). apply element_paren in F as (r' & F). injection F as F _. lia.
  - intros k E. assert (x = 48) by (destruct k; injection E as E _; exact E). lia.
  - intros k E. apply upper_letters in E. destruct (hex_first k) as (a & c & Y & W). rewrite Y in E. destruct r; [discriminate E|].
    cbn [firstn upper map] in E. injection E as E _. unfold upper_char in E. destruct ((97 <=? x) && (x <=? 122))%bool eqn:U in E; lia.
Qed.

(** every tag URI of an object has its key, whether or not the tag can be written *)
Theorem key_own_tag q u t l g : init_of (class_of (req_epc q)) u = Ok (req_epc q) -> req_tag_uri q = Ok t -> In (class_of (req_epc q)) keyed_classes ->
  get_gs1_key t l g = epc_gs1_key (req_epc q) g.
Proof.
  intros N T K. destruct (tag_uri_text q u t N T) as (body & rest & Eu & R & E).
  assert (GG : class_of (req_epc q) <> C_GID) by (intros X; rewrite X in K; cbn in K; intuition discriminate).
  destruct (req_filter q) as [f|] eqn:Ff; [|exfalso; destruct q; try discriminate Ff; cbn in K; intuition discriminate].
  assert (A : get_gs1_key t l g = keyed (from_tag_uri_of (class_of (req_epc q)) t) g).
  { rewrite E, <- app_assoc. rewrite (from_tag_of (class_of (req_epc q)) (req_coding q) (ndec f) body (req_coding_in q) GG) by apply numeral_iff, ndec_numeral.
    apply (keyed_tag (class_of (req_epc q)) (req_coding q) (ndec f) body l g (req_coding_in q) GG). apply ndec_numeral. }
  rewrite A. clear A.
  assert (O : forall e, class_of e = class_of (req_epc q) -> keyed (Ok e) g = epc_gs1_key e g).
  { intros e X. unfold keyed. cbn [bind]. rewrite X, (proj2 (keyed_classes_iff _) K). reflexivity. }
  destruct (cls_dec (class_of (req_epc q)) C_GIAI) as [C|C].
  - destruct q as [| | |x s fl| | | | | | | | | |]; try discriminate C. cbn [req_epc class_of req_tag_uri init_of from_tag_uri_of] in *.
    apply lift_ok in N as (x' & N & X). assert (x' = x) by congruence. subst x'.
    destruct (giai_tag_uri_cut x u s fl t N T) as (y & Y & _ & _ & G & _). rewrite Y. cbn [lift bind]. rewrite O by reflexivity.
    cbn [epc_gs1_key]. unfold giai_gs1_key. rewrite G. reflexivity.
  - destruct (tag_uri_roundtrip q u t N T) as [B _]; [intros X; destruct (C X)|]. rewrite B. apply O. reflexivity.
Qed.
