(** get_gs1_key *)
From Coq Require Import String Lia ZifyNat ZifyN ZifyBool Setoid.
From Verif.Model Require Import Py Re Regexes Common Base.
From Verif.Model Require Import Adi Cpi Gdti Giai Gid Grai Gsrn Gsrnp Itip Lgtin Sgcn Sgln Sgtin Sscc Usdod Others Parsers.
From Verif.Spec Require Import Spec SpecEscapes SpecGrammar SpecSchemes SpecElements SpecTags SpecLayout SpecCoding SpecHex SpecKeys.
From Verif.Proofs Require Import Basics Num ReLemmas Uni Grammar Ctor CtorAll TagUri TagUri2 PureParsers ElementRe ElementDispatch Decode DecodeC Filter Hex HexTrip BinAll.

Definition keyed (o : res epc) (g : option gtin_type) : res str :=
  let* e := o in if is_gs1_keyed (class_of e) then epc_gs1_key e g else Raise ConvertException.
Lemma keyed_via o g : key_via o g (keyed o g).
Proof.
  destruct o as [e|x]; [|reflexivity]. unfold keyed. cbn [key_via bind]. unfold own_key.
  destruct (is_gs1_keyed (class_of e)) eqn:E.
  - left. split; [apply keyed_classes_iff, E|reflexivity].
  - right. split; [intros H; apply keyed_classes_iff in H; congruence|reflexivity].
Qed.

(** * The regular expressions exclude each other by their first characters *)
Lemma epc_uri_lang s : fullmatch EPC_URI s = true <-> exists c, fullmatch (uri_re c) s = true.
Proof.
  rewrite fullmatch_lang. unfold EPC_URI. rewrite lang_ralt. split.
  - intros (r & H & L). apply fullmatch_lang in L.
    cbn [In] in H. repeat (destruct H as [<-|H]; [first
      [exists C_SGTIN; exact L|exists C_SSCC; exact L|exists C_SGLN; exact L|exists C_GRAI; exact L|exists C_GIAI; exact L|exists C_GSRN; exact L|exists C_GSRNP; exact L
      |exists C_GDTI; exact L|exists C_CPI; exact L|exists C_SGCN; exact L|exists C_GINC; exact L|exists C_GSIN; exact L|exists C_ITIP; exact L|exists C_UPUI; exact L
      |exists C_PGLN; exact L|exists C_GID; exact L|exists C_USDOD; exact L|exists C_ADI; exact L|exists C_BIC; exact L|exists C_IMOVN; exact L|exists C_LGTIN; exact L]|]). destruct H.
  - intros (c & L). exists (uri_re c). split; [|apply fullmatch_lang, L]. destruct c; cbn [uri_re In]; tauto.
Qed.
Lemma prefix_urn c : exists r, scheme_prefix c = lit "urn:epc:" ++ r /\ (exists x, r = lit "id:" ++ x) \/ c = C_LGTIN.
Proof. destruct c; eexists; first [left; split; [reflexivity|eexists; reflexivity]|right; reflexivity]. Unshelve. exact []. Qed.
Lemma epc_uri_prefix s : fullmatch EPC_URI s = true -> exists c body, s = scheme_prefix c ++ body.
Proof. intros H. apply epc_uri_lang in H as (c & H). apply uri_re_prefix in H as (b & ->). eauto. Qed.
Lemma tag_uri_prefix s : fullmatch TAG_URI s = true -> exists body, s = lit "urn:epc:tag:" ++ body.
Proof. intros H. apply fullmatch_lang in H. apply lang_lit_seq in H as (b & -> & _). eauto. Qed.
Lemma idpat_prefix s : fullmatch IDPAT_URI s = true -> exists body, s = lit "urn:epc:idpat:" ++ body.
Proof. intros H. apply fullmatch_lang in H. apply lang_lit_seq in H as (b & -> & _). eauto. Qed.
Lemma element_paren s : fullmatch GS1_ELEMENT_STRING s = true -> exists r, s = 40 :: r.
Proof.
  intros H. apply gs1_element_any in H as (c & H). destruct c; cbn [element_string] in H; try destruct H;
  repeat match goal with H : exists _, _ |- _ => destruct H end;
  repeat match goal with H : _ /\ _ |- _ => destruct H end; subst s; eexists; reflexivity.
Qed.
Ltac nomatch L := match goal with |- ?t = false => destruct t eqn:?X; [exfalso; L X|reflexivity] end.

Lemma header_assoc k : assoc_str (tag_header k) TAG_ENCODABLE_BINARY_HEADERS = Some (tag_class k).
Proof. destruct k; reflexivity. Qed.
Lemma header_assoc_inv s c : assoc_str s TAG_ENCODABLE_BINARY_HEADERS = Some c -> exists k, s = tag_header k /\ c = tag_class k.
Proof.
  intros H. apply assoc_str_in in H. cbv in H.
  repeat (destruct H as [H|H]; [injection H as <- <-; first
   [exists K_GDTI_96; split; reflexivity|exists K_GSRN_96; split; reflexivity|exists K_GSRNP_96; split; reflexivity|exists K_USDOD_96; split; reflexivity
   |exists K_SGTIN_96; split; reflexivity|exists K_SSCC_96; split; reflexivity|exists K_SGLN_96; split; reflexivity|exists K_GRAI_96; split; reflexivity
   |exists K_GIAI_96; split; reflexivity|exists K_GID_96; split; reflexivity|exists K_SGTIN_198; split; reflexivity|exists K_GRAI_170; split; reflexivity
   |exists K_GIAI_202; split; reflexivity|exists K_SGLN_195; split; reflexivity|exists K_ADI_VAR; split; reflexivity|exists K_CPI_96; split; reflexivity
   |exists K_CPI_VAR; split; reflexivity|exists K_GDTI_174; split; reflexivity|exists K_SGCN_96; split; reflexivity|exists K_ITIP_110; split; reflexivity
   |exists K_ITIP_212; split; reflexivity]|]). destruct H.
Qed.
Lemma hex_assoc k : assoc_str (hex_header k) TAG_ENCODABLE_HEX_HEADERS = Some (tag_class k).
Proof. destruct k; vm_compute; reflexivity. Qed.
Lemma hex_assoc_inv s c : assoc_str s TAG_ENCODABLE_HEX_HEADERS = Some c -> exists k, s = hex_header k /\ c = tag_class k.
Proof.
  intros H. apply assoc_str_in in H. vm_compute in H.
  repeat (destruct H as [H|H]; [injection H as <- <-; first
   [exists K_GDTI_96; split; reflexivity|exists K_GSRN_96; split; reflexivity|exists K_GSRNP_96; split; reflexivity|exists K_USDOD_96; split; reflexivity
   |exists K_SGTIN_96; split; reflexivity|exists K_SSCC_96; split; reflexivity|exists K_SGLN_96; split; reflexivity|exists K_GRAI_96; split; reflexivity
   |exists K_GIAI_96; split; reflexivity|exists K_GID_96; split; reflexivity|exists K_SGTIN_198; split; reflexivity|exists K_GRAI_170; split; reflexivity
   |exists K_GIAI_202; split; reflexivity|exists K_SGLN_195; split; reflexivity|exists K_ADI_VAR; split; reflexivity|exists K_CPI_96; split; reflexivity
   |exists K_CPI_VAR; split; reflexivity|exists K_GDTI_174; split; reflexivity|exists K_SGCN_96; split; reflexivity|exists K_ITIP_110; split; reflexivity
   |exists K_ITIP_212; split; reflexivity]|]). destruct H.
Qed.
Lemma header_first k : exists r, tag_header k = 48 :: r. Proof. destruct k; eexists; reflexivity. Qed.
Lemma hex_first k : exists a b, hex_header k = [a; b] /\ 50 <= a <= 52. Proof. destruct k; (eexists _, _; split; [reflexivity|cbv; split; discriminate]). Qed.

Lemma no_bin s c r : s = c :: r -> c <> 48 -> is_some (assoc_str (firstn 8 s) TAG_ENCODABLE_BINARY_HEADERS) = false.
Proof.
  intros -> N. destruct (assoc_str (firstn 8 (c :: r)) TAG_ENCODABLE_BINARY_HEADERS) eqn:E; [|reflexivity].
  apply header_assoc_inv in E as (k & E & _). destruct (header_first k) as (x & X). rewrite X in E. cbn [firstn] in E. congruence.
Qed.
Lemma no_hex s c r : s = c :: r -> ~ 50 <= c <= 52 -> is_some (assoc_str (upper (firstn 2 s)) TAG_ENCODABLE_HEX_HEADERS) = false.
Proof.
  intros -> N. destruct (assoc_str (upper (firstn 2 (c :: r))) TAG_ENCODABLE_HEX_HEADERS) eqn:E; [|reflexivity].
  apply hex_assoc_inv in E as (k & E & _). destruct (hex_first k) as (a & b & X & A). rewrite X in E. cbn [firstn upper map] in E.
  assert (Y : upper_char c = a) by congruence. unfold upper_char in Y. destruct ((97 <=? c) && (c <=? 122))%bool eqn:Z; lia.
Qed.
Lemma not_element s c r : s = c :: r -> c <> 40 -> fullmatch GS1_ELEMENT_STRING s = false.
Proof. intros -> N. nomatch ltac:(fun X => apply element_paren in X as (x & X); congruence). Qed.
Lemma uri_first s : fullmatch EPC_URI s = true \/ fullmatch TAG_URI s = true \/ fullmatch IDPAT_URI s = true -> exists r, s = 117 :: r.
Proof.
  intros [H|[H|H]]; [apply epc_uri_prefix in H as (c & b & ->); destruct c|apply tag_uri_prefix in H as (b & ->)|apply idpat_prefix in H as (b & ->)]; eexists; reflexivity.
Qed.
Lemma not_uri s c r : s = c :: r -> c <> 117 -> fullmatch EPC_URI s = false /\ fullmatch TAG_URI s = false /\ fullmatch IDPAT_URI s = false.
Proof.
  intros E N. assert (X : forall b, (b = true -> exists r, s = 117 :: r) -> b = false).
  { intros [|] H; [|reflexivity]. destruct (H eq_refl) as (x & Y). congruence. }
  repeat split; apply X; intros H; apply uri_first; auto.
Qed.

(** * Each form *)
Lemma keyed_some o g : (let* s := lift Some o in match s with Some e => if is_gs1_keyed (class_of e) then epc_gs1_key e g else Raise ConvertException | None => Raise ConvertException end) = keyed o g.
Proof. destruct o; reflexivity. Qed.
Lemma keyed_pure c u l g : (exists b, u = scheme_prefix c ++ b) -> get_gs1_key u l g = keyed (init_of c u) g.
Proof.
  intros (b & ->). unfold get_gs1_key. destruct (fullmatch EPC_URI (scheme_prefix c ++ b)) eqn:E.
  - rewrite keyed_some. f_equal. unfold epc_pure_identity_to_scheme. destruct (prefix_split c b) as (x & y & ->).
    cbn [idx nth_error of_option bind]. rewrite assoc_identifier. reflexivity.
  - assert (F : exists r, scheme_prefix c ++ b = 117 :: r) by (destruct c; eexists; reflexivity). destruct F as (r & F).
    rewrite (not_element _ _ _ F) by discriminate.
    assert (T : fullmatch TAG_URI (scheme_prefix c ++ b) = false).
    { nomatch ltac:(fun X => apply tag_uri_prefix in X as (x & X); destruct c; discriminate X). }
    assert (P : fullmatch IDPAT_URI (scheme_prefix c ++ b) = false).
    { nomatch ltac:(fun X => apply idpat_prefix in X as (x & X); destruct c; discriminate X). }
    rewrite T, P, (no_bin _ _ _ F), (no_hex _ _ _ F) by lia. rewrite init_nomatch; [reflexivity|].
    nomatch ltac:(fun X => assert (Y : fullmatch EPC_URI (scheme_prefix c ++ b) = true) by (apply epc_uri_lang; eauto); congruence).
Qed.
Lemma keyed_element c s l g : element_string c s -> l <> 0%Z -> get_gs1_key s (Some l) g = keyed (from_gs1_element_string_of c s l) g.
Proof.
  intros H L. assert (M : fullmatch GS1_ELEMENT_STRING s = true) by (apply gs1_element_any; eauto).
  destruct (element_paren s M) as (r & E). unfold get_gs1_key. destruct (not_uri _ _ _ E) as (U & _ & _); [discriminate|]. rewrite U, M.
  cbn [truthy]. replace (l =? 0)%Z with false by lia. rewrite keyed_some. f_equal. apply element_dispatch, H.
Qed.
Lemma keyed_element_none c s l g : element_string c s -> l = None \/ l = Some 0%Z -> get_gs1_key s l g = Raise ConvertException.
Proof.
  intros H L. assert (M : fullmatch GS1_ELEMENT_STRING s = true) by (apply gs1_element_any; eauto).
  destruct (element_paren s M) as (r & E). unfold get_gs1_key. destruct (not_uri _ _ _ E) as (U & V & W); [discriminate|]. rewrite U, M, V, W.
  rewrite (no_bin _ _ _ E), (no_hex _ _ _ E) by lia. destruct L as [->| ->]; reflexivity.
Qed.
Lemma uri_body_nomatch c nm body : In nm (coding_names c) -> ~ lang (uri_body c) body -> init_of c (scheme_prefix c ++ body) = Raise ConvertException.
Proof. intros N L. apply init_nomatch. nomatch ltac:(fun X => apply (uri_re_tag c nm body N) in X; tauto). Qed.
Lemma keyed_tag c nm f body l g : In nm (coding_names c) -> c <> C_GID -> numeral f ->
  get_gs1_key (lit "urn:epc:tag:" ++ nm ++ lit ":" ++ f ++ lit "." ++ body) l g = keyed (init_of c (scheme_prefix c ++ body)) g.
Proof.
  intros N G F. apply numeral_iff in F. unfold get_gs1_key. set (t := lit "urn:epc:tag:" ++ _).
  assert (A : exists r, t = 117 :: r) by (eexists; reflexivity). destruct A as (r & A).
  assert (E : fullmatch EPC_URI t = false).
  { nomatch ltac:(fun X => apply epc_uri_prefix in X as (c' & b & X); unfold t in X; destruct c'; discriminate X). }
  rewrite E, (not_element _ _ _ A) by discriminate.
  destruct (fullmatch TAG_URI t) eqn:T.
  - rewrite keyed_some. f_equal. unfold t. change (lit ":") with [c_colon]. change (lit ".") with [c_dot]. rewrite <- (from_tag_of c nm f body N G F).
    apply (tag_dispatch c nm (f ++ [c_dot] ++ body) N).
  - assert (P : fullmatch IDPAT_URI t = false).
    { nomatch ltac:(fun X => apply idpat_prefix in X as (x & X); discriminate X). }
    rewrite P, (no_bin _ _ _ A), (no_hex _ _ _ A) by lia. rewrite (uri_body_nomatch c nm body N); [reflexivity|].
    intros L. apply fullmatch_false in T. apply T. apply tag_uri_lang. exists c, nm, (f ++ lit "." ++ body). split; [exact N|]. split; [reflexivity|].
    assert (X : rest_re c = RSeq NC (RSeq dot (uri_body c))) by (destruct c; try reflexivity; destruct (G eq_refl)). rewrite X.
    apply lang_dot_seq. exists f, body. split; [reflexivity|]. split; [apply lang_NC, F|exact L].
Qed.
Lemma keyed_binary k s l g : firstn 8 s = tag_header k -> get_gs1_key s l g = keyed (from_binary_of (tag_class k) s) g.
Proof.
  intros H. assert (A : exists r, s = 48 :: r).
  { destruct (header_first k) as (x & X). rewrite X in H. destruct s as [|c s]; [discriminate|]. cbn [firstn] in H. injection H as -> _. eauto. }
  destruct A as (r & A). unfold get_gs1_key. destruct (not_uri _ _ _ A) as (U & V & W); [discriminate|].
  rewrite U, (not_element _ _ _ A), V, W by discriminate. rewrite H, header_assoc. cbn [is_some]. rewrite keyed_some. f_equal.
  unfold binary_to_tag_encodable. rewrite H, header_assoc. reflexivity.
Qed.
Lemma upper_letters a k : same_letters a (hex_header k) <-> upper a = hex_header k.
Proof.
  destruct (hex_first k) as (x & y & E & X). rewrite E. unfold same_letters. 
  assert (Y : 48 <= y <= 57 \/ 65 <= y <= 70) by (destruct k; injection E as <- <-; lia).
  split.
  - intros H. inversion H as [|a1 ? l1 ? H1 H2]; subst. inversion H2 as [|a2 ? l2 ? H3 H4]; subst. inversion H4; subst.
    cbn [upper map]. unfold upper_char. f_equal; [|f_equal].
    + destruct ((97 <=? a1) && (a1 <=? 122))%bool eqn:Z; lia.
    + destruct ((97 <=? a2) && (a2 <=? 122))%bool eqn:Z; lia.
  - intros H. destruct a as [|a1 [|a2 [|]]]; try discriminate H. cbn [upper map] in H. unfold upper_char in H. injection H as H1 H2.
    apply Forall2_cons; [|apply Forall2_cons; [|apply Forall2_nil]].
    + destruct ((97 <=? a1) && (a1 <=? 122))%bool eqn:Z in H1; lia.
    + destruct ((97 <=? a2) && (a2 <=? 122))%bool eqn:Z in H2; lia.
Qed.
Lemma keyed_hex k a r l g : same_letters a (hex_header k) -> get_gs1_key (a ++ r) l g = keyed (hex_to_tag_encodable (a ++ r)) g.
Proof.
  intros H. pose proof H as H'. apply upper_letters in H. destruct (hex_first k) as (x & y & E & X). rewrite E in H.
  destruct a as [|a1 [|a2 [|]]]; try discriminate H. cbn [upper map] in H. injection H as H1 H2.
  assert (A : 50 <= a1 <= 52). { unfold upper_char in H1. destruct ((97 <=? a1) && (a1 <=? 122))%bool eqn:Z in H1; lia. }
  set (s := [a1; a2] ++ r). assert (S : s = a1 :: a2 :: r) by reflexivity.
  unfold get_gs1_key. destruct (not_uri _ _ _ S) as (U & V & W); [lia|].
  rewrite U, (not_element _ _ _ S), V, W by lia. rewrite (no_bin _ _ _ S) by lia.
  assert (F : upper (firstn 2 s) = hex_header k) by (rewrite E; unfold s; cbn [app firstn upper map]; congruence).
  rewrite F, hex_assoc. cbn [is_some]. apply keyed_some.
Qed.
