(** Which exceptions leave the parsers and the methods. *)
From Coq Require Import String.
From Coq Require Import List NArith ZArith Lia Bool.
From Verif.Model Require Import Py Re Regexes Common Base Parsers.
From Verif.Model Require Import Adi Cpi Gdti Giai Gid Grai Gsrn Gsrnp Itip Lgtin Sgcn Sgln Sgtin Sscc Usdod Others.
From Verif.Spec Require Import Spec SpecEscapes SpecGrammar SpecSchemes SpecLayout SpecCoding SpecTags SpecErrors SpecKeys SpecElements.
From Verif.Proofs Require Import Basics Num Uni Tables Partition ReLemmas Grammar Ctor CtorA CtorB CtorC CtorAll TagUri TagUri2 TagFits PureParsers.
From Verif.Proofs Require Import Checksum Keys ElementAccept ElementDispatch GetKey Idpat DecodeA DecodeB DecodeC Exceptions.
Import ListNotations.
Open Scope N_scope.

(** * Hexadecimal text *)
Lemma hex_char_number c : hex_char (to_ascii_char c) = true -> number_character c.
Proof.
  unfold to_ascii_char, number_character, blank. destruct (c <? 127) eqn:L.
  - unfold hex_char, digit_in, digit_val, is_ascii_space, c_us. intros H. cbn [In lit].
    destruct ((48 <=? c) && (c <=? 57)) eqn:E1; [lia|]. destruct ((65 <=? c) && (c <=? 90)) eqn:E2.
    { destruct (c - 55 <? 16) eqn:E; [lia|]. right; right; right. cbn. lia. }
    destruct ((97 <=? c) && (c <=? 122)) eqn:E3.
    { destruct (c - 87 <? 16) eqn:E; [lia|]. right; right; right. cbn. lia. }
    cbn [orb] in H. rewrite !orb_true_iff, andb_true_iff, !N.eqb_eq in H.
    destruct H as [[[[[[H|H]|H]|H]|H]|H]|H]; [right; right; left; lia|right; right; left; right; right; left; lia|..];
    right; right; right; rewrite H; cbn; tauto.
  - unfold is_uni_space. destruct (_ || _) eqn:S.
    + intros _. right; right; left. rewrite !orb_true_iff, andb_true_iff, !N.eqb_eq, !N.leb_le in S. cbn [In]. intuition lia.
    + destruct (udigit c) eqn:U; [intros _; right; left; discriminate|]. intros H. vm_compute in H. discriminate H.
Qed.
Lemma hex_char_number' c : hex_char c = true -> c < 128 -> number_character c.
Proof.
  intros H L. destruct (N.eq_dec c 127) as [->|D]; [vm_compute in H; discriminate H|].
  apply hex_char_number. unfold to_ascii_char. replace (c <? 127) with true by lia. exact H.
Qed.
Theorem not_hexadecimal s c : In c s -> ~ number_character c -> hex_to_binary s = Raise ValueError.
Proof.
  intros I N. unfold hex_to_binary. destruct (int_base 16 s) as [z|e] eqn:E.
  - exfalso. apply int16_hex in E. unfold to_ascii_num in E. destruct (forallb is_ascii s) eqn:A.
    + rewrite forallb_forall in A, E. apply N, hex_char_number'; [apply E, I|]. specialize (A c I). unfold is_ascii in A. lia.
    + rewrite forallb_forall in E. apply N, hex_char_number, E, in_map, I.
  - cbn [bind]. f_equal. unfold int_base in E. destruct (py_int 16 s); [discriminate E|]. injection E as <-. reflexivity.
Qed.
Theorem not_hexadecimal_parsers s c k : In c s -> ~ number_character c ->
  hex_to_tag_encodable s = Raise ValueError /\ from_hex (from_binary_of k) s = Raise ValueError.
Proof.
  intros I N. pose proof (not_hexadecimal s c I N) as H. unfold hex_to_tag_encodable, from_hex. rewrite H. split; reflexivity.
Qed.
Theorem empty_hexadecimal k : hex_to_tag_encodable [] = Raise ValueError /\ from_hex (from_binary_of k) [] = Raise ValueError.
Proof. split; reflexivity. Qed.
Theorem base64_not_ascii s k : ~ ascii s ->
  base64_to_tag_encodable s = Raise ValueError /\ from_base64 (from_binary_of k) s = Raise ValueError.
Proof.
  intros N. assert (H : base64_to_hex s = Raise ValueError).
  { unfold base64_to_hex, b64decode. destruct (forallb is_ascii (s ++ lit "==")) eqn:A; [|reflexivity].
    exfalso. apply N. intros c I. rewrite forallb_forall in A. specialize (A c). rewrite in_app_iff in A. unfold is_ascii in A. specialize (A (or_introl I)). lia. }
  unfold base64_to_tag_encodable, from_base64. rewrite H. split; reflexivity.
Qed.

(** * Element strings, keys and ID patterns *)
Lemma key_exn e g x : is_gs1_keyed (class_of e) = true -> epc_gs1_key e g = Raise x ->
  x = ConvertException \/ (x = TypeError /\ g <> None /\ exists k, epc_gs1_key e None = Ok k).
Proof.
  intros K. destruct e; try discriminate K; destruct g as [g|]; cbn [epc_gs1_key];
  try (intros H; discriminate H);
  try (intros H; injection H as <-; right; split; [reflexivity|]; split; [discriminate|]; eexists; reflexivity);
  unfold lgtin_gs1_key, sgtin_gs1_key, lgtin_gtin, sgtin_gtin, gtin_view; unfold raise_if;
  match goal with |- bind (if ?b then _ else _) _ = _ -> _ => destruct b end; cbn [bind]; intros H;
  try discriminate H; injection H as <-; left; reflexivity.
Qed.
Lemma keyed_exn o g x : keyed o g = Raise x ->
  o = Raise x \/ x = ConvertException \/ (x = TypeError /\ g <> None /\ exists k, keyed o None = Ok k).
Proof.
  unfold keyed. destruct o as [e|e]; cbn [bind]; [|intros H; injection H as <-; left; reflexivity].
  destruct (is_gs1_keyed (class_of e)) eqn:K; [|intros H; injection H as <-; right; left; reflexivity].
  intros H. apply (key_exn e g x K) in H. tauto.
Qed.
Lemma only_keyed o g x : only cvo o -> keyed o g = Raise x -> cvo x \/ (x = TypeError /\ g <> None /\ exists k, keyed o None = Ok k).
Proof. intros O H. apply keyed_exn in H as [H|[->|H]]; [left; apply O, H|left; auto with exn|right; exact H]. Qed.

Lemma only_pure c b : only cvo (epc_pure_identity_to_scheme (scheme_prefix c ++ b)).
Proof.
  unfold epc_pure_identity_to_scheme. destruct (prefix_split c b) as (x & y & P). rewrite P. cbn [idx nth_error of_option bind].
  rewrite assoc_identifier. cbn [of_option bind]. apply only_init.
Qed.
Lemma first_regex_in l s c : first_regex l s = Some c -> In c (map snd l).
Proof.
  induction l as [|[r d] l IH]; [discriminate|]. cbn [first_regex map snd]. destruct (fullmatch r s).
  - intros H. injection H as <-. left; reflexivity.
  - intros H. right. apply IH, H.
Qed.
Theorem element_parser_exn g l : only cvo (gs1_element_string_to_gs1_element g l).
Proof.
  unfold gs1_element_string_to_gs1_element. apply only_bind; [apply only_of_option; auto with exn|]. intros c H.
  destruct (first_regex _ g) as [d|] eqn:F; [|discriminate H]. injection H as ->. apply first_regex_in in F.
  unfold GS1_ELEMENT_STRING_REGEX_TO_SCHEME in F. rewrite map_map in F. cbn [snd] in F. rewrite map_id in F. apply filter_In in F as [_ F].
  apply element_classes_iff in F. intros e E. exact (element_exn c g l e F E).
Qed.
Lemma get_key_via s l : (exists o, only cvo o /\ forall g, get_gs1_key s l g = keyed o g) \/ (forall g, get_gs1_key s l g = Raise ConvertException).
Proof.
  unfold get_gs1_key.
  assert (K : forall o, only cvo o -> exists o', only cvo o' /\ forall g, (let* s := lift Some o in match s with Some e => if is_gs1_keyed (class_of e) then epc_gs1_key e g else Raise ConvertException | None => Raise ConvertException end) = keyed o' g).
  { intros o O. exists o. split; [exact O|]. intros g. apply keyed_some. }
  destruct (fullmatch EPC_URI s) eqn:E1.
  { left. apply K. apply epc_uri_prefix in E1 as (c & b & ->). apply only_pure. }
  destruct (if fullmatch GS1_ELEMENT_STRING s then truthy l else None) as [z|].
  { left. apply K, element_parser_exn. }
  destruct (fullmatch TAG_URI s) eqn:E2.
  { left. apply K. apply fullmatch_lang in E2. assert (M : rmatch TAG_URI s = true).
    { apply rmatch_lang. exists s, []. rewrite app_nil_r. auto. }
    apply tag_start in M as (c & nm & r & I & ->). rewrite (tag_dispatch c nm r I). apply only_tag. exact (coding_class c nm I). }
  destruct (fullmatch IDPAT_URI s) eqn:E3.
  { left. apply K. apply fullmatch_lang in E3. apply lang_lit_seq in E3 as (b & -> & L).
    apply idpat_body_lang in L as (c & r & -> & L). assert (NL : c <> C_LGTIN) by (intros ->; destruct L).
    rewrite (idpat_scheme c r NL L). apply only_if; [apply only_init|apply only_raise; auto with exn]. }
  destruct (is_some (assoc_str (firstn 8 s) TAG_ENCODABLE_BINARY_HEADERS)); [left; apply K, only_binary|].
  destruct (is_some _); [left; apply K, hex_parser_exn|]. right. reflexivity.
Qed.
Theorem get_key_exn s l g x : get_gs1_key s l g = Raise x ->
  refused x \/ (x = TypeError /\ g <> None /\ exists k, get_gs1_key s l None = Ok k).
Proof.
  destruct (get_key_via s l) as [(o & O & K)|K]; rewrite !K; [apply only_keyed, O|]. intros H. injection H as <-. left; left; reflexivity.
Qed.

(** * The parsers that look at the fourth field *)
Definition by_field (f : str -> res epc) : Prop :=
  (forall t, (colons t < 3)%nat -> f t = Raise IndexError) /\
  (forall t e, (3 <= colons t)%nat -> f t = Raise e -> refused_text t e).
Lemma by_field_scheme : by_field epc_pure_identity_to_scheme.
Proof.
  split; intros t; [intros L; apply scheme_exn; left; auto|]. intros e L E. apply scheme_exn in E as [[L' _]|[_ [_ H]]]; [lia|exact H].
Qed.
Lemma by_field_tag : by_field tag_uri_to_tag_encodable.
Proof.
  split; intros t; [intros L; apply tag_parser_exn; left; auto|]. intros e L E. apply tag_parser_exn in E as [[L' _]|[_ [_ H]]]; [lia|exact H].
Qed.
Lemma by_field_restricted can f : restricted can f -> by_field f.
Proof.
  intros (R1 & R2 & R3). split; intros t.
  - intros L. apply R3. apply (proj1 by_field_scheme t L).
  - intros e L E. destruct (epc_pure_identity_to_scheme t) as [x|x] eqn:S.
    + destruct (in_dec cls_dec (class_of x) can) as [I|I].
      * rewrite (proj2 (R1 t x) (conj S I)) in E. discriminate E.
      * rewrite (R2 t x S I) in E. injection E as <-. left; reflexivity.
    + rewrite (R3 t x S) in E. injection E as <-. exact (proj2 by_field_scheme t x L S).
Qed.
Theorem field_parsers f :
  In f [epc_pure_identity_to_scheme; epc_pure_identity_to_gs1_element; epc_pure_identity_to_gs1_keyed;
        epc_pure_identity_to_tag_encodable; tag_uri_to_tag_encodable] ->
  (forall t, (colons t < 3)%nat -> f t = Raise IndexError) /\
  (forall t e, (3 <= colons t)%nat -> f t = Raise e -> refused_text t e).
Proof.
  intros [<-|[<-|[<-|[<-|[<-|[]]]]]].
  - apply by_field_scheme.
  - apply (by_field_restricted _ _ restricted_element).
  - apply (by_field_restricted _ _ restricted_keyed).
  - apply (by_field_restricted _ _ restricted_tag).
  - apply by_field_tag.
Qed.
Theorem idpat_exn t :
  ((colons t < 3)%nat -> idpat_to_gs1_keyed_scheme t = Raise IndexError) /\
  (forall e, (3 <= colons t)%nat -> idpat_to_gs1_keyed_scheme t = Raise e -> refused e).
Proof.
  unfold idpat_to_gs1_keyed_scheme. destruct (field3 t) as [[L F]|[L [f F]]]; rewrite F; cbn [bind].
  - split; [reflexivity|]. intros; lia.
  - split; [intros; lia|]. intros e _. revert e.
    match goal with |- forall e, ?r = Raise e -> _ => change (only cvo r) end.
    repeat first [apply only_init|walk1].
Qed.

(** element strings of objects that were built *)
Lemma element_string_exn c u e x : init_of c u = Ok e -> In c element_classes -> epc_gs1_element_string e = Raise x ->
  x = IndexError /\ exists cp tpx, upui_uri u cp [] tpx.
Proof.
  intros I K E. destruct (init_class c u e I) as [<- _].
  destruct e; cbn [epc_gs1_element_string] in E; try discriminate E;
  try (exfalso; cbn in K; repeat (destruct K as [K|K]; [discriminate K|]); exact K);
  cbn [class_of init_of] in I; apply lift_ok in I as (y & I & Y); injection Y as ->.
  - exfalso. apply itip_iff in I as [U _]. destruct U as (_ & (C1 & _) & T & _ & _ & NE & _).
    unfold itip_gs1_element_string in E. destruct (itip_item y) as [|i rest]; [congruence|].
    apply digits_iff in C1, T. cbn [forallb] in T. apply andb_true_iff in T as [T1 T2].
    cbn [idx nth_error of_option bind skipn] in E. rewrite checksum_ok in E by (cbn [forallb]; rewrite T1, forallb_app', C1, T2; reflexivity).
    discriminate E.
  - apply upui_iff in I as (tpx & U & _). unfold upui_gs1_element_string in E.
    destruct (upui_item y) as [|i rest]; [split; [|exists (upui_cp y), tpx; exact U]; cbn in E; injection E as <-; reflexivity|].
    exfalso. destruct U as (_ & C1 & _ & T & _).
    apply digits_iff in C1, T. cbn [forallb] in T. apply andb_true_iff in T as [T1 T2].
    cbn [idx nth_error of_option bind skipn] in E. rewrite checksum_ok in E by (cbn [forallb]; rewrite T1, forallb_app', C1, T2; reflexivity).
    discriminate E.
Qed.
Lemma pure_ok_init t e : epc_pure_identity_to_scheme t = Ok e -> init_of (class_of e) t = Ok e.
Proof.
  unfold epc_pure_identity_to_scheme. destruct (idx (split c_colon t) 3) as [f|]; [|discriminate]. cbn [bind].
  destruct (assoc_str f EPC_SCHEME_IDENTIFIERS) as [c|]; [|discriminate]. cbn [of_option bind]. intros H.
  destruct (init_class c t e H) as [-> _]. exact H.
Qed.
Theorem element_string_parser_exn t x : epc_pure_identity_to_gs1_element_string t = Raise x ->
  ((colons t < 3)%nat /\ x = IndexError) \/ ((3 <= colons t)%nat /\ refused_text t x) \/
  (x = IndexError /\ exists cp tpx, upui_uri t cp [] tpx).
Proof.
  unfold epc_pure_identity_to_gs1_element_string. destruct (epc_pure_identity_to_gs1_element t) as [e|e] eqn:F; cbn [bind].
  - intros E. right; right. apply restricted_element in F as [F I]. apply pure_ok_init in F. exact (element_string_exn _ t e x F I E).
  - intros E. injection E as <-. destruct (field_parsers epc_pure_identity_to_gs1_element) as [P Q]; [cbn; tauto|].
    destruct (Nat.lt_ge_cases (colons t) 3) as [L|L].
    + left. rewrite (P t L) in F. injection F as <-. auto.
    + right; left. split; [exact L|]. exact (Q t e L F).
Qed.
Theorem key_parser_exn t g x : epc_pure_identity_to_gs1_key t g = Raise x ->
  ((colons t < 3)%nat /\ x = IndexError) \/ ((3 <= colons t)%nat /\ refused_text t x) \/
  (x = TypeError /\ g <> None /\ exists k, epc_pure_identity_to_gs1_key t None = Ok k).
Proof.
  unfold epc_pure_identity_to_gs1_key. destruct (epc_pure_identity_to_gs1_keyed t) as [e|e] eqn:F; cbn [bind].
  - intros E. apply restricted_keyed in F as [F I]. apply keyed_classes_iff in I. destruct (key_exn e g x I E) as [->|H].
    + right; left. split; [|left; reflexivity]. destruct (Nat.lt_ge_cases (colons t) 3) as [L|L]; [|exact L].
      rewrite (proj1 by_field_scheme t L) in F. discriminate F.
    + right; right. exact H.
  - intros E. injection E as <-. destruct (field_parsers epc_pure_identity_to_gs1_keyed) as [P Q]; [cbn; tauto|].
    destruct (Nat.lt_ge_cases (colons t) 3) as [L|L].
    + left. rewrite (P t L) in F. injection F as <-. auto.
    + right; left. split; [exact L|]. exact (Q t e L F).
Qed.

(** * The methods of objects that were built *)
Theorem tag_uri_exn q u e : init_of (class_of (req_epc q)) u = Ok (req_epc q) -> req_tag_uri q = Raise e -> e = ConvertException.
Proof.
  intros I E. destruct (tag_uri_exact q u I) as [P Q]. destruct (BinAll.room_dec q) as [R|R].
  - destruct (P R) as (t & T). rewrite T in E. discriminate E.
  - rewrite (Q R) in E. injection E as <-. reflexivity.
Qed.
Definition cv (e : exn) : Prop := e = ConvertException \/ e = ValueError.
Lemma cv_c : cv ConvertException. Proof. left; reflexivity. Qed.
Lemma cv_v : cv ValueError. Proof. right; reflexivity. Qed.
#[global] Hint Resolve cv_c cv_v : exn.
Lemma cv_int b s : only cv (int_base b s). Proof. unfold int_base. auto with exn. Qed.
Lemma cv_int10 s : only cv (int10 s). Proof. unfold int10. apply only_if; [auto with exn|apply cv_int]. Qed.
Lemma cv_str s n : only cv (str_to_binary s n).
Proof. unfold str_to_binary. apply only_bind; [apply cv_int10|intros; apply only_ok]. Qed.
Lemma cv_str_int z n : only cv (str_int_to_binary z n).
Proof. unfold str_int_to_binary. apply only_bind; [unfold str_int; apply only_if; auto with exn; apply only_ok|intros; apply cv_str]. Qed.
Lemma cv_enc7 s n : only cv (encode_string s n).
Proof. unfold encode_string. apply only_bind; [|intros; apply only_ok]. apply only_map. intros [|c g]; [apply only_ok|].
  apply only_if; [apply only_map; intros; apply cv_str_int|]. apply only_bind; [apply cv_int|intros; apply cv_str_int]. Qed.
Lemma cv_enc6 s : only cv (encode_string_six_bits s).
Proof.
  unfold encode_string_six_bits. apply only_bind; [|intros; apply only_ok]. apply only_map. intros [|c g]; [apply only_ok|].
  apply only_if; [apply only_ok|]. apply only_if; [|apply only_bind; [apply cv_int|intros; apply cv_str_int]].
  apply only_map. intros a. unfold six_bit_char. apply only_if; [|apply only_ok]. apply only_bind; [first [apply cv_int|apply cv_int10]|intros; apply only_ok].
Qed.
Lemma cv_part C D rows (sp six : bool) : rows_ok rows = true -> company_prefix C -> only cv (encode_partition_table C D (table_L rows) sp six).
Proof.
  intros R [_ L]. unfold encode_partition_table. destruct (lookup_L rows (length C) R L) as (r & _ & -> & _). cbn [of_option bind].
  apply only_bind; [apply cv_str|intros]. apply only_bind; [|intros; apply only_ok].
  repeat apply only_if; auto using cv_enc7, cv_enc6, cv_str, only_ok.
Qed.
Lemma cv_numeric s n : only cv (encode_numeric_string s n).
Proof. unfold encode_numeric_string. apply only_bind; [auto with exn|intros; apply cv_str]. Qed.
Lemma cv_fixed s n : only cv (encode_fixed_width_integer s n).
Proof. unfold encode_fixed_width_integer. apply only_bind; [apply cv_int10|intros]. apply only_bind; [auto with exn|intros; apply cv_str]. Qed.
Lemma cv_cage6 s : only cv (encode_cage_code_six_bits s).
Proof. unfold encode_cage_code_six_bits. apply only_bind; [apply cv_enc6|intros; apply only_ok]. Qed.
Theorem binary_exn q u e : init_of (class_of (req_epc q)) u = Ok (req_epc q) -> req_binary q = Raise e -> e = ConvertException \/ e = ValueError.
Proof.
  intros I. assert (C : match q with
    | T_CPI x _ _ => company_prefix (cpi_cp x) | T_GDTI x _ _ => company_prefix (gdti_cp x) | T_GIAI x _ _ => company_prefix (giai_cp x)
    | T_GRAI x _ _ => company_prefix (grai_cp x) | T_GSRN x _ _ => company_prefix (gsrn_cp x) | T_GSRNP x _ _ => company_prefix (gsrnp_cp x)
    | T_ITIP x _ _ => company_prefix (itip_cp x) | T_SGCN x _ _ => company_prefix (sgcn_cp x) | T_SGLN x _ _ => company_prefix (sgln_cp x)
    | T_SGTIN x _ _ => company_prefix (sgtin_cp x) | T_SSCC x _ _ => company_prefix (sscc_cp x) | _ => True end).
  { destruct q; try exact Logic.I; cbn [req_epc class_of init_of] in I; apply lift_ok in I as (y & I & Y); injection Y as <-;
    first [apply cpi_iff in I as [(_ & I & _) _]|apply gdti_iff in I as [(_ & I & _) _]|apply giai_iff in I as [(r & _ & I & _) _]
      |apply grai_iff in I as [(_ & I & _) _]|apply gsrn_iff in I as [(_ & I & _) _]|apply gsrnp_iff in I as [(_ & I & _) _]
      |apply itip_iff in I as [(_ & I & _) _]|apply sgcn_iff in I as [(_ & I & _) _]|apply sgln_iff in I as [(_ & I & _) _]
      |apply sgtin_iff in I as [(_ & I & _) _]|apply sscc_iff in I as [(_ & I & _) _]]; exact I. }
  revert e. change (only cv (req_binary q)). destruct q as [x s f|x s f|x s f|x s f|x s|x s f|x s f|x s f|x s f|x s f|x s f|x s f|x s f|x s f];
  cbn [req_binary]; clear I u;
  match goal with |- only _ (?g x s f) => unfold g | |- only _ (?g x s) => unfold g end;
  repeat first [apply only_ok|apply cv_str|apply cv_enc7|apply cv_enc6|apply cv_numeric|apply cv_fixed|apply cv_cage6
    |apply cv_part; [vm_compute; reflexivity|exact C]
    |apply only_bind; [|intros ? ?]|match goal with |- only _ (match s with _ => _ end) => destruct s end].
Qed.
Theorem hex_exn q u e : init_of (class_of (req_epc q)) u = Ok (req_epc q) ->
  req_hex q = Raise e \/ req_base64 q = Raise e -> e = ConvertException \/ e = ValueError.
Proof.
  intros I. assert (H : only cv (req_hex q)).
  { unfold req_hex, binary_hex. apply only_bind; [intros x X; exact (binary_exn q u x I X)|intros b _].
    apply only_bind; [apply cv_int|intros; apply only_ok]. }
  intros [E|E]; [exact (H e E)|]. revert e E. change (only cv (req_base64 q)). unfold req_base64, binary_base64.
  apply only_bind; [exact H|intros h _]. unfold hex_to_base64, bytes_fromhex. apply only_bind; [auto with exn|intros; apply only_ok].
Qed.
Theorem constructor_exn c u e : init_of c u = Raise e ->
  e = ConvertException \/ ((e = ValueError \/ e = OverflowError) /\
    exists body s rest, u = scheme_prefix c ++ body ++ s ++ rest /\ malformed_component s /\ (rest = [] \/ c = C_GIAI)) \/
  (e = ValueError /\ (c = C_GID \/ c = C_USDOD) /\
    exists body s rest, u = scheme_prefix c ++ body ++ s ++ rest /\ long_number s).
Proof. exact (init_exn c u e). Qed.
Theorem plain_constructor_exn c u e : In c [C_ADI; C_BIC; C_CPI; C_GSIN; C_GSRN; C_GSRNP; C_IMOVN; C_PGLN; C_SGCN; C_SSCC] ->
  init_of c u = Raise e -> e = ConvertException.
Proof.
  intros I E. repeat (destruct I as [<-|I]); try destruct I; cbn [init_of] in E; apply lift_raise in E; revert E;
  first [apply adi_refusal|apply bic_refusal|apply cpi_refusal|apply gsin_refusal|apply gsrn_refusal|apply gsrnp_refusal
    |apply imovn_refusal|apply pgln_refusal|apply sgcn_refusal|apply sscc_refusal].
Qed.
Theorem long_gid_exn m o s : long_number m -> numeral o -> numeral s -> gid_init (lit "urn:epc:id:gid:" ++ m ++ lit "." ++ o ++ lit "." ++ s) = Raise ValueError.
Proof.
  intros [M L] O S. apply numeral_iff in M, O, S. rewrite !lit_dot, (proj2 (gid_eval m o s M O S)). apply N.ltb_lt in L. unfold long.
  change (4300 <? N.of_nat (length m)) with (int_max_str_digits <? N.of_nat (length m)) in L. rewrite L. reflexivity.
Qed.
Theorem long_usdod_exn c s : cage_text c -> long_number s -> usdod_init (lit "urn:epc:id:usdod:" ++ c ++ lit "." ++ s) = Raise ValueError.
Proof.
  intros C [S L]. apply numeral_iff in S. apply CodecSpec.cage_text_iff in C as [K C]. rewrite !lit_dot, (proj2 (usdod_eval c s K C S)). apply N.ltb_lt in L. unfold long.
  change (4300 <? N.of_nat (length s)) with (int_max_str_digits <? N.of_nat (length s)) in L. rewrite L. reflexivity.
Qed.
Theorem long_gid_any m o s : long_number m -> numeral o -> numeral s ->
  init_of C_GID (lit "urn:epc:id:gid:" ++ m ++ lit "." ++ o ++ lit "." ++ s) = Raise ValueError.
Proof. intros M O S. cbn [init_of]. now rewrite long_gid_exn. Qed.
Theorem long_usdod_any c s : cage_text c -> long_number s -> init_of C_USDOD (lit "urn:epc:id:usdod:" ++ c ++ lit "." ++ s) = Raise ValueError.
Proof. intros C S. cbn [init_of]. now rewrite long_usdod_exn. Qed.
Theorem from_tag_text_exn c t e : In c tag_classes -> from_tag_uri_of c t = Raise e -> refused_text t e.
Proof. intros I E. exact (from_tag_exn c t I e E). Qed.
Theorem from_binary_any c b : In c tag_classes ->
  ((forall k, tag_class k = c -> firstn 8 b <> tag_header k) -> from_binary_of c b = Raise KeyError) /\
  (forall k e, tag_class k = c -> firstn 8 b = tag_header k -> from_binary_of c b = Raise e -> refused e).
Proof.
  intros I. split; [apply wrong_header, I|]. intros k e <- H E. exact (own_binary_exn k b H e E).
Qed.
Theorem text_parsers_exn s e :
  binary_to_tag_encodable s = Raise e \/ hex_to_tag_encodable s = Raise e \/ base64_to_tag_encodable s = Raise e \/
  (exists l, gs1_element_string_to_gs1_element s l = Raise e) \/ (exists l, get_gs1_key s l None = Raise e) -> refused e.
Proof.
  intros [H|[H|[H|[[l H]|[l H]]]]]; [exact (only_binary s e H)|exact (hex_parser_exn s e H)|exact (base64_parser_exn s e H)|exact (element_parser_exn s l e H)|].
  apply get_key_exn in H as [H|[_ [H _]]]; [exact H|congruence].
Qed.
Theorem hex_classes_exn c s e : In c tag_classes ->
  from_hex (from_binary_of c) s = Raise e \/ from_base64 (from_binary_of c) s = Raise e -> refused e \/ e = KeyError.
Proof. intros I [H|H]; [exact (from_hex_exn c s I e H)|exact (from_base64_exn c s I e H)]. Qed.
