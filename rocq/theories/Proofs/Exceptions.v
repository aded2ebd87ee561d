(** Which exceptions leave each function, for every text. *)
From Coq Require Import String.
From Coq Require Import List NArith ZArith Lia Bool.
From Verif.Model Require Import Py Re Regexes Common Base Parsers.
From Verif.Model Require Import Adi Cpi Gdti Giai Gid Grai Gsrn Gsrnp Itip Lgtin Sgcn Sgln Sgtin Sscc Usdod Others.
From Verif.Spec Require Import Spec SpecEscapes SpecGrammar SpecSchemes SpecLayout SpecCoding SpecTags.
From Verif.Proofs Require Import Basics Num ReLemmas Grammar Ctor CtorA CtorB CtorC CtorAll TagUri TagUri2 PureParsers Idpat.
From Verif.Proofs Require Import DecodeA DecodeB DecodeC.
Import ListNotations.
Open Scope N_scope.

Definition only {A} (P : exn -> Prop) (r : res A) : Prop := forall e, r = Raise e -> P e.
Definition cvo (e : exn) : Prop := e = ConvertException \/ e = ValueError \/ e = OverflowError.

Lemma only_ok {A} P (a : A) : only P (Ok a). Proof. intros e H. discriminate H. Qed.
Lemma only_raise {A} (P : exn -> Prop) e : P e -> @only A P (Raise e). Proof. intros H x E. injection E as <-. exact H. Qed.
Lemma only_bind {A B} P (r : res A) (f : A -> res B) : only P r -> (forall a, r = Ok a -> only P (f a)) -> only P (bind r f).
Proof. intros H K e E. destruct r; cbn [bind] in E; [exact (K a eq_refl e E)|injection E as <-; exact (H e0 eq_refl)]. Qed.
Lemma only_weak {A} (P Q : exn -> Prop) (r : res A) : (forall e, P e -> Q e) -> only P r -> only Q r.
Proof. intros W H e E. apply W, H, E. Qed.
Lemma only_if {A} P (b : bool) (x y : res A) : only P x -> only P y -> only P (if b then x else y).
Proof. destruct b; auto. Qed.
Lemma only_raise_if (P : exn -> Prop) (b : bool) e : P e -> only P (raise_if b e).
Proof. intros H. destruct b; [apply only_raise, H|apply only_ok]. Qed.
Lemma only_of_option {A} (P : exn -> Prop) (o : option A) e : P e -> only P (of_option e o).
Proof. intros H. destruct o; [apply only_ok|apply only_raise, H]. Qed.
Lemma only_map {A} P (f : A -> res str) l : (forall a, only P (f a)) -> only P (concat_map_res f l).
Proof.
  intros H. induction l as [|a l IH]; [apply only_ok|]. cbn [concat_map_res].
  apply only_bind; [apply H|intros x _]. apply only_bind; [exact IH|intros; apply only_ok].
Qed.
Lemma only_lift {A B} P (f : A -> B) r : only P r -> only P (lift f r).
Proof. intros H. unfold lift. apply only_bind; [exact H|intros; apply only_ok]. Qed.
Lemma cvo_c : cvo ConvertException. Proof. left; reflexivity. Qed.
Lemma cvo_v : cvo ValueError. Proof. right; left; reflexivity. Qed.
Lemma cvo_o : cvo OverflowError. Proof. right; right; reflexivity. Qed.
#[global] Hint Resolve cvo_c cvo_v cvo_o only_ok only_raise only_raise_if only_of_option : exn.

Lemma only_int b s : only cvo (int_base b s). Proof. unfold int_base. auto with exn. Qed.
Lemma only_chr z : only cvo (chr z).
Proof. unfold chr. repeat apply only_if; auto with exn. Qed.
#[global] Hint Resolve only_int only_chr : exn.

Ltac walk1 :=
  first
    [ apply only_ok
    | apply only_raise_if; solve [auto with exn]
    | apply only_of_option; solve [auto with exn]
    | apply only_int | apply only_chr
    | apply only_raise; solve [auto with exn]
    | apply only_bind; [|intros ? ?]
    | apply only_if
    | apply only_map; intros ?
    | match goal with |- only _ (match ?x with _ => _ end) => destruct x eqn:? end ].
Ltac walk := repeat walk1.

Lemma only_six l : only cvo (six_bit_loop l).
Proof.
  induction l as [|g l IH]; [apply only_ok|]. cbn [six_bit_loop].
  destruct (str_eqb g (lit "000000")); [apply only_ok|]. destruct (length g <? 6)%nat; [exact IH|].
  destruct (_ || _); walk; exact IH.
Qed.
Lemma only_dec6 b n : only cvo (decode_string_six_bits b n).
Proof. unfold decode_string_six_bits. apply only_bind; [apply only_six|intros]. walk. Qed.
Lemma only_dec7 b : only cvo (decode_string b).
Proof. unfold decode_string, decode_binary_char. walk. Qed.
Lemma only_part b t u s x : only cvo (decode_partition_table b t u s x).
Proof.
  unfold decode_partition_table, binary_to_int. repeat first [apply only_dec7|apply only_dec6|progress walk1].
Qed.
Lemma idx0 {A} (s : list A) : s <> [] -> exists c, idx s 0 = Ok c.
Proof. destruct s; [congruence|]. intros _. eexists. reflexivity. Qed.
Lemma only_num b : only cvo (decode_numeric_string b).
Proof.
  unfold decode_numeric_string. apply only_bind; [apply only_int|intros i _].
  apply only_bind; [unfold str_int; walk|intros t T]. assert (t = dec i) as -> by (revert T; unfold str_int; destruct (_ <? _); cbn; congruence).
  destruct (length (dec i) <=? 1)%nat eqn:L; cbn [raise_if bind]; [apply only_raise; auto with exn|].
  destruct (idx0 (dec i)) as [c ->]; [intros E; rewrite E in L; discriminate L|]. cbn [bind]. walk.
Qed.
Lemma only_fixed b : only cvo (decode_fixed_width_integer b).
Proof. unfold decode_fixed_width_integer. walk. Qed.
Lemma only_cage b : only cvo (decode_cage_code b).
Proof. unfold decode_cage_code. walk. Qed.
Lemma only_cage6 b : only cvo (decode_cage_code_six_bits b).
Proof. unfold decode_cage_code_six_bits. apply only_dec6. Qed.

(** the constructors *)
Lemma only_init c u : only cvo (init_of c u).
Proof. intros e E. apply init_exn in E as [->|[[[->| ->] _]|[-> _]]]; auto with exn. Qed.

(** tag URIs *)
Lemma tag_start t : rmatch TAG_URI t = true -> exists c nm r, In nm (coding_names c) /\ t = TAG_URI_PREFIX ++ nm ++ [c_colon] ++ r.
Proof.
  intros M. apply rmatch_lang in M as (p & q & -> & L). apply tag_uri_lang in L as (c & nm & r & N & -> & _).
  exists c, nm, (r ++ q). split; [exact N|]. unfold TAG_URI_PREFIX. rewrite <- !app_assoc. reflexivity.
Qed.
Lemma cut_first (c : N) s : In c s -> exists a r, s = a ++ [c] ++ r /\ ~ In c a.
Proof.
  induction s as [|x s IH]; [intros []|]. intros I. destruct (N.eq_dec x c) as [->|D].
  - exists [], s. split; [reflexivity|intros []].
  - destruct I as [I|I]; [congruence|]. destruct (IH I) as (a & r & -> & A). exists (x :: a), r.
    split; [reflexivity|]. intros [E|E]; [congruence|exact (A E)].
Qed.
Lemma tag_value_part b r : exists p q, r = p ++ tag_value b r ++ q.
Proof.
  unfold tag_value. destruct b.
  - destruct (in_dec N.eq_dec c_dot r) as [I|I].
    + apply cut_first in I as (a & q & -> & A). exists (a ++ [c_dot]), []. rewrite split_app1 by exact A.
      cbn [skipn]. rewrite join_split, app_nil_r, <- app_assoc. reflexivity.
    + rewrite split_nosep by exact I. exists r, []. cbn [skipn join]. rewrite !app_nil_r. reflexivity.
  - destruct (in_dec N.eq_dec c_colon r) as [I|I].
    + apply cut_first in I as (a & q & -> & A). exists [], ([c_colon] ++ q). rewrite split_app1 by exact A. reflexivity.
    + rewrite split_nosep by exact I. exists [], []. cbn [hd]. rewrite app_nil_r. reflexivity.
Qed.

(** ConvertException, or what the escape check of a component of [t] raises, or int() over a long number *)
Definition escape_exn (t : str) (e : exn) : Prop :=
  e = ConvertException \/
  ((e = ValueError \/ e = OverflowError) /\ exists p s r, t = p ++ s ++ r /\ malformed_component s) \/
  (e = ValueError /\ exists p s r, t = p ++ s ++ r /\ long_number s).
Lemma escape_cvo t e : escape_exn t e -> cvo e.
Proof. intros [->|[[[->| ->] _]|[-> _]]]; auto with exn. Qed.
Lemma escape_part t p q e : escape_exn t e -> escape_exn (p ++ t ++ q) e.
Proof.
  intros [->|[[H (a & s & b & -> & M)]|[H (a & s & b & -> & M)]]]; [left; reflexivity|right; left|right; right]; (split; [exact H|]);
  exists (p ++ a), s, (b ++ q); rewrite <- !app_assoc; auto.
Qed.
Lemma init_body_exn c body : only (escape_exn body) (init_of c (scheme_prefix c ++ body)).
Proof.
  intros e E. apply init_exn in E as [->|[[H (a & s & r & U & M & _)]|[H [_ (a & s & r & U & M)]]]]; [left; reflexivity|right; left|right; right];
  (split; [exact H|]); apply app_inv_head in U; exists a, s, r; auto.
Qed.
Lemma init_escape c u : only (escape_exn u) (init_of c u).
Proof.
  intros e E. apply init_exn in E as [->|[[H (a & s & r & -> & M & _)]|[H [_ (a & s & r & -> & M)]]]]; [left; reflexivity|right; left|right; right];
  (split; [exact H|]); exists (scheme_prefix c ++ a), s, r; rewrite <- !app_assoc; auto.
Qed.
Lemma init_any_body c c' body : only (escape_exn body) (init_of c (scheme_prefix c' ++ body)).
Proof.
  destruct (cls_dec c c') as [->|D]; [apply init_body_exn|]. rewrite init_other by exact D.
  apply only_raise. left; reflexivity.
Qed.
Lemma from_tag_only {T} (init : str -> res T) inc t :
  (forall c body, only (escape_exn body) (init (scheme_prefix c ++ body))) -> only (escape_exn t) (from_tag_uri init t inc).
Proof.
  intros H. destruct (rmatch TAG_URI t) eqn:M.
  - apply tag_start in M as (c' & nm & r & I & ->). rewrite (from_tag_eval init c' nm r inc I).
    destruct (negb _); cbn [cond]; [apply only_raise; left; reflexivity|].
    intros e E. rewrite (prefix_tag c' nm) in E by exact I. apply H in E.
    destruct (tag_value_part inc r) as (p & q & R). rewrite R at 1.
    apply (escape_part _ (TAG_URI_PREFIX ++ nm ++ [c_colon] ++ p) q) in E. rewrite <- !app_assoc in E. exact E.
  - unfold from_tag_uri. rewrite M. cbn [negb raise_if bind]. apply only_raise. left; reflexivity.
Qed.
Ltac own c := intros ?c' ?body ?e ?E; apply (init_any_body c c' body e); cbn [init_of]; apply lift_raise; exact E.
Theorem from_tag_exn c t : In c tag_classes -> only (escape_exn t) (from_tag_uri_of c t).
Proof.
  intros I. destruct c; cbn [from_tag_uri_of]; try (exfalso; cbn in I; repeat (destruct I as [I|I]; [discriminate I|]); exact I);
  apply only_lift; apply from_tag_only;
  first [own C_ADI|own C_CPI|own C_GDTI|own C_GIAI|own C_GID|own C_GRAI|own C_GSRN|own C_GSRNP|own C_ITIP|own C_SGCN|own C_SGLN|own C_SGTIN|own C_SSCC|own C_USDOD].
Qed.
Lemma only_tag c t : In c tag_classes -> only cvo (from_tag_uri_of c t).
Proof. intros I. eapply only_weak; [apply escape_cvo|apply from_tag_exn, I]. Qed.
Lemma field3 t : ((colons t < 3)%nat /\ idx (split c_colon t) 3 = Raise IndexError) \/
  ((3 <= colons t)%nat /\ exists f, idx (split c_colon t) 3 = Ok f).
Proof.
  unfold colons. pose proof (count_split c_colon t) as L. change (N.eqb 58) with (N.eqb c_colon).
  destruct (split c_colon t) as [|a [|b [|c [|d l]]]]; cbn [length] in L; try (left; split; [lia|reflexivity]).
  right. split; [lia|]. exists d. reflexivity.
Qed.
Theorem tag_parser_exn t e : tag_uri_to_tag_encodable t = Raise e <->
  ((colons t < 3)%nat /\ e = IndexError) \/
  ((3 <= colons t)%nat /\ tag_uri_to_tag_encodable t = Raise e /\ escape_exn t e).
Proof.
  unfold tag_uri_to_tag_encodable. destruct (field3 t) as [[L F]|[L [f F]]]; rewrite F; cbn [bind].
  - split; [intros E; injection E as <-; left; auto|]. intros [[_ ->]|[L' _]]; [reflexivity|lia].
  - split; [|intros [[L' _]|[_ [H _]]]; [lia|exact H]]. intros E. right. split; [exact L|]. split; [exact E|].
    revert e E. change (only (escape_exn t) (let* identifier := idx (split c_dash f) 0 in
      let* c := of_option ConvertException (assoc_str identifier TAG_ENCODABLE_SCHEME_IDENTIFIERS) in from_tag_uri_of c t)).
    destruct (idx0 (split c_dash f)) as [x ->]; [apply split_nonempty|]. cbn [bind].
    destruct (assoc_str x TAG_ENCODABLE_SCHEME_IDENTIFIERS) as [c|] eqn:A; cbn [of_option bind]; [|apply only_raise; left; reflexivity].
    apply from_tag_exn. apply assoc_str_in in A. apply in_map_iff in A as (c' & A & I). injection A as _ <-.
    apply tag_classes_iff. unfold TAG_ENCODABLE_CLASSES in I. apply filter_In in I. tauto.
Qed.
Theorem scheme_exn t e : epc_pure_identity_to_scheme t = Raise e <->
  ((colons t < 3)%nat /\ e = IndexError) \/
  ((3 <= colons t)%nat /\ epc_pure_identity_to_scheme t = Raise e /\ escape_exn t e).
Proof.
  unfold epc_pure_identity_to_scheme. destruct (field3 t) as [[L F]|[L [f F]]]; rewrite F; cbn [bind].
  - split; [intros E; injection E as <-; left; auto|]. intros [[_ ->]|[L' _]]; [reflexivity|lia].
  - split; [|intros [[L' _]|[_ [H _]]]; [lia|exact H]]. intros E. right. split; [exact L|]. split; [exact E|].
    revert e E. change (only (escape_exn t) (let* c := of_option ConvertException (assoc_str f EPC_SCHEME_IDENTIFIERS) in init_of c t)).
    apply only_bind; [apply only_of_option; left; reflexivity|intros; apply init_escape].
Qed.

(** binary text *)
Lemma parse_own {S} (value : S -> str) b tbl k s :
  firstn 8 b = tag_header k -> assoc_str (tag_header k) tbl = Some s -> (exists n z, split c_dash (value s) = [n; z]) ->
  only cvo (parse_header_and_truncate_binary value b tbl).
Proof.
  intros H A (n & z & V). unfold parse_header_and_truncate_binary. rewrite H, A. cbn [of_option bind]. rewrite V. unfold int10. walk.
Qed.
Ltac bin1 :=
  first [apply only_dec7|apply only_dec6|apply only_part|apply only_num|apply only_fixed|apply only_cage|apply only_cage6|walk1].
Lemma only_unlift {A B} P (f : A -> B) r : only P (lift f r) -> only P r.
Proof. intros H e E. apply H. rewrite E. reflexivity. Qed.
Ltac own_tag c f inj :=
  match goal with |- only _ (f ?u) => apply (only_unlift cvo inj); refine (only_tag c u _); cbn; tauto end.
Ltac any_tag := first [own_tag C_ADI adi_from_tag_uri E_ADI|own_tag C_CPI cpi_from_tag_uri E_CPI|own_tag C_GDTI gdti_from_tag_uri E_GDTI
  |own_tag C_GIAI giai_from_tag_uri E_GIAI|own_tag C_GID gid_from_tag_uri E_GID|own_tag C_GRAI grai_from_tag_uri E_GRAI
  |own_tag C_GSRN gsrn_from_tag_uri E_GSRN|own_tag C_GSRNP gsrnp_from_tag_uri E_GSRNP|own_tag C_ITIP itip_from_tag_uri E_ITIP
  |own_tag C_SGCN sgcn_from_tag_uri E_SGCN|own_tag C_SGLN sgln_from_tag_uri E_SGLN|own_tag C_SGTIN sgtin_from_tag_uri E_SGTIN
  |own_tag C_SSCC sscc_from_tag_uri E_SSCC|own_tag C_USDOD usdod_from_tag_uri E_USDOD].
Theorem own_binary_exn k b : firstn 8 b = tag_header k -> only cvo (from_binary_of (tag_class k) b).
Proof.
  intros H. destruct k; cbn [tag_class from_binary_of]; apply only_lift;
  match goal with |- only _ (?f b) => unfold f end;
  (apply only_bind; [eapply parse_own; [exact H|reflexivity|eexists _, _; reflexivity]|]);
  intros [s t] _; unfold binary_to_int, unpack2_rest, int10;
  repeat first [any_tag|bin1].
  all: match goal with H0 : decode_partition_table ?b ?tbl _ _ _ = Ok _, H1 : int_base 2 _ = Ok ?p |- only _ (of_option KeyError (lookup ?p ?tbl)) =>
         unfold decode_partition_table, binary_to_int in H0; rewrite H1 in H0; cbn [bind] in H0;
         destruct (lookup p tbl); [apply only_ok|discriminate H0] end.
Qed.
Theorem from_binary_exn c b e : In c tag_classes -> from_binary_of c b = Raise e ->
  ((forall k, tag_class k = c -> firstn 8 b <> tag_header k) /\ e = KeyError) \/
  ((exists k, tag_class k = c /\ firstn 8 b = tag_header k) /\ cvo e).
Proof.
  intros I E. destruct (header_dec b) as [[k H]|N].
  - destruct (cls_dec (tag_class k) c) as [<-|D].
    + right. split; [exists k; auto|]. exact (own_binary_exn k b H e E).
    + assert (W : forall k', tag_class k' = c -> firstn 8 b <> tag_header k').
      { intros k' K H'. rewrite H in H'. apply header_inj in H' as ->. exact (D K). }
      left. split; [exact W|]. rewrite (wrong_header c b I W) in E. injection E as <-. reflexivity.
  - left. split; [intros; apply N|]. rewrite (wrong_header c b I) in E by (intros; apply N). injection E as <-. reflexivity.
Qed.
Theorem binary_parser_exn b e : binary_to_tag_encodable b = Raise e ->
  e = ConvertException \/ ((exists k, firstn 8 b = tag_header k) /\ (e = ValueError \/ e = OverflowError)).
Proof.
  intros E. destruct (header_dec b) as [[k H]|N].
  - rewrite (dispatch k b H) in E. apply (own_binary_exn k b H) in E. destruct E as [->|E]; [left; reflexivity|]. right. split; [exists k; exact H|exact E].
  - rewrite unknown_header in E by exact N. injection E as <-. left; reflexivity.
Qed.
Lemma only_binary b : only cvo (binary_to_tag_encodable b).
Proof. intros e E. apply binary_parser_exn in E as [->|[_ [->| ->]]]; auto with exn. Qed.

(** hexadecimal and base64 text *)
Lemma hex_binary_exn s e : hex_to_binary s = Raise e -> e = ValueError.
Proof. unfold hex_to_binary, int_base. destruct (py_int 16 s); cbn; congruence. Qed.
Lemma base64_hex_exn s e : base64_to_hex s = Raise e -> e = ValueError.
Proof.
  unfold base64_to_hex, b64decode. destruct (forallb is_ascii _); [|cbn; congruence]. destruct (a2b _ 0 0 0); cbn; congruence.
Qed.
Theorem hex_parser_exn s : only cvo (hex_to_tag_encodable s).
Proof.
  apply only_bind; [intros e E; apply hex_binary_exn in E as ->; auto with exn|intros; apply only_binary].
Qed.
Theorem base64_parser_exn s : only cvo (base64_to_tag_encodable s).
Proof.
  apply only_bind; [intros e E; apply base64_hex_exn in E as ->; auto with exn|intros; apply hex_parser_exn].
Qed.
Definition cvok (e : exn) : Prop := cvo e \/ e = KeyError.
Theorem from_hex_exn c s : In c tag_classes -> only cvok (from_hex (from_binary_of c) s).
Proof.
  intros I. apply only_bind; [intros e E; apply hex_binary_exn in E as ->; left; auto with exn|].
  intros b _ e E. apply (from_binary_exn c b e I) in E as [[_ ->]|[_ H]]; [right; reflexivity|left; exact H].
Qed.
Theorem from_base64_exn c s : In c tag_classes -> only cvok (from_base64 (from_binary_of c) s).
Proof.
  intros I. apply only_bind; [intros e E; apply base64_hex_exn in E as ->; left; auto with exn|].
  intros h _. apply from_hex_exn, I.
Qed.

(** characters int(s, 16) can read: digits, blanks, and the characters of signs, of "0x" and "_" *)
Definition hex_char (c : N) : bool :=
  match digit_in 16 c with Some _ => true | None => false end || is_ascii_space c || (c =? c_us) || (c =? 43) || (c =? 45) || (c =? 120) || (c =? 88).
Lemma skip_space_all s : skip_space s = [] -> forallb is_ascii_space s = true.
Proof. induction s as [|c s IH]; [reflexivity|]. cbn [skip_space forallb]. destruct (is_ascii_space c); [exact IH|discriminate]. Qed.
Lemma space_hex s : forallb is_ascii_space s = true -> forallb hex_char s = true.
Proof.
  intros H. apply forallb_forall. intros c I. rewrite forallb_forall in H. unfold hex_char. rewrite (H c I).
  destruct (digit_in 16 c); reflexivity.
Qed.
Lemma scan_hex s : forall u b acc r, scan_digits 16 s u b acc = Some r -> forallb hex_char s = true.
Proof.
  induction s as [|c s IH]; [reflexivity|]. intros u b acc r. cbn [scan_digits forallb]. destruct (digit_in 16 c) eqn:D.
  - intros H. rewrite (IH _ _ _ _ H). unfold hex_char. rewrite D. reflexivity.
  - destruct (c =? c_us) eqn:U.
    + destruct u; [discriminate|]. intros H. rewrite (IH _ _ _ _ H). unfold hex_char. rewrite U, !orb_true_r. reflexivity.
    + destruct u; [discriminate|]. destruct (negb b); [discriminate|]. destruct (skip_space (c :: s)) eqn:K; [|discriminate].
      intros _. apply skip_space_all, space_hex in K. exact K.
Qed.
Lemma parse_hex s r : parse_unsigned 16 s = Some r -> forallb hex_char s = true.
Proof.
  unfold parse_unsigned. intros H.
  assert (F : forallb hex_char (skip_prefix 16 s) = true).
  { destruct (skip_prefix 16 s) as [|u t]; [reflexivity|]. destruct (u =? c_us); [discriminate|]. exact (scan_hex _ _ _ _ _ H). }
  clear H. revert F. unfold skip_prefix. destruct s as [|z [|x t]]; try (intros F; exact F).
  destruct ((z =? 48) && _) eqn:P; [|intros F; exact F]. apply andb_true_iff in P as [Z X]. apply N.eqb_eq in Z as ->.
  change (16 =? 2) with false in X. change (16 =? 16) with true in X. cbn [andb orb] in X. rewrite orb_false_r in X. intros F.
  cbn [forallb]. change (hex_char 48) with true. assert (HX : hex_char x = true).
  { apply orb_true_iff in X as [X|X]; unfold hex_char; rewrite X, ?orb_true_r; reflexivity. }
  rewrite HX. cbn [andb]. destruct t as [|u t]; [reflexivity|]. destruct (u =? c_us) eqn:U; [|exact F].
  cbn [forallb]. rewrite F. unfold hex_char. rewrite U, !orb_true_r. reflexivity.
Qed.
Lemma skip_space_hex s : forallb hex_char (skip_space s) = true -> forallb hex_char s = true.
Proof.
  induction s as [|c s IH]; [reflexivity|]. cbn [skip_space]. destruct (is_ascii_space c) eqn:S; [|exact (fun H => H)].
  intros H. cbn [forallb]. rewrite (IH H). unfold hex_char. rewrite S. destruct (digit_in 16 c); reflexivity.
Qed.
Lemma int16_hex s z : int_base 16 s = Ok z -> forallb hex_char (to_ascii_num s) = true.
Proof.
  unfold int_base, py_int. intros H. apply skip_space_hex. destruct (skip_space (to_ascii_num s)) as [|c t]; [reflexivity|].
  destruct (c =? 43) eqn:P.
  - destruct (parse_unsigned 16 t) eqn:R; [|discriminate H]. cbn [forallb]. rewrite (parse_hex _ _ R). unfold hex_char. rewrite P, !orb_true_r. reflexivity.
  - destruct (c =? 45) eqn:M.
    + destruct (parse_unsigned 16 t) eqn:R; [|discriminate H]. cbn [forallb]. rewrite (parse_hex _ _ R). unfold hex_char. rewrite M, !orb_true_r. reflexivity.
    + destruct (parse_unsigned 16 (c :: t)) eqn:R; [|discriminate H]. exact (parse_hex _ _ R).
Qed.
