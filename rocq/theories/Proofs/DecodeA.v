(** Headers, lengths, filter bits and exceptions of from_binary(). *)
From Coq Require Import String.
From Verif.Model Require Import Py Re Regexes Common Base.
From Verif.Model Require Import Adi Cpi Gdti Giai Gid Grai Gsrn Gsrnp Itip Sgcn Sgln Sgtin Sscc Usdod Parsers.
From Verif.Spec Require Import Spec SpecEscapes SpecGrammar SpecSchemes SpecTags SpecLayout SpecCoding.
From Verif.Proofs Require Import Basics Num ReLemmas Uni Escapes Codecs Codecs2 Partition Grammar Ctor CtorA CtorB CtorC CtorAll TagUri TagFits Layout Decode.

(** * Headers *)
Definition all_codings : list coding :=
  [K_GDTI_96; K_GSRN_96; K_GSRNP_96; K_USDOD_96; K_SGTIN_96; K_SSCC_96; K_SGLN_96; K_GRAI_96; K_GIAI_96;
   K_GID_96; K_SGTIN_198; K_GRAI_170; K_GIAI_202; K_SGLN_195; K_ADI_VAR; K_CPI_96; K_CPI_VAR; K_GDTI_174;
   K_SGCN_96; K_ITIP_110; K_ITIP_212].
Lemma all_codings_in k : In k all_codings.
Proof. destruct k; cbn; tauto. Qed.
Lemma header_inj k k' : tag_header k = tag_header k' -> k = k'.
Proof. destruct k; destruct k'; intros H; try reflexivity; vm_compute in H; discriminate. Qed.
Lemma header_dispatch k : assoc_str (tag_header k) TAG_ENCODABLE_BINARY_HEADERS = Some (tag_class k).
Proof. destruct k; reflexivity. Qed.
Lemma assoc_none {A} (l : list (str * A)) s : (forall p, In p l -> fst p <> s) -> assoc_str s l = None.
Proof.
  induction l as [|[h a] l IH]; intros H; [reflexivity|]. cbn. destruct (str_eqb s h) eqn:E.
  - apply str_eqb_eq in E. exfalso. apply (H (h, a)); [now left|]. now symmetry.
  - apply IH. intros p I. apply H. now right.
Qed.
Lemma header_table : forall p, In p TAG_ENCODABLE_BINARY_HEADERS -> exists k, fst p = tag_header k.
Proof.
  assert (Q : forallb (fun p => existsb (fun k => str_eqb (fst p) (tag_header k)) all_codings) TAG_ENCODABLE_BINARY_HEADERS = true) by (vm_compute; reflexivity).
  intros p I. rewrite forallb_forall in Q. apply Q in I. apply existsb_exists in I as (k & _ & E). exists k. now apply str_eqb_eq.
Qed.

Theorem dispatch k b : firstn 8 b = tag_header k -> binary_to_tag_encodable b = from_binary_of (tag_class k) b.
Proof. intros H. unfold binary_to_tag_encodable. rewrite H, header_dispatch. reflexivity. Qed.
Theorem unknown_header b : (forall k, firstn 8 b <> tag_header k) -> binary_to_tag_encodable b = Raise ConvertException.
Proof.
  intros H. unfold binary_to_tag_encodable. rewrite assoc_none; [reflexivity|].
  intros p I E. apply header_table in I as [k K]. apply (H k). congruence.
Qed.

Theorem wrong_header c b : In c tag_classes -> (forall k, tag_class k = c -> firstn 8 b <> tag_header k) -> from_binary_of c b = Raise KeyError.
Proof.
  intros C H.
  Ltac wh X tbl H := unfold X, parse_header_and_truncate_binary; rewrite (assoc_none tbl); [reflexivity|];
     let p := fresh in let I := fresh in let E := fresh in intros p I E; cbn in I;
     repeat (destruct I as [I|I]; [subst p; cbn [fst] in E; revert E; 
       first [ exact (fun E => H K_GDTI_96 eq_refl (eq_sym E)) | exact (fun E => H K_GSRN_96 eq_refl (eq_sym E))
       | exact (fun E => H K_GSRNP_96 eq_refl (eq_sym E)) | exact (fun E => H K_USDOD_96 eq_refl (eq_sym E))
       | exact (fun E => H K_SGTIN_96 eq_refl (eq_sym E)) | exact (fun E => H K_SSCC_96 eq_refl (eq_sym E))
       | exact (fun E => H K_SGLN_96 eq_refl (eq_sym E)) | exact (fun E => H K_GRAI_96 eq_refl (eq_sym E))
       | exact (fun E => H K_GIAI_96 eq_refl (eq_sym E)) | exact (fun E => H K_GID_96 eq_refl (eq_sym E))
       | exact (fun E => H K_SGTIN_198 eq_refl (eq_sym E)) | exact (fun E => H K_GRAI_170 eq_refl (eq_sym E))
       | exact (fun E => H K_GIAI_202 eq_refl (eq_sym E)) | exact (fun E => H K_SGLN_195 eq_refl (eq_sym E))
       | exact (fun E => H K_ADI_VAR eq_refl (eq_sym E)) | exact (fun E => H K_CPI_96 eq_refl (eq_sym E))
       | exact (fun E => H K_CPI_VAR eq_refl (eq_sym E)) | exact (fun E => H K_GDTI_174 eq_refl (eq_sym E))
       | exact (fun E => H K_SGCN_96 eq_refl (eq_sym E)) | exact (fun E => H K_ITIP_110 eq_refl (eq_sym E))
       | exact (fun E => H K_ITIP_212 eq_refl (eq_sym E)) ]|]); destruct I.
  destruct c; try (cbn in C; intuition discriminate); cbn [from_binary_of].
  - wh adi_from_binary adi_header_to_schemes H.
  - wh cpi_from_binary cpi_header_to_schemes H.
  - wh gdti_from_binary gdti_header_to_schemes H.
  - wh giai_from_binary giai_header_to_schemes H.
  - wh gid_from_binary gid_header_to_schemes H.
  - wh grai_from_binary grai_header_to_schemes H.
  - wh gsrn_from_binary gsrn_header_to_schemes H.
  - wh gsrnp_from_binary gsrnp_header_to_schemes H.
  - wh itip_from_binary itip_header_to_schemes H.
  - wh sgcn_from_binary sgcn_header_to_schemes H.
  - wh sgln_from_binary sgln_header_to_schemes H.
  - wh sgtin_from_binary sgtin_header_to_schemes H.
  - wh sscc_from_binary sscc_header_to_schemes H.
  - wh usdod_from_binary usdod_header_to_schemes H.
Qed.

Theorem short_tag k n b : firstn 8 b = tag_header k -> tag_size k = Some n -> (length b < n)%nat -> from_binary_of (tag_class k) b = Raise ConvertException.
Proof.
  intros H S L. assert (T : too_short k b = true) by (unfold too_short; rewrite S; now apply Nat.ltb_lt).
  Ltac st X value tbl s nm size n b H T := unfold X; rewrite (parse_kind value tbl _ s (lit nm) (lit size) n b H) by (try reflexivity; lia); rewrite T; reflexivity.
  destruct k; try discriminate S; cbn [tag_class from_binary_of]; clear S.
  - st gdti_from_binary gdti_scheme_value gdti_header_to_schemes GDTI_96 "gdti"%string "96"%string 96%nat b H T.
  - st gsrn_from_binary gsrn_scheme_value gsrn_header_to_schemes GSRN_96 "gsrn"%string "96"%string 96%nat b H T.
  - st gsrnp_from_binary gsrnp_scheme_value gsrnp_header_to_schemes GSRNP_96 "gsrnp"%string "96"%string 96%nat b H T.
  - st usdod_from_binary usdod_scheme_value usdod_header_to_schemes USDOD_96 "usdod"%string "96"%string 96%nat b H T.
  - st sgtin_from_binary sgtin_scheme_value sgtin_header_to_schemes SGTIN_96 "sgtin"%string "96"%string 96%nat b H T.
  - st sscc_from_binary sscc_scheme_value sscc_header_to_schemes SSCC_96 "sscc"%string "96"%string 96%nat b H T.
  - st sgln_from_binary sgln_scheme_value sgln_header_to_schemes SGLN_96 "sgln"%string "96"%string 96%nat b H T.
  - st grai_from_binary grai_scheme_value grai_header_to_schemes GRAI_96 "grai"%string "96"%string 96%nat b H T.
  - st giai_from_binary giai_scheme_value giai_header_to_schemes GIAI_96 "giai"%string "96"%string 96%nat b H T.
  - st gid_from_binary gid_scheme_value gid_header_to_schemes GID_96 "gid"%string "96"%string 96%nat b H T.
  - st sgtin_from_binary sgtin_scheme_value sgtin_header_to_schemes SGTIN_198 "sgtin"%string "198"%string 198%nat b H T.
  - st grai_from_binary grai_scheme_value grai_header_to_schemes GRAI_170 "grai"%string "170"%string 170%nat b H T.
  - st giai_from_binary giai_scheme_value giai_header_to_schemes GIAI_202 "giai"%string "202"%string 202%nat b H T.
  - st sgln_from_binary sgln_scheme_value sgln_header_to_schemes SGLN_195 "sgln"%string "195"%string 195%nat b H T.
  - st cpi_from_binary cpi_scheme_value cpi_header_to_schemes CPI_96 "cpi"%string "96"%string 96%nat b H T.
  - st gdti_from_binary gdti_scheme_value gdti_header_to_schemes GDTI_174 "gdti"%string "174"%string 174%nat b H T.
  - st sgcn_from_binary sgcn_scheme_value sgcn_header_to_schemes SGCN_96 "sgcn"%string "96"%string 96%nat b H T.
  - st itip_from_binary itip_scheme_value itip_header_to_schemes ITIP_110 "itip"%string "110"%string 110%nat b H T.
  - st itip_from_binary itip_scheme_value itip_header_to_schemes ITIP_212 "itip"%string "212"%string 212%nat b H T.
Qed.

(** * Filter bits *)
Theorem filter_ignored k f1 f2 r : forallb is_bit f1 = true -> forallb is_bit f2 = true -> forallb is_bit r = true ->
  length f1 = filter_width k -> length f2 = filter_width k ->
  from_binary_of (tag_class k) (tag_header k ++ f1 ++ r) = from_binary_of (tag_class k) (tag_header k ++ f2 ++ r).
Proof.
  intros B1 B2 B L1 L2.
  assert (HB : forallb is_bit (tag_header k) = true) by (destruct k; reflexivity).
  assert (HL : length (tag_header k) = 8%nat) by (destruct k; reflexivity).
  assert (F8 : forall s, firstn 8 (tag_header k ++ s) = tag_header k) by (intros s; rewrite <- HL, firstn_app, firstn_all, Nat.sub_diag; cbn [firstn]; apply app_nil_r).
  rewrite !(from_binary_body k); try (rewrite ?forallb_app, ?HB, ?B1, ?B2, ?B; reflexivity); try apply F8.
  assert (E1 : too_short k (tag_header k ++ f1 ++ r) = too_short k (tag_header k ++ f2 ++ r)).
  { unfold too_short. rewrite !app_length, L1, L2. reflexivity. }
  assert (E2 : after_filter k (tag_header k ++ f1 ++ r) = after_filter k (tag_header k ++ f2 ++ r)).
  { unfold after_filter, cut.
    assert (Q : forall f, length f = filter_width k -> skipn (8 + filter_width k) (tag_header k ++ f ++ r) = r).
    { intros f L. rewrite app_assoc. rewrite <- L, <- HL, <- app_length. rewrite skipn_app, skipn_all, Nat.sub_diag. reflexivity. }
    destruct (tag_size k) as [n|]; [|rewrite !Q by assumption; reflexivity].
    rewrite !skipn_firstn_comm, !Q by assumption. reflexivity. }
  rewrite E1, E2. reflexivity.
Qed.
