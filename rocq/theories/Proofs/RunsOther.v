(** The calls of C57 as runs of the source. *)
From Coq Require Import String Lia.
From Verif.Model Require Import Py PyFloat Re Sre PyFormat Syntax Machine Regexes Common Base.
From Verif.Model Require Import Adi Cpi Gdti Giai Gid Grai Gsrn Gsrnp Itip Lgtin Sgcn Sgln Sgtin Sscc Usdod Others Parsers Calls Registry Dynamic.
From Verif.Source Require Import World.
From Verif.Spec Require Import SpecSchemes SpecParsers SpecDynamic SpecStands SpecRunTypes.
From Verif.Proofs Require Import Basics Num SreTexts SreUse SrcUse SrcBase RunsLengths RunsTypes.
From Verif.Proofs Require SrcParsers SrcElement SrcKeys Dynamic RunsClasses.
Open Scope list_scope.

Lemma lengths l l' : stands l l' -> (exists z, Dynamic.as_int l = Some z /\ number l' z) \/ (Dynamic.as_int l = None /\ no_length l' /\ (l = V_none <-> l' = VNone)).
Proof.
  intros []; try (left; eexists; split; [reflexivity|constructor; fail]); right; repeat split; try reflexivity; try exact I; try discriminate.
  all: try (destruct e; cbn [obj_of]; try exact I; discriminate).
Qed.
Definition element_function (k : cls) : value := match k with
  | C_CPI => VFun "cpi.CPI.from_gs1_element_string"
  | C_GDTI => VFun "gdti.GDTI.from_gs1_element_string"
  | C_GIAI => VFun "giai.GIAI.from_gs1_element_string"
  | C_GINC => VFun "ginc.GINC.from_gs1_element_string"
  | C_GRAI => VFun "grai.GRAI.from_gs1_element_string"
  | C_GSIN => VFun "gsin.GSIN.from_gs1_element_string"
  | C_GSRN => VFun "gsrn.GSRN.from_gs1_element_string"
  | C_GSRNP => VFun "gsrnp.GSRNP.from_gs1_element_string"
  | C_ITIP => VFun "itip.ITIP.from_gs1_element_string"
  | C_LGTIN => VFun "lgtin.LGTIN.from_gs1_element_string"
  | C_PGLN => VFun "pgln.PGLN.from_gs1_element_string"
  | C_SGCN => VFun "sgcn.SGCN.from_gs1_element_string"
  | C_SGLN => VFun "sgln.SGLN.from_gs1_element_string"
  | C_SGTIN => VFun "sgtin.SGTIN.from_gs1_element_string"
  | C_SSCC => VFun "sscc.SSCC.from_gs1_element_string"
  | C_UPUI => VFun "upui.UPUI.from_gs1_element_string"
  | _ => VNone end.
Lemma out_known {A} (f : A -> value) r : outcome_of f (known r) = result f r.
Proof. destruct r; reflexivity. Qed.
Lemma reach_to a r r' k : reach W a (StDone r k) -> r = r' -> reach W a (StDone r' k).
Proof. intros H <-. exact H. Qed.
Ltac classes C := cbn [element_classes In] in C; repeat destruct C as [<-|C]; [..|contradiction]; cbv [element_function class_value].
Lemma g_number c s l z k : In c element_classes -> number l z ->
  reach W (StCall (element_function c) [class_value c; VStr s; l] [] false k) (StDone (result obj_of (from_gs1_element_string_of c s z)) k).
Proof.
  intros C N. classes C; cbv [from_gs1_element_string_of]; rewrite SrcParsers.result_lift.
  - exact (cpi_int s l z k N).
  - exact (gdti_int s l z k N).
  - exact (giai_int s l z k N).
  - exact (ginc_int s l z k N).
  - exact (grai_int s l z k N).
  - exact (gsin_int s l z k N).
  - exact (gsrn_int s l z k N).
  - exact (gsrnp_int s l z k N).
  - exact (itip_int s l z k N).
  - exact (lgtin_int s l z k N).
  - exact (pgln_int s l z k N).
  - exact (sgcn_int s l z k N).
  - exact (sgln_int s l z k N).
  - exact (sgtin_int s l z k N).
  - exact (sscc_int s l z k N).
  - exact (upui_int s l z k N).
Qed.
(** what comes of a length that is no number *)
Definition no_length_outcome (c : cls) (s : str) : outcome :=
  if fullmatch (gs1_element_string_regex c) s then match cut_element_string c s with Ok _ => type_error | Raise e => Raised (XExn e) end else Raised (XExn ConvertException).
Lemma g_bad c s l k : In c element_classes -> no_length l -> (l = VNone -> slice_length c = false) ->
  reach W (StCall (element_function c) [class_value c; VStr s; l] [] false k) (StDone (no_length_outcome c s) k).
Proof.
  intros C N V. classes C; cbv [no_length_outcome gs1_element_string_regex].
  - exact (cpi_bad s l k N V).
  - exact (gdti_bad s l k N V).
  - exact (giai_bad s l k N V).
  - exact (ginc_bad s l k N V).
  - exact (grai_bad s l k N V).
  - exact (gsin_bad s l k N V).
  - exact (gsrn_bad s l k N V).
  - exact (gsrnp_bad s l k N V).
  - exact (itip_bad s l k N V).
  - exact (lgtin_bad s l k N V).
  - exact (pgln_bad s l k N V).
  - exact (sgcn_bad s l k N V).
  - exact (sgln_bad s l k N V).
  - exact (sgtin_bad s l k N V).
  - exact (sscc_bad s l k N V).
  - exact (upui_bad s l k N V).
Qed.
Lemma g_length c s l l' k : In c element_classes -> stands l l' ->
  reach W (StCall (element_function c) [class_value c; VStr s; l'] [] false k) (StDone (outcome_of obj_of (dyn_from_gs1_element_string c (V_str s) l)) k).
Proof.
  intros C S. unfold dyn_from_gs1_element_string, match_first. destruct (lengths l l' S) as [(z & E & N)|(E & N & V)]; rewrite E.
  - rewrite out_known. exact (g_number c s l' z k C N).
  - assert (D : l = V_none \/ l <> V_none) by (destruct l; [left; reflexivity|right; discriminate..]). destruct D as [D|D].
    + pose proof (proj1 V D) as ->. subst l. cbn [element_classes In] in C. repeat destruct C as [<-|C]; [..|contradiction]; cbv [element_function class_value slice_length gs1_element_string_regex].
      * refine (reach_to _ _ _ _ (cpi_none s k) _). symmetry. unfold from_gs1_element_string_slice. cbn [cut_element_string]. destruct (fullmatch _ s); cbn [negb raise_if bind known pybind]; [|reflexivity]. rewrite ?out_known. try (destruct (unpack3 _) as [[[? ?] ?]|]); cbn [bind known pybind]; rewrite ?out_known; reflexivity.
      * refine (reach_to _ _ _ _ (gdti_none s k) _). symmetry. unfold from_gs1_element_string_slice. cbn [cut_element_string]. destruct (fullmatch _ s); cbn [negb raise_if bind known pybind]; [|reflexivity]. rewrite ?out_known. try (destruct (unpack3 _) as [[[? ?] ?]|]); cbn [bind known pybind]; rewrite ?out_known; reflexivity.
      * refine (reach_to _ _ _ _ (giai_bad s VNone k I (fun _ => eq_refl)) _). symmetry. cbn [cut_element_string]. destruct (fullmatch _ s); cbn [negb raise_if bind known pybind]; [|reflexivity]. try (destruct (unpack3 _) as [[[? ?] ?]|]); try (destruct (unpack2 _) as [[? ?]|]); reflexivity.
      * refine (reach_to _ _ _ _ (ginc_bad s VNone k I (fun _ => eq_refl)) _). symmetry. cbn [cut_element_string]. destruct (fullmatch _ s); cbn [negb raise_if bind known pybind]; [|reflexivity]. try (destruct (unpack3 _) as [[[? ?] ?]|]); try (destruct (unpack2 _) as [[? ?]|]); reflexivity.
      * refine (reach_to _ _ _ _ (grai_none s k) _). symmetry. unfold from_gs1_element_string_slice. cbn [cut_element_string]. destruct (fullmatch _ s); cbn [negb raise_if bind known pybind]; [|reflexivity]. rewrite ?out_known. try (destruct (unpack3 _) as [[[? ?] ?]|]); cbn [bind known pybind]; rewrite ?out_known; reflexivity.
      * refine (reach_to _ _ _ _ (gsin_none s k) _). symmetry. unfold from_gs1_element_string_slice. cbn [cut_element_string]. destruct (fullmatch _ s); cbn [negb raise_if bind known pybind]; [|reflexivity]. rewrite ?out_known. try (destruct (unpack3 _) as [[[? ?] ?]|]); cbn [bind known pybind]; rewrite ?out_known; reflexivity.
      * refine (reach_to _ _ _ _ (gsrn_none s k) _). symmetry. unfold from_gs1_element_string_slice. cbn [cut_element_string]. destruct (fullmatch _ s); cbn [negb raise_if bind known pybind]; [|reflexivity]. rewrite ?out_known. try (destruct (unpack3 _) as [[[? ?] ?]|]); cbn [bind known pybind]; rewrite ?out_known; reflexivity.
      * refine (reach_to _ _ _ _ (gsrnp_none s k) _). symmetry. unfold from_gs1_element_string_slice. cbn [cut_element_string]. destruct (fullmatch _ s); cbn [negb raise_if bind known pybind]; [|reflexivity]. rewrite ?out_known. try (destruct (unpack3 _) as [[[? ?] ?]|]); cbn [bind known pybind]; rewrite ?out_known; reflexivity.
      * refine (reach_to _ _ _ _ (itip_bad s VNone k I (fun _ => eq_refl)) _). symmetry. cbn [cut_element_string]. destruct (fullmatch _ s); cbn [negb raise_if bind known pybind]; [|reflexivity]. try (destruct (unpack3 _) as [[[? ?] ?]|]); try (destruct (unpack2 _) as [[? ?]|]); reflexivity.
      * refine (reach_to _ _ _ _ (lgtin_bad s VNone k I (fun _ => eq_refl)) _). symmetry. cbn [cut_element_string]. destruct (fullmatch _ s); cbn [negb raise_if bind known pybind]; [|reflexivity]. try (destruct (unpack3 _) as [[[? ?] ?]|]); try (destruct (unpack2 _) as [[? ?]|]); reflexivity.
      * refine (reach_to _ _ _ _ (pgln_none s k) _). symmetry. unfold from_gs1_element_string_slice. cbn [cut_element_string]. destruct (fullmatch _ s); cbn [negb raise_if bind known pybind]; [|reflexivity]. rewrite ?out_known. try (destruct (unpack3 _) as [[[? ?] ?]|]); cbn [bind known pybind]; rewrite ?out_known; reflexivity.
      * refine (reach_to _ _ _ _ (sgcn_none s k) _). symmetry. unfold from_gs1_element_string_slice. cbn [cut_element_string]. destruct (fullmatch _ s); cbn [negb raise_if bind known pybind]; [|reflexivity]. rewrite ?out_known. try (destruct (unpack3 _) as [[[? ?] ?]|]); cbn [bind known pybind]; rewrite ?out_known; reflexivity.
      * refine (reach_to _ _ _ _ (sgln_none s k) _). symmetry. unfold from_gs1_element_string_slice. cbn [cut_element_string]. destruct (fullmatch _ s); cbn [negb raise_if bind known pybind]; [|reflexivity]. rewrite ?out_known. try (destruct (unpack3 _) as [[[? ?] ?]|]); cbn [bind known pybind]; rewrite ?out_known; reflexivity.
      * refine (reach_to _ _ _ _ (sgtin_bad s VNone k I (fun _ => eq_refl)) _). symmetry. cbn [cut_element_string]. destruct (fullmatch _ s); cbn [negb raise_if bind known pybind]; [|reflexivity]. try (destruct (unpack3 _) as [[[? ?] ?]|]); try (destruct (unpack2 _) as [[? ?]|]); reflexivity.
      * refine (reach_to _ _ _ _ (sscc_bad s VNone k I (fun _ => eq_refl)) _). symmetry. cbn [cut_element_string]. destruct (fullmatch _ s); cbn [negb raise_if bind known pybind]; [|reflexivity]. try (destruct (unpack3 _) as [[[? ?] ?]|]); try (destruct (unpack2 _) as [[? ?]|]); reflexivity.
      * refine (reach_to _ _ _ _ (upui_bad s VNone k I (fun _ => eq_refl)) _). symmetry. cbn [cut_element_string]. destruct (fullmatch _ s); cbn [negb raise_if bind known pybind]; [|reflexivity]. try (destruct (unpack3 _) as [[[? ?] ?]|]); try (destruct (unpack2 _) as [[? ?]|]); reflexivity.
    + refine (reach_to _ _ _ _ (g_bad c s l' k C N _) _); [intros X; destruct (D (proj2 V X))|]. unfold no_length_outcome.
      destruct (fullmatch _ s); cbn [negb raise_if bind known pybind]; [|reflexivity]. destruct (cut_element_string c s) as [u|]; cbn [known pybind]; [|reflexivity]. destruct l; try reflexivity. destruct (D eq_refl).
Qed.
Lemma element_method c s l : In c element_classes ->
  do_method W (fun s => s) (class_value c) "from_gs1_element_string" [VStr s; l] [] [] = StCall (element_function c) [class_value c; VStr s; l] [] false [].
Proof. intros C. cbn [element_classes In] in C. repeat destruct C as [<-|C]; [..|contradiction]; vm_compute; reflexivity. Qed.
Lemma length_run c s l l' : In c element_classes -> stands l l' ->
  invokes W (class_value c) "from_gs1_element_string" [VStr s; l'] [] (outcome_of obj_of (dyn_from_gs1_element_string c (V_str s) l)).
Proof. intros C S. eapply invokes_of; [exact (element_method c s l' C)|]. exact (g_length c s l l' [] C S). Qed.
Ltac by_length A C S := full A; match goal with |- context [fullmatch ?r ?s] => destruct (fullmatch r s); cbn [of_option bind known pybind];
  [eapply reach_trans; [apply (g_length C s _ _ _ ltac:(cbn; tauto) S)|]; eapply reach_trans; [apply SrcElement.tail_loop|]; done|] end.
Lemma g_element_any s l l' k : stands l l' ->
  reach W (StCall (VFun "parsers.gs1_element_string_to_gs1_element") [VStr s; l'] [] false k) (StDone (outcome_of obj_of (dyn_gs1_element_string_to_gs1_element (V_str s) l)) k).
Proof.
  intros S. enter. unfold dyn_gs1_element_string_to_gs1_element. cbn [match_first].
  change GS1_ELEMENT_STRING_REGEX_TO_SCHEME with [(CPI_GS1_ELEMENT_STRING, C_CPI); (GDTI_GS1_ELEMENT_STRING, C_GDTI); (GIAI_GS1_ELEMENT_STRING, C_GIAI); (GINC_GS1_ELEMENT_STRING, C_GINC); (GRAI_GS1_ELEMENT_STRING, C_GRAI); (GSIN_GS1_ELEMENT_STRING, C_GSIN); (GSRN_GS1_ELEMENT_STRING, C_GSRN); (GSRNP_GS1_ELEMENT_STRING, C_GSRNP); (ITIP_GS1_ELEMENT_STRING, C_ITIP); (LGTIN_GS1_ELEMENT_STRING, C_LGTIN); (PGLN_GS1_ELEMENT_STRING, C_PGLN); (SGCN_GS1_ELEMENT_STRING, C_SGCN); (SGLN_GS1_ELEMENT_STRING, C_SGLN); (SGTIN_GS1_ELEMENT_STRING, C_SGTIN); (SSCC_GS1_ELEMENT_STRING, C_SSCC); (UPUI_GS1_ELEMENT_STRING, C_UPUI)].
  cbn [first_regex].
  by_length agree_CPI_GS1_ELEMENT_STRING C_CPI S.
  by_length agree_GDTI_GS1_ELEMENT_STRING C_GDTI S.
  by_length agree_GIAI_GS1_ELEMENT_STRING C_GIAI S.
  by_length agree_GINC_GS1_ELEMENT_STRING C_GINC S.
  by_length agree_GRAI_GS1_ELEMENT_STRING C_GRAI S.
  by_length agree_GSIN_GS1_ELEMENT_STRING C_GSIN S.
  by_length agree_GSRN_GS1_ELEMENT_STRING C_GSRN S.
  by_length agree_GSRNP_GS1_ELEMENT_STRING C_GSRNP S.
  by_length agree_ITIP_GS1_ELEMENT_STRING C_ITIP S.
  by_length agree_LGTIN_GS1_ELEMENT_STRING C_LGTIN S.
  by_length agree_PGLN_GS1_ELEMENT_STRING C_PGLN S.
  by_length agree_SGCN_GS1_ELEMENT_STRING C_SGCN S.
  by_length agree_SGLN_GS1_ELEMENT_STRING C_SGLN S.
  by_length agree_SGTIN_GS1_ELEMENT_STRING C_SGTIN S.
  by_length agree_SSCC_GS1_ELEMENT_STRING C_SSCC S.
  by_length agree_UPUI_GS1_ELEMENT_STRING C_UPUI S.
  done.
Qed.

(** * What is refused because of its type *)

Lemma stands_plain v v' : stands v v' -> (exists s, v = V_str s) \/ (plain v' /\ ~ SpecRuns.is_text v').
Proof.
  intros []; try (right; split; [exact I|intros (s & X); discriminate X]); [left; eauto|].
  right. split; [destruct e; cbn; tauto|]. intros (s & X). destruct e; discriminate X.
Qed.
Lemma named k : exists c, class_value k = VClass c /\ In c scheme_names /\ (In k tag_classes -> In c tag_names) /\ (In k element_classes -> In c element_names).
Proof.
  destruct k; eexists; (split; [reflexivity|]); (split; [cbn; tauto|]); split; intros H; cbn [tag_classes element_classes In] in H;
    repeat destruct H as [H|H]; try discriminate H; try contradiction; cbn; tauto.
Qed.
Theorem refused_types x v v' e : has_entry x -> stands v v' -> refusal (first_use x) v = Some e -> entry_runs x v' (raised e).
Proof.
  intros H S R. destruct (stands_plain v v' S) as [(s & ->)|[P N]]; [destruct x; discriminate R|].
  destruct (init_types v' N) as (I1 & _ & I2 & _). destruct (matched_types v' N) as (M1 & M2 & M3 & M4 & M5 & M6 & M7).
  assert (E : match first_use x with
    | Matched => e = Exn TypeError
    | Split => raised e = match v' with VBytes _ => type_error | _ => attribute_error end
    | Header x => raised e = match v' with VBytes _ => Raised (XExn x) | _ => type_error end
    | Number => e = Exn TypeError /\ ~ is_bytes v'
    | Format => False end).
  { clear - S R. destruct (first_use x); destruct S; try discriminate R; injection R as <-; try reflexivity; try (destruct e0; reflexivity);
      (split; [reflexivity|intros (? & X)]); try discriminate X; destruct e0; discriminate X. }
  destruct x; cbn [first_use] in E; cbn [entry_runs]; cbn [has_entry] in H; try (destruct (named c) as (d & Ed & D1 & D2 & D3); rewrite Ed); try contradiction;
    try (subst e; cbn [raised]; fold type_error); try rewrite E.
  - split; [apply I1|apply I2]; exact D1.
  - apply (split_types v' P "epc_pure_identity_to_scheme"). cbn; tauto.
  - apply (split_types v' P "epc_pure_identity_to_gs1_element"). cbn; tauto.
  - apply (split_types v' P "epc_pure_identity_to_gs1_element_string"). cbn; tauto.
  - apply (split_types v' P "epc_pure_identity_to_gs1_keyed"). cbn; tauto.
  - intros kws K. destruct kw as [t|]; [destruct K as (t' & _ & ->); apply (key_types v' t' P)|hnf in K; subst kws; apply (split_types v' P "epc_pure_identity_to_gs1_key"); cbn; tauto].
  - apply (split_types v' P "epc_pure_identity_to_tag_encodable"). cbn; tauto.
  - intros l' _. apply M3, D3, H.
  - intros l' _. apply M4.
  - apply (split_types v' P "tag_uri_to_tag_encodable"). cbn; tauto.
  - destruct flag; [intros f' _; apply M2, D2, H|apply M1, D2, H].
  - apply binary_types, P.
  - apply from_binary_types; [exact P|apply D2, H].
  - destruct E as [-> E]. apply (hex_types v' P E).
  - destruct E as [-> E]. apply (hex_types v' P E).
  - destruct E as [-> E]. apply (hex_types v' P E). apply D2, H.
  - intros l' kws _ K. destruct kw as [t|]; [destruct K as (t' & _ & ->); apply M7|hnf in K; subst kws; apply M6].
Qed.

(** * get_gs1_key with any length *)

Lemma stands_truth l l' : stands l l' -> truth l' = true_value l.
Proof. intros [|b|z|t f H|s|b|m c n|a b d c n|a b d c n|t c n|e t]; try reflexivity; first [symmetry; exact H|destruct s; reflexivity|destruct b; reflexivity|destruct e; reflexivity]. Qed.
Ltac keyed_any s n := match goal with |- reach _ (StDone ?o (_ :: ?k)) _ =>
  let r := match o with out obj_of ?r => r | outcome_of obj_of ?r => r end in let e := fresh "e" in let x := fresh "x" in
  destruct r as [e|x]; [let j := SrcKeys.blocks k 0%nat in (eapply reach_trans; [apply (SrcKeys.scheme_known (obj_of e) s n (@nil (string * value)) j)|]);
   (eapply reach_to; [apply (SrcKeys.key_end e s n None (@nil (string * value))); reflexivity|]); cbn [outcome_of known pybind lift bind]; destruct (is_gs1_keyed (class_of e)); cbn [dyn_gs1_key]; rewrite ?out_known; reflexivity|try (destruct x); cbn [outcome_of known pybind lift bind result]; enter; done] end.
Lemma g_get_any s l l' k : stands l l' -> fits (length s * 4) ->
  reach W (StCall (VFun "parsers.get_gs1_key") [VStr s; l'] [] false k) (StDone (outcome_of VStr (dyn_get_gs1_key (V_str s) l None)) k).
Proof.
  intros S L. unfold dyn_get_gs1_key, match_first.
  enter; full agree_EPC_URI; full agree_GS1_ELEMENT_STRING; full agree_TAG_URI; full agree_IDPAT_URI; prims;
  match goal with |- context [in_list (VStr (firstn _ _)) ?l] => change l with (map VStr (map fst TAG_ENCODABLE_BINARY_HEADERS)) end;
  match goal with |- context [in_list (VStr (upper _)) ?l] => change l with (map VStr (map fst TAG_ENCODABLE_HEX_HEADERS)) end; rewrite !SrcKeys.in_list_str, !SrcKeys.mem_keys.
  match goal with |- context [if ?m then StCall (VFun "parsers.gs1_element_string_to_gs1_element") _ _ _ _ else _] => change m with (truth l') end. rewrite (stands_truth _ _ S).
  destruct (fullmatch EPC_URI s); [use (SrcParsers.g_scheme s); keyed_any s l'|].
  destruct (fullmatch GS1_ELEMENT_STRING s); [destruct (true_value l); cbn [andb]; [use (g_element_any s l l'); [exact S|keyed_any s l']|]|cbn [andb]].
  all: destruct (fullmatch TAG_URI s); [use (SrcParsers.g_tag_uri_to s); keyed_any s l'|].
  all: destruct (fullmatch IDPAT_URI s); [use (SrcKeys.g_idpat s); keyed_any s l'|].
  all: destruct (is_some _); [use (SrcParsers.g_binary_to s); keyed_any s l'|].
  all: destruct (is_some _); [use (SrcParsers.g_hex_to s L); keyed_any s l'|].
  all: done.
Qed.

(** * The calls *)

Theorem parser_lengths s l l' : stands l l' ->
  calls W (VFun "parsers.gs1_element_string_to_gs1_element") [VStr s; l'] [] (outcome_of obj_of (dyn_gs1_element_string_to_gs1_element (V_str s) l)).
Proof. intros S. exact (g_element_any s l l' [] S). Qed.
Theorem key_lengths s l l' : stands l l' -> fits (length s * 4) ->
  calls W (VFun "parsers.get_gs1_key") [VStr s; l'] [] (outcome_of VStr (dyn_get_gs1_key (V_str s) l None)).
Proof. intros S F. exact (g_get_any s l l' [] S F). Qed.
