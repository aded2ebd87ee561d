(** Tag URIs: what TAG_URI matches and what from_tag_uri makes of it. *)
From Coq Require Import String Lia Setoid.
From Verif.Model Require Import Py Re Regexes Common Base.
From Verif.Model Require Import Adi Cpi Gdti Giai Gid Grai Gsrn Gsrnp Itip Lgtin Sgcn Sgln Sgtin Sscc Usdod Others Parsers.
From Verif.Spec Require Import Spec SpecEscapes SpecGrammar SpecSchemes.
From Verif.Proofs Require Import Basics Num ReLemmas Uni Grammar Ctor CtorA CtorB CtorC CtorAll.

Definition uri_body (c : cls) : re :=
  match c with
  | C_ADI => ADI_URI_BODY | C_CPI => CPI_URI_BODY | C_GDTI => GDTI_URI_BODY | C_GIAI => GIAI_URI_BODY
  | C_GID => GID_URI_BODY | C_GRAI => GRAI_URI_BODY | C_GSRN => GSRN_URI_BODY | C_GSRNP => GSRNP_URI_BODY
  | C_ITIP => ITIP_URI_BODY | C_SGCN => SGCN_URI_BODY | C_SGLN => SGLN_URI_BODY | C_SGTIN => SGTIN_URI_BODY
  | C_SSCC => SSCC_URI_BODY | C_USDOD => USDOD_URI_BODY | _ => REmp
  end.
Definition rest_re (c : cls) : re :=
  match c with C_GID => GID_URI_BODY | _ => RSeq NC (RSeq dot (uri_body c)) end.

Lemma lang_ralt l s : lang (ralt l) s <-> exists r, In r l /\ lang r s.
Proof.
  induction l as [|r l IH]; cbn [ralt].
  - split; [intros []|intros (r & [] & _)].
  - destruct l as [|r' l].
    + split; [intros H; exists r; cbn; auto|intros (x & [<-|[]] & H); exact H].
    + change (lang r s \/ lang (ralt (r' :: l)) s <-> exists x, In x (r :: r' :: l) /\ lang x s).
      rewrite IH. split.
      * intros [H|(x & I & H)]; [exists r|exists x]; cbn in *; auto.
      * intros (x & [<-|I] & H); [left; exact H|right; eauto].
Qed.
Definition tag_re (c : cls) : re :=
  match c with
  | C_GID => rseq [rlit "gid-96"; rchar c_colon; GID_URI_BODY]
  | _ => tag_body (map rlit_l (coding_names c)) (uri_body c)
  end.
Lemma tag_uri_body_eq : TAG_URI_BODY = ralt (map tag_re tag_classes).
Proof. reflexivity. Qed.
Lemma tag_re_lang c s : In c tag_classes -> lang (tag_re c) s <-> exists nm r, In nm (coding_names c) /\ s = nm ++ [c_colon] ++ r /\ lang (rest_re c) r.
Proof.
  intros I. assert (G : lang (RSeq (ralt (map rlit_l (coding_names c))) (RSeq (rchar c_colon) (rest_re c))) s <->
    exists nm r, In nm (coding_names c) /\ s = nm ++ [c_colon] ++ r /\ lang (rest_re c) r).
  { rewrite lang_seq. split.
    - intros (a & b & -> & A & B). apply lang_ralt in A as (x & X & A). apply in_map_iff in X as (nm & <- & X).
      apply lang_rlit_l in A as ->. apply lang_seq in B as (y & r & -> & Y & B). apply lang_rchar in Y as ->. eauto.
    - intros (nm & r & N & -> & R). exists nm, ([c_colon] ++ r). repeat split.
      + apply lang_ralt. exists (rlit_l nm). rewrite lang_rlit_l. split; [now apply in_map|reflexivity].
      + apply lang_seq. exists [c_colon], r. rewrite lang_rchar. auto. }
  rewrite <- G. cbn in I. repeat (destruct I as [<-|I]; [reflexivity|]). destruct I.
Qed.
Lemma coding_class c nm : In nm (coding_names c) -> In c tag_classes.
Proof. destruct c; cbn; tauto. Qed.
Lemma tag_uri_lang t : lang TAG_URI t <->
  exists c nm r, In nm (coding_names c) /\ t = lit "urn:epc:tag:" ++ nm ++ [c_colon] ++ r /\ lang (rest_re c) r.
Proof.
  unfold TAG_URI. rewrite lang_lit_seq, tag_uri_body_eq. split.
  - intros (b & -> & H). apply lang_ralt in H as (x & X & H). apply in_map_iff in X as (c & <- & X).
    apply (tag_re_lang _ _ X) in H as (nm & r & N & -> & H). eauto 8.
  - intros (c & nm & r & N & -> & H). exists (nm ++ [c_colon] ++ r). split; [reflexivity|].
    apply lang_ralt. exists (tag_re c). split; [now apply in_map, (coding_class _ nm)|].
    apply tag_re_lang; [now apply (coding_class _ nm)|eauto].
Qed.

Lemma coding_split c nm : In nm (coding_names c) -> ~ In c_colon nm /\ ~ In c_dot nm /\ exists sz, split c_dash nm = [identifier c; sz].
Proof.
  destruct c; cbn; try tauto; intros H; repeat (destruct H as [<-|H]; [split; [|split; [|eexists; reflexivity]]; intros H; cbn in H;
    repeat (destruct H as [H|H]; [discriminate H|]); destruct H|]); destruct H.
Qed.
Lemma coding_class_inj c c' nm : In nm (coding_names c) -> In nm (coding_names c') -> c = c'.
Proof.
  intros A B. apply coding_split in A as (_ & _ & s & A). apply coding_split in B as (_ & _ & s' & B).
  rewrite A in B. injection B as B _. destruct c, c'; try reflexivity; discriminate B.
Qed.
Lemma tag_split nm r : ~ In c_colon nm -> exists a b c, split c_colon (lit "urn:epc:tag:" ++ nm ++ [c_colon] ++ r) = a :: b :: c :: nm :: split c_colon r.
Proof.
  intros N. eexists _, _, _. transitivity (lit "urn" :: lit "epc" :: lit "tag" :: split c_colon (nm ++ [c_colon] ++ r)); [reflexivity|].
  rewrite (split_app1 c_colon nm r N). reflexivity.
Qed.

(** the text after the filter, or the whole text when there is none *)
Definition tag_value (includes_filter : bool) (r : str) : str :=
  if includes_filter then join [c_dot] (skipn 1 (split c_dot r)) else hd [] (split c_colon r).
Lemma split_hd_nonempty c s : exists h t, split c s = h :: t.
Proof. destruct (split c s) eqn:E; [now apply split_nonempty in E|eauto]. Qed.

Lemma from_tag_eval {T} (init : str -> res T) c nm r inc : In nm (coding_names c) ->
  from_tag_uri init (TAG_URI_PREFIX ++ nm ++ [c_colon] ++ r) inc =
  cond (negb (rmatch TAG_URI (TAG_URI_PREFIX ++ nm ++ [c_colon] ++ r)))
    (init (lit "urn:epc:id:" ++ identifier c ++ [c_colon] ++ tag_value inc r)).
Proof.
  intros N. destruct (coding_split _ _ N) as (NC & ND & sz & S). unfold from_tag_uri. rewrite raise_if_cond. f_equal.
  destruct (tag_split nm r NC) as (x & y & z & E). change TAG_URI_PREFIX with (lit "urn:epc:tag:"). rewrite E.
  cbn [idx nth_error of_option]. rewrite bind_Ok.
  destruct (split_hd_nonempty c_colon r) as (h & t & Er).
  destruct inc; unfold tag_value.
  - cbn [skipn]. rewrite bind_Ok, S. cbn [idx nth_error of_option]. rewrite bind_Ok.
    rewrite join_cons by apply split_nonempty. rewrite join_split.
    replace (nm ++ [c_colon] ++ r) with ((nm ++ [c_colon]) ++ r) by (rewrite <- app_assoc; reflexivity).
    rewrite split_pre.
    + destruct (split_hd_nonempty c_dot r) as (h' & t' & Ed). rewrite Ed. reflexivity.
    + rewrite in_app_iff. intros [H|[H|[]]]; [now apply ND|discriminate].
  - rewrite Er. cbn [idx nth_error of_option]. rewrite bind_Ok, S. cbn [idx nth_error of_option hd]. rewrite bind_Ok. reflexivity.
Qed.

Lemma tag_value_filter f body : ~ In c_dot f -> tag_value true (f ++ [c_dot] ++ body) = body.
Proof. intros H. unfold tag_value. rewrite (split_app1 c_dot f body H). cbn [skipn]. apply join_split. Qed.
Lemma tag_value_plain body : ~ In c_colon body -> tag_value false body = body.
Proof. intros H. unfold tag_value. rewrite (split_nosep c_colon body H). reflexivity. Qed.

Lemma prefix_tag c nm body : In nm (coding_names c) -> lit "urn:epc:id:" ++ identifier c ++ [c_colon] ++ body = scheme_prefix c ++ body.
Proof. destruct c; cbn; try tauto; reflexivity. Qed.
Lemma uri_re_tag c nm body : In nm (coding_names c) -> fullmatch (uri_re c) (scheme_prefix c ++ body) = true -> lang (uri_body c) body.
Proof.
  intros N H. apply fullmatch_lang in H.
  destruct c; cbn in N; try contradiction; cbn [uri_re scheme_prefix uri_body] in *; apply lang_lit_seq in H as (b & E & H); apply app_inv_head in E; subst b; exact H.
Qed.

Lemma from_tag_gen {T} (init : str -> res T) c nm f body :
  (forall u, fullmatch (uri_re c) u = false -> init u = Raise ConvertException) ->
  In nm (coding_names c) -> c <> C_GID -> nc_shape f = true ->
  from_tag_uri init (TAG_URI_PREFIX ++ nm ++ [c_colon] ++ f ++ [c_dot] ++ body) true = init (scheme_prefix c ++ body).
Proof.
  intros I N G F. rewrite (from_tag_eval init c nm _ true N).
  rewrite tag_value_filter by (apply nc_no_sep; auto). rewrite (prefix_tag c nm body N).
  destruct (rmatch TAG_URI _) eqn:M; [reflexivity|]. cbn [negb cond]. symmetry. apply I.
  destruct (fullmatch (uri_re c) _) eqn:E; [|reflexivity]. apply (uri_re_tag c nm body N) in E.
  rewrite <- M. symmetry. apply rmatch_lang. exists (TAG_URI_PREFIX ++ nm ++ [c_colon] ++ f ++ [c_dot] ++ body), [].
  split; [now rewrite app_nil_r|]. apply tag_uri_lang. exists c, nm, (f ++ [c_dot] ++ body). repeat split; [exact N|].
  assert (R : rest_re c = RSeq NC (RSeq dot (uri_body c))) by (destruct c; try reflexivity; now destruct G).
  rewrite R. apply lang_dot_seq. exists f, body. repeat split; [|exact E]. apply lang_NC, F.
Qed.
Lemma from_tag_gid body : ~ In c_colon body ->
  gid_from_tag_uri (TAG_URI_PREFIX ++ lit "gid-96" ++ [c_colon] ++ body) = gid_init (lit "urn:epc:id:gid:" ++ body).
Proof.
  intros C. unfold gid_from_tag_uri. assert (N : In (lit "gid-96") (coding_names C_GID)) by (cbn; auto).
  rewrite (from_tag_eval gid_init C_GID _ body false N). rewrite (tag_value_plain _ C).
  destruct (rmatch TAG_URI _) eqn:M; [reflexivity|]. cbn [negb cond]. symmetry.
  destruct (fullmatch GID_URI (lit "urn:epc:id:gid:" ++ body)) eqn:E.
  - apply (uri_re_tag C_GID _ body N) in E. enough (H : rmatch TAG_URI (TAG_URI_PREFIX ++ lit "gid-96" ++ [c_colon] ++ body) = true) by (rewrite H in M; discriminate).
    apply rmatch_lang. exists (TAG_URI_PREFIX ++ lit "gid-96" ++ [c_colon] ++ body), [].
    split; [now rewrite app_nil_r|]. apply tag_uri_lang. exists C_GID, (lit "gid-96"), body. auto.
  - unfold gid_init. rewrite E. reflexivity.
Qed.

Lemma ndec_nc n : nc_shape (ndec n) = true.
Proof.
  destruct (ndec_spec n) as (_ & D & L). destruct L as [->|(c & s & E & N)]; [reflexivity|]. rewrite E in *.
  cbn [forallb nc_shape] in *. apply andb_true_iff in D as [D1 D2]. apply is_digit_iff in D1.
  apply orb_true_iff. right. unfold inr. rewrite (forallb_digit_d s D2), andb_true_r. apply andb_true_iff. rewrite !N.leb_le. lia.
Qed.
Lemma ndec_numeral n : numeral (ndec n).
Proof. apply numeral_iff, ndec_nc. Qed.

(** the class given by its name *)
Lemma from_tag_of c nm f body : In nm (coding_names c) -> c <> C_GID -> nc_shape f = true ->
  from_tag_uri_of c (TAG_URI_PREFIX ++ nm ++ [c_colon] ++ f ++ [c_dot] ++ body) = init_of c (scheme_prefix c ++ body).
Proof.
  intros N G F. pose proof (init_nomatch c) as I.
  destruct c; cbn in N; try contradiction; try (now destruct G); cbn [from_tag_uri_of init_of] in *;
  (let init := lazymatch goal with |- _ = lift _ (?g _) => g end in
   lazymatch goal with |- lift _ (?x _) = lift _ (_ (scheme_prefix ?c ++ _)) => unfold x; f_equal;
     apply (from_tag_gen init c); [intros u H; apply (lift_raise (fun y => y) _ _) in H || idtac; eapply lift_raise; apply I, H|exact N|exact G|exact F] end).
Qed.
