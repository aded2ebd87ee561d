(** What a caller of the scheme classes sees: runs of the source, without the model. *)
From Coq Require Import String Lia.
From Verif.Model Require Import Py Re PyFormat Syntax Machine Regexes Common Base.
From Verif.Model Require Import Adi Cpi Gdti Giai Gid Grai Gsrn Gsrnp Itip Lgtin Sgcn Sgln Sgtin Sscc Usdod Others Parsers.
From Verif.Source Require Import Program World.
From Verif.Spec Require Import Spec SpecEscapes SpecGrammar SpecSchemes SpecTags SpecLayout SpecCoding SpecElements SpecExact SpecChain SpecErrors SpecHex SpecParsers SpecCallers.
From Verif.Proofs Require Import Run SrcUse Runs RunsTag CtorAll Chain PureParsers Exceptions2 TagUri2 DecodeA ElementDispatch ElementRe  RunsAll.
From Verif.Proofs Require SrcKeys SrcParsers.
From Verif.Proofs Require SrcAdi SrcBic SrcCpi SrcGdti SrcGiai SrcGid SrcGinc SrcGrai SrcGsin SrcGsrn SrcGsrnp SrcImovn SrcItip SrcLgtin SrcPgln SrcSgcn SrcSgln SrcSgtin SrcSscc SrcUpui SrcUsdod.
Open Scope N_scope.

(** * The classes and their names *)

Lemma named_in (l : list string) (ks : list cls) c : map VClass l = map class_value ks -> In c l -> exists k, In k ks /\ VClass c = class_value k.
Proof. intros E H. apply (in_map VClass) in H. rewrite E in H. apply in_map_iff in H as (k & <- & K). eauto. Qed.
Definition scheme_classes : list cls := tag_classes ++ [C_GINC; C_GSIN; C_LGTIN; C_PGLN; C_UPUI; C_BIC; C_IMOVN].
Lemma named_tag c : In c tag_names -> exists k, In k tag_classes /\ VClass c = class_value k.
Proof. apply named_in. reflexivity. Qed.
Lemma named_element c : In c element_names -> exists k, In k element_classes /\ VClass c = class_value k.
Proof. apply named_in. reflexivity. Qed.
Lemma named_keyed c : In c keyed_names -> exists k, In k keyed_classes /\ VClass c = class_value k.
Proof. apply named_in. reflexivity. Qed.
Lemma named_scheme c : In c scheme_names -> exists k, VClass c = class_value k.
Proof. intros H. destruct (named_in scheme_names scheme_classes c eq_refl H) as (k & _ & E). eauto. Qed.
Lemma instance_class e c : instance (obj_of e) c <-> VClass c = class_value (class_of e).
Proof.
  split.
  - intros (l & E). destruct e; cbn [obj_of] in E; injection E as <- _; reflexivity.
  - intros E. destruct e; injection E as ->; eexists; reflexivity.
Qed.
Lemma class_value_inj k k' : class_value k = class_value k' -> k = k'.
Proof. destruct k, k'; try reflexivity; discriminate. Qed.

(** * What each class does *)

Lemma construct_runs k u : calls W (class_value k) [VStr u] [] (result obj_of (init_of k u)) /\ invokes W (class_value k) "from_epc_uri" [VStr u] [] (result obj_of (init_of k u)).
Proof.
  destruct k; cbn [init_of]; rewrite SrcParsers.result_lift; cbv [class_value];
      first
  [split; [apply (proj1 SrcAdi.adi_construct), one|apply (proj2 SrcAdi.adi_construct), one]
  |split; [apply (proj1 SrcBic.bic_construct), one|apply (proj2 SrcBic.bic_construct), one]
  |split; [apply (proj1 SrcCpi.cpi_construct), one|apply (proj2 SrcCpi.cpi_construct), one]
  |split; [apply (proj1 SrcGdti.gdti_construct), one|apply (proj2 SrcGdti.gdti_construct), one]
  |split; [apply (proj1 SrcGiai.giai_construct), one|apply (proj2 SrcGiai.giai_construct), one]
  |split; [apply (proj1 SrcGid.gid_construct), one|apply (proj2 SrcGid.gid_construct), one]
  |split; [apply (proj1 SrcGinc.ginc_construct), one|apply (proj2 SrcGinc.ginc_construct), one]
  |split; [apply (proj1 SrcGrai.grai_construct), one|apply (proj2 SrcGrai.grai_construct), one]
  |split; [apply (proj1 SrcGsin.gsin_construct), one|apply (proj2 SrcGsin.gsin_construct), one]
  |split; [apply (proj1 SrcGsrn.gsrn_construct), one|apply (proj2 SrcGsrn.gsrn_construct), one]
  |split; [apply (proj1 SrcGsrnp.gsrnp_construct), one|apply (proj2 SrcGsrnp.gsrnp_construct), one]
  |split; [apply (proj1 SrcImovn.imovn_construct), one|apply (proj2 SrcImovn.imovn_construct), one]
  |split; [apply (proj1 SrcItip.itip_construct), one|apply (proj2 SrcItip.itip_construct), one]
  |split; [apply (proj1 SrcLgtin.lgtin_construct), one|apply (proj2 SrcLgtin.lgtin_construct), one]
  |split; [apply (proj1 SrcPgln.pgln_construct), one|apply (proj2 SrcPgln.pgln_construct), one]
  |split; [apply (proj1 SrcSgcn.sgcn_construct), one|apply (proj2 SrcSgcn.sgcn_construct), one]
  |split; [apply (proj1 SrcSgln.sgln_construct), one|apply (proj2 SrcSgln.sgln_construct), one]
  |split; [apply (proj1 SrcSgtin.sgtin_construct), one|apply (proj2 SrcSgtin.sgtin_construct), one]
  |split; [apply (proj1 SrcSscc.sscc_construct), one|apply (proj2 SrcSscc.sscc_construct), one]
  |split; [apply (proj1 SrcUpui.upui_construct), one|apply (proj2 SrcUpui.upui_construct), one]
  |split; [apply (proj1 SrcUsdod.usdod_construct), one|apply (proj2 SrcUsdod.usdod_construct), one]].
Qed.
(** the readers of one class, from what was proved about it *)
Lemma read_one {T} (c : string) (o : T -> value) (i : T -> epc) (ft fb : str -> res T) s :
  (forall x, obj_of (i x) = o x) ->
  (forall u args kws, passed1 "epc_tag_uri" (VStr u) args kws -> invokes W (VClass c) "from_tag_uri" args kws (result o (ft u))) ->
  (forall s args kws, passed1 "binary_string" (VStr s) args kws -> invokes W (VClass c) "from_binary" args kws (result o (fb s))) ->
  (forall s args kws, passed1 "tag_hex_string" (VStr s) args kws -> fits (length s * 4) -> invokes W (VClass c) "from_hex" args kws (result o (from_hex fb s))) ->
  (forall s args kws, passed1 "tag_base64_string" (VStr s) args kws -> fits (length s * 8) -> invokes W (VClass c) "from_base64" args kws (result o (from_base64 fb s))) ->
  invokes W (VClass c) "from_tag_uri" [VStr s] [] (result obj_of (lift i (ft s))) /\
  invokes W (VClass c) "from_binary" [VStr s] [] (result obj_of (lift i (fb s))) /\
  (fits (length s * 4) -> invokes W (VClass c) "from_hex" [VStr s] [] (result obj_of (from_hex (fun b => lift i (fb b)) s))) /\
  (fits (length s * 8) -> invokes W (VClass c) "from_base64" [VStr s] [] (result obj_of (from_base64 (fun b => lift i (fb b)) s))).
Proof.
  intros O D1 D2 D3 D4.
  assert (R : forall r : res T, result obj_of (lift i r) = result o r) by (intros [x|]; cbn; [rewrite O|]; reflexivity).
  assert (HX : forall h, from_hex (fun b => lift i (fb b)) h = lift i (from_hex fb h)) by (intros h; unfold from_hex; destruct (hex_to_binary h); reflexivity).
  assert (HB : from_base64 (fun b => lift i (fb b)) s = lift i (from_base64 fb s)).
  { unfold from_base64. destruct (base64_to_hex s) as [h|]; [|reflexivity]. apply HX. }
  rewrite HX, HB, !R. repeat split; [apply D1, one|apply D2, one|intros F; apply D3; [apply one|exact F]|intros F; apply D4; [apply one|exact F]].
Qed.
Lemma read_runs k s : In k tag_classes ->
  invokes W (class_value k) "from_tag_uri" [VStr s] [] (result obj_of (from_tag_uri_of k s)) /\
  invokes W (class_value k) "from_binary" [VStr s] [] (result obj_of (from_binary_of k s)) /\
  (fits (length s * 4) -> invokes W (class_value k) "from_hex" [VStr s] [] (result obj_of (from_hex (from_binary_of k) s))) /\
  (fits (length s * 8) -> invokes W (class_value k) "from_base64" [VStr s] [] (result obj_of (from_base64 (from_binary_of k) s))).
Proof.
  intros H. cbn [tag_classes In] in H. repeat destruct H as [<-|H]; [..|contradiction].
  - destruct SrcSgtin.sgtin_decode as (_ & D1 & _ & D2 & D3 & D4). exact (read_one "sgtin.SGTIN" sgtin_obj E_SGTIN sgtin_from_tag_uri sgtin_from_binary s (fun _ => eq_refl) D1 D2 D3 D4).
  - destruct SrcSscc.sscc_decode as (_ & D1 & _ & D2 & D3 & D4). exact (read_one "sscc.SSCC" sscc_obj E_SSCC sscc_from_tag_uri sscc_from_binary s (fun _ => eq_refl) D1 D2 D3 D4).
  - destruct SrcSgln.sgln_decode as (_ & D1 & _ & D2 & D3 & D4). exact (read_one "sgln.SGLN" sgln_obj E_SGLN sgln_from_tag_uri sgln_from_binary s (fun _ => eq_refl) D1 D2 D3 D4).
  - destruct SrcGrai.grai_decode as (_ & D1 & _ & D2 & D3 & D4). exact (read_one "grai.GRAI" grai_obj E_GRAI grai_from_tag_uri grai_from_binary s (fun _ => eq_refl) D1 D2 D3 D4).
  - destruct SrcGiai.giai_decode as (_ & D1 & _ & D2 & D3 & D4). exact (read_one "giai.GIAI" giai_obj E_GIAI giai_from_tag_uri giai_from_binary s (fun _ => eq_refl) D1 D2 D3 D4).
  - destruct SrcGsrn.gsrn_decode as (_ & D1 & _ & D2 & D3 & D4). exact (read_one "gsrn.GSRN" gsrn_obj E_GSRN gsrn_from_tag_uri gsrn_from_binary s (fun _ => eq_refl) D1 D2 D3 D4).
  - destruct SrcGsrnp.gsrnp_decode as (_ & D1 & _ & D2 & D3 & D4). exact (read_one "gsrnp.GSRNP" gsrnp_obj E_GSRNP gsrnp_from_tag_uri gsrnp_from_binary s (fun _ => eq_refl) D1 D2 D3 D4).
  - destruct SrcGdti.gdti_decode as (_ & D1 & _ & D2 & D3 & D4). exact (read_one "gdti.GDTI" gdti_obj E_GDTI gdti_from_tag_uri gdti_from_binary s (fun _ => eq_refl) D1 D2 D3 D4).
  - destruct SrcCpi.cpi_decode as (_ & D1 & _ & D2 & D3 & D4). exact (read_one "cpi.CPI" cpi_obj E_CPI cpi_from_tag_uri cpi_from_binary s (fun _ => eq_refl) D1 D2 D3 D4).
  - destruct SrcSgcn.sgcn_decode as (_ & D1 & _ & D2 & D3 & D4). exact (read_one "sgcn.SGCN" sgcn_obj E_SGCN sgcn_from_tag_uri sgcn_from_binary s (fun _ => eq_refl) D1 D2 D3 D4).
  - destruct SrcItip.itip_decode as (_ & D1 & _ & D2 & D3 & D4). exact (read_one "itip.ITIP" itip_obj E_ITIP itip_from_tag_uri itip_from_binary s (fun _ => eq_refl) D1 D2 D3 D4).
  - destruct SrcGid.gid_decode as (_ & D1 & _ & D2 & D3 & D4). exact (read_one "gid.GID" gid_obj E_GID gid_from_tag_uri gid_from_binary s (fun _ => eq_refl) D1 D2 D3 D4).
  - destruct SrcUsdod.usdod_decode as (_ & D1 & _ & D2 & D3 & D4). exact (read_one "usdod.USDOD" usdod_obj E_USDOD usdod_from_tag_uri usdod_from_binary s (fun _ => eq_refl) D1 D2 D3 D4).
  - destruct SrcAdi.adi_decode as (_ & D1 & _ & D2 & D3 & D4). exact (read_one "adi.ADI" adi_obj E_ADI adi_from_tag_uri adi_from_binary s (fun _ => eq_refl) D1 D2 D3 D4).
Qed.
Lemma element_runs k s n : In k element_classes ->
  invokes W (class_value k) "from_gs1_element_string" [VStr s; VInt n] [] (result obj_of (from_gs1_element_string_of k s n)).
Proof.
  intros H. assert (P : passed2 "gs1_element_string" "company_prefix_length" (VStr s) (VInt n) [VStr s; VInt n] []) by (left; auto).
  cbn [element_classes In] in H. repeat destruct H as [<-|H]; [..|contradiction]; cbn [from_gs1_element_string_of]; rewrite SrcParsers.result_lift; cbv [class_value].
  - destruct SrcCpi.cpi_gs1 as (_ & D). apply D, P.
  - destruct SrcGdti.gdti_gs1 as (_ & _ & D). apply D, P.
  - destruct SrcGiai.giai_gs1 as (_ & _ & D). apply D, P.
  - destruct SrcGinc.ginc_gs1 as (_ & _ & D). apply D, P.
  - destruct SrcGrai.grai_gs1 as (_ & _ & D). apply D, P.
  - destruct SrcGsin.gsin_gs1 as (_ & _ & D). apply D, P.
  - destruct SrcGsrn.gsrn_gs1 as (_ & _ & D). apply D, P.
  - destruct SrcGsrnp.gsrnp_gs1 as (_ & _ & D). apply D, P.
  - destruct SrcItip.itip_gs1 as (_ & D). apply D, P.
  - destruct SrcLgtin.lgtin_gs1 as (_ & _ & _ & D). apply D, P.
  - destruct SrcPgln.pgln_gs1 as (_ & _ & D). apply D, P.
  - destruct SrcSgcn.sgcn_gs1 as (_ & _ & D). apply D, P.
  - destruct SrcSgln.sgln_gs1 as (_ & _ & D). apply D, P.
  - destruct SrcSgtin.sgtin_gs1 as (_ & _ & _ & _ & D). apply D, P.
  - destruct SrcSscc.sscc_gs1 as (_ & _ & D). apply D, P.
  - destruct SrcUpui.upui_gs1 as (_ & D). apply D, P.
Qed.
Lemma element_string_runs e : In (class_of e) element_classes ->
  invokes W (obj_of e) "gs1_element_string" [] [] (result VStr (epc_gs1_element_string e)).
Proof.
  intros H. destruct e as [x|x|x|x|x|x|x|x|x|x|x|x|x|x|x|x|x|x|x|x|x]; cbn in H; try (exfalso; intuition discriminate); cbn [obj_of epc_gs1_element_string].
  - destruct SrcCpi.cpi_gs1 as (D & _). exact (D x).
  - destruct SrcGdti.gdti_gs1 as (_ & D & _). exact (D x).
  - destruct SrcGiai.giai_gs1 as (_ & D & _). exact (D x).
  - destruct SrcGinc.ginc_gs1 as (_ & D & _). exact (D x).
  - destruct SrcGrai.grai_gs1 as (_ & D & _). exact (D x).
  - destruct SrcGsin.gsin_gs1 as (_ & D & _). exact (D x).
  - destruct SrcGsrn.gsrn_gs1 as (_ & D & _). exact (D x).
  - destruct SrcGsrnp.gsrnp_gs1 as (_ & D & _). exact (D x).
  - destruct SrcItip.itip_gs1 as (D & _). exact (D x).
  - destruct SrcLgtin.lgtin_gs1 as (_ & _ & D & _). exact (D x).
  - destruct SrcPgln.pgln_gs1 as (_ & D & _). exact (D x).
  - destruct SrcSgcn.sgcn_gs1 as (_ & D & _). exact (D x).
  - destruct SrcSgln.sgln_gs1 as (_ & D & _). exact (D x).
  - destruct SrcSgtin.sgtin_gs1 as (_ & _ & _ & D & _). exact (D x).
  - destruct SrcSscc.sscc_gs1 as (_ & D & _). exact (D x).
  - destruct SrcUpui.upui_gs1 as (D & _). exact (D x).
Qed.
Ltac pk D := apply (proj1 D).
Ltac nk := first [exists 1%nat; reflexivity|exists 2%nat; reflexivity|exists 3%nat; reflexivity|exists 4%nat; reflexivity].
Ltac tk := match goal with G : gtin_class ?c |- _ => first [apply (proj1 (proj2 SrcSgtin.sgtin_gs1) _ c); [exact G|]|apply (proj1 SrcLgtin.lgtin_gs1 _ c); [exact G|]]; left; right; auto end.
Ltac td := first [apply (proj1 (proj2 SrcSgtin.sgtin_gs1) _ "sgtin.GTIN_TYPE"%string); [left; reflexivity|]|apply (proj1 SrcLgtin.lgtin_gs1 _ "lgtin.GTIN_TYPE"%string); [right; reflexivity|]]; right; auto.
Lemma key_runs e t kws : In (class_of e) keyed_classes -> key_kwargs t kws -> invokes W (obj_of e) "gs1_key" [] kws (result VStr (epc_gs1_key e t)).
Proof.
  intros H K. destruct t as [t|]; [destruct K as (c & G & ->)|hnf in K; subst];
    destruct e as [x|x|x|x|x|x|x|x|x|x|x|x|x|x|x|x|x|x|x|x|x]; cbn in H; try (exfalso; intuition discriminate); cbn [obj_of epc_gs1_key];
    [nk|nk|nk|nk|nk|nk|nk|tk|nk|nk|nk|tk|nk
    |pk SrcGdti.gdti_gs1|pk SrcGiai.giai_gs1|pk SrcGinc.ginc_gs1|pk SrcGrai.grai_gs1|pk SrcGsin.gsin_gs1|pk SrcGsrn.gsrn_gs1|pk SrcGsrnp.gsrnp_gs1|td|pk SrcPgln.pgln_gs1|pk SrcSgcn.sgcn_gs1|pk SrcSgln.sgln_gs1|td|pk SrcSscc.sscc_gs1].
Qed.

(** * Constructors *)

Lemma init_refused k u x : init_of k u = Raise x -> refused x.
Proof. intros H. destruct (constructor_exn k u x H) as [->|[([->| ->] & _)|(-> & _)]]; unfold refused; auto. Qed.
Lemma own_attribute e u : epc_uri e = u -> attribute (obj_of e) "epc_uri" (VStr u).
Proof. intros <-. destruct (SrcKeys.obj_shape e) as (c & l & ->). exists c. eexists. split; reflexivity. Qed.
Theorem constructors c u : In c scheme_names ->
  exists r, calls W (VClass c) [VStr u] [] r /\ invokes W (VClass c) "from_epc_uri" [VStr u] [] r /\
    match r with
    | Returned v => instance v c /\ attribute v "epc_uri" (VStr u) /\ parses "epc_pure_identity_to_scheme" u v
    | Raised (XExn x) => refused x
    | Raised _ => False
    end.
Proof.
  intros H. destruct (named_scheme c H) as (k & E). rewrite E. exists (result obj_of (init_of k u)). destruct (construct_runs k u) as [A B].
  split; [exact A|]. split; [exact B|]. destruct (init_of k u) as [e|x] eqn:I; cbn; [|exact (init_refused k u x I)].
  destruct (init_class _ _ _ I) as [K U]. split; [apply instance_class; rewrite K; exact E|]. split; [apply own_attribute, U|].
  pose proof (scheme_runs u) as R. rewrite (pure_built _ _ _ I) in R. exact R.
Qed.
Theorem constructor_parser c u v : In c scheme_names ->
  (constructs c u v <-> parses "epc_pure_identity_to_scheme" u v /\ instance v c).
Proof.
  intros H. destruct (constructors c u H) as (r & A & _ & R). split.
  - intros C. pose proof (calls_once _ _ _ _ _ C A) as <-. destruct R as (R1 & _ & R2). auto.
  - intros [P I]. destruct (made_inv u v P) as (e & -> & _ & I' & _). apply instance_class in I. unfold constructs. rewrite I.
    destruct (construct_runs (class_of e) u) as [B _]. rewrite I' in B. exact B.
Qed.

(** * Reading *)

Definition read_by (m : string) (k : cls) (s : str) : res epc :=
  if String.eqb m "from_tag_uri" then from_tag_uri_of k s else if String.eqb m "from_binary" then from_binary_of k s
  else if String.eqb m "from_hex" then from_hex (from_binary_of k) s else from_base64 (from_binary_of k) s.
Definition parse_by (m : string) (s : str) : res epc :=
  if String.eqb m "from_tag_uri" then tag_uri_to_tag_encodable s else if String.eqb m "from_binary" then binary_to_tag_encodable s
  else if String.eqb m "from_hex" then hex_to_tag_encodable s else base64_to_tag_encodable s.
Lemma reads_run m f p k s : reader m f p -> In k tag_classes -> p s ->
  invokes W (class_value k) m [VStr s] [] (result obj_of (read_by m k s)) /\ calls W (VFun ("parsers." ++ f)) [VStr s] [] (result obj_of (parse_by m s)).
Proof.
  intros R K P. destruct (read_runs k s K) as (A & B & C & D). destruct SrcKeys.tags as (T1 & T2 & T3 & T4).
  destruct R; split; [exact A|apply T1, one|exact B|apply T2, one|exact (C P)|apply T3; [apply one|exact P]|exact (D P)|apply T4; [apply one|exact P]].
Qed.
Lemma read_class m f p k s e : reader m f p -> read_by m k s = Ok e -> class_of e = k /\ init_of k (epc_uri e) = Ok e.
Proof.
  intros R H. destruct R; cbv [read_by String.eqb Ascii.eqb Bool.eqb] in H.
  - split; [destruct (from_tag_shape k s e H) as (nm & r & _ & _ & C); exact C|]. pose proof (made_sound _ _ (made_from_tag_uri k s) e H) as S.
    destruct (from_tag_shape k s e H) as (nm & r & _ & _ & C). rewrite <- C. exact S.
  - apply (class_sound k s true 0%Z). auto.
  - apply (class_sound k s true 0%Z). auto.
  - apply (class_sound k s true 0%Z). auto 6.
Qed.
Lemma header_known s : (exists k, firstn 8 s = tag_header k) \/ (forall k, firstn 8 s <> tag_header k).
Proof.
  destruct (existsb (fun k => str_eqb (firstn 8 s) (tag_header k)) all_codings) eqn:E.
  - left. apply existsb_exists in E as (k & _ & E). exists k. apply Basics.str_eqb_eq, E.
  - right. intros k H. assert (X : existsb (fun k => str_eqb (firstn 8 s) (tag_header k)) all_codings = true).
    { apply existsb_exists. exists k. split; [apply all_codings_in|apply Basics.str_eqb_eq, H]. }
    rewrite E in X. discriminate X.
Qed.
Lemma binary_agree k s e : In k tag_classes -> (from_binary_of k s = Ok e <-> binary_to_tag_encodable s = Ok e /\ class_of e = k).
Proof.
  intros K. destruct (header_known s) as [(t & H)|N].
  - rewrite (dispatch t s H). split.
    + intros R. pose proof (class_sound k s true 0%Z e ltac:(auto)) as [C _]. split; [|exact C].
      destruct (list_eq_dec N.eq_dec (scheme_name (tag_class t)) (scheme_name k)) as [E|D].
      * assert (tag_class t = k) as -> by (destruct (tag_class t), k; try reflexivity; discriminate E). exact R.
      * rewrite wrong_header in R; [discriminate R|exact K|]. intros t' T H'. rewrite H in H'. apply header_inj in H' as <-. congruence.
    + intros [R C]. pose proof (class_sound (tag_class t) s true 0%Z e ltac:(auto)) as [C' _]. congruence.
  - rewrite (unknown_header s N), (wrong_header k s K); [split; [discriminate|intros [? _]; discriminate]|]. intros t _. apply N.
Qed.
Lemma tag_uri_agree k s e : In k tag_classes -> (from_tag_uri_of k s = Ok e <-> tag_uri_to_tag_encodable s = Ok e /\ class_of e = k).
Proof.
  intros K. split.
  - intros R. destruct (from_tag_shape k s e R) as (nm & r & N & -> & C). split; [|exact C]. rewrite (tag_dispatch k nm r N). exact R.
  - intros [R C]. unfold tag_uri_to_tag_encodable in R. destruct (idx (split c_colon s) 3) as [f|]; [|discriminate R]. cbn [bind] in R.
    destruct (idx (split c_dash f) 0) as [i|]; [|discriminate R]. cbn [bind] in R.
    destruct (assoc_str i TAG_ENCODABLE_SCHEME_IDENTIFIERS) as [k'|]; [|discriminate R]. cbn [of_option bind] in R.
    destruct (from_tag_shape k' s e R) as (_ & _ & _ & _ & C'). congruence.
Qed.
Lemma agree m f p k s e : reader m f p -> In k tag_classes -> (read_by m k s = Ok e <-> parse_by m s = Ok e /\ class_of e = k).
Proof.
  intros R K. destruct R; cbv [read_by parse_by String.eqb Ascii.eqb Bool.eqb].
  - apply tag_uri_agree, K.
  - apply binary_agree, K.
  - unfold from_hex, hex_to_tag_encodable. destruct (hex_to_binary s) as [b|]; cbn [bind]; [apply binary_agree, K|split; [discriminate|intros [? _]; discriminate]].
  - unfold from_base64, base64_to_tag_encodable, from_hex, hex_to_tag_encodable. destruct (base64_to_hex s) as [h|]; cbn [bind]; [|split; [discriminate|intros [? _]; discriminate]].
    destruct (hex_to_binary h) as [b|]; cbn [bind]; [apply binary_agree, K|split; [discriminate|intros [? _]; discriminate]].
Qed.
Theorem reader_parser c m f p s v : In c tag_names -> reader m f p -> p s -> (class_reads c m s v <-> parses f s v /\ instance v c).
Proof.
  intros H R P. destruct (named_tag c H) as (k & K & E). destruct (reads_run m f p k s R K P) as [A B]. rewrite <- E in A. split.
  - intros C. pose proof (invokes_once _ _ _ _ _ _ C A) as X. symmetry in X. apply result_returned in X as (e & X & ->).
    apply (agree m f p k s e R K) in X as [X C']. unfold parses. rewrite X in B. split; [exact B|]. apply instance_class. congruence.
  - intros [Q I]. pose proof (calls_once _ _ _ _ _ Q B) as X. symmetry in X. apply result_returned in X as (e & X & ->).
    apply instance_class in I. rewrite E in I. apply class_value_inj in I. unfold class_reads.
    rewrite (proj2 (agree m f p k s e R K) (conj X (eq_sym I))) in A. exact A.
Qed.
Lemma read_exn m f p k s x : reader m f p -> In k tag_classes -> read_by m k s = Raise x -> refused x \/ (x = KeyError /\ m <> "from_tag_uri"%string).
Proof.
  intros R K H. destruct R; cbv [read_by String.eqb Ascii.eqb Bool.eqb] in H.
  - left. destruct (from_tag_text_exn k s x K H) as [->|[([->| ->] & _)|(-> & _)]]; unfold refused; auto.
  - destruct (header_known s) as [(t & T)|N].
    + destruct (list_eq_dec N.eq_dec (scheme_name (tag_class t)) (scheme_name k)) as [E|D].
      * assert (tag_class t = k) as C by (destruct (tag_class t), k; try reflexivity; discriminate E). left. exact (proj2 (from_binary_any k s K) t x C T H).
      * right. rewrite wrong_header in H; [injection H as <-; split; [reflexivity|discriminate]|exact K|]. intros t' T' H'. rewrite T in H'. apply header_inj in H' as <-. congruence.
    + right. rewrite wrong_header in H; [injection H as <-; split; [reflexivity|discriminate]|exact K|]. intros t _. apply N.
  - destruct (hex_classes_exn k s x K (or_introl H)) as [C|C]; [left; exact C|right; split; [exact C|discriminate]].
  - destruct (hex_classes_exn k s x K (or_intror H)) as [C|C]; [left; exact C|right; split; [exact C|discriminate]].
Qed.
Lemma method_object c k m args kws (r : res epc) (bad : exn -> Prop) : VClass c = class_value k ->
  invokes W (VClass c) m args kws (result obj_of r) -> (forall e, r = Ok e -> class_of e = k /\ init_of k (epc_uri e) = Ok e) ->
  (forall x, r = Raise x -> bad x) -> method_ends (VClass c) m args kws (object_of c) bad.
Proof.
  intros E A G B. exists (result obj_of r). split; [exact A|]. destruct r as [e|x]; cbn; [|apply B; reflexivity].
  destruct (G e eq_refl) as [C I]. split; [apply instance_class; congruence|]. apply made_of. rewrite C. exact I.
Qed.
Theorem readers_end c m f p s : In c tag_names -> reader m f p -> p s ->
  method_ends (VClass c) m [VStr s] [] (object_of c) (fun x => refused x \/ (x = KeyError /\ m <> "from_tag_uri"%string)).
Proof.
  intros H R P. destruct (named_tag c H) as (k & K & E). destruct (reads_run m f p k s R K P) as [A _]. rewrite <- E in A.
  eapply method_object; [exact E|exact A|intros e; apply (read_class m f p), R|intros x; apply (read_exn m f p k s x R K)].
Qed.
Lemma element_agree k s n e : In k element_classes -> (from_gs1_element_string_of k s n = Ok e <-> gs1_element_string_to_gs1_element s n = Ok e /\ class_of e = k).
Proof.
  intros K. split.
  - intros R. pose proof (class_sound k s true n e ltac:(auto 6)) as [C _]. split; [|exact C].
    rewrite (element_dispatch k); [exact R|]. apply element_regex. destruct (fullmatch (gs1_element_string_regex k) s) eqn:M; [reflexivity|].
    rewrite (element_refused k s n K) in R; [discriminate R|]. intros X. apply element_regex in X. congruence.
  - intros [R C]. unfold gs1_element_string_to_gs1_element in R. destruct (first_regex _ s) as [k'|]; [|discriminate R]. cbn [of_option bind] in R.
    pose proof (class_sound k' s true n e ltac:(auto 6)) as [C' _]. congruence.
Qed.
Lemma element_refuses k s n x : In k element_classes -> from_gs1_element_string_of k s n = Raise x -> refused x.
Proof.
  intros K R. destruct (fullmatch (gs1_element_string_regex k) s) eqn:M.
  - apply element_regex in M. apply (text_parsers_exn s). rewrite <- (element_dispatch k s n M) in R. eauto 6.
  - rewrite (element_refused k s n K) in R; [injection R as <-; left; reflexivity|]. intros X. apply element_regex in X. congruence.
Qed.
Theorem elements_end c s n : In c element_names -> method_ends (VClass c) "from_gs1_element_string" [VStr s; VInt n] [] (object_of c) refused.
Proof.
  intros H. destruct (named_element c H) as (k & K & E). pose proof (element_runs k s n K) as A. rewrite <- E in A.
  eapply method_object; [exact E|exact A|intros e X; apply (class_sound k s true n); auto 6|intros x; apply (element_refuses k s n x K)].
Qed.
Theorem element_parser c s n v : In c element_names ->
  (class_reads_element c s n v <-> calls W (VFun "parsers.gs1_element_string_to_gs1_element") [VStr s; VInt n] [] (Returned v) /\ instance v c).
Proof.
  intros H. destruct (named_element c H) as (k & K & E). pose proof (element_runs k s n K) as A. rewrite <- E in A.
  assert (B : calls W (VFun "parsers.gs1_element_string_to_gs1_element") [VStr s; VInt n] [] (result obj_of (gs1_element_string_to_gs1_element s n))).
  { apply (proj1 SrcKeys.others). left. auto. }
  split.
  - intros C. pose proof (invokes_once _ _ _ _ _ _ C A) as X. symmetry in X. apply result_returned in X as (e & X & ->).
    apply (element_agree k s n e K) in X as [X C']. rewrite X in B. split; [exact B|]. apply instance_class. congruence.
  - intros [Q I]. pose proof (calls_once _ _ _ _ _ Q B) as X. symmetry in X. apply result_returned in X as (e & X & ->).
    apply instance_class in I. rewrite E in I. apply class_value_inj in I. unfold class_reads_element.
    rewrite (proj2 (element_agree k s n e K) (conj X (eq_sym I))) in A. exact A.
Qed.

(** * Writing *)

Lemma object_inv v : is_object v -> exists e u, v = obj_of e /\ init_of (class_of e) u = Ok e /\ epc_uri e = u /\ parses "epc_pure_identity_to_scheme" u v.
Proof. intros (u & _ & P). destruct (made_inv u v P) as (e & -> & _ & I & U). exists e, u. auto. Qed.
Lemma method_text v m args kws (r : res str) (bad : exn -> Prop) : invokes W v m args kws (result VStr r) -> (forall x, r = Raise x -> bad x) ->
  method_ends v m args kws is_text bad.
Proof. intros A B. exists (result VStr r). split; [exact A|]. destruct r as [t|x]; cbn; [eexists; reflexivity|apply B; reflexivity]. Qed.
Theorem tag_writers v kws : is_object v -> tag_keywords v kws ->
  method_ends v "tag_uri" [] kws is_text (eq ConvertException) /\
  method_ends v "binary" [] kws is_text (fun x => x = ConvertException \/ x = ValueError) /\
  ((forall b, answers v "binary" kws (VStr b) -> fits (length b)) ->
   method_ends v "hex" [] kws is_text (fun x => x = ConvertException \/ x = ValueError) /\
   method_ends v "base64" [] kws is_text (fun x => x = ConvertException \/ x = ValueError)).
Proof.
  intros O K. destruct (object_inv v O) as (e & u & -> & I & U & _). destruct (keywords_all e kws K) as (q & Q & F & A & B & C). subst e.
  split; [eapply method_text; [exact A|]; intros x X; symmetry; exact (tag_uri_exn q u x I X)|].
  split; [eapply method_text; [exact B|]; intros x X; exact (binary_exn q u x I X)|].
  intros G. destruct C as [C D].
  { intros b X. apply G. unfold answers. rewrite X in B. exact B. }
  split; (eapply method_text; [eassumption|]); intros x X; exact (hex_exn q u x I ltac:(auto)).
Qed.
Theorem element_writers v c : is_object v -> instance v c -> In c element_names ->
  method_ends v "gs1_element_string" [] [] is_text (fun x => x = IndexError /\ c = "upui.UPUI"%string).
Proof.
  intros O I H. destruct (object_inv v O) as (e & u & -> & J & U & _). apply instance_class in I. destruct (named_element c H) as (k & K & E).
  rewrite E in I. apply class_value_inj in I. subst k. eapply method_text; [apply element_string_runs, K|].
  intros x X. destruct (element_string_exn _ u e x J K X) as (-> & cp & tpx & V). split; [reflexivity|].
  destruct (init_prefix _ _ _ J) as (b & P). destruct V as (V & _). rewrite V in P.
  apply (prefix_inj C_UPUI) in P as [P _]. rewrite <- P in E. injection E as ->. reflexivity.
Qed.
Theorem key_writers v c kws : is_object v -> instance v c -> In c keyed_names -> gtin_keyword kws ->
  method_ends v "gs1_key" [] kws is_text
    (fun x => kws <> [] /\ if in_dec string_dec c ["sgtin.SGTIN"; "lgtin.LGTIN"]%string then x = ConvertException else x = TypeError).
Proof.
  intros O I H K. destruct (object_inv v O) as (e & u & -> & J & U & _). apply instance_class in I. destruct (named_keyed c H) as (k & M & E).
  rewrite E in I. apply class_value_inj in I. subst k. destruct (keyword_type kws K) as (t & T & N).
  eapply method_text; [apply (key_runs e t kws M T)|]. intros x X. clear O J.
  destruct t as [t|]; [split; [apply N; discriminate|]|exfalso].
  - destruct e; try (exfalso; cbn in M; intuition discriminate); injection E as ->; cbn [epc_gs1_key] in X;
      try (injection X as <-; vm_compute; reflexivity);
      unfold lgtin_gs1_key, sgtin_gs1_key, lgtin_gtin, sgtin_gtin, gtin_view, raise_if in X;
      match type of X with bind (if ?b then _ else _) _ = _ => destruct b end; cbn [bind] in X; try discriminate X; injection X as <-; vm_compute; reflexivity.
  - destruct e; try (cbn in M; intuition discriminate); cbn [epc_gs1_key] in X; discriminate X.
Qed.

(** * Round trips *)

Theorem class_back u v c kws t : parses "epc_pure_identity_to_scheme" u v -> instance v c -> In c tag_names -> tag_keywords v kws ->
  answers v "tag_uri" kws (VStr t) -> tag_safe u ->
  constructs c u v /\ class_reads c "from_tag_uri" t v /\
  exists b h s, answers v "binary" kws (VStr b) /\ answers v "hex" kws (VStr h) /\ answers v "base64" kws (VStr s) /\
    class_reads c "from_binary" b v /\ class_reads c "from_hex" h v /\ class_reads c "from_base64" s v.
Proof.
  intros P I C K T S.
  split; [apply constructor_parser; [unfold scheme_names; apply in_or_app; left; exact C|auto]|].
  split; [apply (reader_parser c _ _ _ t v C by_tag_uri Logic.I); split; [|exact I]; apply (tag_uri_back u v kws t P K T); apply S|].
  destruct (tags_written u v kws t P K T S) as (q & b & h & s & _ & _ & _ & _ & _ & HL & SL & B & H & X & _ & _ & RB & RH & RX).
  exists b, h, s. repeat (split; [assumption|]).
  split; [apply (reader_parser c _ _ _ b v C by_binary Logic.I); auto|].
  split; [apply (reader_parser c _ _ _ h v C by_hex); [apply fits_small; lia|auto]|apply (reader_parser c _ _ _ s v C by_base64 SL); auto].
Qed.
Theorem element_back u v c cp : parses "epc_pure_identity_to_scheme" u v -> instance v c -> In c element_names -> element_safe u cp ->
  exists g, answers v "gs1_element_string" [] (VStr g) /\ class_reads_element c g (Z.of_nat (length cp)) v.
Proof.
  intros P I C S. destruct (elements_back u v cp P S) as (g & G & R). exists g. split; [|apply element_parser; auto].
  destruct (made_inv u v P) as (e & -> & _ & J & U). apply instance_class in I. destruct (named_element c C) as (k & M & E).
  rewrite E in I. apply class_value_inj in I. subst k. unfold answers. pose proof (element_string_runs e M) as A.
  destruct SrcKeys.identities as (_ & _ & _ & _ & I5). specialize (I5 u _ _ (one _ _)). rewrite (element_string_of _ u e J M) in I5.
  rewrite (calls_once _ _ _ _ _ G I5). exact A.
Qed.
