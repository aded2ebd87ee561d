(** The source text of epcpy/utils/parsers.py on the machine: id patterns, GS1 keys and equality, and the claims about all of it. *)
From Coq Require Import String Lia.
From Verif.Model Require Import Py PyFloat Re Sre PyFormat Syntax Machine Regexes Common Base Sgtin Lgtin Sscc Sgln Grai Giai Gsrn Gsrnp Gdti Sgcn Others Parsers.
From Verif.Source Require Import World.
From Verif.Spec Require Import SpecParsers.
From Verif.Proofs Require Import Basics Num SreTexts SreUse SrcUse SrcBase SrcParsers SrcElement.
From Verif.Proofs Require SrcAdi SrcBic SrcCpi SrcGdti SrcGiai SrcGid SrcGinc SrcGrai SrcGsin SrcGsrn SrcGsrnp SrcImovn SrcItip SrcLgtin SrcPgln SrcSgcn SrcSgln SrcSgtin SrcSscc SrcUpui SrcUsdod.

Lemma g_construct c u k : reach W (StCall (class_value c) [VStr u] [] false k) (StDone (out obj_of (init_of c u)) k).
Proof. destruct c; cbv [class_value init_of]; rewrite result_lift; [apply SrcAdi.g_init|apply SrcBic.g_init|apply SrcCpi.g_init|apply SrcGdti.g_init|apply SrcGiai.g_init|apply SrcGid.g_init|apply SrcGinc.g_init|apply SrcGrai.g_init|apply SrcGsin.g_init|apply SrcGsrn.g_init|apply SrcGsrnp.g_init|apply SrcImovn.g_init|apply SrcItip.g_init|apply SrcLgtin.g_init|apply SrcPgln.g_init|apply SrcSgcn.g_init|apply SrcSgln.g_init|apply SrcSgtin.g_init|apply SrcSscc.g_init|apply SrcUpui.g_init|apply SrcUsdod.g_init]. Qed.
Lemma tail_block r en b k : reach W (StDone r (FReturn en :: FBlock b :: FCallB false :: k)) (StDone r k).
Proof. destruct r; exists 4%nat; reflexivity. Qed.
Lemma in_list_str s l : in_list (VStr s) (map VStr l) = mem_str s l.
Proof. induction l as [|x l IH]; [reflexivity|]. cbn [map]. unfold mem_str in *. cbn [existsb]. rewrite <- IH. reflexivity. Qed.
Lemma sub_text s : text_sub1 (lit "\.\*$") (lit ".0") s = Some (sub_dot_star s).
Proof. destruct sub_agrees as (p & E & H). unfold text_sub1. rewrite E. cbn [option_map]. rewrite H. reflexivity. Qed.
Ltac constructed := match goal with |- context [init_of ?C _] => eapply reach_trans; [apply (g_construct C)|] end; eapply reach_trans; [apply tail_block|]; done.
Lemma g_idpat u : gives "parsers._idpat_to_gs1_keyed_scheme" [VStr u] (out obj_of (idpat_to_gs1_keyed_scheme u)).
Proof.
  intros k. enter. prims. unfold idpat_to_gs1_keyed_scheme, idx; consts. destruct (nth_error (split 58 u) 3) as [s|]; cbn [of_option bind]; [|done].
  classes GS1_KEYED_SCHEME_IDENTIFIERS. full agree_EPC_URI. rewrite (has_class GS1_KEYED_SCHEME_IDENTIFIERS s).
  destruct (assoc_str s GS1_KEYED_SCHEME_IDENTIFIERS) as [c|] eqn:E; cbn [is_some of_option bind negb]; [|done].
  pose proof (lookup_class GS1_KEYED_SCHEME_IDENTIFIERS s) as G. rewrite E in G. apply keyed_class in E.
  match goal with |- context [in_list _ ?l] => change l with (map VStr ONE_ESCAPE_ALLOWED_SCHEMES) end. rewrite in_list_str.
  change [92; 46; 92; 42; 36] with (lit "\.\*$"). change [46; 48] with (lit ".0"). rewrite sub_text.
  full agree_EPC_URI. lits.
  destruct (fullmatch EPC_URI (replace_first _ _ u)).
  - eapply reach_trans; [apply get_some; exact G|]. clear G.
    destruct c; try discriminate E; cbv [option_map class_value]; enter; constructed.
  - destruct (mem_str s ONE_ESCAPE_ALLOWED_SCHEMES); cbn [negb]; [|done].
    destruct (fullmatch EPC_URI (sub_dot_star _)); [|done].
    eapply reach_trans; [apply get_some; exact G|]. clear G.
    destruct c; try discriminate E; cbv [option_map class_value]; enter; constructed.
Qed.

Ltac is_one e := destruct e; try match goal with E : _ = false |- _ => discriminate E | E : _ = true |- _ => discriminate E end; cbv [obj_of adi_obj bic_obj cpi_obj gdti_obj giai_obj gid_obj ginc_obj grai_obj gsin_obj gsrn_obj gsrnp_obj imovn_obj itip_obj lgtin_obj pgln_obj sgcn_obj sgln_obj sgtin_obj sscc_obj upui_obj usdod_obj].
Lemma element_ok u e : epc_pure_identity_to_gs1_element u = Ok e -> is_gs1_element (class_of e) = true.
Proof.
  unfold epc_pure_identity_to_gs1_element. destruct (epc_pure_identity_to_scheme u) as [e'|]; [|discriminate]. cbn [bind].
  destruct (is_gs1_element (class_of e')) eqn:E; [|discriminate]. intros [= <-]. exact E.
Qed.
Lemma keyed_ok u e : epc_pure_identity_to_gs1_keyed u = Ok e -> is_gs1_keyed (class_of e) = true.
Proof.
  unfold epc_pure_identity_to_gs1_keyed. destruct (epc_pure_identity_to_scheme u) as [e'|]; [|discriminate]. cbn [bind].
  destruct (is_gs1_keyed (class_of e')) eqn:E; [|discriminate]. intros [= <-]. exact E.
Qed.
Lemma g_element_string u : gives "parsers.epc_pure_identity_to_gs1_element_string" [VStr u] (out VStr (epc_pure_identity_to_gs1_element_string u)).
Proof.
  intros k. enter. use g_gs1_element. unfold epc_pure_identity_to_gs1_element_string.
  destruct (epc_pure_identity_to_gs1_element u) as [e|?] eqn:E; cbn [bind result]; [|enter; done].
  apply element_ok in E. is_one e; enter;
    [tailcall SrcCpi.g_gs1_element_string; done|tailcall SrcGdti.g_gs1_element_string; done|tailcall SrcGiai.g_gs1_element_string; done|tailcall SrcGinc.g_gs1_element_string; done|tailcall SrcGrai.g_gs1_element_string; done|tailcall SrcGsin.g_gs1_element_string; done|tailcall SrcGsrn.g_gs1_element_string; done|tailcall SrcGsrnp.g_gs1_element_string; done|tailcall SrcItip.g_gs1_element_string; done|tailcall SrcLgtin.g_gs1_element_string; done|tailcall SrcPgln.g_gs1_element_string; done|tailcall SrcSgcn.g_gs1_element_string; done|tailcall SrcSgln.g_gs1_element_string; done|tailcall SrcSgtin.g_gs1_element_string; done|tailcall SrcSscc.g_gs1_element_string; done|tailcall SrcUpui.g_gs1_element_string; done].
Qed.
Ltac with_type c t G := match goal with x : sgtin |- _ => tailalike (SrcSgtin.g_gs1_key c x t G); done | x : lgtin |- _ => tailalike (SrcLgtin.g_gs1_key c x t G); done | _ => enter; enter; done end.
Ltac no_type := match goal with
  | x : sgtin |- _ => tailalike (SrcSgtin.g_gs1_key "sgtin.GTIN_TYPE" x GTIN14 (or_introl eq_refl)); done
  | x : lgtin |- _ => tailalike (SrcLgtin.g_gs1_key "lgtin.GTIN_TYPE" x GTIN14 (or_intror eq_refl)); done
  | x : gdti |- _ => tailcall SrcGdti.g_gs1_key; done
  | x : giai |- _ => tailcall SrcGiai.g_gs1_key; done
  | x : ginc |- _ => tailcall SrcGinc.g_gs1_key; done
  | x : grai |- _ => tailcall SrcGrai.g_gs1_key; done
  | x : gsin |- _ => tailcall SrcGsin.g_gs1_key; done
  | x : gsrn |- _ => tailcall SrcGsrn.g_gs1_key; done
  | x : gsrnp |- _ => tailcall SrcGsrnp.g_gs1_key; done
  | x : pgln |- _ => tailcall SrcPgln.g_gs1_key; done
  | x : sgcn |- _ => tailcall SrcSgcn.g_gs1_key; done
  | x : sgln |- _ => tailcall SrcSgln.g_gs1_key; done
  | x : sscc |- _ => tailcall SrcSscc.g_gs1_key; done
  end.
Lemma g_key u t kws : key_kwargs t kws ->
  gives_kw "parsers.epc_pure_identity_to_gs1_key" [VStr u] kws (out VStr (epc_pure_identity_to_gs1_key u t)).
Proof.
  intros K k. unfold epc_pure_identity_to_gs1_key, epc_gs1_key. destruct t as [t|]; [destruct K as (c & G & ->)|hnf in K; subst].
  - enter. use g_gs1_keyed. destruct (epc_pure_identity_to_gs1_keyed u) as [e|?] eqn:E; cbn [bind result]; [|enter; done].
    apply keyed_ok in E. is_one e; enter; with_type c t G.
  - enter. use g_gs1_keyed. destruct (epc_pure_identity_to_gs1_keyed u) as [e|?] eqn:E; cbn [bind result]; [|enter; done].
    apply keyed_ok in E. is_one e; enter; no_type.
Qed.
Lemma mem_keys {B} s (l : list (str * B)) : mem_str s (map fst l) = Parsers.is_some (assoc_str s l).
Proof.
  unfold mem_str. induction l as [|[a b] l IH]; [reflexivity|]. cbn [map fst existsb assoc_str]. rewrite IH. destruct (str_eqb s a); reflexivity.
Qed.
(** get_gs1_key: what is left when [scheme] is known, parsers.py:131-136 *)
Definition key_env (s : str) (n : value) (kws : list (string * value)) (v : value) : env :=
  mkEnv "parsers" None [("source"%string, Some (VStr s)); ("company_prefix_length"%string, Some n); ("kwargs"%string, Some (VKw kws)); ("scheme"%string, Some v)].
Definition key_rest : list stmt :=
  [SIf (ENot (ECall (EName "isinstance") [EName "scheme"; EName "GS1Keyed"] None [] None))
     [SRaise (ECall (EName "ConvertException") [] None
        [("message"%string, EConst (CStr "Source could not be converted to proper GS1Keyed scheme"))] None)] [];
   SReturn (Some (ECall (EAttr (EName "scheme") "gs1_key") [] None [] (Some (EName "kwargs"))))].
Lemma skip_blocks en j ss k : reach W (StExec [] en (repeat (FBlock []) j ++ FBlock ss :: k)) (StExec ss en k).
Proof. induction j as [|j IH]; cbn [repeat app]; [exists 1%nat; reflexivity|]. eapply reach_trans; [exists 1%nat; reflexivity|]. exact IH. Qed.
Lemma scheme_known v s n kws j ss k :
  reach W (StDone (Returned v) (FAssign (TName "scheme") [] (key_env s n kws VNone) :: repeat (FBlock []) j ++ FBlock ss :: k)) (StExec ss (key_env s n kws v) k).
Proof. eapply reach_trans; [|apply skip_blocks]. exists 2%nat. reflexivity. Qed.
Lemma key_end e s n t kws k : key_kwargs t kws ->
  reach W (StExec key_rest (key_env s n kws (obj_of e)) (FCallB false :: k))
    (StDone (out VStr (if is_gs1_keyed (class_of e) then epc_gs1_key e t else Raise ConvertException)) k).
Proof.
  intros K. unfold epc_gs1_key, key_rest, key_env. destruct t as [t|]; [destruct K as (c & G & ->)|hnf in K; subst];
    destruct e; cbv [obj_of adi_obj bic_obj cpi_obj gdti_obj giai_obj gid_obj ginc_obj grai_obj gsin_obj gsrn_obj gsrnp_obj imovn_obj itip_obj lgtin_obj pgln_obj sgcn_obj sgln_obj sgtin_obj sscc_obj upui_obj usdod_obj class_of is_gs1_keyed]; enter;
    match goal with |- reach _ (StDone _ _) _ => done | G : gtin_class ?c |- context [gtin_member ?c ?t] => with_type c t G | _ => no_type end.
Qed.
Ltac blocks k j := lazymatch k with FBlock [] :: ?k' => blocks k' (S j) | _ => constr:(j) end.
Ltac keyed_end s n kws K := match goal with |- reach _ (StDone (out obj_of ?r) (_ :: ?k)) _ => let e := fresh "e" in
  destruct r as [e|?]; cbn [bind result lift]; [|enter; done];
  let j := blocks k 0%nat in (eapply reach_trans; [apply (scheme_known (obj_of e) s n kws j)|]);
  apply (key_end e s n _ kws); exact K end.
Ltac gets s kws K L := enter; full agree_EPC_URI; full agree_GS1_ELEMENT_STRING; full agree_TAG_URI; full agree_IDPAT_URI; prims;
  match goal with |- context [in_list (VStr (firstn _ _)) ?l] => change l with (map VStr (map fst TAG_ENCODABLE_BINARY_HEADERS)) end;
  match goal with |- context [in_list (VStr (upper _)) ?l] => change l with (map VStr (map fst TAG_ENCODABLE_HEX_HEADERS)) end; rewrite !in_list_str, !mem_keys;
  match goal with v := opt_int ?n |- _ => destruct n; cbv [opt_int] in v; cbn [truthy]; subst v; cbv match; prims end;
  repeat match goal with |- reach _ (if negb ?b then _ else _) _ => destruct b; cbn [negb] | |- reach _ (if ?b then _ else _) _ => destruct b end;
  match goal with |- reach _ (StCall (VFun ?q) _ _ _ _) _ =>
    match q with
    | "parsers.epc_pure_identity_to_scheme"%string => use (g_scheme s)
    | "parsers.gs1_element_string_to_gs1_element"%string => use (g_element s)
    | "parsers.tag_uri_to_tag_encodable"%string => use (g_tag_uri_to s)
    | "parsers._idpat_to_gs1_keyed_scheme"%string => use (g_idpat s)
    | "parsers.binary_to_tag_encodable"%string => use (g_binary_to s)
    | "parsers.hex_to_tag_encodable"%string => use (g_hex_to s L)
    end; match goal with |- context [("company_prefix_length"%string, Some ?n)] => keyed_end s n kws K end | _ => done end.
Lemma g_get s n t kws : key_kwargs t kws -> fits (length s * 4) ->
  gives_kw "parsers.get_gs1_key" [VStr s; opt_int n] kws (out VStr (get_gs1_key s n t)).
Proof.
  intros K L k. unfold get_gs1_key. set (v := opt_int n).
  destruct t as [t|]; [pose proof K as K'; destruct K' as (c & G & ->)|pose proof K as K'; hnf in K'; subst kws].
  - gets s [("gtin_type"%string, gtin_member c t)] K L.
  - gets s (@nil (string * value)) K L.
Qed.

Lemma obj_shape e : exists c l, obj_of e = VObj c (("epc_uri"%string, VStr (epc_uri e)) :: l).
Proof. destruct e; eexists; eexists; reflexivity. Qed.
Lemma g_eq a b : gives "base_scheme.EPCScheme.__eq__" [obj_of a; obj_of b] (Returned (VBool (epc_eqb a b))).
Proof.
  intros k. unfold epc_eqb. destruct (obj_shape a) as (c & l & ->). destruct b; cbv [obj_of adi_obj bic_obj cpi_obj gdti_obj giai_obj gid_obj ginc_obj grai_obj gsin_obj gsrn_obj gsrnp_obj imovn_obj itip_obj lgtin_obj pgln_obj sgcn_obj sgln_obj sgtin_obj sscc_obj upui_obj usdod_obj epc_uri]; enter; done.
Qed.

(** * The claims *)

Ltac fcalled H := cbv [calls]; match goal with |- exists n, steps W n ?s = ?t => change (reach W s t) end; first [apply H | bound_alike H].

Lemma tables :
  global W "parsers" "EPC_SCHEMES" (VList (map class_value EPC_SCHEMES)) /\
  global W "parsers" "GS1_KEYED_CLASSES" (VList (map class_value GS1_KEYED_CLASSES)) /\
  global W "parsers" "TAG_ENCODABLE_CLASSES" (VList (map class_value TAG_ENCODABLE_CLASSES)) /\
  global W "parsers" "TAG_ENCODABLE_BINARY_HEADERS" (VDict (dict_of class_value TAG_ENCODABLE_BINARY_HEADERS)) /\
  global W "parsers" "TAG_ENCODABLE_HEX_HEADERS" (VDict (dict_of class_value TAG_ENCODABLE_HEX_HEADERS)) /\
  global W "parsers" "EPC_SCHEME_IDENTIFIERS" (VDict (dict_of class_value EPC_SCHEME_IDENTIFIERS)) /\
  global W "parsers" "TAG_ENCODABLE_SCHEME_IDENTIFIERS" (VDict (dict_of class_value TAG_ENCODABLE_SCHEME_IDENTIFIERS)) /\
  global W "parsers" "GS1_KEYED_SCHEME_IDENTIFIERS" (VDict (dict_of class_value GS1_KEYED_SCHEME_IDENTIFIERS)) /\
  global W "parsers" "ONE_ESCAPE_ALLOWED_SCHEMES" (VList (map VStr ONE_ESCAPE_ALLOWED_SCHEMES)).
Proof. repeat apply conj; unfold global; vm_compute; reflexivity. Qed.
Lemma identities :
  (forall u args kws, passed1 "epc_pure_identity_uri" (VStr u) args kws ->
     calls W (VFun "parsers.epc_pure_identity_to_scheme") args kws (result obj_of (epc_pure_identity_to_scheme u))) /\
  (forall u args kws, passed1 "epc_pure_identity_uri" (VStr u) args kws ->
     calls W (VFun "parsers.epc_pure_identity_to_gs1_element") args kws (result obj_of (epc_pure_identity_to_gs1_element u))) /\
  (forall u args kws, passed1 "epc_pure_identity_uri" (VStr u) args kws ->
     calls W (VFun "parsers.epc_pure_identity_to_gs1_keyed") args kws (result obj_of (epc_pure_identity_to_gs1_keyed u))) /\
  (forall u args kws, passed1 "epc_pure_identity_uri" (VStr u) args kws ->
     calls W (VFun "parsers.epc_pure_identity_to_tag_encodable") args kws (result obj_of (epc_pure_identity_to_tag_encodable u))) /\
  (forall u args kws, passed1 "epc_pure_identity_uri" (VStr u) args kws ->
     calls W (VFun "parsers.epc_pure_identity_to_gs1_element_string") args kws (result VStr (epc_pure_identity_to_gs1_element_string u))).
Proof.
  repeat apply conj; intros u args kws P; ways P;
    first [fcalled (g_scheme u) | fcalled (g_gs1_element u) | fcalled (g_gs1_keyed u) | fcalled (g_tag_encodable u) | fcalled (g_element_string u)].
Qed.
Lemma others :
  (forall s n args kws, passed2 "gs1_element_string" "company_prefix_length" (VStr s) (VInt n) args kws ->
     calls W (VFun "parsers.gs1_element_string_to_gs1_element") args kws (result obj_of (gs1_element_string_to_gs1_element s n))) /\
  (forall u args kws, passed1 "idpat" (VStr u) args kws ->
     calls W (VFun "parsers._idpat_to_gs1_keyed_scheme") args kws (result obj_of (idpat_to_gs1_keyed_scheme u))).
Proof.
  split.
  - intros s n args kws P. ways P; fcalled (g_element s n).
  - intros u args kws P. ways P; fcalled (g_idpat u).
Qed.
Lemma tags :
  (forall u args kws, passed1 "epc_tag_uri" (VStr u) args kws ->
     calls W (VFun "parsers.tag_uri_to_tag_encodable") args kws (result obj_of (tag_uri_to_tag_encodable u))) /\
  (forall s args kws, passed1 "binary_string" (VStr s) args kws ->
     calls W (VFun "parsers.binary_to_tag_encodable") args kws (result obj_of (binary_to_tag_encodable s))) /\
  (forall s args kws, passed1 "hex_string" (VStr s) args kws -> fits (length s * 4) ->
     calls W (VFun "parsers.hex_to_tag_encodable") args kws (result obj_of (hex_to_tag_encodable s))) /\
  (forall s args kws, passed1 "base64_string" (VStr s) args kws -> fits (length s * 8) ->
     calls W (VFun "parsers.base64_to_tag_encodable") args kws (result obj_of (base64_to_tag_encodable s))).
Proof.
  repeat apply conj.
  - intros u args kws P. ways P; fcalled (g_tag_uri_to u).
  - intros s args kws P. ways P; fcalled (g_binary_to s).
  - intros s args kws P L. ways P; fcalled (g_hex_to s L).
  - intros s args kws P L. ways P; fcalled (g_base64_to s L).
Qed.
Ltac typed K t := let K' := fresh in pose proof K as K'; destruct t as [t|]; [destruct K' as (? & ? & ->)|hnf in K'; subst]; cbn [app].
Lemma keys :
  (forall u t args kws keys, passed1 "epc_pure_identity_uri" (VStr u) args kws -> key_kwargs t keys ->
     calls W (VFun "parsers.epc_pure_identity_to_gs1_key") args (kws ++ keys) (result VStr (epc_pure_identity_to_gs1_key u t))) /\
  (forall s n t args kws keys, key_args s n args kws -> key_kwargs t keys -> fits (length s * 4) ->
     calls W (VFun "parsers.get_gs1_key") args (kws ++ keys) (result VStr (get_gs1_key s n t))).
Proof.
  split.
  - intros u t args kws keys P K. ways P; typed K t; match type of K with key_kwargs ?t ?keys => fcalled (g_key u t keys K) end.
  - intros s n t args kws keys P K L. unfold key_args in P. ways P; typed K t;
      match type of K with key_kwargs ?t ?keys => first [fcalled (g_get s n t keys K L) | fcalled (g_get s None t keys K L)] end.
Qed.
Lemma equality :
  (forall a b args kws, passed1 "other" (obj_of b) args kws -> invokes W (obj_of a) "__eq__" args kws (Returned (VBool (epc_eqb a b)))) /\
  (forall a v, v = VNone \/ (exists s, v = VStr s) \/ (exists n, v = VInt n) \/ (exists b, v = VBool b) ->
     invokes W (obj_of a) "__eq__" [v] [] (Returned (VBool false))).
Proof.
  split.
  - intros a b args kws P. pose proof (g_eq a b) as G. ways P; destruct a; cbv [obj_of adi_obj bic_obj cpi_obj gdti_obj giai_obj gid_obj ginc_obj grai_obj gsin_obj gsrn_obj gsrnp_obj imovn_obj itip_obj lgtin_obj pgln_obj sgcn_obj sgln_obj sgtin_obj sscc_obj upui_obj usdod_obj] in G |- *;
      (eapply invokes_of; [mach_red; reflexivity|]); first [exact (G []) | bound_alike G].
  - intros a v H. destruct (obj_shape a) as (c & l & E).
    assert (G : forall k, reach W (StCall (VFun "base_scheme.EPCScheme.__eq__") [obj_of a; v] [] false k) (StDone (Returned (VBool false)) k)).
    { intros k. rewrite E. destruct H as [->|[(s & ->)|[(s & ->)|(s & ->)]]]; enter; done. }
    destruct a; cbv [obj_of adi_obj bic_obj cpi_obj gdti_obj giai_obj gid_obj ginc_obj grai_obj gsin_obj gsrn_obj gsrnp_obj imovn_obj itip_obj lgtin_obj pgln_obj sgcn_obj sgln_obj sgtin_obj sscc_obj upui_obj usdod_obj] in G |- *; (eapply invokes_of; [mach_red; reflexivity|]); exact (G []).
Qed.
