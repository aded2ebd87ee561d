(** The source text of epcpy/utils/parsers.py on the machine. *)
From Coq Require Import String Lia.
From Verif.Model Require Import Py PyFloat Re Sre PyFormat Syntax Machine Regexes Common Base Parsers.
From Verif.Source Require Import World.
From Verif.Spec Require Import SpecParsers.
From Verif.Proofs Require Import Basics Num SreTexts SreUse SrcUse SrcBase.
From Verif.Proofs Require SrcAdi SrcBic SrcCpi SrcGdti SrcGiai SrcGid SrcGinc SrcGrai SrcGsin SrcGsrn SrcGsrnp SrcImovn SrcItip SrcLgtin SrcPgln SrcSgcn SrcSgln SrcSgtin SrcSscc SrcUpui SrcUsdod.

Lemma result_lift {T U} (g : U -> value) (i : T -> U) (r : res T) : out g (lift i r) = out (fun x => g (i x)) r.
Proof. destruct r; reflexivity. Qed.
Lemma lookup_class l s : dict_get (dict_of class_value l) (VStr s) = option_map class_value (assoc_str s l).
Proof. apply dict_get_of. Qed.
Lemma has_class l s : has_key (dict_of class_value l) (VStr s) = is_some (assoc_str s l).
Proof. unfold has_key. rewrite lookup_class. destruct (assoc_str s l); reflexivity. Qed.
(** a dictionary of classes of the source text *)
Ltac classes l := match goal with |- context [VDict ?d] =>
  match d with cons (VStr _, VClass _) _ => change d with (dict_of class_value l) end end.
Ltac get_class l := match goal with |- context [has_key _ (VStr ?s)] => rewrite (has_class l s) end;
  match goal with |- context [assoc_str ?s l] => let E := fresh "E" in let c := fresh "c" in
    destruct (assoc_str s l) as [c|] eqn:E; cbn [is_some of_option bind negb]; [|done];
    eapply reach_trans; [apply get_some; rewrite lookup_class, E; reflexivity|] end.

Ltac by_class H := cbv [class_value]; enter; tailcall H; unfold init_of, from_binary_of, from_tag_uri_of, from_gs1_element_string_of; rewrite result_lift; done.
Ltac by_tag H := cbv [class_value]; enter; tailalike H; unfold from_tag_uri_of; rewrite result_lift; done.
Lemma g_scheme u : gives "parsers.epc_pure_identity_to_scheme" [VStr u] (out obj_of (epc_pure_identity_to_scheme u)).
Proof.
  intros k. enter. prims. unfold epc_pure_identity_to_scheme, idx; consts. destruct (nth_error (split 58 u) 3) as [s|]; cbn [of_option bind]; [|done].
  classes EPC_SCHEME_IDENTIFIERS. get_class EPC_SCHEME_IDENTIFIERS.
  destruct c; [by_class SrcAdi.g_from_epc_uri|by_class SrcBic.g_from_epc_uri|by_class SrcCpi.g_from_epc_uri|by_class SrcGdti.g_from_epc_uri|by_class SrcGiai.g_from_epc_uri|by_class SrcGid.g_from_epc_uri|by_class SrcGinc.g_from_epc_uri|by_class SrcGrai.g_from_epc_uri|by_class SrcGsin.g_from_epc_uri|by_class SrcGsrn.g_from_epc_uri|by_class SrcGsrnp.g_from_epc_uri|by_class SrcImovn.g_from_epc_uri|by_class SrcItip.g_from_epc_uri|by_class SrcLgtin.g_from_epc_uri|by_class SrcPgln.g_from_epc_uri|by_class SrcSgcn.g_from_epc_uri|by_class SrcSgln.g_from_epc_uri|by_class SrcSgtin.g_from_epc_uri|by_class SrcSscc.g_from_epc_uri|by_class SrcUpui.g_from_epc_uri|by_class SrcUsdod.g_from_epc_uri].
Qed.
Ltac by_object e := destruct e; cbv [obj_of adi_obj bic_obj cpi_obj gdti_obj giai_obj gid_obj ginc_obj grai_obj gsin_obj gsrn_obj gsrnp_obj imovn_obj itip_obj lgtin_obj pgln_obj sgcn_obj sgln_obj sgtin_obj sscc_obj upui_obj usdod_obj class_of is_gs1_keyed is_gs1_element is_tag_encodable]; enter; cbn [negb raise_if bind].
Ltac scheme u := use (g_scheme u); unfold epc_pure_identity_to_gs1_element, epc_pure_identity_to_gs1_keyed, epc_pure_identity_to_tag_encodable;
  destruct (epc_pure_identity_to_scheme u) as [e|?]; cbn [bind result]; [by_object e; done|enter; done].
Lemma g_gs1_element u : gives "parsers.epc_pure_identity_to_gs1_element" [VStr u] (out obj_of (epc_pure_identity_to_gs1_element u)).
Proof. intros k. enter. scheme u. Qed.
Lemma g_gs1_keyed u : gives "parsers.epc_pure_identity_to_gs1_keyed" [VStr u] (out obj_of (epc_pure_identity_to_gs1_keyed u)).
Proof. intros k. enter. scheme u. Qed.
Lemma g_tag_encodable u : gives "parsers.epc_pure_identity_to_tag_encodable" [VStr u] (out obj_of (epc_pure_identity_to_tag_encodable u)).
Proof. intros k. enter. scheme u. Qed.
(** only the classes of the dictionary come out of it *)
Lemma assoc_in {B} s (l : list (str * B)) c : assoc_str s l = Some c -> In c (map snd l).
Proof.
  induction l as [|[a b] l IH]; [discriminate|]. cbn [assoc_str map snd]. destruct (str_eqb s a); [intros [= ->]; left; reflexivity|].
  intros H. right. exact (IH H).
Qed.
Lemma tag_class s c : assoc_str s TAG_ENCODABLE_SCHEME_IDENTIFIERS = Some c -> is_tag_encodable c = true.
Proof. intros H. apply assoc_in in H. revert c H. apply forallb_forall. vm_compute. reflexivity. Qed.
Lemma header_class s c : assoc_str s TAG_ENCODABLE_BINARY_HEADERS = Some c -> is_tag_encodable c = true.
Proof. intros H. apply assoc_in in H. revert c H. apply forallb_forall. vm_compute. reflexivity. Qed.
Lemma keyed_class s c : assoc_str s GS1_KEYED_SCHEME_IDENTIFIERS = Some c -> is_gs1_keyed c = true.
Proof. intros H. apply assoc_in in H. revert c H. apply forallb_forall. vm_compute. reflexivity. Qed.
Lemma g_tag_uri_to u : gives "parsers.tag_uri_to_tag_encodable" [VStr u] (out obj_of (tag_uri_to_tag_encodable u)).
Proof.
  intros k. enter. prims. unfold tag_uri_to_tag_encodable, idx; consts. destruct (nth_error (split 58 u) 3) as [f|]; cbn [of_option bind]; [|done].
  prims. destruct (nth_error (split 45 f) 0) as [s|]; cbn [of_option bind]; [|done].
  classes TAG_ENCODABLE_SCHEME_IDENTIFIERS. get_class TAG_ENCODABLE_SCHEME_IDENTIFIERS.
  apply tag_class in E. destruct c; try discriminate E; [by_tag SrcAdi.g_from_tag|by_tag SrcCpi.g_from_tag|by_tag SrcGdti.g_from_tag|by_tag SrcGiai.g_from_tag|by_tag SrcGid.g_from_tag_gid|by_tag SrcGrai.g_from_tag|by_tag SrcGsrn.g_from_tag|by_tag SrcGsrnp.g_from_tag|by_tag SrcItip.g_from_tag|by_tag SrcSgcn.g_from_tag|by_tag SrcSgln.g_from_tag|by_tag SrcSgtin.g_from_tag|by_tag SrcSscc.g_from_tag|by_tag SrcUsdod.g_from_tag].
Qed.
Lemma g_binary_to s : gives "parsers.binary_to_tag_encodable" [VStr s] (out obj_of (binary_to_tag_encodable s)).
Proof.
  intros k. enter. prims. unfold binary_to_tag_encodable.
  classes TAG_ENCODABLE_BINARY_HEADERS. get_class TAG_ENCODABLE_BINARY_HEADERS.
  apply header_class in E. destruct c; try discriminate E; [by_class SrcAdi.g_from_binary|by_class SrcCpi.g_from_binary|by_class SrcGdti.g_from_binary|by_class SrcGiai.g_from_binary|by_class SrcGid.g_from_binary|by_class SrcGrai.g_from_binary|by_class SrcGsrn.g_from_binary|by_class SrcGsrnp.g_from_binary|by_class SrcItip.g_from_binary|by_class SrcSgcn.g_from_binary|by_class SrcSgln.g_from_binary|by_class SrcSgtin.g_from_binary|by_class SrcSscc.g_from_binary|by_class SrcUsdod.g_from_binary].
Qed.
Lemma g_hex_to s : fits (length s * 4) -> gives "parsers.hex_to_tag_encodable" [VStr s] (out obj_of (hex_to_tag_encodable s)).
Proof. intros L k. enter. callr (g_hex_to_binary s L) as [b|?] E; unfold hex_to_tag_encodable; rewrite E; cbn [bind]; [|done]. tailcall g_binary_to. done. Qed.
Lemma g_base64_to s : fits (length s * 8) -> gives "parsers.base64_to_tag_encodable" [VStr s] (out obj_of (base64_to_tag_encodable s)).
Proof.
  intros L k. enter. callr (g_base64_to_hex s) as [h|?] E; unfold base64_to_tag_encodable; rewrite E; cbn [bind]; [|done].
  eapply reach_trans; [apply g_hex_to, (base64_fits s h E L)|]. eapply reach_trans; [apply tail|]. done.
Qed.
