(** The source text of epcpy/utils/parsers.py on the machine: the loop over the element string patterns, parsers.py:243-263. *)
From Coq Require Import String Lia.
From Verif.Model Require Import Py PyFloat Re Sre PyFormat Syntax Machine Regexes Common Base Sgtin Lgtin Sscc Sgln Grai Giai Gsrn Gsrnp Gdti Sgcn Others Parsers.
From Verif.Source Require Import World.
From Verif.Spec Require Import SpecParsers.
From Verif.Proofs Require Import Basics Num SreTexts SreUse SrcUse SrcBase.
From Verif.Proofs Require SrcAdi SrcBic SrcCpi SrcGdti SrcGiai SrcGid SrcGinc SrcGrai SrcGsin SrcGsrn SrcGsrnp SrcImovn SrcItip SrcLgtin SrcPgln SrcSgcn SrcSgln SrcSgtin SrcSscc SrcUpui SrcUsdod.

Lemma lifted {T U} (g : U -> value) (i : T -> U) (r : res T) : out g (lift i r) = out (fun x => g (i x)) r.
Proof. destruct r; reflexivity. Qed.
Lemma tail_loop r en b it x body rest k : reach W (StDone r (FReturn en :: FBlock b :: FLoop it x body rest :: FCallB false :: k)) (StDone r k).
Proof. destruct r; exists 5%nat; reflexivity. Qed.
Ltac by_regex A H := full A; match goal with |- context [fullmatch ?r ?s] => destruct (fullmatch r s); cbn [of_option bind];
  [eapply reach_trans; [apply H|]; eapply reach_trans; [apply tail_loop|]; unfold from_gs1_element_string_of; rewrite lifted; done|] end.
Lemma g_element s n : gives "parsers.gs1_element_string_to_gs1_element" [VStr s; VInt n] (out obj_of (gs1_element_string_to_gs1_element s n)).
Proof.
  intros k. enter. unfold gs1_element_string_to_gs1_element.
  change GS1_ELEMENT_STRING_REGEX_TO_SCHEME with [(CPI_GS1_ELEMENT_STRING, C_CPI); (GDTI_GS1_ELEMENT_STRING, C_GDTI); (GIAI_GS1_ELEMENT_STRING, C_GIAI); (GINC_GS1_ELEMENT_STRING, C_GINC); (GRAI_GS1_ELEMENT_STRING, C_GRAI); (GSIN_GS1_ELEMENT_STRING, C_GSIN); (GSRN_GS1_ELEMENT_STRING, C_GSRN); (GSRNP_GS1_ELEMENT_STRING, C_GSRNP); (ITIP_GS1_ELEMENT_STRING, C_ITIP); (LGTIN_GS1_ELEMENT_STRING, C_LGTIN); (PGLN_GS1_ELEMENT_STRING, C_PGLN); (SGCN_GS1_ELEMENT_STRING, C_SGCN); (SGLN_GS1_ELEMENT_STRING, C_SGLN); (SGTIN_GS1_ELEMENT_STRING, C_SGTIN); (SSCC_GS1_ELEMENT_STRING, C_SSCC); (UPUI_GS1_ELEMENT_STRING, C_UPUI)].
  cbn [first_regex].
  by_regex agree_CPI_GS1_ELEMENT_STRING SrcCpi.g_from_gs1_element_string.
  by_regex agree_GDTI_GS1_ELEMENT_STRING SrcGdti.g_from_gs1_element_string.
  by_regex agree_GIAI_GS1_ELEMENT_STRING SrcGiai.g_from_gs1_element_string.
  by_regex agree_GINC_GS1_ELEMENT_STRING SrcGinc.g_from_gs1_element_string.
  by_regex agree_GRAI_GS1_ELEMENT_STRING SrcGrai.g_from_gs1_element_string.
  by_regex agree_GSIN_GS1_ELEMENT_STRING SrcGsin.g_from_gs1_element_string.
  by_regex agree_GSRN_GS1_ELEMENT_STRING SrcGsrn.g_from_gs1_element_string.
  by_regex agree_GSRNP_GS1_ELEMENT_STRING SrcGsrnp.g_from_gs1_element_string.
  by_regex agree_ITIP_GS1_ELEMENT_STRING SrcItip.g_from_gs1_element_string.
  by_regex agree_LGTIN_GS1_ELEMENT_STRING SrcLgtin.g_from_gs1_element_string.
  by_regex agree_PGLN_GS1_ELEMENT_STRING SrcPgln.g_from_gs1_element_string.
  by_regex agree_SGCN_GS1_ELEMENT_STRING SrcSgcn.g_from_gs1_element_string.
  by_regex agree_SGLN_GS1_ELEMENT_STRING SrcSgln.g_from_gs1_element_string.
  by_regex agree_SGTIN_GS1_ELEMENT_STRING SrcSgtin.g_from_gs1_element_string.
  by_regex agree_SSCC_GS1_ELEMENT_STRING SrcSscc.g_from_gs1_element_string.
  by_regex agree_UPUI_GS1_ELEMENT_STRING SrcUpui.g_from_gs1_element_string.
  done.
Qed.
