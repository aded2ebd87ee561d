(** The length of the company prefix given as something else than a number: runs of the source. *)
From Coq Require Import String Lia.
From Verif.Model Require Import Py PyFloat Re Sre PyFormat Syntax Machine Regexes Common Base.
From Verif.Model Require Import Adi Cpi Gdti Giai Gid Grai Gsrn Gsrnp Itip Lgtin Sgcn Sgln Sgtin Sscc Usdod Others Parsers Calls Registry Dynamic.
From Verif.Source Require Import World.
From Verif.Spec Require Import SpecParsers SpecRunTypes.
From Verif.Proofs Require Import Basics Num SreTexts SreUse SrcUse SrcBase.
From Verif.Proofs Require SrcParsers SrcCpi SrcGdti SrcGiai SrcGinc SrcGrai SrcGsin SrcGsrn SrcGsrnp SrcItip SrcLgtin SrcPgln SrcSgcn SrcSgln SrcSgtin SrcSscc SrcUpui.

Lemma out_lift A (E : A -> epc) r : out obj_of (lift E r) = out (fun a => obj_of (E a)) r.
Proof. destruct r; reflexivity. Qed.
Ltac unlift := rewrite ?out_lift; cbv beta iota delta [obj_of].
Ltac bad_lengths L N := match type of L with no_length ?l => destruct l end; try (destruct L; fail);
  try match type of L with no_length (VEnum _ _ ?v) => destruct v; try (destruct L; fail) end; try (discriminate (N eq_refl)); clear L N.

(** cpi.py *)
Lemma cpi_int s l z k : number l z -> reach W (StCall (VFun "cpi.CPI.from_gs1_element_string") [VClass "cpi.CPI"; VStr s; l] [] false k) (StDone (result cpi_obj (cpi_from_gs1_element_string s z)) k).
Proof.
  intros [z'|[|]|c n z']; enter; full agree_CPI_GS1_ELEMENT_STRING; cut_at cut_paren4; unfold cpi_from_gs1_element_string, unpack2, unpack3, idx; consts; runs; call SrcCpi.g_revert; runs; tailcall SrcCpi.g_init; done.
Qed.
Lemma cpi_bad s l k : no_length l -> (l = VNone -> slice_length C_CPI = false) -> reach W (StCall (VFun "cpi.CPI.from_gs1_element_string") [VClass "cpi.CPI"; VStr s; l] [] false k)
  (StDone (if fullmatch CPI_GS1_ELEMENT_STRING s then match cut_element_string C_CPI s with Ok _ => type_error | Raise e => Raised (XExn e) end else Raised (XExn ConvertException)) k).
Proof.
  intros L N. bad_lengths L N; enter; full agree_CPI_GS1_ELEMENT_STRING; cut_at cut_paren4; destruct (fullmatch CPI_GS1_ELEMENT_STRING s); unfold cut_element_string, unpack2, unpack3; runs; done.
Qed.
Lemma cpi_none s k : reach W (StCall (VFun "cpi.CPI.from_gs1_element_string") [VClass "cpi.CPI"; VStr s; VNone] [] false k) (StDone (result obj_of (from_gs1_element_string_slice C_CPI s None)) k).
Proof.
  enter; full agree_CPI_GS1_ELEMENT_STRING; cut_at cut_paren4; unfold from_gs1_element_string_slice, unpack2, unpack3, init_of; consts; runs; call SrcCpi.g_revert; runs; unlift; tailcall SrcCpi.g_init; done.
Qed.
(** gdti.py *)
Lemma gdti_int s l z k : number l z -> reach W (StCall (VFun "gdti.GDTI.from_gs1_element_string") [VClass "gdti.GDTI"; VStr s; l] [] false k) (StDone (result gdti_obj (gdti_from_gs1_element_string s z)) k).
Proof.
  intros [z'|[|]|c n z']; enter; full agree_GDTI_GS1_ELEMENT_STRING; unfold gdti_from_gs1_element_string, unpack2, unpack3, idx; consts; runs; tailcall SrcGdti.g_init; done.
Qed.
Lemma gdti_bad s l k : no_length l -> (l = VNone -> slice_length C_GDTI = false) -> reach W (StCall (VFun "gdti.GDTI.from_gs1_element_string") [VClass "gdti.GDTI"; VStr s; l] [] false k)
  (StDone (if fullmatch GDTI_GS1_ELEMENT_STRING s then match cut_element_string C_GDTI s with Ok _ => type_error | Raise e => Raised (XExn e) end else Raised (XExn ConvertException)) k).
Proof.
  intros L N. bad_lengths L N; enter; full agree_GDTI_GS1_ELEMENT_STRING; destruct (fullmatch GDTI_GS1_ELEMENT_STRING s); unfold cut_element_string, unpack2, unpack3; runs; done.
Qed.
Lemma gdti_none s k : reach W (StCall (VFun "gdti.GDTI.from_gs1_element_string") [VClass "gdti.GDTI"; VStr s; VNone] [] false k) (StDone (result obj_of (from_gs1_element_string_slice C_GDTI s None)) k).
Proof.
  enter; full agree_GDTI_GS1_ELEMENT_STRING; unfold from_gs1_element_string_slice, unpack2, unpack3, init_of; consts; runs; unlift; tailcall SrcGdti.g_init; done.
Qed.
(** giai.py *)
Lemma giai_int s l z k : number l z -> reach W (StCall (VFun "giai.GIAI.from_gs1_element_string") [VClass "giai.GIAI"; VStr s; l] [] false k) (StDone (result giai_obj (giai_from_gs1_element_string s z)) k).
Proof.
  intros [z'|[|]|c n z']; enter; full agree_GIAI_GS1_ELEMENT_STRING; unfold giai_from_gs1_element_string, unpack2, unpack3, idx; consts; runs; tailcall SrcGiai.g_init; done.
Qed.
Lemma giai_bad s l k : no_length l -> (l = VNone -> slice_length C_GIAI = false) -> reach W (StCall (VFun "giai.GIAI.from_gs1_element_string") [VClass "giai.GIAI"; VStr s; l] [] false k)
  (StDone (if fullmatch GIAI_GS1_ELEMENT_STRING s then match cut_element_string C_GIAI s with Ok _ => type_error | Raise e => Raised (XExn e) end else Raised (XExn ConvertException)) k).
Proof.
  intros L N. bad_lengths L N; enter; full agree_GIAI_GS1_ELEMENT_STRING; destruct (fullmatch GIAI_GS1_ELEMENT_STRING s); unfold cut_element_string, unpack2, unpack3; runs; done.
Qed.
(** ginc.py *)
Lemma ginc_int s l z k : number l z -> reach W (StCall (VFun "ginc.GINC.from_gs1_element_string") [VClass "ginc.GINC"; VStr s; l] [] false k) (StDone (result ginc_obj (ginc_from_gs1_element_string s z)) k).
Proof.
  intros [z'|[|]|c n z']; enter; full agree_GINC_GS1_ELEMENT_STRING; unfold ginc_from_gs1_element_string, unpack2, unpack3, idx; consts; runs; tailcall SrcGinc.g_init; done.
Qed.
Lemma ginc_bad s l k : no_length l -> (l = VNone -> slice_length C_GINC = false) -> reach W (StCall (VFun "ginc.GINC.from_gs1_element_string") [VClass "ginc.GINC"; VStr s; l] [] false k)
  (StDone (if fullmatch GINC_GS1_ELEMENT_STRING s then match cut_element_string C_GINC s with Ok _ => type_error | Raise e => Raised (XExn e) end else Raised (XExn ConvertException)) k).
Proof.
  intros L N. bad_lengths L N; enter; full agree_GINC_GS1_ELEMENT_STRING; destruct (fullmatch GINC_GS1_ELEMENT_STRING s); unfold cut_element_string, unpack2, unpack3; runs; done.
Qed.
(** grai.py *)
Lemma grai_int s l z k : number l z -> reach W (StCall (VFun "grai.GRAI.from_gs1_element_string") [VClass "grai.GRAI"; VStr s; l] [] false k) (StDone (result grai_obj (grai_from_gs1_element_string s z)) k).
Proof.
  intros [z'|[|]|c n z']; enter; full agree_GRAI_GS1_ELEMENT_STRING; unfold grai_from_gs1_element_string, unpack2, unpack3, idx; consts; runs; tailcall SrcGrai.g_init; done.
Qed.
Lemma grai_bad s l k : no_length l -> (l = VNone -> slice_length C_GRAI = false) -> reach W (StCall (VFun "grai.GRAI.from_gs1_element_string") [VClass "grai.GRAI"; VStr s; l] [] false k)
  (StDone (if fullmatch GRAI_GS1_ELEMENT_STRING s then match cut_element_string C_GRAI s with Ok _ => type_error | Raise e => Raised (XExn e) end else Raised (XExn ConvertException)) k).
Proof.
  intros L N. bad_lengths L N; enter; full agree_GRAI_GS1_ELEMENT_STRING; destruct (fullmatch GRAI_GS1_ELEMENT_STRING s); unfold cut_element_string, unpack2, unpack3; runs; done.
Qed.
Lemma grai_none s k : reach W (StCall (VFun "grai.GRAI.from_gs1_element_string") [VClass "grai.GRAI"; VStr s; VNone] [] false k) (StDone (result obj_of (from_gs1_element_string_slice C_GRAI s None)) k).
Proof.
  enter; full agree_GRAI_GS1_ELEMENT_STRING; unfold from_gs1_element_string_slice, unpack2, unpack3, init_of; consts; runs; unlift; tailcall SrcGrai.g_init; done.
Qed.
(** gsin.py *)
Lemma gsin_int s l z k : number l z -> reach W (StCall (VFun "gsin.GSIN.from_gs1_element_string") [VClass "gsin.GSIN"; VStr s; l] [] false k) (StDone (result gsin_obj (gsin_from_gs1_element_string s z)) k).
Proof.
  intros [z'|[|]|c n z']; enter; full agree_GSIN_GS1_ELEMENT_STRING; unfold gsin_from_gs1_element_string, unpack2, unpack3, idx; consts; runs; tailcall SrcGsin.g_init; done.
Qed.
Lemma gsin_bad s l k : no_length l -> (l = VNone -> slice_length C_GSIN = false) -> reach W (StCall (VFun "gsin.GSIN.from_gs1_element_string") [VClass "gsin.GSIN"; VStr s; l] [] false k)
  (StDone (if fullmatch GSIN_GS1_ELEMENT_STRING s then match cut_element_string C_GSIN s with Ok _ => type_error | Raise e => Raised (XExn e) end else Raised (XExn ConvertException)) k).
Proof.
  intros L N. bad_lengths L N; enter; full agree_GSIN_GS1_ELEMENT_STRING; destruct (fullmatch GSIN_GS1_ELEMENT_STRING s); unfold cut_element_string, unpack2, unpack3; runs; done.
Qed.
Lemma gsin_none s k : reach W (StCall (VFun "gsin.GSIN.from_gs1_element_string") [VClass "gsin.GSIN"; VStr s; VNone] [] false k) (StDone (result obj_of (from_gs1_element_string_slice C_GSIN s None)) k).
Proof.
  enter; full agree_GSIN_GS1_ELEMENT_STRING; unfold from_gs1_element_string_slice, unpack2, unpack3, init_of; consts; runs; unlift; tailcall SrcGsin.g_init; done.
Qed.
(** gsrn.py *)
Lemma gsrn_int s l z k : number l z -> reach W (StCall (VFun "gsrn.GSRN.from_gs1_element_string") [VClass "gsrn.GSRN"; VStr s; l] [] false k) (StDone (result gsrn_obj (gsrn_from_gs1_element_string s z)) k).
Proof.
  intros [z'|[|]|c n z']; enter; full agree_GSRN_GS1_ELEMENT_STRING; unfold gsrn_from_gs1_element_string, unpack2, unpack3, idx; consts; runs; tailcall SrcGsrn.g_init; done.
Qed.
Lemma gsrn_bad s l k : no_length l -> (l = VNone -> slice_length C_GSRN = false) -> reach W (StCall (VFun "gsrn.GSRN.from_gs1_element_string") [VClass "gsrn.GSRN"; VStr s; l] [] false k)
  (StDone (if fullmatch GSRN_GS1_ELEMENT_STRING s then match cut_element_string C_GSRN s with Ok _ => type_error | Raise e => Raised (XExn e) end else Raised (XExn ConvertException)) k).
Proof.
  intros L N. bad_lengths L N; enter; full agree_GSRN_GS1_ELEMENT_STRING; destruct (fullmatch GSRN_GS1_ELEMENT_STRING s); unfold cut_element_string, unpack2, unpack3; runs; done.
Qed.
Lemma gsrn_none s k : reach W (StCall (VFun "gsrn.GSRN.from_gs1_element_string") [VClass "gsrn.GSRN"; VStr s; VNone] [] false k) (StDone (result obj_of (from_gs1_element_string_slice C_GSRN s None)) k).
Proof.
  enter; full agree_GSRN_GS1_ELEMENT_STRING; unfold from_gs1_element_string_slice, unpack2, unpack3, init_of; consts; runs; unlift; tailcall SrcGsrn.g_init; done.
Qed.
(** gsrnp.py *)
Lemma gsrnp_int s l z k : number l z -> reach W (StCall (VFun "gsrnp.GSRNP.from_gs1_element_string") [VClass "gsrnp.GSRNP"; VStr s; l] [] false k) (StDone (result gsrnp_obj (gsrnp_from_gs1_element_string s z)) k).
Proof.
  intros [z'|[|]|c n z']; enter; full agree_GSRNP_GS1_ELEMENT_STRING; unfold gsrnp_from_gs1_element_string, unpack2, unpack3, idx; consts; runs; tailcall SrcGsrnp.g_init; done.
Qed.
Lemma gsrnp_bad s l k : no_length l -> (l = VNone -> slice_length C_GSRNP = false) -> reach W (StCall (VFun "gsrnp.GSRNP.from_gs1_element_string") [VClass "gsrnp.GSRNP"; VStr s; l] [] false k)
  (StDone (if fullmatch GSRNP_GS1_ELEMENT_STRING s then match cut_element_string C_GSRNP s with Ok _ => type_error | Raise e => Raised (XExn e) end else Raised (XExn ConvertException)) k).
Proof.
  intros L N. bad_lengths L N; enter; full agree_GSRNP_GS1_ELEMENT_STRING; destruct (fullmatch GSRNP_GS1_ELEMENT_STRING s); unfold cut_element_string, unpack2, unpack3; runs; done.
Qed.
Lemma gsrnp_none s k : reach W (StCall (VFun "gsrnp.GSRNP.from_gs1_element_string") [VClass "gsrnp.GSRNP"; VStr s; VNone] [] false k) (StDone (result obj_of (from_gs1_element_string_slice C_GSRNP s None)) k).
Proof.
  enter; full agree_GSRNP_GS1_ELEMENT_STRING; unfold from_gs1_element_string_slice, unpack2, unpack3, init_of; consts; runs; unlift; tailcall SrcGsrnp.g_init; done.
Qed.
(** itip.py *)
Lemma itip_int s l z k : number l z -> reach W (StCall (VFun "itip.ITIP.from_gs1_element_string") [VClass "itip.ITIP"; VStr s; l] [] false k) (StDone (result itip_obj (itip_from_gs1_element_string s z)) k).
Proof.
  intros [z'|[|]|c n z']; enter; full agree_ITIP_GS1_ELEMENT_STRING; unfold itip_from_gs1_element_string, unpack2, unpack3, idx; consts; runs; tailcall SrcItip.g_init; done.
Qed.
Lemma itip_bad s l k : no_length l -> (l = VNone -> slice_length C_ITIP = false) -> reach W (StCall (VFun "itip.ITIP.from_gs1_element_string") [VClass "itip.ITIP"; VStr s; l] [] false k)
  (StDone (if fullmatch ITIP_GS1_ELEMENT_STRING s then match cut_element_string C_ITIP s with Ok _ => type_error | Raise e => Raised (XExn e) end else Raised (XExn ConvertException)) k).
Proof.
  intros L N. bad_lengths L N; enter; full agree_ITIP_GS1_ELEMENT_STRING; destruct (fullmatch ITIP_GS1_ELEMENT_STRING s); unfold cut_element_string, unpack2, unpack3; runs; done.
Qed.
(** lgtin.py *)
Lemma lgtin_int s l z k : number l z -> reach W (StCall (VFun "lgtin.LGTIN.from_gs1_element_string") [VClass "lgtin.LGTIN"; VStr s; l] [] false k) (StDone (result lgtin_obj (lgtin_from_gs1_element_string s z)) k).
Proof.
  intros [z'|[|]|c n z']; enter; full agree_LGTIN_GS1_ELEMENT_STRING; cut_at cut_paren2; unfold lgtin_from_gs1_element_string, unpack2, unpack3, idx; consts; change lgtin_m_paren2 with Sgtin.m_paren2; runs; tailcall SrcLgtin.g_init; done.
Qed.
Lemma lgtin_bad s l k : no_length l -> (l = VNone -> slice_length C_LGTIN = false) -> reach W (StCall (VFun "lgtin.LGTIN.from_gs1_element_string") [VClass "lgtin.LGTIN"; VStr s; l] [] false k)
  (StDone (if fullmatch LGTIN_GS1_ELEMENT_STRING s then match cut_element_string C_LGTIN s with Ok _ => type_error | Raise e => Raised (XExn e) end else Raised (XExn ConvertException)) k).
Proof.
  intros L N. bad_lengths L N; enter; full agree_LGTIN_GS1_ELEMENT_STRING; cut_at cut_paren2; destruct (fullmatch LGTIN_GS1_ELEMENT_STRING s); unfold cut_element_string, unpack2, unpack3; runs; done.
Qed.
(** pgln.py *)
Lemma pgln_int s l z k : number l z -> reach W (StCall (VFun "pgln.PGLN.from_gs1_element_string") [VClass "pgln.PGLN"; VStr s; l] [] false k) (StDone (result pgln_obj (pgln_from_gs1_element_string s z)) k).
Proof.
  intros [z'|[|]|c n z']; enter; full agree_PGLN_GS1_ELEMENT_STRING; unfold pgln_from_gs1_element_string, unpack2, unpack3, idx; consts; runs; tailcall SrcPgln.g_init; done.
Qed.
Lemma pgln_bad s l k : no_length l -> (l = VNone -> slice_length C_PGLN = false) -> reach W (StCall (VFun "pgln.PGLN.from_gs1_element_string") [VClass "pgln.PGLN"; VStr s; l] [] false k)
  (StDone (if fullmatch PGLN_GS1_ELEMENT_STRING s then match cut_element_string C_PGLN s with Ok _ => type_error | Raise e => Raised (XExn e) end else Raised (XExn ConvertException)) k).
Proof.
  intros L N. bad_lengths L N; enter; full agree_PGLN_GS1_ELEMENT_STRING; destruct (fullmatch PGLN_GS1_ELEMENT_STRING s); unfold cut_element_string, unpack2, unpack3; runs; done.
Qed.
Lemma pgln_none s k : reach W (StCall (VFun "pgln.PGLN.from_gs1_element_string") [VClass "pgln.PGLN"; VStr s; VNone] [] false k) (StDone (result obj_of (from_gs1_element_string_slice C_PGLN s None)) k).
Proof.
  enter; full agree_PGLN_GS1_ELEMENT_STRING; unfold from_gs1_element_string_slice, unpack2, unpack3, init_of; consts; runs; unlift; tailcall SrcPgln.g_init; done.
Qed.
(** sgcn.py *)
Lemma sgcn_int s l z k : number l z -> reach W (StCall (VFun "sgcn.SGCN.from_gs1_element_string") [VClass "sgcn.SGCN"; VStr s; l] [] false k) (StDone (result sgcn_obj (sgcn_from_gs1_element_string s z)) k).
Proof.
  intros [z'|[|]|c n z']; enter; full agree_SGCN_GS1_ELEMENT_STRING; unfold sgcn_from_gs1_element_string, unpack2, unpack3, idx; consts; runs; tailcall SrcSgcn.g_init; done.
Qed.
Lemma sgcn_bad s l k : no_length l -> (l = VNone -> slice_length C_SGCN = false) -> reach W (StCall (VFun "sgcn.SGCN.from_gs1_element_string") [VClass "sgcn.SGCN"; VStr s; l] [] false k)
  (StDone (if fullmatch SGCN_GS1_ELEMENT_STRING s then match cut_element_string C_SGCN s with Ok _ => type_error | Raise e => Raised (XExn e) end else Raised (XExn ConvertException)) k).
Proof.
  intros L N. bad_lengths L N; enter; full agree_SGCN_GS1_ELEMENT_STRING; destruct (fullmatch SGCN_GS1_ELEMENT_STRING s); unfold cut_element_string, unpack2, unpack3; runs; done.
Qed.
Lemma sgcn_none s k : reach W (StCall (VFun "sgcn.SGCN.from_gs1_element_string") [VClass "sgcn.SGCN"; VStr s; VNone] [] false k) (StDone (result obj_of (from_gs1_element_string_slice C_SGCN s None)) k).
Proof.
  enter; full agree_SGCN_GS1_ELEMENT_STRING; unfold from_gs1_element_string_slice, unpack2, unpack3, init_of; consts; runs; unlift; tailcall SrcSgcn.g_init; done.
Qed.
(** sgln.py *)
Lemma sgln_int s l z k : number l z -> reach W (StCall (VFun "sgln.SGLN.from_gs1_element_string") [VClass "sgln.SGLN"; VStr s; l] [] false k) (StDone (result sgln_obj (sgln_from_gs1_element_string s z)) k).
Proof.
  intros [z'|[|]|c n z']; enter; full agree_SGLN_GS1_ELEMENT_STRING; cut_at cut_paren3; unfold sgln_from_gs1_element_string, unpack2, unpack3, idx; consts; runs; tailcall SrcSgln.g_init; done.
Qed.
Lemma sgln_bad s l k : no_length l -> (l = VNone -> slice_length C_SGLN = false) -> reach W (StCall (VFun "sgln.SGLN.from_gs1_element_string") [VClass "sgln.SGLN"; VStr s; l] [] false k)
  (StDone (if fullmatch SGLN_GS1_ELEMENT_STRING s then match cut_element_string C_SGLN s with Ok _ => type_error | Raise e => Raised (XExn e) end else Raised (XExn ConvertException)) k).
Proof.
  intros L N. bad_lengths L N; enter; full agree_SGLN_GS1_ELEMENT_STRING; cut_at cut_paren3; destruct (fullmatch SGLN_GS1_ELEMENT_STRING s); unfold cut_element_string, unpack2, unpack3; runs; done.
Qed.
Lemma sgln_none s k : reach W (StCall (VFun "sgln.SGLN.from_gs1_element_string") [VClass "sgln.SGLN"; VStr s; VNone] [] false k) (StDone (result obj_of (from_gs1_element_string_slice C_SGLN s None)) k).
Proof.
  enter; full agree_SGLN_GS1_ELEMENT_STRING; cut_at cut_paren3; unfold from_gs1_element_string_slice, unpack2, unpack3, init_of; consts; runs; unlift; tailcall SrcSgln.g_init; done.
Qed.
(** sgtin.py *)
Lemma sgtin_int s l z k : number l z -> reach W (StCall (VFun "sgtin.SGTIN.from_gs1_element_string") [VClass "sgtin.SGTIN"; VStr s; l] [] false k) (StDone (result sgtin_obj (sgtin_from_gs1_element_string s z)) k).
Proof.
  intros [z'|[|]|c n z']; enter; full agree_SGTIN_GS1_ELEMENT_STRING; cut_at cut_paren2; unfold sgtin_from_gs1_element_string, unpack2, unpack3, idx; consts; runs; tailcall SrcSgtin.g_init; done.
Qed.
Lemma sgtin_bad s l k : no_length l -> (l = VNone -> slice_length C_SGTIN = false) -> reach W (StCall (VFun "sgtin.SGTIN.from_gs1_element_string") [VClass "sgtin.SGTIN"; VStr s; l] [] false k)
  (StDone (if fullmatch SGTIN_GS1_ELEMENT_STRING s then match cut_element_string C_SGTIN s with Ok _ => type_error | Raise e => Raised (XExn e) end else Raised (XExn ConvertException)) k).
Proof.
  intros L N. bad_lengths L N; enter; full agree_SGTIN_GS1_ELEMENT_STRING; cut_at cut_paren2; destruct (fullmatch SGTIN_GS1_ELEMENT_STRING s); unfold cut_element_string, unpack2, unpack3; runs; done.
Qed.
(** sscc.py *)
Lemma sscc_int s l z k : number l z -> reach W (StCall (VFun "sscc.SSCC.from_gs1_element_string") [VClass "sscc.SSCC"; VStr s; l] [] false k) (StDone (result sscc_obj (sscc_from_gs1_element_string s z)) k).
Proof.
  intros [z'|[|]|c n z']; enter; full agree_SSCC_GS1_ELEMENT_STRING; cut_at cut_paren2; unfold sscc_from_gs1_element_string, unpack2, unpack3, idx; consts; change sscc_m_paren2 with Sgtin.m_paren2; runs; tailcall SrcSscc.g_init; done.
Qed.
Lemma sscc_bad s l k : no_length l -> (l = VNone -> slice_length C_SSCC = false) -> reach W (StCall (VFun "sscc.SSCC.from_gs1_element_string") [VClass "sscc.SSCC"; VStr s; l] [] false k)
  (StDone (if fullmatch SSCC_GS1_ELEMENT_STRING s then match cut_element_string C_SSCC s with Ok _ => type_error | Raise e => Raised (XExn e) end else Raised (XExn ConvertException)) k).
Proof.
  intros L N. bad_lengths L N; enter; full agree_SSCC_GS1_ELEMENT_STRING; cut_at cut_paren2; destruct (fullmatch SSCC_GS1_ELEMENT_STRING s); unfold cut_element_string, unpack2, unpack3; runs; done.
Qed.
(** upui.py *)
Lemma upui_int s l z k : number l z -> reach W (StCall (VFun "upui.UPUI.from_gs1_element_string") [VClass "upui.UPUI"; VStr s; l] [] false k) (StDone (result upui_obj (upui_from_gs1_element_string s z)) k).
Proof.
  intros [z'|[|]|c n z']; enter; full agree_UPUI_GS1_ELEMENT_STRING; unfold upui_from_gs1_element_string, unpack2, unpack3, idx; consts; runs; tailcall SrcUpui.g_init; done.
Qed.
Lemma upui_bad s l k : no_length l -> (l = VNone -> slice_length C_UPUI = false) -> reach W (StCall (VFun "upui.UPUI.from_gs1_element_string") [VClass "upui.UPUI"; VStr s; l] [] false k)
  (StDone (if fullmatch UPUI_GS1_ELEMENT_STRING s then match cut_element_string C_UPUI s with Ok _ => type_error | Raise e => Raised (XExn e) end else Raised (XExn ConvertException)) k).
Proof.
  intros L N. bad_lengths L N; enter; full agree_UPUI_GS1_ELEMENT_STRING; destruct (fullmatch UPUI_GS1_ELEMENT_STRING s); unfold cut_element_string, unpack2, unpack3; runs; done.
Qed.
