(** The members of the enumerations of the scheme classes. *)
From Coq Require Import String.
From Verif.Model Require Import Py PyFormat Syntax Machine Common Base.
From Verif.Model Require Import Sgtin Sscc Sgln Grai Giai Gsrn Gsrnp Gdti Sgcn Itip Gid Cpi Usdod Adi Lgtin Others.
From Verif.Source Require Import Program World.
From Verif.Spec Require Import SpecMethods.

Ltac numbered := match goal with |- filter_numbers W ?c _ =>
  let l := eval vm_compute in (map (fun v => match v with VEnum _ n _ => n | _ => EmptyString end) (enum_members W c)) in
  exists l; split; vm_compute; reflexivity end.
Lemma filter_values :
  filter_numbers W "sgtin.SGTINFilterValue" 8 /\
  filter_numbers W "sscc.SSCCFilterValue" 8 /\
  filter_numbers W "sgln.SGLNFilterValue" 8 /\
  filter_numbers W "grai.GRAIFilterValue" 8 /\
  filter_numbers W "giai.GIAIFilterValue" 8 /\
  filter_numbers W "gsrn.GSRNFilterValue" 8 /\
  filter_numbers W "gsrnp.GSRNPFilterValue" 8 /\
  filter_numbers W "gdti.GDTIFilterValue" 8 /\
  filter_numbers W "sgcn.SGCNFilterValue" 8 /\
  filter_numbers W "itip.ITIPFilterValue" 8 /\
  filter_numbers W "cpi.CPIFilterValue" 8 /\
  filter_numbers W "usdod.USDODFilterValue" 16 /\
  filter_numbers W "adi.ADIFilterValue" 64.
Proof. repeat apply conj; numbered. Qed.
Lemma coding_schemes :
  enum_members W "sgtin.SGTIN.BinaryCodingScheme" = map sgtin_member [SGTIN_96; SGTIN_198] /\
  enum_members W "sscc.SSCC.BinaryCodingScheme" = map sscc_member [SSCC_96] /\
  enum_members W "sgln.SGLN.BinaryCodingScheme" = map sgln_member [SGLN_96; SGLN_195] /\
  enum_members W "grai.GRAI.BinaryCodingScheme" = map grai_member [GRAI_96; GRAI_170] /\
  enum_members W "giai.GIAI.BinaryCodingScheme" = map giai_member [GIAI_96; GIAI_202] /\
  enum_members W "gsrn.GSRN.BinaryCodingScheme" = map gsrn_member [GSRN_96] /\
  enum_members W "gsrnp.GSRNP.BinaryCodingScheme" = map gsrnp_member [GSRNP_96] /\
  enum_members W "gdti.GDTI.BinaryCodingScheme" = map gdti_member [GDTI_96; GDTI_174] /\
  enum_members W "sgcn.SGCN.BinaryCodingScheme" = map sgcn_member [SGCN_96] /\
  enum_members W "itip.ITIP.BinaryCodingScheme" = map itip_member [ITIP_110; ITIP_212] /\
  enum_members W "gid.GID.BinaryCodingScheme" = map gid_member [GID_96] /\
  enum_members W "cpi.CPI.BinaryCodingScheme" = map cpi_member [CPI_96; CPI_VAR] /\
  enum_members W "usdod.USDOD.BinaryCodingScheme" = map usdod_member [USDOD_96] /\
  enum_members W "adi.ADI.BinaryCodingScheme" = map adi_member [ADI_VAR].
Proof. repeat split; vm_compute; reflexivity. Qed.
