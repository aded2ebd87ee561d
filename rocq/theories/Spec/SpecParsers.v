(** The classes and objects of epcpy as values of the machine. *)
From Coq Require Import String.
From Verif.Model Require Import Py PyFormat Syntax Machine Common Base Parsers.
From Verif.Spec Require Export SpecMethods.

Definition class_value (c : cls) : value := VClass
  match c with
  | C_SGTIN => "sgtin.SGTIN"
  | C_SSCC => "sscc.SSCC"
  | C_SGLN => "sgln.SGLN"
  | C_GRAI => "grai.GRAI"
  | C_GIAI => "giai.GIAI"
  | C_GSRN => "gsrn.GSRN"
  | C_GSRNP => "gsrnp.GSRNP"
  | C_GDTI => "gdti.GDTI"
  | C_SGCN => "sgcn.SGCN"
  | C_ITIP => "itip.ITIP"
  | C_GID => "gid.GID"
  | C_CPI => "cpi.CPI"
  | C_USDOD => "usdod.USDOD"
  | C_ADI => "adi.ADI"
  | C_LGTIN => "lgtin.LGTIN"
  | C_GSIN => "gsin.GSIN"
  | C_GINC => "ginc.GINC"
  | C_PGLN => "pgln.PGLN"
  | C_UPUI => "upui.UPUI"
  | C_BIC => "bic.BIC"
  | C_IMOVN => "imovn.IMOVN"
  end.
Definition obj_of (e : epc) : value :=
  match e with
  | E_SGTIN x => sgtin_obj x
  | E_SSCC x => sscc_obj x
  | E_SGLN x => sgln_obj x
  | E_GRAI x => grai_obj x
  | E_GIAI x => giai_obj x
  | E_GSRN x => gsrn_obj x
  | E_GSRNP x => gsrnp_obj x
  | E_GDTI x => gdti_obj x
  | E_SGCN x => sgcn_obj x
  | E_ITIP x => itip_obj x
  | E_GID x => gid_obj x
  | E_CPI x => cpi_obj x
  | E_USDOD x => usdod_obj x
  | E_ADI x => adi_obj x
  | E_LGTIN x => lgtin_obj x
  | E_GSIN x => gsin_obj x
  | E_GINC x => ginc_obj x
  | E_PGLN x => pgln_obj x
  | E_UPUI x => upui_obj x
  | E_BIC x => bic_obj x
  | E_IMOVN x => imovn_obj x
  end.
(** the keywords that reach [gs1_key]: none, or a member of GTIN_TYPE *)
Definition key_kwargs (t : option gtin_type) (kws : list (string * value)) : Prop :=
  match t with
  | None => kws = []
  | Some t => exists c, gtin_class c /\ kws = [("gtin_type"%string, gtin_member c t)]
  end.
(** the ways to give [get_gs1_key] a source and a company prefix length, if there is one *)
Definition opt_int (n : option Z) : value := match n with Some n => VInt n | None => VNone end.
Definition key_args (s : str) (n : option Z) (args : list value) (kws : list (string * value)) : Prop :=
  passed2 "source" "company_prefix_length" (VStr s) (opt_int n) args kws \/ (passed1 "source" (VStr s) args kws /\ n = None).
(** what a name of a module stands for *)
Definition global (W : world) (m x : string) (v : value) : Prop :=
  match assoc m (w_ns W) with Some ns => assoc x ns | None => None end = Some v.
