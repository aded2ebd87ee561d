(** Runs of the source alone: what a caller of the scheme classes sees. *)
From Coq Require Import String.
From Verif.Model Require Import Py PyFormat Syntax Machine.
From Verif.Source Require Import Program World.
From Verif.Spec Require Export SpecRuns.
From Verif.Spec Require Import SpecErrors.
Open Scope list_scope.

(** the scheme classes; those with tags; those with a GS1 element string; those with a GS1 key *)
Definition tag_names : list string :=
  ["sgtin.SGTIN"; "sscc.SSCC"; "sgln.SGLN"; "grai.GRAI"; "giai.GIAI"; "gsrn.GSRN"; "gsrnp.GSRNP"; "gdti.GDTI"; "cpi.CPI"; "sgcn.SGCN";
   "itip.ITIP"; "gid.GID"; "usdod.USDOD"; "adi.ADI"]%string.
Definition element_names : list string :=
  ["cpi.CPI"; "gdti.GDTI"; "giai.GIAI"; "ginc.GINC"; "grai.GRAI"; "gsin.GSIN"; "gsrn.GSRN"; "gsrnp.GSRNP"; "itip.ITIP"; "lgtin.LGTIN";
   "pgln.PGLN"; "sgcn.SGCN"; "sgln.SGLN"; "sgtin.SGTIN"; "sscc.SSCC"; "upui.UPUI"]%string.
Definition keyed_names : list string :=
  ["gdti.GDTI"; "giai.GIAI"; "ginc.GINC"; "grai.GRAI"; "gsin.GSIN"; "gsrn.GSRN"; "gsrnp.GSRNP"; "lgtin.LGTIN"; "pgln.PGLN"; "sgcn.SGCN";
   "sgln.SGLN"; "sgtin.SGTIN"; "sscc.SSCC"]%string.
Definition scheme_names : list string :=
  tag_names ++ ["ginc.GINC"; "gsin.GSIN"; "lgtin.LGTIN"; "pgln.PGLN"; "upui.UPUI"; "bic.BIC"; "imovn.IMOVN"]%string.

(** [c(u)] returns [v]; [c.m(s)] returns [v]; [c.from_gs1_element_string(g, n)] returns [v] *)
Definition constructs (c : string) (u : str) (v : value) : Prop := calls W (VClass c) [VStr u] [] (Returned v).
Definition class_reads (c m : string) (s : str) (v : value) : Prop := invokes W (VClass c) m [VStr s] [] (Returned v).
Definition class_reads_element (c : string) (g : str) (n : Z) (v : value) : Prop :=
  invokes W (VClass c) "from_gs1_element_string" [VStr g; VInt n] [] (Returned v).

(** the method call ends: with a value that [good] allows or an exception that [bad] allows *)
Definition method_ends (v : value) (m : string) (args : list value) (kws : list (string * value)) (good : value -> Prop) (bad : exn -> Prop) : Prop :=
  exists r, invokes W v m args kws r /\ match r with Returned v => good v | Raised (XExn x) => bad x | Raised _ => False end.
(** an object of the class [c]: its own URI gives it back *)
Definition object_of (c : string) (v : value) : Prop := instance v c /\ is_object v.

(** the way the class reads: the name of its method, that of the parser for all classes, and how long the text may be *)
Inductive reader : string -> string -> (str -> Prop) -> Prop :=
| by_tag_uri : reader "from_tag_uri" "tag_uri_to_tag_encodable" (fun _ => True)
| by_binary : reader "from_binary" "binary_to_tag_encodable" (fun _ => True)
| by_hex : reader "from_hex" "hex_to_tag_encodable" (fun s => fits (length s * 4))
| by_base64 : reader "from_base64" "base64_to_tag_encodable" (fun s => fits (length s * 8)).
