(** What get_gs1_key is asked: the key of the object a text stands for. *)
From Coq Require Import String.
From Verif.Model Require Import Py Base Parsers.
From Verif.Spec Require Import Spec SpecEscapes SpecGrammar SpecSchemes SpecLayout SpecCoding.

(** the key of an object, if its class has one *)
Definition own_key (e : epc) (kind : option gtin_type) (r : res str) : Prop :=
  (In (class_of e) keyed_classes /\ r = epc_gs1_key e kind) \/
  (~ In (class_of e) keyed_classes /\ r = Raise ConvertException).
(** [r] is the key of the object [o] yields; what [o] raises is raised *)
Definition key_via (o : res epc) (kind : option gtin_type) (r : res str) : Prop :=
  match o with Ok e => own_key e kind r | Raise x => r = Raise x end.

(** the two hexadecimal digits a tag opens with, in upper case *)
Definition hex_header (k : coding) : str :=
  match k with
  | K_GDTI_96 => lit "2C" | K_GSRN_96 => lit "2D" | K_GSRNP_96 => lit "2E" | K_USDOD_96 => lit "2F"
  | K_SGTIN_96 => lit "30" | K_SSCC_96 => lit "31" | K_SGLN_96 => lit "32" | K_GRAI_96 => lit "33"
  | K_GIAI_96 => lit "34" | K_GID_96 => lit "35" | K_SGTIN_198 => lit "36" | K_GRAI_170 => lit "37"
  | K_GIAI_202 => lit "38" | K_SGLN_195 => lit "39" | K_ADI_VAR => lit "3B" | K_CPI_96 => lit "3C"
  | K_CPI_VAR => lit "3D" | K_GDTI_174 => lit "3E" | K_SGCN_96 => lit "3F" | K_ITIP_110 => lit "40"
  | K_ITIP_212 => lit "41"
  end.
(** [a] and [b] are the same hexadecimal digits but for the case of letters *)
Definition same_letters (a b : str) : Prop :=
  Forall2 (fun x y => x = y \/ (65 <= x <= 90 /\ y = x + 32) \/ (65 <= y <= 90 /\ x = y + 32)) a b.

(** an ID pattern of a class *)
Definition idpat_of (c : cls) (body : str) : str := lit "urn:epc:idpat:" ++ scheme_name c ++ lit ":" ++ body.
(** the GS1-keyed classes with ID patterns whose second component is a number *)
Definition keyed_by_reference : list cls := [C_SGTIN; C_SGLN; C_GRAI; C_GDTI; C_SGCN; C_SSCC; C_GSRN; C_GSRNP; C_GSIN; C_PGLN].
