(** Runs of the source alone: arguments of other types than the declared ones. *)
From Coq Require Import String.
From Verif.Model Require Import Py PyFormat Syntax Machine.
From Verif.Source Require Import Program World.
From Verif.Spec Require Export SpecCallers.
Open Scope list_scope.

(** None, truth values, numbers, bytes, members of enumerations and objects of the scheme classes: the values besides texts that the claims about [split],
    headers and hexadecimal texts are about *)
Definition plain (v : value) : Prop :=
  match v with
  | VNone | VBool _ | VInt _ | VFloat _ | VBytes _ | VEnum _ _ _ => True
  | VObj c _ => In c scheme_names
  | _ => False
  end.
Definition is_bytes (v : value) : Prop := exists b, v = VBytes b.

Definition type_error : outcome := Raised (XExn TypeError).
Definition attribute_error : outcome := Raised (XOther "AttributeError").

(** the parsers that split their text first; the keyword is that of [epc_pure_identity_to_gs1_key] *)
Definition splitting : list string :=
  ["epc_pure_identity_to_scheme"; "epc_pure_identity_to_gs1_element"; "epc_pure_identity_to_gs1_element_string";
   "epc_pure_identity_to_gs1_keyed"; "epc_pure_identity_to_gs1_key"; "epc_pure_identity_to_tag_encodable"; "tag_uri_to_tag_encodable"]%string.

(** values that are whole numbers: int, bool and members of IntEnum *)
Inductive number : value -> Z -> Prop :=
| N_int z : number (VInt z) z
| N_bool b : number (VBool b) (if b then 1 else 0)
| N_enum c n z : number (VEnum c n (VInt z)) z.
(** values that are no length of a company prefix *)
Definition no_length (v : value) : Prop :=
  match v with VNone | VFloat _ | VStr _ | VBytes _ | VEnum _ _ (VStr _) | VObj _ _ => True | _ => False end.
(** values without [name] and [value]: no members of an enumeration *)
Definition no_member (v : value) : Prop :=
  match v with VNone | VBool _ | VInt _ | VFloat _ | VStr _ | VBytes _ => True | _ => False end.
(** keywords for the methods that write tags, in either order; GID has no filter values *)
Definition tag_words (c : string) (s f : value) (kws : list (string * value)) : Prop :=
  if String.eqb c "gid.GID" then kws = [("binary_coding_scheme"%string, s)]
  else kws = [("binary_coding_scheme"%string, s); ("filter_value"%string, f)] \/ kws = [("filter_value"%string, f); ("binary_coding_scheme"%string, s)].
Definition writers : list string := ["tag_uri"; "binary"; "hex"; "base64"]%string.
