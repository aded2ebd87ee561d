(** Vocabulary for histories of actions on an object. *)
From Verif.Model Require Import Py Parsers Objects.

(** the text last assigned to epc_uri, if any *)
Fixpoint current_uri (u : str) (h : list action) : str :=
  match h with
  | [] => u
  | Set_epc_uri s :: h' => current_uri s h'
  | _ :: h' => current_uri u h'
  end.
(** the actions whose meaning is the public attribute *)
Definition looks_at_uri (a : action) : bool := match a with Get_epc_uri | Equals _ => true | _ => false end.
