(** The words of the claims about the source text itself. *)
From Coq Require Import String.
From Verif.Model Require Import Py PyFormat Syntax Machine Common.

(** what a call comes to, given what the model says and how the value is written *)
Definition result {A} (f : A -> value) (r : res A) : outcome :=
  match r with Ok x => Returned (f x) | Raise e => Raised (XExn e) end.

(** [n] is the length of a Python object; far more than the 2^63 that CPython allows *)
Definition fits (n : nat) : Prop := (Z.of_nat n < 2 ^ 100)%Z.

Notation vnat n := (VInt (Z.of_nat n)).

(** a dictionary with texts as keys *)
Definition dict_of {A} (g : A -> value) (d : list (str * A)) : list (value * value) := map (fun kv => (VStr (fst kv), g (snd kv))) d.

(** a dictionary that is a row of a partition table *)
Definition row_of (v : value) (r : row) : Prop := exists d, v = VDict d /\
  dict_get d (VStr (lit "P")) = Some (VInt (rP r)) /\
  dict_get d (VStr (lit "M")) = Some (vnat (rM r)) /\
  dict_get d (VStr (lit "L")) = Some (vnat (rL r)) /\
  dict_get d (VStr (lit "N")) = Some (vnat (rN r)) /\
  dict_get d (VStr (lit "K")) = Some (vnat (rK r)) /\
  (rM r <= 1000 /\ rL r <= 1000 /\ rN r <= 1000 /\ rK r <= 1000)%nat.
(** a dictionary that is a partition table *)
Definition table_of (d : list (value * value)) (t : ptable) : Prop :=
  Forall2 (fun kv kr => fst kv = VInt (fst kr) /\ row_of (snd kv) (snd kr)) d t.
