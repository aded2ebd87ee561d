(** Texts that are taken for hexadecimal or base64 although nothing of this library would write them that way. *)
From Coq Require Import String.
From Verif.Model Require Import Py.
From Verif.Spec Require Import Spec SpecHex.

(** [s] writes the hexadecimal digits [h], with 0-9 taken from any script *)
Definition writes_digits (s h : str) : Prop :=
  hex_text h /\ Forall2 (fun c d => c = d \/ (48 <= d <= 57 /\ udigit c = Some (d - 48))) s h.

(** the position of a character in a text *)
Fixpoint position (c : N) (l : str) : option N :=
  match l with [] => None | x :: l' => if c =? x then Some 0 else option_map N.succ (position c l') end.
(** the values of the base64 digits in a text; other characters do not count *)
Definition sextets (s : str) : list N :=
  flat_map (fun c => match position c base64_alphabet with Some v => [v] | None => [] end) s.
(** a group of four is closed by '=' after three digits, and by two '=' after two, without a digit between them *)
Definition closed (p : str) : Prop :=
  (exists a, p = a ++ lit "=" /\ Nat.modulo (length (sextets a)) 4 = 3%nat) \/
  (exists a j, p = a ++ lit "=" ++ j ++ lit "=" /\ Nat.modulo (length (sextets a)) 4 = 2%nat /\ sextets j = []).
(** the part of [s] up to where its first group is closed, or all of it *)
Definition read_part (s p : str) : Prop :=
  exists q, s = p ++ q /\ (forall p' q', p = p' ++ q' -> q' <> [] -> ~ closed p') /\ (closed p \/ q = [] /\ ~ closed p).
(** as many whole bytes as there are *)
Definition whole_bytes (b : str) : str := firstn (8 * Nat.div (length b) 8) b.

(** pairs of hexadecimal digits with blanks between the pairs; [h] is [s] without the blanks *)
Inductive spaced_pairs : str -> str -> Prop :=
| pairs_end : spaced_pairs [] []
| pairs_blank c s h : 9 <= c <= 13 \/ c = 32 -> spaced_pairs s h -> spaced_pairs (c :: s) h
| pairs_pair c d s h : hex_text [c; d] -> spaced_pairs s h -> spaced_pairs (c :: d :: s) (c :: d :: h).
