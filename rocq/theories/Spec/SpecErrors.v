(** Which exceptions may leave a call. *)
From Coq Require Import String.
From Verif.Model Require Import Py.
From Verif.Spec Require Import Spec SpecEscapes SpecGrammar.

(** the exception users are told to catch, what the escape check raises over some component within [t], or what int()
    raises over a number within [t] of more than 4300 digits *)
Definition refused_text (t : str) (e : exn) : Prop :=
  e = ConvertException \/
  ((e = ValueError \/ e = OverflowError) /\ exists p s r, t = p ++ s ++ r /\ malformed_component s) \/
  (e = ValueError /\ exists p s r, t = p ++ s ++ r /\ long_number s).
Definition refused (e : exn) : Prop := e = ConvertException \/ e = ValueError \/ e = OverflowError.

(** white space: ASCII, and the characters Unicode calls space *)
Definition blank (c : N) : Prop :=
  9 <= c <= 13 \/ 0x2000 <= c <= 0x200a \/ In c [0x20; 0x85; 0xa0; 0x1680; 0x2028; 0x2029; 0x202f; 0x205f; 0x3000].
(** what may stand in a hexadecimal number: digits of base 16 and of any script, blanks around it, a sign, 0x and
    underscores *)
Definition number_character (c : N) : Prop :=
  (48 <= c <= 57 \/ 65 <= c <= 70 \/ 97 <= c <= 102) \/ udigit c <> None \/ blank c \/ In c (lit "+-_xX").
