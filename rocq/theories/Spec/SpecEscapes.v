(** What the escape check on URI components ought to accept, written without the program. *)
From Coq Require Import String.
From Verif.Model Require Import Py.
From Verif.Spec Require Import Spec.

(** [%dd] with two ASCII digits somewhere in the text *)
Definition digit_escape_in (p : str) : Prop :=
  exists a d1 d2 b, p = a ++ 37 :: d1 :: d2 :: b /\ 48 <= d1 <= 57 /\ 48 <= d2 <= 57.
(** the text ends here or continues with [%dd] *)
Definition ends_or_digit_escape (s : str) : Prop :=
  s = [] \/ exists d1 d2 s', s = 37 :: d1 :: d2 :: s' /\ 48 <= d1 <= 57 /\ 48 <= d2 <= 57.

(** A component passes when, cut at every [%dd]: each [%dd] is the code of an AI-82 character, and each
    piece between them either does not open with [%], or is a [%] followed by a hexadecimal number (as
    Python's [int(., 16)] reads it) that is the code of an AI-82 character. *)
Inductive escapes_ok : str -> Prop :=
| escapes_ok_end : escapes_ok []
| escapes_ok_digits d1 d2 s :
    48 <= d1 <= 57 -> 48 <= d2 <= 57 -> In (16 * (d1 - 48) + (d2 - 48)) ai82 ->
    escapes_ok s -> escapes_ok (37 :: d1 :: d2 :: s)
| escapes_ok_plain c p s :
    c <> 37 -> ~ digit_escape_in (c :: p) -> ends_or_digit_escape s ->
    escapes_ok s -> escapes_ok ((c :: p) ++ s)
| escapes_ok_hex p v s :
    ~ digit_escape_in (37 :: p) -> ends_or_digit_escape s ->
    py_int 16 p = Some (Z.of_N v) -> In v ai82 ->
    escapes_ok s -> escapes_ok ((37 :: p) ++ s).

(** reserved characters whose escape is written with a letter (2F 3C 3E 3F), and with digits (22 25 26) *)
Definition letter_escaped (c : N) : Prop := In c [47; 60; 62; 63].
Definition digit_escaped (c : N) : Prop := In c [34; 37; 38].

(** the text has a letter-escaped character that opens the text or follows a digit-escaped one, and is
    followed by a character that is not digit-escaped *)
Definition misread (t : str) : Prop :=
  exists a c e b, t = a ++ c :: e :: b /\ letter_escaped c /\ ~ digit_escaped e /\
    (a = [] \/ exists a' d, a = a' ++ [d] /\ digit_escaped d).
