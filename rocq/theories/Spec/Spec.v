(** Vocabulary of the property statements.  It is written from the GS1 rules and the Python
    language reference, not from the code: it uses strings, exceptions-as-values, [lit] and the
    Unicode notion of a decimal digit from [Model.Py], and nothing of the modelled program. *)
From Coq Require Import String.
From Verif.Model Require Import Py.

(** * Digits *)

(** value of a decimal digit character (0 for anything else) *)
Definition digit_value (c : N) : N := match udigit c with Some d => d | None => 0 end.
Definition digit_values (s : str) : list N := map digit_value s.
(** every character is a decimal digit, of any script *)
Definition digits (s : str) : Prop := forall c, In c s -> udigit c <> None.
(** every character is an ASCII digit *)
Definition ascii_digits (s : str) : Prop := forall c, In c s -> 48 <= c <= 57.
Definition ascii (s : str) : Prop := forall c, In c s -> c < 128.
(** every character is 0 or 1 *)
Definition bitstring (s : str) : Prop := forall c, In c s -> c = 48 \/ c = 49.

(** the number a digit string spells, most significant digit first *)
Fixpoint number_acc (b acc : N) (l : list N) : N :=
  match l with [] => acc | d :: l' => number_acc b (acc * b + d) l' end.
Definition number (b : N) (l : list N) : N := number_acc b 0 l.
Definition decimal (s : str) : N := number 10 (digit_values s).
Definition binary_number (s : str) : N := number 2 (digit_values s).

(** * The GS1 mod-10 law *)

(** digits weighted 1,3,1,3,... (or 3,1,3,1,...) from the left of the list given *)
Fixpoint weighted (three : bool) (l : list N) : N :=
  match l with
  | [] => 0
  | d :: l' => (if three then 3 * d else d) + weighted (negb three) l'
  end.
(** a complete number obeys the law when its digits, weighted 1,3,1,3,... from the right,
    sum to a multiple of ten *)
Definition mod10_law (number : list N) : Prop := weighted false (rev number) mod 10 = 0.

(** replace the digit at one position; exchange the digits at positions i and i+1 *)
Fixpoint set_nth (i : nat) (d : N) (l : list N) : list N :=
  match l, i with
  | [], _ => []
  | _ :: l', O => d :: l'
  | x :: l', S i' => x :: set_nth i' d l'
  end.
Fixpoint swap_at (i : nat) (l : list N) : list N :=
  match l, i with
  | x :: y :: l', O => y :: x :: l'
  | x :: l', S i' => x :: swap_at i' l'
  | _, _ => l
  end.

(** * GS1 AI encodable character set 82 and its URI escapes *)

Definition ai82 : str :=
  lit "!%&'()*+,-./0123456789:;<=>?ABCDEFGHIJKLMNOPQRSTUVWXYZ_abcdefghijklmnopqrstuvwxyz" ++ [34].
Definition ai82_text (s : str) : Prop := forall c, In c s -> In c ai82.

(** the seven characters that a URI writes as a percent escape *)
Definition escape_char (c : N) : str :=
  match c with
  | 34 => lit "%22"
  | 37 => lit "%25"
  | 38 => lit "%26"
  | 47 => lit "%2F"
  | 60 => lit "%3C"
  | 62 => lit "%3E"
  | 63 => lit "%3F"
  | _ => [c]
  end.
Definition reserved (c : N) : Prop := In c [34; 37; 38; 47; 60; 62; 63].
(** the canonical URI spelling of a text *)
Definition escape (t : str) : str := flat_map escape_char t.
(** a component that is the canonical spelling of some non-empty AI-82 text *)
Definition canonical_serial (s : str) : Prop := exists t, t <> [] /\ ai82_text t /\ s = escape t.

(** * Outcomes *)

(** [r] returned, or raised ConvertException *)
Definition ok_or_convert {A} (r : res A) : Prop := (exists x, r = Ok x) \/ r = Raise ConvertException.

(** * Six-bit text and CAGE codes *)

(** A-Z, 0-9, - # / *)
Definition six_bit_text (t : str) : Prop :=
  forall c, In c t -> 65 <= c <= 90 \/ 48 <= c <= 57 \/ c = 45 \/ c = 35 \/ c = 47.
(** in a URI, # and / are written as escapes *)
Definition escape6 (t : str) : str :=
  flat_map (fun c => if c =? 35 then lit "%23" else if c =? 47 then lit "%2F" else [c]) t.
(** the six-bit code of a character: its low six bits *)
Definition code_six (c : N) : N := c mod 64.
(** five or six capital letters and digits, without I and O *)
Definition cage_text (s : str) : Prop :=
  (5 <= length s <= 6)%nat /\ forall c, In c s -> (48 <= c <= 57 \/ 65 <= c <= 90) /\ c <> 73 /\ c <> 79.
