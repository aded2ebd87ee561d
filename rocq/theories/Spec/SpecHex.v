(** Hexadecimal and base64 text. *)
From Coq Require Import String.
From Verif.Model Require Import Py.
From Verif.Spec Require Import Spec.

(** 0-9, A-F, a-f *)
Definition hex_text (h : str) : Prop := forall c, In c h -> 48 <= c <= 57 \/ 65 <= c <= 70 \/ 97 <= c <= 102.
Definition upper_case (h : str) : Prop := forall c, In c h -> c < 97.
Definition hex_value (c : N) : N := if c <=? 57 then c - 48 else if c <=? 70 then c - 55 else c - 87.
(** four bits for each digit, the most significant one first *)
Definition four_bits (v : N) : str := [48 + v / 8; 48 + v / 4 mod 2; 48 + v / 2 mod 2; 48 + v mod 2].
Definition hex_bits (h : str) : str := flat_map (fun c => four_bits (hex_value c)) h.

(** the digits of base64 (RFC 4648, section 4), six bits each *)
Definition base64_alphabet : str := lit "ABCDEFGHIJKLMNOPQRSTUVWXYZabcdefghijklmnopqrstuvwxyz0123456789+/".
Definition six_bits (v : N) : str :=
  [48 + v / 32; 48 + v / 16 mod 2; 48 + v / 8 mod 2; 48 + v / 4 mod 2; 48 + v / 2 mod 2; 48 + v mod 2].
(** base64 text of the bits [b] (a whole number of bytes): digits for the bits, filled up with zeros to
    whole digits, and '=' filling up to a multiple of four characters *)
Definition base64_of (b s : str) : Prop :=
  exists vs zeros eqs, Forall (fun v => v < 64) vs /\ (zeros < 6)%nat /\ (eqs < 3)%nat /\
    s = map (fun v => nth (N.to_nat v) base64_alphabet 0) vs ++ repeat 61 eqs /\
    flat_map six_bits vs = b ++ repeat 48 zeros /\ Nat.modulo (length s) 4 = 0%nat.
