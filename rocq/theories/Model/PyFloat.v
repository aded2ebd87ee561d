(** The one place where epcpy computes with floats: [int(n * log(2) / log(10))].
    CPython's float is the IEEE 754 double, round to nearest even; [*] and [/] are those of Coq's specification of
    floating-point arithmetic.  [log(2)] and [log(10)] are the doubles nearest to the logarithms, as the C library
    computes them: 0x1.62e42fefa39efp-1 and 0x1.26bb1bbb55516p+1. *)
From Coq Require Import ZArith SpecFloat.

Definition log_2 : spec_float := S754_finite false 0x162e42fefa39ef (-53).
Definition log_10 : spec_float := S754_finite false 0x126bb1bbb55516 (-51).
(** an int operand is converted to a float *)
Definition float_of_nat (n : nat) : spec_float := binary_normalize 53 1024 (Z.of_nat n) 0 false.
(** [int(f)] truncates; an infinity or NaN does not arise here and is mapped to 0 *)
Definition int_of_float (f : spec_float) : Z :=
  match f with
  | S754_finite s m e =>
      let v := match e with Z0 => Zpos m | Zpos p => Zpos m * 2 ^ Zpos p | Zneg p => Zpos m / 2 ^ Zpos p end%Z in
      if s then (- v)%Z else v
  | _ => 0%Z
  end.
(** common.py:418 and 436 *)
Definition int_n_log2_log10 (n : nat) : Z :=
  int_of_float (SFdiv 53 1024 (SFmul 53 1024 (float_of_nat n) log_2) log_10).
