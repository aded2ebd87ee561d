(** GTIN-8, GTIN-12 and GTIN-13 as GTIN-14 with leading zeros: GS1 General Specifications, section 3.3.2. *)
From Coq Require Import String.
From Verif.Model Require Import Py Base.
From Verif.Spec Require Import Spec SpecGrammar.

(** [v], with the number of digits of the kind [t], stands for the fourteen-digit [g] *)
Definition gtin_of_kind (t : gtin_type) (v g : str) : Prop :=
  match t with
  | GTIN8 => length v = 8%nat /\ g = lit "000000" ++ v
  | GTIN12 => length v = 12%nat /\ g = lit "00" ++ v
  | GTIN13 => length v = 13%nat /\ g = lit "0" ++ v
  | GTIN14 => length v = 14%nat /\ g = v
  end.
(** [full] is the digits [g] with leading zeros up to fourteen and the last digit replaced by the check digit *)
Definition gtin_rechecked (g full : str) : Prop :=
  exists zeros body k, zeros ++ g = body ++ [k] /\ (forall c, In c zeros -> c = 48) /\ length body = 13%nat /\ completed body full.

(** what an integer [k] given as the GTIN type selects of the fourteen-digit [g]: the digits after 14 - [k] zeros; beyond
    14 the last [k] - 14 digits, whatever they are; beyond 28 all of [g] *)
Definition gtin_for_integer (k : Z) (v g : str) : Prop :=
  (0 <= k <= 14 /\ Z.of_nat (length v) = k /\ exists zeros, g = zeros ++ v /\ forall c, In c zeros -> c = 48%N)%Z \/
  (14 < k <= 28 /\ Z.of_nat (length v) = k - 14 /\ exists front, g = front ++ v)%Z \/
  (28 < k /\ v = g)%Z.
