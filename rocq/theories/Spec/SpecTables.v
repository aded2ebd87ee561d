(** What it means for a pair of partition tables (by prefix length, by partition value) to be sound. *)
From Verif.Model Require Import Py Common.
From Verif.Spec Require Import Spec.

Definition sound_table (by_length by_value : ptable) (width : nat -> nat) (ndigits : nat)
    (reference_fits : row -> Prop) : Prop :=
  (* every company prefix length has a row, found again from its partition value; the row is wide enough *)
  (forall L, (6 <= L <= 12)%nat -> exists r,
     lookup (Z.of_nat L) by_length = Some r /\ rL r = L /\
     lookup (rP r) by_value = Some r /\ (0 <= rP r <= 6)%Z /\
     (rM r + rN r = width L)%nat /\ (rL r + rK r = ndigits)%nat /\
     (forall cp, digits cp -> length cp = L -> decimal cp < 2 ^ N.of_nat (rM r)) /\
     reference_fits r) /\
  (* no other prefix length or partition value has one *)
  (forall k r, lookup k by_length = Some r -> k = Z.of_nat (rL r) /\ (6 <= rL r <= 12)%nat) /\
  (forall k r, lookup k by_value = Some r -> k = rP r /\ lookup (Z.of_nat (rL r)) by_length = Some r).

(** every number of K digits fits N bits *)
Definition numeric_reference_fits (r : row) : Prop :=
  forall ref, digits ref -> length ref = rK r -> decimal ref < 2 ^ N.of_nat (rN r).
(** K characters of [w] bits each, and [t] more bits, fit N bits *)
Definition text_reference_fits (w t : nat) (r : row) : Prop := (w * rK r + t <= rN r)%nat.
