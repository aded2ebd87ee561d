(** Check digits: C01, C02, C03. *)
From Coq Require Import String.
From Verif.Model Require Import Py Common Others.
From Verif.Spec Require Import Spec.
From Verif.Proofs Require Import Checksum.

(** C01.  The digit computed for any digit string completes it to a number that obeys the mod-10
    law, and no other digit does. *)
Theorem C01_check_digit_law : forall s, digits s ->
  exists d, d < 10 /\ calculate_checksum s = Ok (Z.of_N d) /\ mod10_law (digit_values s ++ [d]) /\
    forall d', d' < 10 -> mod10_law (digit_values s ++ [d']) -> d' = d.
Proof. exact check_digit_law. Qed.
Print Assumptions C01_check_digit_law.
Example C01_case : calculate_checksum (lit "061414112345") = Ok 2%Z /\ mod10_law [0;6;1;4;1;4;1;1;2;3;4;5;2].
Proof. split; reflexivity. Qed.

(** C02.  Any single wrong digit is noticed. *)
Theorem C02_single_digit_error_detected : forall s z i d, digits s -> calculate_checksum s = Ok z ->
  (i < length s + 1)%nat -> d < 10 -> d <> nth i (digit_values s ++ [Z.to_N z]) 0 ->
  ~ mod10_law (set_nth i d (digit_values s ++ [Z.to_N z])).
Proof. exact single_digit_error. Qed.
Print Assumptions C02_single_digit_error_detected.
Example C02_case : set_nth 3 7 [0;6;1;4;1;4;1;1;2;3;4;5;2] = [0;6;1;7;1;4;1;1;2;3;4;5;2] /\
  7 <> nth 3 (digit_values (lit "061414112345") ++ [2]) 0.
Proof. split; [reflexivity|discriminate]. Qed.

(** C02.  An exchange of neighbours goes unnoticed exactly when they differ by 0 or 5. *)
Theorem C02_transposition_detected_iff : forall s z i (full := digit_values s ++ [Z.to_N z]),
  digits s -> calculate_checksum s = Ok z -> (S i < length s + 1)%nat ->
  (mod10_law (swap_at i full) <->
   (nth i full 0 = nth (S i) full 0 \/ nth i full 0 = nth (S i) full 0 + 5 \/ nth i full 0 + 5 = nth (S i) full 0)).
Proof. exact adjacent_transposition. Qed.
Print Assumptions C02_transposition_detected_iff.
Example C02_case_noticed : ~ mod10_law (swap_at 3 [0;6;1;4;1;4;1;1;2;3;4;5;2]).
Proof. intro H. discriminate H. Qed.
Example C02_case_unnoticed : exists z, calculate_checksum (lit "0614") = Ok z /\ mod10_law (swap_at 1 (digit_values (lit "0614") ++ [Z.to_N z])).
Proof. eexists. split; reflexivity. Qed.

(** C03.  GSIN's own checksum is the standard one on numbers of even length (a GSIN has 16 digits). *)
Theorem C03_gsin_checksum : forall s, digits s -> Nat.even (length s) = true ->
  gsin_calculate_checksum s = calculate_checksum s.
Proof. exact gsin_law. Qed.
Print Assumptions C03_gsin_checksum.
Example C03_case : gsin_calculate_checksum (lit "0614141123456789") = Ok 0%Z /\ calculate_checksum (lit "0614141123456789") = Ok 0%Z.
Proof. split; reflexivity. Qed.
(** The restriction to even length matters. *)
Theorem C03_gsin_checksum_odd_length_refuted : exists s, digits s /\ gsin_calculate_checksum s <> calculate_checksum s.
Proof. exact gsin_odd. Qed.
Print Assumptions C03_gsin_checksum_odd_length_refuted.
