(** Field codecs: C37. *)
From Coq Require Import String.
From Verif.Model Require Import Py Common.
From Verif.Spec Require Import Spec.
From Verif.Proofs Require Import CodecSpec.

(** C37.  Seven-bit text: every ASCII text without NUL, written with canonical escapes, is encoded character
    by character, seven bits each, zero-padded on the right to any width, and decoded back. *)
Theorem C37_seven_bit_string : forall t n, ascii t -> ~ In 0 t ->
  exists b, encode_string (escape t) n = Ok b /\ bitstring b /\ length b = Nat.max n (7 * length t) /\
    (forall i c, nth_error t i = Some c -> binary_number (sl (7 * i) (7 * i + 7) b) = c) /\
    decode_string b = Ok (escape t).
Proof. exact seven_bit. Qed.
Print Assumptions C37_seven_bit_string.
Example C37_case_seven_bit : ascii (lit "a/1%") /\ ~ In 0 (lit "a/1%") /\
  encode_string (lit "a%2F1%25") 35 = Ok (lit "11000010101111011000101001010000000") /\
  decode_string (lit "11000010101111011000101001010000000") = Ok (lit "a%2F1%25").
Proof. split; [intros c H; cbn in H; intuition; subst; reflexivity|]. split; [cbn; intuition discriminate|]. split; reflexivity. Qed.

(** C37.  Six-bit text: each character by its low six bits, closed by six zeros; whatever bits follow, it is
    decoded back when it has no more than the allowed number of characters. *)
Theorem C37_six_bit_string : forall t rest k, six_bit_text t -> bitstring rest -> (length t <= k)%nat ->
  exists b, encode_string_six_bits (escape6 t) = Ok (b ++ lit "000000") /\ bitstring b /\
    length b = (6 * length t)%nat /\
    (forall i c, nth_error t i = Some c -> binary_number (sl (6 * i) (6 * i + 6) b) = code_six c) /\
    decode_string_six_bits (b ++ lit "000000" ++ rest) k = Ok (escape6 t).
Proof. exact six_bit. Qed.
Print Assumptions C37_six_bit_string.
Example C37_case_six_bit : encode_string_six_bits (lit "AB-%231") = Ok (lit "000001000010101101100011110001000000") /\
  decode_string_six_bits (lit "00000100001010110110001111000100000011") 5 = Ok (lit "AB-%231").
Proof. split; reflexivity. Qed.

(** C37.  CAGE codes in eight-bit characters, space-padded on the left to six characters. *)
Theorem C37_cage_code : forall s, cage_text s ->
  exists b, encode_cage_code (repeat 32 (6 - length s) ++ s) = b /\ bitstring b /\ length b = 48%nat /\
    decode_cage_code b = Ok s.
Proof. exact cage8. Qed.
Print Assumptions C37_cage_code.
Example C37_case_cage : cage_text (lit "2S194") /\
  encode_cage_code (lit " 2S194") = lit "001000000011001001010011001100010011100100110100".
Proof.
  split; [|reflexivity]. split; [cbn; auto with arith|]. intros c H. cbn in H.
  intuition (subst; (discriminate || (left; split; discriminate) || (right; split; discriminate))).
Qed.

(** C37.  CAGE codes in six-bit characters; five-character ones get a leading blank. *)
Theorem C37_cage_code_six_bits : forall s, cage_text s ->
  exists b, encode_cage_code_six_bits s = Ok b /\ bitstring b /\ length b = 36%nat /\
    decode_cage_code_six_bits b = Ok s.
Proof. exact cage6_codec. Qed.
Print Assumptions C37_cage_code_six_bits.
Example C37_case_cage_six : encode_cage_code_six_bits (lit "2S194") = Ok (lit "100000110010010011110001111001110100").
Proof. reflexivity. Qed.

(** C37.  Numeric strings keep their leading zeros: accepted exactly when twice ten to the number of digits
    fits the field, encoded as the number with a 1 in front, and decoded back. *)
Theorem C37_numeric_string : forall s n, s <> [] -> ascii_digits s -> N.of_nat (length s) < 4300 ->
  (2 * 10 ^ N.of_nat (length s) < 2 ^ N.of_nat n ->
     exists b, encode_numeric_string s n = Ok b /\ bitstring b /\ length b = n /\
     binary_number b = 10 ^ N.of_nat (length s) + decimal s /\ decode_numeric_string b = Ok s) /\
  (2 ^ N.of_nat n <= 2 * 10 ^ N.of_nat (length s) -> encode_numeric_string s n = Raise ConvertException).
Proof. exact numeric_string. Qed.
Print Assumptions C37_numeric_string.
Example C37_case_numeric : encode_numeric_string (lit "007") 12 = Ok (lit "001111101111") /\
  decode_numeric_string (lit "001111101111") = Ok (lit "007") /\
  encode_numeric_string (lit "007") 10 = Raise ConvertException.
Proof. repeat split. Qed.

(** C37.  Fixed-width integers: with D the greatest number of digits that always fits n bits, digit strings below
    99...9 (D nines) are encoded, the others refused; a string of D digits is decoded back. *)
Theorem C37_fixed_width_integer : forall s n D, (1 <= n <= 4300)%nat -> ascii_digits s -> s <> [] -> N.of_nat (length s) <= 4300 ->
  10 ^ N.of_nat D <= 2 ^ N.of_nat n < 10 ^ N.of_nat (S D) ->
  (decimal s + 1 < 10 ^ N.of_nat D ->
     exists b, encode_fixed_width_integer s n = Ok b /\ bitstring b /\ length b = n /\ binary_number b = decimal s /\
     (length s = D -> decode_fixed_width_integer b = Ok s)) /\
  (10 ^ N.of_nat D <= decimal s + 1 -> encode_fixed_width_integer s n = Raise ConvertException).
Proof. exact fixed_width_D. Qed.
Print Assumptions C37_fixed_width_integer.
Example C37_case_fixed : 10 ^ N.of_nat 2 <= 2 ^ N.of_nat 7 < 10 ^ N.of_nat 3 /\
  encode_fixed_width_integer (lit "07") 7 = Ok (lit "0000111") /\ decode_fixed_width_integer (lit "0000111") = Ok (lit "07") /\
  encode_fixed_width_integer (lit "99") 7 = Raise ConvertException.
Proof. repeat split; vm_compute; congruence. Qed.

(** C37.  Integers zero-padded to n bits and back to their number of digits. *)
Theorem C37_padded_integer : forall s n, s <> [] -> ascii_digits s -> N.of_nat (length s) <= 4300 -> (1 <= n)%nat -> decimal s < 2 ^ N.of_nat n ->
  exists b z, str_to_binary s n = Ok b /\ bitstring b /\ length b = n /\ binary_number b = decimal s /\
    binary_to_int b = Ok z /\ padl c_0 (length s) (dec z) = s.
Proof. exact padded_integer. Qed.
Print Assumptions C37_padded_integer.
Example C37_case_padded : str_to_binary (lit "012") 6 = Ok (lit "001100") /\ padl c_0 3 (dec 12) = lit "012".
Proof. split; reflexivity. Qed.
