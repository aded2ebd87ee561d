(** Which exceptions decoding raises: C23 and C26. *)
From Coq Require Import String.
From Verif.Model Require Import Py Common Base.
From Verif.Model Require Import Adi Cpi Gdti Giai Gid Grai Gsrn Gsrnp Itip Lgtin Sgcn Sgln Sgtin Sscc Usdod Others Parsers.
From Verif.Spec Require Import Spec SpecEscapes SpecGrammar SpecSchemes SpecTags SpecLayout SpecCoding.
From Verif.Proofs Require Import DecodeA DecodeB DecodeC.

Theorem C23_decode_exceptions : forall b e, 
  bitstring b -> binary_to_tag_encodable b = Raise e ->
  e = ConvertException \/
  (exists k, firstn 8 b = tag_header k /\ seven_bit k = true /\ (e = ValueError \/ e = OverflowError)) \/
  (firstn 8 b = tag_header K_CPI_VAR /\ e = ValueError /\ (length b < 15)%nat).
Proof. exact parser_exn. Qed.
Print Assumptions C23_decode_exceptions.
(** the exceptions other than ConvertException do occur, for every seven-bit coding scheme *)
Theorem C23_seven_bit_other_exceptions : forall k, 
  seven_bit k = true -> exists b b' n, tag_size k = Some n /\
  bitstring b /\ length b = n /\ firstn 8 b = tag_header k /\ binary_to_tag_encodable b = Raise ValueError /\
  bitstring b' /\ length b' = n /\ firstn 8 b' = tag_header k /\ binary_to_tag_encodable b' = Raise OverflowError.
Proof. exact seven_bit_exn. Qed.
Print Assumptions C23_seven_bit_other_exceptions.
Theorem C23_cpi_var_truncated : forall b, 
  firstn 8 b = tag_header K_CPI_VAR -> bitstring b -> (length b < 15)%nat ->
  skipn 11 b <> lit "111" -> binary_to_tag_encodable b = Raise ValueError.
Proof. exact cpi_var_truncated. Qed.
Print Assumptions C23_cpi_var_truncated.
Example C23_case : bitstring (lit "00110000000000") /\ binary_to_tag_encodable (lit "00110000000000") = Raise ConvertException.
Proof. split; [intros c I; cbn in I; intuition|vm_compute; reflexivity]. Qed.
Example C23_cpi_case : binary_to_tag_encodable (lit "00111101000101") = Raise ValueError.
Proof. vm_compute. reflexivity. Qed.

(** wrong headers and short tags *)
Theorem C26_short_tag_refused : forall k n b, 
  firstn 8 b = tag_header k -> tag_size k = Some n -> (length b < n)%nat -> from_binary_of (tag_class k) b = Raise ConvertException.
Proof. exact short_tag. Qed.
Print Assumptions C26_short_tag_refused.
Theorem C26_unknown_header_refused : forall b, 
  (forall k, firstn 8 b <> tag_header k) -> binary_to_tag_encodable b = Raise ConvertException.
Proof. exact unknown_header. Qed.
Print Assumptions C26_unknown_header_refused.
Theorem C26_foreign_header_keyerror : forall c b, 
  In c tag_classes -> (forall k, tag_class k = c -> firstn 8 b <> tag_header k) -> from_binary_of c b = Raise KeyError.
Proof. exact wrong_header. Qed.
Print Assumptions C26_foreign_header_keyerror.
Example C26_short_case :
  firstn 8 (lit "0011000001110100001001010111101111110111000110010100111001000000000000000000000001101010000101") = tag_header K_SGTIN_96 /\
  sgtin_from_binary (lit "0011000001110100001001010111101111110111000110010100111001000000000000000000000001101010000101") = Raise ConvertException.
Proof. split; vm_compute; reflexivity. Qed.
Example C26_unknown_case : forall k, firstn 8 (lit "1111111100000000") <> tag_header k.
Proof. intros k. destruct k; discriminate. Qed.
Example C26_foreign_case : In C_SSCC tag_classes /\ forall k, tag_class k = C_SSCC -> firstn 8 (lit "0011000000000000") <> tag_header k.
Proof. split; [cbn; tauto|]. intros k H. destruct k; discriminate. Qed.
