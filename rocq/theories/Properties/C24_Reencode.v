(** Decoding a numeric tag and encoding the result again: C24. *)
From Coq Require Import String.
From Verif.Model Require Import Py Common Base.
From Verif.Model Require Import Adi Cpi Gdti Giai Gid Grai Gsrn Gsrnp Itip Lgtin Sgcn Sgln Sgtin Sscc Usdod Others Parsers.
From Verif.Spec Require Import Spec SpecEscapes SpecGrammar SpecSchemes SpecTags SpecLayout SpecCoding.
From Verif.Proofs Require Import DecodeC.

Theorem C24_decode_encode : forall k n b e, 
  numeric_coding k -> tag_size k = Some n -> bitstring b -> firstn 8 b = tag_header k ->
  binary_to_tag_encodable b = Ok e -> writable_again k b ->
  exists q b', req_epc q = e /\ req_kind q = k /\
    req_filter q = match filter_width k with O => None | w => Some (binary_number (firstn w (skipn 8 b))) end /\
    req_binary q = Ok b' /\ length b' = n /\
    forall i, (i < n)%nat -> (unused_bit k b i -> nth i b' 0 = 48) /\ (~ unused_bit k b i -> nth i b' 0 = nth i b 0).
Proof. exact reencode_bits. Qed.
Print Assumptions C24_decode_encode.
(** an sgln-96 tag with a 12 digit company prefix: bit 54 is unused *)
Definition C24_tag : str := lit "001100100110000001110010111110100110010001101000010100100000000000000000000000000001011000101110".
Example C24_case :
  numeric_coding K_SGLN_96 /\ writable_again K_SGLN_96 C24_tag /\ unused_bit K_SGLN_96 C24_tag 54 /\
  firstn 8 C24_tag = tag_header K_SGLN_96 /\
  match binary_to_tag_encodable C24_tag with
  | Ok (E_SGLN x) => match sgln_binary x SGLN_96 3 with
                     | Ok b => str_eqb (firstn 54 b) (firstn 54 C24_tag) && str_eqb (skipn 55 b) (skipn 55 C24_tag) && negb (str_eqb b C24_tag)
                     | Raise _ => false
                     end
  | _ => false
  end = true.
Proof. repeat split; try discriminate; vm_compute; reflexivity. Qed.

(** the two conditions of writable_again are needed *)
Theorem C24_usdod_blank_refuted : 
  exists b e b', bitstring b /\ length b = 96%nat /\ firstn 8 b = tag_header K_USDOD_96 /\
  binary_to_tag_encodable b = Ok e /\
  (forall q, req_epc q = e -> req_kind q = K_USDOD_96 -> req_filter q = Some 0 -> req_binary q = Ok b') /\ b' <> b /\ length b' = 96%nat.
Proof. exact blank_moves. Qed.
Print Assumptions C24_usdod_blank_refuted.
Theorem C24_itip_99_refuted : 
  exists b e, bitstring b /\ length b = 110%nat /\ firstn 8 b = tag_header K_ITIP_110 /\
  binary_to_tag_encodable b = Ok e /\
  (forall q f, req_epc q = e -> req_filter q = Some f -> f < 8 -> req_binary q = Raise ConvertException).
Proof. exact piece_99. Qed.
Print Assumptions C24_itip_99_refuted.
