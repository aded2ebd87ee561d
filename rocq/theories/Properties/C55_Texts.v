(** What is read as hexadecimal, base64 and binary besides what the library writes: C55. *)
From Coq Require Import String Lia.
From Verif.Model Require Import Py Common Base.
From Verif.Model Require Import Adi Cpi Gdti Giai Gid Grai Gsrn Gsrnp Itip Lgtin Sgcn Sgln Sgtin Sscc Usdod Others Parsers.
From Verif.Spec Require Import Spec SpecEscapes SpecGrammar SpecSchemes SpecTags SpecLayout SpecCoding SpecHex SpecTexts.
From Verif.Proofs Require Import Hex Texts.

(** int() takes blanks, signs, 0x and underscores, but no text that has any of them is read as a tag *)
Theorem C55_hex_accepted : forall s e,
  hex_to_tag_encodable s = Ok e -> exists h, writes_digits s h /\ h <> [] /\ binary_to_tag_encodable (hex_bits h) = Ok e.
Proof. exact hex_accepted. Qed.
Print Assumptions C55_hex_accepted.
Theorem C55_hex_digits : forall s h, 
  writes_digits s h -> h <> [] -> hex_to_binary s = Ok (hex_bits h).
Proof. exact hex_written. Qed.
Print Assumptions C55_hex_digits.
Theorem C55_hex_other : forall s, 
  (forall h, ~ writes_digits s h) ->
  (hex_to_tag_encodable s = Raise ValueError /\ hex_to_binary s = Raise ValueError) \/
  (hex_to_tag_encodable s = Raise ConvertException /\ exists b, hex_to_binary s = Ok b).
Proof. exact hex_other. Qed.
Print Assumptions C55_hex_other.
Theorem C55_from_hex_other : forall c s, 
  In c tag_classes -> (forall h, ~ writes_digits s h) ->
  from_hex (from_binary_of c) s = Raise ValueError \/ from_hex (from_binary_of c) s = Raise KeyError.
Proof. exact from_hex_other. Qed.
Print Assumptions C55_from_hex_other.
Example C55_hex_case : let s := lit "3074257BF7194E" ++ [0x664; 0xff10] ++ lit "00001a85" in let h := lit "3074257BF7194E4000001a85" in
  writes_digits s h /\ hex_to_tag_encodable s = hex_to_tag_encodable (lit "3074257BF7194E4000001A85") /\
  match hex_to_tag_encodable s with Ok e => epc_uri e | Raise _ => [] end = lit "urn:epc:id:sgtin:0614141.812345.6789".
Proof.
  split; [|split; vm_compute; reflexivity]. apply to_ascii_num_writes. split; [|vm_compute; reflexivity]. apply hex_text_base. vm_compute. reflexivity.
Qed.
Example C55_hex_other_case : (forall h, ~ writes_digits (lit "0x3074257BF7194E4000001A85") h) /\
  hex_to_tag_encodable (lit "0x3074257BF7194E4000001A85") = Raise ConvertException /\
  hex_to_binary (lit " 3_0") = Ok (lit "0000000000110000") /\ hex_to_tag_encodable (lit "30G") = Raise ValueError.
Proof.
  split; [|repeat split; vm_compute; reflexivity]. intros h W. apply to_ascii_num_writes in W as [H E]. apply hex_text_base in H. rewrite <- E in H. vm_compute in H. discriminate H.
Qed.

(** base64: characters outside the alphabet are skipped, nothing after the closing '=' is read, bits short of a byte are dropped *)
Theorem C55_base64 : forall s p, 
  ascii s -> read_part s p ->
  (Nat.modulo (length (sextets p)) 4 = 1%nat -> base64_to_hex s = Raise ValueError) /\
  (Nat.modulo (length (sextets p)) 4 <> 1%nat ->
   exists h, base64_to_hex s = Ok h /\ hex_text h /\ hex_bits h = whole_bytes (flat_map six_bits (sextets p))).
Proof. exact base64_reads. Qed.
Print Assumptions C55_base64.
Theorem C55_base64_read_part : forall s, exists p, read_part s p /\ forall p', read_part s p' -> p' = p.
Proof. exact read_part_exists. Qed.
Print Assumptions C55_base64_read_part.
Theorem C55_base64_non_ascii : forall s, ~ ascii s -> base64_to_hex s = Raise ValueError.
Proof. exact base64_non_ascii. Qed.
Print Assumptions C55_base64_non_ascii.
Theorem C55_base64_tag : forall s p, 
  ascii s -> read_part s p -> (2 <= length (sextets p))%nat -> Nat.modulo (length (sextets p)) 4 <> 1%nat ->
  base64_to_tag_encodable s = binary_to_tag_encodable (whole_bytes (flat_map six_bits (sextets p))).
Proof. exact base64_tag. Qed.
Print Assumptions C55_base64_tag.
Theorem C55_base64_same : forall s t p q, 
  ascii s -> ascii t -> read_part s p -> read_part t q -> sextets p = sextets q -> base64_to_tag_encodable s = base64_to_tag_encodable t.
Proof. exact same_sextets. Qed.
Print Assumptions C55_base64_same.
(** so different texts are read as the same tag *)
Theorem C55_base64_injective_refuted : exists s t u e, 
  s <> t /\ t <> u /\ s <> u /\ base64_to_tag_encodable s = Ok e /\ base64_to_tag_encodable t = Ok e /\ base64_to_tag_encodable u = Ok e.
Proof. exact base64_collision. Qed.
Print Assumptions C55_base64_injective_refuted.
Example C55_base64_case : let s := lit "MHQl-e/cZ TkAA=ABqFgA==junk" in 
  read_part s (lit "MHQl-e/cZ TkAA=ABqFgA==") /\ length (sextets (lit "MHQl-e/cZ TkAA=ABqFgA==")) = 18%nat /\
  match base64_to_tag_encodable s with Ok e => epc_uri e | Raise _ => [] end = lit "urn:epc:id:sgtin:0614141.812345.6789".
Proof.
  split; [|split; vm_compute; reflexivity]. exact (cut_whole (lit "MHQl-e/cZ TkAA=ABqFgA==junk")).
Qed.
Example C55_base64_error_case : base64_to_hex (lit "MHQle") = Raise ValueError /\ base64_to_hex (lit "") = Ok [] /\ base64_to_hex [233] = Raise ValueError.
Proof. repeat split; vm_compute; reflexivity. Qed.

(** hex_to_base64 allows blanks between pairs of digits, and nothing else *)
Theorem C55_spaced_pairs : forall s h, 
  spaced_pairs s h -> hex_to_base64 s = hex_to_base64 h /\ hex_text h /\ Nat.modulo (length h) 2 = 0%nat.
Proof. exact hex_to_base64_spaced. Qed.
Print Assumptions C55_spaced_pairs.
Theorem C55_unpaired : forall s, (forall h, ~ spaced_pairs s h) -> hex_to_base64 s = Raise ValueError.
Proof. exact hex_to_base64_other. Qed.
Print Assumptions C55_unpaired.
Example C55_spaced_case : spaced_pairs (lit " 30 7425") (lit "307425") /\ hex_to_base64 (lit " 30 7425") = Ok (lit "MHQl") /\
  hex_to_base64 (lit "3 07425") = Raise ValueError.
Proof.
  split; [|split; vm_compute; reflexivity]. apply (pairs_blank 32); [now right|]. apply pairs_pair; [now apply hex_text_base|]. apply (pairs_blank 32); [now right|].
  apply pairs_pair; [now apply hex_text_base|]. apply pairs_pair; [now apply hex_text_base|]. constructor.
Qed.

(** binary: int(_, 2) takes decorated numbers here, so texts that are no bits are read, and even a negative serial *)
Theorem C55_binary_bits_refuted : exists s t e e', 
  ~ bitstring s /\ length s = 96%nat /\ binary_to_tag_encodable s = Ok e /\ epc_uri e = lit "urn:epc:id:gid:127.5.7" /\
  ~ bitstring t /\ length t = 96%nat /\ binary_to_tag_encodable t = Ok e' /\ epc_uri e' = lit "urn:epc:id:sgln:0614141.12345.-5".
Proof. exact binary_decorated. Qed.
Print Assumptions C55_binary_bits_refuted.
