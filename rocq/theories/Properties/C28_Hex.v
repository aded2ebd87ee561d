(** Hexadecimal and base64 forms: C28 (and the rest of C27). *)
From Coq Require Import String.
From Verif.Model Require Import Py Common Base.
From Verif.Model Require Import Adi Cpi Gdti Giai Gid Grai Gsrn Gsrnp Itip Lgtin Sgcn Sgln Sgtin Sscc Usdod Others Parsers.
From Verif.Spec Require Import Spec SpecEscapes SpecGrammar SpecSchemes SpecTags SpecLayout SpecCoding SpecHex.
From Verif.Proofs Require Import Hex HexTrip Inject.

Theorem C28_hex_form : forall b, 
  bitstring b -> firstn 4 b <> lit "0000" -> (4 <= length b)%nat ->
  exists h pad, binary_hex (Ok b) = Ok h /\ hex_text h /\ upper_case h /\ (pad < 16)%nat /\ Nat.modulo (length b + pad) 16 = 0%nat /\
    hex_bits h = b ++ repeat 48 pad /\ hex_to_binary h = Ok (b ++ repeat 48 pad).
Proof. exact hex_form. Qed.
Print Assumptions C28_hex_form.
Theorem C28_hex_to_binary : forall h, hex_text h -> h <> [] -> hex_to_binary h = Ok (hex_bits h).
Proof. exact hex_reads. Qed.
Print Assumptions C28_hex_to_binary.
Theorem C28_base64_form : forall h, 
  hex_text h -> Nat.modulo (length h) 2 = 0%nat ->
  exists s h', hex_to_base64 h = Ok s /\ base64_of (hex_bits h) s /\ base64_to_hex s = Ok h' /\ hex_text h' /\ hex_bits h' = hex_bits h.
Proof. exact base64_form. Qed.
Print Assumptions C28_base64_form.
Theorem C28_base64_odd : forall h, 
  hex_text h -> Nat.modulo (length h) 2 = 1%nat -> hex_to_base64 h = Raise ValueError.
Proof. exact base64_odd. Qed.
Print Assumptions C28_base64_odd.
Theorem C28_tag_forms : forall q b, 
  req_binary q = Ok b -> bitstring b ->
  exists h s pad, req_hex q = Ok h /\ req_base64 q = Ok s /\ (pad < 16)%nat /\ Nat.modulo (length b + pad) 16 = 0%nat /\
    hex_text h /\ upper_case h /\ hex_bits h = b ++ repeat 48 pad /\ base64_of (b ++ repeat 48 pad) s /\
    let own := from_binary_of (class_of (req_epc q)) (b ++ repeat 48 pad) in
    from_hex (from_binary_of (class_of (req_epc q))) h = own /\ from_base64 (from_binary_of (class_of (req_epc q))) s = own /\
    binary_to_tag_encodable (b ++ repeat 48 pad) = own /\ hex_to_tag_encodable h = own /\ base64_to_tag_encodable s = own.
Proof. exact tag_forms. Qed.
Print Assumptions C28_tag_forms.
Theorem C28_forms_roundtrip : forall q u, 
  proper_request q u ->
  (forall x s f, q = T_ADI x s f -> no_early_zeros (adi_part x)) ->
  exists b h s, req_binary q = Ok b /\ req_hex q = Ok h /\ req_base64 q = Ok s /\
    binary_to_tag_encodable b = Ok (req_epc q) /\ hex_to_tag_encodable h = Ok (req_epc q) /\ base64_to_tag_encodable s = Ok (req_epc q) /\
    from_hex (from_binary_of (class_of (req_epc q))) h = Ok (req_epc q) /\ from_base64 (from_binary_of (class_of (req_epc q))) s = Ok (req_epc q).
Proof. exact forms_roundtrip. Qed.
Print Assumptions C28_forms_roundtrip.
Example C28_hex_case : binary_hex (Ok (lit "001100000111")) = Ok (lit "3070") /\ hex_to_binary (lit "3070") = Ok (lit "0011000001110000").
Proof. split; vm_compute; reflexivity. Qed.
Example C28_base64_case : hex_to_base64 (lit "3074257BF7194E4000001A85") = Ok (lit "MHQle/cZTkAAABqF") /\
  base64_to_hex (lit "MHQle/cZTkAAABqF") = Ok (lit "3074257bf7194e4000001a85") /\ hex_to_base64 (lit "307") = Raise ValueError.
Proof. repeat split; vm_compute; reflexivity. Qed.
Example C28_forms_case :
  match adi_init (lit "urn:epc:id:adi:35962.PQ7VZ5.M37GXB92") with
  | Ok x => match req_tag_uri (T_ADI x ADI_VAR 3), req_hex (T_ADI x ADI_VAR 3), req_base64 (T_ADI x ADI_VAR 3) with
            | Ok _, Ok h, Ok s => match hex_to_tag_encodable h, base64_to_tag_encodable s with
                            | Ok e, Ok e' => epc_eqb e (E_ADI x) && epc_eqb e' (E_ADI x)
                            | _, _ => false
                            end
            | _, _, _ => false
            end
  | Raise _ => false
  end = true.
Proof. vm_compute. reflexivity. Qed.
