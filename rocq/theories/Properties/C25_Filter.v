(** Filter value and header: C25 and C27. *)
From Coq Require Import String.
From Verif.Model Require Import Py Common Base.
From Verif.Model Require Import Adi Cpi Gdti Giai Gid Grai Gsrn Gsrnp Itip Lgtin Sgcn Sgln Sgtin Sscc Usdod Others Parsers.
From Verif.Spec Require Import Spec SpecEscapes SpecGrammar SpecSchemes SpecTags SpecLayout SpecCoding.
From Verif.Proofs Require Import DecodeA DecodeC Filter.

Theorem C25_filter_only_filter_bits : forall q, 
  (exists s, forall f, f < 2 ^ N.of_nat (filter_width (req_kind q)) ->
     exists fb, length fb = filter_width (req_kind q) /\ bitstring fb /\ binary_number fb = f /\
       req_binary (with_filter f q) = Ok (tag_header (req_kind q) ++ fb ++ s)) \/
  (exists e, forall f, f < 2 ^ N.of_nat (filter_width (req_kind q)) -> req_binary (with_filter f q) = Raise e).
Proof. exact filter_only. Qed.
Print Assumptions C25_filter_only_filter_bits.
Theorem C25_decoding_ignores_filter : forall k f1 f2 r, 
  bitstring f1 -> bitstring f2 -> bitstring r ->
  length f1 = filter_width k -> length f2 = filter_width k ->
  binary_to_tag_encodable (tag_header k ++ f1 ++ r) = binary_to_tag_encodable (tag_header k ++ f2 ++ r).
Proof. exact filter_bits_ignored. Qed.
Print Assumptions C25_decoding_ignores_filter.
Example C25_case :
  match sscc_init (lit "urn:epc:id:sscc:0614141.1234567890") with
  | Ok x => match sscc_binary x SSCC_96 0, sscc_binary x SSCC_96 7 with
            | Ok a, Ok b => str_eqb (firstn 8 a) (firstn 8 b) && str_eqb (skipn 11 a) (skipn 11 b) && str_eqb (sl 8 11 b) (lit "111")
            | _, _ => false
            end
  | Raise _ => false
  end = true.
Proof. vm_compute. reflexivity. Qed.

(** the generic decoder *)
Theorem C27_headers_distinct : forall k k', tag_header k = tag_header k' -> k = k'.
Proof. exact header_inj. Qed.
Print Assumptions C27_headers_distinct.
Theorem C27_binary_header : forall q b, 
  req_binary q = Ok b -> firstn 8 b = tag_header (req_kind q).
Proof. exact binary_header. Qed.
Print Assumptions C27_binary_header.
Theorem C27_dispatch : forall q b extra, 
  req_binary q = Ok b ->
  binary_to_tag_encodable (b ++ extra) = from_binary_of (class_of (req_epc q)) (b ++ extra).
Proof. exact dispatch_own. Qed.
Print Assumptions C27_dispatch.
Theorem C27_dispatch_by_header : forall k b, 
  firstn 8 b = tag_header k -> binary_to_tag_encodable b = from_binary_of (tag_class k) b.
Proof. exact dispatch. Qed.
Print Assumptions C27_dispatch_by_header.
Example C27_case :
  match gid_init (lit "urn:epc:id:gid:12345.67890.16777216") with
  | Ok x => match gid_binary x GID_96 with
            | Ok b => match binary_to_tag_encodable b with Ok e => epc_eqb e (E_GID x) | Raise _ => false end
            | Raise _ => false
            end
  | Raise _ => false
  end = true.
Proof. vm_compute. reflexivity. Qed.
