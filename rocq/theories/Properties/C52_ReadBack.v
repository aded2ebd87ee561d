(** Exactly which tags read back as the object they were written from: C52. *)
From Coq Require Import String.
From Verif.Model Require Import Py Common Base.
From Verif.Model Require Import Adi Cpi Gdti Giai Gid Grai Gsrn Gsrnp Itip Sgcn Sgln Sgtin Sscc Usdod Parsers.
From Verif.Spec Require Import Spec SpecEscapes SpecGrammar SpecSchemes SpecTags SpecLayout SpecCoding SpecExact.
From Verif.Proofs Require Import Exact.

(** writing and reading gives the object back exactly for the requests of [survives] *)
Theorem C52_reads_back : forall q u, init_of (class_of (req_epc q)) u = Ok (req_epc q) -> filter_fits q ->
  ((exists b, req_binary q = Ok b /\ bitstring b /\ from_binary_of (class_of (req_epc q)) b = Ok (req_epc q)) <-> survives q u).
Proof. exact survives_iff. Qed.
Print Assumptions C52_reads_back.
(** one text on one coding: an escape written in lower case is lost, the same escape in upper case is not *)
Definition C52_lower : str := lit "urn:epc:id:sgtin:0614141.812345.6%2f7".
Definition C52_upper : str := lit "urn:epc:id:sgtin:0614141.812345.6%2F7".
Definition C52_back (u : str) : bool :=
  match sgtin_init u with
  | Ok x => match sgtin_binary x SGTIN_198 3 with
            | Ok b => match sgtin_from_binary b with Ok y => str_eqb (sgtin_epc_uri y) u | Raise _ => false end
            | Raise _ => false
            end
  | Raise _ => false
  end.
Example C52_case : (exists x, sgtin_init C52_lower = Ok x) /\ (exists x, sgtin_init C52_upper = Ok x) /\
  C52_back C52_lower = false /\ C52_back C52_upper = true.
Proof. repeat split; try (eexists; vm_compute; reflexivity); vm_compute; reflexivity. Qed.
Example C52_upper_survives : forall x, sgtin_init C52_upper = Ok x -> survives (T_SGTIN x SGTIN_198 3) C52_upper.
Proof.
  intros x I. vm_compute in I. injection I as <-. repeat split.
  - intros c H. vm_compute in H. repeat destruct H as [<-|H]; easy.
  - exists (lit "6/7"). vm_compute. reflexivity.
Qed.

(** what a tag is read as fits the fields of that tag: its URI is ASCII, its numbers fit their bits, its text is
    escaped in the canonical way *)
Theorem C52_read_fits : forall q b, bitstring b -> firstn 8 b = tag_header (req_kind q) ->
  from_binary_of (class_of (req_epc q)) b = Ok (req_epc q) ->
  ascii (epc_uri (req_epc q)) /\ field_room q /\ canonical_request q /\ two_digit_pieces q.
Proof. exact read_fits. Qed.
Print Assumptions C52_read_fits.
(** reading a tag, writing what was read with any filter, and reading again *)
Theorem C52_read_write_read : forall q b, bitstring b -> firstn 8 b = tag_header (req_kind q) ->
  from_binary_of (class_of (req_epc q)) b = Ok (req_epc q) -> filter_fits q ->
  ((exists b', req_binary q = Ok b' /\ bitstring b' /\ from_binary_of (class_of (req_epc q)) b' = Ok (req_epc q)) <-> rewritable q).
Proof. exact read_write_read. Qed.
Print Assumptions C52_read_write_read.
(** a sgtin-198 tag with a zero group inside the serial: read as "ab", written as another tag, read as "ab" again *)
Definition C52_tag : str := lit "0011011001110100001001010111101111110111000110010100111001" ++
  lit "1100001" ++ lit "0000000" ++ lit "1100010" ++ repeat 48 119.
Example C52_gap : length C52_tag = 198%nat /\ firstn 8 C52_tag = tag_header K_SGTIN_198 /\
  match sgtin_from_binary C52_tag with
  | Ok x => str_eqb (sgtin_serial x) (lit "ab") &&
      match sgtin_binary x SGTIN_198 3 with
      | Ok b => negb (str_eqb b C52_tag) && match sgtin_from_binary b with Ok y => str_eqb (sgtin_epc_uri y) (sgtin_epc_uri x) | Raise _ => false end
      | Raise _ => false
      end
  | Raise _ => false
  end = true.
Proof. repeat split; vm_compute; reflexivity. Qed.

(** the tag URI of a coding exists exactly if the numbers fit the fields, except for CPI-96 *)
Theorem C52_tag_uri : forall q u, init_of (class_of (req_epc q)) u = Ok (req_epc q) ->
  ((exists t, req_tag_uri q = Ok t) -> field_room q) /\
  (req_kind q <> K_CPI_96 -> field_room q -> exists t, req_tag_uri q = Ok t).
Proof. exact tag_uri_field. Qed.
Print Assumptions C52_tag_uri.
(** a part reference of four digits next to a company prefix of twelve has a tag that reads back, but no tag URI *)
Theorem C52_tag_uri_cpi_refuted : exists x b,
  cpi_init (lit "urn:epc:id:cpi:000000000001.2000.7") = Ok x /\ cpi_tag_uri x CPI_96 0 = Raise ConvertException /\
  cpi_binary x CPI_96 0 = Ok b /\ cpi_from_binary b = Ok x.
Proof. exact wide_ref_back. Qed.
Print Assumptions C52_tag_uri_cpi_refuted.
