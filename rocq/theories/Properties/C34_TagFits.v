(** When tag_uri() refuses: C34. *)
From Coq Require Import String.
From Verif.Model Require Import Py Common Base.
From Verif.Model Require Import Adi Cpi Gdti Giai Gid Grai Gsrn Gsrnp Itip Lgtin Sgcn Sgln Sgtin Sscc Usdod Others Parsers.
From Verif.Spec Require Import Spec SpecEscapes SpecGrammar SpecSchemes SpecTags.
From Verif.Proofs Require Import TagFits.

Theorem C34_tag_uri_exactly_when_room : forall q u, 
  init_of (class_of (req_epc q)) u = Ok (req_epc q) -> succeeds_exactly_if (req_tag_uri q) (coding_has_room q).
Proof. exact tag_uri_exact. Qed.
Print Assumptions C34_tag_uri_exactly_when_room.
Example C34_case :
  let accepts u s := match sgtin_init u with
                     | Ok x => match req_tag_uri (T_SGTIN x s 1) with Ok _ => true | Raise _ => false end
                     | Raise _ => false
                     end in
  accepts (lit "urn:epc:id:sgtin:0614141.812345.274877906943") SGTIN_96 = true /\
  accepts (lit "urn:epc:id:sgtin:0614141.812345.274877906944") SGTIN_96 = false /\
  accepts (lit "urn:epc:id:sgtin:0614141.812345.0274") SGTIN_96 = false /\
  accepts (lit "urn:epc:id:sgtin:0614141.812345.27A") SGTIN_96 = false /\
  accepts (lit "urn:epc:id:sgtin:0614141.812345.27A") SGTIN_198 = true.
Proof. repeat split; vm_compute; reflexivity. Qed.
Example C34_giai_case :
  let accepts u := match giai_init u with
                   | Ok x => match req_tag_uri (T_GIAI x GIAI_96 1) with Ok _ => true | Raise _ => false end
                   | Raise _ => false
                   end in
  accepts (lit "urn:epc:id:giai:061414112345.4398046511103") = true /\
  accepts (lit "urn:epc:id:giai:061414112345.4398046511104") = false /\
  accepts (lit "urn:epc:id:giai:061414112345.43980465111030") = false.
Proof. repeat split; vm_compute; reflexivity. Qed.
