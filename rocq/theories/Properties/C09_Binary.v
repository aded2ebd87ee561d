(** binary() and from_binary(), class by class: C09 to C21. *)
From Coq Require Import String.
From Verif.Model Require Import Py Common Base.
From Verif.Model Require Import Adi Cpi Gdti Giai Gid Grai Gsrn Gsrnp Itip Lgtin Sgcn Sgln Sgtin Sscc Usdod Others Parsers.
From Verif.Spec Require Import Spec SpecEscapes SpecGrammar SpecSchemes SpecTags SpecLayout.
From Verif.Proofs Require Import BinAll BinD.


Theorem C09_sgtin_binary_roundtrip : forall u x s f t, 
  sgtin_init u = Ok x -> ascii u -> sgtin_tag_uri x s f = Ok t ->
  (s = SGTIN_198 -> canonical_text (sgtin_serial x)) -> f < 8 ->
  exists b, sgtin_binary x s f = Ok b /\ bitstring b /\ length b = match s with SGTIN_96 => 96 | SGTIN_198 => 198 end%nat /\
    forall extra, sgtin_from_binary (b ++ extra) = Ok x.
Proof. exact sgtin_roundtrip. Qed.
Print Assumptions C09_sgtin_binary_roundtrip.
Example C09_sgtin_case1 :
  match sgtin_init (lit "urn:epc:id:sgtin:0614141.812345.6789") with
  | Ok x => match sgtin_tag_uri x SGTIN_96 3, sgtin_binary x SGTIN_96 3 with
            | Ok t, Ok b => match sgtin_from_binary (b ++ lit "0110") with
                            | Ok y => str_eqb (sgtin_epc_uri y) (lit "urn:epc:id:sgtin:0614141.812345.6789")
                            | Raise _ => false
                            end
            | _, _ => false
            end
  | Raise _ => false
  end = true.
Proof. vm_compute. reflexivity. Qed.
Example C09_sgtin_case2 :
  match sgtin_init (lit "urn:epc:id:sgtin:0614141.812345.32a%2Fb") with
  | Ok x => match sgtin_tag_uri x SGTIN_198 1, sgtin_binary x SGTIN_198 1 with
            | Ok t, Ok b => match sgtin_from_binary (b ++ lit "0110") with
                            | Ok y => str_eqb (sgtin_epc_uri y) (lit "urn:epc:id:sgtin:0614141.812345.32a%2Fb")
                            | Raise _ => false
                            end
            | _, _ => false
            end
  | Raise _ => false
  end = true.
Proof. vm_compute. reflexivity. Qed.

Theorem C10_sscc_binary_roundtrip : forall u x s f, 
  sscc_init u = Ok x -> ascii u -> f < 8 ->
  exists b, sscc_binary x s f = Ok b /\ bitstring b /\ length b = 96%nat /\ forall extra, sscc_from_binary (b ++ extra) = Ok x.
Proof. exact sscc_roundtrip. Qed.
Print Assumptions C10_sscc_binary_roundtrip.
Example C10_sscc_case1 :
  match sscc_init (lit "urn:epc:id:sscc:0614141.1234567890") with
  | Ok x => match sscc_tag_uri x SSCC_96 0, sscc_binary x SSCC_96 0 with
            | Ok t, Ok b => match sscc_from_binary (b ++ lit "0110") with
                            | Ok y => str_eqb (sscc_epc_uri y) (lit "urn:epc:id:sscc:0614141.1234567890")
                            | Raise _ => false
                            end
            | _, _ => false
            end
  | Raise _ => false
  end = true.
Proof. vm_compute. reflexivity. Qed.

Theorem C11_sgln_binary_roundtrip : forall u x s f t, 
  sgln_init u = Ok x -> ascii u -> sgln_tag_uri x s f = Ok t ->
  (s = SGLN_195 -> canonical_text (sgln_serial x)) -> f < 8 ->
  exists b, sgln_binary x s f = Ok b /\ bitstring b /\ length b = match s with SGLN_96 => 96 | SGLN_195 => 195 end%nat /\
    forall extra, sgln_from_binary (b ++ extra) = Ok x.
Proof. exact sgln_roundtrip. Qed.
Print Assumptions C11_sgln_binary_roundtrip.
Example C11_sgln_case1 :
  match sgln_init (lit "urn:epc:id:sgln:0614141.12345.5678") with
  | Ok x => match sgln_tag_uri x SGLN_96 3, sgln_binary x SGLN_96 3 with
            | Ok t, Ok b => match sgln_from_binary (b ++ lit "0110") with
                            | Ok y => str_eqb (sgln_epc_uri y) (lit "urn:epc:id:sgln:0614141.12345.5678")
                            | Raise _ => false
                            end
            | _, _ => false
            end
  | Raise _ => false
  end = true.
Proof. vm_compute. reflexivity. Qed.
Example C11_sgln_case2 :
  match sgln_init (lit "urn:epc:id:sgln:061414112345..32a%2Fb") with
  | Ok x => match sgln_tag_uri x SGLN_195 0, sgln_binary x SGLN_195 0 with
            | Ok t, Ok b => match sgln_from_binary (b ++ lit "0110") with
                            | Ok y => str_eqb (sgln_epc_uri y) (lit "urn:epc:id:sgln:061414112345..32a%2Fb")
                            | Raise _ => false
                            end
            | _, _ => false
            end
  | Raise _ => false
  end = true.
Proof. vm_compute. reflexivity. Qed.

Theorem C12_grai_binary_roundtrip : forall u x s f t, 
  grai_init u = Ok x -> ascii u -> grai_tag_uri x s f = Ok t ->
  (s = GRAI_170 -> canonical_text (grai_serial x)) -> f < 8 ->
  exists b, grai_binary x s f = Ok b /\ bitstring b /\ length b = match s with GRAI_96 => 96 | GRAI_170 => 170 end%nat /\
    forall extra, grai_from_binary (b ++ extra) = Ok x.
Proof. exact grai_roundtrip. Qed.
Print Assumptions C12_grai_binary_roundtrip.
Example C12_grai_case1 :
  match grai_init (lit "urn:epc:id:grai:0614141.12345.5678") with
  | Ok x => match grai_tag_uri x GRAI_96 3, grai_binary x GRAI_96 3 with
            | Ok t, Ok b => match grai_from_binary (b ++ lit "0110") with
                            | Ok y => str_eqb (grai_epc_uri y) (lit "urn:epc:id:grai:0614141.12345.5678")
                            | Raise _ => false
                            end
            | _, _ => false
            end
  | Raise _ => false
  end = true.
Proof. vm_compute. reflexivity. Qed.
Example C12_grai_case2 :
  match grai_init (lit "urn:epc:id:grai:0614141.12345.32a%2Fb") with
  | Ok x => match grai_tag_uri x GRAI_170 2, grai_binary x GRAI_170 2 with
            | Ok t, Ok b => match grai_from_binary (b ++ lit "0110") with
                            | Ok y => str_eqb (grai_epc_uri y) (lit "urn:epc:id:grai:0614141.12345.32a%2Fb")
                            | Raise _ => false
                            end
            | _, _ => false
            end
  | Raise _ => false
  end = true.
Proof. vm_compute. reflexivity. Qed.

Theorem C13_giai_binary_roundtrip : forall u x s f t, 
  giai_init u = Ok x -> ascii u -> giai_tag_uri x s f = Ok t ->
  (s = GIAI_202 -> canonical_text (giai_asset x)) -> f < 8 ->
  (exists body, u = lit "urn:epc:id:giai:" ++ body /\ ~ In 58 body) ->
  exists b, giai_binary x s f = Ok b /\ bitstring b /\ length b = match s with GIAI_96 => 96 | GIAI_202 => 202 end%nat /\
    forall extra, giai_from_binary (b ++ extra) = Ok x.
Proof. exact giai_roundtrip. Qed.
Print Assumptions C13_giai_binary_roundtrip.
Example C13_giai_case1 :
  match giai_init (lit "urn:epc:id:giai:0614141.5678") with
  | Ok x => match giai_tag_uri x GIAI_96 3, giai_binary x GIAI_96 3 with
            | Ok t, Ok b => match giai_from_binary (b ++ lit "0110") with
                            | Ok y => str_eqb (giai_epc_uri y) (lit "urn:epc:id:giai:0614141.5678")
                            | Raise _ => false
                            end
            | _, _ => false
            end
  | Raise _ => false
  end = true.
Proof. vm_compute. reflexivity. Qed.
Example C13_giai_case2 :
  match giai_init (lit "urn:epc:id:giai:0614141.32a%2Fb") with
  | Ok x => match giai_tag_uri x GIAI_202 3, giai_binary x GIAI_202 3 with
            | Ok t, Ok b => match giai_from_binary (b ++ lit "0110") with
                            | Ok y => str_eqb (giai_epc_uri y) (lit "urn:epc:id:giai:0614141.32a%2Fb")
                            | Raise _ => false
                            end
            | _, _ => false
            end
  | Raise _ => false
  end = true.
Proof. vm_compute. reflexivity. Qed.

Theorem C14_gsrn_binary_roundtrip : forall u x s f, 
  gsrn_init u = Ok x -> ascii u -> f < 8 ->
  exists b, gsrn_binary x s f = Ok b /\ bitstring b /\ length b = 96%nat /\ forall extra, gsrn_from_binary (b ++ extra) = Ok x.
Proof. exact gsrn_roundtrip. Qed.
Print Assumptions C14_gsrn_binary_roundtrip.
Example C14_gsrn_case1 :
  match gsrn_init (lit "urn:epc:id:gsrn:0614141.1234567890") with
  | Ok x => match gsrn_tag_uri x GSRN_96 3, gsrn_binary x GSRN_96 3 with
            | Ok t, Ok b => match gsrn_from_binary (b ++ lit "0110") with
                            | Ok y => str_eqb (gsrn_epc_uri y) (lit "urn:epc:id:gsrn:0614141.1234567890")
                            | Raise _ => false
                            end
            | _, _ => false
            end
  | Raise _ => false
  end = true.
Proof. vm_compute. reflexivity. Qed.

Theorem C14_gsrnp_binary_roundtrip : forall u x s f, 
  gsrnp_init u = Ok x -> ascii u -> f < 8 ->
  exists b, gsrnp_binary x s f = Ok b /\ bitstring b /\ length b = 96%nat /\ forall extra, gsrnp_from_binary (b ++ extra) = Ok x.
Proof. exact gsrnp_roundtrip. Qed.
Print Assumptions C14_gsrnp_binary_roundtrip.
Example C14_gsrnp_case1 :
  match gsrnp_init (lit "urn:epc:id:gsrnp:0614141.1234567890") with
  | Ok x => match gsrnp_tag_uri x GSRNP_96 3, gsrnp_binary x GSRNP_96 3 with
            | Ok t, Ok b => match gsrnp_from_binary (b ++ lit "0110") with
                            | Ok y => str_eqb (gsrnp_epc_uri y) (lit "urn:epc:id:gsrnp:0614141.1234567890")
                            | Raise _ => false
                            end
            | _, _ => false
            end
  | Raise _ => false
  end = true.
Proof. vm_compute. reflexivity. Qed.

Theorem C15_gdti_binary_roundtrip : forall u x s f t, 
  gdti_init u = Ok x -> ascii u -> gdti_tag_uri x s f = Ok t ->
  (s = GDTI_174 -> canonical_text (gdti_serial x)) -> f < 8 ->
  exists b, gdti_binary x s f = Ok b /\ bitstring b /\ length b = match s with GDTI_96 => 96 | GDTI_174 => 174 end%nat /\
    forall extra, gdti_from_binary (b ++ extra) = Ok x.
Proof. exact gdti_roundtrip. Qed.
Print Assumptions C15_gdti_binary_roundtrip.
Example C15_gdti_case1 :
  match gdti_init (lit "urn:epc:id:gdti:0614141.12345.5678") with
  | Ok x => match gdti_tag_uri x GDTI_96 3, gdti_binary x GDTI_96 3 with
            | Ok t, Ok b => match gdti_from_binary (b ++ lit "0110") with
                            | Ok y => str_eqb (gdti_epc_uri y) (lit "urn:epc:id:gdti:0614141.12345.5678")
                            | Raise _ => false
                            end
            | _, _ => false
            end
  | Raise _ => false
  end = true.
Proof. vm_compute. reflexivity. Qed.
Example C15_gdti_case2 :
  match gdti_init (lit "urn:epc:id:gdti:0614141.12345.ABCDefgh012345678") with
  | Ok x => match gdti_tag_uri x GDTI_174 3, gdti_binary x GDTI_174 3 with
            | Ok t, Ok b => match gdti_from_binary (b ++ lit "0110") with
                            | Ok y => str_eqb (gdti_epc_uri y) (lit "urn:epc:id:gdti:0614141.12345.ABCDefgh012345678")
                            | Raise _ => false
                            end
            | _, _ => false
            end
  | Raise _ => false
  end = true.
Proof. vm_compute. reflexivity. Qed.

Theorem C16_cpi_96_binary_roundtrip : forall u x f t, 
  cpi_init u = Ok x -> ascii u -> cpi_tag_uri x CPI_96 f = Ok t -> f < 8 ->
  exists b, cpi_binary x CPI_96 f = Ok b /\ bitstring b /\ length b = 96%nat /\ forall extra, cpi_from_binary (b ++ extra) = Ok x.
Proof. exact cpi_96_roundtrip. Qed.
Print Assumptions C16_cpi_96_binary_roundtrip.
Example C16_cpi_96_case1 :
  match cpi_init (lit "urn:epc:id:cpi:0614141.98765.12345") with
  | Ok x => match cpi_tag_uri x CPI_96 3, cpi_binary x CPI_96 3 with
            | Ok t, Ok b => match cpi_from_binary (b ++ lit "0110") with
                            | Ok y => str_eqb (cpi_epc_uri y) (lit "urn:epc:id:cpi:0614141.98765.12345")
                            | Raise _ => false
                            end
            | _, _ => false
            end
  | Raise _ => false
  end = true.
Proof. vm_compute. reflexivity. Qed.

Theorem C16_cpi_var_binary_roundtrip : forall u x f, 
  cpi_init u = Ok x -> ascii u -> f < 8 ->
  exists b, cpi_binary x CPI_VAR f = Ok b /\ bitstring b /\
    length b = (60 + prefix_bits (length (cpi_cp x)) + 6 * length (unescape6 (cpi_ref x)))%nat /\
    forall extra, bitstring extra -> cpi_from_binary (b ++ extra) = Ok x.
Proof. exact cpi_var_roundtrip. Qed.
Print Assumptions C16_cpi_var_binary_roundtrip.
Example C16_cpi_var_case1 :
  match cpi_init (lit "urn:epc:id:cpi:0614141.5PQ7%2FZ43.12345") with
  | Ok x => match cpi_tag_uri x CPI_VAR 3, cpi_binary x CPI_VAR 3 with
            | Ok t, Ok b => match cpi_from_binary (b ++ lit "0110") with
                            | Ok y => str_eqb (cpi_epc_uri y) (lit "urn:epc:id:cpi:0614141.5PQ7%2FZ43.12345")
                            | Raise _ => false
                            end
            | _, _ => false
            end
  | Raise _ => false
  end = true.
Proof. vm_compute. reflexivity. Qed.

Theorem C17_sgcn_binary_roundtrip : forall u x s f, 
  sgcn_init u = Ok x -> ascii u -> f < 8 ->
  exists b, sgcn_binary x s f = Ok b /\ bitstring b /\ length b = 96%nat /\ forall extra, sgcn_from_binary (b ++ extra) = Ok x.
Proof. exact sgcn_roundtrip. Qed.
Print Assumptions C17_sgcn_binary_roundtrip.
Example C17_sgcn_case1 :
  match sgcn_init (lit "urn:epc:id:sgcn:4012345.67890.04711") with
  | Ok x => match sgcn_tag_uri x SGCN_96 3, sgcn_binary x SGCN_96 3 with
            | Ok t, Ok b => match sgcn_from_binary (b ++ lit "0110") with
                            | Ok y => str_eqb (sgcn_epc_uri y) (lit "urn:epc:id:sgcn:4012345.67890.04711")
                            | Raise _ => false
                            end
            | _, _ => false
            end
  | Raise _ => false
  end = true.
Proof. vm_compute. reflexivity. Qed.

Theorem C18_itip_binary_roundtrip : forall u x s f t, 
  itip_init u = Ok x -> ascii u -> itip_tag_uri x s f = Ok t ->
  (s = ITIP_212 -> canonical_text (itip_serial x)) -> f < 8 ->
  length (itip_piece x) = 2%nat -> length (itip_total x) = 2%nat -> decimal (itip_piece x) < 99 -> decimal (itip_total x) < 99 ->
  exists b, itip_binary x s f = Ok b /\ bitstring b /\ length b = match s with ITIP_110 => 110 | ITIP_212 => 212 end%nat /\
    forall extra, itip_from_binary (b ++ extra) = Ok x.
Proof. exact itip_roundtrip. Qed.
Print Assumptions C18_itip_binary_roundtrip.
Example C18_itip_case1 :
  match itip_init (lit "urn:epc:id:itip:4012345.012345.01.02.987") with
  | Ok x => match itip_tag_uri x ITIP_110 3, itip_binary x ITIP_110 3 with
            | Ok t, Ok b => match itip_from_binary (b ++ lit "0110") with
                            | Ok y => str_eqb (itip_epc_uri y) (lit "urn:epc:id:itip:4012345.012345.01.02.987")
                            | Raise _ => false
                            end
            | _, _ => false
            end
  | Raise _ => false
  end = true.
Proof. vm_compute. reflexivity. Qed.
Example C18_itip_case2 :
  match itip_init (lit "urn:epc:id:itip:4012345.012345.01.98.mw133%2F") with
  | Ok x => match itip_tag_uri x ITIP_212 3, itip_binary x ITIP_212 3 with
            | Ok t, Ok b => match itip_from_binary (b ++ lit "0110") with
                            | Ok y => str_eqb (itip_epc_uri y) (lit "urn:epc:id:itip:4012345.012345.01.98.mw133%2F")
                            | Raise _ => false
                            end
            | _, _ => false
            end
  | Raise _ => false
  end = true.
Proof. vm_compute. reflexivity. Qed.

Theorem C19_gid_binary_roundtrip : forall u x s, 
  gid_init u = Ok x -> ascii u ->
  exists b, gid_binary x s = Ok b /\ bitstring b /\ length b = 96%nat /\ forall extra, gid_from_binary (b ++ extra) = Ok x.
Proof. exact gid_roundtrip. Qed.
Print Assumptions C19_gid_binary_roundtrip.
Example C19_gid_case1 :
  match gid_init (lit "urn:epc:id:gid:95100000.12345.400") with
  | Ok x => match gid_tag_uri x GID_96, gid_binary x GID_96 with
            | Ok t, Ok b => match gid_from_binary (b ++ lit "0110") with
                            | Ok y => str_eqb (gid_epc_uri y) (lit "urn:epc:id:gid:95100000.12345.400")
                            | Raise _ => false
                            end
            | _, _ => false
            end
  | Raise _ => false
  end = true.
Proof. vm_compute. reflexivity. Qed.

Theorem C20_usdod_binary_roundtrip : forall u x s f, 
  usdod_init u = Ok x -> ascii u -> f < 16 ->
  exists b, usdod_binary x s f = Ok b /\ bitstring b /\ length b = 96%nat /\ forall extra, usdod_from_binary (b ++ extra) = Ok x.
Proof. exact usdod_roundtrip. Qed.
Print Assumptions C20_usdod_binary_roundtrip.
Example C20_usdod_case1 :
  match usdod_init (lit "urn:epc:id:usdod:2S194.12345678901") with
  | Ok x => match usdod_tag_uri x USDOD_96 15, usdod_binary x USDOD_96 15 with
            | Ok t, Ok b => match usdod_from_binary (b ++ lit "0110") with
                            | Ok y => str_eqb (usdod_epc_uri y) (lit "urn:epc:id:usdod:2S194.12345678901")
                            | Raise _ => false
                            end
            | _, _ => false
            end
  | Raise _ => false
  end = true.
Proof. vm_compute. reflexivity. Qed.

(** a piece number or total of 99 is refused, though seven bits and the URI grammar have room for it *)
Theorem C18_itip_99_refused : forall u x s f, 
  itip_init u = Ok x -> f < 8 -> length (itip_piece x) = 2%nat -> length (itip_total x) = 2%nat ->
  99 <= decimal (itip_piece x) \/ 99 <= decimal (itip_total x) -> itip_binary x s f = Raise ConvertException.
Proof. exact itip_99_refused. Qed.
Print Assumptions C18_itip_99_refused.
Example C18_itip_99_case :
  match itip_init (lit "urn:epc:id:itip:4012345.012345.99.99.987") with
  | Ok x => match itip_tag_uri x ITIP_110 3, itip_binary x ITIP_110 3 with Ok _, Raise ConvertException => true | _, _ => false end
  | Raise _ => false
  end = true.
Proof. vm_compute. reflexivity. Qed.

(** ADI decodes to the same object exactly when no six zeros stand before the terminator of the part number *)
Theorem C21_adi_binary_roundtrip_iff : forall u x s f, 
  adi_init u = Ok x -> f < 64 ->
  exists b, adi_binary x s f = Ok b /\ bitstring b /\
    length b = (62 + 6 * (length (unescape6 (adi_part x)) + length (unescape6 (adi_serial x))))%nat /\
    forall extra, bitstring extra -> (adi_from_binary (b ++ extra) = Ok x <-> no_early_zeros (adi_part x)).
Proof. exact adi_roundtrip. Qed.
Print Assumptions C21_adi_binary_roundtrip_iff.
(** both happen: the code of E is odd; that of B is even, and 12B.BB comes back as 12.AA *)
Example C21_adi_case1 :
  match adi_init (lit "urn:epc:id:adi:2S194.123E.%23AB") with
  | Ok x => match adi_tag_uri x ADI_VAR 5, adi_binary x ADI_VAR 5 with
            | Ok t, Ok b => match adi_from_binary (b ++ lit "0110") with
                            | Ok y => str_eqb (adi_epc_uri y) (lit "urn:epc:id:adi:2S194.123E.%23AB")
                            | Raise _ => false
                            end
            | _, _ => false
            end
  | Raise _ => false
  end = true.
Proof. vm_compute. reflexivity. Qed.
Theorem C21_adi_roundtrip_refuted : exists u x b y, adi_init u = Ok x /\ adi_binary x ADI_VAR 5 = Ok b /\
  adi_from_binary b = Ok y /\ epc_eqb (E_ADI y) (E_ADI x) = false.
Proof. exact adi_even_refuted. Qed.
Print Assumptions C21_adi_roundtrip_refuted.
