(** binary() on the serials tag_uri() refuses: C35. *)
From Coq Require Import String Lia.
From Verif.Model Require Import Py Re Regexes Common Base.
From Verif.Model Require Import Adi Cpi Gdti Giai Gid Grai Gsrn Gsrnp Itip Lgtin Sgcn Sgln Sgtin Sscc Usdod Others Parsers.
From Verif.Spec Require Import Spec SpecEscapes SpecGrammar SpecSchemes SpecTags SpecLayout SpecNumeric.
From Verif.Proofs Require Import Uni NumSerial.

Theorem C35_number : forall q u s w z, 
  init_of (class_of (req_epc q)) u = Ok (req_epc q) -> ascii u -> filter_fits q -> parts_fit q ->
  numeric_serial q = Some (s, w) -> int_literal s z -> (0 <= z)%Z ->
  exists size k b n e, coding_bits q = Some size /\ req_binary q = Ok b /\ bitstring b /\ length b = (size + k)%nat /\
    (z < 2 ^ Z.of_nat (w + k))%Z /\ (k = 0%nat \/ 2 ^ Z.of_nat (w + k - 1) <= z)%Z /\
    numeral n /\ ascii n /\ Z.of_N (decimal n) = (z / 2 ^ Z.of_nat k)%Z /\
    init_of (class_of (req_epc q)) (serial_replaced q n) = Ok e /\
    forall extra, from_binary_of (class_of (req_epc q)) (b ++ extra) = Ok e.
Proof. exact numeric_number. Qed.
Print Assumptions C35_number.
Theorem C35_negative : forall q u s w z, 
  init_of (class_of (req_epc q)) u = Ok (req_epc q) -> ascii u -> filter_fits q -> parts_fit q ->
  numeric_serial q = Some (s, w) -> int_literal s z -> (z < 0)%Z ->
  exists a b, req_binary q = Ok (a ++ lit "-" ++ b) /\ bitstring a /\ bitstring b /\ req_hex q = Raise ValueError.
Proof. exact numeric_negative. Qed.
Print Assumptions C35_negative.
Theorem C35_no_number : forall q u s w, 
  init_of (class_of (req_epc q)) u = Ok (req_epc q) -> ascii u -> filter_fits q -> parts_fit q ->
  numeric_serial q = Some (s, w) -> (forall z, ~ int_literal s z) -> req_binary q = Raise ValueError.
Proof. exact numeric_none. Qed.
Print Assumptions C35_no_number.
Theorem C35_exact : forall q u s w b, 
  init_of (class_of (req_epc q)) u = Ok (req_epc q) -> ascii u -> filter_fits q -> parts_fit q ->
  numeric_serial q = Some (s, w) -> whole_uri q u -> req_binary q = Ok b -> bitstring b ->
  (from_binary_of (class_of (req_epc q)) b = Ok (req_epc q) <-> exists t, req_tag_uri q = Ok t).
Proof. exact numeric_exact. Qed.
Print Assumptions C35_exact.
(** cpi-96 also writes the part reference as a number *)
Theorem C35_cpi_reference : forall u x f,
  cpi_init u = Ok x -> (forall z, ~ int_literal (cpi_ref x) z) -> cpi_binary x CPI_96 f = Raise ValueError.
Proof. exact cpi_reference_none. Qed.
Print Assumptions C35_cpi_reference.

(** serials that are other spellings of 7, and the tag of 7 *)
Definition C35_tag (serial : string) : res str :=
  let* x := sgtin_init (lit "urn:epc:id:sgtin:0614141.812345." ++ lit serial) in req_hex (T_SGTIN x SGTIN_96 3).
Example C35_spellings_case :
  C35_tag "7" = C35_tag "007" /\ C35_tag "7" = C35_tag "+7" /\ C35_tag "7" = C35_tag "0_7" /\
  C35_tag "7" = Ok (lit "3074257BF7194E4000000007") /\ C35_tag "-7" = Raise ValueError /\ C35_tag "7a" = Raise ValueError.
Proof. repeat split; vm_compute; reflexivity. Qed.
(** a serial of 39 bits: the tag has 97 bits, and reading it gives the serial halved *)
Example C35_too_big_case :
  match sgtin_init (lit "urn:epc:id:sgtin:0614141.812345.400000000001") with
  | Ok x => match req_binary (T_SGTIN x SGTIN_96 3), req_tag_uri (T_SGTIN x SGTIN_96 3) with
            | Ok b, Raise ConvertException => Nat.eqb (length b) 97 && match sgtin_from_binary b with
                | Ok y => str_eqb (sgtin_epc_uri y) (lit "urn:epc:id:sgtin:0614141.812345.200000000000")
                | _ => false
                end
            | _, _ => false
            end
  | _ => false
  end = true.
Proof. vm_compute. reflexivity. Qed.
Example C35_literal_case : int_literal (lit "+1_0") 10 /\ int_literal (lit "-5") (-5) /\ int_literal (lit "007") 7.
Proof.
  split; [|split].
  - exists (lit "+"), 49, (lit "_0"), (lit "0"). split; [reflexivity|]. split; [lia|]. split; [apply (more_underscore 48 [] []); [lia|apply more_end]|].
    left. split; [right; reflexivity|reflexivity].
  - exists (lit "-"), 53, [], []. split; [reflexivity|]. split; [lia|]. split; [apply more_end|]. right. split; reflexivity.
  - exists [], 48, (lit "07"), (lit "07"). split; [reflexivity|]. split; [lia|]. split; [apply (more_digit 48 [55] [55]); [lia|]; apply (more_digit 55 [] []); [lia|apply more_end]|].
    left. split; [left; reflexivity|reflexivity].
Qed.
(** an asset reference of 59 bits, where there is room for 58, and one with a leading zero; a serial of 32 bits, where there is room for 31 *)
Definition C35_read_giai (u : string) : res str :=
  let* x := giai_init (lit u) in let* b := req_binary (T_GIAI x GIAI_96 1) in let* y := giai_from_binary b in Ok (giai_epc_uri y).
Definition C35_read_cpi (u : string) : res str :=
  let* x := cpi_init (lit u) in let* b := req_binary (T_CPI x CPI_96 1) in let* y := cpi_from_binary b in Ok (cpi_epc_uri y).
Example C35_giai_case :
  C35_read_giai "urn:epc:id:giai:0614141.288230376151711744" = Ok (lit "urn:epc:id:giai:0614141.144115188075855872") /\
  C35_read_giai "urn:epc:id:giai:0614141.012345" = Ok (lit "urn:epc:id:giai:0614141.12345") /\
  C35_read_giai "urn:epc:id:giai:0614141.12345" = Ok (lit "urn:epc:id:giai:0614141.12345") /\
  C35_read_giai "urn:epc:id:giai:0614141.32a" = Raise ValueError.
Proof. repeat split; vm_compute; reflexivity. Qed.
Example C35_cpi_case :
  C35_read_cpi "urn:epc:id:cpi:0614141.123456.2147483649" = Ok (lit "urn:epc:id:cpi:0614141.123456.1073741824") /\
  C35_read_cpi "urn:epc:id:cpi:0614141.123456.2147483647" = Ok (lit "urn:epc:id:cpi:0614141.123456.2147483647") /\
  C35_read_cpi "urn:epc:id:cpi:0614141.5PQ7.12" = Raise ValueError.
Proof. repeat split; vm_compute; reflexivity. Qed.
Definition C35_cpi : cpi :=
  mkCpi (lit "urn:epc:id:cpi:0614141.123456.2147483649") (lit "0614141") (lit "123456") (lit "2147483649").
Example C35_parts_case :
  cpi_init (lit "urn:epc:id:cpi:0614141.123456.2147483649") = Ok C35_cpi /\ parts_fit (T_CPI C35_cpi CPI_96 1) /\
  numeric_serial (T_CPI C35_cpi CPI_96 1) = Some (lit "2147483649", 31%nat).
Proof.
  split; [vm_compute; reflexivity|]. split; [|reflexivity]. split; [exact I|]. split; [|cbn; lia].
  right. exists 49, (lit "23456"). split; [reflexivity|]. split; [lia|]. apply Uni.digits_iff. vm_compute. reflexivity.
Qed.
