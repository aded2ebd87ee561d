(** GTIN views and SGTIN.from_gtin_plus_serial: C32 and C33. *)
From Coq Require Import String Lia.
From Verif.Model Require Import Py Re Regexes Common Base.
From Verif.Model Require Import Adi Cpi Gdti Giai Gid Grai Gsrn Gsrnp Itip Lgtin Sgcn Sgln Sgtin Sscc Usdod Others Parsers Calls.
From Verif.Spec Require Import Spec SpecEscapes SpecGrammar SpecSchemes SpecGtin.
From Verif.Proofs Require Import Gtin GtinInt.

Theorem C32_sgtin_views : forall u x, 
  sgtin_init u = Ok x -> exists g, sgtin_gtin x GTIN14 = Ok g /\ length g = 14%nat /\ forall t,
  (forall v, sgtin_gtin x t = Ok v <-> gtin_of_kind t v g) /\ (forall e, sgtin_gtin x t = Raise e -> e = ConvertException).
Proof. exact sgtin_views. Qed.
Print Assumptions C32_sgtin_views.
Theorem C32_lgtin_views : forall u x, 
  lgtin_init u = Ok x -> exists g, lgtin_gtin x GTIN14 = Ok g /\ length g = 14%nat /\ forall t,
  (forall v, lgtin_gtin x t = Ok v <-> gtin_of_kind t v g) /\ (forall e, lgtin_gtin x t = Raise e -> e = ConvertException).
Proof. exact lgtin_views. Qed.
Print Assumptions C32_lgtin_views.
Theorem C32_sgtin_integer : forall u x, sgtin_init u = Ok x -> exists g, sgtin_gtin x GTIN14 = Ok g /\ length g = 14%nat /\
  (forall t, sgtin_gtin_int x (Z.of_nat (gtin_len t)) = sgtin_gtin x t) /\
  forall k, (forall v, sgtin_gtin_int x k = Ok v <-> gtin_for_integer k v g) /\ (forall e, sgtin_gtin_int x k = Raise e -> e = ConvertException).
Proof. exact sgtin_integer. Qed.
Print Assumptions C32_sgtin_integer.
Theorem C32_lgtin_integer : forall u x, lgtin_init u = Ok x -> exists g, lgtin_gtin x GTIN14 = Ok g /\ length g = 14%nat /\
  (forall t, lgtin_gtin_int x (Z.of_nat (gtin_len t)) = lgtin_gtin x t) /\
  forall k, (forall v, lgtin_gtin_int x k = Ok v <-> gtin_for_integer k v g) /\ (forall e, lgtin_gtin_int x k = Raise e -> e = ConvertException).
Proof. exact lgtin_integer. Qed.
Print Assumptions C32_lgtin_integer.
(** 11 finds the digits after three zeros wanting, 0 and -1 are refused, 16 gives the last two digits, 99 all of them *)
Example C32_integer_case :
  match sgtin_init (lit "urn:epc:id:sgtin:0614141.012345.1") with
  | Ok x => match sgtin_gtin_int x 11, sgtin_gtin_int x 0, sgtin_gtin_int x (-1), sgtin_gtin_int x 13, sgtin_gtin_int x 16, sgtin_gtin_int x 99 with
            | Raise ConvertException, Raise ConvertException, Raise ConvertException, Ok a, Ok b, Ok c =>
                str_eqb a (lit "0614141123452") && str_eqb b (lit "52") && str_eqb c (lit "00614141123452")
            | _, _, _, _, _, _ => false
            end
  | _ => false
  end = true.
Proof. vm_compute. reflexivity. Qed.
(** a GTIN-14 with exactly one leading zero has a GTIN-13 and no GTIN-12 *)
Example C32_case :
  match sgtin_init (lit "urn:epc:id:sgtin:0614141.012345.1") with
  | Ok x => match sgtin_gtin x GTIN14, sgtin_gtin x GTIN12, sgtin_gtin x GTIN13, sgtin_gtin x GTIN8 with
            | Ok a, Ok b, Ok c, Raise ConvertException => str_eqb a (lit "00614141123452") && str_eqb b (lit "614141123452") && str_eqb c (lit "0614141123452")
            | _, _, _, _ => false
            end
  | _ => false
  end = true.
Proof. vm_compute. reflexivity. Qed.
Example C32_gtin8_case :
  match lgtin_init (lit "urn:epc:class:lgtin:000000.0012345.1") with
  | Ok x => match lgtin_gtin x GTIN8 with Ok v => str_eqb v (lit "00123457") | _ => false end
  | _ => false
  end = true.
Proof. vm_compute. reflexivity. Qed.

Theorem C33_inverse : forall u cp item serial x t v, 
  sgtin_uri u cp item serial -> sgtin_init u = Ok x -> sgtin_gtin x t = Ok v ->
  sgtin_from_gtin_plus_serial v serial (Z.of_nat (length cp)) = Ok x.
Proof. exact plus_serial_back. Qed.
Print Assumptions C33_inverse.
Theorem C33_accepted : forall g serial l x, 
  digits g -> sgtin_from_gtin_plus_serial g serial l = Ok x ->
  exists cp item full, sgtin_uri (sgtin_epc_uri x) cp item serial /\ sgtin_init (sgtin_epc_uri x) = Ok x /\
    (l = Z.of_nat (length cp) \/ l < 0)%Z /\ sgtin_gtin x GTIN14 = Ok full /\ gtin_rechecked g full.
Proof. exact plus_serial_accept. Qed.
Print Assumptions C33_accepted.
Theorem C33_check_digit : forall g serial l x, 
  length g = 14%nat -> digits g -> sgtin_from_gtin_plus_serial g serial l = Ok x ->
  (sgtin_gtin x GTIN14 = Ok g <-> exists body, completed body g).
Proof. exact plus_serial_check. Qed.
Print Assumptions C33_check_digit.
(** the GTIN-12 view with its serial gives the object back; a wrong check digit is put right without a word *)
Example C33_case :
  match sgtin_from_gtin_plus_serial (lit "614141123452") (lit "1") 7, sgtin_from_gtin_plus_serial (lit "00614141123459") (lit "1") 7 with
  | Ok x, Ok y => str_eqb (sgtin_epc_uri x) (lit "urn:epc:id:sgtin:0614141.012345.1") && str_eqb (sgtin_epc_uri y) (sgtin_epc_uri x)
  | _, _ => false
  end = true.
Proof. vm_compute. reflexivity. Qed.
(** a negative length counts from the right *)
Example C33_negative_case :
  match sgtin_from_gtin_plus_serial (lit "00614141123452") (lit "1") (-8) with
  | Ok x => str_eqb (sgtin_epc_uri x) (lit "urn:epc:id:sgtin:061414.0112345.1")
  | _ => false
  end = true.
Proof. vm_compute. reflexivity. Qed.
