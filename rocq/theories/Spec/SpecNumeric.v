(** Numeric serials: what Python's int() reads in a serial component, and which coding schemes write a number. *)
From Coq Require Import String ZArith.
From Verif.Model Require Import Py Parsers.
From Verif.Model Require Import Cpi Gdti Giai Grai Itip Sgln Sgtin.
From Verif.Spec Require Import Spec SpecEscapes SpecGrammar SpecSchemes SpecTags SpecLayout.

(** [s] continues a number with the digits [d]; an underscore may stand between two digits *)
Inductive more_digits : str -> str -> Prop :=
| more_end : more_digits [] []
| more_digit c s d : 48 <= c <= 57 -> more_digits s d -> more_digits (c :: s) (c :: d)
| more_underscore c s d : 48 <= c <= 57 -> more_digits s d -> more_digits (95 :: c :: s) (c :: d).
(** [s] reads as the integer [z]: an optional sign and digits *)
Definition int_literal (s : str) (z : Z) : Prop :=
  exists sign c b d, s = sign ++ c :: b /\ 48 <= c <= 57 /\ more_digits b d /\
    ((sign = [] \/ sign = lit "+") /\ z = Z.of_N (decimal (c :: d)) \/
     sign = lit "-" /\ z = (- Z.of_N (decimal (c :: d)))%Z).

(** the serial and the width of its field, for the coding schemes that write any serial as a number *)
Definition numeric_serial (q : tagreq) : option (str * nat) :=
  match q with
  | T_SGTIN x SGTIN_96 _ => Some (sgtin_serial x, 38%nat)
  | T_SGLN x SGLN_96 _ => Some (sgln_serial x, 41%nat)
  | T_GRAI x GRAI_96 _ => Some (grai_serial x, 38%nat)
  | T_GDTI x GDTI_96 _ => Some (gdti_serial x, 41%nat)
  | T_ITIP x ITIP_110 _ => Some (itip_serial x, 38%nat)
  | T_CPI x CPI_96 _ => Some (cpi_serial x, 31%nat)
  | T_GIAI x GIAI_96 _ => Some (giai_asset x, N.to_nat (giai_96_bits (length (giai_cp x))))
  | _ => None
  end.
(** the URI of the same object with another serial *)
Definition serial_replaced (q : tagreq) (s : str) : str :=
  match q with
  | T_SGTIN x _ _ => lit "urn:epc:id:sgtin:" ++ sgtin_cp x ++ lit "." ++ sgtin_item x ++ lit "." ++ s
  | T_SGLN x _ _ => lit "urn:epc:id:sgln:" ++ sgln_cp x ++ lit "." ++ sgln_loc x ++ lit "." ++ s
  | T_GRAI x _ _ => lit "urn:epc:id:grai:" ++ grai_cp x ++ lit "." ++ grai_asset x ++ lit "." ++ s
  | T_GDTI x _ _ => lit "urn:epc:id:gdti:" ++ gdti_cp x ++ lit "." ++ gdti_doc x ++ lit "." ++ s
  | T_ITIP x _ _ => lit "urn:epc:id:itip:" ++ itip_cp x ++ lit "." ++ itip_item x ++ lit "." ++ itip_piece x ++
                    lit "." ++ itip_total x ++ lit "." ++ s
  | T_CPI x _ _ => lit "urn:epc:id:cpi:" ++ cpi_cp x ++ lit "." ++ cpi_ref x ++ lit "." ++ s
  | T_GIAI x _ _ => lit "urn:epc:id:giai:" ++ giai_cp x ++ lit "." ++ s
  | _ => []
  end.
(** The other parts have room: piece and total of an ITIP, and the part reference of a CPI, which cpi-96 writes as a number. *)
Definition parts_fit (q : tagreq) : Prop :=
  pieces_fit q /\
  match q with
  | T_CPI x CPI_96 _ => numeral (cpi_ref x) /\ (length (cpi_cp x) + length (cpi_ref x) <= 15)%nat
  | _ => True
  end.
(** of a GIAI: no further colon, after which nothing is read *)
Definition whole_uri (q : tagreq) (u : str) : Prop :=
  class_of (req_epc q) = C_GIAI -> exists body, u = lit "urn:epc:id:giai:" ++ body /\ ~ In 58 body.
