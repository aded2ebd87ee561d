(** When a coding scheme has room for an object. *)
From Coq Require Import String.
From Verif.Model Require Import Py Parsers.
From Verif.Model Require Import Adi Cpi Gdti Giai Gid Grai Gsrn Gsrnp Itip Sgcn Sgln Sgtin Sscc Usdod.
From Verif.Spec Require Import Spec SpecEscapes SpecGrammar SpecSchemes.

(** a number without superfluous leading zero that fits [bits] bits *)
Definition serial_fits (s : str) (bits : N) : Prop := numeral s /\ decimal s < 2 ^ bits.

(** giai-96: 82 bits are shared by company prefix and asset reference; GS1 TDS table 14-15 *)
Definition giai_96_bits (prefix_length : nat) : N :=
  match prefix_length with
  | 12%nat => 42 | 11%nat => 45 | 10%nat => 48 | 9%nat => 52 | 8%nat => 55 | 7%nat => 58 | _ => 62
  end.

(** the numeric coding schemes restrict the serial; cpi-96 also the part reference, which shares 15 digits
    with the company prefix; the others have room for every object of their class *)
Definition coding_has_room (q : tagreq) : Prop :=
  match q with
  | T_SGTIN x SGTIN_96 _ => serial_fits (sgtin_serial x) 38
  | T_ITIP x ITIP_110 _ => serial_fits (itip_serial x) 38
  | T_GRAI x GRAI_96 _ => serial_fits (grai_serial x) 38
  | T_SGLN x SGLN_96 _ => serial_fits (sgln_serial x) 41
  | T_GDTI x GDTI_96 _ => serial_fits (gdti_serial x) 41
  | T_GIAI x GIAI_96 _ =>
      serial_fits (giai_asset x) (giai_96_bits (length (giai_cp x))) /\
      (length (giai_cp x) + length (giai_asset x) <= 25)%nat
  | T_CPI x CPI_96 _ =>
      numeral (cpi_ref x) /\ (length (cpi_cp x) + length (cpi_ref x) <= 15)%nat /\ decimal (cpi_serial x) < 2 ^ 31
  | _ => True
  end.

(** [r] is a value exactly when [P] holds, and ConvertException otherwise *)
Definition succeeds_exactly_if {A} (r : res A) (P : Prop) : Prop :=
  (P -> exists t, r = Ok t) /\ (~ P -> r = Raise ConvertException).
