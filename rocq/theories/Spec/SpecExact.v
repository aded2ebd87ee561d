(** Which requests survive being written on a tag and read back. *)
From Coq Require Import String.
From Verif.Model Require Import Py Parsers.
From Verif.Model Require Import Adi Cpi Gdti Giai Gid Grai Gsrn Gsrnp Itip Sgcn Sgln Sgtin Sscc Usdod.
From Verif.Spec Require Import Spec SpecEscapes SpecGrammar SpecSchemes SpecTags SpecLayout.

(** the numbers fit the bits of their fields; this differs from [coding_has_room] in CPI-96 only, where tag_uri
    counts digits *)
Definition field_room (q : tagreq) : Prop :=
  match q with
  | T_CPI x CPI_96 _ =>
      numeral (cpi_ref x) /\ decimal (cpi_ref x) < 2 ^ N.of_nat (51 - prefix_bits (length (cpi_cp x))) /\
      decimal (cpi_serial x) < 2 ^ 31
  | _ => coding_has_room q
  end.
(** the URI [u] of a GIAI ends where giai.py stops to read it *)
Definition nothing_ignored (u : str) : Prop := exists body, u = lit "urn:epc:id:giai:" ++ body /\ ~ In 58 body.
(** the request [q] for the object built from [u] comes back *)
Definition survives (q : tagreq) (u : str) : Prop :=
  ascii u /\ field_room q /\ canonical_request q /\ pieces_fit q /\
  match q with
  | T_GIAI _ _ _ => nothing_ignored u
  | T_ADI x _ _ => no_early_zeros (adi_part x)
  | _ => True
  end.

(** ITIP: piece and total have two digits *)
Definition two_digit_pieces (q : tagreq) : Prop :=
  match q with T_ITIP x _ _ => length (itip_piece x) = 2%nat /\ length (itip_total x) = 2%nat | _ => True end.
(** an object read from a tag, written and read again, comes back *)
Definition rewritable (q : tagreq) : Prop :=
  match q with
  | T_ITIP x _ _ => decimal (itip_piece x) < 99 /\ decimal (itip_total x) < 99
  | T_GIAI x _ _ => nothing_ignored (giai_epc_uri x)
  | T_ADI x _ _ => no_early_zeros (adi_part x)
  | _ => True
  end.
