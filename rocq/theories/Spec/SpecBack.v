(** Which URIs come back from a tag, said of the URIs as texts. *)
From Coq Require Import String.
From Verif.Model Require Import Py.
From Verif.Spec Require Import Spec SpecEscapes SpecGrammar SpecSchemes SpecTags SpecLayout SpecCoding.
Open Scope N_scope.
Open Scope list_scope.

(** ITIP: piece and total have two digits, and none is 99 *)
Definition small_piece (s : str) : Prop := length s = 2%nat /\ decimal s < 99.
(** A tag of the coding scheme [k] gives the URI [u] back: [u] is ASCII; what is written as a number is one, without superfluous leading zero, that fits
    its field; what is written as text has its escapes spelled the one way they are read; nothing of a GIAI is left out; piece and total of an ITIP are
    small; and no six zero bits stand in the part number of an ADI before those that close it. *)
Definition comes_back (k : coding) (u : str) : Prop :=
  ascii u /\
  match k with
  | K_SGTIN_96 => exists cp item serial, sgtin_uri u cp item serial /\ serial_fits serial 38
  | K_SGTIN_198 => exists cp item serial, sgtin_uri u cp item serial /\ canonical_text serial
  | K_SGLN_96 => exists cp loc ext, sgln_uri u cp loc ext /\ serial_fits ext 41
  | K_SGLN_195 => exists cp loc ext, sgln_uri u cp loc ext /\ canonical_text ext
  | K_GRAI_96 => exists cp asset serial, grai_uri u cp asset serial /\ serial_fits serial 38
  | K_GRAI_170 => exists cp asset serial, grai_uri u cp asset serial /\ canonical_text serial
  | K_GDTI_96 => exists cp doc serial, gdti_uri u cp doc serial /\ serial_fits serial 41
  | K_GDTI_174 => exists cp doc serial, gdti_uri u cp doc serial /\ canonical_text serial
  | K_GIAI_96 => exists cp asset, giai_uri u cp asset [] /\ serial_fits asset (giai_96_bits (length cp)) /\ (length cp + length asset <= 25)%nat
  | K_GIAI_202 => exists cp asset, giai_uri u cp asset [] /\ canonical_text asset
  | K_ITIP_110 => exists cp item piece total serial, itip_uri u cp item piece total serial /\ small_piece piece /\ small_piece total /\ serial_fits serial 38
  | K_ITIP_212 => exists cp item piece total serial, itip_uri u cp item piece total serial /\ small_piece piece /\ small_piece total /\ canonical_text serial
  | K_CPI_96 => exists cp ref serial, cpi_uri u cp ref serial /\ numeral ref /\
      decimal ref < 2 ^ N.of_nat (51 - prefix_bits (length cp)) /\ decimal serial < 2 ^ 31
  | K_ADI_VAR => exists cage part serial, adi_uri u cage part serial /\ no_early_zeros part
  | _ => True
  end.
