(** The binary headers of the Tag Data Standard (table 14-1), and how many filter values each scheme has. *)
From Coq Require Import String.
From Verif.Model Require Import Py Parsers.
From Verif.Spec Require Import Spec SpecGrammar SpecHex.

(** scheme, coding scheme, header in hexadecimal *)
Definition tds_headers : list (cls * str * str) :=
  [(C_GDTI, lit "gdti-96", lit "2C"); (C_GSRN, lit "gsrn-96", lit "2D"); (C_GSRNP, lit "gsrnp-96", lit "2E");
   (C_USDOD, lit "usdod-96", lit "2F"); (C_SGTIN, lit "sgtin-96", lit "30"); (C_SSCC, lit "sscc-96", lit "31");
   (C_SGLN, lit "sgln-96", lit "32"); (C_GRAI, lit "grai-96", lit "33"); (C_GIAI, lit "giai-96", lit "34");
   (C_GID, lit "gid-96", lit "35"); (C_SGTIN, lit "sgtin-198", lit "36"); (C_GRAI, lit "grai-170", lit "37");
   (C_GIAI, lit "giai-202", lit "38"); (C_SGLN, lit "sgln-195", lit "39"); (C_ADI, lit "adi-var", lit "3B");
   (C_CPI, lit "cpi-96", lit "3C"); (C_CPI, lit "cpi-var", lit "3D"); (C_GDTI, lit "gdti-174", lit "3E");
   (C_SGCN, lit "sgcn-96", lit "3F"); (C_ITIP, lit "itip-110", lit "40"); (C_ITIP, lit "itip-212", lit "41")].
Definition filter_count (c : cls) : N :=
  match c with
  | C_ADI => 64
  | C_USDOD => 16
  | C_CPI | C_GDTI | C_GIAI | C_GRAI | C_GSRN | C_GSRNP | C_ITIP | C_SGCN | C_SGLN | C_SGTIN | C_SSCC => 8
  | _ => 0
  end.
(** the name of a coding scheme as a Python identifier: upper case, with _ for - *)
Definition identifier_char (c d : N) : Prop :=
  (97 <= c <= 122 /\ d = c - 32) \/ (c = 45 /\ d = 95) \/ (48 <= c <= 57 /\ d = c).
Definition member_name (coding name : str) : Prop := Forall2 identifier_char coding name.
(** the decimal spelling of a number *)
Definition spelled (n : N) (s : str) : Prop := ascii_digits s /\ numeral s /\ decimal s = n.
