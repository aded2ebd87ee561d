(** What an element string keeps of a pure identity URI, and what a GS1 key keeps.  Nothing of the program is used. *)
From Coq Require Import String.
From Verif.Model Require Import Py Parsers.
From Verif.Spec Require Import Spec SpecEscapes SpecGrammar.

(** [u] is a URI of class [c] whose digit groups, run together in the order of the key, are [d], and whose serial, as
    plain text, is [t].  The point that ends the company prefix is gone, and so is the way escapes were spelled. *)
Definition content (c : cls) (u d t : str) : Prop :=
  match c with
  | C_SGTIN => exists cp i rest serial, sgtin_uri u cp (i :: rest) serial /\ d = i :: cp ++ rest /\ t = unescape serial
  | C_LGTIN => exists cp i rest lot, lgtin_uri u cp (i :: rest) lot /\ d = i :: cp ++ rest /\ t = unescape lot
  | C_UPUI => exists cp i rest tpx, upui_uri u cp (i :: rest) tpx /\ d = i :: cp ++ rest /\ t = unescape tpx
  | C_SSCC => exists cp i rest, sscc_uri u cp (i :: rest) /\ d = i :: cp ++ rest /\ t = []
  | C_SGLN => exists cp loc ext, sgln_uri u cp loc ext /\ d = cp ++ loc /\ t = unescape ext
  | C_GRAI => exists cp asset serial, grai_uri u cp asset serial /\ d = cp ++ asset /\ t = unescape serial
  | C_GDTI => exists cp doc serial, gdti_uri u cp doc serial /\ d = cp ++ doc /\ t = unescape serial
  | C_SGCN => exists cp coupon serial, sgcn_uri u cp coupon serial /\ d = cp ++ coupon /\ t = serial
  | C_GIAI => exists cp asset ignored, giai_uri u cp asset ignored /\ d = [] /\ t = cp ++ unescape asset
  | C_GINC => exists cp ref, ginc_uri u cp ref /\ d = [] /\ t = cp ++ unescape ref
  | C_GSRN => exists cp service, gsrn_uri u cp service /\ d = cp ++ service /\ t = []
  | C_GSRNP => exists cp service, gsrnp_uri u cp service /\ d = cp ++ service /\ t = []
  | C_GSIN => exists cp ref, gsin_uri u cp ref /\ d = cp ++ ref /\ t = []
  | C_PGLN => exists cp party, pgln_uri u cp party /\ d = cp ++ party /\ t = []
  | C_ITIP => exists cp i rest piece total serial gtin, itip_uri u cp (i :: rest) piece total serial /\
                completed (i :: cp ++ rest) gtin /\ d = gtin ++ piece ++ total /\ t = unescape serial
  | C_CPI => exists cp x serial, cpi_uri u cp (escape6 x) serial /\ six_bit_text x /\ d = cp ++ x /\ t = serial
  | _ => False
  end.

(** the same for the GS1 key: the serial of a SGTIN, the lot of a LGTIN and the extension of a SGLN are gone too *)
Definition key_content (c : cls) (u d t : str) : Prop :=
  match c with
  | C_SGTIN | C_LGTIN | C_SGLN => t = [] /\ exists t', content c u d t'
  | C_SSCC | C_GRAI | C_GDTI | C_SGCN | C_GIAI | C_GINC | C_GSRN | C_GSRNP | C_GSIN | C_PGLN => content c u d t
  | _ => False
  end.

(** [u], a URI of class [c] with company prefix [cp], spells its serial the standard way *)
Definition plainly_spelled (c : cls) (u cp : str) : Prop :=
  match c with
  | C_SGTIN => exists item serial, sgtin_uri u cp item serial /\ canonical_serial serial
  | C_LGTIN => exists item lot, lgtin_uri u cp item lot /\ canonical_serial lot
  | C_UPUI => exists item tpx, upui_uri u cp item tpx /\ canonical_serial tpx
  | C_SGLN => exists loc ext, sgln_uri u cp loc ext /\ canonical_serial ext
  | C_GRAI => exists asset serial, grai_uri u cp asset serial /\ canonical_serial serial
  | C_GDTI => exists doc serial, gdti_uri u cp doc serial /\ canonical_serial serial
  | C_GIAI => exists asset, giai_uri u cp asset [] /\ canonical_serial asset
  | C_GINC => exists ref, ginc_uri u cp ref /\ canonical_serial ref
  | C_ITIP => exists item piece total serial, itip_uri u cp item piece total serial /\ canonical_serial serial /\
                length piece = 2%nat /\ length total = 2%nat
  | C_SGCN => exists coupon serial, sgcn_uri u cp coupon serial
  | C_CPI => exists ref serial, cpi_uri u cp ref serial
  | C_SSCC => exists serial, sscc_uri u cp serial
  | C_GSRN => exists service, gsrn_uri u cp service
  | C_GSRNP => exists service, gsrnp_uri u cp service
  | C_GSIN => exists ref, gsin_uri u cp ref
  | C_PGLN => exists party, pgln_uri u cp party
  | _ => False
  end.
