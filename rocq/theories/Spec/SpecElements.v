(** GS1 element strings: GS1 General Specifications, section 3, as bracketed application identifiers followed by
    their data.  Nothing of the program is used. *)
From Coq Require Import String.
From Verif.Model Require Import Py Parsers.
From Verif.Spec Require Import Spec SpecEscapes SpecGrammar SpecSchemes.

(** exactly [n] decimal digits *)
Definition ndigits (n : nat) (d : str) : Prop := digits d /\ length d = n.
(** one to [n] AI-82 characters *)
Definition ai82_upto (n : nat) (t : str) : Prop := ai82_text t /\ (1 <= length t <= n)%nat.

(** the element strings of a class *)
Definition element_string (c : cls) (s : str) : Prop :=
  match c with
  | C_SGTIN => exists d t, s = lit "(01)" ++ d ++ lit "(21)" ++ t /\ ndigits 14 d /\ ai82_upto 20 t
  | C_LGTIN => exists d t, s = lit "(01)" ++ d ++ lit "(10)" ++ t /\ ndigits 14 d /\ ai82_upto 20 t
  | C_UPUI => exists d t, s = lit "(01)" ++ d ++ lit "(235)" ++ t /\ ndigits 14 d /\ ai82_upto 28 t
  | C_SSCC => exists d, s = lit "(00)" ++ d /\ ndigits 18 d
  | C_SGLN => exists d t, s = lit "(414)" ++ d ++ lit "(254)" ++ t /\ ndigits 13 d /\ ai82_upto 20 t
  | C_GRAI => exists d t, s = lit "(8003)0" ++ d ++ t /\ ndigits 13 d /\ ai82_upto 16 t
  | C_GDTI => exists d t, s = lit "(253)" ++ d ++ t /\ ndigits 13 d /\ ai82_upto 17 t
  | C_SGCN => exists d t, s = lit "(255)" ++ d ++ t /\ ndigits 13 d /\ ai82_upto 12 t
  | C_GIAI => exists d t, s = lit "(8004)" ++ d ++ t /\ digits d /\ (6 <= length d <= 12)%nat /\ ai82_upto 24 t
  | C_GINC => exists d t, s = lit "(401)" ++ d ++ t /\ digits d /\ (6 <= length d <= 12)%nat /\ ai82_upto 24 t
  | C_GSRN => exists d, s = lit "(8018)" ++ d /\ ndigits 18 d
  | C_GSRNP => exists d, s = lit "(8017)" ++ d /\ ndigits 18 d
  | C_GSIN => exists d, s = lit "(402)" ++ d /\ ndigits 17 d
  | C_PGLN => exists d, s = lit "(417)" ++ d /\ ndigits 13 d
  | C_ITIP => exists d t, s = lit "(8006)" ++ d ++ lit "(21)" ++ t /\ ndigits 18 d /\ ai82_upto 20 t
  | C_CPI => exists d t n, s = lit "(8010)" ++ d ++ t ++ lit "(8011)" ++ n /\ digits d /\ (6 <= length d <= 12)%nat /\
               six_bit_text t /\ (length t <= 24)%nat /\ digits n /\ (1 <= length n <= 12)%nat
  | _ => False
  end.

(** a pair of brackets with [n] characters between them *)
Definition bracketed (n : nat) (s : str) : Prop :=
  exists a g b, s = a ++ lit "(" ++ g ++ lit ")" ++ b /\ length g = n.

(** [u], a URI of class [c] with company prefix [cp], is spelled such that its element string determines it *)
Definition element_exact (c : cls) (u cp : str) : Prop :=
  match c with
  | C_SGTIN => exists item serial, sgtin_uri u cp item serial /\ canonical_serial serial /\ ~ bracketed 2 (unescape serial)
  | C_LGTIN => exists item lot, lgtin_uri u cp item lot /\ canonical_serial lot /\ ~ bracketed 2 (unescape lot)
  | C_SGLN => exists loc ext, sgln_uri u cp loc ext /\ canonical_serial ext /\ ~ bracketed 3 (unescape ext)
  | C_UPUI => exists item tpx, upui_uri u cp item tpx /\ canonical_serial tpx /\ item <> []
  | C_GRAI => exists asset serial, grai_uri u cp asset serial /\ canonical_serial serial
  | C_GDTI => exists doc serial, gdti_uri u cp doc serial /\ canonical_serial serial
  | C_GIAI => exists asset, giai_uri u cp asset [] /\ canonical_serial asset
  | C_GINC => exists ref, ginc_uri u cp ref /\ canonical_serial ref
  | C_ITIP => exists item piece total serial, itip_uri u cp item piece total serial /\ canonical_serial serial /\
                length piece = 2%nat /\ length total = 2%nat
  | C_SGCN => exists coupon serial, sgcn_uri u cp coupon serial /\ ascii_digits serial
  | C_CPI => exists ref serial, cpi_uri u cp ref serial
  | C_SSCC => exists serial, sscc_uri u cp serial
  | C_GSRN => exists service, gsrn_uri u cp service
  | C_GSRNP => exists service, gsrnp_uri u cp service
  | C_GSIN => exists ref, gsin_uri u cp ref
  | C_PGLN => exists party, pgln_uri u cp party
  | _ => False
  end.

(** [g'] is the element string [g] with its check digit put right; in a GIAI it is [g] up to its first colon *)
Definition rechecked (c : cls) (g g' : str) : Prop :=
  match c with
  | C_SGTIN => exists body k full t, g = lit "(01)" ++ body ++ [k] ++ lit "(21)" ++ t /\ length body = 13%nat /\
                 completed body full /\ g' = lit "(01)" ++ full ++ lit "(21)" ++ t
  | C_LGTIN => exists body k full t, g = lit "(01)" ++ body ++ [k] ++ lit "(10)" ++ t /\ length body = 13%nat /\
                 completed body full /\ g' = lit "(01)" ++ full ++ lit "(10)" ++ t
  | C_UPUI => exists body k full t, g = lit "(01)" ++ body ++ [k] ++ lit "(235)" ++ t /\ length body = 13%nat /\
                 completed body full /\ g' = lit "(01)" ++ full ++ lit "(235)" ++ t
  | C_ITIP => exists body k full t, g = lit "(8006)" ++ body ++ [k] ++ t /\ length body = 13%nat /\
                 completed body full /\ g' = lit "(8006)" ++ full ++ t
  | C_SGLN => exists body k full t, g = lit "(414)" ++ body ++ [k] ++ lit "(254)" ++ t /\ length body = 12%nat /\
                 completed body full /\ g' = lit "(414)" ++ full ++ lit "(254)" ++ t
  | C_GRAI => exists body k full t, g = lit "(8003)0" ++ body ++ [k] ++ t /\ length body = 12%nat /\
                 completed body full /\ g' = lit "(8003)0" ++ full ++ t
  | C_GDTI => exists body k full t, g = lit "(253)" ++ body ++ [k] ++ t /\ length body = 12%nat /\
                 completed body full /\ g' = lit "(253)" ++ full ++ t
  | C_SGCN => exists body k full t, g = lit "(255)" ++ body ++ [k] ++ t /\ length body = 12%nat /\
                 completed body full /\ g' = lit "(255)" ++ full ++ t
  | C_SSCC => exists body k full, g = lit "(00)" ++ body ++ [k] /\ completed body full /\ g' = lit "(00)" ++ full
  | C_GSRN => exists body k full, g = lit "(8018)" ++ body ++ [k] /\ completed body full /\ g' = lit "(8018)" ++ full
  | C_GSRNP => exists body k full, g = lit "(8017)" ++ body ++ [k] /\ completed body full /\ g' = lit "(8017)" ++ full
  | C_GSIN => exists body k full, g = lit "(402)" ++ body ++ [k] /\ completed body full /\ g' = lit "(402)" ++ full
  | C_PGLN => exists body k full, g = lit "(417)" ++ body ++ [k] /\ completed body full /\ g' = lit "(417)" ++ full
  | C_GIAI => exists r, g = g' ++ r /\ ~ In 58 g' /\ (r = [] \/ exists r', r = 58 :: r')
  | C_GINC | C_CPI => g' = g
  | _ => False
  end.
