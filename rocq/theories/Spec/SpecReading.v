(** The URI a tag stands for: the decoding procedure of the GS1 Tag Data Standard (section 14.4), for the coding schemes of a fixed size.

    Bits are counted from 0, the leftmost; the header has bits 0 to 7. *)
From Coq Require Import String.
From Verif.Model Require Import Py Parsers.
From Verif.Spec Require Import Spec SpecEscapes SpecGrammar SpecSchemes SpecLayout SpecCoding SpecRespell.

(** the number in the [w] bits from bit [i] on *)
Definition bits_at (b : str) (i w : nat) : N := binary_number (firstn w (skipn i b)).
(** [s] is the number [v] without leading zeros; [s] is [v] in [w] digits *)
Definition plain_number (v : N) (s : str) : Prop := ascii_digits s /\ numeral s /\ decimal s = v.
Definition padded_number (w : nat) (v : N) (s : str) : Prop := ascii_digits s /\ length s = w /\ decimal s = v.
(** [m] codes of [w] bits each, from bit [i] on *)
Definition codes_at (b : str) (i w m : nat) : list N := map (fun j => bits_at b (i + w * j) w) (seq 0 m).

(** partition value and company prefix of [n] digits, behind a filter value of three bits *)
Definition prefix_of (b : str) (n : nat) (cp : str) : Prop :=
  (6 <= n <= 12)%nat /\ bits_at b 11 3 = partition_value n /\ padded_number n (bits_at b 14 (prefix_bits n)) cp.
(** company prefix and reference have [width] bits and [total] digits; with no digit left for the reference its bits do not matter *)
Definition prefix_and_reference (width total : nat) (b cp ref : str) : Prop :=
  exists n, prefix_of b n cp /\
    (if (n =? total)%nat then ref = [] else padded_number (total - n) (bits_at b (14 + prefix_bits n) (width - prefix_bits n)) ref).
(** the reference is a number of any digits *)
Definition prefix_and_number (width : nat) (b cp ref : str) : Prop :=
  exists n, prefix_of b n cp /\ plain_number (bits_at b (14 + prefix_bits n) (width - prefix_bits n)) ref.
(** characters of seven bits; a zero is no character *)
Definition characters (codes : list N) : str := filter (fun c => negb (c =? 0)) codes.
Definition text_of (codes : list N) : str := escape (characters codes).

Definition two (a b : str) : str := a ++ lit "." ++ b.
(** [tag_body k b s]: the tag [b] of the coding scheme [k] stands for the URI of its class that ends with [s] *)
Definition tag_body (k : coding) (b s : str) : Prop :=
  match k with
  | K_SGTIN_96 => exists cp ref v, prefix_and_reference 44 13 b cp ref /\ plain_number (bits_at b 58 38) v /\ s = two cp (two ref v)
  | K_SGTIN_198 => exists cp ref, prefix_and_reference 44 13 b cp ref /\ s = two cp (two ref (text_of (codes_at b 58 7 20)))
  | K_SSCC_96 | K_GSRN_96 | K_GSRNP_96 => exists cp ref, prefix_and_reference 58 17 b cp ref /\ s = two cp ref
  | K_SGLN_96 | K_GDTI_96 => exists cp ref v, prefix_and_reference 41 12 b cp ref /\ plain_number (bits_at b 55 41) v /\ s = two cp (two ref v)
  | K_SGLN_195 => exists cp ref, prefix_and_reference 41 12 b cp ref /\ s = two cp (two ref (text_of (codes_at b 55 7 20)))
  | K_GDTI_174 => exists cp ref, prefix_and_reference 41 12 b cp ref /\ s = two cp (two ref (text_of (codes_at b 55 7 17)))
  | K_GRAI_96 => exists cp ref v, prefix_and_reference 44 12 b cp ref /\ plain_number (bits_at b 58 38) v /\ s = two cp (two ref v)
  | K_GRAI_170 => exists cp ref, prefix_and_reference 44 12 b cp ref /\ s = two cp (two ref (text_of (codes_at b 58 7 16)))
  | K_GIAI_96 => exists cp ref, prefix_and_number 82 b cp ref /\ s = two cp ref
  | K_GIAI_202 => exists n cp, prefix_of b n cp /\
      s = two cp (text_of (codes_at b (14 + prefix_bits n) 7 ((188 - prefix_bits n) / 7)))
  | K_CPI_96 => exists cp ref v, prefix_and_number 51 b cp ref /\ plain_number (bits_at b 65 31) v /\ s = two cp (two ref v)
  | K_SGCN_96 => exists cp ref v, prefix_and_reference 41 12 b cp ref /\ v <> [] /\ plain_number (bits_at b 55 41) (lit "1" ++ v) /\ s = two cp (two ref v)
  | K_ITIP_110 => exists cp ref p t v, prefix_and_reference 44 13 b cp ref /\ padded_number 2 (bits_at b 58 7) p /\ padded_number 2 (bits_at b 65 7) t /\
      plain_number (bits_at b 72 38) v /\ s = two cp (two ref (two p (two t v)))
  | K_ITIP_212 => exists cp ref p t, prefix_and_reference 44 13 b cp ref /\ padded_number 2 (bits_at b 58 7) p /\ padded_number 2 (bits_at b 65 7) t /\
      s = two cp (two ref (two p (two t (text_of (codes_at b 72 7 20)))))
  | K_GID_96 => exists m o v, plain_number (bits_at b 8 28) m /\ plain_number (bits_at b 36 24) o /\ plain_number (bits_at b 60 36) v /\ s = two m (two o v)
  | K_USDOD_96 => exists v, plain_number (bits_at b 60 36) v /\ s = two (filter (fun c => negb (c =? 32)) (codes_at b 12 8 6)) v
  | K_CPI_VAR | K_ADI_VAR => False
  end.
Definition tag_text (k : coding) (b u : str) : Prop := exists s, tag_body k b s /\ u = scheme_prefix (tag_class k) ++ s.

(** What the class of the tag asks of the text on it.  Numbers are always fine.  The limits of GRAI, GDTI and GIAI count escaped characters, and
    of the text of a GIAI only what stands before the first colon is looked at. *)
Definition good_text (t : str) : Prop := t <> [] /\ readable_text t.
Definition readable_tag (k : coding) (b : str) : Prop :=
  match k with
  | K_SGTIN_198 => good_text (characters (codes_at b 58 7 20))
  | K_SGLN_195 => good_text (characters (codes_at b 55 7 20))
  | K_ITIP_212 => good_text (characters (codes_at b 72 7 20))
  | K_GRAI_170 => good_text (characters (codes_at b 58 7 16)) /\ (length (text_of (codes_at b 58 7 16)) <= 16)%nat
  | K_GDTI_174 => good_text (characters (codes_at b 55 7 17)) /\ (length (text_of (codes_at b 55 7 17)) <= 17)%nat
  | K_GIAI_202 => forall n, (6 <= n <= 12)%nat -> bits_at b 11 3 = partition_value n ->
      exists a r, characters (codes_at b (14 + prefix_bits n) 7 ((188 - prefix_bits n) / 7)) = a ++ r /\ good_text a /\ ~ In 58 a /\
        (n + length (escape a) <= 30)%nat /\ (r = [] \/ exists r', r = 58 :: r' /\ ai82_text r')
  | K_USDOD_96 => cage_text (filter (fun c => negb (c =? 32)) (codes_at b 12 8 6))
  | _ => True
  end.

(** [b] is a tag of the coding scheme [k], with all its bits; bits may follow *)
Definition whole_tag (k : coding) (b : str) : Prop := bitstring b /\ firstn 8 b = tag_header k /\ exists n, tag_size k = Some n /\ (n <= length b)%nat.
