(** The URI a tag of no fixed size stands for: the decoding procedure of the GS1 Tag Data Standard for CPI-var and ADI-var. *)
From Coq Require Import String.
From Verif.Model Require Import Py Parsers.
From Verif.Spec Require Import Spec SpecEscapes SpecGrammar SpecSchemes SpecLayout SpecCoding SpecRespell SpecReading.

(** from bit [i] on, six bits for each character of [t], then six zeros *)
Definition closed_text (b : str) (i : nat) (t : str) : Prop :=
  (i + 6 * length t + 6 <= length b)%nat /\ six_bit_text t /\ codes_at b i 6 (length t) = map code_six t /\ bits_at b (i + 6 * length t) 6 = 0.
(** six characters from bit [i] on, a blank in front of a code of five *)
Definition cage_code_from (b : str) (i : nat) (c : str) : Prop := cage_text c /\ codes_at b i 6 6 = map code_six (repeat 32 (6 - length c) ++ c).

Definition cpi_var_fields (b cp t v : str) : Prop :=
  exists n, prefix_of b n cp /\ closed_text b (14 + prefix_bits n) t /\
    (14 + prefix_bits n + 6 * length t + 6 + 40 <= length b)%nat /\ plain_number (bits_at b (14 + prefix_bits n + 6 * length t + 6) 40) v.
Definition adi_var_fields (b c t w : str) : Prop :=
  cage_code_from b 14 c /\ closed_text b 50 t /\ closed_text b (50 + 6 * length t + 6) w.

Definition cpi_var_text (b u : str) : Prop :=
  exists cp t v, cpi_var_fields b cp t v /\ u = lit "urn:epc:id:cpi:" ++ two cp (two (escape6 t) v).
Definition adi_var_text (b u : str) : Prop :=
  exists c t w, adi_var_fields b c t w /\ no_early_zeros (escape6 t) /\ u = lit "urn:epc:id:adi:" ++ two c (two (escape6 t) (escape6 w)).
(** [b] is a tag of a coding scheme of no fixed size that stands for [u]; of ADI tags, those whose part number does not hold six zeros before
    its end (across two characters) *)
Definition var_tag (b u : str) : Prop :=
  bitstring b /\ ((firstn 8 b = tag_header K_CPI_VAR /\ cpi_var_text b u) \/ (firstn 8 b = tag_header K_ADI_VAR /\ adi_var_text b u)).
(** what the constructors ask of the texts: the limits of the standard, CPI counting escaped characters *)
Definition readable_var (b : str) : Prop :=
  (firstn 8 b = tag_header K_CPI_VAR -> forall cp t v, cpi_var_fields b cp t v -> t <> [] /\ (length cp + length (escape6 t) <= 30)%nat /\ (length v <= 12)%nat) /\
  (firstn 8 b = tag_header K_ADI_VAR -> forall c t w, adi_var_fields b c t w ->
     ~ In 35 t /\ (length t <= 32)%nat /\ (length w <= 30)%nat /\ exists w', w' <> [] /\ ~ In 35 w' /\ (w = w' \/ w = 35 :: w')).
