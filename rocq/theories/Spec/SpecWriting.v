(** Tags as any reader that follows the GS1 Tag Data Standard understands them. *)
From Coq Require Import String.
From Verif.Model Require Import Py PyFormat Syntax Machine Parsers.
From Verif.Spec Require Import Spec SpecEscapes SpecGrammar SpecSchemes SpecLayout SpecCoding SpecReading SpecVarReading SpecRuns.
Open Scope N_scope.

(** the name of a coding scheme *)
Definition coding_name (k : coding) : str :=
  match k with
  | K_GDTI_96 => lit "gdti-96" | K_GSRN_96 => lit "gsrn-96" | K_GSRNP_96 => lit "gsrnp-96" | K_USDOD_96 => lit "usdod-96"
  | K_SGTIN_96 => lit "sgtin-96" | K_SSCC_96 => lit "sscc-96" | K_SGLN_96 => lit "sgln-96" | K_GRAI_96 => lit "grai-96"
  | K_GIAI_96 => lit "giai-96" | K_GID_96 => lit "gid-96" | K_SGTIN_198 => lit "sgtin-198" | K_GRAI_170 => lit "grai-170"
  | K_GIAI_202 => lit "giai-202" | K_SGLN_195 => lit "sgln-195" | K_ADI_VAR => lit "adi-var" | K_CPI_96 => lit "cpi-96"
  | K_CPI_VAR => lit "cpi-var" | K_GDTI_174 => lit "gdti-174" | K_SGCN_96 => lit "sgcn-96" | K_ITIP_110 => lit "itip-110"
  | K_ITIP_212 => lit "itip-212"
  end.
(** the keywords ask for the coding scheme [k]; for the filter value [n] *)
Definition asks_coding (kws : list (string * value)) (k : coding) : Prop :=
  exists c m, In ("binary_coding_scheme"%string, VEnum c m (VStr (coding_name k))) kws.
Definition asks_filter (kws : list (string * value)) (n : N) : Prop :=
  exists c m s, In ("filter_value"%string, VEnum c m (VStr s)) kws /\ ascii_digits s /\ decimal s = n.

(** By the standard, the tag [b] is one of the coding scheme [k], no bit too long, and stands for [u]. *)
Definition stands_for (k : coding) (b u : str) : Prop :=
  bitstring b /\ firstn 8 b = tag_header k /\
  match tag_size k with
  | Some n => length b = n /\ tag_text k b u
  | None =>
      match k with
      | K_CPI_VAR => exists cp t v, cpi_var_fields b cp t v /\ u = lit "urn:epc:id:cpi:" ++ two cp (two (escape6 t) v) /\
          length b = (14 + prefix_bits (length cp) + 6 * length t + 6 + 40)%nat
      | _ => exists c t w, adi_var_fields b c t w /\ u = lit "urn:epc:id:adi:" ++ two c (two (escape6 t) (escape6 w)) /\
          length b = (50 + 6 * length t + 6 + 6 * length w + 6)%nat
      end
  end.
(** Behind the header there is the filter value [n]. *)
Definition carries_filter (k : coding) (b : str) (n : N) : Prop := bits_at b 8 (filter_width k) = n.

(** URIs whose tags mean what they should: those whose tags the library reads back ([tag_safe]), and every ADI *)
Definition standard_safe (u : str) : Prop := tag_safe u \/ exists cage part serial, adi_uri u cage part serial.
