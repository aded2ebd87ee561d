(** The coding schemes of EPC tags: GS1 Tag Data Standard, table 14-1 (headers) and section 14.6. *)
From Coq Require Import String.
From Verif.Model Require Import Py Parsers.
From Verif.Model Require Import Adi Cpi Gdti Giai Gid Grai Gsrn Gsrnp Itip Sgcn Sgln Sgtin Sscc Usdod.
From Verif.Spec Require Import Spec SpecEscapes SpecGrammar SpecSchemes SpecLayout.

Inductive coding :=
| K_GDTI_96 | K_GSRN_96 | K_GSRNP_96 | K_USDOD_96 | K_SGTIN_96 | K_SSCC_96 | K_SGLN_96 | K_GRAI_96 | K_GIAI_96
| K_GID_96 | K_SGTIN_198 | K_GRAI_170 | K_GIAI_202 | K_SGLN_195 | K_ADI_VAR | K_CPI_96 | K_CPI_VAR | K_GDTI_174
| K_SGCN_96 | K_ITIP_110 | K_ITIP_212.

(** the eight bits a tag opens with, written out *)
Definition tag_header (k : coding) : str :=
  match k with
  | K_GDTI_96 => lit "00101100" | K_GSRN_96 => lit "00101101" | K_GSRNP_96 => lit "00101110"
  | K_USDOD_96 => lit "00101111" | K_SGTIN_96 => lit "00110000" | K_SSCC_96 => lit "00110001"
  | K_SGLN_96 => lit "00110010" | K_GRAI_96 => lit "00110011" | K_GIAI_96 => lit "00110100"
  | K_GID_96 => lit "00110101" | K_SGTIN_198 => lit "00110110" | K_GRAI_170 => lit "00110111"
  | K_GIAI_202 => lit "00111000" | K_SGLN_195 => lit "00111001" | K_ADI_VAR => lit "00111011"
  | K_CPI_96 => lit "00111100" | K_CPI_VAR => lit "00111101" | K_GDTI_174 => lit "00111110"
  | K_SGCN_96 => lit "00111111" | K_ITIP_110 => lit "01000000" | K_ITIP_212 => lit "01000001"
  end.
Definition tag_class (k : coding) : cls :=
  match k with
  | K_GDTI_96 | K_GDTI_174 => C_GDTI | K_GSRN_96 => C_GSRN | K_GSRNP_96 => C_GSRNP | K_USDOD_96 => C_USDOD
  | K_SGTIN_96 | K_SGTIN_198 => C_SGTIN | K_SSCC_96 => C_SSCC | K_SGLN_96 | K_SGLN_195 => C_SGLN
  | K_GRAI_96 | K_GRAI_170 => C_GRAI | K_GIAI_96 | K_GIAI_202 => C_GIAI | K_GID_96 => C_GID
  | K_ADI_VAR => C_ADI | K_CPI_96 | K_CPI_VAR => C_CPI | K_SGCN_96 => C_SGCN | K_ITIP_110 | K_ITIP_212 => C_ITIP
  end.
(** how many bits a tag has; none where the length varies *)
Definition tag_size (k : coding) : option nat :=
  match k with
  | K_SGTIN_198 => Some 198%nat | K_GRAI_170 => Some 170%nat | K_GIAI_202 => Some 202%nat
  | K_SGLN_195 => Some 195%nat | K_GDTI_174 => Some 174%nat | K_ITIP_110 => Some 110%nat
  | K_ITIP_212 => Some 212%nat | K_ADI_VAR | K_CPI_VAR => None | _ => Some 96%nat
  end.
(** how many bits the filter value has *)
Definition filter_width (k : coding) : nat :=
  match k with K_GID_96 => 0 | K_USDOD_96 => 4 | K_ADI_VAR => 6 | _ => 3 end%nat.
(** the coding schemes that write text with seven bits for each character *)
Definition seven_bit (k : coding) : bool :=
  match k with
  | K_SGTIN_198 | K_GRAI_170 | K_GIAI_202 | K_SGLN_195 | K_GDTI_174 | K_ITIP_212 => true | _ => false
  end.

(** the coding scheme of a request for a tag *)
Definition req_kind (q : tagreq) : coding :=
  match q with
  | T_GDTI _ GDTI_96 _ => K_GDTI_96 | T_GSRN _ GSRN_96 _ => K_GSRN_96 | T_GSRNP _ GSRNP_96 _ => K_GSRNP_96
  | T_USDOD _ USDOD_96 _ => K_USDOD_96 | T_SGTIN _ SGTIN_96 _ => K_SGTIN_96 | T_SSCC _ SSCC_96 _ => K_SSCC_96
  | T_SGLN _ SGLN_96 _ => K_SGLN_96 | T_GRAI _ GRAI_96 _ => K_GRAI_96 | T_GIAI _ GIAI_96 _ => K_GIAI_96
  | T_GID _ GID_96 => K_GID_96 | T_SGTIN _ SGTIN_198 _ => K_SGTIN_198 | T_GRAI _ GRAI_170 _ => K_GRAI_170
  | T_GIAI _ GIAI_202 _ => K_GIAI_202 | T_SGLN _ SGLN_195 _ => K_SGLN_195 | T_ADI _ ADI_VAR _ => K_ADI_VAR
  | T_CPI _ CPI_96 _ => K_CPI_96 | T_CPI _ CPI_VAR _ => K_CPI_VAR | T_GDTI _ GDTI_174 _ => K_GDTI_174
  | T_SGCN _ SGCN_96 _ => K_SGCN_96 | T_ITIP _ ITIP_110 _ => K_ITIP_110 | T_ITIP _ ITIP_212 _ => K_ITIP_212
  end.
(** the same request with another filter value *)
Definition with_filter (f : N) (q : tagreq) : tagreq :=
  match q with
  | T_GDTI x s _ => T_GDTI x s f | T_GSRN x s _ => T_GSRN x s f | T_GSRNP x s _ => T_GSRNP x s f
  | T_USDOD x s _ => T_USDOD x s f | T_SGTIN x s _ => T_SGTIN x s f | T_SSCC x s _ => T_SSCC x s f
  | T_SGLN x s _ => T_SGLN x s f | T_GRAI x s _ => T_GRAI x s f | T_GIAI x s _ => T_GIAI x s f
  | T_GID x s => T_GID x s | T_ADI x s _ => T_ADI x s f | T_CPI x s _ => T_CPI x s f
  | T_SGCN x s _ => T_SGCN x s f | T_ITIP x s _ => T_ITIP x s f
  end.

(** Bits of a tag that carry nothing: the 24 last ones of sscc-96, gsrn-96 and gsrnp-96, and the reference
    field where a company prefix of 12 digits (partition value 0) leaves no digit for the reference. *)
Definition unused_bit (k : coding) (b : str) (i : nat) : Prop :=
  match k with
  | K_SSCC_96 | K_GSRN_96 | K_GSRNP_96 => (72 <= i)%nat
  | K_SGLN_96 | K_GDTI_96 | K_SGCN_96 => binary_number (firstn 3 (skipn 11 b)) = 0 /\ i = 54%nat
  | K_GRAI_96 => binary_number (firstn 3 (skipn 11 b)) = 0 /\ (54 <= i < 58)%nat
  | _ => False
  end.
(** usdod-96: a blank in the CAGE code stands in front; itip-110: piece and total below 99 *)
Definition writable_again (k : coding) (b : str) : Prop :=
  match k with
  | K_USDOD_96 => forall i, (i < 6)%nat -> binary_number (firstn 8 (skipn (12 + 8 * i) b)) = 32 -> i = 0%nat
  | K_ITIP_110 => binary_number (firstn 7 (skipn 58 b)) < 99 /\ binary_number (firstn 7 (skipn 65 b)) < 99
  | _ => True
  end.
(** the numeric coding schemes: all but the seven-bit and the variable ones *)
Definition numeric_coding (k : coding) : Prop := seven_bit k = false /\ tag_size k <> None.

(** A request binary() can write and from_binary() can read back: the object comes from the ASCII URI [u], tag_uri()
    accepts it, reserved characters stand escaped in the one way revert_uri_escapes escapes them, the filter value
    has room, ITIP pieces are below 99 and a GIAI holds no further ':'. *)
Definition proper_request (q : tagreq) (u : str) : Prop :=
  init_of (class_of (req_epc q)) u = Ok (req_epc q) /\ ascii u /\ (exists t, req_tag_uri q = Ok t) /\
  canonical_request q /\ filter_fits q /\ pieces_fit q /\
  (class_of (req_epc q) = C_GIAI -> exists body, u = lit "urn:epc:id:giai:" ++ body /\ ~ In 58 body).
