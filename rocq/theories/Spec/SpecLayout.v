(** The bits of a tag, field by field, as the GS1 Tag Data Standard (sections 14.5 and 14.6) lays them out. *)
From Coq Require Import String.
From Verif.Model Require Import Py Parsers.
From Verif.Model Require Import Adi Cpi Gdti Giai Gid Grai Gsrn Gsrnp Itip Sgcn Sgln Sgtin Sscc Usdod.
From Verif.Spec Require Import Spec SpecEscapes SpecGrammar SpecSchemes.

(** a field: how many bits, which number *)
Definition field : Type := nat * N.
(** [b] is made of the fields, each written in binary *)
Fixpoint spells (l : list field) (b : str) : Prop :=
  match l with
  | [] => b = []
  | (w, v) :: l' => exists a r, b = a ++ r /\ length a = w /\ bitstring a /\ binary_number a = v /\ spells l' r
  end.
Definition total_bits (l : list field) : nat := list_sum (map fst l).

(** partition value and bits of a company prefix of so many digits *)
Definition partition_value (digits : nat) : N := 12 - N.of_nat digits.
Definition prefix_bits (digits : nat) : nat :=
  match digits with
  | 12%nat => 40 | 11%nat => 37 | 10%nat => 34 | 9%nat => 30 | 8%nat => 27 | 7%nat => 24 | _ => 20
  end%nat.
(** partition, company prefix and a numeric reference, [width] bits for the two numbers *)
Definition partition_fields (width : nat) (cp ref : str) : list field :=
  [(3%nat, partition_value (length cp)); (prefix_bits (length cp), decimal cp);
   ((width - prefix_bits (length cp))%nat, decimal ref)].
(** seven bits for each character of the unescaped text, then zeros *)
Definition text_fields (width : nat) (s : str) : list field :=
  map (fun c => (7%nat, c)) (unescape s) ++ [((width - 7 * length (unescape s))%nat, 0)].
(** six bits for each character, closed by six zeros; # and / stand escaped in [s] *)
Fixpoint unescape6 (s : str) : str :=
  match s with
  | [] => []
  | c :: s' =>
      match s' with
      | a :: b :: s'' => if str_eqb [c; a; b] (lit "%23") then 35 :: unescape6 s''
                         else if str_eqb [c; a; b] (lit "%2F") then 47 :: unescape6 s''
                         else c :: unescape6 s'
      | _ => c :: unescape6 s'
      end
  end.
Definition six_fields (s : str) : list field := map (fun c => (6%nat, code_six c)) (unescape6 s) ++ [(6%nat, 0)].
(** the six characters of a CAGE code, a blank in front of a code of five *)
Definition cage_fields (width : nat) (code : N -> N) (s : str) : list field :=
  map (fun c => (width, code c)) (repeat 32 (6 - length s) ++ s).

Definition header_field (q : tagreq) : field :=
  (8%nat,
   match q with
   | T_GDTI _ GDTI_96 _ => 0x2C | T_GSRN _ GSRN_96 _ => 0x2D | T_GSRNP _ GSRNP_96 _ => 0x2E
   | T_USDOD _ USDOD_96 _ => 0x2F | T_SGTIN _ SGTIN_96 _ => 0x30 | T_SSCC _ SSCC_96 _ => 0x31
   | T_SGLN _ SGLN_96 _ => 0x32 | T_GRAI _ GRAI_96 _ => 0x33 | T_GIAI _ GIAI_96 _ => 0x34
   | T_GID _ GID_96 => 0x35 | T_SGTIN _ SGTIN_198 _ => 0x36 | T_GRAI _ GRAI_170 _ => 0x37
   | T_GIAI _ GIAI_202 _ => 0x38 | T_SGLN _ SGLN_195 _ => 0x39 | T_ADI _ ADI_VAR _ => 0x3B
   | T_CPI _ CPI_96 _ => 0x3C | T_CPI _ CPI_VAR _ => 0x3D | T_GDTI _ GDTI_174 _ => 0x3E
   | T_SGCN _ SGCN_96 _ => 0x3F | T_ITIP _ ITIP_110 _ => 0x40 | T_ITIP _ ITIP_212 _ => 0x41
   end).
Definition filter_bits (q : tagreq) : nat :=
  match q with T_GID _ _ => 0 | T_USDOD _ _ _ => 4 | T_ADI _ _ _ => 6 | _ => 3 end%nat.
Definition filter_fields (q : tagreq) : list field :=
  match req_filter q with None => [] | Some f => [(filter_bits q, f)] end.
Definition body_fields (q : tagreq) : list field :=
  match q with
  | T_SGTIN x s _ => partition_fields 44 (sgtin_cp x) (sgtin_item x) ++
      match s with SGTIN_96 => [(38%nat, decimal (sgtin_serial x))] | SGTIN_198 => text_fields 140 (sgtin_serial x) end
  | T_SSCC x _ _ => partition_fields 58 (sscc_cp x) (sscc_serial x) ++ [(24%nat, 0)]
  | T_SGLN x s _ => partition_fields 41 (sgln_cp x) (sgln_loc x) ++
      match s with SGLN_96 => [(41%nat, decimal (sgln_serial x))] | SGLN_195 => text_fields 140 (sgln_serial x) end
  | T_GRAI x s _ => partition_fields 44 (grai_cp x) (grai_asset x) ++
      match s with GRAI_96 => [(38%nat, decimal (grai_serial x))] | GRAI_170 => text_fields 112 (grai_serial x) end
  | T_GIAI x GIAI_96 _ => partition_fields 82 (giai_cp x) (giai_asset x)
  | T_GIAI x GIAI_202 _ =>
      [(3%nat, partition_value (length (giai_cp x))); (prefix_bits (length (giai_cp x)), decimal (giai_cp x))] ++
      text_fields (188 - prefix_bits (length (giai_cp x))) (giai_asset x)
  | T_GSRN x _ _ => partition_fields 58 (gsrn_cp x) (gsrn_service x) ++ [(24%nat, 0)]
  | T_GSRNP x _ _ => partition_fields 58 (gsrnp_cp x) (gsrnp_service x) ++ [(24%nat, 0)]
  | T_GDTI x s _ => partition_fields 41 (gdti_cp x) (gdti_doc x) ++
      match s with GDTI_96 => [(41%nat, decimal (gdti_serial x))] | GDTI_174 => text_fields 119 (gdti_serial x) end
  | T_CPI x CPI_96 _ => partition_fields 51 (cpi_cp x) (cpi_ref x) ++ [(31%nat, decimal (cpi_serial x))]
  | T_CPI x CPI_VAR _ =>
      [(3%nat, partition_value (length (cpi_cp x))); (prefix_bits (length (cpi_cp x)), decimal (cpi_cp x))] ++
      six_fields (cpi_ref x) ++ [(40%nat, decimal (cpi_serial x))]
  | T_SGCN x _ _ => partition_fields 41 (sgcn_cp x) (sgcn_coupon x) ++
      [(41%nat, 10 ^ N.of_nat (length (sgcn_serial x)) + decimal (sgcn_serial x))]
  | T_ITIP x s _ => partition_fields 44 (itip_cp x) (itip_item x) ++
      [(7%nat, decimal (itip_piece x)); (7%nat, decimal (itip_total x))] ++
      match s with ITIP_110 => [(38%nat, decimal (itip_serial x))] | ITIP_212 => text_fields 140 (itip_serial x) end
  | T_GID x _ => [(28%nat, decimal (gid_manager x)); (24%nat, decimal (gid_object x)); (36%nat, decimal (gid_serial x))]
  | T_USDOD x _ _ => cage_fields 8 (fun c => c) (usdod_cage x) ++ [(36%nat, decimal (usdod_serial x))]
  | T_ADI x _ _ => cage_fields 6 code_six (adi_cage x) ++ six_fields (adi_part x) ++ six_fields (adi_serial x)
  end.
Definition tag_layout (q : tagreq) : list field := header_field q :: filter_fields q ++ body_fields q.

(** how many bits each coding scheme has; none for the variable ones *)
Definition coding_bits (q : tagreq) : option nat :=
  match q with
  | T_SGTIN _ SGTIN_198 _ => Some 198%nat
  | T_SGLN _ SGLN_195 _ => Some 195%nat
  | T_GRAI _ GRAI_170 _ => Some 170%nat
  | T_GIAI _ GIAI_202 _ => Some 202%nat
  | T_GDTI _ GDTI_174 _ => Some 174%nat
  | T_ITIP _ ITIP_110 _ => Some 110%nat
  | T_ITIP _ ITIP_212 _ => Some 212%nat
  | T_CPI _ CPI_VAR _ | T_ADI _ _ _ => None
  | _ => Some 96%nat
  end.

(** the seven-bit coding schemes write the serial as text; the others have none *)
Definition text_part (q : tagreq) : option str :=
  match q with
  | T_SGTIN x SGTIN_198 _ => Some (sgtin_serial x)
  | T_SGLN x SGLN_195 _ => Some (sgln_serial x)
  | T_GRAI x GRAI_170 _ => Some (grai_serial x)
  | T_GIAI x GIAI_202 _ => Some (giai_asset x)
  | T_GDTI x GDTI_174 _ => Some (gdti_serial x)
  | T_ITIP x ITIP_212 _ => Some (itip_serial x)
  | _ => None
  end.
(** reserved characters stand escaped, in the one way revert_uri_escapes escapes them *)
Definition canonical_text (s : str) : Prop := exists t, s = escape t.
Definition canonical_request (q : tagreq) : Prop :=
  match text_part q with Some s => canonical_text s | None => True end.
Definition filter_fits (q : tagreq) : Prop :=
  match req_filter q with Some f => f < 2 ^ N.of_nat (filter_bits q) | None => True end.
(** ITIP: piece and total of two digits, below 99 *)
Definition pieces_fit (q : tagreq) : Prop :=
  match q with
  | T_ITIP x _ _ => length (itip_piece x) = 2%nat /\ length (itip_total x) = 2%nat /\
      decimal (itip_piece x) < 99 /\ decimal (itip_total x) < 99
  | _ => True
  end.

(** the same text with ASCII digits *)
Definition ascii_digit (c : N) : N := match udigit c with Some d => 48 + d | None => c end.
Definition ascii_form (s : str) : str := map ascii_digit s.

(** ADI separates part number and serial with six zeros; adi.py:209 looks for six zeros at any bit position.  Codes
    [c], [d] side by side hold six zeros when [c] ends with [k] zeros and [d] opens with [6 - k] of them. *)
Definition six_zeros_across (c d : N) : Prop := exists k, 1 <= k <= 5 /\ c mod 2 ^ k = 0 /\ d < 2 ^ k.
Definition no_early_zeros (part : str) : Prop :=
  forall a c d b, map code_six (unescape6 part) ++ [0] = a ++ c :: d :: b -> ~ six_zeros_across c d.
