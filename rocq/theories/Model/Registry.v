(** Enumerations, and the dictionaries the modules build from them: Enum and dict as Python defines them. *)
From Coq Require Import String.
From Verif.Model Require Import Py Re Regexes Common Base.
From Verif.Model Require Import Adi Cpi Gdti Giai Gid Grai Gsrn Gsrnp Itip Lgtin Sgcn Sgln Sgtin Sscc Usdod Others Parsers.

(** an Enum class: names and values as written.  A second name for a value is an alias: iterating gives the first only, and
    the alias looked up gives the first member. *)
Definition enum : Type := list (str * str).
Fixpoint iterate_from (seen : list str) (e : enum) : enum :=
  match e with
  | [] => []
  | (n, v) :: e' => if existsb (str_eqb v) seen then iterate_from seen e' else (n, v) :: iterate_from (v :: seen) e'
  end.
(** [for m in e] *)
Definition iterate (e : enum) : enum := iterate_from [] e.
(** [e[name]] *)
Definition enum_by_name (e : enum) (name : str) : res (str * str) :=
  let* m := of_option KeyError (find (fun m => str_eqb name (fst m)) e) in
  of_option KeyError (find (fun x => str_eqb (snd m) (snd x)) e).
(** [e(value)] *)
Definition enum_by_value (e : enum) (value : str) : res (str * str) := of_option ValueError (find (fun m => str_eqb value (snd m)) e).

(** a dict display or comprehension, as the list of its items in order; the last item with a key counts *)
Definition dict_get {V} (k : str) (items : list (str * V)) : option V :=
  option_map snd (find (fun p => str_eqb k (fst p)) (rev items)).

(** [cls.BinaryCodingScheme]: adi.py:109-110, cpi.py:193-195, gdti.py:122-124, giai.py:181-183, gid.py:38-39, grai.py:122-124,
    gsrn.py:118-119, gsrnp.py:118-119, itip.py:123-125, sgcn.py:121-122, sgln.py:122-124, sgtin.py:131-133,
    sscc.py:117-118, usdod.py:59-60 *)
Definition binary_coding_scheme_enum (c : cls) : enum :=
  match c with
  | C_ADI => [(lit "ADI_VAR", lit "adi-var")]
  | C_CPI => [(lit "CPI_96", lit "cpi-96"); (lit "CPI_VAR", lit "cpi-var")]
  | C_GDTI => [(lit "GDTI_96", lit "gdti-96"); (lit "GDTI_174", lit "gdti-174")]
  | C_GIAI => [(lit "GIAI_96", lit "giai-96"); (lit "GIAI_202", lit "giai-202")]
  | C_GID => [(lit "GID_96", lit "gid-96")]
  | C_GRAI => [(lit "GRAI_96", lit "grai-96"); (lit "GRAI_170", lit "grai-170")]
  | C_GSRN => [(lit "GSRN_96", lit "gsrn-96")]
  | C_GSRNP => [(lit "GSRNP_96", lit "gsrnp-96")]
  | C_ITIP => [(lit "ITIP_110", lit "itip-110"); (lit "ITIP_212", lit "itip-212")]
  | C_SGCN => [(lit "SGCN_96", lit "sgcn-96")]
  | C_SGLN => [(lit "SGLN_96", lit "sgln-96"); (lit "SGLN_195", lit "sgln-195")]
  | C_SGTIN => [(lit "SGTIN_96", lit "sgtin-96"); (lit "SGTIN_198", lit "sgtin-198")]
  | C_SSCC => [(lit "SSCC_96", lit "sscc-96")]
  | C_USDOD => [(lit "USDOD_96", lit "usdod-96")]
  | _ => []
  end.
(** [cls.BinaryHeader]: adi.py:112-113, cpi.py:197-199, gdti.py:126-128, giai.py:185-187, gid.py:41-42, grai.py:126-128,
    gsrn.py:121-122, gsrnp.py:121-122, itip.py:127-129, sgcn.py:124-125, sgln.py:126-128, sgtin.py:135-137,
    sscc.py:120-121, usdod.py:62-63 *)
Definition binary_header_enum (c : cls) : enum :=
  match c with
  | C_ADI => [(lit "ADI_VAR", lit "00111011")]
  | C_CPI => [(lit "CPI_96", lit "00111100"); (lit "CPI_VAR", lit "00111101")]
  | C_GDTI => [(lit "GDTI_96", lit "00101100"); (lit "GDTI_174", lit "00111110")]
  | C_GIAI => [(lit "GIAI_96", lit "00110100"); (lit "GIAI_202", lit "00111000")]
  | C_GID => [(lit "GID_96", lit "00110101")]
  | C_GRAI => [(lit "GRAI_96", lit "00110011"); (lit "GRAI_170", lit "00110111")]
  | C_GSRN => [(lit "GSRN_96", lit "00101101")]
  | C_GSRNP => [(lit "GSRNP_96", lit "00101110")]
  | C_ITIP => [(lit "ITIP_110", lit "01000000"); (lit "ITIP_212", lit "01000001")]
  | C_SGCN => [(lit "SGCN_96", lit "00111111")]
  | C_SGLN => [(lit "SGLN_96", lit "00110010"); (lit "SGLN_195", lit "00111001")]
  | C_SGTIN => [(lit "SGTIN_96", lit "00110000"); (lit "SGTIN_198", lit "00110110")]
  | C_SSCC => [(lit "SSCC_96", lit "00110001")]
  | C_USDOD => [(lit "USDOD_96", lit "00101111")]
  | _ => []
  end.
(** the filter values; GID has none: adi.py:22-86, cpi.py:144-152, gdti.py:88-96, giai.py:147-155, grai.py:88-96, gsrn.py:84-92, gsrnp.py:84-92,
    itip.py:90-98, sgcn.py:87-95, sgln.py:88-96, sgtin.py:88-96, sscc.py:83-91, usdod.py:20-36 *)
Definition filter_value_enum (c : cls) : enum :=
  match c with
  | C_ADI => [(lit "ALL_OTHERS", lit "0"); (lit "ITEM_OTHER", lit "1"); (lit "CARTON", lit "2"); (lit "RESERVED_3", lit
             "3"); (lit "RESERVED_4", lit "4"); (lit "RESERVED_5", lit "5"); (lit "PALLET", lit "6"); (lit "RESERVED_7",
             lit "7"); (lit "SEAT_CUSHIONS", lit "8"); (lit "SEAT_COVERS", lit "9"); (lit "SEAT_BELTS", lit "10"); (lit
             "GALLEY", lit "11"); (lit "UNIT_LOAD_DEVICES", lit "12"); (lit "AIRCRAFT_SECURITY_ITEMS", lit "13"); (lit
             "LIFE_VESTS", lit "14"); (lit "OXYGEN_GENERATOR", lit "15"); (lit "ENGINE_COMPONENTS", lit "16"); (lit
             "AVIONICS", lit "17"); (lit "EXPERIMENTAL_EQUIPMENT", lit "18"); (lit "OTHER_EMERGENCY_EQUIPMENT", lit "19");
             (lit "OTHER_ROTABLES", lit "20"); (lit "OTHER_REPAIRABLE", lit "21"); (lit "OTHER_CABIN_INTERIOR", lit "22");
             (lit "OTHER_REPAIR", lit "23"); (lit "PASSENGER_SEATS", lit "24"); (lit "IFE_SYSTEMS", lit "25"); (lit
             "RESERVED_26", lit "26"); (lit "RESERVED_27", lit "27"); (lit "RESERVED_28", lit "28"); (lit "RESERVED_29",
             lit "29"); (lit "RESERVED_30", lit "30"); (lit "RESERVED_31", lit "31"); (lit "RESERVED_32", lit "32"); (lit
             "RESERVED_33", lit "33"); (lit "RESERVED_34", lit "34"); (lit "RESERVED_35", lit "35"); (lit "RESERVED_36",
             lit "36"); (lit "RESERVED_37", lit "37"); (lit "RESERVED_38", lit "38"); (lit "RESERVED_39", lit "39"); (lit
             "RESERVED_40", lit "40"); (lit "RESERVED_41", lit "41"); (lit "RESERVED_42", lit "42"); (lit "RESERVED_43",
             lit "43"); (lit "RESERVED_44", lit "44"); (lit "RESERVED_45", lit "45"); (lit "RESERVED_46", lit "46"); (lit
             "RESERVED_47", lit "47"); (lit "RESERVED_48", lit "48"); (lit "RESERVED_49", lit "49"); (lit "RESERVED_50",
             lit "50"); (lit "RESERVED_51", lit "51"); (lit "RESERVED_52", lit "52"); (lit "RESERVED_53", lit "53"); (lit
             "RESERVED_54", lit "54"); (lit "RESERVED_55", lit "55"); (lit "LOCATION_IDENTIFIER", lit "56"); (lit
             "DOCUMENTATION", lit "57"); (lit "TOOLS", lit "58"); (lit "GROUND_SUPPORT_EQUIPMENT", lit "59"); (lit
             "OTHER_NON_FLYABLE_EQUIPMENT", lit "60"); (lit "RESERVED_61", lit "61"); (lit "RESERVED_62", lit "62"); (lit
             "RESERVED_63", lit "63")]
  | C_CPI => [(lit "ALL_OTHERS", lit "0"); (lit "RESERVED_1", lit "1"); (lit "RESERVED_2", lit "2"); (lit "RESERVED_3", lit
             "3"); (lit "RESERVED_4", lit "4"); (lit "RESERVED_5", lit "5"); (lit "RESERVED_6", lit "6"); (lit
             "RESERVED_7", lit "7")]
  | C_GDTI => [(lit "ALL_OTHERS", lit "0"); (lit "TRAVEL_DOCUMENT", lit "1"); (lit "RESERVED_2", lit "2"); (lit "RESERVED_3",
             lit "3"); (lit "RESERVED_4", lit "4"); (lit "RESERVED_5", lit "5"); (lit "RESERVED_6", lit "6"); (lit
             "RESERVED_7", lit "7")]
  | C_GIAI => [(lit "ALL_OTHERS", lit "0"); (lit "RAIL_VEHICLE", lit "1"); (lit "RESERVED_2", lit "2"); (lit "RESERVED_3",
             lit "3"); (lit "RESERVED_4", lit "4"); (lit "RESERVED_5", lit "5"); (lit "RESERVED_6", lit "6"); (lit
             "RESERVED_7", lit "7")]
  | C_GRAI => [(lit "ALL_OTHERS", lit "0"); (lit "RESERVED_1", lit "1"); (lit "RESERVED_2", lit "2"); (lit "RESERVED_3", lit
             "3"); (lit "RESERVED_4", lit "4"); (lit "RESERVED_5", lit "5"); (lit "RESERVED_6", lit "6"); (lit
             "RESERVED_7", lit "7")]
  | C_GSRN => [(lit "ALL_OTHERS", lit "0"); (lit "RESERVED_1", lit "1"); (lit "RESERVED_2", lit "2"); (lit "RESERVED_3", lit
             "3"); (lit "RESERVED_4", lit "4"); (lit "RESERVED_5", lit "5"); (lit "RESERVED_6", lit "6"); (lit
             "RESERVED_7", lit "7")]
  | C_GSRNP => [(lit "ALL_OTHERS", lit "0"); (lit "RESERVED_1", lit "1"); (lit "RESERVED_2", lit "2"); (lit "RESERVED_3", lit
             "3"); (lit "RESERVED_4", lit "4"); (lit "RESERVED_5", lit "5"); (lit "RESERVED_6", lit "6"); (lit
             "RESERVED_7", lit "7")]
  | C_ITIP => [(lit "ALL_OTHERS", lit "0"); (lit "RESERVED_1", lit "1"); (lit "RESERVED_2", lit "2"); (lit "RESERVED_3", lit
             "3"); (lit "RESERVED_4", lit "4"); (lit "RESERVED_5", lit "5"); (lit "RESERVED_6", lit "6"); (lit
             "RESERVED_7", lit "7")]
  | C_SGCN => [(lit "ALL_OTHERS", lit "0"); (lit "RESERVED_1", lit "1"); (lit "RESERVED_2", lit "2"); (lit "RESERVED_3", lit
             "3"); (lit "RESERVED_4", lit "4"); (lit "RESERVED_5", lit "5"); (lit "RESERVED_6", lit "6"); (lit
             "RESERVED_7", lit "7")]
  | C_SGLN => [(lit "ALL_OTHERS", lit "0"); (lit "RESERVED_1", lit "1"); (lit "RESERVED_2", lit "2"); (lit "RESERVED_3", lit
             "3"); (lit "RESERVED_4", lit "4"); (lit "RESERVED_5", lit "5"); (lit "RESERVED_6", lit "6"); (lit
             "RESERVED_7", lit "7")]
  | C_SGTIN => [(lit "ALL_OTHERS", lit "0"); (lit "POS_ITEM", lit "1"); (lit "FULL_CASE", lit "2"); (lit "RESERVED_3", lit
             "3"); (lit "INNER_PACK", lit "4"); (lit "RESERVED_5", lit "5"); (lit "UNIT_LOAD", lit "6"); (lit "COMPONENT",
             lit "7")]
  | C_SSCC => [(lit "ALL_OTHERS", lit "0"); (lit "RESERVED_1", lit "1"); (lit "FULL_CASE", lit "2"); (lit "RESERVED_3", lit
             "3"); (lit "RESERVED_4", lit "4"); (lit "RESERVED_5", lit "5"); (lit "UNIT_LOAD", lit "6"); (lit "RESERVED_7",
             lit "7")]
  | C_USDOD => [(lit "PALLET", lit "0"); (lit "CASE", lit "1"); (lit "UNIT_PACK", lit "2"); (lit "RESERVED_3", lit "3"); (lit
             "RESERVED_4", lit "4"); (lit "RESERVED_5", lit "5"); (lit "RESERVED_6", lit "6"); (lit "RESERVED_7", lit "7");
             (lit "RESERVED_8", lit "8"); (lit "RESERVED_9", lit "9"); (lit "RESERVED_10", lit "10"); (lit "RESERVED_11",
             lit "11"); (lit "RESERVED_12", lit "12"); (lit "RESERVED_13", lit "13"); (lit "RESERVED_14", lit "14"); (lit
             "RESERVED_15", lit "15")]
  | _ => []
  end.
(** [cls.__name__]; [str.lower] on these *)
Definition class_name (c : cls) : str :=
  match c with
  | C_ADI => lit "ADI"
  | C_BIC => lit "BIC"
  | C_CPI => lit "CPI"
  | C_GDTI => lit "GDTI"
  | C_GIAI => lit "GIAI"
  | C_GID => lit "GID"
  | C_GINC => lit "GINC"
  | C_GRAI => lit "GRAI"
  | C_GSIN => lit "GSIN"
  | C_GSRN => lit "GSRN"
  | C_GSRNP => lit "GSRNP"
  | C_IMOVN => lit "IMOVN"
  | C_ITIP => lit "ITIP"
  | C_LGTIN => lit "LGTIN"
  | C_PGLN => lit "PGLN"
  | C_SGCN => lit "SGCN"
  | C_SGLN => lit "SGLN"
  | C_SGTIN => lit "SGTIN"
  | C_SSCC => lit "SSCC"
  | C_UPUI => lit "UPUI"
  | C_USDOD => lit "USDOD"
  end.
Definition lower_char (c : N) : N := if (65 <=? c) && (c <=? 90) then c + 32 else c.
Definition lower (s : str) : str := map lower_char s.

(** base_scheme.py:198-209, [cls.header_to_schemes()]: items with the member of BinaryCodingScheme as name and value *)
Fixpoint header_items (schemes headers : enum) : res (list (str * (str * str))) :=
  match headers with
  | [] => Ok []
  | (n, v) :: hs =>
      let* s := enum_by_name schemes n in
      let* l := header_items schemes hs in
      Ok ((v, s) :: l)
  end.
Definition header_to_schemes (c : cls) : res (list (str * (str * str))) :=
  header_items (binary_coding_scheme_enum c) (iterate (binary_header_enum c)).
(** [cls.BinaryHeader[s.name].value] in each [binary] *)
Definition header_of_scheme (c : cls) (scheme_name : str) : res str :=
  let* m := enum_by_name (binary_header_enum c) scheme_name in Ok (snd m).

(** parsers.py:71-78 *)
Definition binary_headers_dict : list (str * cls) :=
  flat_map (fun c => map (fun h => (snd h, c)) (iterate (binary_header_enum c))) TAG_ENCODABLE_CLASSES.
Definition hex_headers_dict : list (str * cls) :=
  flat_map (fun c => map (fun h => (header_hex (snd h), c)) (iterate (binary_header_enum c))) TAG_ENCODABLE_CLASSES.
(** parsers.py:86-90 *)
Definition identifiers_dict (classes : list cls) : list (str * cls) := map (fun c => (lower (class_name c), c)) classes.

(** the classes of base_scheme.py (lines 15, 53, 211 and 247) and the bases written in each class statement *)
Inductive base := B_EPCScheme | B_TagEncodable | B_GS1Element | B_GS1Keyed.
Definition base_parent (b : base) : option base :=
  match b with B_EPCScheme => None | B_TagEncodable | B_GS1Element => Some B_EPCScheme | B_GS1Keyed => Some B_GS1Element end.
Definition bases (c : cls) : list base :=
  match c with
  | C_ADI => [B_TagEncodable]
  | C_BIC => [B_EPCScheme]
  | C_CPI => [B_GS1Element; B_TagEncodable]
  | C_GDTI => [B_TagEncodable; B_GS1Keyed]
  | C_GIAI => [B_TagEncodable; B_GS1Keyed]
  | C_GID => [B_TagEncodable]
  | C_GINC => [B_GS1Keyed]
  | C_GRAI => [B_TagEncodable; B_GS1Keyed]
  | C_GSIN => [B_GS1Keyed]
  | C_GSRN => [B_TagEncodable; B_GS1Keyed]
  | C_GSRNP => [B_TagEncodable; B_GS1Keyed]
  | C_IMOVN => [B_EPCScheme]
  | C_ITIP => [B_GS1Element; B_TagEncodable]
  | C_LGTIN => [B_GS1Keyed]
  | C_PGLN => [B_GS1Keyed]
  | C_SGCN => [B_TagEncodable; B_GS1Keyed]
  | C_SGLN => [B_TagEncodable; B_GS1Keyed]
  | C_SGTIN => [B_TagEncodable; B_GS1Keyed]
  | C_SSCC => [B_TagEncodable; B_GS1Keyed]
  | C_UPUI => [B_GS1Element]
  | C_USDOD => [B_TagEncodable]
  end.
Definition same_base (a b : base) : bool :=
  match a, b with
  | B_EPCScheme, B_EPCScheme | B_TagEncodable, B_TagEncodable | B_GS1Element, B_GS1Element | B_GS1Keyed, B_GS1Keyed => true
  | _, _ => false
  end.
(** [issubclass(c, b)]; no class is more than two steps below EPCScheme's children *)
Fixpoint base_below (fuel : nat) (a b : base) : bool :=
  same_base a b ||
  match fuel, base_parent a with S f, Some p => base_below f p b | _, _ => false end.
Definition issubclass (c : cls) (b : base) : bool := existsb (fun a => base_below 2 a b) (bases c).

(** the tables of the classes, with the coding scheme as its value *)
Definition named {S} (value : S -> str) (l : list (str * S)) : list (str * str) := map (fun x => (fst x, value (snd x))) l.
Definition model_table (c : cls) : list (str * str) :=
  match c with
  | C_ADI => named adi_scheme_value adi_header_to_schemes | C_CPI => named cpi_scheme_value cpi_header_to_schemes
  | C_GDTI => named gdti_scheme_value gdti_header_to_schemes | C_GIAI => named giai_scheme_value giai_header_to_schemes
  | C_GID => named gid_scheme_value gid_header_to_schemes | C_GRAI => named grai_scheme_value grai_header_to_schemes
  | C_GSRN => named gsrn_scheme_value gsrn_header_to_schemes | C_GSRNP => named gsrnp_scheme_value gsrnp_header_to_schemes
  | C_ITIP => named itip_scheme_value itip_header_to_schemes | C_SGCN => named sgcn_scheme_value sgcn_header_to_schemes
  | C_SGLN => named sgln_scheme_value sgln_header_to_schemes | C_SGTIN => named sgtin_scheme_value sgtin_header_to_schemes
  | C_SSCC => named sscc_scheme_value sscc_header_to_schemes | C_USDOD => named usdod_scheme_value usdod_header_to_schemes
  | _ => []
  end.
