(** Enumerations, headers and the dictionaries of the parsers: C48. *)
From Coq Require Import String.
From Verif.Model Require Import Py Re Regexes Common Base.
From Verif.Model Require Import Adi Cpi Gdti Giai Gid Grai Gsrn Gsrnp Itip Lgtin Sgcn Sgln Sgtin Sscc Usdod Others Parsers Registry.
From Verif.Spec Require Import Spec SpecGrammar SpecHex SpecSchemes SpecRegistry.
From Verif.Proofs Require Import Enums.

(** no name is written twice (a TypeError) and no value is (an alias) *)
Theorem C48_no_aliases : forall c,
  NoDup (map fst (binary_coding_scheme_enum c)) /\ NoDup (map snd (binary_coding_scheme_enum c)) /\
  NoDup (map fst (binary_header_enum c)) /\ NoDup (map snd (binary_header_enum c)) /\
  NoDup (map fst (filter_value_enum c)) /\ NoDup (map snd (filter_value_enum c)).
Proof. exact enums_plain. Qed.
Print Assumptions C48_no_aliases.

(** header_to_schemes() never raises and maps the standard's headers of the class to the coding schemes they belong to *)
Theorem C48_header_to_schemes : forall c, exists items, header_to_schemes c = Ok items /\
  forall k name coding, dict_get k items = Some (name, coding) <->
    exists hx, In (c, coding, hx) tds_headers /\ k = hex_bits hx /\ member_name coding name.
Proof. exact header_dict. Qed.
Print Assumptions C48_header_to_schemes.
Example C48_header_to_schemes_case :
  match header_to_schemes C_SGTIN with
  | Ok items => match dict_get (lit "00110110") items, dict_get (lit "00110001") items with
                | Some (n, v), None => str_eqb n (lit "SGTIN_198") && str_eqb v (lit "sgtin-198")
                | _, _ => false
                end
  | Raise _ => false
  end = true.
Proof. vm_compute. reflexivity. Qed.

(** the coding schemes of a class are those of the standard, and binary() finds the header of each by its name *)
Theorem C48_header_of_coding : forall c coding name, In (name, coding) (binary_coding_scheme_enum c) <->
  exists hx, In (c, coding, hx) tds_headers /\ member_name coding name /\ header_of_scheme c name = Ok (hex_bits hx).
Proof. exact scheme_header. Qed.
Print Assumptions C48_header_of_coding.
Example C48_header_of_coding_case :
  match header_of_scheme C_ITIP (lit "ITIP_212"), header_of_scheme C_ITIP (lit "SGTIN_96") with
  | Ok h, Raise KeyError => str_eqb h (lit "01000001") | _, _ => false end = true.
Proof. vm_compute. reflexivity. Qed.

(** TAG_ENCODABLE_BINARY_HEADERS and TAG_ENCODABLE_HEX_HEADERS: every header of the standard leads to its scheme, nothing
    else leads anywhere *)
Theorem C48_binary_headers : forall k c,
  dict_get k binary_headers_dict = Some c <-> exists coding hx, In (c, coding, hx) tds_headers /\ k = hex_bits hx.
Proof. exact binary_dict. Qed.
Print Assumptions C48_binary_headers.
Theorem C48_hex_headers : forall k c, dict_get k hex_headers_dict = Some c <-> exists coding, In (c, coding, k) tds_headers.
Proof. exact hex_dict. Qed.
Print Assumptions C48_hex_headers.
Example C48_headers_case :
  dict_get (lit "00111101") binary_headers_dict = Some C_CPI /\ dict_get (lit "3D") hex_headers_dict = Some C_CPI /\
  dict_get (lit "00111010") binary_headers_dict = None /\ dict_get (lit "3d") hex_headers_dict = None.
Proof. vm_compute. auto. Qed.

(** EPC_SCHEME_IDENTIFIERS, TAG_ENCODABLE_SCHEME_IDENTIFIERS and GS1_KEYED_SCHEME_IDENTIFIERS *)
Theorem C48_identifiers : forall classes k c, In classes [EPC_SCHEMES; TAG_ENCODABLE_CLASSES; GS1_KEYED_CLASSES] ->
  (dict_get k (identifiers_dict classes) = Some c <-> In c classes /\ k = scheme_name c).
Proof. exact identifier_dict. Qed.
Print Assumptions C48_identifiers.
Example C48_identifiers_case :
  dict_get (lit "gsrnp") (identifiers_dict TAG_ENCODABLE_CLASSES) = Some C_GSRNP /\
  dict_get (lit "gsin") (identifiers_dict TAG_ENCODABLE_CLASSES) = None.
Proof. vm_compute. auto. Qed.
Theorem C48_subclasses : forall c,
  (issubclass c B_TagEncodable = true <-> In c tag_classes) /\ (issubclass c B_GS1Element = true <-> In c element_classes) /\
  (issubclass c B_GS1Keyed = true <-> In c keyed_classes) /\ issubclass c B_EPCScheme = true /\
  is_tag_encodable c = issubclass c B_TagEncodable /\ is_gs1_element c = issubclass c B_GS1Element /\ is_gs1_keyed c = issubclass c B_GS1Keyed.
Proof. exact subclasses. Qed.
Print Assumptions C48_subclasses.

(** the first-match tables the model looks things up in are these dictionaries *)
Theorem C48_tables_of_the_parsers : forall k,
  assoc_str k TAG_ENCODABLE_BINARY_HEADERS = dict_get k binary_headers_dict /\
  assoc_str k TAG_ENCODABLE_HEX_HEADERS = dict_get k hex_headers_dict /\
  assoc_str k EPC_SCHEME_IDENTIFIERS = dict_get k (identifiers_dict EPC_SCHEMES) /\
  assoc_str k TAG_ENCODABLE_SCHEME_IDENTIFIERS = dict_get k (identifiers_dict TAG_ENCODABLE_CLASSES) /\
  assoc_str k GS1_KEYED_SCHEME_IDENTIFIERS = dict_get k (identifiers_dict GS1_KEYED_CLASSES).
Proof. exact model_dispatch. Qed.
Print Assumptions C48_tables_of_the_parsers.
Theorem C48_tables_of_the_classes : forall c k coding,
  assoc_str k (model_table c) = Some coding <-> exists items name, header_to_schemes c = Ok items /\ dict_get k items = Some (name, coding).
Proof. exact model_headers. Qed.
Print Assumptions C48_tables_of_the_classes.

(** the filter values of a class are the numbers below 8 (16 for USDOD, 64 for ADI, none for GID) in decimal *)
Theorem C48_filter_values : forall c v,
  (exists name, In (name, v) (filter_value_enum c)) <-> exists n, n < filter_count c /\ spelled n v.
Proof. exact filter_values. Qed.
Print Assumptions C48_filter_values.
Example C48_filter_values_case :
  match enum_by_name (filter_value_enum C_ADI) (lit "SEAT_CUSHIONS"), enum_by_value (filter_value_enum C_USDOD) (lit "16") with
  | Ok (_, v), Raise ValueError => str_eqb v (lit "8") | _, _ => false end = true.
Proof. vm_compute. reflexivity. Qed.
