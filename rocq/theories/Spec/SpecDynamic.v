(** Values of any type as arguments: which values there are, what each entry point does first with its text, and what it
    answers. *)
From Coq Require Import String.
From Verif.Model Require Import Py Common Base.
From Verif.Model Require Import Adi Cpi Gdti Giai Gid Grai Gsrn Gsrnp Itip Lgtin Sgcn Sgln Sgtin Sscc Usdod Others Parsers Calls Registry Dynamic.
From Verif.Spec Require Import Spec SpecGrammar SpecSchemes SpecCalls.

(** The values that exist: bytes are below 256, an enumeration has the members it was written with, and the text of a float
    or of an object opens as Python opens it. *)
Definition possible (v : pyval) : Prop :=
  match v with
  | V_float t => exists sign c r, t = sign ++ c :: r /\ (sign = [] \/ sign = lit "-") /\ (48 <= c <= 57 \/ In c (lit "in"))
  | V_bytes b => forall c, In c b -> c < 256
  | V_scheme m => member_class m <> None
  | V_header c name bits => In (name, bits) (binary_header_enum c)
  | V_filter c name n => In (name, ndec n) (filter_value_enum c)
  | V_epc _ t => exists r, t = lit "<epcpy." ++ r
  | _ => True
  end.
Definition is_text (v : pyval) : Prop := exists s, v = V_str s.
Definition is_bytes (v : pyval) : Prop := exists b, v = V_bytes b.
(** int, bool and IntEnum *)
Definition integer (v : pyval) (z : Z) : Prop :=
  v = V_int z \/ (v = V_bool true /\ z = 1%Z) \/ (v = V_bool false /\ z = 0%Z) \/ exists t, v = V_gtin t /\ z = Z.of_nat (gtin_len t).

(** * Entry points that take one text *)

Inductive entry :=
| X_init (c : cls)
| X_pure | X_pure_element | X_pure_element_string | X_pure_keyed | X_pure_key (kw : option pyval) | X_pure_tag
| X_from_element (c : cls) (l : pyval) | X_element (l : pyval)
| X_tag_uri | X_from_tag_uri (c : cls) (flag : option pyval)
| X_binary | X_from_binary (c : cls)
| X_hex_bits | X_hex | X_from_hex (c : cls)
| X_base64_hex | X_base64 | X_from_base64 (c : cls)
| X_key (l : pyval) (kw : option pyval).
(** an object or a text *)
Inductive answer := A_epc (e : epc) | A_text (s : str).
Definition answered {A} (f : A -> answer) (r : pyres A) : pyres answer :=
  match r with Returns a => Returns (f a) | Raises e => Raises e end.
Definition enter (x : entry) (v : pyval) : pyres answer :=
  match x with
  | X_init c => answered A_epc (dyn_init c v)
  | X_pure => answered A_epc (dyn_pure_identity_to_scheme v)
  | X_pure_element => answered A_epc (dyn_pure_identity_to_gs1_element v)
  | X_pure_element_string => answered A_text (dyn_pure_identity_to_gs1_element_string v)
  | X_pure_keyed => answered A_epc (dyn_pure_identity_to_gs1_keyed v)
  | X_pure_key kw => answered A_text (dyn_pure_identity_to_gs1_key v kw)
  | X_pure_tag => answered A_epc (dyn_pure_identity_to_tag_encodable v)
  | X_from_element c l => answered A_epc (dyn_from_gs1_element_string c v l)
  | X_element l => answered A_epc (dyn_gs1_element_string_to_gs1_element v l)
  | X_tag_uri => answered A_epc (dyn_tag_uri_to_tag_encodable v)
  | X_from_tag_uri c flag => answered A_epc (dyn_from_tag_uri c v flag)
  | X_binary => answered A_epc (dyn_binary_to_tag_encodable v)
  | X_from_binary c => answered A_epc (dyn_from_binary c v)
  | X_hex_bits => answered A_text (dyn_hex_to_binary v)
  | X_hex => answered A_epc (dyn_hex_to_tag_encodable v)
  | X_from_hex c => answered A_epc (dyn_from_hex c v)
  | X_base64_hex => answered A_text (dyn_base64_to_hex v)
  | X_base64 => answered A_epc (dyn_base64_to_tag_encodable v)
  | X_from_base64 c => answered A_epc (dyn_from_base64 c v)
  | X_key l kw => answered A_text (dyn_get_gs1_key v l kw)
  end.
(** what is done first with the text *)
Inductive use := Matched | Split | Header (missing : exn) | Number | Format.
Definition first_use (x : entry) : use :=
  match x with
  | X_init _ | X_from_element _ _ | X_element _ | X_from_tag_uri _ _ | X_key _ _ => Matched
  | X_pure | X_pure_element | X_pure_element_string | X_pure_keyed | X_pure_key _ | X_pure_tag | X_tag_uri => Split
  | X_binary => Header ConvertException
  | X_from_binary _ => Header KeyError
  | X_hex_bits | X_hex | X_from_hex _ => Number
  | X_base64_hex | X_base64 | X_from_base64 _ => Format
  end.
(** the exception for a value that is no text *)
Definition refusal (u : use) (v : pyval) : option pyexn :=
  match u, v with
  | _, V_str _ => None
  | Matched, _ => Some (Exn TypeError)
  | Split, V_bytes _ => Some (Exn TypeError)
  | Split, _ => Some AttributeError
  | Header e, V_bytes _ => Some (Exn e)
  | Header _, _ => Some (Exn TypeError)
  | Number, V_bytes _ => None
  | Number, _ => Some (Exn TypeError)
  | Format, _ => None
  end.
(** the class a class method belongs to has tags *)
Definition tag_entry (x : entry) : Prop := match x with X_from_base64 c => In c tag_classes | _ => True end.

(** * tag_uri and binary *)

(** a member of an enumeration *)
Definition is_member (v : pyval) : Prop :=
  match v with V_scheme _ | V_header _ _ _ | V_filter _ _ _ | V_gtin _ => True | _ => False end.
(** a member of BinaryCodingScheme or of BinaryHeader of the class *)
Definition names_scheme (c : cls) (v : pyval) : Prop :=
  (exists m, v = V_scheme m /\ member_class m = Some c) \/ (exists name bits, v = V_header c name bits).
(** a member whose value is a number *)
Definition numeric_member (v : pyval) : Prop :=
  match v with V_header _ _ _ | V_filter _ _ _ | V_gtin _ => True | _ => False end.
(** the coding scheme [m] is the last of its class, which is the only one or the longer one *)
Definition last_scheme (c : cls) (m : member) : Prop := member_class m = Some c /\ member_value m = last (coding_names c) [].

(** what counts as false *)
Definition counts_as_false (v : pyval) : Prop :=
  v = V_none \/ v = V_bool false \/ v = V_int 0 \/ v = V_float (lit "0.0") \/ v = V_float (lit "-0.0") \/ v = V_str [] \/ v = V_bytes [].

(** optional arguments of the declared types *)
Definition kw_value (kw : option gtin_type) : option pyval := option_map V_gtin kw.
Definition length_value (l : option Z) : pyval := match l with None => V_none | Some z => V_int z end.

(** * What [str] makes of a value *)

Inductive str_text : pyval -> str -> Prop :=
| T_none : str_text V_none (lit "None")
| T_true : str_text (V_bool true) (lit "True")
| T_false : str_text (V_bool false) (lit "False")
| T_nat (t : str) : numeral t -> ascii_digits t -> N.of_nat (length t) <= 4300 -> str_text (V_int (Z.of_N (decimal t))) t
| T_neg (t : str) : numeral t -> ascii_digits t -> N.of_nat (length t) <= 4300 -> decimal t <> 0 ->
    str_text (V_int (- Z.of_N (decimal t))) (45 :: t)
| T_text (s : str) : str_text (V_str s) s.
