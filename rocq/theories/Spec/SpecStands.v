(** The values of C57 as values of the machine, and the entry points of C57 as calls of the source. *)
From Coq Require Import String.
From Verif.Model Require Import Py PyFormat Syntax Machine Common Base.
From Verif.Model Require Import Adi Cpi Gdti Giai Gid Grai Gsrn Gsrnp Itip Lgtin Sgcn Sgln Sgtin Sscc Usdod Others Parsers Calls Registry Dynamic.
From Verif.Source Require Import Program World.
From Verif.Spec Require Import SpecParsers SpecDynamic.
Open Scope list_scope.

(** A float is zero exactly if its text is; a member of an enumeration is given by its value. *)
Inductive stands : pyval -> value -> Prop :=
| S_none : stands V_none VNone
| S_bool b : stands (V_bool b) (VBool b)
| S_int z : stands (V_int z) (VInt z)
| S_float t f : true_value (V_float t) = truth (VFloat f) -> stands (V_float t) (VFloat f)
| S_str s : stands (V_str s) (VStr s)
| S_bytes b : stands (V_bytes b) (VBytes b)
| S_scheme m c n : stands (V_scheme m) (VEnum c n (VStr (member_value m)))
| S_header k name bits c n : stands (V_header k name bits) (VEnum c n (VStr bits))
| S_filter k name i c n : stands (V_filter k name i) (VEnum c n (VStr (filter_value i)))
| S_gtin t c n : stands (V_gtin t) (VEnum c n (VInt (Z.of_nat (gtin_len t))))
| S_epc e t : stands (V_epc e t) (obj_of e).

(** the result of C57 as an outcome of the machine *)
Definition outcome_of {A} (f : A -> value) (r : pyres A) : outcome :=
  match r with
  | Returns a => Returned (f a)
  | Raises (Exn e) => Raised (XExn e)
  | Raises AttributeError => Raised (XOther "AttributeError")
  end.
Definition raised (e : pyexn) : outcome := match e with Exn e => Raised (XExn e) | AttributeError => Raised (XOther "AttributeError") end.

(** the keyword [gtin_type], if there is one *)
Definition key_words (kw : option pyval) (kws : list (string * value)) : Prop :=
  match kw with None => kws = [] | Some t => exists t', stands t t' /\ kws = [("gtin_type"%string, t')] end.

(** the call of [x] with the text [v] comes to [r], whatever stands for the other arguments *)
Definition entry_runs (x : entry) (v : value) (r : outcome) : Prop :=
  match x with
  | X_init c => calls W (class_value c) [v] [] r /\ invokes W (class_value c) "from_epc_uri" [v] [] r
  | X_pure => calls W (VFun "parsers.epc_pure_identity_to_scheme") [v] [] r
  | X_pure_element => calls W (VFun "parsers.epc_pure_identity_to_gs1_element") [v] [] r
  | X_pure_element_string => calls W (VFun "parsers.epc_pure_identity_to_gs1_element_string") [v] [] r
  | X_pure_keyed => calls W (VFun "parsers.epc_pure_identity_to_gs1_keyed") [v] [] r
  | X_pure_key kw => forall kws, key_words kw kws -> calls W (VFun "parsers.epc_pure_identity_to_gs1_key") [v] kws r
  | X_pure_tag => calls W (VFun "parsers.epc_pure_identity_to_tag_encodable") [v] [] r
  | X_from_element c l => forall l', stands l l' -> invokes W (class_value c) "from_gs1_element_string" [v; l'] [] r
  | X_element l => forall l', stands l l' -> calls W (VFun "parsers.gs1_element_string_to_gs1_element") [v; l'] [] r
  | X_tag_uri => calls W (VFun "parsers.tag_uri_to_tag_encodable") [v] [] r
  | X_from_tag_uri c None => invokes W (class_value c) "from_tag_uri" [v] [] r
  | X_from_tag_uri c (Some f) => forall f', stands f f' -> invokes W (class_value c) "from_tag_uri" [v; f'] [] r
  | X_binary => calls W (VFun "parsers.binary_to_tag_encodable") [v] [] r
  | X_from_binary c => invokes W (class_value c) "from_binary" [v] [] r
  | X_hex_bits => calls W (VFun "common.hex_to_binary") [v] [] r
  | X_hex => calls W (VFun "parsers.hex_to_tag_encodable") [v] [] r
  | X_from_hex c => invokes W (class_value c) "from_hex" [v] [] r
  | X_base64_hex => calls W (VFun "common.base64_to_hex") [v] [] r
  | X_base64 => calls W (VFun "parsers.base64_to_tag_encodable") [v] [] r
  | X_from_base64 c => invokes W (class_value c) "from_base64" [v] [] r
  | X_key l kw => forall l' kws, stands l l' -> key_words kw kws -> calls W (VFun "parsers.get_gs1_key") [v; l'] kws r
  end.
(** the class methods exist *)
Definition has_entry (x : entry) : Prop :=
  match x with
  | X_from_element c _ => In c SpecSchemes.element_classes
  | X_from_tag_uri c _ | X_from_binary c | X_from_hex c | X_from_base64 c => In c SpecSchemes.tag_classes
  | _ => True
  end.
