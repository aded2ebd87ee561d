(** What [import epcpy] offers: eleven functions of parsers.py and the exception of common.py (README.md; epcpy/__init__.py). *)
From Coq Require Import String List.
From Verif.Model Require Import Machine.
Import ListNotations.
Open Scope string_scope.

Definition public_parsers : list string :=
  ["base64_to_tag_encodable"; "binary_to_tag_encodable"; "epc_pure_identity_to_gs1_element"; "epc_pure_identity_to_gs1_element_string";
   "epc_pure_identity_to_gs1_key"; "epc_pure_identity_to_gs1_keyed"; "epc_pure_identity_to_scheme"; "epc_pure_identity_to_tag_encodable";
   "get_gs1_key"; "hex_to_tag_encodable"; "tag_uri_to_tag_encodable"].
Definition public : list (string * value) :=
  (map (fun n => (n, VFun ("parsers." ++ n))) public_parsers ++ [("ConvertException", VClass "common.ConvertException")])%list.
