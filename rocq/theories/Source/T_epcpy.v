(** epcpy/__init__.py, the text of the file, line by line. *)
From Coq Require Import String List.
Import ListNotations.
Open Scope string_scope.

Definition text_epcpy : list string := [
  "from .utils.parsers import (";
  "    base64_to_tag_encodable,";
  "    binary_to_tag_encodable,";
  "    epc_pure_identity_to_gs1_element,";
  "    epc_pure_identity_to_gs1_element_string,";
  "    epc_pure_identity_to_gs1_key,";
  "    epc_pure_identity_to_gs1_keyed,";
  "    epc_pure_identity_to_scheme,";
  "    epc_pure_identity_to_tag_encodable,";
  "    get_gs1_key,";
  "    hex_to_tag_encodable,";
  "    tag_uri_to_tag_encodable,";
  ")";
  "";
  "from .utils.common import ConvertException"
].
