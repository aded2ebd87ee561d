(** The source text of epcpy/utils/common.py: C58.

    [Source/S_common.v] holds the syntax trees of the functions, [W] the namespaces, classes and functions that importing the modules
    gives, and [calls W f args kws r] says that the machine of [Model/Machine.v], given this text, comes to the result [r].  Each
    function of common.py comes to what its model in [Model/Common.v] says, for all arguments of the declared types. *)
From Coq Require Import String.
From Verif.Model Require Import Py PyFormat Syntax Machine Loader Common Base Sgtin.
From Verif.Source Require Import Program World.
From Verif.Spec Require Import SpecSource.
From Verif.Proofs Require Import SrcCommonAll.

(** [W] is what loading the modules gives *)
Theorem C58_loaded : exists W', load modules (empty_world codes) = Some W' /\
  w_code W' = w_code W /\ w_ns W' = w_ns W /\ w_cls W' = w_cls W /\ w_def W' = w_def W.
Proof. exact loading. Qed.
Print Assumptions C58_loaded.
(** a call has one result *)
Theorem C58_one_result : forall f args kws r r', calls W f args kws r -> calls W f args kws r' -> r = r'.
Proof. exact calls_once. Qed.
Print Assumptions C58_one_result.

Theorem C58_replace_uri_escapes : forall s, calls W (VFun "common.replace_uri_escapes") [VStr s] [] (Returned (VStr (replace_uri_escapes s))).
Proof. exact src_replace_uri_escapes. Qed.
Print Assumptions C58_replace_uri_escapes.
Theorem C58_revert_uri_escapes : forall s, calls W (VFun "common.revert_uri_escapes") [VStr s] [] (Returned (VStr (revert_uri_escapes s))).
Proof. exact src_revert_uri_escapes. Qed.
Print Assumptions C58_revert_uri_escapes.
Theorem C58_int_to_binary : forall z n, fits n -> calls W (VFun "common.int_to_binary") [VInt z; vnat n] [] (Returned (VStr (int_to_binary z n))).
Proof. exact src_int_to_binary. Qed.
Print Assumptions C58_int_to_binary.
Theorem C58_binary_to_int : forall s, calls W (VFun "common.binary_to_int") [VStr s] [] (result VInt (binary_to_int s)).
Proof. exact src_binary_to_int. Qed.
Print Assumptions C58_binary_to_int.
Theorem C58_str_to_binary : forall s n, fits n -> calls W (VFun "common.str_to_binary") [VStr s; vnat n] [] (result VStr (str_to_binary s n)).
Proof. exact src_str_to_binary. Qed.
Print Assumptions C58_str_to_binary.
Theorem C58_base64_to_hex : forall s, calls W (VFun "common.base64_to_hex") [VStr s] [] (result VStr (base64_to_hex s)).
Proof. exact src_base64_to_hex. Qed.
Print Assumptions C58_base64_to_hex.
Theorem C58_hex_to_base64 : forall s, calls W (VFun "common.hex_to_base64") [VStr s] [] (result VStr (hex_to_base64 s)).
Proof. exact src_hex_to_base64. Qed.
Print Assumptions C58_hex_to_base64.
Theorem C58_hex_to_binary : forall s, fits (length s * 4) -> calls W (VFun "common.hex_to_binary") [VStr s] [] (result VStr (hex_to_binary s)).
Proof. exact src_hex_to_binary. Qed.
Print Assumptions C58_hex_to_binary.
Theorem C58_binary_to_hex : forall s, calls W (VFun "common.binary_to_hex") [VStr s] [] (result VStr (binary_to_hex s)).
Proof. exact src_binary_to_hex. Qed.
Print Assumptions C58_binary_to_hex.
Theorem C58_encode_string : forall s n, fits n -> calls W (VFun "common.encode_string") [VStr s; vnat n] [] (result VStr (encode_string s n)).
Proof. exact src_encode_string. Qed.
Print Assumptions C58_encode_string.
Theorem C58_decode_string : forall s, calls W (VFun "common.decode_string") [VStr s] [] (result VStr (decode_string s)).
Proof. exact src_decode_string. Qed.
Print Assumptions C58_decode_string.
Theorem C58_decode_binary_char : forall s, calls W (VFun "common.decode_binary_char") [VStr s] [] (result VStr (decode_binary_char s)).
Proof. exact src_decode_binary_char. Qed.
Print Assumptions C58_decode_binary_char.
Theorem C58_encode_string_six_bits : forall s, calls W (VFun "common.encode_string_six_bits") [VStr s] [] (result VStr (encode_string_six_bits s)).
Proof. exact src_encode_string_six_bits. Qed.
Print Assumptions C58_encode_string_six_bits.
Theorem C58_decode_string_six_bits : forall s n, calls W (VFun "common.decode_string_six_bits") [VStr s; vnat n] [] (result VStr (decode_string_six_bits s n)).
Proof. exact src_decode_string_six_bits. Qed.
Print Assumptions C58_decode_string_six_bits.
Theorem C58_encode_numeric_string : forall s n, fits n -> calls W (VFun "common.encode_numeric_string") [VStr s; vnat n] [] (result VStr (encode_numeric_string s n)).
Proof. exact src_encode_numeric_string. Qed.
Print Assumptions C58_encode_numeric_string.
Theorem C58_decode_numeric_string : forall s, calls W (VFun "common.decode_numeric_string") [VStr s] [] (result VStr (decode_numeric_string s)).
Proof. exact src_decode_numeric_string. Qed.
Print Assumptions C58_decode_numeric_string.
Theorem C58_encode_fixed_width_integer : forall s n, (n <= 4300)%nat ->
  calls W (VFun "common.encode_fixed_width_integer") [VStr s; vnat n] [] (result VStr (encode_fixed_width_integer s n)).
Proof. exact src_encode_fixed_width_integer. Qed.
Print Assumptions C58_encode_fixed_width_integer.
Theorem C58_decode_fixed_width_integer : forall s, (length s <= 4300)%nat ->
  calls W (VFun "common.decode_fixed_width_integer") [VStr s] [] (result VStr (decode_fixed_width_integer s)).
Proof. exact src_decode_fixed_width_integer. Qed.
Print Assumptions C58_decode_fixed_width_integer.
Theorem C58_encode_cage_code : forall s, calls W (VFun "common.encode_cage_code") [VStr s] [] (Returned (VStr (encode_cage_code s))).
Proof. exact src_encode_cage_code. Qed.
Print Assumptions C58_encode_cage_code.
Theorem C58_decode_cage_code : forall s, calls W (VFun "common.decode_cage_code") [VStr s] [] (result VStr (decode_cage_code s)).
Proof. exact src_decode_cage_code. Qed.
Print Assumptions C58_decode_cage_code.
Theorem C58_encode_cage_code_six_bits : forall s, calls W (VFun "common.encode_cage_code_six_bits") [VStr s] [] (result VStr (encode_cage_code_six_bits s)).
Proof. exact src_encode_cage_code_six_bits. Qed.
Print Assumptions C58_encode_cage_code_six_bits.
Theorem C58_decode_cage_code_six_bits : forall s, calls W (VFun "common.decode_cage_code_six_bits") [VStr s] [] (result VStr (decode_cage_code_six_bits s)).
Proof. exact src_decode_cage_code_six_bits. Qed.
Print Assumptions C58_decode_cage_code_six_bits.
Theorem C58_verify_gs3a3_component : forall s, calls W (VFun "common.verify_gs3a3_component") [VStr s] [] (result (fun _ => VNone) (verify_gs3a3_component s)).
Proof. exact src_verify_gs3a3_component. Qed.
Print Assumptions C58_verify_gs3a3_component.
Theorem C58_calculate_checksum : forall s, calls W (VFun "common.calculate_checksum") [VStr s] [] (result VInt (calculate_checksum s)).
Proof. exact src_calculate_checksum. Qed.
Print Assumptions C58_calculate_checksum.
Theorem C58_encode_partition_table : forall s C D d t b c, nth_error s 0 = Some C -> nth_error s 1 = Some D -> table_of d t ->
  calls W (VFun "common.encode_partition_table") [VStrs s; VDict d; VBool b; VBool c] [] (result VStr (encode_partition_table C D t b c)).
Proof. exact src_encode_partition_table. Qed.
Print Assumptions C58_encode_partition_table.
Theorem C58_decode_partition_table : forall s d t x b c, table_of d t ->
  calls W (VFun "common.decode_partition_table") [VStr s; VDict d; VBool x; VBool b; VBool c] [] (result VStr (decode_partition_table s t x b c)).
Proof. exact src_decode_partition_table. Qed.
Print Assumptions C58_decode_partition_table.
(** the schemes of a header dictionary are members of an enumeration *)
Theorem C58_parse_header_and_truncate_binary : forall (S : Type) (cls : string) (name : S -> string) (value : S -> str) s (h : list (str * S)),
  calls W (VFun "common.parse_header_and_truncate_binary") [VStr s; VDict (dict_of (fun x => VEnum cls (name x) (VStr (value x))) h)] []
    (result (fun r => VTuple [VEnum cls (name (fst r)) (VStr (value (fst r))); VStr (snd r)]) (parse_header_and_truncate_binary value s h)).
Proof. exact src_parse_header. Qed.
Print Assumptions C58_parse_header_and_truncate_binary.

(** * Cases *)

Example C58_runs_case :
  calls W (VFun "common.encode_string") [VStr (lit "32a%2Fb"); VInt 42] [] (Returned (VStr (lit "011001101100101100001010111111000100000000"))) /\
  calls W (VFun "common.decode_string") [VStr (lit "0110011011001011000010101111110001000000000")] [] (Returned (VStr (lit "32a%2Fb"))) /\
  calls W (VFun "common.hex_to_binary") [VStr (lit "3g")] [] (Raised (XExn ValueError)) /\
  calls W (VFun "common.verify_gs3a3_component") [VStr (lit "abc%20")] [] (Raised (XExn ConvertException)) /\
  calls W (VFun "common.calculate_checksum") [VStr (lit "0061414112345")] [] (Returned (VInt 2)) /\
  calls W (VFun "common.decode_cage_code_six_bits") [VStr (lit "100000110010110101111000111001000001")] [] (Returned (VStr (lit "2589A"))).
Proof. repeat split; exists (200 * 50)%nat; vm_compute; reflexivity. Qed.
Example C58_table_case : exists d, assoc "PARTITION_TABLE_L" match assoc "sgtin" (w_ns W) with Some l => l | None => [] end = Some (VDict d) /\
  table_of d sgtin_table_L /\
  calls W (VFun "common.encode_partition_table") [VStrs [lit "0614141"; lit "812345"]; VDict d; VBool false; VBool false] []
    (Returned (VStr (lit "10100001001010111101111110111000110010100111001"))).
Proof.
  eexists. split; [vm_compute; reflexivity|]. split.
  - repeat (apply Forall2_cons; [split; [reflexivity|eexists; split; [reflexivity|vm_compute; repeat split; repeat constructor]]|]). apply Forall2_nil.
  - exists (200 * 50)%nat. vm_compute. reflexivity.
Qed.
Example C58_header_case :
  calls W (VFun "common.parse_header_and_truncate_binary")
    [VStr (lit "00110000" ++ repeat 49%N 90); VDict [(VStr (lit "00110000"), VEnum "sgtin.SGTIN.BinaryCodingScheme" "SGTIN_96" (VStr (lit "sgtin-96")))]] []
    (Returned (VTuple [VEnum "sgtin.SGTIN.BinaryCodingScheme" "SGTIN_96" (VStr (lit "sgtin-96")); VStr (lit "00110000" ++ repeat 49%N 88)])).
Proof. exists (200 * 50)%nat. vm_compute. reflexivity. Qed.
