(** What the text of common.py does, from runs of the machine. *)
From Coq Require Import String.
From Verif.Model Require Import Py PyFormat Syntax Machine Loader Common Base.
From Verif.Source Require Import World.
From Verif.Spec Require Import SpecSource.
From Verif.Proofs Require Export SrcUse SrcCommon.

Lemma src_replace_uri_escapes : forall s, calls W (VFun "common.replace_uri_escapes") [VStr s] [] (Returned (VStr (replace_uri_escapes s))).
Proof. intros s. apply calls_of. intros k. apply (g_replace_uri_escapes s). Qed.
Lemma src_revert_uri_escapes : forall s, calls W (VFun "common.revert_uri_escapes") [VStr s] [] (Returned (VStr (revert_uri_escapes s))).
Proof. intros s. apply calls_of. intros k. apply (g_revert_uri_escapes s). Qed.
Lemma src_int_to_binary : forall z n, fits n -> calls W (VFun "common.int_to_binary") [VInt z; vnat n] [] (Returned (VStr (int_to_binary z n))).
Proof. intros z n H. apply calls_of. intros k. apply (g_int_to_binary z n H). Qed.
Lemma src_binary_to_int : forall s, calls W (VFun "common.binary_to_int") [VStr s] [] (result VInt (binary_to_int s)).
Proof. intros s. apply calls_of. intros k. apply (g_binary_to_int s). Qed.
Lemma src_str_to_binary : forall s n, fits n -> calls W (VFun "common.str_to_binary") [VStr s; vnat n] [] (result VStr (str_to_binary s n)).
Proof. intros s n H. apply calls_of. intros k. apply (g_str_to_binary s n H). Qed.
Lemma src_base64_to_hex : forall s, calls W (VFun "common.base64_to_hex") [VStr s] [] (result VStr (base64_to_hex s)).
Proof. intros s. apply calls_of. intros k. apply (g_base64_to_hex s). Qed.
Lemma src_hex_to_base64 : forall s, calls W (VFun "common.hex_to_base64") [VStr s] [] (result VStr (hex_to_base64 s)).
Proof. intros s. apply calls_of. intros k. apply (g_hex_to_base64 s). Qed.
Lemma src_hex_to_binary : forall s, fits (length s * 4) -> calls W (VFun "common.hex_to_binary") [VStr s] [] (result VStr (hex_to_binary s)).
Proof. intros s H. apply calls_of. intros k. apply (g_hex_to_binary s H). Qed.
Lemma src_binary_to_hex : forall s, calls W (VFun "common.binary_to_hex") [VStr s] [] (result VStr (binary_to_hex s)).
Proof. intros s. apply calls_of. intros k. apply (g_binary_to_hex s). Qed.
Lemma src_encode_string : forall s n, fits n -> calls W (VFun "common.encode_string") [VStr s; vnat n] [] (result VStr (encode_string s n)).
Proof. intros s n H. apply calls_of. intros k. apply (g_encode_string s n H). Qed.
Lemma src_decode_string : forall s, calls W (VFun "common.decode_string") [VStr s] [] (result VStr (decode_string s)).
Proof. intros s. apply calls_of. intros k. apply (g_decode_string s). Qed.
Lemma src_decode_binary_char : forall s, calls W (VFun "common.decode_binary_char") [VStr s] [] (result VStr (decode_binary_char s)).
Proof. intros s. apply calls_of. intros k. apply (g_decode_binary_char s). Qed.
Lemma src_encode_string_six_bits : forall s, calls W (VFun "common.encode_string_six_bits") [VStr s] [] (result VStr (encode_string_six_bits s)).
Proof. intros s. apply calls_of. intros k. apply (g_encode_string_six_bits s). Qed.
Lemma src_decode_string_six_bits : forall s n, calls W (VFun "common.decode_string_six_bits") [VStr s; vnat n] [] (result VStr (decode_string_six_bits s n)).
Proof. intros s n. apply calls_of. intros k. apply (g_decode_string_six_bits s n). Qed.
Lemma src_encode_numeric_string : forall s n, fits n -> calls W (VFun "common.encode_numeric_string") [VStr s; vnat n] [] (result VStr (encode_numeric_string s n)).
Proof. intros s n H. apply calls_of. intros k. apply (g_encode_numeric_string s n H). Qed.
Lemma src_decode_numeric_string : forall s, calls W (VFun "common.decode_numeric_string") [VStr s] [] (result VStr (decode_numeric_string s)).
Proof. intros s. apply calls_of. intros k. apply (g_decode_numeric_string s). Qed.
Lemma src_encode_fixed_width_integer : forall s n, (n <= 4300)%nat ->
  calls W (VFun "common.encode_fixed_width_integer") [VStr s; vnat n] [] (result VStr (encode_fixed_width_integer s n)).
Proof. intros s n H. apply calls_of. intros k. apply (g_encode_fixed_width_integer s n H). Qed.
Lemma src_decode_fixed_width_integer : forall s, (length s <= 4300)%nat ->
  calls W (VFun "common.decode_fixed_width_integer") [VStr s] [] (result VStr (decode_fixed_width_integer s)).
Proof. intros s H. apply calls_of. intros k. apply (g_decode_fixed_width_integer s H). Qed.
Lemma src_encode_cage_code : forall s, calls W (VFun "common.encode_cage_code") [VStr s] [] (Returned (VStr (encode_cage_code s))).
Proof. intros s. apply calls_of. intros k. apply (g_encode_cage_code s). Qed.
Lemma src_decode_cage_code : forall s, calls W (VFun "common.decode_cage_code") [VStr s] [] (result VStr (decode_cage_code s)).
Proof. intros s. apply calls_of. intros k. apply (g_decode_cage_code s). Qed.
Lemma src_encode_cage_code_six_bits : forall s, calls W (VFun "common.encode_cage_code_six_bits") [VStr s] [] (result VStr (encode_cage_code_six_bits s)).
Proof. intros s. apply calls_of. intros k. apply (g_encode_cage_code_six_bits s). Qed.
Lemma src_decode_cage_code_six_bits : forall s, calls W (VFun "common.decode_cage_code_six_bits") [VStr s] [] (result VStr (decode_cage_code_six_bits s)).
Proof. intros s. apply calls_of. intros k. apply (g_decode_cage_code_six_bits s). Qed.
Lemma src_verify_gs3a3_component : forall s, calls W (VFun "common.verify_gs3a3_component") [VStr s] [] (result (fun _ => VNone) (verify_gs3a3_component s)).
Proof. intros s. apply calls_of. intros k. apply (g_verify_gs3a3_component s). Qed.
Lemma src_calculate_checksum : forall s, calls W (VFun "common.calculate_checksum") [VStr s] [] (result VInt (calculate_checksum s)).
Proof. intros s. apply calls_of. intros k. apply (g_calculate_checksum s). Qed.
Lemma src_encode_partition_table : forall s C D d t b c, nth_error s 0 = Some C -> nth_error s 1 = Some D -> table_of d t ->
  calls W (VFun "common.encode_partition_table") [VStrs s; VDict d; VBool b; VBool c] [] (result VStr (encode_partition_table C D t b c)).
Proof. intros s C D d t b c H H0 H1. apply calls_of. intros k. apply (g_encode_partition_table s C D d t b c H H0 H1). Qed.
Lemma src_decode_partition_table : forall s d t x b c, table_of d t ->
  calls W (VFun "common.decode_partition_table") [VStr s; VDict d; VBool x; VBool b; VBool c] [] (result VStr (decode_partition_table s t x b c)).
Proof. intros s d t x b c H. apply calls_of. intros k. apply (g_decode_partition_table s d t x b c H). Qed.
Lemma src_parse_header : forall (S : Type) (cls : string) (name : S -> string) (value : S -> str) s (h : list (str * S)),
  calls W (VFun "common.parse_header_and_truncate_binary") [VStr s; VDict (dict_of (fun x => VEnum cls (name x) (VStr (value x))) h)] []
    (result (fun r => VTuple [VEnum cls (name (fst r)) (VStr (value (fst r))); VStr (snd r)]) (parse_header_and_truncate_binary value s h)).
Proof. intros S cls name value s h. apply calls_of. intros k. apply g_parse_header. Qed.
