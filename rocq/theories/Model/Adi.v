(** epcpy/epc_schemes/adi.py *)
From Coq Require Import String.
From Verif.Model Require Import Py Re Regexes Common Base.

(** adi.py:109-113 *)
Inductive adi_scheme := ADI_VAR.
Definition adi_scheme_value (s : adi_scheme) : str := lit "adi-var".
Definition adi_header (s : adi_scheme) : str := lit "00111011".
Definition adi_header_to_schemes : list (str * adi_scheme) := [(adi_header ADI_VAR, ADI_VAR)].

Record adi := mkAdi { adi_epc_uri : str; adi_cage : str; adi_part : str; adi_serial : str }.

(** adi.py:115-135 *)
Definition adi_init (epc_uri : str) : res adi :=
  let* _ := raise_if (negb (fullmatch ADI_URI epc_uri)) ConvertException in
  let* value := field4 epc_uri in
  let* (cage, part, serial) := unpack3 (split c_dot value) in
  let* _ := raise_if (negb (length (replace (lit "%2F") (lit "/") part) <=? 32)%nat) ConvertException in
  let n := length (replace (lit "%23") (lit "#") (replace (lit "%2F") (lit "/") serial)) in
  let* _ := raise_if (negb ((1 <=? n)%nat && (n <=? 30)%nat)) ConvertException in
  Ok (mkAdi epc_uri cage part serial).

(** adi.py:137-151 *)
Definition adi_tag_uri (x : adi) (s : adi_scheme) (f : N) : res str :=
  Ok (TAG_URI_PREFIX ++ adi_scheme_value s ++ [c_colon] ++ filter_value f ++ [c_dot] ++ adi_cage x
      ++ [c_dot] ++ adi_part x ++ [c_dot] ++ adi_serial x).

(** adi.py:153-180 *)
Definition adi_binary (x : adi) (s : adi_scheme) (f : N) : res str :=
  let header := adi_header s in
  let* filter_binary := str_to_binary (filter_value f) 6 in
  let* cage_code_binary := encode_cage_code_six_bits (adi_cage x) in
  let* part_number_binary := encode_string_six_bits (adi_part x) in
  let* serial_binary := encode_string_six_bits (adi_serial x) in
  Ok (header ++ filter_binary ++ cage_code_binary ++ part_number_binary ++ serial_binary).

Definition adi_from_tag_uri (u : str) : res adi := from_tag_uri adi_init u true.

(** adi.py:203 the pattern ".*([0]{6})+.*" *)
Definition adi_terminator : re :=
  rseq [RStar (RSet dotc); rplus (rrep 6 (rchar c_0)); RStar (RSet dotc)].
(** adi.py:209 the pattern "([0]{6})" *)
Definition m_zeros6 : str -> option nat := m_seq (repeat (N.eqb c_0) 6).

(** adi.py:182-221 *)
Definition adi_from_binary (binary_string : str) : res adi :=
  let* (s, t) := parse_header_and_truncate_binary adi_scheme_value binary_string adi_header_to_schemes in
  let filter_binary := sl 8 14 t in
  let cage_code_binary := sl 14 50 t in
  let* _ := raise_if (negb (rmatch adi_terminator (skipn 50 t))) ConvertException in
  let* (part_number_binary, _, serial_binary) := unpack2_rest (re_split_cap m_zeros6 (skipn 50 t)) in
  let serial_binary_trimmed := drop_last 6 (concat serial_binary) in
  let* filter_string := binary_to_int filter_binary in
  let* cage_code_string := decode_cage_code_six_bits cage_code_binary in
  let* part_number_string := decode_string_six_bits part_number_binary 32 in
  let* serial_string := decode_string_six_bits serial_binary_trimmed 30 in
  adi_from_tag_uri (TAG_URI_PREFIX ++ adi_scheme_value s ++ [c_colon] ++ dec filter_string
                    ++ [c_dot] ++ cage_code_string ++ [c_dot] ++ part_number_string
                    ++ [c_dot] ++ serial_string).
