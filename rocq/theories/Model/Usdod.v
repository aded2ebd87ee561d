(** epcpy/epc_schemes/usdod.py *)
From Coq Require Import String.
From Verif.Model Require Import Py Re Regexes Common Base.

(** usdod.py:59-63 *)
Inductive usdod_scheme := USDOD_96.
Definition usdod_scheme_value (s : usdod_scheme) : str := lit "usdod-96".
Definition usdod_header (s : usdod_scheme) : str := lit "00101111".
Definition usdod_header_to_schemes : list (str * usdod_scheme) := [(usdod_header USDOD_96, USDOD_96)].

Record usdod := mkUsdod { usdod_epc_uri : str; usdod_cage : str; usdod_serial : str }.

(** usdod.py:65-78 *)
Definition usdod_init (epc_uri : str) : res usdod :=
  let* _ := raise_if (negb (fullmatch USDOD_URI epc_uri)) ConvertException in
  let* value := field4 epc_uri in
  let* (cage, serial) := unpack2 (split c_dot value) in
  let* i := int10 serial in
  let* _ := raise_if ((2 ^ 36 <=? i)%Z ||
                      ((1 <? length serial)%nat && match serial with c :: _ => c =? c_0 | [] => false end))
                     ConvertException in
  Ok (mkUsdod epc_uri cage serial).

(** usdod.py:80-95 *)
Definition usdod_tag_uri (x : usdod) (s : usdod_scheme) (f : N) : res str :=
  Ok (TAG_URI_PREFIX ++ usdod_scheme_value s ++ [c_colon] ++ filter_value f ++ [c_dot] ++ usdod_cage x
      ++ [c_dot] ++ usdod_serial x).

(** usdod.py:97-117 *)
Definition usdod_binary (x : usdod) (s : usdod_scheme) (f : N) : res str :=
  let header := usdod_header s in
  let* filter_binary := str_to_binary (filter_value f) 4 in
  let cage_code_binary := encode_cage_code (padl c_space 6 (usdod_cage x)) in
  let* serial_binary := str_to_binary (usdod_serial x) 36 in
  Ok (header ++ filter_binary ++ cage_code_binary ++ serial_binary).

Definition usdod_from_tag_uri (u : str) : res usdod := from_tag_uri usdod_init u true.

(** usdod.py:119-144 *)
Definition usdod_from_binary (binary_string : str) : res usdod :=
  let* (s, t) := parse_header_and_truncate_binary usdod_scheme_value binary_string usdod_header_to_schemes in
  let* filter_string := binary_to_int (sl 8 12 t) in
  let* cage_code_string := decode_cage_code (sl 12 60 t) in
  let* serial_string := binary_to_int (skipn 60 t) in
  usdod_from_tag_uri (TAG_URI_PREFIX ++ usdod_scheme_value s ++ [c_colon] ++ dec filter_string
                      ++ [c_dot] ++ cage_code_string ++ [c_dot] ++ dec serial_string).
