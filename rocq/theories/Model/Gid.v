(** epcpy/epc_schemes/gid.py *)
From Coq Require Import String.
From Verif.Model Require Import Py Re Regexes Common Base.

(** gid.py:38-42 *)
Inductive gid_scheme := GID_96.
Definition gid_scheme_value (s : gid_scheme) : str := lit "gid-96".
Definition gid_header (s : gid_scheme) : str := lit "00110101".
Definition gid_header_to_schemes : list (str * gid_scheme) := [(gid_header GID_96, GID_96)].

Record gid := mkGid { gid_epc_uri : str; gid_manager : str; gid_object : str; gid_serial : str }.

(** gid.py:44-63 *)
Definition gid_init (epc_uri : str) : res gid :=
  let* _ := raise_if (negb (fullmatch GID_URI epc_uri)) ConvertException in
  let* value := field4 epc_uri in
  let* (manager, object, serial) := unpack3 (split c_dot value) in
  let* m := int10 manager in
  let* _ := raise_if (2 ^ 28 <=? m)%Z ConvertException in
  let* o := int10 object in
  let* _ := raise_if (2 ^ 24 <=? o)%Z ConvertException in
  let* i := int10 serial in
  let* _ := raise_if ((2 ^ 36 <=? i)%Z ||
                      ((1 <? length serial)%nat && match serial with c :: _ => c =? c_0 | [] => false end))
                     ConvertException in
  Ok (mkGid epc_uri manager object serial).

(** gid.py:65-78 *)
Definition gid_tag_uri (x : gid) (s : gid_scheme) : res str :=
  Ok (TAG_URI_PREFIX ++ gid_scheme_value s ++ [c_colon] ++ gid_manager x ++ [c_dot] ++ gid_object x
      ++ [c_dot] ++ gid_serial x).

(** gid.py:80-99 *)
Definition gid_binary (x : gid) (s : gid_scheme) : res str :=
  let header := gid_header s in
  let* manager_binary := str_to_binary (gid_manager x) 28 in
  let* object_binary := str_to_binary (gid_object x) 24 in
  let* serial_binary := str_to_binary (gid_serial x) 36 in
  Ok (header ++ manager_binary ++ object_binary ++ serial_binary).

(** gid.py:101-115: the filter is not part of a GID tag URI by default *)
Definition gid_from_tag_uri (u : str) : res gid := from_tag_uri gid_init u false.

(** gid.py:117-143 *)
Definition gid_from_binary (binary_string : str) : res gid :=
  let* (s, t) := parse_header_and_truncate_binary gid_scheme_value binary_string gid_header_to_schemes in
  let* manager_string := binary_to_int (sl 8 36 t) in
  let* object_string := binary_to_int (sl 36 60 t) in
  let* serial_string := binary_to_int (skipn 60 t) in
  gid_from_tag_uri (TAG_URI_PREFIX ++ gid_scheme_value s ++ [c_colon] ++ dec manager_string
                    ++ [c_dot] ++ dec object_string ++ [c_dot] ++ dec serial_string).
