(** epcpy/epc_schemes/base_scheme.py *)
From Coq Require Import String.
From Verif.Model Require Import Py Re Regexes Common.

(** base_scheme.py:74 *)
Definition TAG_URI_PREFIX : str := lit "urn:epc:tag:".

(** base_scheme.py:106-117: [hex()], given the result of [self.binary(...)] *)
Definition binary_hex (binary : res str) : res str :=
  let* b := binary in
  let padding := ((16 - length b mod 16) mod 16)%nat in
  let padded_binary := padr c_0 (length b + padding) b in
  let* i := int_base 2 padded_binary in
  Ok (fmt_hex_up i).

(** base_scheme.py:119-127: [base64()] *)
Definition binary_base64 (binary : res str) : res str :=
  let* h := binary_hex binary in hex_to_base64 h.

(** A TagEncodable class is given by its constructor [cls] and its [from_binary]. *)

(** base_scheme.py:143-153 *)
Definition from_hex {T} (from_binary : str -> res T) (tag_hex_string : str) : res T :=
  let* b := hex_to_binary tag_hex_string in from_binary b.

(** base_scheme.py:155-167 *)
Definition from_base64 {T} (from_binary : str -> res T) (tag_base64_string : str) : res T :=
  let* h := base64_to_hex tag_base64_string in from_hex from_binary h.

(** base_scheme.py:169-196 *)
Definition from_tag_uri {T} (cls : str -> res T) (epc_tag_uri : str) (includes_filter : bool) : res T :=
  let* _ := raise_if (negb (rmatch TAG_URI epc_tag_uri)) ConvertException in
  let* epc_scheme := idx (split c_colon epc_tag_uri) 3 in
  let* value :=
    (if includes_filter
     then Ok (join [c_dot] (skipn 1 (split c_dot (join [c_colon] (skipn 3 (split c_colon epc_tag_uri))))))
     else idx (split c_colon epc_tag_uri) 4) in
  let* name := idx (split c_dash epc_scheme) 0 in
  cls (lit "urn:epc:id:" ++ name ++ [c_colon] ++ value).

(** tuple unpacking, [a, b = l] and [a, b, *rest = l]; a wrong number of elements is a ValueError *)
Definition unpack2 {A} (l : list A) : res (A * A) :=
  match l with [a; b] => Ok (a, b) | _ => Raise ValueError end.
Definition unpack3 {A} (l : list A) : res (A * A * A) :=
  match l with [a; b; c] => Ok (a, b, c) | _ => Raise ValueError end.
Definition unpack1_rest {A} (l : list A) : res (A * list A) :=
  match l with a :: r => Ok (a, r) | _ => Raise ValueError end.
Definition unpack2_rest {A} (l : list A) : res (A * A * list A) :=
  match l with a :: b :: r => Ok (a, b, r) | _ => Raise ValueError end.
Definition unpack4_rest {A} (l : list A) : res (A * A * A * A * list A) :=
  match l with a :: b :: c :: d :: r => Ok (a, b, c, d, r) | _ => Raise ValueError end.

(** [epc_uri.split(":")[4]] *)
Definition field4 (epc_uri : str) : res str := idx (split c_colon epc_uri) 4.
(** [":".join(epc_uri.split(":")[4:])] *)
Definition tail4 (epc_uri : str) : str := join [c_colon] (skipn 4 (split c_colon epc_uri)).

(** [6 <= len(company_prefix) <= 12] *)
Definition cp_len_ok (cp : str) : bool := (6 <=? length cp)%nat && (length cp <=? 12)%nat.

(** the check shared by the 96/110-bit tag URIs: [not s.isnumeric() or int(s) >= pow(2, bits) or
    (len(s) > 1 and s[0] == "0")] *)
Definition bad_numeric_serial (s : str) (bits : Z) : res bool :=
  if negb (isnumeric s) then Ok true
  else let* i := int10 s in
       if (2 ^ bits <=? i)%Z then Ok true
       else Ok ((1 <? length s)%nat && match s with c :: _ => c =? c_0 | [] => false end).

(** [.value] of a filter enum member: its number in decimal (all *FilterValue enums) *)
Definition filter_value (f : N) : str := ndec f.

(** GTIN_TYPE, sgtin.py:99-103 and lgtin.py:19-23 *)
Inductive gtin_type := GTIN8 | GTIN12 | GTIN13 | GTIN14.
Definition gtin_len (t : gtin_type) : nat :=
  match t with GTIN8 => 8 | GTIN12 => 12 | GTIN13 => 13 | GTIN14 => 14 end.

(** sgtin.py:207-224 and lgtin.py:94-111 *)
Definition gtin_view (gtin : str) (t : gtin_type) : res str :=
  let* _ := raise_if (match t with
                      | GTIN14 => false
                      | _ => negb (startswith (repeat c_0 (14 - gtin_len t)) gtin)
                      end) ConvertException in
  Ok (sl (14 - gtin_len t) 14 gtin).

(** PARTITION_TABLE_P (keys 0..6) and PARTITION_TABLE_L (keys 12..6) of a scheme, built from its
    seven rows. *)
Definition table_P (rows : list row) : ptable := combine [0; 1; 2; 3; 4; 5; 6]%Z rows.
Definition table_L (rows : list row) : ptable := combine [12; 11; 10; 9; 8; 7; 6]%Z rows.
