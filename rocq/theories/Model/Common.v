(** epcpy/utils/common.py *)
From Coq Require Import String.
From Verif.Model Require Import PyFloat Py Re Regexes.

(** common.py:9-17 ESCAPE_CHARACTERS *)
Definition ESCAPE_CHARACTERS : list (str * str) :=
  [(lit "0100010", lit "%22"); (lit "0100101", lit "%25"); (lit "0100110", lit "%26");
   (lit "0101111", lit "%2F"); (lit "0111100", lit "%3C"); (lit "0111110", lit "%3E");
   (lit "0111111", lit "%3F")].

(** common.py:31-48 *)
Definition replace_uri_escapes (uri : str) : str :=
  let u := replace (lit "%22") [34] uri in
  let u := replace (lit "%26") (lit "&") u in
  let u := replace (lit "%2F") (lit "/") u in
  let u := replace (lit "%3C") (lit "<") u in
  let u := replace (lit "%3E") (lit ">") u in
  let u := replace (lit "%3F") (lit "?") u in
  replace (lit "%25") (lit "%") u.

(** common.py:51-68 *)
Definition revert_uri_escapes (uri : str) : str :=
  let u := replace (lit "%") (lit "%25") uri in
  let u := replace [34] (lit "%22") u in
  let u := replace (lit "&") (lit "%26") u in
  let u := replace (lit "/") (lit "%2F") u in
  let u := replace (lit "<") (lit "%3C") u in
  let u := replace (lit ">") (lit "%3E") u in
  replace (lit "?") (lit "%3F") u.

(** common.py:71-81 *)
Definition int_to_binary (integer : Z) (num_bits : nat) : str := fmt_bin num_bits integer.

(** common.py:84-93 *)
Definition binary_to_int (binary : str) : res Z := int_base 2 binary.

(** common.py:96-106 *)
Definition str_to_binary (string : str) (num_bits : nat) : res str :=
  let* i := int10 string in Ok (int_to_binary i num_bits).

(** common.py:109-119 *)
Definition base64_to_hex (base64_string : str) : res str :=
  let* b := b64decode (base64_string ++ lit "==") in Ok (bytes_hex b).

(** common.py:122-131 *)
Definition hex_to_base64 (hex_string : str) : res str :=
  let* b := bytes_fromhex hex_string in Ok (b64encode b).

(** common.py:134-143 *)
Definition hex_to_binary (hex_string : str) : res str :=
  let* i := int_base 16 hex_string in Ok (fmt_bin (length hex_string * 4) i).

(** common.py:146-156; [f"{x:x}".upper()] is [f"{x:X}"] *)
Definition binary_to_hex (binary_string : str) : res str :=
  let* i := int_base 2 binary_string in Ok (fmt_hex_up i).

(** the pattern "(%[0-9a-fA-F]{2})" *)
Definition m_escape : str -> option nat := m_seq [N.eqb c_pct; is_hex; is_hex].

(** [str_to_binary(str(n), w)] *)
Definition str_int_to_binary (n : Z) (w : nat) : res str := let* t := str_int n in str_to_binary t w.

(** common.py:159-177 *)
Definition encode_string (string : str) (num_bits : nat) : res str :=
  let* r := concat_map_res (fun g =>
      match g with
      | [] => Ok []
      | c :: g' =>
          if negb (c =? c_pct)
          then concat_map_res (fun s => str_int_to_binary (Z.of_N s) 7) g
          else let* v := int_base 16 g' in str_int_to_binary v 7
      end) (re_split_cap m_escape string) in
  Ok (padr c_0 num_bits r).

Definition is_bit (c : N) : bool := inr 48 49 c.       (* [0-1] *)
Definition m_bits (n : nat) : str -> option nat := m_seq (repeat is_bit n).

(** common.py:193-202: the loop with its [break] *)
Fixpoint six_bit_loop (gs : list str) : res str :=
  match gs with
  | [] => Ok []
  | g :: gs' =>
      if str_eqb g (lit "000000") then Ok []
      else if (length g <? 6)%nat then six_bit_loop gs'
      else if startswith (lit "10") g || startswith (lit "11") g
      then let* v := int_base 2 g in let* c := chr v in
           let* r := six_bit_loop gs' in Ok (c :: r)
      else let* v := int_base 2 g in let* c := chr (64 + v) in
           let* r := six_bit_loop gs' in Ok (c :: r)
  end.

(** common.py:180-207 *)
Definition decode_string_six_bits (binary : str) (max_chars : nat) : res str :=
  let* r := six_bit_loop (re_split_cap (m_bits 6) binary) in
  let* _ := raise_if (max_chars <? length r)%nat ConvertException in
  Ok (replace (lit "/") (lit "%2F") (replace (lit "#") (lit "%23") r)).

(** the pattern "(%[0-9a-fA-F]{2}|-)" *)
Definition m_escape_or_dash (s : str) : option nat :=
  match m_escape s with Some n => Some n | None => m_seq [N.eqb c_dash] s end.

(** common.py:226-231: one character.  [isnumeric] on a single character. *)
Definition six_bit_char (s : N) : res str :=
  if isnumeric [s] then let* v := int10 [s] in Ok (lit "11" ++ fmt_bin 4 v)
  else Ok (fmt_bin 6 (Z.of_N s - 64)).

(** common.py:210-234 *)
Definition encode_string_six_bits (string : str) : res str :=
  let* r := concat_map_res (fun g =>
      match g with
      | [] => Ok []
      | c :: g' =>
          if str_eqb g (lit "-") then Ok (lit "101101")
          else if negb (c =? c_pct) then concat_map_res six_bit_char g
          else let* v := int_base 16 g' in str_int_to_binary v 6
      end) (re_split_cap m_escape_or_dash string) in
  Ok (r ++ lit "000000").

(** common.py:237-251 *)
Definition decode_binary_char (binary : str) : res str :=
  if str_eqb binary (lit "0000000") then Ok []
  else match assoc_str binary ESCAPE_CHARACTERS with
       | Some e => Ok e
       | None => let* v := int_base 2 binary in let* c := chr v in Ok [c]
       end.

(** common.py:254-270 *)
Definition decode_string (binary : str) : res str :=
  concat_map_res decode_binary_char (re_findall (m_seq (repeat dotc 7)) binary).

(** A partition table row.  Bit counts and digit counts are natural numbers. *)
Record row := mkRow { rP : Z; rM : nat; rL : nat; rN : nat; rK : nat }.

(** [partition_table[k]]: tables keyed by the partition value, rows found by their "P";
    tables keyed by the company prefix length, rows found by their "L".  Both dictionaries of
    every scheme are built from the same seven rows (PARTITION_TABLE_L in each scheme file maps
    12..6 to PARTITION_TABLE_P[0..6]). *)
Definition ptable := list (Z * row).
Fixpoint lookup (k : Z) (t : ptable) : option row :=
  match t with [] => None | (k', r) :: t' => if (k =? k')%Z then Some r else lookup k t' end.

(** common.py:273-311 *)
Definition encode_partition_table (C D : str) (partition_table : ptable)
    (string_partition six_bit_variable_partition : bool) : res str :=
  let* partition := of_option KeyError (lookup (Z.of_nat (length C)) partition_table) in
  let P_bin := int_to_binary (rP partition) 3 in
  let* C_bin := str_to_binary C (rM partition) in
  let* D_bin :=
    (if string_partition then encode_string D (rN partition)
     else if six_bit_variable_partition then encode_string_six_bits D
     else if negb (rK partition =? 0)%nat then str_to_binary D (rN partition)
     else Ok (repeat c_0 (rN partition))) in
  Ok (P_bin ++ C_bin ++ D_bin).

(** common.py:314-363 *)
Definition decode_partition_table (binary_string : str) (partition_table : ptable)
    (unpadded_partition string_partition six_bit_variable_partition : bool) : res str :=
  let* p := binary_to_int (firstn 3 binary_string) in
  let* partition := of_option ConvertException (lookup p partition_table) in
  let* C := binary_to_int (sl 3 (3 + rM partition) binary_string) in
  let D_bin := sl (3 + rM partition) (3 + rM partition + rN partition) binary_string in
  let* D :=
    (if string_partition then decode_string D_bin
     else if six_bit_variable_partition then decode_string_six_bits D_bin (rK partition)
     else if negb (rK partition =? 0)%nat then let* d := binary_to_int D_bin in Ok (dec d)
     else Ok []) in
  let compare_D := negb (unpadded_partition || string_partition || six_bit_variable_partition) in
  let* _ := raise_if (negb (C <? 10 ^ Z.of_nat (rL partition))%Z) ConvertException in
  let* _ :=
    (if negb (match D with [] => true | _ => false end) && compare_D
     then let* d := int10 D in
          raise_if (negb (d <? 10 ^ Z.of_nat (rK partition))%Z) ConvertException
     else Ok tt) in
  Ok (padl c_0 (rL partition) (dec C) ++ [c_dot] ++ padl c_0 (if compare_D then rK partition else 0) D).

(** common.py:366-382 *)
Definition encode_numeric_string (string : str) (bit_count : nat) : res str :=
  let* _ := raise_if (2 ^ Z.of_nat bit_count <=? 2 * 10 ^ Z.of_nat (length string))%Z ConvertException in
  str_to_binary (c_1 :: string) bit_count.

(** common.py:385-402 *)
Definition decode_numeric_string (binary : str) : res str :=
  let* i := int_base 2 binary in
  let* string := str_int i in
  let* _ := raise_if (length string <=? 1)%nat ConvertException in
  let* c := idx string 0 in
  let* _ := raise_if (negb (c =? c_1)) ConvertException in
  Ok (skipn 1 string).

(** [int(n * log(2) / log(10))], common.py:418 and 436, see PyFloat.v *)
Definition fixed_width_digits (n : nat) : nat := Z.to_nat (int_n_log2_log10 n).

(** common.py:405-421 *)
Definition encode_fixed_width_integer (string : str) (bit_count : nat) : res str :=
  let* i := int10 string in
  let* _ := raise_if (10 ^ Z.of_nat (fixed_width_digits bit_count) - 1 <=? i)%Z ConvertException in
  str_to_binary string bit_count.

(** common.py:424-440 *)
Definition decode_fixed_width_integer (binary : str) : res str :=
  let D := fixed_width_digits (length binary) in
  let* i := int_base 2 binary in
  let* _ := raise_if (10 ^ Z.of_nat D - 1 <? i)%Z ConvertException in
  let* string := str_int i in
  Ok (padl c_0 D string).

(** common.py:443-454 *)
Definition decode_cage_code (binary : str) : res str :=
  let* r := concat_map_res (fun g =>
      match g with
      | [] => Ok []
      | _ => let* v := int_base 2 g in let* c := chr v in Ok [c]
      end) (re_split_cap (m_bits 8) binary) in
  Ok (replace (lit " ") [] r).

(** common.py:457-466 *)
Definition encode_cage_code (chars : str) : str :=
  flat_map (fun c => padl c_0 8 (nbin c)) chars.

(** common.py:469-481 *)
Definition decode_cage_code_six_bits (binary : str) : res str :=
  let binary := if startswith (lit "100000") binary then skipn 6 binary else binary in
  decode_string_six_bits binary 6.

(** common.py:484-496 *)
Definition encode_cage_code_six_bits (chars : str) : res str :=
  let* b := encode_string_six_bits chars in
  let binary := drop_last 6 b in
  Ok (if (length binary =? 30)%nat then lit "100000" ++ binary else binary).

(** the pattern "(%\d\d)" *)
Definition m_escape_dd : str -> option nat := m_seq [N.eqb c_pct; is_d; is_d].

(** common.py:508-515: the decoded text that is checked *)
Definition gs3a3_decoded (gs3a3_component : str) : res str :=
  concat_map_res (fun g =>
      match g with
      | [] => Ok []
      | c :: g' => if negb (c =? c_pct) then Ok g
                   else let* v := int_base 16 g' in let* c := chr v in Ok [c]
      end) (re_split_cap m_escape_dd gs3a3_component).

(** common.py:499-518 *)
Definition verify_gs3a3_component (gs3a3_component : str) : res unit :=
  let* r := gs3a3_decoded gs3a3_component in
  raise_if (negb (fullmatch VERIFY_GS3A3_CHARS r)) ConvertException.

Definition zsum (l : list Z) : Z := fold_right Z.add 0%Z l.

(** common.py:521-542 *)
Definition calculate_checksum (digits : str) : res Z :=
  let* digit_list := map_res (fun d => int10 [d]) digits in
  let odd := odds digit_list in
  let even := evens digit_list in
  let '(val1, val2) :=
    if (Nat.even (length digits)) then (zsum odd, zsum even) else (zsum even, zsum odd) in
  Ok ((10 - (3 * val1 + val2) mod 10) mod 10)%Z.

(** common.py:545-578.  [value] is the text of a coding scheme member, e.g. "sgtin-96".  The
    [try] there catches ValueError, but a missing header raises KeyError, which escapes. *)
Definition parse_header_and_truncate_binary {S} (value : S -> str)
    (binary_string : str) (header_to_schemes : list (str * S)) : res (S * str) :=
  let header := firstn 8 binary_string in
  let* scheme := of_option KeyError (assoc_str header header_to_schemes) in
  match split c_dash (value scheme) with
  | [_; size] =>
      let* size := (if isnumeric size then let* z := int10 size in Ok (Some z) else Ok None) in
      let* _ := raise_if (match size with
                          | Some z => negb (z =? 0)%Z && (Z.of_nat (length binary_string) <? z)%Z
                          | None => false end) ConvertException in
      Ok (scheme, slz None size binary_string)
  | _ => Raise ValueError
  end.
