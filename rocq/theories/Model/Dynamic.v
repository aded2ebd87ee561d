(** Calls with values of other types than the declared ones: None, truth values, numbers, bytes, members of the
    enumerations of the library, objects of its classes.  (Lists, tuples, dictionaries, subclasses of str or int and
    instances of classes from elsewhere are left out.) *)
From Coq Require Import String.
From Verif.Model Require Import Py Re Regexes Common Base.
From Verif.Model Require Import Adi Cpi Gdti Giai Gid Grai Gsrn Gsrnp Itip Lgtin Sgcn Sgln Sgtin Sscc Usdod Others Parsers Calls Registry.

Inductive pyval :=
| V_none
| V_bool (b : bool)
| V_int (z : Z)
| V_float (text : str)                      (* given by its [str()] *)
| V_str (s : str)
| V_bytes (b : list N)
| V_scheme (m : member)                     (* a member of some BinaryCodingScheme *)
| V_header (c : cls) (name bits : str)      (* a member of [c.BinaryHeader]: its name and value *)
| V_filter (c : cls) (name : str) (n : N)   (* a member of the filter values of [c]: its name and number *)
| V_gtin (t : gtin_type)                    (* a member of GTIN_TYPE, an IntEnum *)
| V_epc (e : epc) (text : str).             (* an object, with its [str()], which has its address *)

(** exceptions: AttributeError besides those of the typed model *)
Inductive pyexn := Exn (e : exn) | AttributeError.
Inductive pyres (A : Type) := Returns (a : A) | Raises (e : pyexn).
Arguments Returns {A} a.
Arguments Raises {A} e.
Definition known {A} (r : res A) : pyres A := match r with Ok a => Returns a | Raise e => Raises (Exn e) end.
Definition pybind {A B} (x : pyres A) (f : A -> pyres B) : pyres B :=
  match x with Returns a => f a | Raises e => Raises e end.
Notation "'let?' x := e 'in' k" := (pybind e (fun x => k)) (at level 200, x pattern, e at level 100, k at level 200).

(** * str(), truth, attributes *)

(** [repr(b)] for bytes: double quotes if there is a single one and no double one *)
Definition byte_repr (quote c : N) : str :=
  if (c =? quote) || (c =? 92) then [92; c]
  else if c =? 9 then lit "\t" else if c =? 10 then lit "\n" else if c =? 13 then lit "\r"
  else if (c <? 32) || (127 <=? c) then lit "\x" ++ [dchar_low (c / 16); dchar_low (c mod 16)]
  else [c].
Definition bytes_repr (b : list N) : str :=
  let quote := if mem 39 b && negb (mem 34 b) then 34 else 39 in
  lit "b" ++ [quote] ++ flat_map (byte_repr quote) b ++ [quote].
(** the name of a coding scheme, found by its value *)
Definition coding_name (m : member) : str :=
  match find (fun p => str_eqb (member_value m) (snd p)) (flat_map binary_coding_scheme_enum EPC_SCHEMES) with
  | Some p => fst p | None => [] end.
Definition gtin_name (t : gtin_type) : str :=
  match t with GTIN8 => lit "GTIN8" | GTIN12 => lit "GTIN12" | GTIN13 => lit "GTIN13" | GTIN14 => lit "GTIN14" end.
(** [str(v)] and [f"{v}"]; an IntEnum is written as an int, an Enum as class and name *)
Definition text_of (v : pyval) : res str :=
  match v with
  | V_none => Ok (lit "None")
  | V_bool b => Ok (if b then lit "True" else lit "False")
  | V_int z => str_int z
  | V_float t => Ok t
  | V_str s => Ok s
  | V_bytes b => Ok (bytes_repr b)
  | V_scheme m => Ok (lit "BinaryCodingScheme." ++ coding_name m)
  | V_header _ name _ => Ok (lit "BinaryHeader." ++ name)
  | V_filter c name _ => Ok (class_name c ++ lit "FilterValue." ++ name)
  | V_gtin t => Ok (ndec (N.of_nat (gtin_len t)))
  | V_epc _ t => Ok t
  end.
(** [bool(v)] *)
Definition true_value (v : pyval) : bool :=
  match v with
  | V_none => false
  | V_bool b => b
  | V_int z => negb (z =? 0)%Z
  | V_float t => negb (str_eqb t (lit "0.0") || str_eqb t (lit "-0.0"))
  | V_str [] | V_bytes [] => false
  | _ => true
  end.
(** the integer [v] stands for in arithmetic and slices; a bool is 0 or 1 *)
Definition as_int (v : pyval) : option Z :=
  match v with
  | V_bool b => Some (if b then 1%Z else 0%Z)
  | V_int z => Some z
  | V_gtin t => Some (Z.of_nat (gtin_len t))
  | _ => None
  end.
(** [v.value], by its text, and [v.name] *)
Definition attr_value (v : pyval) : pyres str :=
  match v with
  | V_scheme m => Returns (member_value m)
  | V_header _ _ bits => Returns bits
  | V_filter _ _ n => Returns (filter_value n)
  | V_gtin t => Returns (ndec (N.of_nat (gtin_len t)))
  | _ => Raises AttributeError
  end.
Definition attr_name (v : pyval) : pyres str :=
  match v with
  | V_scheme m => Returns (coding_name m)
  | V_header _ name _ => Returns name
  | V_filter _ name _ => Returns name
  | V_gtin t => Returns (gtin_name t)
  | _ => Raises AttributeError
  end.

(** * What is done first to a text *)

(** [pattern.fullmatch(v)] and [pattern.match(v)], patterns being str *)
Definition match_first {A} (f : str -> pyres A) (v : pyval) : pyres A :=
  match v with V_str s => f s | _ => Raises (Exn TypeError) end.
(** [v.split(":")] *)
Definition split_first {A} (f : str -> pyres A) (v : pyval) : pyres A :=
  match v with V_str s => f s | V_bytes _ => Raises (Exn TypeError) | _ => Raises AttributeError end.
(** [v[:8]] as the key of a dictionary with str keys, where a missing key raises [e] *)
Definition slice_first {A} (e : exn) (f : str -> pyres A) (v : pyval) : pyres A :=
  match v with V_str s => f s | V_bytes _ => Raises (Exn e) | _ => Raises (Exn TypeError) end.

(** * Constructors and parsers *)

(** [c(v)] and [c.from_epc_uri(v)] *)
Definition dyn_init (c : cls) (v : pyval) : pyres epc := match_first (fun s => known (init_of c s)) v.
(** parsers.py:139-240 *)
Definition dyn_pure_identity_to_scheme (v : pyval) : pyres epc := split_first (fun s => known (epc_pure_identity_to_scheme s)) v.
Definition dyn_pure_identity_to_gs1_element (v : pyval) : pyres epc :=
  split_first (fun s => known (epc_pure_identity_to_gs1_element s)) v.
Definition dyn_pure_identity_to_gs1_element_string (v : pyval) : pyres str :=
  split_first (fun s => known (epc_pure_identity_to_gs1_element_string s)) v.
Definition dyn_pure_identity_to_gs1_keyed (v : pyval) : pyres epc :=
  split_first (fun s => known (epc_pure_identity_to_gs1_keyed s)) v.
Definition dyn_pure_identity_to_tag_encodable (v : pyval) : pyres epc :=
  split_first (fun s => known (epc_pure_identity_to_tag_encodable s)) v.

(** [x.gs1_key(gtin_type=v)]: sgtin.py:195-224, lgtin.py:82-111; the other classes do not have the keyword.  Anything but an int
    fails in [14 - gtin_type], in the product with "0" or in the slice. *)
Definition dyn_gs1_key (e : epc) (kw : option pyval) : pyres str :=
  match kw with
  | None => known (epc_gs1_key e None)
  | Some v =>
      match e, as_int v with
      | E_SGTIN x, Some z => known (sgtin_gtin_int x z)
      | E_LGTIN x, Some z => known (lgtin_gtin_int x z)
      | _, _ => Raises (Exn TypeError)
      end
  end.
(** parsers.py:211-220 *)
Definition dyn_pure_identity_to_gs1_key (v : pyval) (kw : option pyval) : pyres str :=
  let? e := dyn_pure_identity_to_gs1_keyed v in dyn_gs1_key e kw.

(** * from_gs1_element_string *)

(** The classes that use the length in slices as it is, for which None is an omitted bound: cpi.py:232-258, gdti.py:173-200,
    grai.py:171-198, gsin.py:87-112, gsrn.py:163-188, gsrnp.py:163-188, pgln.py:66-91, sgcn.py:169-196, sgln.py:174-200.
    [None] is the length given as None. *)
Definition slice_length (c : cls) : bool :=
  match c with C_CPI | C_GDTI | C_GRAI | C_GSIN | C_GSRN | C_GSRNP | C_PGLN | C_SGCN | C_SGLN => true | _ => false end.
Definition from_gs1_element_string_slice (c : cls) (g : str) (l : option Z) : res epc :=
  match c with
  | C_CPI =>
      let* _ := raise_if (negb (fullmatch CPI_GS1_ELEMENT_STRING g)) ConvertException in
      let* (_, digits, serial_digits) := unpack3 (re_split m_paren4 g) in
      init_of C_CPI (lit "urn:epc:id:cpi:" ++ slz None l digits ++ [c_dot] ++ revert_cpi_escapes (slz l None digits)
                     ++ [c_dot] ++ serial_digits)
  | C_GDTI =>
      let* _ := raise_if (negb (fullmatch GDTI_GS1_ELEMENT_STRING g)) ConvertException in
      let digits := sl 5 18 g in
      init_of C_GDTI (lit "urn:epc:id:gdti:" ++ slz None l digits ++ [c_dot] ++ slz l (Some (-1)%Z) digits
                      ++ [c_dot] ++ revert_uri_escapes (skipn 18 g))
  | C_GRAI =>
      let* _ := raise_if (negb (fullmatch GRAI_GS1_ELEMENT_STRING g)) ConvertException in
      let digits := sl 7 20 g in
      init_of C_GRAI (lit "urn:epc:id:grai:" ++ slz None l digits ++ [c_dot] ++ slz l (Some (-1)%Z) digits
                      ++ [c_dot] ++ revert_uri_escapes (skipn 20 g))
  | C_GSIN =>
      let* _ := raise_if (negb (fullmatch GSIN_GS1_ELEMENT_STRING g)) ConvertException in
      let digits := slz (Some 5%Z) (Some (-1)%Z) g in
      init_of C_GSIN (lit "urn:epc:id:gsin:" ++ slz None l digits ++ [c_dot] ++ slz l None digits)
  | C_GSRN =>
      let* _ := raise_if (negb (fullmatch GSRN_GS1_ELEMENT_STRING g)) ConvertException in
      let digits := skipn 6 g in
      init_of C_GSRN (lit "urn:epc:id:gsrn:" ++ slz None l digits ++ [c_dot] ++ slz l (Some (-1)%Z) digits)
  | C_GSRNP =>
      let* _ := raise_if (negb (fullmatch GSRNP_GS1_ELEMENT_STRING g)) ConvertException in
      let digits := skipn 6 g in
      init_of C_GSRNP (lit "urn:epc:id:gsrnp:" ++ slz None l digits ++ [c_dot] ++ slz l (Some (-1)%Z) digits)
  | C_PGLN =>
      let* _ := raise_if (negb (fullmatch PGLN_GS1_ELEMENT_STRING g)) ConvertException in
      let digits := skipn 5 g in
      init_of C_PGLN (lit "urn:epc:id:pgln:" ++ slz None l digits ++ [c_dot] ++ slz l (Some (-1)%Z) digits)
  | C_SGCN =>
      let* _ := raise_if (negb (fullmatch SGCN_GS1_ELEMENT_STRING g)) ConvertException in
      let digits := sl 5 18 g in
      init_of C_SGCN (lit "urn:epc:id:sgcn:" ++ slz None l digits ++ [c_dot] ++ slz l (Some (-1)%Z) digits
                      ++ [c_dot] ++ revert_uri_escapes (skipn 18 g))
  | C_SGLN =>
      let* _ := raise_if (negb (fullmatch SGLN_GS1_ELEMENT_STRING g)) ConvertException in
      let* (_, digits, chars) := unpack3 (re_split m_paren3 g) in
      init_of C_SGLN (lit "urn:epc:id:sgln:" ++ slz None l digits ++ [c_dot] ++ slz l (Some (-1)%Z) digits
                      ++ [c_dot] ++ revert_uri_escapes chars)
  | _ => Raise TypeError
  end.
(** the classes that cut the text at its brackets before they look at the length: cpi.py:253, lgtin.py:144, sgln.py:195,
    sgtin.py:258, sscc.py:187 *)
Definition cut_element_string (c : cls) (g : str) : res unit :=
  match c with
  | C_CPI => let* _ := unpack3 (re_split m_paren4 g) in Ok tt
  | C_SGLN => let* _ := unpack3 (re_split m_paren3 g) in Ok tt
  | C_SGTIN | C_LGTIN => let* _ := unpack3 (re_split m_paren2 g) in Ok tt
  | C_SSCC => let* _ := unpack2 (re_split m_paren2 g) in Ok tt
  | _ => Ok tt
  end.
(** [c.from_gs1_element_string(v, l)]: the text is matched first, and cut at its brackets in some classes; then [l] is used in a slice
    or in a sum, both of which raise TypeError for what is no int *)
Definition dyn_from_gs1_element_string (c : cls) (v l : pyval) : pyres epc :=
  match_first (fun g =>
    match as_int l with
    | Some z => known (from_gs1_element_string_of c g z)
    | None =>
        let? _ := known (raise_if (negb (fullmatch (gs1_element_string_regex c) g)) ConvertException) in
        let? _ := known (cut_element_string c g) in
        match l with
        | V_none => if slice_length c then known (from_gs1_element_string_slice c g None) else Raises (Exn TypeError)
        | _ => Raises (Exn TypeError)
        end
    end) v.
(** parsers.py:243-263 *)
Definition dyn_gs1_element_string_to_gs1_element (v l : pyval) : pyres epc :=
  match_first (fun g =>
    let? c := known (of_option ConvertException (first_regex GS1_ELEMENT_STRING_REGEX_TO_SCHEME g)) in
    dyn_from_gs1_element_string c v l) v.

(** sgtin.py:176-193; [zfill] exists for str and bytes; the pieces of the f-string from left to right, [str(serial)] last *)
Definition dyn_from_gtin_plus_serial (gtin serial l : pyval) : pyres epc :=
  match gtin with
  | V_str g =>
      match as_int l with
      | Some z => let? s := known (text_of serial) in known (lift E_SGTIN (sgtin_from_gtin_plus_serial g s z))
      | None => Raises (Exn TypeError)
      end
  | V_bytes b =>
      match as_int l with
      | Some z =>
          let g := zfill 14 b in
          let? g0 := known (idx g 0) in
          let? s := known (text_of serial) in
          known (init_of C_SGTIN (lit "urn:epc:id:sgtin:" ++ bytes_repr (slz (Some 1%Z) (Some (1 + z)%Z) g) ++ [c_dot]
                                  ++ ndec g0 ++ bytes_repr (slz (Some (1 + z)%Z) (Some (-1)%Z) g) ++ [c_dot] ++ s))
      | None => Raises (Exn TypeError)
      end
  | _ => Raises AttributeError
  end.

(** * Tags *)

(** parsers.py:311-325; base_scheme.py:169-196 *)
Definition dyn_tag_uri_to_tag_encodable (v : pyval) : pyres epc := split_first (fun s => known (tag_uri_to_tag_encodable s)) v.
Definition dyn_from_tag_uri (c : cls) (v : pyval) (includes_filter : option pyval) : pyres epc :=
  match_first (fun s => known match includes_filter with
                              | None => from_tag_uri_of c s
                              | Some f => from_tag_uri_flag c s (true_value f)
                              end) v.
(** parsers.py:328-345; common.py:545-578, where a missing header is a KeyError *)
Definition dyn_binary_to_tag_encodable (v : pyval) : pyres epc :=
  slice_first ConvertException (fun s => known (binary_to_tag_encodable s)) v.
Definition dyn_from_binary (c : cls) (v : pyval) : pyres epc := slice_first KeyError (fun s => known (from_binary_of c s)) v.
(** common.py:134-143: [int(v, 16)] takes bytes too, which have to be ASCII *)
Definition dyn_hex_to_binary (v : pyval) : pyres str :=
  match v with
  | V_str s => known (hex_to_binary s)
  | V_bytes b => if forallb is_ascii b then known (hex_to_binary b) else Raises (Exn ValueError)
  | _ => Raises (Exn TypeError)
  end.
(** parsers.py:348-359; base_scheme.py:143-153 *)
Definition dyn_hex_to_tag_encodable (v : pyval) : pyres epc :=
  let? b := dyn_hex_to_binary v in known (binary_to_tag_encodable b).
Definition dyn_from_hex (c : cls) (v : pyval) : pyres epc := let? b := dyn_hex_to_binary v in known (from_binary_of c b).
(** common.py:109-119: [f"{v}=="] is decoded, whatever [v] is *)
Definition dyn_base64_to_hex (v : pyval) : pyres str := known (let* t := text_of v in base64_to_hex t).
(** parsers.py:362-373; base_scheme.py:155-167 *)
Definition dyn_base64_to_tag_encodable (v : pyval) : pyres epc :=
  let? h := dyn_base64_to_hex v in known (hex_to_tag_encodable h).
Definition dyn_from_base64 (c : cls) (v : pyval) : pyres epc :=
  let? h := dyn_base64_to_hex v in known (from_hex (from_binary_of c) h).

(** parsers.py:93-136 *)
Definition dyn_get_gs1_key (v l : pyval) (kw : option pyval) : pyres str :=
  match_first (fun source =>
    let? scheme :=
      (if fullmatch EPC_URI source then known (lift Some (epc_pure_identity_to_scheme source))
       else if fullmatch GS1_ELEMENT_STRING source && true_value l
            then let? e := dyn_gs1_element_string_to_gs1_element v l in Returns (Some e)
       else if fullmatch TAG_URI source then known (lift Some (tag_uri_to_tag_encodable source))
       else if fullmatch IDPAT_URI source then known (lift Some (idpat_to_gs1_keyed_scheme source))
       else if is_some (assoc_str (firstn 8 source) TAG_ENCODABLE_BINARY_HEADERS)
            then known (lift Some (binary_to_tag_encodable source))
       else if is_some (assoc_str (upper (firstn 2 source)) TAG_ENCODABLE_HEX_HEADERS)
            then known (lift Some (hex_to_tag_encodable source))
       else Returns None) in
    match scheme with
    | Some e => if is_gs1_keyed (class_of e) then dyn_gs1_key e kw else Raises (Exn ConvertException)
    | None => Raises (Exn ConvertException)
    end) v.

(** * tag_uri and binary *)

(** [s] as a coding scheme of the class of [e], for the comparisons with the members of its BinaryCodingScheme *)
Definition own_scheme (e : epc) (s : pyval) : option member :=
  match s with V_scheme m => match request e m 0 with Some _ => Some m | None => None end | _ => None end.
(** the [if ...: raise ConvertException] of [tag_uri], which does not look at the filter value *)
Definition dyn_guard (e : epc) (s : pyval) : pyres unit :=
  match s with
  | V_scheme m => match request e m 0 with Some q => known (let* _ := req_tag_uri q in Ok tt) | None => Returns tt end
  | _ => Returns tt
  end.
(** [e.tag_uri] once its parameters are bound.  giai.py:274, grai.py:215 and itip.py:216 read the filter value before the test
    of the serial, gdti.py:219-220 both attributes, the others after it. *)
Definition dyn_tag_uri (e : epc) (s f : pyval) : pyres str :=
  let? _ := match e with E_GDTI _ => attr_value s | _ => Returns [] end in
  let? _ := match e with E_GDTI _ | E_GIAI _ | E_GRAI _ | E_ITIP _ => attr_value f | _ => Returns [] end in
  let? _ := dyn_guard e s in
  let? sv := attr_value s in
  let? fv := match e with E_GID _ => Returns [] | _ => let? t := attr_value f in Returns (t ++ [c_dot]) end in
  Returns (TAG_URI_PREFIX ++ sv ++ [c_colon] ++ fv ++ tag_uri_body e).

(** the coding scheme whose branch [binary] takes for a member that equals none of them: the last one *)
Definition other_scheme (c : cls) : member :=
  match c with
  | C_ADI => M_ADI ADI_VAR | C_CPI => M_CPI CPI_VAR | C_GDTI => M_GDTI GDTI_174 | C_GIAI => M_GIAI GIAI_202
  | C_GID => M_GID GID_96 | C_GRAI => M_GRAI GRAI_170 | C_GSRN => M_GSRN GSRN_96 | C_GSRNP => M_GSRNP GSRNP_96
  | C_ITIP => M_ITIP ITIP_212 | C_SGCN => M_SGCN SGCN_96 | C_SGLN => M_SGLN SGLN_195 | C_SGTIN => M_SGTIN SGTIN_198
  | C_SSCC => M_SSCC SSCC_96 | _ => M_USDOD USDOD_96
  end.
(** [e.binary] once its parameters are bound: the header is looked up by the name of [s], the filter value is read as a number,
    and the rest is encoded as for the coding scheme [s] is, or as for the last one if it is none *)
Definition dyn_binary (e : epc) (s f : pyval) : pyres str :=
  let? name := attr_name s in
  let? header := known (header_of_scheme (class_of e) name) in
  let? n := match e with
            | E_GID _ => Returns 0%Z
            | _ => let? t := attr_value f in known (int10 t)
            end in
  let m := match own_scheme e s with Some m => m | None => other_scheme (class_of e) end in
  match request e m (Z.to_N n) with
  | Some q => let? b := known (req_binary q) in Returns (header ++ skipn 8 b)
  | None => Raises (Exn TypeError)
  end.
(** base_scheme.py:106-127 *)
Definition dyn_hex (e : epc) (s f : pyval) : pyres str := let? b := dyn_binary e s f in known (binary_hex (Ok b)).
Definition dyn_base64 (e : epc) (s f : pyval) : pyres str := let? h := dyn_hex e s f in known (hex_to_base64 h).

(** [e == v], base_scheme.py:26-38 *)
Definition dyn_eq (e : epc) (v : pyval) : bool := match v with V_epc e' _ => epc_eqb e e' | _ => false end.
