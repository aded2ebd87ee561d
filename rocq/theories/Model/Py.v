(** Model of the parts of the Python runtime that epcpy uses.

    A Python [str] is a list of Unicode code points.  Exceptions are values.
    Nothing here models a file of /repo: each definition names the CPython
    operation it stands for. *)
From Coq Require Export List NArith ZArith Bool.
From Coq Require String Ascii.
Export ListNotations.
Open Scope N_scope.
Open Scope list_scope.

(** * Strings *)

Definition char := N.
Definition str := list N.

(** Literals: [lit "abc"] is the Python literal. *)
Definition lit (s : String.string) : str := map Ascii.N_of_ascii (String.list_ascii_of_string s).
Arguments lit s%string_scope.

(** Single characters used all over the model. *)
Definition c_colon : N := 58.
Definition c_dot : N := 46.
Definition c_pct : N := 37.
Definition c_dash : N := 45.
Definition c_0 : N := 48.
Definition c_1 : N := 49.
Definition c_space : N := 32.
Definition c_nl : N := 10.
Definition c_us : N := 95.

(** [s == t] *)
Fixpoint str_eqb (s t : str) : bool :=
  match s, t with
  | [], [] => true
  | x :: s', y :: t' => (x =? y) && str_eqb s' t'
  | _, _ => false
  end.

(** [s.startswith(p)] *)
Fixpoint startswith (p s : str) : bool :=
  match p, s with
  | [], _ => true
  | x :: p', y :: s' => (x =? y) && startswith p' s'
  | _ :: _, [] => false
  end.

(** [c in s] for a character *)
Definition mem (c : N) (s : str) : bool := existsb (N.eqb c) s.

(** * Exceptions as values *)

Inductive exn := ConvertException | ValueError | IndexError | KeyError | TypeError | OverflowError.

Inductive res (A : Type) := Ok (a : A) | Raise (e : exn).
Arguments Ok {A} a.
Arguments Raise {A} e.

Definition bind {A B} (x : res A) (f : A -> res B) : res B :=
  match x with Ok a => f a | Raise e => Raise e end.

Notation "'let*' x := e 'in' k" := (bind e (fun x => k))
  (at level 200, x pattern, e at level 100, k at level 200).

Definition of_option {A} (e : exn) (o : option A) : res A :=
  match o with Some a => Ok a | None => Raise e end.

(** [if b: raise e] *)
Definition raise_if (b : bool) (e : exn) : res unit := if b then Raise e else Ok tt.

(** [for x in l: r += f(x)] where [f] may raise; results are concatenated. *)
Fixpoint concat_map_res {A} (f : A -> res str) (l : list A) : res str :=
  match l with
  | [] => Ok []
  | x :: l' => let* y := f x in let* ys := concat_map_res f l' in Ok (y ++ ys)
  end.

Fixpoint map_res {A B} (f : A -> res B) (l : list A) : res (list B) :=
  match l with
  | [] => Ok []
  | x :: l' => let* y := f x in let* ys := map_res f l' in Ok (y :: ys)
  end.

(** * Indexing and slicing *)

(** [s[i]] with a literal non-negative index *)
Definition idx {A} (s : list A) (i : nat) : res A := of_option IndexError (nth_error s i).

(** [s[-1]] *)
Definition idx_last {A} (s : list A) : res A :=
  match rev s with [] => Raise IndexError | x :: _ => Ok x end.

(** [s[a:b]] with literal indices [0 <= a <= b] *)
Definition sl {A} (a b : nat) (s : list A) : list A := firstn (b - a) (skipn a s).

(** [s[:-k]] *)
Definition drop_last {A} (k : nat) (s : list A) : list A := firstn (length s - k) s.

(** [s[lo:hi]] with arbitrary integers; [None] is an omitted bound. *)
Definition norm_idx (len i : Z) : Z :=
  (let j := if i <? 0 then i + len else i in Z.max 0 (Z.min j len))%Z.

Definition slz {A} (lo hi : option Z) (s : list A) : list A :=
  let n := Z.of_nat (length s) in
  let a := match lo with None => 0%Z | Some i => norm_idx n i end in
  let b := match hi with None => n | Some i => norm_idx n i end in
  firstn (Z.to_nat (b - a)) (skipn (Z.to_nat a) s).

(** [l[0::2]] and [l[1::2]] *)
Fixpoint evens {A} (l : list A) : list A :=
  match l with [] => [] | x :: l' => x :: odds l' end
with odds {A} (l : list A) : list A :=
  match l with [] => [] | _ :: l' => evens l' end.

(** * split, join, replace, padding *)

(** [s.split(c)] for a one-character separator *)
Fixpoint split (c : N) (s : str) : list str :=
  match s with
  | [] => [[]]
  | x :: s' =>
      if x =? c then [] :: split c s'
      else match split c s' with
           | [] => [[x]]
           | p :: ps => (x :: p) :: ps
           end
  end.

(** [sep.join(l)] *)
Fixpoint join (sep : str) (l : list str) : str :=
  match l with
  | [] => []
  | [x] => x
  | x :: l' => x ++ sep ++ join sep l'
  end.

(** [s.replace(old, new)] for non-empty [old]: leftmost, non-overlapping. *)
Fixpoint replace_aux (old new s : str) (skip : nat) : str :=
  match s with
  | [] => []
  | c :: s' =>
      match skip with
      | S k => replace_aux old new s' k
      | O => if startswith old s then new ++ replace_aux old new s' (length old - 1)
             else c :: replace_aux old new s' 0
      end
  end.
Definition replace (old new s : str) : str := replace_aux old new s 0.

(** [s.replace(old, new, 1)] for non-empty [old]. *)
Fixpoint replace_first (old new s : str) : str :=
  match s with
  | [] => []
  | c :: s' => if startswith old s then new ++ skipn (length old) s
               else c :: replace_first old new s'
  end.

(** padding on the left / right to width [w] with character [c] *)
Definition padl (c : N) (w : nat) (s : str) : str := repeat c (w - length s) ++ s.
Definition padr (c : N) (w : nat) (s : str) : str := s ++ repeat c (w - length s).

(** [s.zfill(w)] : zeros go after a leading sign *)
Definition zfill (w : nat) (s : str) : str :=
  match s with
  | c :: s' => if (c =? 43) || (c =? 45) then c :: padl c_0 (w - 1) s' else padl c_0 w s
  | [] => padl c_0 w []
  end.

(** * Unicode digits *)

(** Code points of the digit zero of each decade of category Nd, Unicode 14.0
    (CPython 3.11, the newest version epcpy declares support for). *)
Definition nd_zeros : list N :=
  [0x30; 0x660; 0x6f0; 0x7c0; 0x966; 0x9e6; 0xa66; 0xae6; 0xb66; 0xbe6; 0xc66; 0xce6;
   0xd66; 0xde6; 0xe50; 0xed0; 0xf20; 0x1040; 0x1090; 0x17e0; 0x1810; 0x1946; 0x19d0;
   0x1a80; 0x1a90; 0x1b50; 0x1bb0; 0x1c40; 0x1c50; 0xa620; 0xa8d0; 0xa900; 0xa9d0;
   0xa9f0; 0xaa50; 0xabf0; 0xff10; 0x104a0; 0x10d30; 0x11066; 0x110f0; 0x11136; 0x111d0;
   0x112f0; 0x11450; 0x114d0; 0x11650; 0x116c0; 0x11730; 0x118e0; 0x11950; 0x11c50;
   0x11d50; 0x11da0; 0x16a60; 0x16ac0; 0x16b50; 0x1d7ce; 0x1d7d8; 0x1d7e2; 0x1d7ec;
   0x1d7f6; 0x1e140; 0x1e2f0; 0x1e950; 0x1fbf0].

(** [Py_UNICODE_TODECIMAL] *)
Fixpoint find_decade (zs : list N) (c : N) : option N :=
  match zs with
  | [] => None
  | z :: zs' => if (z <=? c) && (c <? z + 10) then Some (c - z) else find_decade zs' c
  end.
Definition udigit (c : N) : option N := find_decade nd_zeros c.

(** [c.isdecimal()], which is also what [\d] matches in a [str] pattern *)
Definition is_d (c : N) : bool := match udigit c with Some _ => true | None => false end.

(** [s.isnumeric()].  Simplification: CPython's numeric characters also include
    categories Nl/No and CJK numerals; every string epcpy calls [isnumeric] on has
    already been matched against an ASCII-only character class, where numeric and
    decimal coincide. *)
Definition isnumeric (s : str) : bool :=
  match s with [] => false | _ => forallb is_d s end.

(** * int(s, base) *)

(** ASCII white space, [Py_ISSPACE] *)
Definition is_ascii_space (c : N) : bool := ((9 <=? c) && (c <=? 13)) || (c =? 32).

(** non-ASCII white space, [Py_UNICODE_ISSPACE] *)
Definition is_uni_space (c : N) : bool :=
  (c =? 0x85) || (c =? 0xa0) || (c =? 0x1680) || ((0x2000 <=? c) && (c <=? 0x200a)) ||
  (c =? 0x2028) || (c =? 0x2029) || (c =? 0x202f) || (c =? 0x205f) || (c =? 0x3000).

Definition is_ascii (c : N) : bool := c <? 128.

(** [_PyUnicode_TransformDecimalAndSpaceToASCII]; an untranslatable character becomes '?',
    which no later step accepts. *)
Definition to_ascii_char (c : N) : N :=
  if c <? 127 then c
  else if is_uni_space c then 32
  else match udigit c with Some d => 48 + d | None => 63 end.
Definition to_ascii_num (s : str) : str :=
  if forallb is_ascii s then s else map to_ascii_char s.

(** [_PyLong_DigitValue] *)
Definition digit_val (c : N) : option N :=
  if (48 <=? c) && (c <=? 57) then Some (c - 48)
  else if (65 <=? c) && (c <=? 90) then Some (c - 55)
  else if (97 <=? c) && (c <=? 122) then Some (c - 87)
  else None.

Definition digit_in (base c : N) : option N :=
  match digit_val c with Some d => if d <? base then Some d else None | None => None end.

Fixpoint skip_space (s : str) : str :=
  match s with c :: s' => if is_ascii_space c then skip_space s' else s | [] => [] end.

(** digit scan of [PyLong_FromString]: single underscores between digits are allowed.
    [prev_us]: the previous character was an underscore; [seen]: at least one character scanned. *)
Fixpoint scan_digits (base : N) (s : str) (prev_us seen : bool) (acc : N) : option N :=
  match s with
  | [] => if prev_us then None else if seen then Some acc else None
  | c :: s' =>
      match digit_in base c with
      | Some d => scan_digits base s' false true (acc * base + d)
      | None =>
          if c =? c_us then (if prev_us then None else scan_digits base s' true true acc)
          else if prev_us then None
          else if negb seen then None
          else match skip_space s with [] => Some acc | _ => None end
      end
  end.

(** optional "0x"/"0b" prefix, after which one underscore may follow *)
Definition skip_prefix (base : N) (s : str) : str :=
  match s with
  | z :: x :: s' =>
      if (z =? 48) && (((base =? 16) && ((x =? 120) || (x =? 88))) ||
                       ((base =? 2) && ((x =? 98) || (x =? 66))))
      then match s' with u :: s'' => if u =? c_us then s'' else s' | [] => s' end
      else s
  | _ => s
  end.

Definition parse_unsigned (base : N) (s : str) : option N :=
  match skip_prefix base s with
  | u :: s' => if u =? c_us then None else scan_digits base (u :: s') false false 0
  | [] => None
  end.

(** [int(s, base)] for base 2, 10, 16; [None] is ValueError. *)
Definition py_int (base : N) (s : str) : option Z :=
  match skip_space (to_ascii_num s) with
  | c :: s' =>
      if c =? 43 then option_map Z.of_N (parse_unsigned base s')
      else if c =? 45 then option_map (fun n => Z.opp (Z.of_N n)) (parse_unsigned base s')
      else option_map Z.of_N (parse_unsigned base (c :: s'))
  | [] => None
  end.

Definition int_base (base : N) (s : str) : res Z := of_option ValueError (py_int base s).
(** [int(s)]: more than 4300 digits are refused with ValueError ([sys.set_int_max_str_digits] at its default); powers of two as
    base have no such limit *)
Definition int_max_str_digits : N := 4300.
Definition is_base10 (c : N) : bool := match digit_in 10 c with Some _ => true | None => false end.
Definition too_many_digits (s : str) : bool := int_max_str_digits <? N.of_nat (length (filter is_base10 (to_ascii_num s))).
Definition int10 (s : str) : res Z := if too_many_digits s then Raise ValueError else int_base 10 s.

(** * Formatting integers *)

Fixpoint to_base_aux (fuel : nat) (b n : N) (acc : list N) : list N :=
  match fuel with
  | O => acc
  | S f =>
      let acc' := (n mod b) :: acc in
      if n / b =? 0 then acc' else to_base_aux f b (n / b) acc'
  end.
(** digits of [n] in base [b], most significant first, ["0"] for zero *)
Definition to_base (b n : N) : list N := to_base_aux (S (N.to_nat (N.size n))) b n [].

Definition dchar_up (d : N) : N := if d <? 10 then 48 + d else 55 + d.
Definition dchar_low (d : N) : N := if d <? 10 then 48 + d else 87 + d.

Definition ndec (n : N) : str := map dchar_up (to_base 10 n).
Definition nbin (n : N) : str := map dchar_up (to_base 2 n).
Definition nhex_up (n : N) : str := map dchar_up (to_base 16 n).

(** sign-aware rendering *)
Definition signed (f : N -> str) (z : Z) : str :=
  if (z <? 0)%Z then c_dash :: f (Z.to_N (- z)) else f (Z.to_N z).

(** [str(z)] *)
Definition dec (z : Z) : str := signed ndec z.
(** [f"{z}"] where [z] may have more than 4300 digits, which is a ValueError.  [dec] stands for it where the value has few bits. *)
Definition str_int (z : Z) : res str :=
  if int_max_str_digits <? N.of_nat (length (ndec (Z.abs_N z))) then Raise ValueError else Ok (dec z).

(** [f"{z:0{w}b}"]: zero padding between the sign and the digits *)
Definition fmt_bin (w : nat) (z : Z) : str :=
  if (z <? 0)%Z then c_dash :: padl c_0 (w - 1) (nbin (Z.to_N (- z)))
  else padl c_0 w (nbin (Z.to_N z)).

(** [f"{z:X}"] *)
Definition fmt_hex_up (z : Z) : str := signed nhex_up z.

(** * chr, upper *)

(** [chr(z)]: OverflowError beyond a C int, ValueError outside the Unicode range *)
Definition chr (z : Z) : res N :=
  if (z <? -2147483648)%Z || (2147483647 <? z)%Z then Raise OverflowError
  else if (z <? 0)%Z || (1114111 <? z)%Z then Raise ValueError
  else Ok (Z.to_N z).

(** [s.upper()] restricted to ASCII letters.  It is only used to look a two-character string
    up in the hex header table; no non-ASCII character has an upper-case form that would make
    it equal to one of those keys. *)
Definition upper_char (c : N) : N := if (97 <=? c) && (c <=? 122) then c - 32 else c.
Definition upper (s : str) : str := map upper_char s.

(** * bytes.fromhex, bytes.hex, base64 *)

(** [bytes.fromhex(s)]: pairs of hex digits, ASCII white space allowed between pairs. *)
Fixpoint fromhex_aux (s : str) (pending : option N) : option (list N) :=
  match s with
  | [] => match pending with None => Some [] | Some _ => None end
  | c :: s' =>
      match pending with
      | None =>
          if is_ascii_space c then fromhex_aux s' None
          else match digit_in 16 c with
               | Some d => fromhex_aux s' (Some d)
               | None => None
               end
      | Some h =>
          match digit_in 16 c with
          | Some d => option_map (cons (16 * h + d)) (fromhex_aux s' None)
          | None => None
          end
      end
  end.
Definition bytes_fromhex (s : str) : res (list N) := of_option ValueError (fromhex_aux s None).

(** [b.hex()] *)
Definition bytes_hex (b : list N) : str :=
  flat_map (fun x => [dchar_low (x / 16); dchar_low (x mod 16)]) b.

Definition b64_char (v : N) : N :=
  if v <? 26 then 65 + v
  else if v <? 52 then 71 + v
  else if v <? 62 then v - 4
  else if v =? 62 then 43 else 47.

Definition b64_val (c : N) : option N :=
  if (65 <=? c) && (c <=? 90) then Some (c - 65)
  else if (97 <=? c) && (c <=? 122) then Some (c - 71)
  else if (48 <=? c) && (c <=? 57) then Some (c + 4)
  else if c =? 43 then Some 62
  else if c =? 47 then Some 63
  else None.

(** [base64.b64encode(b)] *)
Fixpoint b64encode (b : list N) : str :=
  match b with
  | [] => []
  | [x] => [b64_char (x / 4); b64_char ((x mod 4) * 16); 61; 61]
  | [x; y] => [b64_char (x / 4); b64_char ((x mod 4) * 16 + y / 16); b64_char ((y mod 16) * 4); 61]
  | x :: y :: z :: b' =>
      b64_char (x / 4) :: b64_char ((x mod 4) * 16 + y / 16) ::
      b64_char ((y mod 16) * 4 + z / 64) :: b64_char (z mod 64) :: b64encode b'
  end.

(** [binascii.a2b_base64] in non-strict mode: characters outside the alphabet are skipped;
    a sufficient run of '=' ends the input; [quad] counts the characters of the current group,
    [left] holds its pending bits, [pads] the '=' seen since the last data character. *)
Fixpoint a2b (s : str) (quad left : N) (pads : N) : option (list N) :=
  match s with
  | [] => if quad =? 0 then Some [] else None
  | c :: s' =>
      if c =? 61 then
        if (2 <=? quad) && (4 <=? quad + (pads + 1)) then Some []
        else a2b s' quad left (if 2 <=? quad then pads + 1 else pads)
      else match b64_val c with
        | None => a2b s' quad left pads
        | Some v =>
            if quad =? 0 then a2b s' 1 v 0
            else if quad =? 1 then option_map (cons (left * 4 + v / 16)) (a2b s' 2 (v mod 16) 0)
            else if quad =? 2 then option_map (cons (left * 16 + v / 4)) (a2b s' 3 (v mod 4) 0)
            else option_map (cons (left * 64 + v)) (a2b s' 0 0 0)
        end
  end.

(** [base64.b64decode(s)] on a str: non-ASCII text is a ValueError, binascii.Error is one too. *)
Definition b64decode (s : str) : res (list N) :=
  if forallb is_ascii s then of_option ValueError (a2b s 0 0 0) else Raise ValueError.

(** dictionary lookup with string keys *)
Fixpoint assoc_str {A} (k : str) (l : list (str * A)) : option A :=
  match l with
  | [] => None
  | (k', v) :: l' => if str_eqb k k' then Some v else assoc_str k l'
  end.
