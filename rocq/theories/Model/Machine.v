(** A machine that runs the syntax trees of [Syntax]: CPython's evaluation order, name lookup, calls, method resolution,
    comprehensions, loops, exceptions and the built-in operations that epcpy uses.  [step] is one step.  A state [StStuck] is
    reached only by an operation that is not modelled.

    Objects are values: an assignment to [self.a] changes the local variable [self]; a constructor returns it.  Nothing in
    epcpy looks at an object through a second name while it is changed.  The text of an exception is not computed. *)
From Coq Require Import String SpecFloat.
From Verif.Model Require Import Py PyFloat Re Sre PyFormat Syntax.

(** * Values *)

Inductive value :=
| VNone
| VBool (b : bool)
| VInt (z : Z)
| VFloat (f : spec_float)
| VStr (s : str)
| VBytes (b : list N)
| VStrs (l : list str)                     (* a list of str *)
| VList (l : list value)
| VTuple (l : list value)
| VDict (l : list (value * value))
| VRegex (text : str)                      (* re.compile(text) *)
| VMatch (b : bool)                        (* a match object, or None *)
| VEnum (c name : string) (v : value)      (* a member of the enumeration c *)
| VClass (c : string)
| VFun (q : string)
| VBuiltin (x : string)
| VMod (m : string)
| VSuper (c : string) (self : value)
| VObj (c : string) (attrs : list (string * value))
| VKw (l : list (string * value)).         (* **kwargs *)

Inductive xexn := XExn (e : exn) | XOther (name : string).
(** the name an [except] clause is written with *)
Definition exn_is (name : string) (x : xexn) : bool :=
  match x with
  | XExn ValueError => String.eqb name "ValueError"
  | XExn IndexError => String.eqb name "IndexError"
  | XExn KeyError => String.eqb name "KeyError"
  | XExn TypeError => String.eqb name "TypeError"
  | XExn OverflowError => String.eqb name "OverflowError"
  | XExn ConvertException => String.eqb name "ConvertException"
  | XOther n => String.eqb name n
  end.
Definition exn_of_name (name : string) : xexn :=
  if String.eqb name "common.ConvertException" then XExn ConvertException
  else if String.eqb name "ValueError" then XExn ValueError
  else if String.eqb name "KeyError" then XExn KeyError
  else XOther name.

(** a class: its [__name__], its method resolution order, its attributes *)
Record cinfo := mkClass { ci_name : string; ci_mro : list string; ci_attrs : list (string * value) }.
(** functions, module namespaces, classes, default values *)
Record world := mkWorld {
  w_code : list (string * fundef); w_ns : list (string * list (string * value)); w_cls : list (string * cinfo);
  w_def : list (string * list (string * value)) }.

(** local variables: [None] for one that is not yet assigned *)
Record env := mkEnv { en_mod : string; en_cls : option string; en_loc : list (string * option value) }.

(** * Lists, kept apart from the functions the model uses on texts *)

Fixpoint vrev {X} (l acc : list X) : list X := match l with [] => acc | x :: l' => vrev l' (x :: acc) end.
Fixpoint vapp {X} (l m : list X) : list X := match l with [] => m | x :: l' => x :: vapp l' m end.
Fixpoint vmap {X Y} (f : X -> Y) (l : list X) : list Y := match l with [] => [] | x :: l' => f x :: vmap f l' end.
Fixpoint vlen {X} (l : list X) : nat := match l with [] => O | _ :: l' => S (vlen l') end.
Fixpoint vsplit {X} (n : nat) (l : list X) : list X * list X :=
  match n, l with
  | S n', x :: l' => let (a, b) := vsplit n' l' in (x :: a, b)
  | _, _ => ([], l)
  end.
Definition vflat {X Y} (f : X -> list Y) : list X -> list Y :=
  fix go (l : list X) : list Y := match l with [] => [] | x :: l' => vapp (f x) (go l') end.
Fixpoint vexists {X} (f : X -> bool) (l : list X) : bool := match l with [] => false | x :: l' => if f x then true else vexists f l' end.
Fixpoint vall {X} (f : X -> bool) (l : list X) : bool := match l with [] => true | x :: l' => if f x then vall f l' else false end.
Fixpoint assoc {X} (x : string) (l : list (string * X)) : option X :=
  match l with [] => None | (y, v) :: l' => if String.eqb x y then Some v else assoc x l' end.
Fixpoint update {X} (x : string) (v : X) (l : list (string * X)) : list (string * X) :=
  match l with
  | [] => [(x, v)]
  | (y, w) :: l' => if String.eqb x y then (y, v) :: l' else (y, w) :: update x v l'
  end.
Fixpoint smem (x : string) (l : list string) : bool :=
  match l with [] => false | y :: l' => if String.eqb x y then true else smem x l' end.
Definition o2l {X} (o : option X) : list X := match o with Some x => [x] | None => [] end.
Definition is_some {X} (o : option X) : bool := match o with Some _ => true | None => false end.

(** * Operations on values.  They are written with continuations: [ret] for a value, [exc] for an exception, [stuck] for what is
      not modelled. *)

(** a string literal, [lit] *)
Definition bit_n (b : bool) (n : N) : N := match n with N0 => if b then 1 else 0 | Npos p => Npos (if b then xI p else xO p) end.
Definition ascii_n (a : Ascii.ascii) : N :=
  match a with Ascii.Ascii b0 b1 b2 b3 b4 b5 b6 b7 =>
    bit_n b0 (bit_n b1 (bit_n b2 (bit_n b3 (bit_n b4 (bit_n b5 (bit_n b6 (bit_n b7 0))))))) end.
Fixpoint slit (s : string) : str := match s with EmptyString => [] | String a s' => ascii_n a :: slit s' end.
Definition const_value (c : const) : value :=
  match c with CNone => VNone | CTrue => VBool true | CFalse => VBool false | CInt z => VInt z | CStr s => VStr (slit s) end.

Definition nonempty {X} (l : list X) : bool := match l with [] => false | _ => true end.
(** [bool(v)] *)
Definition truth (v : value) : bool :=
  match v with
  | VNone => false
  | VBool b => b
  | VInt z => negb (z =? 0)%Z
  | VStr s => nonempty s
  | VBytes b => nonempty b
  | VStrs l => nonempty l
  | VList l => nonempty l
  | VTuple l => nonempty l
  | VDict l => nonempty l
  | VMatch b => b
  | VFloat f => match f with S754_zero _ => false | _ => true end
  | _ => true
  end.

(** an IntEnum member is an int, and so is a truth value *)
Definition as_int (v : value) : option Z :=
  match v with VInt z => Some z | VBool b => Some (if b then 1 else 0)%Z | VEnum _ _ (VInt z) => Some z | _ => None end.

(** [a == b]; lists and tuples are not compared *)
Definition v_eq {A} (a b : value) (ret : bool -> A) (stuck : A) : A :=
  match a, b with
  | VNone, VNone => ret true
  | VStr s, VStr t => ret (str_eqb s t)
  | VBool x, VBool y => ret (Bool.eqb x y)
  | VClass c, VClass d => ret (String.eqb c d)
  | VEnum c n v, VEnum d m w =>
      match v, w with
      | VInt x, VInt y => ret (x =? y)%Z
      | _, _ => ret (String.eqb c d && String.eqb n m)
      end
  | VInt x, VInt y => ret (x =? y)%Z
  | VStr _, VNone | VStr _, VInt _ | VStr _, VEnum _ _ _ | VNone, VStr _ | VNone, VInt _ | VNone, VEnum _ _ _ | VInt _, VStr _
  | VInt _, VNone | VEnum _ _ _, VNone | VEnum _ _ _, VStr _ => ret false
  | VBool b, VEnum _ _ w => match w with VInt y => ret ((if b then 1 else 0) =? y)%Z | VStr _ => ret false | _ => stuck end
  | VInt x, VEnum _ _ w => match w with VInt y => ret (x =? y)%Z | VStr _ => ret false | _ => stuck end
  | VBytes _, VEnum _ _ _ => ret false
  | VFloat _, VEnum _ _ w => match w with VStr _ => ret false | _ => stuck end
  | _, _ => stuck
  end.

(** equality of dictionary keys: str, bytes, int and compiled patterns; other keys are not modelled ([is_key]) *)
Definition key_eqb (a b : value) : bool :=
  match a, b with
  | VStr s, VStr t => str_eqb s t
  | VBytes s, VBytes t => str_eqb s t
  | VInt x, VInt y => (x =? y)%Z
  | VRegex s, VRegex t => str_eqb s t
  | _, _ => false
  end.
Fixpoint dict_get (d : list (value * value)) (k : value) : option value :=
  match d with [] => None | (k', v) :: d' => if key_eqb k k' then Some v else dict_get d' k end.
Fixpoint dict_set (d : list (value * value)) (k v : value) : list (value * value) :=
  match d with [] => [(k, v)] | (k', v') :: d' => if key_eqb k k' then (k', v) :: d' else (k', v') :: dict_set d' k v end.
Definition is_key (k : value) : bool := match k with VStr _ | VBytes _ | VInt _ | VRegex _ => true | _ => false end.
Definition has_key (d : list (value * value)) (k : value) : bool := is_some (dict_get d k).
Fixpoint in_list (k : value) (l : list value) : bool :=
  match l with [] => false | v :: l' => key_eqb k v || in_list k l' end.

Definition v_compare {A} (o : cmpop) (a b : value) (ret : bool -> A) (exc : xexn -> A) (stuck : A) : A :=
  match o with
  | CmpEq => v_eq a b ret stuck
  | CmpNe => v_eq a b (fun x => ret (negb x)) stuck
  | CmpLt | CmpLe | CmpGt | CmpGe =>
      match as_int a, as_int b with
      | Some x, Some y =>
          match o with
          | CmpLt => ret (x <? y)%Z
          | CmpLe => ret (x <=? y)%Z
          | CmpGt => ret (y <? x)%Z
          | _ => ret (y <=? x)%Z
          end
      | _, _ => stuck
      end
  | CmpIn | CmpNotIn =>
      let fin x := ret (match o with CmpIn => x | _ => negb x end) in
      match b with
      | VDict d => if is_key a then fin (has_key d a) else stuck
      | VList l => if is_key a && vall is_key l then fin (in_list a l) else stuck
      | _ => stuck
      end
  end.

(** values that are no numbers: a sum or a difference of an int and one of them is a TypeError *)
Definition no_number (v : value) : bool :=
  match v with
  | VNone | VStr _ | VBytes _ | VStrs _ | VList _ | VTuple _ | VDict _ | VRegex _ | VObj _ _ | VEnum _ _ (VStr _) => true
  | _ => false
  end.
(** values that no part of a slice can be *)
Definition no_bound (v : option value) : bool :=
  match v with Some VNone => false | Some (VFloat _) => true | Some v => no_number v | None => false end.

(** [n * s] *)
Definition repeat_str (z : Z) (s : str) : str := concat (repeat s (Z.to_nat z)).
(** arithmetic with floats: an int operand is converted; it is a small constant of the program *)
Definition float_of_int (z : Z) : spec_float := binary_normalize 53 1024 z 0 false.
Definition v_binop {A} (o : binop) (a b : value) (ret : value -> A) (exc : xexn -> A) (stuck : A) : A :=
  match o, a, b with
  | OpAdd, VStr s, VStr t => ret (VStr (s ++ t))
  | OpMul, VStr s, VInt n => ret (VStr (repeat_str n s))
  | OpMul, VInt n, VStr s => ret (VStr (repeat_str n s))
  | OpMul, VInt z, VFloat f => ret (VFloat (SFmul 53 1024 (float_of_int z) f))
  | OpAdd, VInt z, VFloat f => ret (VFloat (SFadd 53 1024 (float_of_int z) f))
  | OpAdd, VFloat f, VInt z => ret (VFloat (SFadd 53 1024 f (float_of_int z)))
  | OpSub, VInt z, VFloat f => ret (VFloat (SFsub 53 1024 (float_of_int z) f))
  | OpDiv, VFloat f, VFloat g => ret (VFloat (SFdiv 53 1024 f g))
  | _, _, _ =>
      match as_int a, as_int b with
      | Some x, Some y =>
          match o with
          | OpAdd => ret (VInt (x + y))
          | OpSub => ret (VInt (x - y))
          | OpMul => ret (VInt (x * y))
          | OpMod => if (y =? 0)%Z then stuck else ret (VInt (x mod y))
          | OpDiv => stuck
          end
      | Some _, None =>
          match o with
          | OpAdd | OpSub => if no_number b then exc (XExn TypeError) else stuck
          | _ => stuck
          end
      | None, Some _ =>
          match o with
          | OpAdd | OpSub => if no_number a then exc (XExn TypeError) else stuck
          | _ => stuck
          end
      | _, _ => stuck
      end
  end.

(** [l[z]] *)
Definition py_index {X} (l : list X) (z : Z) : option X :=
  (let n := Z.of_nat (length l) in
   let j := if z <? 0 then z + n else z in
   if (j <? 0) || (n <=? j) then None else nth_error l (Z.to_nat j))%Z.
Definition v_index {A} (a i : value) (ret : value -> A) (exc : xexn -> A) (stuck : A) : A :=
  match a, i with
  | VStr s, VInt z => match py_index s z with Some c => ret (VStr [c]) | None => exc (XExn IndexError) end
  | VStrs l, VInt z => match py_index l z with Some s => ret (VStr s) | None => exc (XExn IndexError) end
  | VList l, VInt (Zpos p) => match nth_error l (Pos.to_nat p) with Some v => ret v | None => exc (XExn IndexError) end
  | VList l, VInt Z0 => match l with v :: _ => ret v | [] => exc (XExn IndexError) end
  | _, _ => stuck
  end.

Definition bound (v : option value) : option (option Z) :=
  match v with
  | None => Some None
  | Some VNone => Some None
  | Some v => match as_int v with Some z => Some (Some z) | None => None end
  end.
(** values that have no parts *)
Definition no_parts (v : value) : bool :=
  match v with VNone | VBool _ | VInt _ | VFloat _ | VRegex _ | VEnum _ _ _ | VObj _ _ => true | _ => false end.
Definition v_slice {A} (a : value) (lo hi step : option value) (ret : value -> A) (exc : xexn -> A) (stuck : A) : A :=
  match bound lo, bound hi, step with
  | Some x, Some y, None =>
      match a with
      | VStr s => ret (VStr (slz x y s))
      | VBytes b => ret (VBytes (slz x y b))
      | VStrs l => ret (VStrs (slz x y l))
      | _ => if no_parts a then exc (XExn TypeError) else stuck
      end
  | Some x, Some None, Some (VInt 2) =>
      match a, x with
      | VList l, Some 0%Z => ret (VList (evens l))
      | VList l, Some 1%Z => ret (VList (odds l))
      | _, _ => stuck
      end
  | _, _, None =>
      match a with
      | VStr _ => if no_bound lo then exc (XExn TypeError) else if no_bound hi then exc (XExn TypeError) else stuck
      | _ => stuck
      end
  | _, _, _ => stuck
  end.

(** [str(v)] and [format(v, spec)] *)
Definition of_res {A B} (r : res B) (ret : B -> A) (exc : xexn -> A) : A :=
  match r with Ok x => ret x | Raise e => exc (XExn e) end.
Definition v_str {A} (v : value) (ret : value -> A) (exc : xexn -> A) (stuck : A) : A :=
  match v with
  | VStr s => ret (VStr s)
  | VNone => ret (VStr (slit "None"))
  | VBool b => ret (VStr (if b then slit "True" else slit "False"))
  | _ => match as_int v with Some z => of_res (str_int z) (fun s => ret (VStr s)) exc | None => stuck end
  end.
Definition v_format {A} (v : value) (spec : option value) (ret : value -> A) (exc : xexn -> A) (stuck : A) : A :=
  match spec, v with
  | None, _ => v_str v ret exc stuck
  | Some (VStr f), VStr s => match fmt_str s f with Some r => of_res r (fun t => ret (VStr t)) exc | None => stuck end
  | Some (VStr f), VInt z => match fmt_int z f with Some r => of_res r (fun t => ret (VStr t)) exc | None => stuck end
  | _, _ => stuck
  end.

(** the pieces of an f-string or of a list of texts *)
Fixpoint strs_of (l : list value) : option (list str) :=
  match l with
  | [] => Some []
  | VStr s :: l' => match strs_of l' with Some r => Some (s :: r) | None => None end
  | _ => None
  end.
Fixpoint joined {A} (l : list value) (acc : str -> str) (ret : value -> A) (stuck : A) : A :=
  match l with
  | [] => ret (VStr (acc []))
  | v :: l' =>
      match v with
      | VStr s => match l' with
                  | [] => ret (VStr (acc s))
                  | _ => joined l' (fun t => acc (s ++ t)) ret stuck
                  end
      | _ => stuck
      end
  end.
Fixpoint ints_of (l : list value) : option (list Z) :=
  match l with
  | [] => Some []
  | VInt z :: l' => match ints_of l' with Some r => Some (z :: r) | None => None end
  | _ => None
  end.
Fixpoint zadd (l : list Z) : Z := match l with [] => 0 | z :: l' => z + zadd l' end%Z.

(** * re *)

(** truth of [re.compile(t).fullmatch(s)] and of [match]; [None]: the pattern is outside the syntax of [Sre] *)
Definition text_fullmatch (t s : str) : option bool :=
  match re_compile t with Some p => Some (sre_fullmatch p s) | None => None end.
Definition text_match (t s : str) : option bool :=
  match re_compile t with Some p => Some (is_some (sre_match p s)) | None => None end.
(** [re.split(t, s)]: the separators are kept if the pattern is one group; a pattern without a group drops them *)
Definition text_split (t s : str) : option (list str) :=
  match re_compile t with
  | Some p => if startswith [c_lpar] t then Some (re_split_cap (match_length p) s)
              else if mem c_lpar (replace [c_bsl; c_lpar] [] t) then None else Some (re_split (match_length p) s)
  | None => None
  end.
(** [re.findall(t, s)] for a pattern without a group *)
Definition text_findall (t s : str) : option (list str) :=
  match re_compile t with
  | Some p => if mem c_lpar t then None else Some (re_findall (match_length p) s)
  | None => None
  end.
(** [re.sub(t, repl, s, 1)] for a replacement without a backslash *)
Definition text_sub1 (t repl s : str) : option str :=
  match re_compile t with
  | Some p => if mem c_bsl repl then None else Some (sre_sub1 p repl s)
  | None => None
  end.

Definition lower_char (c : N) : N := if (65 <=? c) && (c <=? 90) then c + 32 else c.
(** [s.lower()] of an ASCII text: the names of classes *)
Definition lower (s : str) : str := map lower_char s.

Definition class_of_name (W : world) (c : string) : option cinfo := assoc c (w_cls W).
Fixpoint mro_find (W : world) (mro : list string) (a : string) : option value :=
  match mro with
  | [] => None
  | c :: mro' =>
      match class_of_name W c with
      | Some ci => match assoc a (ci_attrs ci) with Some v => Some v | None => mro_find W mro' a end
      | None => mro_find W mro' a
      end
  end.
Definition mro_of (W : world) (c : string) : list string := match class_of_name W c with Some ci => ci_mro ci | None => [] end.
(** the part of a method resolution order after a class *)
Fixpoint after (c : string) (mro : list string) : list string :=
  match mro with [] => [] | d :: mro' => if String.eqb c d then mro' else after c mro' end.
Definition is_subclass (W : world) (c d : string) : bool := smem d (mro_of W c).
Definition is_enum (W : world) (c : string) : bool := is_subclass W c "Enum".
Fixpoint members (l : list (string * value)) : list value :=
  match l with
  | [] => []
  | (_, VEnum c n v) :: l' => VEnum c n v :: members l'
  | _ :: l' => members l'
  end.
Definition enum_members (W : world) (c : string) : list value :=
  match class_of_name W c with Some ci => members (ci_attrs ci) | None => [] end.

(** [v.a] *)
Definition get_attr {A} (W : world) (v : value) (a : string) (ret : value -> A) (exc : xexn -> A) (stuck : A) : A :=
  let from_class c := match mro_find W (mro_of W c) a with
                      | Some (VFun _) => stuck
                      | Some x => ret x
                      | None => exc (XOther "AttributeError")
                      end in
  match v with
  | VObj c attrs => match assoc a attrs with Some x => ret x | None => from_class c end
  | VClass c =>
      if String.eqb a "__name__" then match class_of_name W c with Some ci => ret (VStr (slit (ci_name ci))) | None => stuck end
      else from_class c
  | VEnum _ n x =>
      if String.eqb a "value" then ret x else if String.eqb a "name" then ret (VStr (slit n)) else exc (XOther "AttributeError")
  | VNone | VBool _ | VInt _ | VFloat _ | VStr _ | VBytes _ =>
      if smem a ["value"; "name"]%string then exc (XOther "AttributeError") else stuck
  | _ => stuck
  end.

(** built-in functions *)
Definition call_builtin {A} (W : world) (f : string) (args : list value) (ret : value -> A) (exc : xexn -> A) (stuck : A) : A :=
  if String.eqb f "len" then
    match args with
    | [VStr s] => ret (VInt (Z.of_nat (length s)))
    | [VStrs l] => ret (VInt (Z.of_nat (length l)))
    | _ => stuck
    end
  else if String.eqb f "int" then
    match args with
    | [VStr s] => of_res (int10 s) (fun z => ret (VInt z)) exc
    | [VInt z] => ret (VInt z)
    | [VFloat x] => ret (VInt (int_of_float x))
    | [VStr s; VInt (Zpos b)] => of_res (int_base (Npos b) s) (fun z => ret (VInt z)) exc
    | [v; VInt (Zpos b)] => if no_parts v then exc (XExn TypeError) else stuck
    | _ => stuck
    end
  else if String.eqb f "str" then match args with [v] => v_str v ret exc stuck | _ => stuck end
  else if String.eqb f "pow" then
    match args with
    | [VInt x; VInt y] => if (y <? 0)%Z then stuck else ret (VInt (x ^ y))
    | _ => stuck
    end
  else if String.eqb f "sum" then
    match args with
    | [VList l] => match ints_of l with Some zs => ret (VInt (zadd zs)) | None => stuck end
    | _ => stuck
    end
  else if String.eqb f "chr" then match args with [VInt z] => of_res (chr z) (fun c => ret (VStr [c])) exc | _ => stuck end
  else if String.eqb f "ord" then
    match args with
    | [VStr s] => match s with
                  | c :: s' => match s' with [] => ret (VInt (Z.of_N c)) | _ => exc (XExn TypeError) end
                  | [] => exc (XExn TypeError)
                  end
    | _ => stuck
    end
  else if String.eqb f "list" then match args with [VList l] => ret (VList l) | _ => stuck end
  else if String.eqb f "log" then
    match args with
    | [VInt 2] => ret (VFloat log_2)
    | [VInt 10] => ret (VFloat log_10)
    | _ => stuck
    end
  else if String.eqb f "isinstance" then
    match args with
    | [VObj c _; VClass d] => ret (VBool (is_subclass W c d))
    | [VNone; VClass d] | [VStr _; VClass d] | [VInt _; VClass d] | [VBool _; VClass d] | [VClass _; VClass d] => ret (VBool false)
    | [VEnum c _ _; VClass d] => ret (VBool (is_subclass W c d))
    | _ => stuck
    end
  else if String.eqb f "issubclass" then
    match args with [VClass c; VClass d] => ret (VBool (is_subclass W c d)) | _ => stuck end
  else if String.eqb f "TypeVar" then ret VNone
  else stuck.

(** methods that only texts and bytes have *)
Definition text_method (m : string) : bool := smem m ["split"; "zfill"; "startswith"; "upper"; "lower"]%string.
(** methods of built-in types and functions of modules *)
Definition call_method {A} (v : value) (m : string) (args : list value) (ret : value -> A) (exc : xexn -> A) (stuck : A) : A :=
  match v with
  | VStr s =>
      if String.eqb m "split" then
        match args with
        | [VStr sep] => match sep with [c] => ret (VStrs (split c s)) | _ => stuck end
        | _ => stuck
        end
      else if String.eqb m "replace" then
        match args with
        | [VStr old; VStr new] => match old with [] => stuck | _ => ret (VStr (replace old new s)) end
        | [VStr old; VStr new; VInt 1] => match old with [] => stuck | _ => ret (VStr (replace_first old new s)) end
        | _ => stuck
        end
      else if String.eqb m "join" then
        match args with
        | [VStrs l] => ret (VStr (join s l))
        | [VList l] => match strs_of l with Some l' => ret (VStr (join s l')) | None => stuck end
        | _ => stuck
        end
      else if String.eqb m "isnumeric" then match args with [] => ret (VBool (isnumeric s)) | _ => stuck end
      else if String.eqb m "startswith" then match args with [VStr p] => ret (VBool (startswith p s)) | _ => stuck end
      else if String.eqb m "zfill" then match args with [VInt z] => ret (VStr (zfill (Z.to_nat z) s)) | _ => stuck end
      else if String.eqb m "upper" then match args with [] => ret (VStr (upper s)) | _ => stuck end
      else if String.eqb m "lower" then
        match args with [] => if forallb is_ascii s then ret (VStr (lower s)) else stuck | _ => stuck end
      else stuck
  | VBytes b =>
      if String.eqb m "hex" then match args with [] => ret (VStr (bytes_hex b)) | _ => stuck end
      else if String.eqb m "decode" then
        match args with [VStr _] => if forallb is_ascii b then ret (VStr b) else stuck | _ => stuck end
      else if String.eqb m "split" then match args with [VStr _] => exc (XExn TypeError) | _ => stuck end
      else stuck
  | VDict d =>
      if String.eqb m "keys" then match args with [] => ret (VList (vmap fst d)) | _ => stuck end
      else if String.eqb m "items" then
        match args with [] => ret (VList (vmap (fun x => VTuple [fst x; snd x]) d)) | _ => stuck end
      else if text_method m then exc (XOther "AttributeError") else stuck
  | VRegex t =>
      match args with
      | [VStr s] =>
          if String.eqb m "fullmatch" then match text_fullmatch t s with Some b => ret (VMatch b) | None => stuck end
          else if String.eqb m "match" then match text_match t s with Some b => ret (VMatch b) | None => stuck end
          else stuck
      | [_] => if smem m ["fullmatch"; "match"]%string then exc (XExn TypeError) else stuck
      | _ => stuck
      end
  | VMod x =>
      if String.eqb x "re" then
        match args with
        | [VStr t] => if String.eqb m "compile" then ret (VRegex t) else stuck
        | [VStr t; VStr s] =>
            if String.eqb m "split" then match text_split t s with Some l => ret (VStrs l) | None => stuck end
            else if String.eqb m "findall" then match text_findall t s with Some l => ret (VStrs l) | None => stuck end
            else if String.eqb m "match" then match text_match t s with Some b => ret (VMatch b) | None => stuck end
            else stuck
        | [VStr t; VStr r; VStr s; VInt 1] =>
            if String.eqb m "sub" then match text_sub1 t r s with Some x => ret (VStr x) | None => stuck end else stuck
        | _ => stuck
        end
      else if String.eqb x "base64" then
        match args with
        | [VStr s] => if String.eqb m "b64decode" then of_res (b64decode s) (fun b => ret (VBytes b)) exc else stuck
        | [VBytes b] => if String.eqb m "b64encode" then ret (VBytes (b64encode b)) else stuck
        | _ => stuck
        end
      else stuck
  | VBuiltin x =>
      if String.eqb x "bytes" && String.eqb m "fromhex"
      then match args with [VStr s] => of_res (bytes_fromhex s) (fun b => ret (VBytes b)) exc | _ => stuck end
      else stuck
  | VNone | VBool _ | VInt _ | VFloat _ | VStrs _ | VList _ | VTuple _ | VEnum _ _ _ =>
      if text_method m then exc (XOther "AttributeError") else stuck
  | _ => stuck
  end.

(** * Names *)

Definition builtins : list string :=
  ["len"; "int"; "str"; "pow"; "sum"; "chr"; "ord"; "list"; "map"; "isinstance"; "issubclass"; "super"; "bytes"; "ValueError";
   "KeyError"; "NotImplementedError"]%string.
Definition lookup_name {A} (W : world) (en : env) (x : string) (ret : value -> A) (exc : xexn -> A) : A :=
  match assoc x (en_loc en) with
  | Some (Some v) => ret v
  | Some None => exc (XOther "UnboundLocalError")
  | None =>
      match assoc (en_mod en) (w_ns W) with
      | Some ns => match assoc x ns with
                   | Some v => ret v
                   | None => if smem x builtins then ret (VBuiltin x) else exc (XOther "NameError")
                   end
      | None => if smem x builtins then ret (VBuiltin x) else exc (XOther "NameError")
      end
  end.
Definition set_local (x : string) (v : value) (en : env) : env := mkEnv (en_mod en) (en_cls en) (update x (Some v) (en_loc en)).
(** the variable of a comprehension *)
Definition push_local (x : string) (v : value) (en : env) : env := mkEnv (en_mod en) (en_cls en) ((x, Some v) :: en_loc en).
Definition get_self (en : env) : value := match assoc "self" (en_loc en) with Some (Some v) => v | _ => VNone end.

Definition assign1 {A} (local : string -> value -> env -> env) (t : target) (v : value) (en : env) (ok : env -> A) (stuck : A) : A :=
  match t with
  | TName x => ok (local x v en)
  | TSelf a => match get_self en with
               | VObj c attrs => ok (set_local "self" (VObj c (update a v attrs)) en)
               | _ => stuck
               end
  | TTuple _ _ => stuck
  end.
(** unpacking a list of texts and a list of values *)
Fixpoint unpack_strs {A} local (ts : list target) (rest : option target) (l : list str) (en : env) (ok : env -> A) (exc : xexn -> A)
    (stuck : A) : A :=
  match ts with
  | [] => match rest with
          | Some t => assign1 local t (VStrs l) en ok stuck
          | None => match l with [] => ok en | _ => exc (XExn ValueError) end
          end
  | t :: ts' => match l with
                | s :: l' => assign1 local t (VStr s) en (fun en' => unpack_strs local ts' rest l' en' ok exc stuck) stuck
                | [] => exc (XExn ValueError)
                end
  end.
Fixpoint unpack_vals {A} local (ts : list target) (l : list value) (en : env) (ok : env -> A) (exc : xexn -> A) (stuck : A) : A :=
  match ts with
  | [] => match l with [] => ok en | _ => exc (XExn ValueError) end
  | t :: ts' => match l with
                | v :: l' => assign1 local t v en (fun en' => unpack_vals local ts' l' en' ok exc stuck) stuck
                | [] => exc (XExn ValueError)
                end
  end.
Definition assign {A} local (t : target) (v : value) (en : env) (ok : env -> A) (exc : xexn -> A) (stuck : A) : A :=
  match t with
  | TTuple ts rest =>
      match v with
      | VStrs l => unpack_strs local ts rest l en ok exc stuck
      | VTuple l | VList l => match rest with None => unpack_vals local ts l en ok exc stuck | Some _ => stuck end
      | _ => stuck
      end
  | _ => assign1 local t v en ok stuck
  end.

(** names a function body assigns to: its local variables *)
Definition target_names (t : target) : list string :=
  match t with
  | TName x => [x]
  | TSelf _ => []
  | TTuple l r => vflat (fun t => match t with TName x => [x] | _ => [] end) (vapp l (o2l r))
  end.
Fixpoint stmt_names (s : stmt) : list string :=
  match s with
  | SAssign t _ => target_names t
  | SAug x _ _ => [x]
  | SIf _ a b => vapp (vflat stmt_names a) (vflat stmt_names b)
  | SFor t _ b => vapp (target_names t) (vflat stmt_names b)
  | STry b _ h => vapp (vflat stmt_names b) (vflat stmt_names h)
  | _ => []
  end.
Definition body_names (b : list stmt) : list string := vflat stmt_names b.
Fixpoint declare (l : list string) (loc : list (string * option value)) : list (string * option value) :=
  match l with
  | [] => loc
  | x :: l' => declare l' (match assoc x loc with Some _ => loc | None => vapp loc [(x, None)] end)
  end.

(** binding of arguments; [None]: TypeError *)
Fixpoint bind_pos (ps : list string) (args : list value) : list (string * option value) * list string * list value :=
  match ps, args with
  | p :: ps', v :: args' => let '(loc, ps'', r) := bind_pos ps' args' in ((p, Some v) :: loc, ps'', r)
  | _, _ => ([], ps, args)
  end.
Fixpoint bind_names (ps : list string) (kws defs : list (string * value)) : option (list (string * option value)) :=
  match ps with
  | [] => Some []
  | p :: ps' =>
      match (match assoc p kws with Some v => Some v | None => assoc p defs end) with
      | Some v => match bind_names ps' kws defs with Some loc => Some ((p, Some v) :: loc) | None => None end
      | None => None
      end
  end.
Fixpoint extra_kws (known : list string) (kws : list (string * value)) : list (string * value) :=
  match kws with
  | [] => []
  | (x, v) :: kws' => if smem x known then extra_kws known kws' else (x, v) :: extra_kws known kws'
  end.
Definition bind_args (fd : fundef) (defs : list (string * value)) (args : list value) (kws : list (string * value)) :
    option (list (string * option value)) :=
  let '(loc, ps, more) := bind_pos (fd_params fd) args in
  let named := vapp ps (fd_kwonly fd) in
  let extra := extra_kws named kws in
  match bind_names named kws defs with
  | None => None
  | Some loc2 =>
      match more, fd_star fd with
      | _ :: _, None => None
      | _, st =>
          match extra, fd_kwstar fd with
          | _ :: _, None => None
          | _, kw =>
              if vexists (fun p => is_some (assoc p loc)) (vmap fst extra) then None
              else
                let l1 := match st with Some x => [(x, Some (VTuple more))] | None => [] end in
                let l2 := match kw with Some x => [(x, Some (VKw extra))] | None => [] end in
                Some (declare (body_names (fd_body fd)) (vapp loc (vapp loc2 (vapp l1 l2))))
          end
      end
  end.

(** * States *)

(** operators whose operands are evaluated from left to right.  A call has its callee, or the object of the method, as first
    operand: number of arguments, a [*] argument, names of keywords, a [**] argument. *)
Inductive op :=
| OAttr (a : string) | OIndex | OSlice (lo hi step : bool) | OBin (o : binop) | ONeg | ONot
| OList | OTuple | ODict | OJoin | OFmt (spec : bool)
| OCall (n : nat) (star : bool) (kws : list string) (kwstar : bool)
| OMeth (m : string) (n : nat) (star : bool) (kws : list string) (kwstar : bool)
| OSuper.

(** what remains of a loop: texts, or values *)
Inductive iter := ItStrs (l : list str) | ItVals (l : list value).

Inductive frame :=
| FOp (o : op) (done : list value) (todo : list expr) (en : env)
| FAnd (l : list expr) (en : env)
| FOr (l : list expr) (en : env)
| FIfE (a b : expr) (en : env)
| FCmp1 (l : list (cmpop * expr)) (en : env)
| FCmp2 (a : value) (o : cmpop) (l : list (cmpop * expr)) (en : env)
| FCompIter (t : target) (conds : list expr) (gs : list gen) (e : expr) (en : env) (acc : list value)
| FCompCond (it : iter) (t : target) (conds : list expr) (gs : list gen) (e : expr) (en en' : env) (acc : list value)
| FCompElt (acc : list value)
| FCompOuter (it : iter) (t : target) (conds : list expr) (gs : list gen) (e : expr) (en : env)
| FCompEnd (dict : bool)
| FMap (f : value) (done : list value) (it : iter)
| FExpr (ss : list stmt) (en : env)
| FSuper (ss : list stmt) (en : env)
| FAssign (t : target) (ss : list stmt) (en : env)
| FAug (x : string) (o : binop) (v : value) (ss : list stmt) (en : env)
| FIf (a b : list stmt) (ss : list stmt) (en : env)
| FForIter (t : target) (body ss : list stmt) (en : env)
| FReturn (en : env)
| FBlock (ss : list stmt)
| FLoop (it : iter) (t : target) (body ss : list stmt)
| FTry (exc : string) (handler ss : list stmt) (en : env)
| FCallB (init : bool).                                        (* end of a call; of a constructor *)

(** how a call ends *)
Inductive outcome := Returned (v : value) | Raised (x : xexn).

Inductive state :=
| StEval (e : expr) (en : env) (k : list frame)
| StExec (ss : list stmt) (en : env) (k : list frame)
| StVal (v : value) (k : list frame)
| StExn (x : xexn) (k : list frame)
| StRet (v : value) (en : env) (k : list frame)
| StCont (en : env) (k : list frame)
| StBrk (en : env) (k : list frame)
| StCall (f : value) (args : list value) (kws : list (string * value)) (init : bool) (k : list frame)
| StGet (d key : value) (k : list frame)                       (* d[key] *)
| StFor (it : iter) (t : target) (body ss : list stmt) (en : env) (k : list frame)
| StCompGo (gs : list gen) (e : expr) (en : env) (acc : list value) (k : list frame)
| StCompItems (it : iter) (t : target) (conds : list expr) (gs : list gen) (e : expr) (en : env) (acc : list value) (k : list frame)
| StCompDone (acc : list value) (k : list frame)
| StMap (f : value) (done : list value) (it : iter) (k : list frame)
| StDone (r : outcome) (k : list frame)
| StStuck.

Definition iter_of {A} (W : world) (v : value) (ret : iter -> A) (stuck : A) : A :=
  match v with
  | VStr s => ret (ItStrs (map (fun c => [c]) s))
  | VStrs l => ret (ItStrs l)
  | VList l | VTuple l => ret (ItVals l)
  | VDict d => ret (ItVals (vmap fst d))
  | VClass c => if is_enum W c then ret (ItVals (enum_members W c)) else stuck
  | _ => stuck
  end.

(** a member of an enumeration by name *)
Fixpoint member_named (s : str) (l : list value) : option value :=
  match l with
  | [] => None
  | VEnum c n v :: l' => if str_eqb s (slit n) then Some (VEnum c n v) else member_named s l'
  | _ :: l' => member_named s l'
  end.

Definition take_opt (b : bool) (l : list value) : option value * list value :=
  match b, l with true, v :: l' => (Some v, l') | _, _ => (None, l) end.
Fixpoint zip_kws (ks : list string) (l : list value) : list (string * value) * list value :=
  match ks, l with
  | x :: ks', v :: l' => let (a, r) := zip_kws ks' l' in ((x, v) :: a, r)
  | _, _ => ([], l)
  end.
(** the operands of a call: arguments and keywords; a keyword given twice (TypeError) is not modelled *)
Definition call_operands (n : nat) (star : bool) (kws : list string) (kwstar : bool) (vs : list value) :
    option (list value * list (string * value)) :=
  let (args, r) := vsplit n vs in
  let (st, r) := take_opt star r in
  let (ks, r) := zip_kws kws r in
  let (kst, _) := take_opt kwstar r in
  match st with
  | Some (VTuple l) =>
      match kst with
      | Some (VKw m) => if vexists (fun x => smem x (vmap fst ks)) (vmap fst m) then None else Some (vapp args l, vapp ks m)
      | None => Some (vapp args l, ks)
      | _ => None
      end
  | None =>
      match kst with
      | Some (VKw m) => if vexists (fun x => smem x (vmap fst ks)) (vmap fst m) then None else Some (args, vapp ks m)
      | None => Some (args, ks)
      | _ => None
      end
  | _ => None
  end.

Section Step.
Context {A : Type} (W : world) (ret : state -> A).

Definition stuck : A := ret StStuck.
Definition value_to (k : list frame) : value -> A := fun v => ret (StVal v k).
Definition raise_to (k : list frame) : xexn -> A := fun x => ret (StExn x k).

Definition fun_kind (q : string) : option kind := option_map fd_kind (assoc q (w_code W)).

Definition do_call (f : value) (args : list value) (kws : list (string * value)) (k : list frame) : A :=
  match f with
  | VFun _ | VClass _ => ret (StCall f args kws false k)
  | VBuiltin x =>
      if String.eqb x "map" then
        match args with
        | [g; l] => iter_of W l (fun it => ret (StMap g [] it k)) stuck
        | _ => stuck
        end
      else call_builtin W x args (value_to k) (raise_to k) stuck
  | _ => stuck
  end.

Definition do_method (v : value) (m : string) (args : list value) (kws : list (string * value)) (k : list frame) : A :=
  match v with
  | VObj c _ =>
      match mro_find W (mro_of W c) m with
      | Some (VFun q) =>
          match fun_kind q with
          | Some KPlain => ret (StCall (VFun q) (v :: args) kws false k)
          | Some KClass => ret (StCall (VFun q) (VClass c :: args) kws false k)
          | None => stuck
          end
      | _ => ret (StExn (XOther "AttributeError") k)
      end
  | VClass c =>
      match mro_find W (mro_of W c) m with
      | Some (VFun q) =>
          match fun_kind q with
          | Some KPlain => ret (StCall (VFun q) args kws false k)
          | Some KClass => ret (StCall (VFun q) (v :: args) kws false k)
          | None => stuck
          end
      | _ => ret (StExn (XOther "AttributeError") k)
      end
  | VSuper d self =>
      let c := match self with VObj c _ => c | VClass c => c | _ => ""%string end in
      match mro_find W (after d (mro_of W c)) m with
      | Some (VFun q) => ret (StCall (VFun q) (self :: args) kws (String.eqb m "__init__") k)
      | _ => if String.eqb m "__init__" then ret (StVal self k) else ret (StExn (XOther "AttributeError") k)
      end
  | _ => match kws with [] => call_method v m args (value_to k) (raise_to k) stuck | _ => stuck end
  end.

Fixpoint make_dict (l : list value) (acc : list (value * value)) : list (value * value) :=
  match l with
  | k :: r => match r with v :: l' => make_dict l' (dict_set acc k v) | [] => acc end
  | [] => acc
  end.
Fixpoint keys_ok (l : list value) : bool :=
  match l with k :: r => match r with _ :: l' => if is_key k then keys_ok l' else false | [] => true end | [] => true end.
Fixpoint pairs_dict (l : list value) (acc : list (value * value)) : list (value * value) :=
  match l with
  | VTuple [k; v] :: l' => pairs_dict l' (dict_set acc k v)
  | _ => acc
  end.

Fixpoint pairs_ok (l : list value) : bool :=
  match l with VTuple [k; _] :: l' => if is_key k then pairs_ok l' else false | [] => true | _ => false end.

Definition apply_op (o : op) (vs : list value) (k : list frame) : A :=
  match o with
  | OAttr a => match vs with [v] => get_attr W v a (value_to k) (raise_to k) stuck | _ => stuck end
  | OIndex =>
      match vs with
      | [v; i] =>
          match v with
          | VDict _ | VClass _ => ret (StGet v i k)
          | _ => v_index v i (value_to k) (raise_to k) stuck
          end
      | _ => stuck
      end
  | OSlice lo hi step =>
      match vs with
      | v :: r =>
          let (x, r) := take_opt lo r in
          let (y, r) := take_opt hi r in
          let (z, _) := take_opt step r in
          v_slice v x y z (value_to k) (raise_to k) stuck
      | [] => stuck
      end
  | OBin b => match vs with [x; y] => v_binop b x y (value_to k) (raise_to k) stuck | _ => stuck end
  | ONeg => match vs with [VInt z] => ret (StVal (VInt (- z)) k) | _ => stuck end
  | ONot => match vs with [v] => ret (StVal (VBool (negb (truth v))) k) | _ => stuck end
  | OList => ret (StVal (VList vs) k)
  | OTuple => ret (StVal (VTuple vs) k)
  | ODict => if keys_ok vs then ret (StVal (VDict (make_dict vs [])) k) else stuck
  | OJoin => joined vs (fun s => s) (value_to k) stuck
  | OFmt spec =>
      match vs with
      | v :: r => v_format v (fst (take_opt spec r)) (value_to k) (raise_to k) stuck
      | [] => stuck
      end
  | OCall n star kws kwstar =>
      match vs with
      | f :: r => match call_operands n star kws kwstar r with
                  | Some (args, ks) => do_call f args ks k
                  | None => stuck
                  end
      | [] => stuck
      end
  | OMeth m n star kws kwstar =>
      match vs with
      | v :: r => match call_operands n star kws kwstar r with
                  | Some (args, ks) => do_method v m args ks k
                  | None => stuck
                  end
      | [] => stuck
      end
  | OSuper => match vs with [VClass c; v] => ret (StVal (VSuper c v) k) | _ => stuck end
  end.

(** evaluate the operands of [o] *)
Definition start_op (o : op) (l : list expr) (en : env) (k : list frame) : A :=
  match l with
  | [] => apply_op o [] k
  | e :: l' => ret (StEval e en (FOp o [] l' en :: k))
  end.

Fixpoint flatten_pairs (l : list (expr * expr)) : list expr :=
  match l with [] => [] | (a, b) :: l' => a :: b :: flatten_pairs l' end.

Definition is_super (f : expr) : bool := match f with EName x => String.eqb x "super" | _ => false end.

Definition eval_step (e : expr) (en : env) (k : list frame) : A :=
  match e with
  | EConst c => ret (StVal (const_value c) k)
  | EName x => lookup_name W en x (value_to k) (raise_to k)
  | EAttr a x => start_op (OAttr x) [a] en k
  | EIndex a i => start_op OIndex [a; i] en k
  | ESlice a lo hi step =>
      start_op (OSlice (is_some lo) (is_some hi) (is_some step)) (a :: vapp (o2l lo) (vapp (o2l hi) (o2l step))) en k
  | EBin o a b => start_op (OBin o) [a; b] en k
  | ENeg a => start_op ONeg [a] en k
  | ENot a => start_op ONot [a] en k
  | EAnd l => match l with a :: l' => ret (StEval a en (FAnd l' en :: k)) | [] => stuck end
  | EOr l => match l with a :: l' => ret (StEval a en (FOr l' en :: k)) | [] => stuck end
  | ECmp a l => ret (StEval a en (FCmp1 l en :: k))
  | EIf c a b => ret (StEval c en (FIfE a b en :: k))
  | EList l => start_op OList l en k
  | ETuple l => start_op OTuple l en k
  | EDict l => start_op ODict (flatten_pairs l) en k
  | EJoined l => start_op OJoin l en k
  | EFormat a spec => start_op (OFmt (is_some spec)) (a :: o2l spec) en k
  | ECall f args star kws kwstar =>
      let operands := vapp args (vapp (o2l star) (vapp (vmap snd kws) (o2l kwstar))) in
      if is_super f then
        match args with
        | [] => match en_cls en, en_loc en with
                | Some c, (_, Some v) :: _ => ret (StVal (VSuper c v) k)
                | _, _ => stuck
                end
        | _ => start_op OSuper args en k
        end
      else
        match f with
        | EAttr a m => start_op (OMeth m (vlen args) (is_some star) (vmap fst kws) (is_some kwstar)) (a :: operands) en k
        | _ => start_op (OCall (vlen args) (is_some star) (vmap fst kws) (is_some kwstar)) (f :: operands) en k
        end
  | EListComp a gs => ret (StCompGo gs a en [] (FCompEnd false :: k))
  | EDictComp a b gs => ret (StCompGo gs (ETuple [a; b]) en [] (FCompEnd true :: k))
  end.

(** [super().__init__(...)] as a statement *)
Definition is_super_init (e : expr) : bool :=
  match e with
  | ECall (EAttr (ECall f [] None [] None) m) _ _ _ _ => is_super f && String.eqb m "__init__"
  | _ => false
  end.

(** the body of a [try]: one statement, so that an exception in it leaves the variables as they were *)
Definition plain_try (b : list stmt) : bool :=
  match b with [SAssign (TName _) _] | [SReturn _] | [SExpr _] => true | _ => false end.

Definition exec_step (s : stmt) (ss : list stmt) (en : env) (k : list frame) : A :=
  match s with
  | SExpr e => if is_super_init e then ret (StEval e en (FSuper ss en :: k)) else ret (StEval e en (FExpr ss en :: k))
  | SAssign t e => ret (StEval e en (FAssign t ss en :: k))
  | SAug x o e => lookup_name W en x (fun v => ret (StEval e en (FAug x o v ss en :: k))) (raise_to k)
  | SIf c a b => ret (StEval c en (FIf a b ss en :: k))
  | SFor t e body => ret (StEval e en (FForIter t body ss en :: k))
  | SReturn None => ret (StRet VNone en k)
  | SReturn (Some e) => ret (StEval e en (FReturn en :: k))
  | SRaise e =>
      match e with
      | ECall (EName x) _ _ _ _ | EName x =>
          lookup_name W en x (fun v => match v with
                                       | VClass c => ret (StExn (exn_of_name c) k)
                                       | VBuiltin c => ret (StExn (exn_of_name c) k)
                                       | _ => stuck
                                       end) (raise_to k)
      | _ => stuck
      end
  | STry b x h => if plain_try b then ret (StExec b en (FTry x h ss en :: k)) else stuck
  | SContinue => ret (StCont en k)
  | SBreak => ret (StBrk en k)
  | SPass => ret (StExec ss en k)
  end.

(** a value reaches the frame that waits for it *)
Definition value_step (v : value) (f : frame) (k : list frame) : A :=
  match f with
  | FOp o done todo en =>
      match todo with
      | e :: todo' => ret (StEval e en (FOp o (v :: done) todo' en :: k))
      | [] => apply_op o (vrev (v :: done) []) k
      end
  | FAnd l en =>
      match l with
      | [] => ret (StVal v k)
      | e :: l' => if truth v then ret (StEval e en (FAnd l' en :: k)) else ret (StVal v k)
      end
  | FOr l en =>
      match l with
      | [] => ret (StVal v k)
      | e :: l' => if truth v then ret (StVal v k) else ret (StEval e en (FOr l' en :: k))
      end
  | FIfE a b en => if truth v then ret (StEval a en k) else ret (StEval b en k)
  | FCmp1 l en =>
      match l with
      | (o, e) :: l' => ret (StEval e en (FCmp2 v o l' en :: k))
      | [] => stuck
      end
  | FCmp2 a o l en =>
      v_compare o a v (fun b =>
        match l with
        | [] => ret (StVal (VBool b) k)
        | (o', e) :: l' => if b then ret (StEval e en (FCmp2 v o' l' en :: k)) else ret (StVal (VBool false) k)
        end) (raise_to k) stuck
  | FCompIter t conds gs e en acc => iter_of W v (fun it => ret (StCompItems it t conds gs e en acc k)) stuck
  | FCompCond it t conds gs e en en' acc =>
      if truth v then ret (StCompGo gs e en' acc (FCompOuter it t conds gs e en :: k))
      else ret (StCompItems it t conds gs e en acc k)
  | FCompElt acc => ret (StCompDone (v :: acc) k)
  | FMap g done it => ret (StMap g (v :: done) it k)
  | FExpr ss en => ret (StExec ss en k)
  | FSuper ss en => ret (StExec ss (set_local "self" v en) k)
  | FAssign t ss en => assign set_local t v en (fun en' => ret (StExec ss en' k)) (raise_to k) stuck
  | FAug x o w ss en => v_binop o w v (fun r => ret (StExec ss (set_local x r en) k)) (raise_to k) stuck
  | FIf a b ss en => if truth v then ret (StExec a en (FBlock ss :: k)) else ret (StExec b en (FBlock ss :: k))
  | FForIter t body ss en => iter_of W v (fun it => ret (StFor it t body ss en k)) stuck
  | FReturn en => ret (StRet v en k)
  | FBlock _ | FLoop _ _ _ _ | FTry _ _ _ _ | FCallB _ | FCompOuter _ _ _ _ _ _ | FCompEnd _ => stuck
  end.

Definition next_item (it : iter) (nil : A) (cons : value -> iter -> A) : A :=
  match it with
  | ItStrs l => match l with [] => nil | s :: l' => cons (VStr s) (ItStrs l') end
  | ItVals l => match l with [] => nil | v :: l' => cons v (ItVals l') end
  end.

Definition step_k (st : state) : A :=
  match st with
  | StEval e en k => eval_step e en k
  | StExec ss en k =>
      match ss with
      | s :: ss' => exec_step s ss' en k
      | [] =>
          match k with
          | FBlock ss' :: k' => ret (StExec ss' en k')
          | FLoop it t body ss' :: k' => ret (StFor it t body ss' en k')
          | FTry _ _ ss' _ :: k' => ret (StExec ss' en k')
          | FCallB init :: k' => ret (StDone (Returned (if init then get_self en else VNone)) k')
          | _ => stuck
          end
      end
  | StVal v k => match k with f :: k' => value_step v f k' | [] => ret st end
  | StExn x k =>
      match k with
      | [] => ret st
      | f :: k' =>
          match f with
          | FTry name h ss en => if exn_is name x then ret (StExec h en (FBlock ss :: k')) else ret (StExn x k')
          | FCallB _ => ret (StDone (Raised x) k')
          | _ => ret (StExn x k')
          end
      end
  | StRet v en k =>
      match k with
      | FBlock _ :: k' | FLoop _ _ _ _ :: k' | FTry _ _ _ _ :: k' => ret (StRet v en k')
      | FCallB init :: k' => ret (StDone (Returned (if init then get_self en else v)) k')
      | _ => stuck
      end
  | StCont en k =>
      match k with
      | FBlock _ :: k' | FTry _ _ _ _ :: k' => ret (StCont en k')
      | FLoop it t body ss :: k' => ret (StFor it t body ss en k')
      | _ => stuck
      end
  | StBrk en k =>
      match k with
      | FBlock _ :: k' | FTry _ _ _ _ :: k' => ret (StBrk en k')
      | FLoop _ _ _ ss :: k' => ret (StExec ss en k')
      | _ => stuck
      end
  | StCall f args kws init k =>
      match f with
      | VFun q =>
          match assoc q (w_code W) with
          | Some fd =>
              match bind_args fd (match assoc q (w_def W) with Some d => d | None => [] end) args kws with
              | Some loc => ret (StExec (fd_body fd) (mkEnv (fd_mod fd) (fd_cls fd) loc) (FCallB init :: k))
              | None => ret (StDone (Raised (XExn TypeError)) k)
              end
          | None => stuck
          end
      | VClass c =>
          match mro_find W (mro_of W c) "__init__" with
          | Some (VFun q) => ret (StCall (VFun q) (VObj c [] :: args) kws true k)
          | _ => stuck
          end
      | _ => stuck
      end
  | StGet d key k =>
      match d with
      | VDict l =>
          if is_key key
          then match dict_get l key with Some v => ret (StVal v k) | None => ret (StExn (XExn KeyError) k) end
          else stuck
      | VClass c =>
          match key with
          | VStr s => match member_named s (enum_members W c) with
                      | Some v => ret (StVal v k)
                      | None => ret (StExn (XExn KeyError) k)
                      end
          | _ => stuck
          end
      | _ => stuck
      end
  | StFor it t body ss en k =>
      next_item it (ret (StExec ss en k)) (fun v it' =>
        assign set_local t v en (fun en' => ret (StExec body en' (FLoop it' t body ss :: k))) (raise_to k) stuck)
  | StCompGo gs e en acc k =>
      match gs with
      | [] => ret (StEval e en (FCompElt acc :: k))
      | (t, e1, conds) :: gs' => ret (StEval e1 en (FCompIter t conds gs' e en acc :: k))
      end
  | StCompItems it t conds gs e en acc k =>
      next_item it (ret (StCompDone acc k)) (fun v it' =>
        assign push_local t v en (fun en' =>
          match conds with
          | [] => ret (StCompGo gs e en' acc (FCompOuter it' t conds gs e en :: k))
          | _ => ret (StEval (EAnd conds) en' (FCompCond it' t conds gs e en en' acc :: k))
          end) (raise_to k) stuck)
  | StCompDone acc k =>
      match k with
      | FCompOuter it t conds gs e en :: k' => ret (StCompItems it t conds gs e en acc k')
      | FCompEnd dict :: k' =>
          if dict then if pairs_ok acc then ret (StVal (VDict (pairs_dict (vrev acc []) [])) k') else stuck
          else ret (StVal (VList (vrev acc [])) k')
      | _ => stuck
      end
  | StMap f done it k =>
      next_item it (ret (StVal (VList (vrev done [])) k)) (fun v it' => ret (StCall f [v] [] false (FMap f done it' :: k)))
  | StDone r k =>
      match k with
      | [] => ret st
      | _ => match r with Returned v => ret (StVal v k) | Raised x => ret (StExn x k) end
      end
  | StStuck => stuck
  end.
End Step.

(** one step of the machine *)
Definition step (W : world) (st : state) : state := step_k W (fun s => s) st.
Fixpoint steps (W : world) (n : nat) (st : state) : state := match n with O => st | S n' => steps W n' (step W st) end.

(** [f(args, kws)] comes to the result [r] *)
Definition calls (W : world) (f : value) (args : list value) (kws : list (string * value)) (r : outcome) : Prop :=
  exists n, steps W n (StCall f args kws false []) = StDone r [].
