(** From text to syntax trees: the part of Python's lexical analysis and grammar that epcpy is written in
    (the Python Language Reference, chapters 2 and 6 to 10).  What is not recognised is refused ([None]). *)
From Coq Require Import String Ascii ZArith List Bool.
From Verif.Model Require Import Syntax.
Import ListNotations.
Open Scope list_scope.
Open Scope string_scope.

Notation "'do' x <- e ; k" := (match e with Some x => k | None => None end) (at level 200, x pattern, e at level 100, k at level 200).

(** * Characters *)

Definition code (c : ascii) : N := N_of_ascii c.
Definition between (a b : N) (c : ascii) : bool := (N.leb a (code c) && N.leb (code c) b)%bool.
Definition is_digit : ascii -> bool := between 48 57.
Definition is_letter (c : ascii) : bool := (between 65 90 c || between 97 122 c || Ascii.eqb c "_")%bool.
Definition nl : ascii := "010".
Definition quote2 : ascii := """".
Definition quote1 : ascii := "'".
Definition is_quote (c : ascii) : bool := (Ascii.eqb c quote2 || Ascii.eqb c quote1)%bool.
Definition backslash : ascii := "\".
(** the longest beginning of [s] whose characters satisfy [p], and the rest *)
Fixpoint span (p : ascii -> bool) (s : string) : string * string :=
  match s with
  | String c s' => if p c then let '(a, b) := span p s' in (String c a, b) else ("", s)
  | "" => ("", "")
  end.
Fixpoint number (acc : Z) (s : string) : Z :=
  match s with String c s' => number (acc * 10 + Z.of_N (code c - 48)) s' | "" => acc end.
(** up to the closing quote, backslashes and what they protect kept; no line end *)
Fixpoint quoted (q : ascii) (s : string) : option (string * string) :=
  match s with
  | "" => None
  | String c s' =>
      if Ascii.eqb c q then Some ("", s') else if Ascii.eqb c nl then None
      else if Ascii.eqb c backslash then
        match s' with
        | String d s'' => if Ascii.eqb d nl then None else do (a, b) <- quoted q s''; Some (String c (String d a), b)
        | "" => None
        end
      else do (a, b) <- quoted q s'; Some (String c a, b)
  end.
(** after three quotes: up to the next three *)
Fixpoint quoted3 (q : ascii) (s : string) : option (string * string) :=
  match s with
  | "" => None
  | String c s' =>
      match s' with
      | String d (String e s'') =>
          if (Ascii.eqb c q && Ascii.eqb d q && Ascii.eqb e q)%bool then Some ("", s'')
          else if Ascii.eqb c backslash then None else do (a, b) <- quoted3 q s'; Some (String c a, b)
      | _ => None
      end
  end.
Definition after_line (s : string) : string := snd (span (fun c => negb (Ascii.eqb c nl)) s).

(** * Tokens *)

Inductive token :=
| KName (s : string) | KInt (z : Z) | KText (s : string) | KFormat (s : string) | KOp (s : string)
| KNewline | KIndent | KDedent.

(** a string literal, [s] from its first quote on: the text between the quotes as it is written, and the rest *)
Definition literal (s : string) : option (string * string) :=
  match s with
  | String q s' =>
      match s' with
      | String a (String b s'') => if (Ascii.eqb a q && Ascii.eqb b q)%bool then quoted3 q s'' else quoted q s'
      | _ => quoted q s'
      end
  | "" => None
  end.
Definition two_chars : list string := ["->"; "=="; "!="; "<="; ">="; "**"; "+="].
Definition one_char : list string := ["("; ")"; "["; "]"; "{"; "}"; ","; ":"; "."; "="; "+"; "-"; "*"; "/"; "%"; "<"; ">"; "@"].
Definition among (s : string) (l : list string) : bool := existsb (String.eqb s) l.
Definition operator (s : string) : option (string * string) :=
  match s with
  | String a (String b s') =>
      if among (String a (String b "")) two_chars then Some (String a (String b ""), s')
      else if among (String a "") one_char then Some (String a "", String b s') else None
  | String a "" => if among (String a "") one_char then Some (String a "", "") else None
  | "" => None
  end.
(** a decimal integer; no other number *)
Definition integer (s : string) : option (string * string) :=
  let '(x, r) := span is_digit s in
  let bad := match r with String c _ => (is_letter c || Ascii.eqb c ".")%bool | "" => false end in
  match x with
  | String "0" (String _ _) => None
  | _ => if bad then None else Some (x, r)
  end.
Definition opens (o : string) : bool := among o ["("; "["; "{"].
Definition closes (o : string) : bool := among o [")"; "]"; "}"].
(** leave the blocks that are indented by more than [k]; the indentation must be that of an enclosing block *)
Fixpoint leave (k : nat) (blocks : list nat) (out : list token) : option (list nat * list token) :=
  match blocks with
  | b :: bs => if Nat.eqb b k then Some (blocks, out) else if Nat.ltb k b then leave k bs (KDedent :: out) else None
  | [] => None
  end.
(** [start]: at the beginning of a line; [blocks]: the indentations of the enclosing blocks; [depth]: open brackets, inside which line
    ends do not count.  The tokens are collected in reverse. *)
Fixpoint tokens (fuel : nat) (start : bool) (blocks : list nat) (depth : nat) (s : string) (out : list token) : option (list token) :=
  match fuel with
  | O => None
  | S n =>
      if start then
        let '(sp, r) := span (Ascii.eqb " ") s in
        let k := String.length sp in
        match r with
        | "" => do (_, out) <- leave 0 blocks out; Some (rev' out)
        | String c r' =>
            if Ascii.eqb c nl then tokens n true blocks depth r' out
            else if Ascii.eqb c "#" then tokens n true blocks depth (after_line r) out
            else if Nat.ltb (hd 0 blocks) k then tokens n false (k :: blocks) 0 r (KIndent :: out)
            else do (blocks, out) <- leave k blocks out; tokens n false blocks 0 r out
        end
      else
        match s with
        | "" => if Nat.eqb depth 0 then tokens n true blocks 0 "" (KNewline :: out) else None
        | String c s' =>
            if Ascii.eqb c " " then tokens n false blocks depth s' out
            else if Ascii.eqb c nl then
              if Nat.eqb depth 0 then tokens n true blocks 0 s' (KNewline :: out) else tokens n false blocks depth s' out
            else if Ascii.eqb c "#" then tokens n false blocks depth (after_line s) out
            else if is_quote c then do (t, r) <- literal s; tokens n false blocks depth r (KText t :: out)
            else if is_letter c then
              let '(x, r) := span (fun c => (is_letter c || is_digit c)%bool) s in
              match r with
              | String q _ =>
                  if is_quote q then
                    if String.eqb x "f" then do (t, r) <- literal r; tokens n false blocks depth r (KFormat t :: out) else None
                  else tokens n false blocks depth r (KName x :: out)
              | "" => tokens n false blocks depth r (KName x :: out)
              end
            else if is_digit c then do (x, r) <- integer s; tokens n false blocks depth r (KInt (number 0 x) :: out)
            else
              do (o, r) <- operator s;
              if opens o then tokens n false blocks (S depth) r (KOp o :: out)
              else if closes o then match depth with S d => tokens n false blocks d r (KOp o :: out) | O => None end
              else tokens n false blocks depth r (KOp o :: out)
        end
  end.
Definition lex (s : string) : option (list token) := tokens (2 * String.length s + 2) true [0] 0 s [].
(** the tokens of an expression that stands between brackets *)
Definition lex_inside (s : string) : option (list token) :=
  if String.eqb (snd (span (Ascii.eqb " ") s)) "" then None else tokens (2 * String.length s + 6) false [0] 0 ("(" ++ s ++ ")") [].

(** * String literals: escapes (the Reference, 2.4.1) and replacement fields (2.4.3) *)

(** a backslash before these characters is refused here; before a backslash or a quote it is dropped; before others it stays *)
Definition special_escapes : list ascii := ["a"; "b"; "f"; "n"; "r"; "t"; "v"; "x"; "N"; "u"; "U"; "0"; "1"; "2"; "3"; "4"; "5"; "6"; "7"]%char.
Fixpoint unescaped (s : string) : option string :=
  match s with
  | "" => Some ""
  | String c s' =>
      if Ascii.eqb c backslash then
        match s' with
        | String d s'' =>
            if existsb (Ascii.eqb d) special_escapes then None
            else do r <- unescaped s''; Some (if (is_quote d || Ascii.eqb d backslash)%bool then String d r else String c (String d r))
        | "" => None
        end
      else do r <- unescaped s'; Some (String c r)
  end.
(** the expression of a replacement field: up to the first colon or closing brace outside brackets and quotes *)
Fixpoint field (depth : nat) (q : option ascii) (s : string) : option (string * string) :=
  match s with
  | "" => None
  | String c s' =>
      let go depth q := do (a, b) <- field depth q s'; Some (String c a, b) in
      match q with
      | Some q' => if Ascii.eqb c q' then go depth None else go depth q
      | None =>
          if is_quote c then go depth (Some c)
          else if Ascii.eqb c backslash then None
          else if Ascii.eqb c "!" then None
          else if existsb (Ascii.eqb c) ["("; "["; "{"]%char then go (S depth) None
          else match depth with
               | O => if existsb (Ascii.eqb c) [":"; "}"]%char then Some ("", s)
                      else if existsb (Ascii.eqb c) [")"; "]"]%char then None else go O None
               | S d => if existsb (Ascii.eqb c) [")"; "]"; "}"]%char then go d None else go depth None
               end
      end
  end.
(** literal text before the next brace; doubled braces stand for themselves outside a format specification *)
Fixpoint plain (spec : bool) (s : string) : string * string :=
  match s with
  | "" => ("", "")
  | String c s' =>
      let keep := let '(a, b) := plain spec s' in (String c a, b) in
      if existsb (Ascii.eqb c) ["{"; "}"]%char then
        match s' with
        | String d s'' => if (negb spec && Ascii.eqb c d)%bool then let '(a, b) := plain spec s'' in (String c a, b) else ("", s)
        | "" => ("", s)
        end
      else keep
  end.

(** * Expressions *)

Definition parser (A : Type) : Type := list token -> option (A * list token).
Definition is_op (o : string) (t : token) : bool := match t with KOp o' => String.eqb o o' | _ => false end.
Definition is_word (w : string) (t : token) : bool := match t with KName x => String.eqb w x | _ => false end.
Definition next (p : token -> bool) (ts : list token) : option (list token) :=
  match ts with t :: ts' => if p t then Some ts' else None | [] => None end.
Definition at_ (p : token -> bool) (ts : list token) : bool := match ts with t :: _ => p t | [] => false end.
Definition at_newline : list token -> bool := at_ (fun t => match t with KNewline => true | _ => false end).
Definition keywords : list string :=
  ["False"; "None"; "True"; "and"; "as"; "assert"; "async"; "await"; "break"; "class"; "continue"; "def"; "del"; "elif"; "else"; "except";
   "finally"; "for"; "from"; "global"; "if"; "import"; "in"; "is"; "lambda"; "nonlocal"; "not"; "or"; "pass"; "raise"; "return"; "try";
   "while"; "with"; "yield"].
Definition name (ts : list token) : option (string * list token) :=
  match ts with KName x :: ts' => if among x keywords then None else Some (x, ts') | _ => None end.

Definition sum_ops (t : token) : option binop :=
  match t with KOp "+" => Some OpAdd | KOp "-" => Some OpSub | _ => None end.
Definition product_ops (t : token) : option binop :=
  match t with KOp "*" => Some OpMul | KOp "/" => Some OpDiv | KOp "%" => Some OpMod | _ => None end.
Definition comparison (ts : list token) : option (cmpop * list token) :=
  match ts with
  | KOp "==" :: r => Some (CmpEq, r) | KOp "!=" :: r => Some (CmpNe, r) | KOp "<" :: r => Some (CmpLt, r) | KOp "<=" :: r => Some (CmpLe, r)
  | KOp ">" :: r => Some (CmpGt, r) | KOp ">=" :: r => Some (CmpGe, r) | KName "in" :: r => Some (CmpIn, r)
  | KName "not" :: KName "in" :: r => Some (CmpNotIn, r)
  | _ => None
  end.
(** neighbouring pieces of text become one *)
Fixpoint joined (l : list expr) : list expr :=
  match l with
  | [] => []
  | EConst (CStr a) :: l' =>
      match joined l' with
      | EConst (CStr b) :: r => EConst (CStr (a ++ b)) :: r
      | r => if String.eqb a "" then r else EConst (CStr a) :: r
      end
  | e :: l' => e :: joined l'
  end.
Definition all_text (l : list (bool * list expr)) : bool := negb (existsb fst l).
Definition text_of (l : list expr) : option string :=
  match joined l with [EConst (CStr s)] => Some s | [] => Some "" | _ => None end.
(** what can be assigned to *)
Definition as_target (e : expr) : option target :=
  match e with
  | EName x => Some (TName x)
  | EAttr (EName "self") a => Some (TSelf a)
  | _ => None
  end.
Fixpoint as_targets (l : list (bool * expr)) : option (list target * option target) :=
  match l with
  | [] => Some ([], None)
  | [(true, e)] => do t <- as_target e; Some ([], Some t)
  | (false, e) :: l' => do t <- as_target e; do (ts, r) <- as_targets l'; Some (t :: ts, r)
  | _ => None
  end.

(** the arguments of a call *)
Inductive arg := APos (e : expr) | AStar (e : expr) | AKey (x : string) (e : expr) | AKeys (e : expr).
Fixpoint as_call (f : expr) (l : list arg) : option expr :=
  match l with
  | [] => Some (ECall f [] None [] None)
  | a :: l' =>
      do c <- as_call f l';
      match a, c with
      | APos e, ECall f args star kws kw => Some (ECall f (e :: args) star kws kw)
      | AStar e, ECall f [] None kws kw => Some (ECall f [] (Some e) kws kw)
      | AKey x e, ECall f [] None kws kw => Some (ECall f [] None ((x, e) :: kws) kw)
      | AKeys e, ECall f [] None [] None => Some (ECall f [] None [] (Some e))
      | _, _ => None
      end
  end.

(** the names before [in] *)
Fixpoint loop_target (n : nat) (ts : list token) {struct n} : option (target * list token) :=
  match n with O => None | S n =>
    do (x, ts) <- name ts;
    if at_ (is_op ",") ts then
      do ts <- next (is_op ",") ts; do (t, ts) <- loop_target n ts;
      Some (match t with TTuple l r => TTuple (TName x :: l) r | t => TTuple [TName x; t] None end, ts)
    else Some (TName x, ts) end.

Fixpoint test (n : nat) (ts : list token) {struct n} : option (expr * list token) :=          (* a if c else b *)
  match n with O => None | S n =>
    do (a, ts) <- disjunction n ts;
    if at_ (is_word "if") ts then
      do ts <- next (is_word "if") ts; do (c, ts) <- disjunction n ts; do ts <- next (is_word "else") ts; do (b, ts) <- test n ts; Some (EIf c a b, ts)
    else Some (a, ts) end
with disjunction (n : nat) (ts : list token) {struct n} : option (expr * list token) :=
  match n with O => None | S n =>
    do (a, ts) <- conjunction n ts; do (l, ts) <- disjuncts n ts; Some (match l with [] => a | _ => EOr (a :: l) end, ts) end
with disjuncts (n : nat) (ts : list token) {struct n} : option (list expr * list token) :=
  match n with O => None | S n =>
    if at_ (is_word "or") ts then do ts <- next (is_word "or") ts; do (a, ts) <- conjunction n ts; do (l, ts) <- disjuncts n ts; Some (a :: l, ts)
    else Some ([], ts) end
with conjunction (n : nat) (ts : list token) {struct n} : option (expr * list token) :=
  match n with O => None | S n =>
    do (a, ts) <- negation n ts; do (l, ts) <- conjuncts n ts; Some (match l with [] => a | _ => EAnd (a :: l) end, ts) end
with conjuncts (n : nat) (ts : list token) {struct n} : option (list expr * list token) :=
  match n with O => None | S n =>
    if at_ (is_word "and") ts then do ts <- next (is_word "and") ts; do (a, ts) <- negation n ts; do (l, ts) <- conjuncts n ts; Some (a :: l, ts)
    else Some ([], ts) end
with negation (n : nat) (ts : list token) {struct n} : option (expr * list token) :=
  match n with O => None | S n =>
    if at_ (is_word "not") ts then do ts <- next (is_word "not") ts; do (a, ts) <- negation n ts; Some (ENot a, ts)
    else do (a, ts) <- sum n ts; do (l, ts) <- comparisons n ts; Some (match l with [] => a | _ => ECmp a l end, ts) end
with comparisons (n : nat) (ts : list token) {struct n} : option (list (cmpop * expr) * list token) :=
  match n with O => None | S n =>
    match comparison ts with
    | Some (o, ts) => do (a, ts) <- sum n ts; do (l, ts) <- comparisons n ts; Some ((o, a) :: l, ts)
    | None => Some ([], ts)
    end end
with sum (n : nat) (ts : list token) {struct n} : option (expr * list token) :=
  match n with O => None | S n => do (a, ts) <- product n ts; summands n a ts end
with summands (n : nat) (a : expr) (ts : list token) {struct n} : option (expr * list token) :=
  match n with O => None | S n =>
    match ts with
    | t :: ts' => match sum_ops t with Some o => do (b, ts) <- product n ts'; summands n (EBin o a b) ts | None => Some (a, ts) end
    | [] => Some (a, ts)
    end end
with product (n : nat) (ts : list token) {struct n} : option (expr * list token) :=
  match n with O => None | S n => do (a, ts) <- factor n ts; factors n a ts end
with factors (n : nat) (a : expr) (ts : list token) {struct n} : option (expr * list token) :=
  match n with O => None | S n =>
    match ts with
    | t :: ts' => match product_ops t with Some o => do (b, ts) <- factor n ts'; factors n (EBin o a b) ts | None => Some (a, ts) end
    | [] => Some (a, ts)
    end end
with factor (n : nat) (ts : list token) {struct n} : option (expr * list token) :=
  match n with O => None | S n =>
    if at_ (is_op "-") ts then do ts <- next (is_op "-") ts; do (a, ts) <- factor n ts; Some (ENeg a, ts)
    else do (a, ts) <- atom n ts; trailers n a ts end
with trailers (n : nat) (a : expr) (ts : list token) {struct n} : option (expr * list token) :=  (* .x  (...)  [...] *)
  match n with O => None | S n =>
    match ts with
    | KOp "." :: ts => do (x, ts) <- name ts; trailers n (EAttr a x) ts
    | KOp "(" :: ts => do (l, ts) <- arguments n ts; do e <- as_call a l; trailers n e ts
    | KOp "[" :: ts => do (e, ts) <- subscript n a ts; do ts <- next (is_op "]") ts; trailers n e ts
    | _ => Some (a, ts)
    end end
with arguments (n : nat) (ts : list token) {struct n} : option (list arg * list token) :=       (* up to the closing bracket *)
  match n with O => None | S n =>
    if at_ (is_op ")") ts then do ts <- next (is_op ")") ts; Some ([], ts)
    else
      do (a, ts) <- match ts with
                    | KOp "*" :: ts => do (e, ts) <- test n ts; Some (AStar e, ts)
                    | KOp "**" :: ts => do (e, ts) <- test n ts; Some (AKeys e, ts)
                    | KName x :: KOp "=" :: ts => if among x keywords then None else do (e, ts) <- test n ts; Some (AKey x e, ts)
                    | _ => do (e, ts) <- test n ts; Some (APos e, ts)
                    end;
      if at_ (is_op ",") ts then do ts <- next (is_op ",") ts; do (l, ts) <- arguments n ts; Some (a :: l, ts)
      else do ts <- next (is_op ")") ts; Some ([a], ts) end
with subscript (n : nat) (a : expr) (ts : list token) {struct n} : option (expr * list token) :=
  match n with O => None | S n =>
    do (lo, ts) <- bound n ts;
    if at_ (is_op ":") ts then
      do ts <- next (is_op ":") ts; do (hi, ts) <- bound n ts;
      if at_ (is_op ":") ts then do ts <- next (is_op ":") ts; do (st, ts) <- bound n ts; Some (ESlice a lo hi st, ts)
      else Some (ESlice a lo hi None, ts)
    else do e <- lo; do (e, ts) <- tuple_rest n e ts; Some (EIndex a e, ts) end
with bound (n : nat) (ts : list token) {struct n} : option (option expr * list token) :=
  match n with O => None | S n =>
    if (at_ (is_op ":") ts || at_ (is_op "]") ts)%bool then Some (None, ts) else do (e, ts) <- test n ts; Some (Some e, ts) end
with tuple_rest (n : nat) (e : expr) (ts : list token) {struct n} : option (expr * list token) :=  (* e, or e, ... *)
  match n with O => None | S n =>
    if at_ (is_op ",") ts then do (l, ts) <- items n ts; Some (ETuple (e :: l), ts) else Some (e, ts) end
with items (n : nat) (ts : list token) {struct n} : option (list expr * list token) :=          (* , a , b ... up to a closing bracket *)
  match n with O => None | S n =>
    if at_ (is_op ",") ts then
      do ts <- next (is_op ",") ts;
      if (at_ (is_op ")") ts || at_ (is_op "]") ts || at_ (is_op "}") ts || at_ (is_op "=") ts || at_newline ts)%bool
      then Some ([], ts) else do (a, ts) <- test n ts; do (l, ts) <- items n ts; Some (a :: l, ts)
    else Some ([], ts) end
with atom (n : nat) (ts : list token) {struct n} : option (expr * list token) :=
  match n with O => None | S n =>
    match ts with
    | KName "None" :: ts => Some (EConst CNone, ts)
    | KName "True" :: ts => Some (EConst CTrue, ts)
    | KName "False" :: ts => Some (EConst CFalse, ts)
    | KName _ :: _ => do (x, ts) <- name ts; Some (EName x, ts)
    | KInt z :: ts => Some (EConst (CInt z), ts)
    | KText _ :: _ | KFormat _ :: _ =>
        do (l, ts) <- strings n ts;
        let es := flat_map snd l in
        if all_text l then do s <- text_of es; Some (EConst (CStr s), ts) else Some (EJoined (joined es), ts)
    | KOp "(" :: KOp ")" :: ts => Some (ETuple [], ts)
    | KOp "(" :: ts => do (e, ts) <- test n ts; do (e, ts) <- tuple_rest n e ts; do ts <- next (is_op ")") ts; Some (e, ts)
    | KOp "[" :: KOp "]" :: ts => Some (EList [], ts)
    | KOp "[" :: ts =>
        do (e, ts) <- test n ts;
        if at_ (is_word "for") ts then do (g, ts) <- generators n ts; do ts <- next (is_op "]") ts; Some (EListComp e g, ts)
        else do (l, ts) <- items n ts; do ts <- next (is_op "]") ts; Some (EList (e :: l), ts)
    | KOp "{" :: KOp "}" :: ts => Some (EDict [], ts)
    | KOp "{" :: ts =>
        do (k, ts) <- test n ts; do ts <- next (is_op ":") ts; do (v, ts) <- test n ts;
        if at_ (is_word "for") ts then do (g, ts) <- generators n ts; do ts <- next (is_op "}") ts; Some (EDictComp k v g, ts)
        else do (l, ts) <- entries n ts; Some (EDict ((k, v) :: l), ts)
    | _ => None
    end end
with entries (n : nat) (ts : list token) {struct n} : option (list (expr * expr) * list token) := (* , k: v ... } *)
  match n with O => None | S n =>
    match ts with
    | KOp "}" :: ts | KOp "," :: KOp "}" :: ts => Some ([], ts)
    | KOp "," :: ts =>
        do (k, ts) <- test n ts; do ts <- next (is_op ":") ts; do (v, ts) <- test n ts; do (l, ts) <- entries n ts; Some ((k, v) :: l, ts)
    | _ => None
    end end
with generators (n : nat) (ts : list token) {struct n} : option (list gen * list token) :=
  match n with O => None | S n =>
    if at_ (is_word "for") ts then
      do ts <- next (is_word "for") ts; do (t, ts) <- loop_target n ts; do ts <- next (is_word "in") ts; do (e, ts) <- disjunction n ts;
      do (c, ts) <- conditions n ts; do (l, ts) <- generators n ts; Some ((t, e, c) :: l, ts)
    else Some ([], ts) end
with conditions (n : nat) (ts : list token) {struct n} : option (list expr * list token) :=
  match n with O => None | S n =>
    if at_ (is_word "if") ts then
      do ts <- next (is_word "if") ts; do (e, ts) <- disjunction n ts; do (l, ts) <- conditions n ts; Some (e :: l, ts)
    else Some ([], ts) end
with strings (n : nat) (ts : list token) {struct n} : option (list (bool * list expr) * list token) :=  (* neighbouring literals *)
  match n with O => None | S n =>
    match ts with
    | KText s :: ts => do s <- unescaped s; do (l, ts) <- strings n ts; Some ((false, [EConst (CStr s)]) :: l, ts)
    | KFormat s :: ts => do (p, s) <- pieces n false s; if String.eqb s "" then do (l, ts) <- strings n ts; Some ((true, p) :: l, ts) else None
    | _ => Some ([], ts)
    end end
with pieces (n : nat) (spec : bool) (s : string) {struct n} : option (list expr * string) :=     (* an f-string, up to a closing brace *)
  match n with O => None | S n =>
    let '(a, s) := plain spec s in
    do a <- unescaped a;
    match s with
    | String "{" s =>
        do (x, s) <- field 0 None s; do ts <- lex_inside x;
        do (e, ts) <- test n ts;
        match ts, s with
        | [KNewline], String "}" s => do (l, s) <- pieces n spec s; Some (EConst (CStr a) :: EFormat e None :: l, s)
        | [KNewline], String ":" s =>
            do (f, s) <- pieces n true s;
            match s with
            | String "}" s => do (l, s) <- pieces n spec s; Some (EConst (CStr a) :: EFormat e (Some (EJoined (joined f))) :: l, s)
            | _ => None
            end
        | _, _ => None
        end
    | _ => Some ([EConst (CStr a)], s)
    end end.

(** * Statements *)

Definition newline (ts : list token) : option (list token) := next (fun t => match t with KNewline => true | _ => false end) ts.
Definition indent (ts : list token) : option (list token) := next (fun t => match t with KIndent => true | _ => false end) ts.
Definition dedent (ts : list token) : option (list token) := next (fun t => match t with KDedent => true | _ => false end) ts.
(** [a, *b, c]: what stands on either side of [=], and whether there was a comma *)
Fixpoint starred (n : nat) (ts : list token) : option (list (bool * expr) * bool * list token) :=
  match n with O => None | S n =>
    do (x, ts) <- match ts with KOp "*" :: ts => do (e, ts) <- test n ts; Some ((true, e), ts) | _ => do (e, ts) <- test n ts; Some ((false, e), ts) end;
    if at_ (is_op ",") ts then
      do ts <- next (is_op ",") ts;
      if (at_ (is_op "=") ts || at_ (is_op ")") ts || at_newline ts)%bool then Some ([x], true, ts)
      else do (l, _, ts) <- starred n ts; Some (x :: l, true, ts)
    else Some ([x], false, ts) end.
Definition as_expr (l : list (bool * expr)) (comma : bool) : option expr :=
  if existsb fst l then None else match l, comma with [(_, e)], false => Some e | _, true => Some (ETuple (map snd l)) | _, _ => None end.
Definition as_assigned (l : list (bool * expr)) (comma : bool) : option target :=
  match l, comma with
  | [(false, e)], false => as_target e
  | _, true => do (ts, r) <- as_targets l; Some (TTuple ts r)
  | _, _ => None
  end.
Definition value_list (n : nat) (ts : list token) : option (expr * list token) := do (l, c, ts) <- starred n ts; do e <- as_expr l c; Some (e, ts).
(** [x: T] with the annotation left out *)
Definition annotation (n : nat) (o : string) (ts : list token) : option (list token) :=
  if at_ (is_op o) ts then do ts <- next (is_op o) ts; do (_, ts) <- test n ts; Some ts else Some ts.

(** what is assigned to when it stands between brackets, up to [=] *)
Definition bracketed (n : nat) (ts : list token) : option (list (bool * expr) * bool * list token) :=
  match ts with
  | KOp "(" :: ts => do (l, c, ts) <- starred n ts; do ts <- next (is_op ")") ts; if at_ (is_op "=") ts then Some (l, c, ts) else None
  | _ => None
  end.
(** a statement of one line, its end included *)
Definition simple (n : nat) (ts : list token) : option (stmt * list token) :=
  match ts with
  | KName "pass" :: ts => do ts <- newline ts; Some (SPass, ts)
  | KName "break" :: ts => do ts <- newline ts; Some (SBreak, ts)
  | KName "continue" :: ts => do ts <- newline ts; Some (SContinue, ts)
  | KName "return" :: ts =>
      if at_newline ts then do ts <- newline ts; Some (SReturn None, ts)
      else do (e, ts) <- value_list n ts; do ts <- newline ts; Some (SReturn (Some e), ts)
  | KName "raise" :: ts => do (e, ts) <- test n ts; do ts <- newline ts; Some (SRaise e, ts)
  | _ =>
      do (l, c, ts) <- match bracketed n ts with Some r => Some r | None => starred n ts end;
      match ts with
      | KOp "=" :: ts => do t <- as_assigned l c; do (e, ts) <- value_list n ts; do ts <- newline ts; Some (SAssign t e, ts)
      | KOp "+=" :: ts => match l, c with
          | [(false, EName x)], false => do (e, ts) <- value_list n ts; do ts <- newline ts; Some (SAug x OpAdd e, ts)
          | _, _ => None
          end
      | KOp ":" :: _ =>
          do ts <- annotation n ":" ts; do ts <- next (is_op "=") ts;
          do t <- as_assigned l c; do (e, ts) <- value_list n ts; do ts <- newline ts; Some (SAssign t e, ts)
      | _ => do e <- as_expr l c; do ts <- newline ts; Some (SExpr e, ts)
      end
  end.
(** a statement that is only a text does nothing *)
Definition is_text_stmt (s : stmt) : bool := match s with SExpr (EConst (CStr _)) => true | _ => false end.
Fixpoint statement (n : nat) (ts : list token) {struct n} : option (stmt * list token) :=
  match n with O => None | S n =>
    match ts with
    | KName "if" :: ts => conditional n ts
    | KName "for" :: ts =>
        do (t, ts) <- loop_target n ts; do ts <- next (is_word "in") ts; do (e, ts) <- value_list n ts; do (b, ts) <- block n ts;
        if at_ (is_word "else") ts then None else Some (SFor t e b, ts)
    | KName "try" :: ts =>
        do (b, ts) <- block n ts; do ts <- next (is_word "except") ts; do (x, ts) <- name ts; do (h, ts) <- block n ts;
        if (at_ (is_word "except") ts || at_ (is_word "else") ts || at_ (is_word "finally") ts)%bool then None else Some (STry b x h, ts)
    | _ => simple n ts
    end end
with conditional (n : nat) (ts : list token) {struct n} : option (stmt * list token) :=        (* after "if" or "elif" *)
  match n with O => None | S n =>
    do (c, ts) <- test n ts; do (a, ts) <- block n ts;
    match ts with
    | KName "elif" :: ts => do (s, ts) <- conditional n ts; Some (SIf c a [s], ts)
    | KName "else" :: ts => do (b, ts) <- block n ts; Some (SIf c a b, ts)
    | _ => Some (SIf c a [], ts)
    end end
with block (n : nat) (ts : list token) {struct n} : option (list stmt * list token) :=         (* : and an indented block *)
  match n with O => None | S n =>
    do ts <- next (is_op ":") ts; do ts <- newline ts; do ts <- indent ts; statements n ts end
with statements (n : nat) (ts : list token) {struct n} : option (list stmt * list token) :=    (* up to the end of the block *)
  match n with O => None | S n =>
    do (s, ts) <- statement n ts;
    match dedent ts with
    | Some ts => Some (if is_text_stmt s then [] else [s], ts)
    | None => do (l, ts) <- statements n ts; Some (if is_text_stmt s then l else s :: l, ts)
    end end.

(** * Functions, classes and modules *)

Record params := mkParams { ps_names : list string; ps_defaults : list (string * expr); ps_star : option string; ps_only : list string; ps_kw : option string }.
(** parameters up to the closing bracket; [only]: after [*args] or a bare [*] *)
Fixpoint parameters (n : nat) (only : bool) (ts : list token) : option (params * list token) :=
  match n with O => None | S n =>
    let more ts k := if at_ (is_op ",") ts then do ts <- next (is_op ",") ts; k ts else if at_ (is_op ")") ts then k ts else None in
    match ts with
    | KOp ")" :: ts => Some (mkParams [] [] None [] None, ts)
    | KOp "*" :: KOp "," :: ts => if only then None else parameters n true ts
    | KOp "*" :: ts =>
        do (x, ts) <- name ts; do ts <- annotation n ":" ts;
        if only then None else more ts (fun ts => do (p, ts) <- parameters n true ts;
          match p with mkParams ns ds None os kw => Some (mkParams ns ds (Some x) os kw, ts) | _ => None end)
    | KOp "**" :: ts =>
        do (x, ts) <- name ts; do ts <- annotation n ":" ts;
        more ts (fun ts => do ts <- next (is_op ")") ts; Some (mkParams [] [] None [] (Some x), ts))
    | _ =>
        do (x, ts) <- name ts; do ts <- annotation n ":" ts;
        do (d, ts) <- (if at_ (is_op "=") ts then do ts <- next (is_op "=") ts; do (e, ts) <- test n ts; Some ([(x, e)], ts) else Some ([], ts));
        more ts (fun ts => do (p, ts) <- parameters n only ts;
          match p with mkParams ns ds st os kw => Some (if only then mkParams ns (d ++ ds)%list st (x :: os) kw else mkParams (x :: ns) (d ++ ds)%list st os kw, ts) end)
    end end.
(** a dotted name: its last part *)
Fixpoint dotted_last (n : nat) (ts : list token) : option (string * list token) :=
  match n with O => None | S n =>
    do (x, ts) <- name ts; if at_ (is_op ".") ts then do ts <- next (is_op ".") ts; dotted_last n ts else Some (x, ts) end.
Fixpoint name_list (n : nat) (ts : list token) : option (list string * list token) :=
  match n with O => None | S n =>
    do (x, ts) <- name ts;
    if at_ (is_op ",") ts then do ts <- next (is_op ",") ts; if at_ (is_op ")") ts then Some ([x], ts) else do (l, ts) <- name_list n ts; Some (x :: l, ts)
    else Some ([x], ts) end.
Definition skip_dots (ts : list token) : list token := match ts with KOp "." :: ts => ts | ts => ts end.

Definition functions : Type := list (string * fundef).
(** once a parameter has a default, so have those after it *)
Fixpoint defaults_last (names : list string) (defaults : list (string * expr)) : bool :=
  let has x := among x (map fst defaults) in
  match names with [] => true | x :: l => if has x then forallb has l else defaults_last l defaults end.
(** after [def] *)
Definition function (modname : string) (n : nat) (prefix : string) (k : kind) (ts : list token) : option (list top * functions * list token) :=
    do (f, ts) <- name ts; do ts <- next (is_op "(") ts; do (p, ts) <- parameters n false ts; if negb (defaults_last (ps_names p) (ps_defaults p)) then None else
    do ts <- annotation n "->" ts; do (b, ts) <- block n ts;
    Some ([TFun f],
      [(prefix ++ "." ++ f, mkFun modname (if String.eqb prefix modname then None else Some prefix) k (ps_names p) (ps_defaults p) (ps_star p) (ps_only p) (ps_kw p) b)], ts).
(** the statements of a module or of a class body: [prefix] is the module or the class with its module; the functions are collected *)
Fixpoint top_statement (modname : string) (n : nat) (prefix : string) (ts : list token) {struct n} : option (list top * functions * list token) :=
  match n with O => None | S n =>
    match ts with
    | KName "import" :: ts => do (l, ts) <- name_list n ts; do ts <- newline ts; Some (map TImport l, [], ts)
    | KName "from" :: ts =>
        do (m, ts) <- dotted_last n (skip_dots ts); do ts <- next (is_word "import") ts;
        do (l, ts) <- match ts with
                      | KOp "(" :: ts => do (l, ts) <- name_list n ts; do ts <- next (is_op ")") ts; Some (l, ts)
                      | _ => name_list n ts
                      end;
        do ts <- newline ts; Some (if String.eqb m "__future__" then [] else [TFrom m l], [], ts)
    | KOp "@" :: KName "classmethod" :: KNewline :: KName "def" :: ts => function modname n prefix KClass ts
    | KName "def" :: ts => function modname n prefix KPlain ts
    | KName "class" :: ts =>
        do (x, ts) <- name ts;
        do (bases, ts) <- match ts with
                          | KOp "(" :: ts => do (l, ts) <- arguments n ts; do c <- as_call (EName x) l;
                              match c with ECall _ l None [] None => Some (l, ts) | _ => None end
                          | _ => Some ([], ts)
                          end;
        do ts <- next (is_op ":") ts; do ts <- newline ts; do ts <- indent ts;
        do (body, fs, ts) <- class_body modname n (prefix ++ "." ++ x) ts; Some ([TClass x bases body], fs, ts)
    | KName x :: KOp ":" :: _ =>
        do (x, ts) <- name ts; do ts <- annotation n ":" ts;
        if at_newline ts then do ts <- newline ts; Some ([], [], ts)
        else do ts <- next (is_op "=") ts; do (e, ts) <- value_list n ts; do ts <- newline ts; Some ([TAssign x e], [], ts)
    | _ =>
        do (s, ts) <- simple n ts;
        match s with
        | SAssign (TName x) e => Some ([TAssign x e], [], ts)
        | SPass => Some ([], [], ts)
        | SExpr (EConst (CStr _)) => Some ([], [], ts)
        | _ => None
        end
    end end
with class_body (modname : string) (n : nat) (prefix : string) (ts : list token) {struct n} : option (list top * functions * list token) :=
  match n with O => None | S n =>
    do (a, fs, ts) <- top_statement modname n prefix ts;
    match dedent ts with
    | Some ts => Some (a, fs, ts)
    | None => do (b, gs, ts) <- class_body modname n prefix ts; Some ((a ++ b)%list, (fs ++ gs)%list, ts)
    end end.
Fixpoint module_body (modname : string) (n : nat) (ts : list token) : option (list top * functions) :=
  match ts with
  | [] => Some ([], [])
  | _ => match n with O => None | S n =>
           do (a, fs, ts) <- top_statement modname n modname ts; do (b, gs) <- module_body modname n ts; Some ((a ++ b)%list, (fs ++ gs)%list) end
  end.

(** a file, line by line *)
Definition file_text (lines : list string) : string := fold_right (fun l s => l ++ String nl s) "" lines.
Definition read_module (modname : string) (lines : list string) : option (list top * functions) :=
  do ts <- lex (file_text lines); module_body modname (100 + 20 * length ts) ts.
(** a program: its files by module name; the functions of all modules together *)
Fixpoint read_program (files : list (string * list string)) : option (list (string * list top) * functions) :=
  match files with
  | [] => Some ([], [])
  | (m, lines) :: l => do (t, fs) <- read_module m lines; do (ts, gs) <- read_program l; Some ((m, t) :: ts, (fs ++ gs)%list)
  end.
