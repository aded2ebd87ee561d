(** Model of how Python compiles and runs a pattern (Lib/sre_parse.py and Modules/_sre.c), for the
    syntax that occurs in epcpy: characters, escapes, classes, [.], [$], groups, alternatives and
    greedy repetition.  [Re] gives the patterns as languages; here they are texts that are parsed
    and then run by a backtracking search whose steps are counted. *)
From Verif.Model Require Import Py Re.

(** members of a character class *)
Inductive citem :=
| CRange (lo hi : N)         (* one character is a range of one *)
| CDigit.                    (* \d *)

Definition citem_match (i : citem) (c : N) : bool :=
  match i with CRange lo hi => inr lo hi c | CDigit => is_d c end.
Definition cls_match (l : list citem) (c : N) : bool := existsb (fun i => citem_match i c) l.

(** parsed patterns *)
Inductive pat :=
| PEps
| PSet (l : list citem)
| PAny                       (* .  : any character but a newline *)
| PEnd                       (* $ *)
| PSeq (a b : pat)
| PAlt (a b : pat)
| PRep (lo : nat) (hi : option nat) (a : pat).

(** * sre_parse *)

Definition c_bsl : N := 92.      (* \ *)
Definition c_lpar : N := 40.
Definition c_rpar : N := 41.
Definition c_lbrk : N := 91.
Definition c_rbrk : N := 93.
Definition c_lbrc : N := 123.
Definition c_rbrc : N := 125.
Definition c_bar : N := 124.
Definition c_hat : N := 94.
Definition c_dollar : N := 36.
Definition c_star : N := 42.
Definition c_plus : N := 43.
Definition c_quest : N := 63.
Definition c_comma : N := 44.
Definition c_d : N := 100.

(** sre_parse._class_escape and _escape: [\d] is the decimal digits, a backslash before a
    character that is no letter and no digit stands for that character.  The other escapes do not
    occur in epcpy; [None] says that this model does not cover them. *)
Definition escape_item (c : N) : option citem :=
  if c =? c_d then Some CDigit
  else if is_digit c || is_upper c || is_lower c || (127 <? c) then None
  else Some (CRange c c).

(** one member of a class, before a possible [-] *)
Definition class_member (s : str) : option (citem * str) :=
  match s with
  | [] => None
  | c :: s' =>
      if c =? c_bsl then
        match s' with
        | [] => None
        | e :: s'' => match escape_item e with Some i => Some (i, s'') | None => None end
        end
      else Some (CRange c c, s')
  end.

(** the inside of [[...]] (sre_parse._parse, the branch for "[").  [acc]: members so far, last
    first.  A [-] before the closing bracket is a character of its own. *)
Fixpoint class_body (n : nat) (acc : list citem) (s : str) : option (list citem * str) :=
  match n with
  | O => None
  | S n' =>
      match s with
      | [] => None
      | c :: s' =>
          if (c =? c_rbrk) && negb (match acc with [] => true | _ => false end) then Some (rev acc, s')
          else
            match class_member s with
            | None => None
            | Some (i, r) =>
                match r with
                | d :: r' =>
                    if d =? c_dash then
                      match r' with
                      | [] => None
                      | e :: r'' =>
                          if e =? c_rbrk then Some (rev (CRange c_dash c_dash :: i :: acc), r'')
                          else
                            match i, class_member r' with
                            | CRange lo _, Some (CRange hi _, r3) =>
                                if hi <? lo then None else class_body n' (CRange lo hi :: acc) r3
                            | _, _ => None
                            end
                      end
                    else class_body n' (i :: acc) r
                | [] => None
                end
            end
      end
  end.

Fixpoint take_digits (s : str) : str * str :=
  match s with
  | c :: s' => if is_digit c then let (d, r) := take_digits s' in (c :: d, r) else ([], s)
  | [] => ([], [])
  end.
Definition digits_nat (s : str) : nat :=
  fold_left (fun a c => (a * 10 + N.to_nat (c - 48))%nat) s 0%nat.

Definition starts_repeat (s : str) : bool :=
  match s with
  | c :: _ => (c =? c_star) || (c =? c_plus) || (c =? c_quest) || (c =? c_lbrc)
  | [] => false
  end.

(** a repetition after an item; [*?], [++] and the like are not covered *)
Definition quantifier (a : pat) (s : str) : option (pat * str) :=
  let fin lo hi r := if starts_repeat r then None else Some (PRep lo hi a, r) in
  match s with
  | [] => Some (a, s)
  | c :: r =>
      if c =? c_star then fin 0%nat None r
      else if c =? c_plus then fin 1%nat None r
      else if c =? c_quest then fin 0%nat (Some 1%nat) r
      else if c =? c_lbrc then
        let (lo, r1) := take_digits r in
        match r1 with
        | d :: r2 =>
            if d =? c_rbrc then
              match lo with [] => None | _ => fin (digits_nat lo) (Some (digits_nat lo)) r2 end
            else if d =? c_comma then
              let (hi, r3) := take_digits r2 in
              match r3 with
              | e :: r4 =>
                  if e =? c_rbrc then
                    match hi with
                    | [] => fin (digits_nat lo) None r4
                    | _ => if (digits_nat hi <? digits_nat lo)%nat then None
                           else fin (digits_nat lo) (Some (digits_nat hi)) r4
                    end
                  else None
              | [] => None
              end
            else None
        | [] => None
        end
      else Some (a, s)
  end.

(** sre_parse._parse_sub and _parse *)
Fixpoint parse_alt (n : nat) (s : str) : option (pat * str) :=
  match n with
  | O => None
  | S n' =>
      match parse_seq n' s with
      | None => None
      | Some (a, r) =>
          match r with
          | c :: r' => if c =? c_bar
                       then match parse_alt n' r' with Some (b, r2) => Some (PAlt a b, r2) | None => None end
                       else Some (a, r)
          | [] => Some (a, r)
          end
      end
  end
with parse_seq (n : nat) (s : str) : option (pat * str) :=
  match n with
  | O => None
  | S n' =>
      match s with
      | [] => Some (PEps, [])
      | c :: _ =>
          if (c =? c_bar) || (c =? c_rpar) then Some (PEps, s)
          else
            match parse_atom n' s with
            | None => None
            | Some (a, r) =>
                match quantifier a r with
                | None => None
                | Some (q, r2) =>
                    match parse_seq n' r2 with Some (b, r3) => Some (PSeq q b, r3) | None => None end
                end
            end
      end
  end
with parse_atom (n : nat) (s : str) : option (pat * str) :=
  match n with
  | O => None
  | S n' =>
      match s with
      | [] => None
      | c :: s' =>
          if c =? c_bsl then
            match s' with
            | [] => None
            | e :: r => match escape_item e with Some i => Some (PSet [i], r) | None => None end
            end
          else if c =? c_lpar then
            match s' with
            | q :: _ =>
                if q =? c_quest then None
                else match parse_alt n' s' with
                     | Some (a, d :: r) => if d =? c_rpar then Some (a, r) else None
                     | _ => None
                     end
            | [] => None
            end
          else if c =? c_lbrk then
            match s' with
            | h :: _ =>
                if h =? c_hat then None
                else match class_body (length s) [] s' with Some (l, r) => Some (PSet l, r) | None => None end
            | [] => None
            end
          else if c =? c_dot then Some (PAny, s')
          else if c =? c_dollar then Some (PEnd, s')
          else if (c =? c_hat) || starts_repeat s || (c =? c_rpar) then None
          else Some (PSet [CRange c c], s')
      end
  end.

(** [re.compile(text)]; [None]: outside the syntax modelled here, or not well-formed *)
Definition re_compile (text : str) : option pat :=
  match parse_alt (4 + 3 * length text) text with
  | Some (p, []) => Some p
  | _ => None
  end.

(** * _sre.c: the search

    [run p k s] looks for a match of [p] at the start of [s] that the continuation [k] accepts on
    what follows.  Alternatives are tried from left to right and repetitions are greedy: one more
    round first, what follows the repetition second.  A round that consumes nothing is the last.
    The second component counts the steps: one for every character tested, every alternative
    entered, every round started and every time the end of the pattern is reached. *)

Definition cont := str -> option str * N.

Definition tick (x : option str * N) : option str * N := (fst x, snd x + 1).

Definition orelse (x : option str * N) (y : unit -> option str * N) : option str * N :=
  match fst x with
  | Some r => x
  | None => let z := y tt in (fst z, snd x + snd z)
  end.

Fixpoint at_least (m : cont -> cont) (n : nat) (k : cont) : cont :=
  match n with
  | O => k
  | S n' => m (at_least m n' k)
  end.

Fixpoint at_most (m : cont -> cont) (n : nat) (k : cont) (s : str) : option str * N :=
  match n with
  | O => k s
  | S n' =>
      tick (orelse (m (fun t => if (length t <? length s)%nat then at_most m n' k t else k t) s)
                   (fun _ => k s))
  end.

Fixpoint run (p : pat) (k : cont) (s : str) : option str * N :=
  match p with
  | PEps => k s
  | PSet l => match s with
              | c :: t => if cls_match l c then tick (k t) else (None, 1)
              | [] => (None, 1)
              end
  | PAny => match s with
            | c :: t => if dotc c then tick (k t) else (None, 1)
            | [] => (None, 1)
            end
  | PEnd => if str_eqb s [] || str_eqb s [c_nl] then tick (k s) else (None, 1)
  | PSeq a b => run a (run b k) s
  | PAlt a b => tick (orelse (run a k s) (fun _ => run b k s))
  | PRep lo hi a =>
      at_least (run a) lo
        (fun t => at_most (run a) (match hi with Some h => h - lo | None => length t end)%nat k t) s
  end.

(** the end of the pattern: [match] accepts anywhere, [fullmatch] only at the end of the text *)
Definition k_match : cont := fun t => (Some t, 1).
Definition k_full : cont := fun t => match t with [] => (Some [], 1) | _ => (None, 1) end.

(** [pattern.match(s)]: what is left after the match, if there is one *)
Definition sre_match (p : pat) (s : str) : option str := fst (run p k_match s).
(** [pattern.fullmatch(s)] *)
Definition sre_fullmatch (p : pat) (s : str) : bool :=
  match fst (run p k_full s) with Some _ => true | None => false end.
(** the steps of [pattern.match(s)] and [pattern.fullmatch(s)] *)
Definition match_steps (p : pat) (s : str) : N := snd (run p k_match s).
Definition fullmatch_steps (p : pat) (s : str) : N := snd (run p k_full s).
(** the length of the match at the start of [s], as [re.split] and [re.findall] use it *)
Definition match_length (p : pat) (s : str) : option nat :=
  match sre_match p s with Some t => Some (length s - length t)%nat | None => None end.

(** [re.sub(pattern, repl, s, 1)]: the first match is replaced *)
Fixpoint sre_sub1 (p : pat) (repl : str) (s : str) : str :=
  match sre_match p s with
  | Some t => repl ++ t
  | None => match s with [] => [] | c :: s' => c :: sre_sub1 p repl s' end
  end.
