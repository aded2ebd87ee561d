(** Model of Python's [re] as far as epcpy uses it. *)
From Coq Require String.
From Verif.Model Require Import Py.

(** Regular expressions.  [RSet p] is one character satisfying [p]. *)
Inductive re :=
| REmp                       (* matches nothing *)
| REps                       (* matches the empty string *)
| RSet (p : N -> bool)
| RSeq (a b : re)
| RAlt (a b : re)
| RStar (a : re).

Fixpoint nullable (r : re) : bool :=
  match r with
  | REmp => false
  | REps => true
  | RSet _ => false
  | RSeq a b => nullable a && nullable b
  | RAlt a b => nullable a || nullable b
  | RStar _ => true
  end.

Definition mk_seq (a b : re) : re :=
  match a, b with
  | REmp, _ => REmp
  | _, REmp => REmp
  | REps, _ => b
  | _, _ => RSeq a b
  end.
Definition mk_alt (a b : re) : re :=
  match a, b with
  | REmp, _ => b
  | _, REmp => a
  | _, _ => RAlt a b
  end.

(** Brzozowski derivative *)
Fixpoint deriv (c : N) (r : re) : re :=
  match r with
  | REmp | REps => REmp
  | RSet p => if p c then REps else REmp
  | RSeq a b => if nullable a then mk_alt (mk_seq (deriv c a) b) (deriv c b)
                else mk_seq (deriv c a) b
  | RAlt a b => mk_alt (deriv c a) (deriv c b)
  | RStar a => mk_seq (deriv c a) (RStar a)
  end.

(** truth value of [re.compile(r).fullmatch(s)]: [s] is in the language of [r] *)
Fixpoint fullmatch (r : re) (s : str) : bool :=
  match s with
  | [] => nullable r
  | c :: s' => fullmatch (deriv c r) s'
  end.

(** truth value of [re.compile(r).match(s)]: some prefix of [s] is in the language of [r] *)
Fixpoint rmatch (r : re) (s : str) : bool :=
  nullable r || match s with [] => false | c :: s' => rmatch (deriv c r) s' end.

(** * Combinators used to transcribe patterns *)

Definition rchar (c : N) : re := RSet (N.eqb c).
Fixpoint rlit_l (s : str) : re :=
  match s with [] => REps | c :: s' => RSeq (rchar c) (rlit_l s') end.
Definition rlit (s : String.string) : re := rlit_l (lit s).
Arguments rlit s%string_scope.

Fixpoint rseq (l : list re) : re :=
  match l with [] => REps | [r] => r | r :: l' => RSeq r (rseq l') end.
Fixpoint ralt (l : list re) : re :=
  match l with [] => REmp | [r] => r | r :: l' => RAlt r (ralt l') end.
Definition rplus (r : re) : re := RSeq r (RStar r).
Definition ropt (r : re) : re := RAlt REps r.
(** [r{n}] and [r{lo,lo+extra}] *)
Fixpoint rrep (n : nat) (r : re) : re :=
  match n with O => REps | S k => RSeq r (rrep k r) end.
Fixpoint rupto (n : nat) (r : re) : re :=
  match n with O => REps | S k => RAlt REps (RSeq r (rupto k r)) end.
Definition rrange (lo hi : nat) (r : re) : re := RSeq (rrep lo r) (rupto (hi - lo) r).

(** character predicates *)
Definition inr (lo hi c : N) : bool := (lo <=? c) && (c <=? hi).
Definition is_digit (c : N) : bool := inr 48 57 c.          (* [0-9] *)
Definition is_upper (c : N) : bool := inr 65 90 c.          (* [A-Z] *)
Definition is_lower (c : N) : bool := inr 97 122 c.         (* [a-z] *)
Definition is_hex (c : N) : bool := is_digit c || inr 97 102 c || inr 65 70 c. (* [0-9a-fA-F] *)
Definition dotc (c : N) : bool := negb (c =? c_nl).         (* . *)

(** * re.split / re.findall for fixed sequences of character classes

    All patterns epcpy splits on have the property that the text matched at a position is
    determined by the position alone: [m s] is the length of the match at the start of [s]. *)

Fixpoint seqmatch (ps : list (N -> bool)) (s : str) : bool :=
  match ps, s with
  | [], _ => true
  | p :: ps', c :: s' => p c && seqmatch ps' s'
  | _ :: _, [] => false
  end.

Definition m_seq (ps : list (N -> bool)) (s : str) : option nat :=
  if seqmatch ps s then Some (length ps) else None.

Fixpoint split_aux (keep : bool) (m : str -> option nat) (s cur : str) (skip : nat) : list str :=
  match s with
  | [] => [rev cur]
  | c :: s' =>
      match skip with
      | S k => split_aux keep m s' cur k
      | O => match m s with
             | Some (S k) =>
                 if keep then rev cur :: firstn (S k) s :: split_aux keep m s' [] k
                 else rev cur :: split_aux keep m s' [] k
             | _ => split_aux keep m s' (c :: cur) 0
             end
      end
  end.

(** [re.split("(pat)", s)]: separators are returned too *)
Definition re_split_cap (m : str -> option nat) (s : str) : list str := split_aux true m s [] 0.
(** [re.split("pat", s)] *)
Definition re_split (m : str -> option nat) (s : str) : list str := split_aux false m s [] 0.

(** [re.findall(pat, s)] *)
Fixpoint findall_aux (m : str -> option nat) (s : str) (skip : nat) : list str :=
  match s with
  | [] => []
  | c :: s' =>
      match skip with
      | S k => findall_aux m s' k
      | O => match m s with
             | Some (S k) => firstn (S k) s :: findall_aux m s' k
             | _ => findall_aux m s' 0
             end
      end
  end.
Definition re_findall (m : str -> option nat) (s : str) : list str := findall_aux m s 0.
