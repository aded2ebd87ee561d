(** Syntax trees of the part of Python that epcpy is written in.  [Source/] holds the trees of /repo, [Machine] runs them. *)
From Coq Require Import String ZArith List.

Inductive const := CNone | CTrue | CFalse | CInt (z : Z) | CStr (s : string).
Inductive binop := OpAdd | OpSub | OpMul | OpDiv | OpMod.
Inductive cmpop := CmpEq | CmpNe | CmpLt | CmpLe | CmpGt | CmpGe | CmpIn | CmpNotIn.

(** what is assigned to: a name, [self.a], a tuple whose last member may be starred *)
Inductive target := TName (x : string) | TSelf (a : string) | TTuple (l : list target) (rest : option target).

Inductive expr :=
| EConst (c : const)
| EName (x : string)
| EAttr (e : expr) (a : string)
| EIndex (e i : expr)
| ESlice (e : expr) (lo hi step : option expr)
| EBin (o : binop) (a b : expr)
| ENeg (a : expr)
| ENot (a : expr)
| EAnd (l : list expr)
| EOr (l : list expr)
| ECmp (a : expr) (l : list (cmpop * expr))                     (* a < b <= c *)
| EIf (c a b : expr)                                            (* a if c else b *)
| EList (l : list expr)
| ETuple (l : list expr)
| EDict (l : list (expr * expr))
| EJoined (l : list expr)                                       (* an f-string: its pieces *)
| EFormat (e : expr) (spec : option expr)                       (* {e:spec} *)
| ECall (f : expr) (args : list expr) (star : option expr) (kws : list (string * expr)) (kwstar : option expr)
| EListComp (e : expr) (gens : list (target * expr * list expr))
| EDictComp (k v : expr) (gens : list (target * expr * list expr)).
Definition gen : Type := target * expr * list expr.               (* for target in expr if ... *)

Inductive stmt :=
| SExpr (e : expr)
| SAssign (t : target) (e : expr)
| SAug (x : string) (o : binop) (e : expr)
| SIf (c : expr) (a b : list stmt)
| SFor (t : target) (e : expr) (body : list stmt)
| SReturn (e : option expr)
| SRaise (e : expr)
| STry (body : list stmt) (exc : string) (handler : list stmt)
| SContinue
| SBreak
| SPass.

Inductive kind := KPlain | KClass.                               (* KClass: @classmethod *)
(** a function: its module, the class it is defined in, its parameters, their defaults, [*args], keyword-only parameters,
    [**kwargs] and its body *)
Record fundef := mkFun {
  fd_mod : string; fd_cls : option string; fd_kind : kind; fd_params : list string; fd_defaults : list (string * expr);
  fd_star : option string; fd_kwonly : list string; fd_kwstar : option string; fd_body : list stmt }.

(** statements of a module or of a class body *)
Inductive top :=
| TImport (m : string)
| TFrom (m : string) (names : list string)
| TAssign (x : string) (e : expr)
| TFun (f : string)
| TClass (name : string) (bases : list expr) (body : list top).
