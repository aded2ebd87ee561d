(** Importing modules: running the statements of a module or of a class body once, which gives namespaces, classes with their
    method resolution orders, and default values. *)
From Coq Require Import String.
From Verif.Model Require Import Py Syntax Machine.

(** run the machine until it rests; at most 2^n steps *)
Fixpoint drive (W : world) (n : nat) (st : state) : state :=
  match st with
  | StVal _ [] | StExn _ [] | StDone _ [] | StStuck => st
  | _ => match n with O => step W st | S n' => drive W n' (drive W n' st) end
  end.

Definition namespace := list (string * value).
Fixpoint as_locals (ns : namespace) : list (string * option value) :=
  match ns with [] => [] | (x, v) :: ns' => (x, Some v) :: as_locals ns' end.
Definition eval_top (W : world) (m : string) (ns : namespace) (e : expr) : option value :=
  match drive W 18 (StEval e (mkEnv m None (as_locals ns)) []) with StVal v [] => Some v | _ => None end.

Fixpoint all_some {X} (l : list (option X)) : option (list X) :=
  match l with
  | [] => Some []
  | Some x :: l' => match all_some l' with Some r => Some (x :: r) | None => None end
  | None :: _ => None
  end.

(** * The method resolution order: C3 (Objects/typeobject.c, mro_implementation) *)

Definition heads (ls : list (list string)) : list string := flat_map (fun l => match l with x :: _ => [x] | [] => [] end) ls.
Definition in_tails (x : string) (ls : list (list string)) : bool :=
  existsb (fun l => match l with _ :: t => smem x t | [] => false end) ls.
Fixpoint c3_merge (n : nat) (ls : list (list string)) : option (list string) :=
  match n with
  | O => None
  | S n' =>
      match heads ls with
      | [] => Some []
      | hs =>
          match find (fun x => negb (in_tails x ls)) hs with
          | Some x =>
              let drop l := match l with y :: t => if String.eqb x y then t else l | [] => l end in
              match c3_merge n' (map drop ls) with Some r => Some (x :: r) | None => None end
          | None => None
          end
      end
  end.

(** bases that are not defined in epcpy *)
Definition builtin_classes : list (string * cinfo) :=
  [("Exception"%string, mkClass "Exception" ["Exception"%string] []);
   ("Enum"%string, mkClass "Enum" ["Enum"%string] []);
   ("IntEnum"%string, mkClass "IntEnum" ["IntEnum"; "Enum"]%string [])].
Definition class_value (v : value) : option string :=
  match v with VClass c => Some c | VBuiltin c => Some c | _ => None end.
(** [from m import x] where [m] is a module of the standard library *)
Definition stdlib_name (m x : string) : option value :=
  if String.eqb m "enum" then Some (VClass x)
  else if String.eqb m "math" then Some (VBuiltin x)
  else if String.eqb m "typing" then Some (VBuiltin x)
  else None.

(** the members of an enumeration; two names for one value do not occur *)
Definition member_of (q : string) (int : bool) (b : string * value) : string * value :=
  let (x, v) := b in
  (x, match v with
      | VTuple [w] => if int then VEnum q x w else VEnum q x v
      | VFun _ => v
      | _ => VEnum q x v
      end).
Fixpoint distinct_values (l : list (string * value)) : bool :=
  match l with
  | [] => true
  | (_, VEnum _ _ v) :: l' =>
      negb (existsb (fun b => match b with (_, VEnum _ _ w) => key_eqb v w | _ => false end) l') && distinct_values l'
  | _ :: l' => distinct_values l'
  end.

Definition add_class (W : world) (q : string) (ci : cinfo) : world :=
  mkWorld (w_code W) (w_ns W) (vapp (w_cls W) [(q, ci)]) (w_def W).
Definition add_defaults (W : world) (q : string) (d : list (string * value)) : world :=
  mkWorld (w_code W) (w_ns W) (w_cls W) (match d with [] => w_def W | _ => vapp (w_def W) [(q, d)] end).
Definition add_module (W : world) (m : string) (ns : namespace) : world :=
  mkWorld (w_code W) (vapp (w_ns W) [(m, ns)]) (w_cls W) (w_def W).

Definition dotted (a b : string) : string := (a ++ "." ++ b)%string.

(** one statement in the scope [ns]; [outer] is the scope around it *)
Fixpoint load_top (m : string) (t : top) (prefix : string) (outer ns : namespace) (W : world) {struct t} : option (namespace * world) :=
  match t with
  | TImport x => Some (update x (VMod x) ns, W)
  | TFrom m' xs =>
      match all_some (map (fun x => match assoc m' (w_ns W) with
                                    | Some l => option_map (pair x) (assoc x l)
                                    | None => option_map (pair x) (stdlib_name m' x)
                                    end) xs) with
      | Some l => Some (fold_left (fun ns b => update (fst b) (snd b) ns) l ns, W)
      | None => None
      end
  | TAssign x e => match eval_top W m (vapp ns outer) e with Some v => Some (update x v ns, W) | None => None end
  | TFun f =>
      let q := dotted prefix f in
      match assoc q (w_code W) with
      | Some fd =>
          match all_some (map (fun d => option_map (pair (fst d)) (eval_top W m (vapp ns outer) (snd d))) (fd_defaults fd)) with
          | Some d => Some (update f (VFun q) ns, add_defaults W q d)
          | None => None
          end
      | None => None
      end
  | TClass name bases body =>
      let q := dotted prefix name in
          match all_some (map (fun e => match e with
                                        | EName x => if String.eqb x "Exception" then Some "Exception"%string
                                                     else match eval_top W m (vapp ns outer) e with
                                                          | Some v => class_value v
                                                          | None => None
                                                          end
                                        | _ => None
                                        end) bases) with
          | None => None
          | Some bs =>
              match (fix go (l : list top) (cns : namespace) (W : world) {struct l} :=
                       match l with
                       | [] => Some (cns, W)
                       | t' :: l' => match load_top m t' q (vapp ns outer) cns W with
                                     | Some (cns', W') => go l' cns' W'
                                     | None => None
                                     end
                       end) body [] W with
              | None => None
              | Some (cns, W') =>
                  match c3_merge 10 (vapp (map (mro_of W') bs) [bs]) with
                  | None => None
                  | Some mro =>
                      let attrs := if smem "Enum" mro then map (member_of q (smem "IntEnum" mro)) cns else cns in
                      if distinct_values attrs
                      then Some (update name (VClass q) ns, add_class W' q (mkClass name (q :: mro) attrs))
                      else None
                  end
              end
          end
  end.
Fixpoint load_body (m : string) (l : list top) (ns : namespace) (W : world) : option (namespace * world) :=
  match l with
  | [] => Some (ns, W)
  | t :: l' => match load_top m t m [] ns W with Some (ns', W') => load_body m l' ns' W' | None => None end
  end.
Fixpoint load (ms : list (string * list top)) (W : world) : option world :=
  match ms with
  | [] => Some W
  | (m, l) :: ms' =>
      match load_body m l [] W with
      | Some (ns, W') => load ms' (add_module W' m ns)
      | None => None
      end
  end.
Definition empty_world (codes : list (string * fundef)) : world := mkWorld codes [] builtin_classes [].
