(** What is there after all modules have been imported. *)
From Coq Require Import String List.
Import ListNotations.
From Verif.Model Require Import Py Syntax Machine Loader.
From Verif.Source Require Import Program.

Definition after_load : world := Eval vm_compute in
  match load modules (empty_world codes) with Some W => mkWorld (w_code W) (w_ns W) (w_cls W) (w_def W) | None => mkWorld [] [] [] [] end.
(** the functions, by name, and the namespaces, classes and default values that loading the modules gives *)
Definition W_code : list (string * fundef) := Eval cbv [after_load w_code] in w_code after_load.
Definition W_ns : list (string * list (string * value)) := Eval cbv [after_load w_ns] in w_ns after_load.
Definition W_cls : list (string * cinfo) := Eval cbv [after_load w_cls] in w_cls after_load.
Definition W_def : list (string * list (string * value)) := Eval cbv [after_load w_def] in w_def after_load.
Definition W : world := mkWorld W_code W_ns W_cls W_def.
