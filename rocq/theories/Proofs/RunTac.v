(** Tactics that run the machine on the program [W] with unknown arguments. *)
From Coq Require Import String Lia.
From Verif.Model Require Import Py PyFloat Re Sre PyFormat Syntax Machine.
From Verif.Source Require Import World.
From Verif.Spec Require Export SpecSource.
From Verif.Proofs Require Export Run.

Ltac mach_red := lazy beta iota zeta delta [
  run halts step step_k eval_step exec_step value_step apply_op start_op do_call do_method call_builtin call_method get_attr
  lookup_name set_local push_local get_self assign assign1 unpack_strs unpack_vals target_names stmt_names body_names declare
  bind_pos bind_names extra_kws bind_args iter_of next_item take_opt zip_kws call_operands
  v_eq v_compare v_binop v_index no_number no_bound bound no_parts v_slice text_method of_res v_str v_format joined const_value slit ascii_n bit_n truth as_int
  vrev vapp vmap vlen vsplit vflat vexists assoc update smem o2l is_some class_of_name mro_find mro_of after is_subclass is_enum
  members enum_members flatten_pairs is_super is_super_init plain_try is_key vall keys_ok pairs_ok make_dict pairs_dict exn_is exn_of_name fun_kind option_map
  stuck value_to raise_to builtins
  String.eqb Ascii.eqb Bool.eqb W W_code W_ns W_cls W_def w_code w_ns w_cls w_def
  fd_mod fd_cls fd_kind fd_params fd_defaults fd_star fd_kwonly fd_kwstar fd_body ci_name ci_mro ci_attrs en_mod en_cls en_loc
  fst snd negb andb orb].

(** run on to the next call, lookup, loop or end *)
Ltac go := eapply (reach_run W 1000); [mach_red; reflexivity|].
(** a step, then [go] *)
Ltac enter := apply reach_step; go.

Notation out := result.
(** the program function [q] gives [r] *)
Notation gives q args r := (forall k, reach W (StCall (VFun q%string) args [] false k) (StDone r k)).

(** use what is known of a call, then go on *)
Ltac use H := eapply reach_trans; [apply H|].
Ltac call H := eapply reach_trans; [apply H|enter].
Tactic Notation "callr" constr(H) "as" simple_intropattern(p) ident(E) := eapply reach_trans; [apply H|
  match goal with |- reach _ (StDone (out _ ?r) _) _ => destruct r as p eqn:E; cbn [result] end; enter].
Ltac done := apply reach_refl.

(** a list comprehension with one loop over texts and no condition *)
Definition ret_to {A} (f : A -> value) (r : res A) (k : list frame) : state :=
  match r with Ok x => StVal (f x) k | Raise e => StExn (XExn e) k end.
Lemma comp_strs {A} (W : world) x e en (f : str -> res A) (g : A -> value) :
  (forall s a k, reach W (StEval e (push_local x (VStr s) en) (FCompElt a :: k)) (ret_to g (f s) (FCompElt a :: k))) ->
  forall l acc k, reach W (StCompItems (ItStrs l) (TName x) [] [] e en acc (FCompEnd false :: k))
    (ret_to (fun r => VList (rev acc ++ map g r)) (map_res f l) k).
Proof.
  intros H. induction l as [|s l IH]; intros acc k.
  - apply reach_step, reach_step. cbn. replace (vrev acc []) with (rev acc ++ []); [apply reach_refl|].
    enough (G : forall m, vrev acc m = rev acc ++ m) by (symmetry; apply G). induction acc as [|a acc IH]; intros m; [reflexivity|].
    cbn [vrev rev]. rewrite IH, <- app_assoc. reflexivity.
  - do 2 apply reach_step. cbn [step step_k next_item assign assign1 map_res]. eapply reach_trans; [apply H|].
    destruct (f s) as [v|e']; cbn [ret_to bind].
    + do 2 apply reach_step. cbn [step step_k value_step]. eapply reach_trans; [apply IH|].
      destruct (map_res f l) as [r|e']; cbn [ret_to bind]; [|apply reach_refl]. cbn [rev map]. rewrite <- app_assoc. apply reach_refl.
    + do 3 apply reach_step. apply reach_refl.
Qed.
Lemma concat_map_res_map {A} (f : A -> res str) l : concat_map_res f l = let* r := map_res f l in Ok (concat r).
Proof.
  induction l as [|x l IH]; [reflexivity|]. cbn [concat_map_res map_res]. destruct (f x); [|reflexivity]. cbn [bind]. rewrite IH.
  destruct (map_res f l); reflexivity.
Qed.
Lemma map_res_map {A B C} (g : A -> B) (f : B -> res C) l : map_res f (map g l) = map_res (fun x => f (g x)) l.
Proof. induction l as [|x l IH]; [reflexivity|]. cbn [map map_res]. rewrite IH. reflexivity. Qed.
(** one more item of a loop that adds texts *)
Lemma acc_ok {A B} (f : A -> res str) g l acc r (K : str -> res B) : f g = Ok r ->
  (let* r' := concat_map_res f (g :: l) in K (acc ++ r')) = (let* r' := concat_map_res f l in K ((acc ++ r) ++ r')).
Proof. intros E. cbn [concat_map_res]. rewrite E. cbn [bind]. destruct (concat_map_res f l); cbn [bind]; [rewrite app_assoc|]; reflexivity. Qed.
Lemma acc_nil {A B} (f : A -> res str) g l acc (K : str -> res B) : f g = Ok [] ->
  (let* r' := concat_map_res f (g :: l) in K (acc ++ r')) = (let* r' := concat_map_res f l in K (acc ++ r')).
Proof. intros E. rewrite (acc_ok f g l acc [] K E). rewrite app_nil_r. reflexivity. Qed.
Lemma acc_raise {A B} (f : A -> res str) g l acc e (K : str -> res B) : f g = Raise e ->
  (let* r' := concat_map_res f (g :: l) in K (acc ++ r')) = Raise e.
Proof. intros E. cbn [concat_map_res]. rewrite E. reflexivity. Qed.
