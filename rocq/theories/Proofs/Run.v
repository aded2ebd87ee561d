(** Running the machine on open terms: states reachable by steps, and a runner that stops where an argument is needed. *)
From Coq Require Import String Lia.
From Verif.Model Require Import Py PyFloat Re Sre PyFormat Syntax Machine.

Ltac split_matches :=
  repeat match goal with
         | |- context [match ?x with _ => _ end] => destruct x; try reflexivity
         end.

Section Natural.
Context {A B : Type} (g : A -> B).

Lemma v_eq_nat a b ret stuck : g (v_eq a b ret stuck) = v_eq a b (fun x => g (ret x)) (g stuck).
Proof. unfold v_eq. split_matches. Qed.
Lemma v_compare_nat o a b ret exc stuck :
  g (v_compare o a b ret exc stuck) = v_compare o a b (fun x => g (ret x)) (fun x => g (exc x)) (g stuck).
Proof. destruct o; cbn [v_compare]; try apply v_eq_nat; try (rewrite v_eq_nat; reflexivity);
  try (destruct (as_int a), (as_int b); reflexivity); destruct b; try reflexivity;
  [destruct (is_key a && vall is_key l); reflexivity|destruct (is_key a); reflexivity
  |destruct (is_key a && vall is_key l); reflexivity|destruct (is_key a); reflexivity]. Qed.
Lemma v_binop_nat o a b ret exc stuck :
  g (v_binop o a b ret exc stuck) = v_binop o a b (fun x => g (ret x)) (fun x => g (exc x)) (g stuck).
Proof. unfold v_binop. split_matches. Qed.
Lemma v_index_nat a i ret exc stuck : g (v_index a i ret exc stuck) = v_index a i (fun x => g (ret x)) (fun x => g (exc x)) (g stuck).
Proof. unfold v_index. split_matches. Qed.
Lemma v_slice_nat a lo hi st ret exc stuck :
  g (v_slice a lo hi st ret exc stuck) = v_slice a lo hi st (fun x => g (ret x)) (fun x => g (exc x)) (g stuck).
Proof. unfold v_slice. split_matches. Qed.
Lemma of_res_nat {C} (r : res C) ret exc : g (of_res r ret exc) = of_res r (fun x => g (ret x)) (fun x => g (exc x)).
Proof. destruct r; reflexivity. Qed.
Lemma v_str_nat v ret exc stuck : g (v_str v ret exc stuck) = v_str v (fun x => g (ret x)) (fun x => g (exc x)) (g stuck).
Proof. unfold v_str, of_res. split_matches. Qed.
Lemma v_format_nat v sp ret exc stuck :
  g (v_format v sp ret exc stuck) = v_format v sp (fun x => g (ret x)) (fun x => g (exc x)) (g stuck).
Proof. unfold v_format, v_str, of_res. split_matches. Qed.
Lemma joined_nat l : forall acc ret stuck, g (joined l acc ret stuck) = joined l acc (fun x => g (ret x)) (g stuck).
Proof. induction l as [|v l IH]; intros; cbn [joined]; [reflexivity|]. destruct v; try reflexivity. destruct l; [reflexivity|apply IH]. Qed.
Lemma get_attr_nat W v a ret exc stuck :
  g (get_attr W v a ret exc stuck) = get_attr W v a (fun x => g (ret x)) (fun x => g (exc x)) (g stuck).
Proof. unfold get_attr. split_matches. Qed.
Lemma call_builtin_nat W f args ret exc stuck :
  g (call_builtin W f args ret exc stuck) = call_builtin W f args (fun x => g (ret x)) (fun x => g (exc x)) (g stuck).
Proof. unfold call_builtin, v_str, of_res. split_matches. Qed.
Lemma call_method_nat v m args ret exc stuck :
  g (call_method v m args ret exc stuck) = call_method v m args (fun x => g (ret x)) (fun x => g (exc x)) (g stuck).
Proof. unfold call_method, of_res. split_matches. Qed.
Lemma lookup_name_nat W en x ret exc : g (lookup_name W en x ret exc) = lookup_name W en x (fun v => g (ret v)) (fun y => g (exc y)).
Proof. unfold lookup_name. split_matches. Qed.
Lemma assign1_nat l t v en ok stuck : g (assign1 l t v en ok stuck) = assign1 l t v en (fun x => g (ok x)) (g stuck).
Proof. unfold assign1. split_matches. Qed.
Lemma unpack_strs_nat l ts rest : forall ls en ok exc stuck,
  g (unpack_strs l ts rest ls en ok exc stuck) = unpack_strs l ts rest ls en (fun x => g (ok x)) (fun x => g (exc x)) (g stuck).
Proof.
  induction ts as [|t ts IH]; intros; cbn [unpack_strs]. { destruct rest; [apply assign1_nat|destruct ls; reflexivity]. }
  destruct ls; [reflexivity|]. unfold assign1. destruct t; auto. destruct (get_self en); auto.
Qed.
Lemma unpack_vals_nat l ts : forall ls en ok exc stuck,
  g (unpack_vals l ts ls en ok exc stuck) = unpack_vals l ts ls en (fun x => g (ok x)) (fun x => g (exc x)) (g stuck).
Proof.
  induction ts as [|t ts IH]; intros; cbn [unpack_vals]. { destruct ls; reflexivity. }
  destruct ls; [reflexivity|]. unfold assign1. destruct t; auto. destruct (get_self en); auto.
Qed.
Lemma assign_nat l t v en ok exc stuck :
  g (assign l t v en ok exc stuck) = assign l t v en (fun x => g (ok x)) (fun x => g (exc x)) (g stuck).
Proof.
  unfold assign. destruct t; try apply assign1_nat. destruct v; try reflexivity;
  try apply unpack_strs_nat; destruct rest; try reflexivity; apply unpack_vals_nat.
Qed.
Lemma iter_of_nat W v ret stuck : g (iter_of W v ret stuck) = iter_of W v (fun x => g (ret x)) (g stuck).
Proof. unfold iter_of. split_matches. Qed.
End Natural.

(** [step_k] with a continuation is the continuation after one step *)
Section StepNatural.
Context {A : Type} (W : world) (f : state -> A).
Notation I := (fun s : state => s).

Lemma do_call_nat g args kws k : do_call W f g args kws k = f (do_call W I g args kws k).
Proof.
  unfold do_call, stuck, value_to, raise_to. destruct g; try reflexivity.
  destruct (String.eqb x "map"); [|symmetry; apply (call_builtin_nat f)].
  destruct args as [|a [|b [|? ?]]]; try reflexivity. symmetry. apply (iter_of_nat f).
Qed.
Lemma do_method_nat v m args kws k : do_method W f v m args kws k = f (do_method W I v m args kws k).
Proof.
  unfold do_method, stuck, value_to, raise_to.
  destruct v; try (destruct kws; [symmetry; apply (call_method_nat f)|reflexivity]); split_matches.
Qed.
Lemma apply_op_nat o vs k : apply_op W f o vs k = f (apply_op W I o vs k).
Proof.
  unfold apply_op, stuck, value_to, raise_to. destruct o; try reflexivity.
  - destruct vs as [|v [|? ?]]; try reflexivity. symmetry. apply (get_attr_nat f).
  - destruct vs as [|v [|i [|? ?]]]; try reflexivity. destruct v; try reflexivity; symmetry; apply (v_index_nat f).
  - destruct vs as [|v r]; [reflexivity|]. destruct (take_opt lo r) as [x r1], (take_opt hi r1) as [y r2], (take_opt step r2) as [z r3].
    symmetry. apply (v_slice_nat f).
  - destruct vs as [|v [|i [|? ?]]]; try reflexivity. symmetry. apply (v_binop_nat f).
  - destruct vs as [|[] [|? ?]]; reflexivity.
  - destruct vs as [|v [|? ?]]; reflexivity.
  - destruct (keys_ok vs); reflexivity.
  - symmetry. apply (joined_nat f).
  - destruct vs as [|v r]; [reflexivity|]. symmetry. apply (v_format_nat f).
  - destruct vs as [|v r]; [reflexivity|]. destruct (call_operands n star kws kwstar r) as [[? ?]|]; [apply do_call_nat|reflexivity].
  - destruct vs as [|v r]; [reflexivity|]. destruct (call_operands n star kws kwstar r) as [[? ?]|]; [apply do_method_nat|reflexivity].
  - destruct vs as [|[] [|? [|? ?]]]; reflexivity.
Qed.
Lemma start_op_nat o l en k : start_op W f o l en k = f (start_op W I o l en k).
Proof. unfold start_op. destruct l; [apply apply_op_nat|reflexivity]. Qed.
Lemma eval_step_nat e en k : eval_step W f e en k = f (eval_step W I e en k).
Proof.
  unfold eval_step, stuck, value_to, raise_to. destruct e; try apply start_op_nat; try reflexivity.
  - symmetry. apply (lookup_name_nat f).
  - destruct l; reflexivity.
  - destruct l; reflexivity.
  - destruct (is_super e). { destruct args; [|apply start_op_nat]. destruct (en_cls en), (en_loc en) as [|[? [?|]] ?]; reflexivity. }
    destruct e; apply start_op_nat.
Qed.
Lemma exec_step_nat s ss en k : exec_step W f s ss en k = f (exec_step W I s ss en k).
Proof.
  unfold exec_step, stuck, value_to, raise_to. destruct s; try reflexivity.
  - destruct (is_super_init e); reflexivity.
  - symmetry. apply (lookup_name_nat f).
  - destruct e; reflexivity.
  - destruct e; try reflexivity.
    + rewrite (lookup_name_nat f). unfold lookup_name. split_matches.
    + destruct e; try reflexivity. rewrite (lookup_name_nat f). unfold lookup_name. split_matches.
  - destruct (plain_try body); reflexivity.
Qed.
Lemma value_step_nat v fr k : value_step W f v fr k = f (value_step W I v fr k).
Proof.
  unfold value_step, stuck, value_to, raise_to. destruct fr; try reflexivity.
  - destruct todo; [apply apply_op_nat|reflexivity].
  - destruct l; [|destruct (truth v)]; reflexivity.
  - destruct l; [|destruct (truth v)]; reflexivity.
  - destruct (truth v); reflexivity.
  - destruct l as [|[? ?] ?]; reflexivity.
  - rewrite (v_compare_nat f). destruct l as [|[o' e'] l']; [reflexivity|].
    unfold v_compare, v_eq. split_matches.
  - symmetry. apply (iter_of_nat f).
  - destruct (truth v); reflexivity.
  - symmetry. apply (assign_nat f).
  - symmetry. apply (v_binop_nat f).
  - destruct (truth v); reflexivity.
  - symmetry. apply (iter_of_nat f).
Qed.
Lemma step_k_nat st : step_k W f st = f (step W st).
Proof.
  unfold step. destruct st; cbn [step_k]; unfold stuck; try reflexivity.
  - apply eval_step_nat.
  - destruct ss; [|apply exec_step_nat]. destruct k as [|[] ?]; reflexivity.
  - destruct k; [reflexivity|apply value_step_nat].
  - destruct k as [|fr k]; [reflexivity|]. destruct fr; try reflexivity. destruct (exn_is exc x); reflexivity.
  - destruct k as [|[] ?]; reflexivity.
  - destruct k as [|[] ?]; reflexivity.
  - destruct k as [|[] ?]; reflexivity.
  - destruct f0; try reflexivity.
    + destruct (mro_find W (mro_of W c) "__init__") as [[]|]; reflexivity.
    + destruct (assoc q (w_code W)); [|reflexivity].
      destruct (bind_args f0 match assoc q (w_def W) with Some d => d | None => [] end args kws); reflexivity.
  - destruct d; try reflexivity. { destruct (is_key key); [destruct (dict_get l key)|]; reflexivity. }
    destruct key; try reflexivity. destruct (member_named s (enum_members W c)); reflexivity.
  - destruct it as [[|]|[|]]; try reflexivity; unfold next_item, raise_to; symmetry; apply (assign_nat f).
  - destruct gs as [|[[? ?] ?] ?]; reflexivity.
  - destruct it as [[|]|[|]]; try reflexivity; unfold next_item, raise_to; rewrite (assign_nat f); destruct conds; reflexivity.
  - destruct k as [|[] ?]; try reflexivity. destruct dict; [destruct (pairs_ok acc)|]; reflexivity.
  - destruct it as [[|]|[|]]; reflexivity.
  - destruct k; [reflexivity|]. destruct r; reflexivity.
Qed.
End StepNatural.

(** * Reachable states *)

Definition reach (W : world) (s t : state) : Prop := exists n, steps W n s = t.
Lemma steps_add W a b s : steps W (a + b) s = steps W b (steps W a s).
Proof. revert s. induction a as [|a IH]; intros s; [reflexivity|apply IH]. Qed.
Lemma reach_refl W s : reach W s s.
Proof. exists O. reflexivity. Qed.
Lemma reach_trans W s t u : reach W s t -> reach W t u -> reach W s u.
Proof. intros [a A] [b B]. exists (a + b)%nat. rewrite steps_add, A. exact B. Qed.
Lemma reach_step W s t : reach W (step W s) t -> reach W s t.
Proof. intros [n H]. exists (S n). exact H. Qed.

(** Where the runner stops: before a call, a lookup, a loop over texts, at the end of an item of a comprehension, and after a return. *)
Definition halts (s : state) : bool :=
  match s with
  | StCall _ _ _ _ _ | StGet _ _ _ | StFor (ItStrs _) _ _ _ _ _ | StCompItems (ItStrs _) _ _ _ _ _ _ _ | StMap _ _ (ItStrs _) _ | StDone _ _
  | StStuck | StVal _ (FCompElt _ :: _) | StExn _ (FCompElt _ :: _) => true
  | _ => false
  end.
Fixpoint run (W : world) (n : nat) (s : state) : state :=
  match n with O => s | S n' => if halts s then s else step_k W (run W n') s end.
Lemma reach_run_self W n : forall s, reach W s (run W n s).
Proof.
  induction n as [|n IH]; intros s; cbn [run]; [apply reach_refl|]. destruct (halts s); [apply reach_refl|].
  rewrite step_k_nat. apply reach_step. apply IH.
Qed.
Lemma reach_run W n s s' t : run W n s = s' -> reach W s' t -> reach W s t.
Proof. intros <- H. eapply reach_trans; [apply reach_run_self|exact H]. Qed.

(** a resting state is reached only once *)
Definition rests (s : state) : Prop := match s with StDone _ [] => True | _ => False end.
Lemma rests_steps W n s : rests s -> steps W n s = s.
Proof. intros H. destruct s; try contradiction. destruct k; [|contradiction]. induction n; [reflexivity|exact IHn]. Qed.
Lemma reach_unique W s t u : rests t -> rests u -> reach W s t -> reach W s u -> t = u.
Proof.
  intros Ht Hu [a A] [b B]. destruct (Nat.le_ge_cases a b) as [L|L].
  - replace b with (a + (b - a))%nat in B by lia. rewrite steps_add, A, rests_steps in B by exact Ht. exact B.
  - replace a with (b + (a - b))%nat in A by lia. rewrite steps_add, B, rests_steps in A by exact Hu. symmetry. exact A.
Qed.
