(** What the reader makes of the source text. *)
From Coq Require Import String List Bool.
From Verif.Model Require Import Syntax Reader Py Machine Loader.
From Verif.Source Require Import Program World T_epcpy Texts.
From Verif.Spec Require Import SpecText.
From Verif.Proofs Require Import SrcCommonAll.
Import ListNotations.

Lemma program_read : read_program texts = Some (modules, codes).
Proof. vm_compute. reflexivity. Qed.

Lemma read_program_in files ms fs : read_program files = Some (ms, fs) -> forall name text, In (name, text) files ->
  exists m gs, read_module name text = Some (m, gs) /\ In (name, m) ms /\ incl gs fs.
Proof.
  revert ms fs. induction files as [|[n t] l IH]; intros ms fs E name text H; [destruct H|].
  cbn [read_program] in E. destruct (read_module n t) as [[m gs]|] eqn:R; [|discriminate].
  destruct (read_program l) as [[ms' fs']|]; [|discriminate]. injection E as <- <-. destruct H as [H|H].
  - injection H as -> ->. exists m, gs. split; [exact R|]. split; [left; reflexivity|]. intros x Hx. apply in_or_app. left. exact Hx.
  - destruct (IH _ _ eq_refl _ _ H) as (m' & gs' & R' & I & S). exists m', gs'. split; [exact R'|]. split; [right; exact I|].
    intros x Hx. apply in_or_app. right. apply S. exact Hx.
Qed.
Lemma modules_read : forall name text, In (name, text) texts ->
  exists m fs, read_module name text = Some (m, fs) /\ In (name, m) modules /\ incl fs codes.
Proof. exact (read_program_in _ _ _ program_read). Qed.

Fixpoint distinct (l : list string) : bool := match l with [] => true | x :: l' => (negb (existsb (String.eqb x) l') && distinct l')%bool end.
Lemma distinct_NoDup l : distinct l = true -> NoDup l.
Proof.
  induction l as [|x l IH]; cbn [distinct]; intros H; [constructor|]. apply andb_true_iff in H. destruct H as [N D]. constructor; [|exact (IH D)].
  intros I. assert (E : existsb (String.eqb x) l = true) by (apply existsb_exists; exists x; split; [exact I|apply String.eqb_refl]).
  rewrite E in N. discriminate.
Qed.
Lemma names_once : NoDup (map fst codes) /\ NoDup (map fst modules).
Proof. split; apply distinct_NoDup; vm_compute; reflexivity. Qed.

Lemma text_loaded : exists ms fs W', read_program texts = Some (ms, fs) /\ load ms (empty_world fs) = Some W' /\
  w_code W' = w_code W /\ w_ns W' = w_ns W /\ w_cls W' = w_cls W /\ w_def W' = w_def W.
Proof. destruct loading as (W' & L & H). exists modules, codes, W'. split; [exact program_read|]. split; [exact L|exact H]. Qed.

Definition package : list top := Eval vm_compute in match read_module "epcpy" text_epcpy with Some (m, _) => m | None => [] end.
Lemma package_read : exists m W' ns, read_module "epcpy" text_epcpy = Some (m, []) /\ load [("epcpy"%string, m)] W = Some W' /\
  w_code W' = w_code W /\ w_cls W' = w_cls W /\ assoc "epcpy" (w_ns W') = Some ns /\ forall x, In x ns <-> In x public.
Proof.
  assert (R : read_module "epcpy" text_epcpy = Some (package, [])) by (vm_compute; reflexivity).
  assert (E : option_map (fun W' => (w_code W', w_cls W', assoc "epcpy" (w_ns W'))) (load [("epcpy"%string, package)] W) = Some (w_code W, w_cls W, Some public))
    by (vm_compute; reflexivity).
  destruct (load [("epcpy"%string, package)] W) as [W'|] eqn:L; [|discriminate E]. cbn [option_map] in E.
  exists package, W', public. split; [exact R|]. split; [exact L|].
  assert (E' : (w_code W', w_cls W', assoc "epcpy" (w_ns W')) = (w_code W, w_cls W, Some public)) by congruence.
  split; [exact (f_equal (fun x => fst (fst x)) E')|]. split; [exact (f_equal (fun x => snd (fst x)) E')|]. split; [exact (f_equal snd E')|].
  intros x. reflexivity.
Qed.
