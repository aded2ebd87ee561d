(** Arguments of other types than the declared ones: runs of the source. *)
From Coq Require Import String Lia.
From Verif.Model Require Import Py PyFormat Syntax Machine.
From Verif.Source Require Import Program World.
From Verif.Spec Require Import SpecRunTypes.
Open Scope list_scope.

(** the runs for all names of a list at once *)
Lemma all_run (f : string -> state) r names : map (fun c => steps W (20 * 100) (f c)) names = map (fun _ => StDone r []) names ->
  forall c, In c names -> exists n, steps W n (f c) = StDone r [].
Proof. intros E c H. exists (20 * 100)%nat. exact (ext_in_map E c H). Qed.
Ltac ran := vm_compute; reflexivity.
Ltac all_ran := match goal with |- forall c, In c ?l -> @?P c => cbv [calls invokes]; refine (all_run _ _ l _); ran end.
(** the plain values *)
Ltac kinds v P := destruct v; try (destruct P; fail); cbv [plain] in P; lazymatch type of P with In _ _ => repeat (destruct P as [<-|P]); [..|destruct P] | True => clear P | False => destruct P end.
Ltac one_ran := exists (20 * 100)%nat; ran.

Lemma init_types v : ~ is_text v ->
  (forall c, In c scheme_names -> calls W (VClass c) [v] [] type_error) /\
  (forall c, In c scheme_names -> calls W (VClass c) [] [("epc_uri"%string, v)] type_error) /\
  (forall c, In c scheme_names -> invokes W (VClass c) "from_epc_uri" [v] [] type_error) /\
  (forall c, In c scheme_names -> invokes W (VClass c) "from_epc_uri" [] [("epc_uri"%string, v)] type_error).
Proof.
  intros N. destruct v; try (destruct N; eexists; reflexivity); clear N; repeat split; all_ran.
Qed.
Lemma matched_types v : ~ is_text v ->
  (forall c, In c tag_names -> invokes W (VClass c) "from_tag_uri" [v] [] type_error) /\
  (forall flag c, In c tag_names -> invokes W (VClass c) "from_tag_uri" [v; flag] [] type_error) /\
  (forall l c, In c element_names -> invokes W (VClass c) "from_gs1_element_string" [v; l] [] type_error) /\
  (forall l, calls W (VFun "parsers.gs1_element_string_to_gs1_element") [v; l] [] type_error) /\
  calls W (VFun "parsers.get_gs1_key") [v] [] type_error /\
  (forall l, calls W (VFun "parsers.get_gs1_key") [v; l] [] type_error) /\
  (forall l t, calls W (VFun "parsers.get_gs1_key") [v; l] [("gtin_type"%string, t)] type_error).
Proof.
  intros N. destruct v; try (destruct N; eexists; reflexivity); clear N.
  all: repeat apply conj; [all_ran|intros ?; all_ran|intros ?; all_ran|intros ?; one_ran|one_ran|intros ?; one_ran|intros ? ?; one_ran].
Qed.
Lemma split_types v : plain v -> forall f, In f splitting ->
  calls W (VFun ("parsers." ++ f)) [v] [] (match v with VBytes _ => type_error | _ => attribute_error end).
Proof. intros P. kinds v P; all_ran. Qed.
Lemma binary_types v : plain v ->
  calls W (VFun "parsers.binary_to_tag_encodable") [v] [] (match v with VBytes _ => Raised (XExn ConvertException) | _ => type_error end).
Proof. intros P. kinds v P; one_ran. Qed.
Lemma from_binary_types v : plain v -> forall c, In c tag_names ->
  invokes W (VClass c) "from_binary" [v] [] (match v with VBytes _ => Raised (XExn KeyError) | _ => type_error end).
Proof. intros P. kinds v P; all_ran. Qed.
Lemma hex_types v : plain v -> ~ is_bytes v ->
  calls W (VFun "common.hex_to_binary") [v] [] type_error /\ calls W (VFun "parsers.hex_to_tag_encodable") [v] [] type_error /\
  (forall c, In c tag_names -> invokes W (VClass c) "from_hex" [v] [] type_error).
Proof.
  intros P N. kinds v P; try (destruct N; eexists; reflexivity).
  all: repeat apply conj; [one_ran|one_ran|all_ran].
Qed.
Lemma key_types v t : plain v ->
  calls W (VFun "parsers.epc_pure_identity_to_gs1_key") [v] [("gtin_type"%string, t)] (match v with VBytes _ => type_error | _ => attribute_error end).
Proof. intros P. kinds v P; one_ran. Qed.
