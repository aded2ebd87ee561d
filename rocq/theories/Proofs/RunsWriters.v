(** The methods that write tags and keys with arguments of other types: runs of the source. *)
From Coq Require Import String Lia.
From Verif.Model Require Import Py PyFloat Re Sre PyFormat Syntax Machine Regexes Common Base.
From Verif.Model Require Import Adi Cpi Gdti Giai Gid Grai Gsrn Gsrnp Itip Lgtin Sgcn Sgln Sgtin Sscc Usdod Others Parsers Calls Registry Dynamic.
From Verif.Source Require Import World.
From Verif.Spec Require Import SpecSchemes SpecParsers SpecDynamic SpecStands SpecRunTypes.
From Verif.Proofs Require Import Basics Num SreTexts SreUse SrcUse SrcBase RunsTypes.
From Verif.Proofs Require RunsClasses.
Open Scope list_scope.

Ltac in_list H := cbn [In writers tag_names app] in H; repeat (destruct H as [<-|H]); [..|destruct H].
Lemma scheme_types e c s cf nf vf m kws : instance (obj_of e) c -> In c tag_names -> no_member s -> tag_words c s (VEnum cf nf vf) kws -> In m writers ->
  invokes W (obj_of e) m [] kws attribute_error.
Proof.
  intros (l & E) C N K M. destruct e; injection E as <- _; try (exfalso; clear - C; cbn [In tag_names app] in C; repeat (destruct C as [C|C]; [discriminate C|]); destruct C; fail); clear C;
    unfold tag_words in K; cbv [String.eqb Ascii.eqb Bool.eqb] in K; destruct s; try (destruct N; fail); clear N; try destruct K as [K|K]; subst kws; in_list M; one_ran.
Qed.
Lemma filter_types e c s f m kws : instance (obj_of e) c -> In c tag_names -> c <> "gid.GID"%string -> In s (enum_members W (c ++ ".BinaryCodingScheme")) -> no_member f ->
  tag_words c s f kws -> In m ["binary"; "hex"; "base64"]%string ->
  invokes W (obj_of e) m [] kws attribute_error.
Proof.
  intros (l & E) C G S N K M. destruct e; injection E as <- _; try (exfalso; clear - C; cbn [In tag_names app] in C; repeat (destruct C as [C|C]; [discriminate C|]); destruct C; fail); try (destruct (G eq_refl)); clear C G;
    unfold tag_words in K; cbv [String.eqb Ascii.eqb Bool.eqb] in K; vm_compute in S; repeat (lazymatch type of S with _ \/ _ => destruct S as [S|S]; [subst s|] end); try (destruct S; fail);
    destruct f; try (destruct N; fail); clear N; try destruct K as [K|K]; subst kws; in_list M; one_ran.
Qed.
(** members of GTIN_TYPE are numbers: what is none of the values that can be subtracted from 14 *)
Lemma key_type_types e c t m : instance (obj_of e) c -> In c ["sgtin.SGTIN"; "lgtin.LGTIN"]%string -> In m ["gs1_key"; "gtin"]%string ->
  (t = VNone \/ (exists s, t = VStr s) \/ exists b, t = VBytes b) -> invokes W (obj_of e) m [] [("gtin_type"%string, t)] type_error /\ invokes W (obj_of e) m [t] [] type_error.
Proof.
  intros (l & E) C M T. destruct e; injection E as <- _; try (exfalso; clear - C; cbn [In tag_names app] in C; repeat (destruct C as [C|C]; [discriminate C|]); destruct C; fail); clear C;
    destruct T as [->|[(s & ->)|(b & ->)]]; in_list M; split; one_ran.
Qed.
Lemma gtin_serial_types g s l : 
  (plain g -> ~ is_bytes g -> invokes W (VClass "sgtin.SGTIN") "from_gtin_plus_serial" [g; s; l] [] attribute_error) /\
  (SpecRuns.is_text g -> no_length l -> invokes W (VClass "sgtin.SGTIN") "from_gtin_plus_serial" [g; s; l] [] type_error).
Proof.
  split.
  - intros P N. kinds g P; try (destruct N; eexists; reflexivity); one_ran.
  - intros (u & ->) N. destruct l; try (destruct N; fail); try match type of N with no_length (VEnum _ _ ?v) => destruct v; try (destruct N; fail) end; one_ran.
Qed.

(** the same for the objects that the parsers return *)
Theorem schemes v c s f m kws : is_object v -> instance v c -> In c tag_names -> no_member s -> (exists cf nf vf, f = VEnum cf nf vf) ->
  tag_words c s f kws -> In m writers -> invokes W v m [] kws attribute_error.
Proof. intros O I C N (cf & nf & vf & ->) K M. destruct (RunsClasses.object_inv v O) as (e & _ & -> & _). exact (scheme_types e c s cf nf vf m kws I C N K M). Qed.
Theorem filters v c s f m kws : is_object v -> instance v c -> In c tag_names -> c <> "gid.GID"%string -> In s (enum_members W (c ++ ".BinaryCodingScheme")) -> no_member f ->
  tag_words c s f kws -> In m ["binary"; "hex"; "base64"]%string -> invokes W v m [] kws attribute_error.
Proof. intros O I C G S N K M. destruct (RunsClasses.object_inv v O) as (e & _ & -> & _). exact (filter_types e c s f m kws I C G S N K M). Qed.
Theorem key_types_of v c t m : is_object v -> instance v c -> In c ["sgtin.SGTIN"; "lgtin.LGTIN"]%string -> In m ["gs1_key"; "gtin"]%string ->
  (t = VNone \/ (exists s, t = VStr s) \/ exists b, t = VBytes b) -> invokes W v m [] [("gtin_type"%string, t)] type_error /\ invokes W v m [t] [] type_error.
Proof. intros O I. destruct (RunsClasses.object_inv v O) as (e & _ & -> & _). exact (key_type_types e c t m I). Qed.
