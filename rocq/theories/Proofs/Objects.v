(** Histories of actions on one object *)
From Coq Require Import String Lia.
From Verif.Model Require Import Py Re Regexes Common Base.
From Verif.Model Require Import Adi Cpi Gdti Giai Gid Grai Gsrn Gsrnp Itip Lgtin Sgcn Sgln Sgtin Sscc Usdod Others Parsers Calls Objects.
From Verif.Spec Require Import Spec SpecObjects.
From Verif.Proofs Require Import Basics CtorAll.

Lemma set_class e s : class_of (set_epc_uri e s) = class_of e. Proof. destruct e; reflexivity. Qed.
Lemma set_uri e s : epc_uri (set_epc_uri e s) = s. Proof. destruct e; reflexivity. Qed.
Lemma set_set e s t : set_epc_uri (set_epc_uri e s) t = set_epc_uri e t. Proof. destruct e; reflexivity. Qed.
Lemma set_same e : set_epc_uri e (epc_uri e) = e. Proof. destruct e as [x|x|x|x|x|x|x|x|x|x|x|x|x|x|x|x|x|x|x|x|x]; destruct x; reflexivity. Qed.
Lemma set_request e s m n : match request e m n, request (set_epc_uri e s) m n with
  | Some q, Some q' => req_tag_uri q' = req_tag_uri q /\ req_binary q' = req_binary q
  | None, None => True
  | _, _ => False
  end.
Proof. destruct e, m; cbn [request set_epc_uri]; auto. Qed.
Lemma set_tag_uri e s args k : call_tag_uri (set_epc_uri e s) args k = call_tag_uri e args k.
Proof.
  unfold call_tag_uri. rewrite set_class. destruct (bind_call _ _ _) as [l|]; [|reflexivity]. cbn [bind]. unfold tag_uri_members.
  pose proof (set_request e s (bound P_scheme l) 0) as R. destruct (request e _ 0), (request (set_epc_uri e s) _ 0); try contradiction.
  - destruct R as [-> _]. destruct e; reflexivity.
  - destruct e; reflexivity.
Qed.
Lemma set_binary e s args k : call_binary (set_epc_uri e s) args k = call_binary e args k.
Proof.
  unfold call_binary. rewrite set_class. destruct (bind_call _ _ _) as [l|]; [|reflexivity]. cbn [bind]. unfold binary_members.
  set (n := match bound P_filter l with M_filter n => n | _ => 0 end). pose proof (set_request e s (bound P_scheme l) n) as R.
  destruct (request e _ n), (request (set_epc_uri e s) _ n); try contradiction; [|reflexivity].
  destruct R as [_ ->]. destruct e; reflexivity.
Qed.

Lemma tag_uri_self o args k : o_self (fst (perform o (Tag_uri args k))) = o_self o.
Proof. cbn [perform fst]. destruct (call_tag_uri (o_self o) args k); destruct (o_self o) eqn:Q; cbn [o_self]; now rewrite ?Q. Qed.
(** only the URI and the caches can differ from the object at the start *)
Lemma after_self o h : exists s, o_self (after o h) = set_epc_uri (o_self o) s /\ s = current_uri (epc_uri (o_self o)) h.
Proof.
  unfold after. revert o. induction h as [|a h IH]; intros o; cbn [fold_left current_uri].
  - exists (epc_uri (o_self o)). split; [symmetry; apply set_same|reflexivity].
  - destruct (IH (fst (perform o a))) as (s & E & S). exists s. split.
    + rewrite E. destruct a; try reflexivity.
      * now rewrite tag_uri_self.
      * cbn [perform fst o_self]. apply set_set.
    + rewrite S. destruct a; try reflexivity.
      * now rewrite tag_uri_self.
      * cbn [perform fst o_self]. now rewrite set_uri.
Qed.
Theorem history_methods o h a : looks_at_uri a = false -> snd (perform (after o h) a) = snd (perform o a).
Proof.
  intros L. destruct (after_self o h) as (s & E & _).
  destruct a; cbn [perform snd] in *; try discriminate L; try reflexivity; rewrite E; f_equal.
  - apply set_tag_uri.
  - apply set_binary.
  - unfold call_hex. now rewrite set_binary.
  - unfold call_base64, call_hex. now rewrite set_binary.
  - destruct (o_self o); reflexivity.
  - destruct (o_self o); reflexivity.
Qed.
Theorem history_uri o h : snd (perform (after o h) Get_epc_uri) = Text (Ok (current_uri (epc_uri (o_self o)) h)) /\
  forall e, snd (perform (after o h) (Equals e)) = Truth true <-> current_uri (epc_uri (o_self o)) h = epc_uri e.
Proof.
  destruct (after_self o h) as (s & E & <-). cbn [perform snd]. rewrite E, set_uri. split; [reflexivity|]. intros e. unfold epc_eqb. rewrite set_uri.
  split; [intros H; injection H as H; now apply str_eqb_eq|]. intros ->. f_equal. now apply str_eqb_eq.
Qed.
(** an object whose URI was assigned to can equal another and have another key *)
Lemma equal_but_different : exists u u' x y h, init_of C_SSCC u = Ok x /\ init_of C_SSCC u' = Ok y /\
  snd (perform (after (new_object x) h) (Equals y)) = Truth true /\
  snd (perform (after (new_object x) h) (Gs1_key None)) <> snd (perform (new_object y) (Gs1_key None)).
Proof.
  exists (lit "urn:epc:id:sscc:0614141.1234567890"), (lit "urn:epc:id:sscc:0614141.1234567891"). eexists _, _, [Set_epc_uri (lit "urn:epc:id:sscc:0614141.1234567891")].
  split; [vm_compute; reflexivity|]. split; [vm_compute; reflexivity|]. split; [vm_compute; reflexivity|]. vm_compute. discriminate.
Qed.
