(** Reading a tag, as runs of the source. *)
From Coq Require Import String Lia.
From Verif.Model Require Import Py PyFormat Syntax Machine Common Base.
From Verif.Model Require Import Parsers.
From Verif.Source Require Import Program World.
From Verif.Spec Require Import Spec SpecSchemes SpecLayout SpecCoding SpecReading SpecParsers SpecRuns.
From Verif.Proofs Require Import Run SrcUse Runs Basics CtorAll PureParsers RunsAll TagReading TagReading2.
From Verif.Proofs Require SrcKeys Uni.
Open Scope N_scope.
Open Scope list_scope.

Lemma binary_runs b : calls W (VFun "parsers.binary_to_tag_encodable") [VStr b] [] (result obj_of (binary_to_tag_encodable b)).
Proof. apply (proj1 (proj2 SrcKeys.tags)), one. Qed.
Lemma pure_any c s : epc_pure_identity_to_scheme (scheme_prefix c ++ s) = init_of c (scheme_prefix c ++ s).
Proof.
  unfold epc_pure_identity_to_scheme. destruct (prefix_split c s) as (x & y & P). rewrite P. cbn [idx nth_error of_option]. rewrite bind_Ok, assoc_identifier. reflexivity.
Qed.
Theorem run_same k b u r : whole_tag k b -> tag_text k b u ->
  (calls W (VFun "parsers.binary_to_tag_encodable") [VStr b] [] r <-> calls W (VFun "parsers.epc_pure_identity_to_scheme") [VStr u] [] r).
Proof.
  intros (B & H & n & Sz & L) T. pose proof (proj1 (reading k n b B H Sz L) u T) as E. destruct T as (s & _ & ->). rewrite <- pure_any in E.
  pose proof (binary_runs b) as X. pose proof (scheme_runs (scheme_prefix (tag_class k) ++ s)) as Y. rewrite E in X.
  split; intros Z; [pose proof (calls_once _ _ _ _ _ Z X)|pose proof (calls_once _ _ _ _ _ Z Y)]; subst r; assumption.
Qed.
Theorem run_refuses k b : whole_tag k b -> (forall u, ~ tag_text k b u) ->
  calls W (VFun "parsers.binary_to_tag_encodable") [VStr b] [] (Raised (XExn ConvertException)).
Proof. intros (B & H & n & Sz & L) N. pose proof (binary_runs b) as X. rewrite (proj2 (reading k n b B H Sz L) N) in X. exact X. Qed.
Theorem run_reads k b u : whole_tag k b -> tag_text k b u -> readable_tag k b ->
  exists v, parses "binary_to_tag_encodable" b v /\ attribute v "epc_uri" (VStr u) /\ parses "epc_pure_identity_to_scheme" u v.
Proof.
  intros T U R. pose proof T as (B & H & n & Sz & L). destruct (readable_tags k n b u B H Sz L U R) as (e & E & EU & _).
  pose proof (binary_runs b) as X. rewrite E in X. exists (obj_of e). split; [exact X|]. split.
  - destruct (SrcKeys.obj_shape e) as (c & l & ->). rewrite <- EU. exists c. eexists. split; reflexivity.
  - apply (run_same k b u _ T U). exact X.
Qed.
Theorem run_only k b v : whole_tag k b -> parses "binary_to_tag_encodable" b v ->
  exists u, tag_text k b u /\ readable_tag k b /\ attribute v "epc_uri" (VStr u) /\ parses "epc_pure_identity_to_scheme" u v.
Proof.
  intros T P. pose proof T as (B & H & n & Sz & L). pose proof (calls_once _ _ _ _ _ P (binary_runs b)) as E. symmetry in E. apply result_returned in E as (e & E & ->).
  destruct (accepted_tags k n b B H Sz L e E) as (U & _ & R). exists (epc_uri e). split; [exact U|]. split; [exact R|]. split.
  - destruct (SrcKeys.obj_shape e) as (c & l & ->). exists c. eexists. split; reflexivity.
  - apply (run_same k b _ _ T U). exact P.
Qed.
Theorem text_once k b u u' : whole_tag k b -> tag_text k b u -> tag_text k b u' -> u = u'.
Proof. intros (B & H & n & Sz & L). exact (one_text k n b u u' B H Sz L). Qed.

(** zero characters inside the text *)
Lemma gap_tag : exists v,
  whole_tag K_SGTIN_198 (lit "001101100111010000100101011110111111011100011001010011100111000010000000110001000000000000000000000000000000000000000000000000000000000000000000000000000000000000000000000000000000000000000000000000") /\
  whole_tag K_SGTIN_198 (lit "001101100111010000100101011110111111011100011001010011100111000011100010000000000000000000000000000000000000000000000000000000000000000000000000000000000000000000000000000000000000000000000000000000") /\
  codes_at (lit "001101100111010000100101011110111111011100011001010011100111000010000000110001000000000000000000000000000000000000000000000000000000000000000000000000000000000000000000000000000000000000000000000000") 58 7 3 = [97; 0; 98] /\
  codes_at (lit "001101100111010000100101011110111111011100011001010011100111000011100010000000000000000000000000000000000000000000000000000000000000000000000000000000000000000000000000000000000000000000000000000000") 58 7 3 = [97; 98; 0] /\
  parses "binary_to_tag_encodable" (lit "001101100111010000100101011110111111011100011001010011100111000010000000110001000000000000000000000000000000000000000000000000000000000000000000000000000000000000000000000000000000000000000000000000") v /\
  parses "binary_to_tag_encodable" (lit "001101100111010000100101011110111111011100011001010011100111000011100010000000000000000000000000000000000000000000000000000000000000000000000000000000000000000000000000000000000000000000000000000000") v /\
  attribute v "epc_uri" (VStr (lit "urn:epc:id:sgtin:0614141.812345.ab")).
Proof.
  eexists. repeat (split; [split; [apply Uni.bitstring_iff; vm_compute; reflexivity|split; [reflexivity|exists 198%nat; split; [reflexivity|apply Nat.leb_le; reflexivity]]]|]).
  split; [vm_compute; reflexivity|]. split; [vm_compute; reflexivity|].
  split; [exists (300 * 100)%nat; vm_compute; reflexivity|]. split; [exists (300 * 100)%nat; vm_compute; reflexivity|]. eexists _, _. split; reflexivity.
Qed.
