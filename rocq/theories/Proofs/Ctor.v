(** What the constructors do on a URI of the right shape. *)
From Coq Require Import String Lia Setoid.
From Verif.Model Require Import Py Re Regexes Common Base.
From Verif.Model Require Import Adi Cpi Gdti Giai Gid Grai Gsrn Gsrnp Itip Lgtin Sgcn Sgln Sgtin Sscc Usdod Others.
From Verif.Spec Require Import Spec SpecEscapes SpecGrammar.
From Verif.Proofs Require Import Basics Num ReLemmas Uni Escapes Checksum Codecs Codecs2 CodecSpec Verify Grammar.

(** * Taking a URI apart *)

Lemma split_pre c a b : ~ In c a -> split c (a ++ b) = (a ++ hd [] (split c b)) :: tl (split c b).
Proof.
  induction a as [|x a IH]; cbn [app split]; intros H.
  - pose proof (split_nonempty c b). destruct (split c b); [congruence|reflexivity].
  - destruct (N.eqb_spec x c) as [->|_]; [exfalso; apply H; left; reflexivity|].
    rewrite IH by (intros X; apply H; right; exact X). reflexivity.
Qed.

(** a prefix of four colon-separated fields *)
Definition upref (p : str) : Prop :=
  exists l, length l = 4%nat /\ forall body, split c_colon (p ++ body) = l ++ split c_colon body.
Ltac upref_tac := eexists [_; _; _; _]; split; [reflexivity|reflexivity].
Lemma up_sgtin : upref (lit "urn:epc:id:sgtin:"). Proof. upref_tac. Qed.
Lemma up_lgtin : upref (lit "urn:epc:class:lgtin:"). Proof. upref_tac. Qed.
Lemma up_sscc : upref (lit "urn:epc:id:sscc:"). Proof. upref_tac. Qed.
Lemma up_sgln : upref (lit "urn:epc:id:sgln:"). Proof. upref_tac. Qed.
Lemma up_grai : upref (lit "urn:epc:id:grai:"). Proof. upref_tac. Qed.
Lemma up_gdti : upref (lit "urn:epc:id:gdti:"). Proof. upref_tac. Qed.
Lemma up_giai : upref (lit "urn:epc:id:giai:"). Proof. upref_tac. Qed.
Lemma up_gsrn : upref (lit "urn:epc:id:gsrn:"). Proof. upref_tac. Qed.
Lemma up_gsrnp : upref (lit "urn:epc:id:gsrnp:"). Proof. upref_tac. Qed.
Lemma up_cpi : upref (lit "urn:epc:id:cpi:"). Proof. upref_tac. Qed.
Lemma up_sgcn : upref (lit "urn:epc:id:sgcn:"). Proof. upref_tac. Qed.
Lemma up_ginc : upref (lit "urn:epc:id:ginc:"). Proof. upref_tac. Qed.
Lemma up_gsin : upref (lit "urn:epc:id:gsin:"). Proof. upref_tac. Qed.
Lemma up_itip : upref (lit "urn:epc:id:itip:"). Proof. upref_tac. Qed.
Lemma up_upui : upref (lit "urn:epc:id:upui:"). Proof. upref_tac. Qed.
Lemma up_pgln : upref (lit "urn:epc:id:pgln:"). Proof. upref_tac. Qed.
Lemma up_gid : upref (lit "urn:epc:id:gid:"). Proof. upref_tac. Qed.
Lemma up_usdod : upref (lit "urn:epc:id:usdod:"). Proof. upref_tac. Qed.
Lemma up_adi : upref (lit "urn:epc:id:adi:"). Proof. upref_tac. Qed.
Lemma up_bic : upref (lit "urn:epc:id:bic:"). Proof. upref_tac. Qed.
Lemma up_imovn : upref (lit "urn:epc:id:imovn:"). Proof. upref_tac. Qed.

Lemma tail4_upref p body : upref p -> tail4 (p ++ body) = body.
Proof.
  intros (l & L & H). unfold tail4. rewrite H, (skipn_exact l _ 4 L). apply join_split.
Qed.
Lemma field4_upref p body : upref p -> field4 (p ++ body) = Ok (hd [] (split c_colon body)).
Proof.
  intros (l & L & H). unfold field4, idx. rewrite H, nth_error_app2 by lia. rewrite L. cbn [Nat.sub].
  pose proof (split_nonempty c_colon body). destruct (split c_colon body); [congruence|reflexivity].
Qed.
Lemma last_upref p body : upref p -> ~ In c_colon body -> idx_last (split c_colon (p ++ body)) = Ok body.
Proof.
  intros (l & L & H) N. unfold idx_last. rewrite H, (split_nosep _ _ N), rev_app_distr. reflexivity.
Qed.

Lemma hd_split2 cp r : ~ In c_colon cp ->
  hd [] (split c_colon (cp ++ [c_dot] ++ r)) = cp ++ [c_dot] ++ hd [] (split c_colon r).
Proof.
  intros H. rewrite app_assoc, split_pre.
  - cbn [hd]. rewrite <- app_assoc. reflexivity.
  - intros X. apply in_app_iff in X as [X|[X|[]]]; [exact (H X)|discriminate].
Qed.
Lemma hd_split_nosep c s : ~ In c s -> hd [] (split c s) = s.
Proof. intros H. rewrite split_nosep by exact H. reflexivity. Qed.

(** * Regular expressions of the URIs *)

Lemma lang3 p a b c u : lang (RSeq (rlit p) (rseq [a; dot; b; dot; c])) u <->
  exists x y z, u = lit p ++ x ++ [c_dot] ++ y ++ [c_dot] ++ z /\ lang a x /\ lang b y /\ lang c z.
Proof.
  rewrite lang_lit_seq. split.
  - intros (s' & -> & H). apply lang_dot3 in H as (x & y & z & -> & H). exists x, y, z. auto.
  - intros (x & y & z & -> & H). eexists. split; [reflexivity|]. apply lang_dot3. exists x, y, z. auto.
Qed.
Lemma lang2 p a b u : lang (RSeq (rlit p) (rseq [a; dot; b])) u <->
  exists x y, u = lit p ++ x ++ [c_dot] ++ y /\ lang a x /\ lang b y.
Proof.
  rewrite lang_lit_seq. split.
  - intros (s' & -> & H). apply lang_dot2 in H as (x & y & -> & H). exists x, y. auto.
  - intros (x & y & -> & H). eexists. split; [reflexivity|]. apply lang_dot2. exists x, y. auto.
Qed.

(** * Check digits *)

Definition complete (s : str) : str := s ++ [48 + check_digit_of (digit_values s)].
Lemma completed_iff s k : completed s k <-> k = complete s.
Proof.
  pose proof (check_digit_lt (digit_values s)) as L. split.
  - intros (d & D & -> & M). apply (law_iff _ _ D) in M. subst d. reflexivity.
  - intros ->. eexists. split; [exact L|]. split; [reflexivity|]. apply law_iff; auto.
Qed.
Lemma checksum_dec s : forallb is_d s = true ->
  exists z, calculate_checksum s = Ok z /\ dec z = [48 + check_digit_of (digit_values s)].
Proof.
  intros H. rewrite (checksum_ok s H). eexists. split; [reflexivity|]. apply dec_digit, check_digit_lt.
Qed.
Lemma gsin_checksum_dec s : forallb is_d s = true -> Nat.even (length s) = true ->
  exists z, gsin_calculate_checksum s = Ok z /\ dec z = [48 + check_digit_of (digit_values s)].
Proof. intros H E. rewrite (gsin_checksum_ok s H E). apply checksum_dec, H. Qed.

Lemma complete_length s : length (complete s) = S (length s).
Proof. unfold complete. rewrite app_length. cbn [length]. lia. Qed.

Lemma zfill_full c s : is_d c = true -> length (c :: s) = 14%nat -> zfill 14 (c :: s) = c :: s.
Proof.
  intros D L. unfold zfill. destruct ((c =? 43) || (c =? 45)) eqn:E.
  - apply orb_true_iff in E as [E|E]; apply N.eqb_eq in E; subst c; discriminate.
  - apply padl_ge. lia.
Qed.

(** * Evaluation *)

Definition cond {A} (b : bool) (k : res A) : res A := if b then Raise ConvertException else k.
Lemma raise_if_cond {A} b (k : unit -> res A) : bind (raise_if b ConvertException) k = cond b (k tt).
Proof. destruct b; reflexivity. Qed.
Lemma cond_ok {A} b (k : res A) x : cond b k = Ok x <-> b = false /\ k = Ok x.
Proof. destruct b; cbn; split; [discriminate|intros [? _]; discriminate|auto|tauto]. Qed.
Lemma cond_raise {A} b (k : res A) e : cond b k = Raise e <-> (b = true /\ e = ConvertException) \/ (b = false /\ k = Raise e).
Proof. destruct b; cbn; split; [intros [= <-]; auto|intros [[_ ->]|[? _]]; [reflexivity|discriminate]|auto|intros [[? _]|[_ H]]; [discriminate|exact H]]. Qed.

Lemma nodot_digits s : forallb is_d s = true -> ~ In c_dot s. Proof. apply digits_no_dot. Qed.
Lemma nocolon_digits s : forallb is_d s = true -> ~ In c_colon s. Proof. apply digits_no_colon. Qed.

Lemma skip2_join a b s : ~ In c_dot a -> ~ In c_dot b ->
  join [c_dot] (skipn 2 (split c_dot (a ++ [c_dot] ++ b ++ [c_dot] ++ s))) = s.
Proof. intros A B. rewrite !split_app1 by assumption. cbn [skipn]. apply join_split. Qed.

Lemma cpl_iff cp : cp_len_ok cp = true <-> (6 <= length cp <= 12)%nat.
Proof. unfold cp_len_ok. rewrite andb_true_iff, !Nat.leb_le. tauto. Qed.

