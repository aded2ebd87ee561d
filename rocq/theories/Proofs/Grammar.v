(** The vocabulary of the grammar specification, related to the program's own notions. *)
From Coq Require Import String Ascii Lia Setoid.
From Verif.Model Require Import Py Re Regexes Common.
From Verif.Spec Require Import Spec SpecEscapes SpecGrammar.
From Verif.Proofs Require Import Basics Num ReLemmas Uni Escapes Checksum Codecs Codecs2 CodecSpec Verify.

Lemma lit_dot : lit "." = [c_dot]. Proof. reflexivity. Qed.

Lemma uri_plain_iff c : uri_plain c <-> gs3a3_plain c = true.
Proof.
  unfold uri_plain, gs3a3_plain, is_lower, is_upper, is_digit, inr.
  rewrite !orb_true_iff, !andb_true_iff, !N.leb_le, !N.eqb_eq. cbn [lit In map String.list_ascii_of_string Ascii.N_of_ascii].
  cbn. lia.
Qed.
Lemma hex_digit_iff c : hex_digit c <-> is_hex c = true.
Proof.
  unfold hex_digit, is_hex, is_digit, inr. rewrite !orb_true_iff, !andb_true_iff, !N.leb_le. lia.
Qed.

Lemma uri_text_iff s : uri_text s <-> gs3a3_shape s = true.
Proof.
  split.
  - induction 1 as [|c s Hc _ IH|h s Hh _ IH].
    + reflexivity.
    + apply uri_plain_iff in Hc. cbn [gs3a3_shape]. rewrite (plain_not_pct _ Hc), Hc, IH. reflexivity.
    + apply gs3a3_shape_app_pct; [apply hex_digit_iff, Hh|exact IH].
  - revert s. refine (str_ind2 _ _). intros s IH H. destruct s as [|c s]; [constructor|].
    cbn [gs3a3_shape] in H. destruct (c =? c_pct) eqn:E.
    + destruct s as [|h s]; [discriminate|]. apply andb_true_iff in H as [Hh Hs]. apply N.eqb_eq in E. subst c.
      apply uri_text_pct; [apply hex_digit_iff, Hh|]. apply IH; [cbn [length]; lia|exact Hs].
    + apply andb_true_iff in H as [Hc Hs]. apply uri_text_plain; [apply uri_plain_iff, Hc|].
      apply IH; [cbn [length]; lia|exact Hs].
Qed.

Lemma unescape_step c a b s : unescape (c :: a :: b :: s) =
  match find (fun x => str_eqb (escape_char x) [c; a; b]) [34; 37; 38; 47; 60; 62; 63] with
  | Some x => x :: unescape s
  | None => c :: unescape (a :: b :: s)
  end.
Proof. reflexivity. Qed.

Lemma find_tfind a b : find (fun x => str_eqb (escape_char x) [c_pct; a; b]) [34; 37; 38; 47; 60; 62; 63] = tfind uri_table a b.
Proof.
  cbn [find escape_char lit map String.list_ascii_of_string str_eqb].
  unfold uri_table. cbn [tfind].
  change (Ascii.N_of_ascii "%"%char) with 37. change (Ascii.N_of_ascii "2"%char) with 50.
  change (Ascii.N_of_ascii "3"%char) with 51. change (Ascii.N_of_ascii "5"%char) with 53.
  change (Ascii.N_of_ascii "6"%char) with 54. change (Ascii.N_of_ascii "F"%char) with 70.
  change (Ascii.N_of_ascii "C"%char) with 67. change (Ascii.N_of_ascii "E"%char) with 69.
  change (37 =? c_pct) with true. cbn [andb]. rewrite !andb_true_r.
  rewrite !(N.eqb_sym _ a), !(N.eqb_sym _ b).
  destruct (N.eqb_spec a 50) as [->|Ha].
  - cbn [andb N.eqb Pos.eqb].
    destruct (N.eqb_spec b 50) as [->|]; [reflexivity|].
    destruct (N.eqb_spec b 53) as [->|]; [reflexivity|].
    destruct (N.eqb_spec b 54) as [->|]; [reflexivity|].
    destruct (N.eqb_spec b 70) as [->|]; reflexivity.
  - cbn [andb]. destruct (N.eqb_spec a 51) as [->|]; cbn [andb]; [|reflexivity].
    destruct (N.eqb_spec b 67) as [->|]; [reflexivity|].
    destruct (N.eqb_spec b 69) as [->|]; [reflexivity|].
    destruct (N.eqb_spec b 70) as [->|]; reflexivity.
Qed.

Lemma find_nonpct c a b : c <> c_pct -> find (fun x => str_eqb (escape_char x) [c; a; b]) [34; 37; 38; 47; 60; 62; 63] = None.
Proof.
  intros H. assert (E : (37 =? c) = false) by (apply N.eqb_neq; intros <-; apply H; reflexivity).
  cbn [find escape_char lit map String.list_ascii_of_string str_eqb].
  change (Ascii.N_of_ascii "%"%char) with 37. rewrite E. reflexivity.
Qed.

Lemma unescape_unesc s : unescape s = unesc uri_table s.
Proof.
  revert s. refine (str_ind2 _ _). intros s IH. destruct s as [|c [|a [|b s]]].
  - reflexivity.
  - cbn [unescape unesc]. destruct (c =? c_pct); reflexivity.
  - destruct (N.eq_dec c c_pct) as [->|Hc].
    + cbn [unescape unesc]. rewrite N.eqb_refl. destruct (a =? c_pct); reflexivity.
    + rewrite unesc_nonpct by exact Hc. cbn [unescape]. f_equal. apply (IH [a]). cbn; lia.
  - rewrite unescape_step. destruct (N.eq_dec c c_pct) as [->|Hc].
    + rewrite find_tfind. destruct (tfind uri_table a b) as [x|] eqn:E.
      * rewrite (unesc_hit _ _ _ _ _ E). f_equal. apply IH. cbn [length]; lia.
      * rewrite (unesc_miss _ _ _ _ E). f_equal. apply (IH (a :: b :: s)). cbn [length]; lia.
    + rewrite (find_nonpct _ _ _ Hc), unesc_nonpct by exact Hc. f_equal. apply (IH (a :: b :: s)). cbn [length]; lia.
Qed.

Lemma unescape_spec s : unescape s = replace_uri_escapes s.
Proof. rewrite replace_uri_escapes_spec. apply unescape_unesc. Qed.
Lemma unescape_escape t : unescape (escape t) = t.
Proof. rewrite unescape_spec. apply replace_uri_escapes_escape. Qed.

Lemma unescape_nonempty s : s <> [] -> (1 <= length (unescape s))%nat.
Proof.
  rewrite unescape_unesc. destruct s as [|c s]; [congruence|]. intros _. cbn [unesc].
  destruct (c =? c_pct); [|cbn [length]; lia].
  destruct s as [|a [|b s]]; try (cbn [length]; lia). destruct (tfind uri_table a b); cbn [length]; lia.
Qed.

Lemma numeral_iff s : numeral s <-> nc_shape s = true.
Proof.
  unfold numeral, nc_shape. destruct s as [|c s].
  - split; [|discriminate]. intros [H|(c & s' & H & _)]; discriminate.
  - rewrite orb_true_iff, andb_true_iff, str_eqb_eq. unfold inr. rewrite andb_true_iff, !N.leb_le, <- digits_iff.
    split.
    + intros [H|(c' & s' & [= <- <-] & H1 & H2)]; auto.
    + intros [H|[H1 H2]]; [left; exact H|right; exists c, s; auto].
Qed.
Lemma numeral_digits s : nc_shape s = true -> forallb is_d s = true /\ s <> [].
Proof.
  destruct s as [|c s]; [discriminate|]. cbn [nc_shape]. rewrite orb_true_iff, andb_true_iff, str_eqb_eq.
  intros [H|[H1 H2]]; (split; [|discriminate]).
  - rewrite H. reflexivity.
  - cbn [forallb]. rewrite H2, andb_true_r. apply is_digit_is_d. unfold is_digit, inr in *.
    apply andb_true_iff in H1 as [A B]. apply andb_true_iff. rewrite N.leb_le in *. lia.
Qed.

(** ** six-bit text *)
Lemma escape6_eq t : escape6 t = cpi_escape t.
Proof. reflexivity. Qed.
Lemma cpref_char_iff c : cpref_char c = true <-> 65 <= c <= 90 \/ 48 <= c <= 57 \/ c = 45.
Proof.
  unfold cpref_char, is_digit, is_upper, inr, c_dash. rewrite !orb_true_iff, !andb_true_iff, !N.leb_le, N.eqb_eq. lia.
Qed.
Definition hash_ok (hash : bool) (t : str) : Prop := hash = false -> ~ In 35 t.

Lemma esc_shape_iff hash s : esc_shape hash s = true <-> exists t, six_bit_text t /\ hash_ok hash t /\ s = escape6 t.
Proof.
  split.
  - revert s. refine (str_ind2 _ _). intros s IH H. destruct s as [|c s].
    + exists []. split; [intros ? []|]. split; [intros _ []|reflexivity].
    + cbn [esc_shape] in H. destruct (c =? c_pct) eqn:E.
      * destruct s as [|a [|b s]]; try discriminate. apply andb_true_iff in H as [Hx Hs].
        destruct (IH s ltac:(cbn [length]; lia) Hs) as (t & T & Hh & ->).
        apply N.eqb_eq in E. subst c. apply orb_true_iff in Hx as [Hx|Hx].
        -- apply andb_true_iff in Hx as [A B]. apply N.eqb_eq in A, B. subst.
           exists (47 :: t). split; [|split].
           ++ intros x [<-|X]; [auto|apply T, X].
           ++ intros Hf [X|X]; [discriminate|exact (Hh Hf X)].
           ++ reflexivity.
        -- apply andb_true_iff in Hx as [Hx B]. apply andb_true_iff in Hx as [Hx A]. apply N.eqb_eq in A, B. subst.
           exists (35 :: t). split; [|split].
           ++ intros x [<-|X]; [auto|apply T, X].
           ++ discriminate.
           ++ reflexivity.
      * apply andb_true_iff in H as [Hc Hs].
        destruct (IH s ltac:(cbn [length]; lia) Hs) as (t & T & Hh & ->).
        apply cpref_char_iff in Hc. exists (c :: t). split; [|split].
        -- intros x [<-|X]; [tauto|apply T, X].
        -- intros Hf [X|X]; [lia|exact (Hh Hf X)].
        -- cbn [escape6 flat_map]. replace (c =? 35) with false by (symmetry; apply N.eqb_neq; lia).
           replace (c =? 47) with false by (symmetry; apply N.eqb_neq; lia). reflexivity.
  - intros (t & T & Hh & ->). induction t as [|c t IH]; [reflexivity|].
    assert (IH' : esc_shape hash (escape6 t) = true).
    { apply IH; [intros x X; apply T; right; exact X|intros Hf X; apply (Hh Hf); right; exact X]. }
    cbn [escape6 flat_map]. fold (escape6 t). destruct (N.eqb_spec c 35) as [->|N1].
    + destruct hash; [|exfalso; apply (Hh eq_refl); left; reflexivity].
      change (esc_shape true (escape6 t) = true). exact IH'.
    + destruct (N.eqb_spec c 47) as [->|N2].
      * change (((true || (hash && true && false)) && esc_shape hash (escape6 t)) = true). rewrite IH'. reflexivity.
      * assert (C : cpref_char c = true) by (apply cpref_char_iff; specialize (T c (or_introl eq_refl)); lia).
        change ([c] ++ escape6 t) with (c :: escape6 t). cbn [esc_shape].
        rewrite (cpref_char_not_pct _ C), C, IH'. reflexivity.
Qed.

Lemma escape6_nonempty t : t <> [] <-> escape6 t <> [].
Proof.
  destruct t as [|c t]; [split; intros H; exact H|]. split; [|discriminate].
  intros _. cbn [escape6 flat_map]. destruct (c =? 35); [discriminate|]. destruct (c =? 47); discriminate.
Qed.
Lemma unesc_escape6 t : six_bit_text t -> unesc cpi_table (escape6 t) = t.
Proof.
  intros T. rewrite escape6_eq. apply unesc_cpi_escape. intros H. apply T in H. unfold c_pct in H. lia.
Qed.
Lemma escape6_inj s t : six_bit_text s -> six_bit_text t -> escape6 s = escape6 t -> s = t.
Proof. intros S T H. rewrite <- (unesc_escape6 s S), <- (unesc_escape6 t T), H. reflexivity. Qed.

(** ** check digits *)
Lemma checksum_completed s : forallb is_d s = true ->
  exists z, calculate_checksum s = Ok z /\ forall k, completed s k <-> k = s ++ dec z.
Proof.
  intros H. rewrite (checksum_ok s H). eexists. split; [reflexivity|]. intros k.
  pose proof (check_digit_lt (digit_values s)) as L. rewrite (dec_digit _ L). split.
  - intros (d & D & -> & M). apply (law_iff _ _ D) in M. subst d. reflexivity.
  - intros ->. eexists. split; [exact L|]. split; [reflexivity|]. apply law_iff; auto.
Qed.
Lemma completed_length s k : completed s k -> length k = S (length s).
Proof. intros (d & _ & -> & _). rewrite app_length. cbn [length]. lia. Qed.
Lemma completed_unique s k k' : completed s k -> completed s k' -> k = k'.
Proof.
  intros (d & D & -> & M) (d' & D' & -> & M'). apply (law_iff _ _ D) in M. apply (law_iff _ _ D') in M'. subst. reflexivity.
Qed.
Lemma completed_digits s k : digits s -> completed s k -> digits k.
Proof.
  intros S (d & D & -> & _) c C. apply in_app_iff in C as [C|[<-|[]]]; [apply S, C|].
  rewrite (udigit_digit (48 + d)) by lia. discriminate.
Qed.
