(** From the look of a URI to the request for its tag, and how long the texts of a tag are. *)
From Coq Require Import String Lia.
From Verif.Model Require Import Py Common Base.
From Verif.Model Require Import Adi Cpi Gdti Giai Gid Grai Gsrn Gsrnp Itip Lgtin Sgcn Sgln Sgtin Sscc Usdod Others Parsers.
From Verif.Spec Require Import Spec SpecEscapes SpecGrammar SpecSchemes SpecTags SpecLayout SpecCoding SpecHex SpecChain SpecRuns.
From Verif.Proofs Require Import CtorA CtorB CtorC CtorAll BinAll HexTrip Hex.
Open Scope N_scope.

Lemma escape_char_shape c : escape_char c = [c] \/ exists a b, escape_char c = [37; a; b] /\ a <> 46 /\ b <> 46.
Proof.
  destruct (in_dec N.eq_dec c [34; 37; 38; 47; 60; 62; 63]) as [H|H].
  - right. cbn [In] in H. repeat destruct H as [<-|H]; try contradiction; (eexists; eexists; split; [reflexivity|split; discriminate]).
  - left. destruct c as [|p]; [reflexivity|]. do 6 (destruct p as [p|p|]; try reflexivity); exfalso; apply H; cbn [In]; auto 10.
Qed.
Lemma canonical_suffix t : forall a b, escape t = a ++ 46 :: b -> canonical_text b.
Proof.
  induction t as [|c t IH]; intros a b E; [destruct a; discriminate E|]. change (escape (c :: t)) with (escape_char c ++ escape t) in E.
  destruct (escape_char_shape c) as [S|(x & y & S & X & Y)]; rewrite S in E.
  - destruct a as [|a0 a]; cbn [app] in E; injection E as E1 E2; [exists t; auto|exact (IH _ _ E2)].
  - destruct a as [|a0 [|a1 [|a2 a]]]; cbn [app] in E; injection E; intros; subst; try congruence. eapply IH; eassumption.
Qed.
Lemma canonical_last a b : canonical_text (a ++ lit "." ++ b) -> canonical_text b.
Proof. intros [t E]. exact (canonical_suffix t a b (eq_sym E)). Qed.

Lemma safe_canonical q u : init_of (class_of (req_epc q)) u = Ok (req_epc q) -> tag_safe u -> canonical_request q.
Proof.
  intros I (_ & C & G & _). unfold canonical_request.
  destruct q as [x s f|x s f|x s f|x s f|x s|x s f|x s f|x s f|x s f|x s f|x s f|x s f|x s f|x s f]; destruct s; cbn [text_part]; try exact Logic.I;
    cbn [class_of req_epc init_of] in I; apply lift_ok in I as (y & I & Y); injection Y as <-.
  - apply gdti_iff in I as ((U & _) & _). specialize (C "gdti"%string (gdti_cp x ++ lit "." ++ gdti_doc x ++ lit "." ++ gdti_serial x) ltac:(cbn; tauto) U).
    apply canonical_last, canonical_last in C. exact C.
  - apply giai_iff in I as ((ig & U & _ & _ & _ & _ & Z) & _). specialize (G (giai_cp x ++ lit "." ++ giai_asset x ++ ig) U).
    specialize (C "giai"%string (giai_cp x ++ lit "." ++ giai_asset x ++ ig) ltac:(cbn; tauto) U).
    destruct Z as [->|(r & -> & _)]; [|exfalso; apply G; repeat (apply in_or_app; right); left; reflexivity].
    rewrite app_nil_r in C. exact (canonical_last _ _ C).
  - apply grai_iff in I as ((U & _) & _). specialize (C "grai"%string (grai_cp x ++ lit "." ++ grai_asset x ++ lit "." ++ grai_serial x) ltac:(cbn; tauto) U).
    apply canonical_last, canonical_last in C. exact C.
  - apply itip_iff in I as ((U & _) & _).
    specialize (C "itip"%string (itip_cp x ++ lit "." ++ itip_item x ++ lit "." ++ itip_piece x ++ lit "." ++ itip_total x ++ lit "." ++ itip_serial x) ltac:(cbn; tauto) U).
    apply canonical_last, canonical_last, canonical_last, canonical_last in C. exact C.
  - apply sgln_iff in I as ((U & _) & _). specialize (C "sgln"%string (sgln_cp x ++ lit "." ++ sgln_loc x ++ lit "." ++ sgln_serial x) ltac:(cbn; tauto) U).
    apply canonical_last, canonical_last in C. exact C.
  - apply sgtin_iff in I as ((U & _) & _). specialize (C "sgtin"%string (sgtin_cp x ++ lit "." ++ sgtin_item x ++ lit "." ++ sgtin_serial x) ltac:(cbn; tauto) U).
    apply canonical_last, canonical_last in C. exact C.
Qed.
Lemma safe_proper q u t : init_of (class_of (req_epc q)) u = Ok (req_epc q) -> tag_safe u -> filter_fits q -> req_tag_uri q = Ok t ->
  proper_request q u /\ forall x s f, q = T_ADI x s f -> no_early_zeros (adi_part x).
Proof.
  intros I S F T. pose proof (safe_canonical q u I S) as K. destruct S as (A & C & G & P & Z). split; [split; [exact I|]; split; [exact A|]; split; [exists t; exact T|]|].
  - split; [exact K|]. split; [exact F|]. split.
    + destruct q; try exact Logic.I. cbn [class_of req_epc init_of] in I. apply lift_ok in I as (y & I & Y). injection Y as <-.
      apply itip_iff in I as (U & _). exact (P _ _ _ _ _ U).
    + intros E. destruct q; try discriminate E. cbn [class_of req_epc init_of] in I. apply lift_ok in I as (y & I & Y). injection Y as <-.
      apply giai_iff in I as ((ig & U & _) & _). eexists. split; [exact U|]. apply G. exact U.
  - intros x s f ->. cbn [class_of req_epc init_of] in I. apply lift_ok in I as (y & I & Y). injection Y as <-. apply adi_iff in I as (U & _). exact (Z _ _ _ U).
Qed.

(** * Lengths *)

Lemma spells_length l : forall b, spells l b -> length b = total_bits l.
Proof.
  induction l as [|[w v] l IH]; intros b H; cbn [spells] in H; [subst; reflexivity|].
  destruct H as (a & r & -> & <- & _ & _ & S). rewrite app_length, (IH r S). reflexivity.
Qed.
Lemma total_app l m : total_bits (l ++ m) = (total_bits l + total_bits m)%nat.
Proof. unfold total_bits. rewrite map_app, list_sum_app. reflexivity. Qed.
Lemma total_cons w v l : total_bits ((w, v) :: l) = (w + total_bits l)%nat.
Proof. reflexivity. Qed.
Lemma total_nil : total_bits [] = 0%nat.
Proof. reflexivity. Qed.
Lemma total_map {A} w (f : A -> N) s : total_bits (map (fun c => (w, f c)) s) = (w * length s)%nat.
Proof. unfold total_bits. rewrite map_map. cbn [fst]. induction s as [|a s IH]; [cbn; lia|]. cbn [map length]. unfold list_sum in *. cbn [fold_right]. rewrite IH. lia. Qed.
Lemma unescape6_le s : (length (unescape6 s) <= length s)%nat.
Proof.
  remember (length s) as n eqn:E. assert (L : (length s <= n)%nat) by lia. clear E. revert s L.
  induction n as [|n IH]; intros s L; destruct s as [|c s]; cbn [length] in L; try (cbn; lia).
  cbn [unescape6]. destruct s as [|a [|b s]].
  - cbn [unescape6 length]. lia.
  - cbn [length]. specialize (IH [a] ltac:(cbn [length] in *; lia)). lia.
  - destruct (str_eqb _ _); [|destruct (str_eqb _ _)]; cbn [length]; cbn [length] in L.
    + specialize (IH s ltac:(lia)). lia.
    + specialize (IH s ltac:(lia)). lia.
    + specialize (IH (a :: b :: s) ltac:(cbn [length]; lia)). lia.
Qed.
Lemma six_le s n : (length s <= n)%nat -> (total_bits (six_fields s) <= 6 * n + 6)%nat.
Proof.
  intros L. unfold six_fields. rewrite total_app, total_map. pose proof (unescape6_le s). cbn [total_bits map fst list_sum fold_right]. cbn. lia.
Qed.
Lemma escape6_length t n : (length t <= n)%nat -> (length (escape6 t) <= 3 * n)%nat.
Proof.
  intros L. enough (length (escape6 t) <= 3 * length t)%nat by lia. clear L. unfold escape6. induction t as [|c t IH]; [cbn; lia|].
  cbn [flat_map length]. rewrite app_length. match goal with |- (length ?x + _ <= _)%nat => assert (length x <= 3)%nat end; [|lia].
  repeat match goal with |- context [match ?p with _ => _ end] => destruct p end; cbn; lia.
Qed.
Lemma prefix_bits_le n : (prefix_bits n <= 40)%nat.
Proof. unfold prefix_bits. do 13 (destruct n as [|n]; [lia|]). lia. Qed.
Lemma tag_length q u b : init_of (class_of (req_epc q)) u = Ok (req_epc q) -> spells (tag_layout q) b ->
  match coding_bits q with Some n => length b = n | None => True end -> (length b <= 2000)%nat.
Proof.
  intros I S L. destruct (coding_bits q) as [n|] eqn:E.
  - assert (n <= 212)%nat; [|lia]. destruct q; destruct s; cbn [coding_bits] in E; try discriminate E; injection E as <-; lia.
  - clear L. apply spells_length in S. rewrite S. clear S. destruct q; try destruct s; try discriminate E; cbn [class_of req_epc init_of] in I;
      apply lift_ok in I as (y & I & Y); injection Y as <-; unfold tag_layout, body_fields, filter_fields, header_field, req_filter.
    + apply adi_iff in I as ((_ & C & (t & _ & _ & P & PL) & (t1 & t2 & _ & _ & _ & _ & Q & QL)) & _).
      rewrite !total_cons, !total_app, ?total_cons, ?total_nil. unfold cage_fields. rewrite total_map, app_length, repeat_length.
      pose proof (escape6_length t 32 PL) as P1. rewrite <- P in P1. pose proof (escape6_length t1 30 QL) as Q1. rewrite <- Q in Q1.
      pose proof (six_le _ _ P1). pose proof (six_le _ _ Q1).
      assert (length (adi_cage x) <= 6)%nat by (destruct C as [C1 C2]; lia).
      cbn [filter_bits]. repeat match goal with |- context [total_bits (@nil ?T)] => change (total_bits (@nil T)) with 0%nat end. lia.
    + apply cpi_iff in I as ((_ & _ & _ & R & _) & _).
      rewrite !total_cons, !total_app, ?total_cons, ?total_nil.
      pose proof (six_le (cpi_ref x) 30 ltac:(lia)). pose proof (prefix_bits_le (length (cpi_cp x))).
      cbn [filter_bits]. repeat match goal with |- context [total_bits (@nil ?T)] => change (total_bits (@nil T)) with 0%nat end. lia.
Qed.
