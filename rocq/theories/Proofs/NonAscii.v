(** Digits of other scripts: what they do to keys, element strings, tag URIs and tags. *)
From Coq Require Import String Lia Setoid.
From Verif.Model Require Import Py Re Regexes Common Base.
From Verif.Model Require Import Adi Cpi Gdti Giai Gid Grai Gsrn Gsrnp Itip Lgtin Sgcn Sgln Sgtin Sscc Usdod Others Parsers.
From Verif.Spec Require Import Spec SpecEscapes SpecGrammar SpecSchemes SpecTags SpecLayout SpecGtin.
From Verif.Proofs Require Import Basics Num ReLemmas Uni Checksum Escapes Codecs Codecs2 CodecSpec Partition Grammar Ctor CtorA CtorB CtorC CtorAll TagUri TagUri2 TagFits Layout BinA BinB BinC BinD BinAll Keys Elements ElementBack Gtin NumSerial.

(** * The ASCII form of a component *)

Lemma af_digits s : digits s -> digits (ascii_form s) /\ ascii (ascii_form s).
Proof.
  intros H. apply digits_iff in H. pose proof (ascii_form_digit _ H) as D. split.
  - apply digits_iff. eapply forallb_imp; [|exact D]. apply is_digit_is_d.
  - intros c I. apply (forallb_In _ _ _ D) in I. apply is_digit_iff in I. lia.
Qed.
Lemma af_company_prefix s : company_prefix s -> company_prefix (ascii_form s).
Proof. intros [D L]. split; [now apply af_digits|rewrite length_ascii; exact L]. Qed.
Lemma af_component s : component s -> ascii_form s = s.
Proof. intros C. apply ascii_form_id, component_chars, C. Qed.
Lemma af_numeral s : numeral s -> numeral (ascii_form s).
Proof.
  intros [->|(c & t & -> & C & D)]; [left; reflexivity|]. right. exists c, (ascii_form t).
  split; [|split; [exact C|now apply af_digits]]. unfold ascii_form. cbn [map]. f_equal. unfold ascii_digit.
  rewrite udigit_digit by lia. lia.
Qed.
Lemma af_values s : digits s -> digit_values (ascii_form s) = digit_values s.
Proof. intros D. rewrite ascii_form_digits by now apply digits_iff. apply digit_values_to_ascii. Qed.
Lemma af_decimal s : digits s -> decimal (ascii_form s) = decimal s.
Proof.
  intros D. rewrite <- (ascii_form_decimal s) by now apply digits_iff. apply decimal_ascii, ascii_form_digit, digits_iff, D.
Qed.
Lemma af_completed s k : digits s -> completed s k -> completed (ascii_form s) (ascii_form k).
Proof.
  intros D (d & L & -> & M). exists d. split; [exact L|]. split.
  - rewrite ascii_form_app. f_equal. unfold ascii_form. cbn [map]. f_equal. unfold ascii_digit. rewrite udigit_digit by lia. lia.
  - rewrite af_values by exact D. exact M.
Qed.
Lemma unescape_chars s : component s -> ascii (unescape s).
Proof.
  intros C. destruct (component_chars s C) as [A _]. clear C. revert A. revert s.
  refine (fix IH s := _). destruct s as [|c s]; [intros _ ? []|]. intros A.
  assert (P : ascii (unescape s)) by (apply IH; intros x I; apply A; now right).
  assert (K : c < 128) by (apply A; now left).
  assert (Q : ascii (c :: unescape s)) by (intros x [<-|I]; [exact K|now apply P]).
  cbn [unescape]. destruct s as [|a s]; [exact Q|]. destruct s as [|b s]; [exact Q|].
  destruct (find _ _) as [x|] eqn:F; [|exact Q]. apply find_some in F as [F _].
  intros y [<-|I]; [cbn in F; repeat destruct F as [<-|F]; try lia; destruct F|].
  revert y I. apply (IH s). intros y I. apply A. right. right. now right.
Qed.
Lemma af_unescape s : component s -> ascii_form (unescape s) = unescape s.
Proof. intros C. apply ascii_form_id, unescape_chars, C. Qed.
Lemma uri_text_ascii s : uri_text s -> ascii s.
Proof.
  intros H. induction H as [|c s P _ IH|h s P _ IH]; [intros ? []| |].
  - intros x [<-|I]; [|now apply IH]. destruct P as [P|[P|[P|P]]]; [lia..|]. cbn in P. repeat destruct P as [<-|P]; try lia; destruct P.
  - intros x [<-|[<-|I]]; [lia| |now apply IH]. destruct P as [P|[P|P]]; lia.
Qed.
Lemma six_text_ascii t : six_bit_text t -> ascii (escape6 t).
Proof. intros H. apply six_ascii. apply six_bit_text_iff. exact H. Qed.

(** * The ASCII form of an object *)

Definition ascii_epc (e : epc) : epc :=
  let a := ascii_form in
  match e with
  | E_ADI (mkAdi u x y z) => E_ADI (mkAdi (a u) (a x) (a y) (a z))
  | E_BIC x => E_BIC x
  | E_CPI (mkCpi u x y z) => E_CPI (mkCpi (a u) (a x) (a y) (a z))
  | E_GDTI (mkGdti u x y z w) => E_GDTI (mkGdti (a u) (a x) (a y) (a z) (a w))
  | E_GIAI (mkGiai u x y z) => E_GIAI (mkGiai (a u) (a x) (a y) (a z))
  | E_GID (mkGid u x y z) => E_GID (mkGid (a u) (a x) (a y) (a z))
  | E_GINC (mkGinc u x) => E_GINC (mkGinc (a u) (a x))
  | E_GRAI (mkGrai u x y z w) => E_GRAI (mkGrai (a u) (a x) (a y) (a z) (a w))
  | E_GSIN (mkGsin u x y z) => E_GSIN (mkGsin (a u) (a x) (a y) (a z))
  | E_GSRN (mkGsrn u x y z) => E_GSRN (mkGsrn (a u) (a x) (a y) (a z))
  | E_GSRNP (mkGsrnp u x y z) => E_GSRNP (mkGsrnp (a u) (a x) (a y) (a z))
  | E_IMOVN (mkImovn u x) => E_IMOVN (mkImovn (a u) (a x))
  | E_ITIP (mkItip u x y z v w) => E_ITIP (mkItip (a u) (a x) (a y) (a z) (a v) (a w))
  | E_LGTIN (mkLgtin u x y z w) => E_LGTIN (mkLgtin (a u) (a x) (a y) (a z) (a w))
  | E_PGLN (mkPgln u x y z) => E_PGLN (mkPgln (a u) (a x) (a y) (a z))
  | E_SGCN (mkSgcn u x y z w) => E_SGCN (mkSgcn (a u) (a x) (a y) (a z) (a w))
  | E_SGLN (mkSgln u x y z w) => E_SGLN (mkSgln (a u) (a x) (a y) (a z) (a w))
  | E_SGTIN (mkSgtin u x y z w) => E_SGTIN (mkSgtin (a u) (a x) (a y) (a z) (a w))
  | E_SSCC (mkSscc u x y z) => E_SSCC (mkSscc (a u) (a x) (a y) (a z))
  | E_UPUI (mkUpui u x y z) => E_UPUI (mkUpui (a u) (a x) (a y) (a z))
  | E_USDOD (mkUsdod u x y) => E_USDOD (mkUsdod (a u) (a x) (a y))
  end.
Lemma ascii_id_bic u x : bic_init u = Ok x -> ascii u.
Proof.
  intros H. apply bic_iff in H as ((U & _ & O & C & _ & S & K) & _ & _). subst u.
  intros c I. rewrite !in_app_iff in I. cbn [In] in I. rewrite in_app_iff in I. cbn [In] in I.
  destruct I as [I|[I|[I|[I|[I|[]]]]]].
  - revert c I. apply ascii_iff. reflexivity.
  - destruct (O _ I). lia.
  - subst c. cbn in C. lia.
  - destruct (S _ I). lia.
  - lia.
Qed.
Lemma digits_numeral s : numeral s -> digits s.
Proof.
  intros [->|(c & t & -> & C & D)]; [intros c [<-|[]]; discriminate|]. intros d [<-|I]; [|now apply D]. rewrite udigit_digit by lia. discriminate.
Qed.
Ltac af_uri := match goal with |- ascii_form ?u = _ => let E := fresh in
    match goal with U : u = _ |- _ => rewrite U at 1; rewrite ?ascii_form_app, ?ascii_lit by reflexivity; reflexivity end end.
Ltac af := try af_uri; repeat match goal with C : component ?s |- context [ascii_form (unescape ?s)] => rewrite (af_unescape s C)
                        | C : component ?s |- context [ascii_form ?s] => rewrite (af_component s C) end; rewrite ?length_ascii;
  first [assumption|reflexivity|apply af_company_prefix; assumption|apply af_digits; assumption|apply af_numeral; assumption|lia
        |rewrite af_decimal by (apply digits_numeral; assumption); assumption|rewrite ascii_form_nil; assumption
        ].
Lemma af_item i (r : str) : ascii_form (i :: r) = ascii_digit i :: ascii_form r.
Proof. reflexivity. Qed.
Lemma af_item_completed i cp rest k : digits (i :: rest) -> company_prefix cp -> completed (i :: cp ++ rest) k ->
  completed (ascii_digit i :: ascii_form cp ++ ascii_form rest) (ascii_form k).
Proof.
  intros D [C _] K. rewrite <- ascii_form_app. change (completed (ascii_form (i :: cp ++ rest)) (ascii_form k)). apply af_completed; [|exact K].
  intros c [<-|I]; [apply D; now left|]. apply in_app_iff in I as [I|I]; [now apply C|apply D; now right].
Qed.
Lemma af_pair_completed cp ref k : company_prefix cp -> digits ref -> completed (cp ++ ref) k ->
  completed (ascii_form cp ++ ascii_form ref) (ascii_form k).
Proof. intros [C _] D K. rewrite <- ascii_form_app. apply af_completed; [|exact K]. now apply digits_app. Qed.
Ltac afs := repeat (split; [af|]); try af.
Lemma init_ascii_form c u e : init_of c u = Ok e -> init_of c (ascii_form u) = Ok (ascii_epc e).
Proof.
  intros H. destruct c; cbn [init_of] in H |- *; apply lift_ok in H as (x & H & ->); apply lift_ok; destruct x; cbn [ascii_epc];
    (eexists; split; [|reflexivity]).
  - apply adi_iff in H. cbn in H. destruct H as ((U & C & (t & T & N & P & L) & (s & s' & S & S1 & S2 & S3 & S4 & S5)) & <-).
    apply adi_iff. cbn. split; [|reflexivity]. split; [af|].
    rewrite (ascii_form_id _ (cage_ascii _ C)). split; [exact C|]. subst adi_part adi_serial.
    rewrite !ascii_form_id by now apply six_text_ascii. split; [exists t; tauto|exists s, s'; tauto].
  - rewrite (ascii_form_id _ (ascii_id_bic _ _ H)). exact H.
  - apply cpi_iff in H. cbn in H. destruct H as ((U & C & (t & TN & T & P) & L & S & SL) & <-). apply cpi_iff. cbn. split; [|reflexivity].
    split; [af|]. split; [af|]. assert (E : ascii_form cpi_ref = cpi_ref) by (subst cpi_ref; now apply ascii_form_id, six_text_ascii).
    rewrite E. split; [exists t; tauto|]. afs.
  - apply gdti_iff in H. cbn in H. destruct H as ((U & C & D & L & S & SL) & <- & k & K & ->). apply gdti_iff. cbn.
    split; [unfold gdti_uri; afs|]. split; [reflexivity|]. exists (ascii_form k). split; [now apply af_pair_completed|].
    rewrite ascii_form_app. f_equal. af.
  - apply giai_iff in H. cbn in H. destruct H as ((ig & U & C & D & NC & L & G) & <- & ->). apply giai_iff. cbn. split; [|split; [reflexivity|]].
    + exists ig. assert (E : ascii_form ig = ig).
      { apply ascii_form_id. destruct G as [->|(r & -> & R)]; [intros ? []|]. intros c [<-|I]; [lia|]. exact (uri_text_ascii _ R c I). }
      unfold giai_uri. split; [rewrite U at 1; rewrite ?ascii_form_app, ?ascii_lit, E by reflexivity; reflexivity|]. afs.
    + rewrite ascii_form_app. f_equal. af.
  - apply gid_iff in H. cbn in H. destruct H as ((U & M & O & S & L & L1 & L2) & <-). apply gid_iff. cbn. unfold gid_uri. split; afs.
  - apply ginc_iff in H. cbn in H. destruct H as (<- & cp & ref & (U & C & R & L) & ->). apply ginc_iff. cbn. split; [reflexivity|].
    exists (ascii_form cp), (ascii_form ref). unfold ginc_uri. rewrite ascii_form_app. split; [afs|f_equal; af].
  - apply grai_iff in H. cbn in H. destruct H as ((U & C & D & L & S & SL) & <- & k & K & ->). apply grai_iff. cbn.
    split; [unfold grai_uri; afs|]. split; [reflexivity|]. exists (ascii_form k). split; [now apply af_pair_completed|].
    rewrite ascii_form_app. f_equal. af.
  - apply gsin_iff in H. cbn in H. destruct H as ((U & C & D & L) & <- & K). apply gsin_iff. cbn.
    split; [unfold gsin_uri; afs|]. split; [reflexivity|]. now apply af_pair_completed.
  - apply gsrn_iff in H. cbn in H. destruct H as ((U & C & D & L) & <- & K). apply gsrn_iff. cbn.
    split; [unfold gsrn_uri; afs|]. split; [reflexivity|]. now apply af_pair_completed.
  - apply gsrnp_iff in H. cbn in H. destruct H as ((U & C & D & L) & <- & K). apply gsrnp_iff. cbn.
    split; [unfold gsrnp_uri; afs|]. split; [reflexivity|]. now apply af_pair_completed.
  - apply imovn_iff in H. cbn in H. destruct H as ((U & L & D) & <-). apply imovn_iff. cbn.
    assert (E : ascii_form imovn_vessel_number = imovn_vessel_number) by (apply ascii_form_id; intros c I; destruct (D c I); lia).
    unfold imovn_uri. split; [|reflexivity]. split; [af|]. rewrite E. auto.
  - apply itip_iff in H. cbn in H. destruct H as ((U & C & D & D1 & D2 & N & N1 & N2 & L & S & SL) & <-). apply itip_iff. cbn.
    unfold itip_uri. split; afs.
  - apply lgtin_iff in H. cbn in H. destruct H as (lot & (U & C & D & L & S & SL) & <- & -> & i & rest & -> & K). apply lgtin_iff. cbn.
    exists (ascii_form lot). split; [unfold lgtin_uri; change (ascii_digit i :: map ascii_digit rest) with (ascii_form (i :: rest)); afs|]. split; [reflexivity|]. split; [rewrite (af_unescape _ S), (af_component _ S); reflexivity|].
    eexists _, _. split; [reflexivity|]. now apply af_item_completed.
  - apply pgln_iff in H. cbn in H. destruct H as ((U & C & D & L) & <- & K). apply pgln_iff. cbn.
    split; [unfold pgln_uri; afs|]. split; [reflexivity|]. now apply af_pair_completed.
  - apply sgcn_iff in H. cbn in H. destruct H as ((U & C & D & L & S & SL) & <- & k & K & ->). apply sgcn_iff. cbn.
    split; [unfold sgcn_uri; afs|]. split; [reflexivity|]. exists (ascii_form k). split; [now apply af_pair_completed|].
    apply ascii_form_app.
  - apply sgln_iff in H. cbn in H. destruct H as ((U & C & D & L & S & SL) & <- & K). apply sgln_iff. cbn.
    split; [unfold sgln_uri; afs|]. split; [reflexivity|]. now apply af_pair_completed.
  - apply sgtin_iff in H. cbn in H. destruct H as ((U & C & D & L & S & SL) & <- & i & rest & -> & K). apply sgtin_iff. cbn.
    split; [unfold sgtin_uri; change (ascii_digit i :: map ascii_digit rest) with (ascii_form (i :: rest)); afs|]. split; [reflexivity|].
    eexists _, _. split; [reflexivity|]. now apply af_item_completed.
  - apply sscc_iff in H. cbn in H. destruct H as ((U & C & D & L) & <- & i & rest & -> & K). apply sscc_iff. cbn.
    split; [unfold sscc_uri; change (ascii_digit i :: map ascii_digit rest) with (ascii_form (i :: rest)); afs|]. split; [reflexivity|].
    eexists _, _. split; [reflexivity|]. now apply af_item_completed.
  - apply upui_iff in H. cbn in H. destruct H as (tpx & (U & D & N & D1 & L & S & SL) & <- & ->). apply upui_iff. cbn.
    exists (ascii_form tpx). split; [unfold upui_uri; afs|]. split; [reflexivity|]. rewrite (af_unescape _ S), (af_component _ S). reflexivity.
  - apply usdod_iff in H. cbn in H. destruct H as ((U & C & S & L) & <-). apply usdod_iff. cbn. split; [|reflexivity].
    split; [af|]. rewrite (ascii_form_id _ (cage_ascii _ C)). split; [exact C|]. afs.
Qed.

(** * ASCII in, ASCII out, and the converse *)

Lemma ascii_cons c (s : str) : ascii (c :: s) <-> c < 128 /\ ascii s.
Proof. split; [intros H; split; [apply H; now left|intros x I; apply H; now right]|intros [C H] x [<-|I]; [exact C|now apply H]]. Qed.
Lemma ascii_lit_iff (l : string) : forallb (fun c => c <? 128) (lit l) = true -> (ascii (lit l) <-> True).
Proof. intros H. split; [auto|]. intros _ c I. apply (forallb_In _ _ _ H) in I. cbv beta in I. lia. Qed.
Lemma ascii_completed s k : completed s k -> (ascii k <-> ascii s).
Proof. intros (d & D & -> & _). rewrite ascii_app, ascii_cons. split; [tauto|]. intros A. split; [exact A|]. split; [lia|intros ? []]. Qed.
Lemma ascii_component s : component s -> (ascii s <-> True).
Proof. intros C. split; [auto|]. intros _. apply component_chars, C. Qed.
Lemma ascii_unescape s : component s -> (ascii (unescape s) <-> True).
Proof. intros C. split; [auto|]. intros _. apply unescape_chars, C. Qed.
Lemma ascii_view g t v : length g = 14%nat -> gtin_view g t = Ok v -> (ascii v <-> ascii g).
Proof.
  intros L V. apply (proj1 (view_spec g t L)) in V. destruct t; cbn [gtin_of_kind] in V; destruct V as [_ ->];
    rewrite ?ascii_app, ?ascii_lit_iff by reflexivity; tauto.
Qed.
Ltac asc := rewrite ?ascii_app, ?ascii_cons, ?ascii_lit_iff by reflexivity;
  repeat match goal with C : component ?s |- context [ascii ?s] => rewrite (ascii_component s C)
                        | C : component ?s |- context [ascii (unescape ?s)] => rewrite (ascii_unescape s C)
                        | K : completed ?s ?k |- context [ascii ?k] => rewrite (ascii_completed s k K) end;
  repeat first [rewrite ascii_app|rewrite ascii_cons]; tauto.
Theorem key_ascii c u e g k : init_of c u = Ok e -> epc_gs1_key e g = Ok k -> (ascii k <-> ascii u).
Proof.
  intros H K. destruct c; cbn [init_of] in H |- *; apply lift_ok in H as (x & H & ->); cbn [epc_gs1_key] in K; cbv beta zeta in K; try discriminate K;
    try (destruct g; [discriminate K|apply ok_same in K; subst k]).
  - apply gdti_iff in H as ((U & C & D & L & S & SL) & _ & k & K & E). unfold gdti_gs1_key. rewrite E, U. asc.
  - apply giai_iff in H as ((ig & U & C & D & NC & L & G) & _ & E). unfold giai_gs1_key. rewrite E, U.
    assert (A : ascii ig).
    { destruct G as [->|(r & -> & R)]; [intros ? []|]. intros c [<-|I]; [lia|]. exact (uri_text_ascii _ R c I). }
    asc.
  - apply ginc_iff in H as (_ & cp & ref & (U & C & R & L) & E). unfold ginc_gs1_key. rewrite E, U. asc.
  - apply grai_iff in H as ((U & C & D & L & S & SL) & _ & k & K & E). unfold grai_gs1_key. rewrite E, U. asc.
  - apply gsin_iff in H as ((U & C & D & L) & _ & K). unfold gsin_gs1_key. rewrite U. asc.
  - apply gsrn_iff in H as ((U & C & D & L) & _ & K). unfold gsrn_gs1_key. rewrite U. asc.
  - apply gsrnp_iff in H as ((U & C & D & L) & _ & K). unfold gsrnp_gs1_key. rewrite U. asc.
  - apply lgtin_iff in H as (lot & (U & C & D & L & S & SL) & _ & _ & i & rest & E & K'). rewrite E in *.
    unfold lgtin_gs1_key, lgtin_gtin in K. rewrite (ascii_view _ _ _ (gtin_len14 _ _ _ _ L K') K), U. asc.
  - apply pgln_iff in H as ((U & C & D & L) & _ & K). unfold pgln_gs1_key. rewrite U. asc.
  - apply sgcn_iff in H as ((U & C & D & L & S & SL) & _ & k & K & E). unfold sgcn_gs1_key. rewrite E, U. asc.
  - apply sgln_iff in H as ((U & C & D & L & S & SL) & _ & K). unfold sgln_gs1_key. rewrite U. asc.
  - apply sgtin_iff in H as ((U & C & D & L & S & SL) & _ & i & rest & E & K'). rewrite E in *.
    unfold sgtin_gs1_key, sgtin_gtin in K. rewrite (ascii_view _ _ _ (gtin_len14 _ _ _ _ L K') K), U. asc.
  - apply sscc_iff in H as ((U & C & D & L) & _ & i & rest & E & K). unfold sscc_gs1_key. rewrite E in *. rewrite U. asc.
Qed.
Lemma six_plain_ascii t : six_bit_text t -> ascii t.
Proof. intros H c I. specialize (H c I). cbv beta in H. lia. Qed.
Lemma giai_ignored_ascii ig : ig = [] \/ (exists r, ig = 58 :: r /\ uri_text r) -> ascii ig.
Proof. intros [->|(r & -> & R)]; [intros ? []|]. intros c [<-|I]; [lia|]. exact (uri_text_ascii _ R c I). Qed.
Theorem element_string_ascii c u e g : init_of c u = Ok e -> epc_gs1_element_string e = Ok g -> (ascii g <-> ascii u).
Proof.
  intros H K. destruct c; cbn [init_of] in H |- *; apply lift_ok in H as (x & H & ->); cbn [epc_gs1_element_string] in K; try discriminate K;
    try (apply ok_same in K; subst g).
  - apply cpi_iff in H as ((U & C & (t & _ & T & R) & L & S & SL) & _). unfold cpi_gs1_element_string. rewrite U, R.
    rewrite Escapes.replace_cpi_escapes_spec, unesc_escape6 by exact T.
    pose proof (six_text_ascii _ T). pose proof (six_plain_ascii _ T). asc.
  - apply gdti_iff in H as ((U & C & D & L & S & SL) & _ & k & K & E). unfold gdti_gs1_element_string. rewrite E, U. asc.
  - apply giai_iff in H as ((ig & U & C & D & NC & L & G) & _ & E). unfold giai_gs1_element_string. rewrite E, U.
    pose proof (giai_ignored_ascii _ G). asc.
  - apply ginc_iff in H as (_ & cp & ref & (U & C & R & L) & E). unfold ginc_gs1_element_string. rewrite E, U. asc.
  - apply grai_iff in H as ((U & C & D & L & S & SL) & _ & k & K & E). unfold grai_gs1_element_string. rewrite E, U. asc.
  - apply gsin_iff in H as ((U & C & D & L) & _ & K). unfold gsin_gs1_element_string. rewrite U. asc.
  - apply gsrn_iff in H as ((U & C & D & L) & _ & K). unfold gsrn_gs1_element_string. rewrite U. asc.
  - apply gsrnp_iff in H as ((U & C & D & L) & _ & K). unfold gsrnp_gs1_element_string. rewrite U. asc.
  - pose proof H as I. apply itip_iff in H as (W & _). pose proof W as (U & C & D & D1 & D2 & N & N1 & N2 & L & S & SL).
    destruct (itip_item x) as [|i rest] eqn:E; [congruence|]. destruct (completed_exists (i :: itip_cp x ++ rest)) as (k & Y).
    destruct (itip_element _ _ _ _ _ _ _ _ W Y) as (x' & I' & G). rewrite I in I'. apply ok_same in I'. subst x'.
    rewrite G in K. apply ok_same in K. subst g. rewrite U. asc.
  - apply lgtin_iff in H as (lot & (U & C & D & L & S & SL) & _ & Y & i & rest & E & K'). rewrite E in *.
    unfold lgtin_gs1_element_string. rewrite U, Y. asc.
  - apply pgln_iff in H as ((U & C & D & L) & _ & K). unfold pgln_gs1_element_string. rewrite U. asc.
  - apply sgcn_iff in H as ((U & C & D & L & S & SL) & _ & k & K & E). unfold sgcn_gs1_element_string. rewrite E, U. asc.
  - apply sgln_iff in H as ((U & C & D & L & S & SL) & _ & K). unfold sgln_gs1_element_string. rewrite U, <- unescape_spec. asc.
  - apply sgtin_iff in H as ((U & C & D & L & S & SL) & _ & i & rest & E & K'). rewrite E in *.
    unfold sgtin_gs1_element_string. rewrite U, <- unescape_spec. asc.
  - apply sscc_iff in H as ((U & C & D & L) & _ & i & rest & E & K). unfold sscc_gs1_element_string. rewrite E in *. rewrite U. asc.
  - pose proof H as I. apply upui_iff in H as (tpx & W & _). pose proof W as (U & D & N & D1 & L & S & SL).
    destruct (upui_item x) as [|i rest] eqn:E; [unfold upui_gs1_element_string in K; rewrite E in K; discriminate K|].
    destruct (completed_exists (i :: upui_cp x ++ rest)) as (k & Y).
    destruct (upui_element _ _ _ _ _ _ W Y) as (x' & I' & G). rewrite I in I'. apply ok_same in I'. subst x'.
    rewrite G in K. apply ok_same in K. subst g. rewrite U. asc.
Qed.
Lemma filter_ascii f p : filter_part f p -> ascii p.
Proof.
  destruct f as [n|]; cbn [filter_part]; [|intros ->; intros ? []]. intros (s & D & _ & _ & ->). apply ascii_app. split.
  - intros c I. destruct (D c I). lia.
  - apply ascii_lit_iff; reflexivity.
Qed.
Lemma cut_inj c (a b x y : str) : ~ In c a -> ~ In c b -> a ++ c :: x = b ++ c :: y -> a = b /\ x = y.
Proof.
  revert b. induction a as [|d a IH]; intros [|f b] A B H; cbn [app] in H.
  - injection H as H. auto.
  - injection H as H _. destruct B. now left.
  - injection H as H _. destruct A. now left.
  - injection H as E H. subst f. destruct (IH b) as [X Y]; [intros J; apply A; now right|intros J; apply B; now right|exact H|].
    subst. auto.
Qed.
Lemma giai_rest_ascii u x : giai_init u = Ok x -> forall body r, u = lit "urn:epc:id:giai:" ++ body ++ 58 :: r -> ~ In 58 body -> ascii r.
Proof.
  intros I body r U B. apply giai_iff in I as ((ig & U' & C & D & NC & L & G) & _). rewrite U in U'. apply app_inv_head in U'.
  destruct G as [->|(r' & -> & R)].
  - rewrite app_nil_r in U'. assert (J : In 58 (giai_cp x ++ lit "." ++ giai_asset x)) by (rewrite <- U', in_app_iff; right; now left).
    rewrite !in_app_iff in J. destruct J as [J|[[J|[]]|J]]; [|discriminate J|destruct (NC J)].
    destruct C as [C _]. exfalso. apply (C _ J). reflexivity.
  - assert (E : body = giai_cp x ++ lit "." ++ giai_asset x /\ r = r').
    { apply (cut_inj 58); [exact B| |rewrite U', <- !app_assoc; reflexivity].
      rewrite !in_app_iff. intros [J|[[J|[]]|J]]; [|discriminate J|exact (NC J)]. destruct C as [C _]. apply (C _ J). reflexivity. }
    destruct E as [_ ->]. now apply uri_text_ascii.
Qed.
Theorem tag_uri_ascii q u t : init_of (class_of (req_epc q)) u = Ok (req_epc q) -> req_tag_uri q = Ok t -> (ascii t <-> ascii u).
Proof.
  intros I H. destruct (tag_uri_spelling _ _ _ I H) as (body & ig & f & U & G & F & ->).
  pose proof (filter_ascii _ _ F) as A.
  assert (A1 : ascii (req_coding q)) by (apply ascii_iff; destruct q as [x s n|x s n|x s n|x s n|x s|x s n|x s n|x s n|x s n|x s n|x s n|x s n|x s n|x s n]; destruct s; reflexivity).
  assert (A2 : ascii (scheme_prefix (class_of (req_epc q)))) by (apply ascii_iff; destruct (class_of (req_epc q)); reflexivity).
  assert (A3 : ascii ig).
  { destruct G as [->|(C & (r & ->) & B)]; [intros ? []|]. apply ascii_cons. split; [lia|].
    destruct q as [x s n|x s n|x s n|x s n|x s|x s n|x s n|x s n|x s n|x s n|x s n|x s n|x s n|x s n]; try discriminate C. cbn [req_epc class_of init_of] in I, U. apply lift_ok in I as (y & I & _).
    exact (giai_rest_ascii _ _ I _ _ U B). }
  rewrite U, !ascii_app, !ascii_lit_iff by reflexivity. tauto.
Qed.

(** * The tag stands for the ASCII form *)

Definition or_digit (s : str) : Prop := ascii (ascii_form s).
Lemma od_app a b : or_digit a -> or_digit b -> or_digit (a ++ b).
Proof. unfold or_digit. rewrite ascii_form_app, ascii_app. auto. Qed.
Lemma od_ascii s : ascii s -> or_digit s.
Proof. intros A. unfold or_digit. rewrite ascii_form_id; exact A. Qed.
Lemma od_lit l : forallb (fun c => c <? 128) (lit l) = true -> or_digit (lit l).
Proof. intros H. apply od_ascii. now apply (ascii_lit_iff l H). Qed.
Lemma od_digits s : digits s -> or_digit s.
Proof. intros D. now apply af_digits. Qed.
Ltac od := repeat first
  [apply od_app|apply od_lit; reflexivity|apply od_digits; assumption
  |match goal with H : company_prefix ?s |- or_digit ?s => exact (od_digits _ (proj1 H))
                 | H : numeral ?s |- or_digit ?s => exact (od_digits _ (digits_numeral _ H))
                 | H : component ?s |- or_digit ?s => exact (od_ascii _ (proj1 (component_chars _ H)))
                 | H : cage_text ?s |- or_digit ?s => exact (od_ascii _ (cage_ascii _ H))
                 | H : six_bit_text ?s |- or_digit (escape6 ?s) => exact (od_ascii _ (six_text_ascii _ H)) end].
Lemma accepted_or_digit c u e : init_of c u = Ok e -> or_digit u.
Proof.
  intros H. destruct c; cbn [init_of] in H |- *; apply lift_ok in H as (x & H & _).
  - apply adi_iff in H as ((U & C & (t & T & N & P & L) & (s & s' & S & S1 & S2 & S3 & S4 & S5)) & _). rewrite U, P, S4. od.
  - apply od_ascii. eapply ascii_id_bic; exact H.
  - apply cpi_iff in H as ((U & C & (t & TN & T & P) & L & S & SL) & _). rewrite U, P. od.
  - apply gdti_iff in H as ((U & C & D & L & S & SL) & _). rewrite U. od.
  - apply giai_iff in H as ((ig & U & C & D & NC & L & G) & _). rewrite U. od. apply od_ascii, giai_ignored_ascii, G.
  - apply gid_iff in H as ((U & M & O & S & _) & _). rewrite U. od.
  - apply ginc_iff in H as (_ & cp & ref & (U & C & R & L) & _). rewrite U. od.
  - apply grai_iff in H as ((U & C & D & L & S & SL) & _). rewrite U. od.
  - apply gsin_iff in H as ((U & C & D & L) & _). rewrite U. od.
  - apply gsrn_iff in H as ((U & C & D & L) & _). rewrite U. od.
  - apply gsrnp_iff in H as ((U & C & D & L) & _). rewrite U. od.
  - apply imovn_iff in H as ((U & L & D) & _). rewrite U. od. apply od_ascii. intros c I. destruct (D c I). lia.
  - apply itip_iff in H as ((U & C & D & D1 & D2 & N & N1 & N2 & L & S & SL) & _). rewrite U. od.
  - apply lgtin_iff in H as (lot & (U & C & D & L & S & SL) & _). rewrite U. od.
  - apply pgln_iff in H as ((U & C & D & L) & _). rewrite U. od.
  - apply sgcn_iff in H as ((U & C & D & L & S & SL) & _). rewrite U. od.
  - apply sgln_iff in H as ((U & C & D & L & S & SL) & _). rewrite U. od.
  - apply sgtin_iff in H as ((U & C & D & L & S & SL) & _). rewrite U. od.
  - apply sscc_iff in H as ((U & C & D & L) & _). rewrite U. od.
  - apply upui_iff in H as (tpx & (U & D & N & D1 & L & S & SL) & _). rewrite U. od.
  - apply usdod_iff in H as ((U & C & S & L) & _). rewrite U. od.
Qed.
Theorem ascii_form_accepted c u e : init_of c u = Ok e ->
  exists e', init_of c (ascii_form u) = Ok e' /\ ascii (ascii_form u) /\ (epc_eqb e' e = true <-> ascii u) /\
    (forall k, epc_gs1_key e None = Ok k -> epc_gs1_key e' None = Ok (ascii_form k)).
Proof.
  intros H. pose proof (init_ascii_form _ _ _ H) as H'. exists (ascii_epc e). split; [exact H'|]. pose proof (accepted_or_digit _ _ _ H) as A. split; [exact A|]. split.
  - rewrite (proj1 (epc_eqb_uri _ _ _ _ _ _ H' H)). split; [intros E; rewrite <- E; exact A|apply ascii_form_id].
  - intros k K. destruct c; cbn [init_of] in H; apply lift_ok in H as (x & H & ->); cbn [epc_gs1_key] in K; cbv beta zeta in K; try discriminate K;
      try (apply ok_same in K; subst k; destruct x; reflexivity).
    + apply lgtin_iff in H as (lot & (_ & _ & _ & L & _) & _ & _ & i & rest & E & C). rewrite E in L. pose proof (gtin_len14 _ _ _ _ L C) as G.
      unfold lgtin_gs1_key, lgtin_gtin in K. rewrite gtin_view14 in K by exact G. apply ok_same in K. subst k. destruct x. cbn in *.
      apply gtin_view14. rewrite map_length. exact G.
    + apply sgtin_iff in H as ((_ & _ & _ & L & _) & _ & i & rest & E & C). rewrite E in L. pose proof (gtin_len14 _ _ _ _ L C) as G.
      unfold sgtin_gs1_key, sgtin_gtin in K. rewrite gtin_view14 in K by exact G. apply ok_same in K. subst k. destruct x. cbn in *.
      apply gtin_view14. rewrite map_length. exact G.
Qed.
Theorem binary_ascii q u t : init_of (class_of (req_epc q)) u = Ok (req_epc q) -> req_tag_uri q = Ok t ->
  canonical_request q -> filter_fits q -> pieces_fit q ->
  (class_of (req_epc q) = C_GIAI -> exists body, u = lit "urn:epc:id:giai:" ++ body /\ ~ In 58 body) ->
  ~ ascii u ->
  exists b e, req_binary q = Ok b /\ bitstring b /\ from_binary_of (class_of (req_epc q)) b = Ok e /\
    epc_uri e = ascii_form u /\ init_of (class_of (req_epc q)) (ascii_form u) = Ok e /\ epc_eqb e (req_epc q) = false.
Proof.
  intros I T C F P G NA. destruct (binary_written _ _ _ I T C F P) as (b & B & _ & BS & _ & R).
  destruct (ascii_form_accepted _ _ _ I) as (e & I' & A & Q & _).
  assert (NADI : class_of (req_epc q) <> C_ADI).
  { intros E. apply NA. rewrite E in I. cbn [init_of] in I. apply lift_ok in I as (x & I & _).
    apply adi_iff in I as ((U & K & (t' & T' & N & P' & L) & (s & s' & S & S1 & S2 & S3 & S4 & S5)) & _). rewrite U, P', S4.
    rewrite !ascii_app, !ascii_lit_iff by reflexivity. pose proof (cage_ascii _ K). pose proof (six_text_ascii _ T'). pose proof (six_text_ascii _ S). tauto. }
  exists b, e. split; [exact B|]. split; [exact BS|]. split.
  - destruct (R [] ltac:(intros ? [])) as [R1 _]. rewrite app_nil_r, (core_uri_eq q u I G) in R1. rewrite R1 by exact NADI. exact I'.
  - split; [exact (proj2 (init_class _ _ _ I'))|]. split; [exact I'|]. apply not_true_is_false. intros Y. apply NA, Q, Y.
Qed.

Theorem any_script d : udigit d <> None -> exists e k,
  init_of C_SGTIN (lit "urn:epc:id:sgtin:061414" ++ [d] ++ lit ".812345.6789") = Ok e /\ epc_gs1_key e None = Ok k /\ In d k.
Proof.
  intros D. set (cp := lit "061414" ++ [d]). destruct (completed_exists (56 :: cp ++ lit "12345")) as (k & K).
  assert (P : forall s, digits s -> digits (s ++ [d])) by (intros s S; apply digits_app; [exact S|intros c [<-|[]]; exact D]).
  destruct (sgtin_keys (lit "urn:epc:id:sgtin:061414" ++ [d] ++ lit ".812345.6789") cp 56 (lit "12345") (lit "6789") k) as (x & I & G & _); [|exact K|].
  - split; [reflexivity|]. split; [split; [apply P; intros c J; repeat (destruct J as [<-|J]; [discriminate|]); destruct J|cbn; lia]|].
    split; [intros c J; repeat (destruct J as [<-|J]; [discriminate|]); destruct J|]. split; [reflexivity|]. split; [|cbn; lia].
    apply (number_component 6789).
  - exists (E_SGTIN x), k. cbn [init_of]. rewrite I. split; [reflexivity|]. cbn [epc_gs1_key]. split; [exact G|].
    destruct K as (c & _ & -> & _). rewrite in_app_iff. left. right. rewrite in_app_iff. left. unfold cp. rewrite in_app_iff. right. now left.
Qed.
