(** Keys and element strings of the schemes with a check digit. *)
From Coq Require Import String Lia Setoid.
From Verif.Model Require Import Py Re Regexes Common Base.
From Verif.Model Require Import Adi Cpi Gdti Giai Gid Grai Gsrn Gsrnp Itip Lgtin Sgcn Sgln Sgtin Sscc Usdod Others.
From Verif.Spec Require Import Spec SpecEscapes SpecGrammar.
From Verif.Proofs Require Import Basics Num ReLemmas Uni Checksum Verify Grammar Ctor CtorA CtorB CtorC.

Lemma sl_all {A} n (l : list A) : length l = n -> sl 0 n l = l.
Proof. intros <-. unfold sl. cbn [skipn]. rewrite Nat.sub_0_r. apply firstn_all. Qed.
Lemma gtin_view14 g : length g = 14%nat -> gtin_view g GTIN14 = Ok g.
Proof. intros L. unfold gtin_view. cbn [raise_if bind gtin_len Nat.sub]. rewrite sl_all by exact L. reflexivity. Qed.

Theorem sgtin_keys u cp i rest serial gtin :
  sgtin_uri u cp (i :: rest) serial -> completed (i :: cp ++ rest) gtin ->
  exists x, sgtin_init u = Ok x /\ sgtin_gs1_key x GTIN14 = Ok gtin /\
    sgtin_gs1_element_string x = lit "(01)" ++ gtin ++ lit "(21)" ++ unescape serial.
Proof.
  intros U C. exists (mkSgtin u cp (i :: rest) serial gtin). split; [apply sgtin_iff; cbn; split; [exact U|]; eauto 10|].
  split; [|unfold sgtin_gs1_element_string; rewrite unescape_spec; reflexivity].
  apply gtin_view14. cbn [sgtin_gtin_]. apply completed_length in C. destruct U as (_ & _ & _ & L & _).
  cbn [length] in *. rewrite app_length in C. lia.
Qed.
Theorem lgtin_keys u cp i rest lot gtin :
  lgtin_uri u cp (i :: rest) lot -> completed (i :: cp ++ rest) gtin ->
  exists x, lgtin_init u = Ok x /\ lgtin_gs1_key x GTIN14 = Ok gtin /\
    lgtin_gs1_element_string x = lit "(01)" ++ gtin ++ lit "(10)" ++ unescape lot.
Proof.
  intros U C. exists (mkLgtin u cp (i :: rest) (unescape lot) gtin). split; [apply lgtin_iff; cbn; eauto 10|].
  split; [|reflexivity].
  apply gtin_view14. cbn [lgtin_gtin_]. apply completed_length in C. destruct U as (_ & _ & _ & L & _).
  cbn [length] in *. rewrite app_length in C. lia.
Qed.
Theorem sscc_keys u cp i rest sscc :
  sscc_uri u cp (i :: rest) -> completed (i :: cp ++ rest) sscc ->
  exists x, sscc_init u = Ok x /\ sscc_gs1_key x = sscc /\ sscc_gs1_element_string x = lit "(00)" ++ sscc.
Proof.
  intros U C. exists (mkSscc u cp (i :: rest) sscc). split; [apply sscc_iff; cbn; eauto 10|]. split; reflexivity.
Qed.
Theorem sgln_keys u cp loc ext gln :
  sgln_uri u cp loc ext -> completed (cp ++ loc) gln ->
  exists x, sgln_init u = Ok x /\ sgln_gs1_key x = gln /\
    sgln_gs1_element_string x = lit "(414)" ++ gln ++ lit "(254)" ++ unescape ext.
Proof.
  intros U C. exists (mkSgln u cp loc ext gln). split; [apply sgln_iff; cbn; eauto 10|]. split; [reflexivity|].
  unfold sgln_gs1_element_string. rewrite unescape_spec. reflexivity.
Qed.
Theorem grai_keys u cp asset serial k :
  grai_uri u cp asset serial -> completed (cp ++ asset) k ->
  exists x, grai_init u = Ok x /\ grai_gs1_key x = k ++ unescape serial /\
    grai_gs1_element_string x = lit "(8003)0" ++ k ++ unescape serial.
Proof.
  intros U C. exists (mkGrai u cp asset serial (k ++ unescape serial)). split; [apply grai_iff; cbn; eauto 10|]. split; reflexivity.
Qed.
Theorem gdti_keys u cp doc serial k :
  gdti_uri u cp doc serial -> completed (cp ++ doc) k ->
  exists x, gdti_init u = Ok x /\ gdti_gs1_key x = k ++ unescape serial /\
    gdti_gs1_element_string x = lit "(253)" ++ k ++ unescape serial.
Proof.
  intros U C. exists (mkGdti u cp doc serial (k ++ unescape serial)). split; [apply gdti_iff; cbn; eauto 10|]. split; reflexivity.
Qed.
Theorem gsrn_keys u cp service k :
  gsrn_uri u cp service -> completed (cp ++ service) k ->
  exists x, gsrn_init u = Ok x /\ gsrn_gs1_key x = k /\ gsrn_gs1_element_string x = lit "(8018)" ++ k.
Proof.
  intros U C. exists (mkGsrn u cp service k). split; [apply gsrn_iff; cbn; eauto 10|]. split; reflexivity.
Qed.
Theorem gsrnp_keys u cp service k :
  gsrnp_uri u cp service -> completed (cp ++ service) k ->
  exists x, gsrnp_init u = Ok x /\ gsrnp_gs1_key x = k /\ gsrnp_gs1_element_string x = lit "(8017)" ++ k.
Proof.
  intros U C. exists (mkGsrnp u cp service k). split; [apply gsrnp_iff; cbn; eauto 10|]. split; reflexivity.
Qed.
Theorem sgcn_keys u cp coupon serial k :
  sgcn_uri u cp coupon serial -> completed (cp ++ coupon) k ->
  exists x, sgcn_init u = Ok x /\ sgcn_gs1_key x = k ++ serial /\ sgcn_gs1_element_string x = lit "(255)" ++ k ++ serial.
Proof.
  intros U C. exists (mkSgcn u cp coupon serial (k ++ serial)). split; [apply sgcn_iff; cbn; eauto 10|]. split; reflexivity.
Qed.
Theorem pgln_keys u cp party k :
  pgln_uri u cp party -> completed (cp ++ party) k ->
  exists x, pgln_init u = Ok x /\ pgln_gs1_key x = k /\ pgln_gs1_element_string x = lit "(417)" ++ k.
Proof.
  intros U C. exists (mkPgln u cp party k). split; [apply pgln_iff; cbn; eauto 10|]. split; reflexivity.
Qed.
Theorem gsin_keys u cp ref k :
  gsin_uri u cp ref -> completed (cp ++ ref) k ->
  exists x, gsin_init u = Ok x /\ gsin_gs1_key x = k /\ gsin_gs1_element_string x = lit "(402)" ++ k.
Proof.
  intros U C. exists (mkGsin u cp ref k). split; [apply gsin_iff; cbn; eauto 10|]. split; reflexivity.
Qed.
Theorem giai_keys u cp asset ignored :
  giai_uri u cp asset ignored ->
  exists x, giai_init u = Ok x /\ giai_gs1_key x = cp ++ unescape asset /\
    giai_gs1_element_string x = lit "(8004)" ++ cp ++ unescape asset.
Proof.
  intros U. exists (mkGiai u cp asset (cp ++ unescape asset)). split; [apply giai_iff; cbn; eauto 10|]. split; reflexivity.
Qed.
Theorem ginc_keys u cp ref :
  ginc_uri u cp ref ->
  exists x, ginc_init u = Ok x /\ ginc_gs1_key x = cp ++ unescape ref /\
    ginc_gs1_element_string x = lit "(401)" ++ cp ++ unescape ref.
Proof.
  intros U. exists (mkGinc u (cp ++ unescape ref)). split; [apply ginc_iff; cbn; eauto 10|]. split; reflexivity.
Qed.
Theorem itip_element u cp i rest piece total serial gtin :
  itip_uri u cp (i :: rest) piece total serial -> completed (i :: cp ++ rest) gtin ->
  exists x, itip_init u = Ok x /\
    itip_gs1_element_string x = Ok (lit "(8006)" ++ gtin ++ piece ++ total ++ lit "(21)" ++ unescape serial).
Proof.
  intros U C. exists (mkItip u cp (i :: rest) piece total serial). split; [apply itip_iff; cbn; eauto 10|].
  destruct U as (_ & (C1 & _) & I & _). apply digits_iff in C1, I. cbn [forallb] in I. apply andb_true_iff in I as [I1 I2].
  unfold itip_gs1_element_string. cbn [itip_item itip_cp itip_piece itip_total itip_serial idx nth_error of_option bind skipn].
  destruct (checksum_completed (i :: cp ++ rest)) as (z & Z & K); [cbn [forallb]; rewrite I1, forallb_app', C1, I2; reflexivity|].
  rewrite Z. cbn [bind]. apply K in C. subst gtin. rewrite unescape_spec. cbn [app]. rewrite <- !app_assoc. reflexivity.
Qed.
Theorem upui_element u cp i rest tpx gtin :
  upui_uri u cp (i :: rest) tpx -> completed (i :: cp ++ rest) gtin ->
  exists x, upui_init u = Ok x /\ upui_gs1_element_string x = Ok (lit "(01)" ++ gtin ++ lit "(235)" ++ unescape tpx).
Proof.
  intros U C. exists (mkUpui u cp (i :: rest) (unescape tpx)). split; [apply upui_iff; cbn; eauto 10|].
  destruct U as (_ & C1 & _ & I & _). apply digits_iff in C1, I. cbn [forallb] in I. apply andb_true_iff in I as [I1 I2].
  unfold upui_gs1_element_string. cbn [upui_item upui_cp upui_tpx idx nth_error of_option bind skipn].
  destruct (checksum_completed (i :: cp ++ rest)) as (z & Z & K); [cbn [forallb]; rewrite I1, forallb_app', C1, I2; reflexivity|].
  rewrite Z. cbn [bind]. apply K in C. subst gtin. cbn [app]. rewrite <- !app_assoc. reflexivity.
Qed.
(** UPUI accepts an empty item reference; its element string then cannot be built *)
Theorem upui_element_fails u cp tpx : upui_uri u cp [] tpx ->
  exists x, upui_init u = Ok x /\ upui_gs1_element_string x = Raise IndexError.
Proof. intros U. exists (mkUpui u cp [] (unescape tpx)). split; [apply upui_iff; cbn; eauto 10|reflexivity]. Qed.
Theorem cpi_element u cp t serial : company_prefix cp -> six_bit_text t -> cpi_uri u cp (escape6 t) serial ->
  exists x, cpi_init u = Ok x /\ cpi_gs1_element_string x = lit "(8010)" ++ cp ++ t ++ lit "(8011)" ++ serial.
Proof.
  intros C T U. exists (mkCpi u cp (escape6 t) serial). split; [apply cpi_iff; cbn; auto|].
  unfold cpi_gs1_element_string. cbn [cpi_cp cpi_ref cpi_serial]. rewrite Escapes.replace_cpi_escapes_spec, unesc_escape6 by exact T. reflexivity.
Qed.
(** every digit string has exactly one completion *)
Theorem completed_exists s : exists k, completed s k.
Proof. eexists. apply completed_iff. reflexivity. Qed.
