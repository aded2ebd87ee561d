(** The source text of epcpy/epc_schemes/gsin.py on the machine. *)
From Coq Require Import String Lia.
From Verif.Model Require Import Py PyFloat Re Sre PyFormat Syntax Machine Regexes Common Base Others.
From Verif.Source Require Import World.
From Verif.Proofs Require Import Basics Num SreTexts SreUse SrcUse SrcBase.

Ltac start := let k := fresh "k" in intros k; cbv [gsin_obj]; enter.
Lemma g_checksum s : gives "gsin.calculate_checksum" [VStr s] (out VInt (gsin_calculate_checksum s)).
Proof.
  intros k. enter. unfold gsin_calculate_checksum.
  eapply reach_trans.
  { apply (comp_strs W "d" _ _ int10 VInt). intros x ac k'. go. destruct (int10 x); done. }
  rewrite map_res_map. destruct (map_res _ s) as [l|] eqn:M; cbn [ret_to bind]; go; [|done]. cbn [rev app].
  change (2 =? 0)%Z with false. change (10 =? 0)%Z with false. cbv iota. rewrite odds_map, evens_map, !ints_of_map, !zadd_zsum. done.
Qed.
Lemma gsin_checksum_str s z : gsin_calculate_checksum s = Ok z -> str_int z = Ok (dec z).
Proof.
  unfold gsin_calculate_checksum. destruct (map_res _ s) as [l|]; [|discriminate]. cbn [bind].
  enough (G : forall a, str_int (a mod 10) = Ok (dec (a mod 10))) by (intros [= <-]; apply G).
  intros a. pose proof (Z.mod_pos_bound a 10 eq_refl) as B. set (y := (a mod 10)%Z) in *. clearbody y. rewrite <- (Z2Nat.id y) by lia.
  rewrite <- nat_N_Z. rewrite dec_of_N. apply str_int_spec, (intable_ndec _ 10); lia.
Qed.

Lemma g_init u : builds "gsin.GSIN" (fun u => result gsin_obj (gsin_init u)) u.
Proof. 
  intros k. inits. full agree_GSIN_URI. unfold gsin_init, field4, idx, cp_len_ok, unpack2. consts. runs;
    match goal with |- reach _ (StCall _ [VStr ?s] _ _ _) _ =>
      callr (g_checksum s) as [?|?] E; cbn [of_option bind]; [rewrite (gsin_checksum_str _ _ E)|] end; runs.
 Qed.
Lemma g_from_epc_uri u : gives "base_scheme.EPCScheme.from_epc_uri" [VClass "gsin.GSIN"; VStr u] (result gsin_obj (gsin_init u)).
Proof. intros k. enter. tailcall g_init. done. Qed.
Lemma g_gs1_key x : gives "gsin.GSIN.gs1_key" [gsin_obj x] (Returned (VStr (gsin_gs1_key x))).
Proof. start. done. Qed.
Lemma g_gs1_element_string x : gives "gsin.GSIN.gs1_element_string" [gsin_obj x] (Returned (VStr (gsin_gs1_element_string x))).
Proof. start; runs; try done. Qed.
Lemma g_from_gs1_element_string s n : gives "gsin.GSIN.from_gs1_element_string" [VClass "gsin.GSIN"; VStr s; VInt n]
  (result gsin_obj (gsin_from_gs1_element_string s n)).
Proof. start. full agree_GSIN_GS1_ELEMENT_STRING. unfold gsin_from_gs1_element_string, unpack2, unpack3, idx; consts. runs. tailcall g_init. done. Qed.

(** * The claims *)

Lemma gsin_construct :
  (forall u args kws, passed1 "epc_uri" (VStr u) args kws -> calls W (VClass "gsin.GSIN") args kws (result gsin_obj (gsin_init u))) /\
  (forall u args kws, passed1 "epc_uri" (VStr u) args kws -> invokes W (VClass "gsin.GSIN") "from_epc_uri" args kws (result gsin_obj (gsin_init u))).
Proof.
  split; intros u args kws P; ways P; first [called (g_init u) | invoked (g_from_epc_uri u)].
Qed.
Lemma gsin_gs1 :
  (forall x, invokes W (gsin_obj x) "gs1_key" [] [] (Returned (VStr (gsin_gs1_key x)))) /\
  (forall x, invokes W (gsin_obj x) "gs1_element_string" [] [] (Returned (VStr (gsin_gs1_element_string x)))) /\
  (forall s n args kws, passed2 "gs1_element_string" "company_prefix_length" (VStr s) (VInt n) args kws ->
     invokes W (VClass "gsin.GSIN") "from_gs1_element_string" args kws (result gsin_obj (gsin_from_gs1_element_string s n))).
Proof.
  repeat apply conj.
  - intros x. cbv [gsin_obj]. invoked (g_gs1_key x).
  - intros x. cbv [gsin_obj]. invoked (g_gs1_element_string x).
  - intros s n args kws P. ways P; invoked (g_from_gs1_element_string s n).
Qed.
