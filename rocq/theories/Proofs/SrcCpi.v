(** The source text of epcpy/epc_schemes/cpi.py on the machine. *)
From Coq Require Import String Lia.
From Verif.Model Require Import Py PyFloat Re Sre PyFormat Syntax Machine Regexes Common Base Cpi.
From Verif.Source Require Import World.
From Verif.Proofs Require Import Basics Num SreTexts SreUse SrcUse SrcBase.

Ltac start := let k := fresh "k" in intros k; cbv [cpi_obj cpi_member cpi_name filter_member]; enter.
Ltac unions := repeat match goal with |- context [strs_of [VStr ?a; VStr ?b]] => change (strs_of [VStr a; VStr b]) with (Some [a; b]); cbv match;
  change (join [] [a; b]) with (a ++ b) end.
Lemma g_replace s : gives "cpi.replace_cpi_escapes" [VStr s] (Returned (VStr (replace_cpi_escapes s))).
Proof. intros k. enter. done. Qed.
Lemma g_revert s : gives "cpi.revert_cpi_escapes" [VStr s] (Returned (VStr (revert_cpi_escapes s))).
Proof. intros k. enter. done. Qed.
Lemma cpi_L_96 : table_of (ns_dict "cpi" "PARTITION_TABLE_L_96") cpi_table_L_96.
Proof. table. Qed.
Lemma cpi_L_var : table_of (ns_dict "cpi" "PARTITION_TABLE_L_VAR") cpi_table_L_var.
Proof. table. Qed.
Lemma cpi_P_96 : table_of (ns_dict "cpi" "PARTITION_TABLE_P_96") cpi_table_P_96.
Proof. table. Qed.
Lemma cpi_P_var : table_of (ns_dict "cpi" "PARTITION_TABLE_P_VAR") cpi_table_P_var.
Proof. table. Qed.

Lemma g_init u : builds "cpi.CPI" (fun u => result cpi_obj (cpi_init u)) u.
Proof. intros k. inits. full agree_CPI_URI. unfold cpi_init, field4, idx, cp_len_ok, unpack3. consts. repeat (unions; simples; next). Qed.
Lemma g_from_epc_uri u : gives "base_scheme.EPCScheme.from_epc_uri" [VClass "cpi.CPI"; VStr u] (result cpi_obj (cpi_init u)).
Proof. intros k. enter. tailcall g_init. done. Qed.
Lemma g_gs1_element_string x : gives "cpi.CPI.gs1_element_string" [cpi_obj x] (Returned (VStr (cpi_gs1_element_string x))).
Proof. start. call (g_replace (cpi_ref x)). done. Qed.
Lemma g_from_gs1_element_string s n : gives "cpi.CPI.from_gs1_element_string" [VClass "cpi.CPI"; VStr s; VInt n]
  (result cpi_obj (cpi_from_gs1_element_string s n)).
Proof. start. full agree_CPI_GS1_ELEMENT_STRING. cut_at cut_paren4. unfold cpi_from_gs1_element_string, unpack3, idx; consts. runs. call g_revert. runs. tailcall g_init. done. Qed.
Lemma g_tag_uri x s c nm f : gives "cpi.CPI.tag_uri" [cpi_obj x; cpi_member s; filter_member c nm f] (result VStr (cpi_tag_uri x s f)).
Proof. destruct s; start; unfold cpi_tag_uri, bad_numeric_serial; consts; heads; runs. Qed.
Lemma g_binary x s c nm f : gives "cpi.CPI.binary" [cpi_obj x; cpi_member s; filter_member c nm f] (result VStr (cpi_binary x s f)).
Proof. destruct s; start; member; unfold cpi_binary; runs; first [ept cpi_L_96 | ept cpi_L_var]; runs. Qed.
Lemma g_hex any kws x s c nm f : args_sf (cpi_member s) (filter_member c nm f) [] kws -> (forall b, cpi_binary x s f = Ok b -> fits (length b)) ->
  gives_kw "base_scheme.TagEncodable.hex" (cpi_obj x :: any) kws (result VStr (binary_hex (cpi_binary x s f))).
Proof. intros P F. cbv [cpi_obj]. ways P. all: match goal with |- context [cpi_binary ?x ?s ?f] => first [hex_by F (g_binary x s c nm f) | hex_by F (g_binary x s "cpi.CPIFilterValue" "ALL_OTHERS" f)] end. Qed.
Lemma g_base64 any kws x s c nm f : args_sf (cpi_member s) (filter_member c nm f) [] kws -> (forall b, cpi_binary x s f = Ok b -> fits (length b)) ->
  gives_kw "base_scheme.TagEncodable.base64" (cpi_obj x :: any) kws (result VStr (binary_base64 (cpi_binary x s f))).
Proof. intros P F. pose proof (g_hex [] kws x s c nm f P F) as G. cbv [cpi_obj]. ways P. all: base64_by G. Qed.
Lemma g_header_to_schemes : gives "base_scheme.TagEncodable.header_to_schemes" [VClass "cpi.CPI"] (Returned (VDict (dict_of cpi_member cpi_header_to_schemes))).
Proof. intros k. enter. repeat (member; try enter). done. Qed.
Lemma g_header s : gives "common.parse_header_and_truncate_binary" [VStr s; VDict (dict_of cpi_member cpi_header_to_schemes)]
  (result (fun r => VTuple [cpi_member (fst r); VStr (snd r)]) (parse_header_and_truncate_binary cpi_scheme_value s cpi_header_to_schemes)).
Proof. exact (g_parse_header "cpi.CPI.BinaryCodingScheme" cpi_name cpi_scheme_value s cpi_header_to_schemes). Qed.
Lemma g_from_tag s b : gives "base_scheme.TagEncodable.from_tag_uri" [VClass "cpi.CPI"; VStr s; VBool b] (result cpi_obj (from_tag_uri cpi_init s b)).
Proof. exact (g_from_tag_uri "cpi.CPI" cpi_obj cpi_init g_init s b). Qed.
Lemma g_from_binary s : gives "cpi.CPI.from_binary" [VClass "cpi.CPI"; VStr s] (result cpi_obj (cpi_from_binary s)).
Proof.
  start. call g_header_to_schemes. use g_header. unfold cpi_from_binary. headed E.
  cbn [bind]. destruct sc; cbv [cpi_member cpi_name]; enter.
  - header_len1 E. prims. dpt cpi_P_96; [|done]. runs; tailalike g_from_tag; done.
  - prims. dpt cpi_P_var; [|done]. prims. callr (g_binary_to_int (firstn 3 (skipn 11 t))) as [p|?] E1; cbn [bind]; [|done].
    pose proof (table_get _ _ p cpi_P_var) as G. destruct (Common.lookup _ _) as [r|]; [|get G; done].
    destruct G as (v & G & (e & -> & HP & HM & HL & HN & HK & bM & bL & bN & bK)). get G. get HM. cbn [of_option bind].
    rewrite <- (Nat2Z.inj_add (11 + 3)). prims. rewrite Nat2Z.id. change (Z.to_nat 14) with 14%nat. cut_group (lit "([0-1]{6})") (m_bits 6).
    match goal with |- context [cpi_serial_loop ?l false] => change (cpi_serial_loop l false) with ([] ++ cpi_serial_loop l false); generalize l end.
    intros l. pattern ([] ++ cpi_serial_loop l false).
    match goal with |- (fun z => reach W (StFor _ ?tg ?b ?ss (mkEnv ?m ?c [?x1; ?x2; ?x3; ?x4; ?x5; ?x6; _; ?x7; ?x8; ?x9; _; _; ?x10; ?x11]) ?KK) (@?R z)) _ =>
      enough (L : forall l acc is g, reach W (StFor (ItStrs l) tg b ss (mkEnv m c [x1; x2; x3; x4; x5; x6; ("serial_binary"%string, Some (VStr acc)); x7; x8; x9;
        ("is_serial"%string, Some (VBool is)); ("g"%string, g); x10; x11]) KK) (R (acc ++ cpi_serial_loop l is))) by apply L end.
    clear l. induction l as [|g l IH]; intros acc is g0.
    + enter. cbn [cpi_serial_loop]. rewrite app_nil_r. prims. change (0 <? Z.of_nat (length acc))%Z with (Z.of_nat 0 <? Z.of_nat (length acc))%Z.
      rewrite ltb_nat. change (lit "0") with [48]. destruct (0 <? length acc)%nat; runs; tailalike g_from_tag; done.
    + cbn [cpi_serial_loop]. change (lit "000000") with [48; 48; 48; 48; 48; 48]. rewrite app_assoc.
      destruct is; enter; destruct (str_eqb g _); cbn [orb]; rewrite ?app_nil_r; apply IH. 
Qed.
Lemma g_from_hex s : fits (length s * 4) ->
  gives "base_scheme.TagEncodable.from_hex" [VClass "cpi.CPI"; VStr s] (result cpi_obj (from_hex cpi_from_binary s)).
Proof. intros L. start. callr (g_hex_to_binary s L) as [b|?] E; unfold from_hex; rewrite E; cbn [bind]; [|done]. tailcall g_from_binary. done. Qed.
Lemma g_from_base64 s : fits (length s * 8) ->
  gives "base_scheme.TagEncodable.from_base64" [VClass "cpi.CPI"; VStr s] (result cpi_obj (from_base64 cpi_from_binary s)).
Proof.
  intros L. start. callr (g_base64_to_hex s) as [h|?] E; unfold from_base64; rewrite E; cbn [bind]; [|done].
  eapply reach_trans; [apply g_from_hex, (base64_fits s h E L)|]. eapply reach_trans; [apply tail|]. done.
Qed.

(** * The claims *)

Lemma cpi_construct :
  (forall u args kws, passed1 "epc_uri" (VStr u) args kws -> calls W (VClass "cpi.CPI") args kws (result cpi_obj (cpi_init u))) /\
  (forall u args kws, passed1 "epc_uri" (VStr u) args kws -> invokes W (VClass "cpi.CPI") "from_epc_uri" args kws (result cpi_obj (cpi_init u))).
Proof.
  split; intros u args kws P; ways P; first [called (g_init u) | invoked (g_from_epc_uri u)].
Qed.
Lemma cpi_gs1 :
  (forall x, invokes W (cpi_obj x) "gs1_element_string" [] [] (Returned (VStr (cpi_gs1_element_string x)))) /\
  (forall s n args kws, passed2 "gs1_element_string" "company_prefix_length" (VStr s) (VInt n) args kws ->
     invokes W (VClass "cpi.CPI") "from_gs1_element_string" args kws (result cpi_obj (cpi_from_gs1_element_string s n))).
Proof.
  repeat apply conj.
  - intros x. cbv [cpi_obj]. invoked (g_gs1_element_string x).
  - intros s n args kws P. ways P; invoked (g_from_gs1_element_string s n).
Qed.
Lemma cpi_encode :
  (forall x s c nm f args kws, args_sf (cpi_member s) (filter_member c nm f) args kws ->
     invokes W (cpi_obj x) "tag_uri" args kws (result VStr (cpi_tag_uri x s f))) /\
  (forall x s c nm f args kws, args_sf (cpi_member s) (filter_member c nm f) args kws ->
     invokes W (cpi_obj x) "binary" args kws (result VStr (cpi_binary x s f))) /\
  (forall x s c nm f args kws, args_sf (cpi_member s) (filter_member c nm f) [] kws -> (forall b, cpi_binary x s f = Ok b -> fits (length b)) ->
     invokes W (cpi_obj x) "hex" args kws (result VStr (binary_hex (cpi_binary x s f)))) /\
  (forall x s c nm f args kws, args_sf (cpi_member s) (filter_member c nm f) [] kws -> (forall b, cpi_binary x s f = Ok b -> fits (length b)) ->
     invokes W (cpi_obj x) "base64" args kws (result VStr (binary_base64 (cpi_binary x s f)))).
Proof.
  repeat apply conj.
  - intros x s c nm f args kws P. cbv [cpi_obj]. ways P; match goal with |- context [cpi_tag_uri ?x ?s ?f] => first [invoked (g_tag_uri x s c nm f) | invoked (g_tag_uri x s "cpi.CPIFilterValue" "ALL_OTHERS" f)] end.
  - intros x s c nm f args kws P. cbv [cpi_obj]. ways P; match goal with |- context [cpi_binary ?x ?s ?f] => first [invoked (g_binary x s c nm f) | invoked (g_binary x s "cpi.CPIFilterValue" "ALL_OTHERS" f)] end.
  - intros x s c nm f args kws P F. exact (g_hex args kws x s c nm f P F []).
  - intros x s c nm f args kws P F. exact (g_base64 args kws x s c nm f P F []).
Qed.
Lemma cpi_decode :
  invokes W (VClass "cpi.CPI") "header_to_schemes" [] [] (Returned (VDict (dict_of cpi_member cpi_header_to_schemes))) /\
  (forall u args kws, passed1 "epc_tag_uri" (VStr u) args kws -> invokes W (VClass "cpi.CPI") "from_tag_uri" args kws (result cpi_obj (cpi_from_tag_uri u))) /\
  (forall u b args kws, passed2 "epc_tag_uri" "includes_filter" (VStr u) (VBool b) args kws ->
     invokes W (VClass "cpi.CPI") "from_tag_uri" args kws (result cpi_obj (from_tag_uri cpi_init u b))) /\
  (forall s args kws, passed1 "binary_string" (VStr s) args kws -> invokes W (VClass "cpi.CPI") "from_binary" args kws (result cpi_obj (cpi_from_binary s))) /\
  (forall s args kws, passed1 "tag_hex_string" (VStr s) args kws -> fits (length s * 4) ->
     invokes W (VClass "cpi.CPI") "from_hex" args kws (result cpi_obj (from_hex cpi_from_binary s))) /\
  (forall s args kws, passed1 "tag_base64_string" (VStr s) args kws -> fits (length s * 8) ->
     invokes W (VClass "cpi.CPI") "from_base64" args kws (result cpi_obj (from_base64 cpi_from_binary s))).
Proof.
  repeat apply conj.
  - invoked g_header_to_schemes.
  - intros u args kws P. ways P; invoked (g_from_tag u true).
  - intros u b args kws P. ways P; invoked (g_from_tag u b).
  - intros s args kws P. ways P; invoked (g_from_binary s).
  - intros s args kws P L. ways P; invoked (g_from_hex s L).
  - intros s args kws P L. ways P; invoked (g_from_base64 s L).
Qed.
