(** The source text of epcpy/epc_schemes/giai.py on the machine. *)
From Coq Require Import String Lia.
From Verif.Model Require Import Py PyFloat Re Sre PyFormat Syntax Machine Regexes Common Base Giai.
From Verif.Source Require Import World.
From Verif.Proofs Require Import Basics Num SreTexts SreUse SrcUse SrcBase.

Ltac start := let k := fresh "k" in intros k; cbv [giai_obj giai_member giai_name filter_member]; enter.
Lemma giai_L_96 : table_of (ns_dict "giai" "PARTITION_TABLE_L_96") giai_table_L_96.
Proof. table. Qed.
Lemma giai_L_202 : table_of (ns_dict "giai" "PARTITION_TABLE_L_202") giai_table_L_202.
Proof. table. Qed.
Lemma giai_P_96 : table_of (ns_dict "giai" "PARTITION_TABLE_P_96") giai_table_P_96.
Proof. table. Qed.
Lemma giai_P_202 : table_of (ns_dict "giai" "PARTITION_TABLE_P_202") giai_table_P_202.
Proof. table. Qed.

Lemma g_init u : builds "giai.GIAI" (fun u => result giai_obj (giai_init u)) u.
Proof. intros k. inits. full agree_GIAI_URI. unfold giai_init, field4, tail4, idx, cp_len_ok, unpack2, unpack3, unpack1_rest, unpack2_rest, unpack4_rest. consts. runs. Qed.
Lemma g_from_epc_uri u : gives "base_scheme.EPCScheme.from_epc_uri" [VClass "giai.GIAI"; VStr u] (result giai_obj (giai_init u)).
Proof. intros k. enter. tailcall g_init. done. Qed.
Lemma g_gs1_key x : gives "giai.GIAI.gs1_key" [giai_obj x] (Returned (VStr (giai_gs1_key x))).
Proof. start. done. Qed.
Lemma g_gs1_element_string x : gives "giai.GIAI.gs1_element_string" [giai_obj x] (Returned (VStr (giai_gs1_element_string x))).
Proof. start; runs; try done. Qed.
Lemma g_from_gs1_element_string s n : gives "giai.GIAI.from_gs1_element_string" [VClass "giai.GIAI"; VStr s; VInt n]
  (result giai_obj (giai_from_gs1_element_string s n)).
Proof. start. full agree_GIAI_GS1_ELEMENT_STRING. unfold giai_from_gs1_element_string, unpack2, unpack3, idx; consts. runs. tailcall g_init. done. Qed.
Lemma g_tag_uri x s c nm f : gives "giai.GIAI.tag_uri" [giai_obj x; giai_member s; filter_member c nm f] (result VStr (giai_tag_uri x s f)).
Proof. 
  destruct s; start; unfold giai_tag_uri, bad_numeric_serial; consts; heads; runs.
  - pose proof (table_get _ _ (Z.of_nat (length (giai_cp x))) giai_L_96) as G. destruct (Common.lookup _ _) as [r|]; [|get G; done].
    destruct G as (v & G & (e & -> & HP & HM & HL & HN & HK & bM & bL & bN & bK)). get G. get HK. cbn [of_option bind]. rewrite ltb_nat.
    destruct (rK r <? _)%nat; cbn [of_option bind raise_if]; [done|]. destruct (int10 (giai_asset x)); cbn [bind]; [|done]. get G. get HN.
    replace (Z.of_nat (rN r) <? 0)%Z with false by lia. heads. cbv match. runs.
  - pose proof (table_get _ _ (Z.of_nat (length (giai_cp x))) giai_L_202) as G. destruct (Common.lookup _ _) as [r|]; [|get G; done].
    destruct G as (v & G & (e & -> & HP & HM & HL & HN & HK & bM & bL & bN & bK)). get G. get HK. cbn [of_option bind]. rewrite ltb_nat. runs.
 Qed.
Lemma g_binary x s c nm f : gives "giai.GIAI.binary" [giai_obj x; giai_member s; filter_member c nm f] (result VStr (giai_binary x s f)).
Proof. destruct s; start; member; unfold giai_binary; runs; first [ept giai_L_96 | ept giai_L_202]; runs. Qed.
Lemma g_hex any kws x s c nm f : args_sf (giai_member s) (filter_member c nm f) [] kws -> (forall b, giai_binary x s f = Ok b -> fits (length b)) ->
  gives_kw "base_scheme.TagEncodable.hex" (giai_obj x :: any) kws (result VStr (binary_hex (giai_binary x s f))).
Proof. intros P F. cbv [giai_obj]. ways P. all: match goal with |- context [giai_binary ?x ?s ?f] => first [hex_by F (g_binary x s c nm f) | hex_by F (g_binary x s "giai.GIAIFilterValue" "ALL_OTHERS" f)] end. Qed.
Lemma g_base64 any kws x s c nm f : args_sf (giai_member s) (filter_member c nm f) [] kws -> (forall b, giai_binary x s f = Ok b -> fits (length b)) ->
  gives_kw "base_scheme.TagEncodable.base64" (giai_obj x :: any) kws (result VStr (binary_base64 (giai_binary x s f))).
Proof. intros P F. pose proof (g_hex [] kws x s c nm f P F) as G. cbv [giai_obj]. ways P. all: base64_by G. Qed.
Lemma g_header_to_schemes : gives "base_scheme.TagEncodable.header_to_schemes" [VClass "giai.GIAI"] (Returned (VDict (dict_of giai_member giai_header_to_schemes))).
Proof. intros k. enter. repeat (member; try enter). done. Qed.
Lemma g_header s : gives "common.parse_header_and_truncate_binary" [VStr s; VDict (dict_of giai_member giai_header_to_schemes)]
  (result (fun r => VTuple [giai_member (fst r); VStr (snd r)]) (parse_header_and_truncate_binary giai_scheme_value s giai_header_to_schemes)).
Proof. exact (g_parse_header "giai.GIAI.BinaryCodingScheme" giai_name giai_scheme_value s giai_header_to_schemes). Qed.
Lemma g_from_tag s b : gives "base_scheme.TagEncodable.from_tag_uri" [VClass "giai.GIAI"; VStr s; VBool b] (result giai_obj (from_tag_uri giai_init s b)).
Proof. exact (g_from_tag_uri "giai.GIAI" giai_obj giai_init g_init s b). Qed.
Lemma g_from_binary s : gives "giai.GIAI.from_binary" [VClass "giai.GIAI"; VStr s] (result giai_obj (giai_from_binary s)).
Proof.
  start. call g_header_to_schemes. use g_header. unfold giai_from_binary. headed E. header_len E.
  cbn [bind]. destruct sc; cbv [giai_member giai_name]; enter; runs; first [dpt giai_P_96 | dpt giai_P_202]; runs; tailalike g_from_tag; done.
Qed.
Lemma g_from_hex s : fits (length s * 4) ->
  gives "base_scheme.TagEncodable.from_hex" [VClass "giai.GIAI"; VStr s] (result giai_obj (from_hex giai_from_binary s)).
Proof. intros L. start. callr (g_hex_to_binary s L) as [b|?] E; unfold from_hex; rewrite E; cbn [bind]; [|done]. tailcall g_from_binary. done. Qed.
Lemma g_from_base64 s : fits (length s * 8) ->
  gives "base_scheme.TagEncodable.from_base64" [VClass "giai.GIAI"; VStr s] (result giai_obj (from_base64 giai_from_binary s)).
Proof.
  intros L. start. callr (g_base64_to_hex s) as [h|?] E; unfold from_base64; rewrite E; cbn [bind]; [|done].
  eapply reach_trans; [apply g_from_hex, (base64_fits s h E L)|]. eapply reach_trans; [apply tail|]. done.
Qed.

(** * The claims *)

Lemma giai_construct :
  (forall u args kws, passed1 "epc_uri" (VStr u) args kws -> calls W (VClass "giai.GIAI") args kws (result giai_obj (giai_init u))) /\
  (forall u args kws, passed1 "epc_uri" (VStr u) args kws -> invokes W (VClass "giai.GIAI") "from_epc_uri" args kws (result giai_obj (giai_init u))).
Proof.
  split; intros u args kws P; ways P; first [called (g_init u) | invoked (g_from_epc_uri u)].
Qed.
Lemma giai_gs1 :
  (forall x, invokes W (giai_obj x) "gs1_key" [] [] (Returned (VStr (giai_gs1_key x)))) /\
  (forall x, invokes W (giai_obj x) "gs1_element_string" [] [] (Returned (VStr (giai_gs1_element_string x)))) /\
  (forall s n args kws, passed2 "gs1_element_string" "company_prefix_length" (VStr s) (VInt n) args kws ->
     invokes W (VClass "giai.GIAI") "from_gs1_element_string" args kws (result giai_obj (giai_from_gs1_element_string s n))).
Proof.
  repeat apply conj.
  - intros x. cbv [giai_obj]. invoked (g_gs1_key x).
  - intros x. cbv [giai_obj]. invoked (g_gs1_element_string x).
  - intros s n args kws P. ways P; invoked (g_from_gs1_element_string s n).
Qed.
Lemma giai_encode :
  (forall x s c nm f args kws, args_sf (giai_member s) (filter_member c nm f) args kws ->
     invokes W (giai_obj x) "tag_uri" args kws (result VStr (giai_tag_uri x s f))) /\
  (forall x s c nm f args kws, args_sf (giai_member s) (filter_member c nm f) args kws ->
     invokes W (giai_obj x) "binary" args kws (result VStr (giai_binary x s f))) /\
  (forall x s c nm f args kws, args_sf (giai_member s) (filter_member c nm f) [] kws -> (forall b, giai_binary x s f = Ok b -> fits (length b)) ->
     invokes W (giai_obj x) "hex" args kws (result VStr (binary_hex (giai_binary x s f)))) /\
  (forall x s c nm f args kws, args_sf (giai_member s) (filter_member c nm f) [] kws -> (forall b, giai_binary x s f = Ok b -> fits (length b)) ->
     invokes W (giai_obj x) "base64" args kws (result VStr (binary_base64 (giai_binary x s f)))).
Proof.
  repeat apply conj.
  - intros x s c nm f args kws P. cbv [giai_obj]. ways P; match goal with |- context [giai_tag_uri ?x ?s ?f] => first [invoked (g_tag_uri x s c nm f) | invoked (g_tag_uri x s "giai.GIAIFilterValue" "ALL_OTHERS" f)] end.
  - intros x s c nm f args kws P. cbv [giai_obj]. ways P; match goal with |- context [giai_binary ?x ?s ?f] => first [invoked (g_binary x s c nm f) | invoked (g_binary x s "giai.GIAIFilterValue" "ALL_OTHERS" f)] end.
  - intros x s c nm f args kws P F. exact (g_hex args kws x s c nm f P F []).
  - intros x s c nm f args kws P F. exact (g_base64 args kws x s c nm f P F []).
Qed.
Lemma giai_decode :
  invokes W (VClass "giai.GIAI") "header_to_schemes" [] [] (Returned (VDict (dict_of giai_member giai_header_to_schemes))) /\
  (forall u args kws, passed1 "epc_tag_uri" (VStr u) args kws -> invokes W (VClass "giai.GIAI") "from_tag_uri" args kws (result giai_obj (giai_from_tag_uri u))) /\
  (forall u b args kws, passed2 "epc_tag_uri" "includes_filter" (VStr u) (VBool b) args kws ->
     invokes W (VClass "giai.GIAI") "from_tag_uri" args kws (result giai_obj (from_tag_uri giai_init u b))) /\
  (forall s args kws, passed1 "binary_string" (VStr s) args kws -> invokes W (VClass "giai.GIAI") "from_binary" args kws (result giai_obj (giai_from_binary s))) /\
  (forall s args kws, passed1 "tag_hex_string" (VStr s) args kws -> fits (length s * 4) ->
     invokes W (VClass "giai.GIAI") "from_hex" args kws (result giai_obj (from_hex giai_from_binary s))) /\
  (forall s args kws, passed1 "tag_base64_string" (VStr s) args kws -> fits (length s * 8) ->
     invokes W (VClass "giai.GIAI") "from_base64" args kws (result giai_obj (from_base64 giai_from_binary s))).
Proof.
  repeat apply conj.
  - invoked g_header_to_schemes.
  - intros u args kws P. ways P; invoked (g_from_tag u true).
  - intros u b args kws P. ways P; invoked (g_from_tag u b).
  - intros s args kws P. ways P; invoked (g_from_binary s).
  - intros s args kws P L. ways P; invoked (g_from_hex s L).
  - intros s args kws P L. ways P; invoked (g_from_base64 s L).
Qed.
