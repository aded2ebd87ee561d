(** The source text of epcpy/epc_schemes/sscc.py on the machine. *)
From Coq Require Import String Lia.
From Verif.Model Require Import Py PyFloat Re Sre PyFormat Syntax Machine Regexes Common Base Sscc.
From Verif.Source Require Import World.
From Verif.Proofs Require Import Basics Num SreTexts SreUse SrcUse SrcBase.

Ltac start := let k := fresh "k" in intros k; cbv [sscc_obj sscc_member sscc_name filter_member]; enter.
Lemma sscc_L : table_of (ns_dict "sscc" "PARTITION_TABLE_L") sscc_table_L.
Proof. table. Qed.
Lemma sscc_P : table_of (ns_dict "sscc" "PARTITION_TABLE_P") sscc_table_P.
Proof. table. Qed.

Lemma g_init u : builds "sscc.SSCC" (fun u => result sscc_obj (sscc_init u)) u.
Proof. intros k. inits. full agree_SSCC_URI. unfold sscc_init, idx, cp_len_ok, unpack2. rewrite py_last. consts. change (- (1))%Z with (-1)%Z. runs. Qed.
Lemma g_from_epc_uri u : gives "base_scheme.EPCScheme.from_epc_uri" [VClass "sscc.SSCC"; VStr u] (result sscc_obj (sscc_init u)).
Proof. intros k. enter. tailcall g_init. done. Qed.
Lemma g_gs1_key x : gives "sscc.SSCC.gs1_key" [sscc_obj x] (Returned (VStr (sscc_gs1_key x))).
Proof. start. done. Qed.
Lemma g_gs1_element_string x : gives "sscc.SSCC.gs1_element_string" [sscc_obj x] (Returned (VStr (sscc_gs1_element_string x))).
Proof. start; runs; try done. Qed.
Lemma g_from_gs1_element_string s n : gives "sscc.SSCC.from_gs1_element_string" [VClass "sscc.SSCC"; VStr s; VInt n]
  (result sscc_obj (sscc_from_gs1_element_string s n)).
Proof. start. full agree_SSCC_GS1_ELEMENT_STRING. cut_at cut_paren2. unfold sscc_from_gs1_element_string, unpack2, idx; consts. change sscc_m_paren2 with Sgtin.m_paren2. runs. tailcall g_init. done. Qed.
Lemma g_tag_uri x s c nm f : gives "sscc.SSCC.tag_uri" [sscc_obj x; filter_member c nm f; sscc_member s] (result VStr (sscc_tag_uri x s f)).
Proof. destruct s; start; unfold sscc_tag_uri, bad_numeric_serial; consts; heads; runs. Qed.
Lemma g_binary x s c nm f : gives "sscc.SSCC.binary" [sscc_obj x; filter_member c nm f; sscc_member s] (result VStr (sscc_binary x s f)).
Proof. destruct s; start; member; unfold sscc_binary; runs; ept sscc_L; runs. Qed.
Lemma g_hex any kws x s c nm f : args_fs_default (sscc_member s) (filter_member c nm f) (s = SSCC_96) [] kws -> (forall b, sscc_binary x s f = Ok b -> fits (length b)) ->
  gives_kw "base_scheme.TagEncodable.hex" (sscc_obj x :: any) kws (result VStr (binary_hex (sscc_binary x s f))).
Proof. intros P F. cbv [sscc_obj]. ways P. all: match goal with |- context [sscc_binary ?x ?s ?f] => first [hex_by F (g_binary x s c nm f) | hex_by F (g_binary x s "sscc.SSCCFilterValue" "ALL_OTHERS" f)] end. Qed.
Lemma g_base64 any kws x s c nm f : args_fs_default (sscc_member s) (filter_member c nm f) (s = SSCC_96) [] kws -> (forall b, sscc_binary x s f = Ok b -> fits (length b)) ->
  gives_kw "base_scheme.TagEncodable.base64" (sscc_obj x :: any) kws (result VStr (binary_base64 (sscc_binary x s f))).
Proof. intros P F. pose proof (g_hex [] kws x s c nm f P F) as G. cbv [sscc_obj]. ways P. all: base64_by G. Qed.
Lemma g_header_to_schemes : gives "base_scheme.TagEncodable.header_to_schemes" [VClass "sscc.SSCC"] (Returned (VDict (dict_of sscc_member sscc_header_to_schemes))).
Proof. intros k. enter. repeat (member; try enter). done. Qed.
Lemma g_header s : gives "common.parse_header_and_truncate_binary" [VStr s; VDict (dict_of sscc_member sscc_header_to_schemes)]
  (result (fun r => VTuple [sscc_member (fst r); VStr (snd r)]) (parse_header_and_truncate_binary sscc_scheme_value s sscc_header_to_schemes)).
Proof. exact (g_parse_header "sscc.SSCC.BinaryCodingScheme" sscc_name sscc_scheme_value s sscc_header_to_schemes). Qed.
Lemma g_from_tag s b : gives "base_scheme.TagEncodable.from_tag_uri" [VClass "sscc.SSCC"; VStr s; VBool b] (result sscc_obj (from_tag_uri sscc_init s b)).
Proof. exact (g_from_tag_uri "sscc.SSCC" sscc_obj sscc_init g_init s b). Qed.
Lemma g_from_binary s : gives "sscc.SSCC.from_binary" [VClass "sscc.SSCC"; VStr s] (result sscc_obj (sscc_from_binary s)).
Proof.
  start. call g_header_to_schemes. use g_header. unfold sscc_from_binary. headed E. header_len E.
  cbn [bind]. destruct sc; cbv [sscc_member sscc_name]; enter; runs; dpt sscc_P; runs; tailalike g_from_tag; done.
Qed.
Lemma g_from_hex s : fits (length s * 4) ->
  gives "base_scheme.TagEncodable.from_hex" [VClass "sscc.SSCC"; VStr s] (result sscc_obj (from_hex sscc_from_binary s)).
Proof. intros L. start. callr (g_hex_to_binary s L) as [b|?] E; unfold from_hex; rewrite E; cbn [bind]; [|done]. tailcall g_from_binary. done. Qed.
Lemma g_from_base64 s : fits (length s * 8) ->
  gives "base_scheme.TagEncodable.from_base64" [VClass "sscc.SSCC"; VStr s] (result sscc_obj (from_base64 sscc_from_binary s)).
Proof.
  intros L. start. callr (g_base64_to_hex s) as [h|?] E; unfold from_base64; rewrite E; cbn [bind]; [|done].
  eapply reach_trans; [apply g_from_hex, (base64_fits s h E L)|]. eapply reach_trans; [apply tail|]. done.
Qed.

(** * The claims *)

Lemma sscc_construct :
  (forall u args kws, passed1 "epc_uri" (VStr u) args kws -> calls W (VClass "sscc.SSCC") args kws (result sscc_obj (sscc_init u))) /\
  (forall u args kws, passed1 "epc_uri" (VStr u) args kws -> invokes W (VClass "sscc.SSCC") "from_epc_uri" args kws (result sscc_obj (sscc_init u))).
Proof.
  split; intros u args kws P; ways P; first [called (g_init u) | invoked (g_from_epc_uri u)].
Qed.
Lemma sscc_gs1 :
  (forall x, invokes W (sscc_obj x) "gs1_key" [] [] (Returned (VStr (sscc_gs1_key x)))) /\
  (forall x, invokes W (sscc_obj x) "gs1_element_string" [] [] (Returned (VStr (sscc_gs1_element_string x)))) /\
  (forall s n args kws, passed2 "gs1_element_string" "company_prefix_length" (VStr s) (VInt n) args kws ->
     invokes W (VClass "sscc.SSCC") "from_gs1_element_string" args kws (result sscc_obj (sscc_from_gs1_element_string s n))).
Proof.
  repeat apply conj.
  - intros x. cbv [sscc_obj]. invoked (g_gs1_key x).
  - intros x. cbv [sscc_obj]. invoked (g_gs1_element_string x).
  - intros s n args kws P. ways P; invoked (g_from_gs1_element_string s n).
Qed.
Lemma sscc_encode :
  (forall x s c nm f args kws, args_fs_default (sscc_member s) (filter_member c nm f) (s = SSCC_96) args kws ->
     invokes W (sscc_obj x) "tag_uri" args kws (result VStr (sscc_tag_uri x s f))) /\
  (forall x s c nm f args kws, args_fs_default (sscc_member s) (filter_member c nm f) (s = SSCC_96) args kws ->
     invokes W (sscc_obj x) "binary" args kws (result VStr (sscc_binary x s f))) /\
  (forall x s c nm f args kws, args_fs_default (sscc_member s) (filter_member c nm f) (s = SSCC_96) [] kws -> (forall b, sscc_binary x s f = Ok b -> fits (length b)) ->
     invokes W (sscc_obj x) "hex" args kws (result VStr (binary_hex (sscc_binary x s f)))) /\
  (forall x s c nm f args kws, args_fs_default (sscc_member s) (filter_member c nm f) (s = SSCC_96) [] kws -> (forall b, sscc_binary x s f = Ok b -> fits (length b)) ->
     invokes W (sscc_obj x) "base64" args kws (result VStr (binary_base64 (sscc_binary x s f)))).
Proof.
  repeat apply conj.
  - intros x s c nm f args kws P. cbv [sscc_obj]. ways P; match goal with |- context [sscc_tag_uri ?x ?s ?f] => first [invoked (g_tag_uri x s c nm f) | invoked (g_tag_uri x s "sscc.SSCCFilterValue" "ALL_OTHERS" f)] end.
  - intros x s c nm f args kws P. cbv [sscc_obj]. ways P; match goal with |- context [sscc_binary ?x ?s ?f] => first [invoked (g_binary x s c nm f) | invoked (g_binary x s "sscc.SSCCFilterValue" "ALL_OTHERS" f)] end.
  - intros x s c nm f args kws P F. exact (g_hex args kws x s c nm f P F []).
  - intros x s c nm f args kws P F. exact (g_base64 args kws x s c nm f P F []).
Qed.
Lemma sscc_decode :
  invokes W (VClass "sscc.SSCC") "header_to_schemes" [] [] (Returned (VDict (dict_of sscc_member sscc_header_to_schemes))) /\
  (forall u args kws, passed1 "epc_tag_uri" (VStr u) args kws -> invokes W (VClass "sscc.SSCC") "from_tag_uri" args kws (result sscc_obj (sscc_from_tag_uri u))) /\
  (forall u b args kws, passed2 "epc_tag_uri" "includes_filter" (VStr u) (VBool b) args kws ->
     invokes W (VClass "sscc.SSCC") "from_tag_uri" args kws (result sscc_obj (from_tag_uri sscc_init u b))) /\
  (forall s args kws, passed1 "binary_string" (VStr s) args kws -> invokes W (VClass "sscc.SSCC") "from_binary" args kws (result sscc_obj (sscc_from_binary s))) /\
  (forall s args kws, passed1 "tag_hex_string" (VStr s) args kws -> fits (length s * 4) ->
     invokes W (VClass "sscc.SSCC") "from_hex" args kws (result sscc_obj (from_hex sscc_from_binary s))) /\
  (forall s args kws, passed1 "tag_base64_string" (VStr s) args kws -> fits (length s * 8) ->
     invokes W (VClass "sscc.SSCC") "from_base64" args kws (result sscc_obj (from_base64 sscc_from_binary s))).
Proof.
  repeat apply conj.
  - invoked g_header_to_schemes.
  - intros u args kws P. ways P; invoked (g_from_tag u true).
  - intros u b args kws P. ways P; invoked (g_from_tag u b).
  - intros s args kws P. ways P; invoked (g_from_binary s).
  - intros s args kws P L. ways P; invoked (g_from_hex s L).
  - intros s args kws P L. ways P; invoked (g_from_base64 s L).
Qed.
