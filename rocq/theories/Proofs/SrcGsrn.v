(** The source text of epcpy/epc_schemes/gsrn.py on the machine. *)
From Coq Require Import String Lia.
From Verif.Model Require Import Py PyFloat Re Sre PyFormat Syntax Machine Regexes Common Base Gsrn.
From Verif.Source Require Import World.
From Verif.Proofs Require Import Basics Num SreTexts SreUse SrcUse SrcBase.

Ltac start := let k := fresh "k" in intros k; cbv [gsrn_obj gsrn_member gsrn_name filter_member]; enter.
Lemma gsrn_L : table_of (ns_dict "gsrn" "PARTITION_TABLE_L") gsrn_table_L.
Proof. table. Qed.
Lemma gsrn_P : table_of (ns_dict "gsrn" "PARTITION_TABLE_P") gsrn_table_P.
Proof. table. Qed.

Lemma g_init u : builds "gsrn.GSRN" (fun u => result gsrn_obj (gsrn_init u)) u.
Proof. intros k. inits. full agree_GSRN_URI. unfold gsrn_init, field4, tail4, idx, cp_len_ok, unpack2, unpack3, unpack1_rest, unpack2_rest, unpack4_rest. consts. runs. Qed.
Lemma g_from_epc_uri u : gives "base_scheme.EPCScheme.from_epc_uri" [VClass "gsrn.GSRN"; VStr u] (result gsrn_obj (gsrn_init u)).
Proof. intros k. enter. tailcall g_init. done. Qed.
Lemma g_gs1_key x : gives "gsrn.GSRN.gs1_key" [gsrn_obj x] (Returned (VStr (gsrn_gs1_key x))).
Proof. start. done. Qed.
Lemma g_gs1_element_string x : gives "gsrn.GSRN.gs1_element_string" [gsrn_obj x] (Returned (VStr (gsrn_gs1_element_string x))).
Proof. start; runs; try done. Qed.
Lemma g_from_gs1_element_string s n : gives "gsrn.GSRN.from_gs1_element_string" [VClass "gsrn.GSRN"; VStr s; VInt n]
  (result gsrn_obj (gsrn_from_gs1_element_string s n)).
Proof. start. full agree_GSRN_GS1_ELEMENT_STRING. unfold gsrn_from_gs1_element_string, unpack2, unpack3, idx; consts. runs. tailcall g_init. done. Qed.
Lemma g_tag_uri x s c nm f : gives "gsrn.GSRN.tag_uri" [gsrn_obj x; gsrn_member s; filter_member c nm f] (result VStr (gsrn_tag_uri x s f)).
Proof. destruct s; start; unfold gsrn_tag_uri, bad_numeric_serial; consts; heads; runs. Qed.
Lemma g_binary x s c nm f : gives "gsrn.GSRN.binary" [gsrn_obj x; gsrn_member s; filter_member c nm f] (result VStr (gsrn_binary x s f)).
Proof. destruct s; start; member; unfold gsrn_binary; runs; ept gsrn_L; runs. Qed.
Lemma g_hex any kws x s c nm f : args_sf_default (gsrn_member s) (filter_member c nm f) (s = GSRN_96) (f = 0) [] kws -> (forall b, gsrn_binary x s f = Ok b -> fits (length b)) ->
  gives_kw "base_scheme.TagEncodable.hex" (gsrn_obj x :: any) kws (result VStr (binary_hex (gsrn_binary x s f))).
Proof. intros P F. cbv [gsrn_obj]. ways P. all: match goal with |- context [gsrn_binary ?x ?s ?f] => first [hex_by F (g_binary x s c nm f) | hex_by F (g_binary x s "gsrn.GSRNFilterValue" "ALL_OTHERS" f)] end. Qed.
Lemma g_base64 any kws x s c nm f : args_sf_default (gsrn_member s) (filter_member c nm f) (s = GSRN_96) (f = 0) [] kws -> (forall b, gsrn_binary x s f = Ok b -> fits (length b)) ->
  gives_kw "base_scheme.TagEncodable.base64" (gsrn_obj x :: any) kws (result VStr (binary_base64 (gsrn_binary x s f))).
Proof. intros P F. pose proof (g_hex [] kws x s c nm f P F) as G. cbv [gsrn_obj]. ways P. all: base64_by G. Qed.
Lemma g_header_to_schemes : gives "base_scheme.TagEncodable.header_to_schemes" [VClass "gsrn.GSRN"] (Returned (VDict (dict_of gsrn_member gsrn_header_to_schemes))).
Proof. intros k. enter. repeat (member; try enter). done. Qed.
Lemma g_header s : gives "common.parse_header_and_truncate_binary" [VStr s; VDict (dict_of gsrn_member gsrn_header_to_schemes)]
  (result (fun r => VTuple [gsrn_member (fst r); VStr (snd r)]) (parse_header_and_truncate_binary gsrn_scheme_value s gsrn_header_to_schemes)).
Proof. exact (g_parse_header "gsrn.GSRN.BinaryCodingScheme" gsrn_name gsrn_scheme_value s gsrn_header_to_schemes). Qed.
Lemma g_from_tag s b : gives "base_scheme.TagEncodable.from_tag_uri" [VClass "gsrn.GSRN"; VStr s; VBool b] (result gsrn_obj (from_tag_uri gsrn_init s b)).
Proof. exact (g_from_tag_uri "gsrn.GSRN" gsrn_obj gsrn_init g_init s b). Qed.
Lemma g_from_binary s : gives "gsrn.GSRN.from_binary" [VClass "gsrn.GSRN"; VStr s] (result gsrn_obj (gsrn_from_binary s)).
Proof.
  start. call g_header_to_schemes. use g_header. unfold gsrn_from_binary. headed E. header_len E.
  cbn [bind]. destruct sc; cbv [gsrn_member gsrn_name]; enter; runs; dpt gsrn_P; runs; tailalike g_from_tag; done.
Qed.
Lemma g_from_hex s : fits (length s * 4) ->
  gives "base_scheme.TagEncodable.from_hex" [VClass "gsrn.GSRN"; VStr s] (result gsrn_obj (from_hex gsrn_from_binary s)).
Proof. intros L. start. callr (g_hex_to_binary s L) as [b|?] E; unfold from_hex; rewrite E; cbn [bind]; [|done]. tailcall g_from_binary. done. Qed.
Lemma g_from_base64 s : fits (length s * 8) ->
  gives "base_scheme.TagEncodable.from_base64" [VClass "gsrn.GSRN"; VStr s] (result gsrn_obj (from_base64 gsrn_from_binary s)).
Proof.
  intros L. start. callr (g_base64_to_hex s) as [h|?] E; unfold from_base64; rewrite E; cbn [bind]; [|done].
  eapply reach_trans; [apply g_from_hex, (base64_fits s h E L)|]. eapply reach_trans; [apply tail|]. done.
Qed.

(** * The claims *)

Lemma gsrn_construct :
  (forall u args kws, passed1 "epc_uri" (VStr u) args kws -> calls W (VClass "gsrn.GSRN") args kws (result gsrn_obj (gsrn_init u))) /\
  (forall u args kws, passed1 "epc_uri" (VStr u) args kws -> invokes W (VClass "gsrn.GSRN") "from_epc_uri" args kws (result gsrn_obj (gsrn_init u))).
Proof.
  split; intros u args kws P; ways P; first [called (g_init u) | invoked (g_from_epc_uri u)].
Qed.
Lemma gsrn_gs1 :
  (forall x, invokes W (gsrn_obj x) "gs1_key" [] [] (Returned (VStr (gsrn_gs1_key x)))) /\
  (forall x, invokes W (gsrn_obj x) "gs1_element_string" [] [] (Returned (VStr (gsrn_gs1_element_string x)))) /\
  (forall s n args kws, passed2 "gs1_element_string" "company_prefix_length" (VStr s) (VInt n) args kws ->
     invokes W (VClass "gsrn.GSRN") "from_gs1_element_string" args kws (result gsrn_obj (gsrn_from_gs1_element_string s n))).
Proof.
  repeat apply conj.
  - intros x. cbv [gsrn_obj]. invoked (g_gs1_key x).
  - intros x. cbv [gsrn_obj]. invoked (g_gs1_element_string x).
  - intros s n args kws P. ways P; invoked (g_from_gs1_element_string s n).
Qed.
Lemma gsrn_encode :
  (forall x s c nm f args kws, args_sf_default (gsrn_member s) (filter_member c nm f) (s = GSRN_96) (f = 0) args kws ->
     invokes W (gsrn_obj x) "tag_uri" args kws (result VStr (gsrn_tag_uri x s f))) /\
  (forall x s c nm f args kws, args_sf_default (gsrn_member s) (filter_member c nm f) (s = GSRN_96) (f = 0) args kws ->
     invokes W (gsrn_obj x) "binary" args kws (result VStr (gsrn_binary x s f))) /\
  (forall x s c nm f args kws, args_sf_default (gsrn_member s) (filter_member c nm f) (s = GSRN_96) (f = 0) [] kws -> (forall b, gsrn_binary x s f = Ok b -> fits (length b)) ->
     invokes W (gsrn_obj x) "hex" args kws (result VStr (binary_hex (gsrn_binary x s f)))) /\
  (forall x s c nm f args kws, args_sf_default (gsrn_member s) (filter_member c nm f) (s = GSRN_96) (f = 0) [] kws -> (forall b, gsrn_binary x s f = Ok b -> fits (length b)) ->
     invokes W (gsrn_obj x) "base64" args kws (result VStr (binary_base64 (gsrn_binary x s f)))).
Proof.
  repeat apply conj.
  - intros x s c nm f args kws P. cbv [gsrn_obj]. ways P; match goal with |- context [gsrn_tag_uri ?x ?s ?f] => first [invoked (g_tag_uri x s c nm f) | invoked (g_tag_uri x s "gsrn.GSRNFilterValue" "ALL_OTHERS" f)] end.
  - intros x s c nm f args kws P. cbv [gsrn_obj]. ways P; match goal with |- context [gsrn_binary ?x ?s ?f] => first [invoked (g_binary x s c nm f) | invoked (g_binary x s "gsrn.GSRNFilterValue" "ALL_OTHERS" f)] end.
  - intros x s c nm f args kws P F. exact (g_hex args kws x s c nm f P F []).
  - intros x s c nm f args kws P F. exact (g_base64 args kws x s c nm f P F []).
Qed.
Lemma gsrn_decode :
  invokes W (VClass "gsrn.GSRN") "header_to_schemes" [] [] (Returned (VDict (dict_of gsrn_member gsrn_header_to_schemes))) /\
  (forall u args kws, passed1 "epc_tag_uri" (VStr u) args kws -> invokes W (VClass "gsrn.GSRN") "from_tag_uri" args kws (result gsrn_obj (gsrn_from_tag_uri u))) /\
  (forall u b args kws, passed2 "epc_tag_uri" "includes_filter" (VStr u) (VBool b) args kws ->
     invokes W (VClass "gsrn.GSRN") "from_tag_uri" args kws (result gsrn_obj (from_tag_uri gsrn_init u b))) /\
  (forall s args kws, passed1 "binary_string" (VStr s) args kws -> invokes W (VClass "gsrn.GSRN") "from_binary" args kws (result gsrn_obj (gsrn_from_binary s))) /\
  (forall s args kws, passed1 "tag_hex_string" (VStr s) args kws -> fits (length s * 4) ->
     invokes W (VClass "gsrn.GSRN") "from_hex" args kws (result gsrn_obj (from_hex gsrn_from_binary s))) /\
  (forall s args kws, passed1 "tag_base64_string" (VStr s) args kws -> fits (length s * 8) ->
     invokes W (VClass "gsrn.GSRN") "from_base64" args kws (result gsrn_obj (from_base64 gsrn_from_binary s))).
Proof.
  repeat apply conj.
  - invoked g_header_to_schemes.
  - intros u args kws P. ways P; invoked (g_from_tag u true).
  - intros u b args kws P. ways P; invoked (g_from_tag u b).
  - intros s args kws P. ways P; invoked (g_from_binary s).
  - intros s args kws P L. ways P; invoked (g_from_hex s L).
  - intros s args kws P L. ways P; invoked (g_from_base64 s L).
Qed.
