(** The source text of epcpy/epc_schemes/sgln.py on the machine. *)
From Coq Require Import String Lia.
From Verif.Model Require Import Py PyFloat Re Sre PyFormat Syntax Machine Regexes Common Base Sgln.
From Verif.Source Require Import World.
From Verif.Proofs Require Import Basics Num SreTexts SreUse SrcUse SrcBase.

Ltac start := let k := fresh "k" in intros k; cbv [sgln_obj sgln_member sgln_name filter_member]; enter.
Lemma sgln_L : table_of (ns_dict "sgln" "PARTITION_TABLE_L") sgln_table_L.
Proof. table. Qed.
Lemma sgln_P : table_of (ns_dict "sgln" "PARTITION_TABLE_P") sgln_table_P.
Proof. table. Qed.

Lemma g_init u : builds "sgln.SGLN" (fun u => result sgln_obj (sgln_init u)) u.
Proof. intros k. inits. full agree_SGLN_URI. unfold sgln_init, field4, tail4, idx, cp_len_ok, unpack2, unpack3, unpack1_rest, unpack2_rest, unpack4_rest. consts. runs. Qed.
Lemma g_from_epc_uri u : gives "base_scheme.EPCScheme.from_epc_uri" [VClass "sgln.SGLN"; VStr u] (result sgln_obj (sgln_init u)).
Proof. intros k. enter. tailcall g_init. done. Qed.
Lemma g_gs1_key x : gives "sgln.SGLN.gs1_key" [sgln_obj x] (Returned (VStr (sgln_gs1_key x))).
Proof. start. done. Qed.
Lemma g_gs1_element_string x : gives "sgln.SGLN.gs1_element_string" [sgln_obj x] (Returned (VStr (sgln_gs1_element_string x))).
Proof. start; runs; try done. Qed.
Lemma g_from_gs1_element_string s n : gives "sgln.SGLN.from_gs1_element_string" [VClass "sgln.SGLN"; VStr s; VInt n]
  (result sgln_obj (sgln_from_gs1_element_string s n)).
Proof. start. full agree_SGLN_GS1_ELEMENT_STRING. cut_at cut_paren3. unfold sgln_from_gs1_element_string, unpack2, unpack3, idx; consts. runs. tailcall g_init. done. Qed.
Lemma g_tag_uri x s c nm f : gives "sgln.SGLN.tag_uri" [sgln_obj x; sgln_member s; filter_member c nm f] (result VStr (sgln_tag_uri x s f)).
Proof. destruct s; start; unfold sgln_tag_uri, bad_numeric_serial; consts; heads; runs. Qed.
Lemma g_binary x s c nm f : gives "sgln.SGLN.binary" [sgln_obj x; sgln_member s; filter_member c nm f] (result VStr (sgln_binary x s f)).
Proof. destruct s; start; member; unfold sgln_binary; runs; ept sgln_L; runs. Qed.
Lemma g_hex any kws x s c nm f : args_sf (sgln_member s) (filter_member c nm f) [] kws -> (forall b, sgln_binary x s f = Ok b -> fits (length b)) ->
  gives_kw "base_scheme.TagEncodable.hex" (sgln_obj x :: any) kws (result VStr (binary_hex (sgln_binary x s f))).
Proof. intros P F. cbv [sgln_obj]. ways P. all: match goal with |- context [sgln_binary ?x ?s ?f] => first [hex_by F (g_binary x s c nm f) | hex_by F (g_binary x s "sgln.SGLNFilterValue" "ALL_OTHERS" f)] end. Qed.
Lemma g_base64 any kws x s c nm f : args_sf (sgln_member s) (filter_member c nm f) [] kws -> (forall b, sgln_binary x s f = Ok b -> fits (length b)) ->
  gives_kw "base_scheme.TagEncodable.base64" (sgln_obj x :: any) kws (result VStr (binary_base64 (sgln_binary x s f))).
Proof. intros P F. pose proof (g_hex [] kws x s c nm f P F) as G. cbv [sgln_obj]. ways P. all: base64_by G. Qed.
Lemma g_header_to_schemes : gives "base_scheme.TagEncodable.header_to_schemes" [VClass "sgln.SGLN"] (Returned (VDict (dict_of sgln_member sgln_header_to_schemes))).
Proof. intros k. enter. repeat (member; try enter). done. Qed.
Lemma g_header s : gives "common.parse_header_and_truncate_binary" [VStr s; VDict (dict_of sgln_member sgln_header_to_schemes)]
  (result (fun r => VTuple [sgln_member (fst r); VStr (snd r)]) (parse_header_and_truncate_binary sgln_scheme_value s sgln_header_to_schemes)).
Proof. exact (g_parse_header "sgln.SGLN.BinaryCodingScheme" sgln_name sgln_scheme_value s sgln_header_to_schemes). Qed.
Lemma g_from_tag s b : gives "base_scheme.TagEncodable.from_tag_uri" [VClass "sgln.SGLN"; VStr s; VBool b] (result sgln_obj (from_tag_uri sgln_init s b)).
Proof. exact (g_from_tag_uri "sgln.SGLN" sgln_obj sgln_init g_init s b). Qed.
Lemma g_from_binary s : gives "sgln.SGLN.from_binary" [VClass "sgln.SGLN"; VStr s] (result sgln_obj (sgln_from_binary s)).
Proof.
  start. call g_header_to_schemes. use g_header. unfold sgln_from_binary. headed E. header_len E.
  cbn [bind]. destruct sc; cbv [sgln_member sgln_name]; enter; runs; dpt sgln_P; runs; tailalike g_from_tag; done.
Qed.
Lemma g_from_hex s : fits (length s * 4) ->
  gives "base_scheme.TagEncodable.from_hex" [VClass "sgln.SGLN"; VStr s] (result sgln_obj (from_hex sgln_from_binary s)).
Proof. intros L. start. callr (g_hex_to_binary s L) as [b|?] E; unfold from_hex; rewrite E; cbn [bind]; [|done]. tailcall g_from_binary. done. Qed.
Lemma g_from_base64 s : fits (length s * 8) ->
  gives "base_scheme.TagEncodable.from_base64" [VClass "sgln.SGLN"; VStr s] (result sgln_obj (from_base64 sgln_from_binary s)).
Proof.
  intros L. start. callr (g_base64_to_hex s) as [h|?] E; unfold from_base64; rewrite E; cbn [bind]; [|done].
  eapply reach_trans; [apply g_from_hex, (base64_fits s h E L)|]. eapply reach_trans; [apply tail|]. done.
Qed.

(** * The claims *)

Lemma sgln_construct :
  (forall u args kws, passed1 "epc_uri" (VStr u) args kws -> calls W (VClass "sgln.SGLN") args kws (result sgln_obj (sgln_init u))) /\
  (forall u args kws, passed1 "epc_uri" (VStr u) args kws -> invokes W (VClass "sgln.SGLN") "from_epc_uri" args kws (result sgln_obj (sgln_init u))).
Proof.
  split; intros u args kws P; ways P; first [called (g_init u) | invoked (g_from_epc_uri u)].
Qed.
Lemma sgln_gs1 :
  (forall x, invokes W (sgln_obj x) "gs1_key" [] [] (Returned (VStr (sgln_gs1_key x)))) /\
  (forall x, invokes W (sgln_obj x) "gs1_element_string" [] [] (Returned (VStr (sgln_gs1_element_string x)))) /\
  (forall s n args kws, passed2 "gs1_element_string" "company_prefix_length" (VStr s) (VInt n) args kws ->
     invokes W (VClass "sgln.SGLN") "from_gs1_element_string" args kws (result sgln_obj (sgln_from_gs1_element_string s n))).
Proof.
  repeat apply conj.
  - intros x. cbv [sgln_obj]. invoked (g_gs1_key x).
  - intros x. cbv [sgln_obj]. invoked (g_gs1_element_string x).
  - intros s n args kws P. ways P; invoked (g_from_gs1_element_string s n).
Qed.
Lemma sgln_encode :
  (forall x s c nm f args kws, args_sf (sgln_member s) (filter_member c nm f) args kws ->
     invokes W (sgln_obj x) "tag_uri" args kws (result VStr (sgln_tag_uri x s f))) /\
  (forall x s c nm f args kws, args_sf (sgln_member s) (filter_member c nm f) args kws ->
     invokes W (sgln_obj x) "binary" args kws (result VStr (sgln_binary x s f))) /\
  (forall x s c nm f args kws, args_sf (sgln_member s) (filter_member c nm f) [] kws -> (forall b, sgln_binary x s f = Ok b -> fits (length b)) ->
     invokes W (sgln_obj x) "hex" args kws (result VStr (binary_hex (sgln_binary x s f)))) /\
  (forall x s c nm f args kws, args_sf (sgln_member s) (filter_member c nm f) [] kws -> (forall b, sgln_binary x s f = Ok b -> fits (length b)) ->
     invokes W (sgln_obj x) "base64" args kws (result VStr (binary_base64 (sgln_binary x s f)))).
Proof.
  repeat apply conj.
  - intros x s c nm f args kws P. cbv [sgln_obj]. ways P; match goal with |- context [sgln_tag_uri ?x ?s ?f] => first [invoked (g_tag_uri x s c nm f) | invoked (g_tag_uri x s "sgln.SGLNFilterValue" "ALL_OTHERS" f)] end.
  - intros x s c nm f args kws P. cbv [sgln_obj]. ways P; match goal with |- context [sgln_binary ?x ?s ?f] => first [invoked (g_binary x s c nm f) | invoked (g_binary x s "sgln.SGLNFilterValue" "ALL_OTHERS" f)] end.
  - intros x s c nm f args kws P F. exact (g_hex args kws x s c nm f P F []).
  - intros x s c nm f args kws P F. exact (g_base64 args kws x s c nm f P F []).
Qed.
Lemma sgln_decode :
  invokes W (VClass "sgln.SGLN") "header_to_schemes" [] [] (Returned (VDict (dict_of sgln_member sgln_header_to_schemes))) /\
  (forall u args kws, passed1 "epc_tag_uri" (VStr u) args kws -> invokes W (VClass "sgln.SGLN") "from_tag_uri" args kws (result sgln_obj (sgln_from_tag_uri u))) /\
  (forall u b args kws, passed2 "epc_tag_uri" "includes_filter" (VStr u) (VBool b) args kws ->
     invokes W (VClass "sgln.SGLN") "from_tag_uri" args kws (result sgln_obj (from_tag_uri sgln_init u b))) /\
  (forall s args kws, passed1 "binary_string" (VStr s) args kws -> invokes W (VClass "sgln.SGLN") "from_binary" args kws (result sgln_obj (sgln_from_binary s))) /\
  (forall s args kws, passed1 "tag_hex_string" (VStr s) args kws -> fits (length s * 4) ->
     invokes W (VClass "sgln.SGLN") "from_hex" args kws (result sgln_obj (from_hex sgln_from_binary s))) /\
  (forall s args kws, passed1 "tag_base64_string" (VStr s) args kws -> fits (length s * 8) ->
     invokes W (VClass "sgln.SGLN") "from_base64" args kws (result sgln_obj (from_base64 sgln_from_binary s))).
Proof.
  repeat apply conj.
  - invoked g_header_to_schemes.
  - intros u args kws P. ways P; invoked (g_from_tag u true).
  - intros u b args kws P. ways P; invoked (g_from_tag u b).
  - intros s args kws P. ways P; invoked (g_from_binary s).
  - intros s args kws P L. ways P; invoked (g_from_hex s L).
  - intros s args kws P L. ways P; invoked (g_from_base64 s L).
Qed.
