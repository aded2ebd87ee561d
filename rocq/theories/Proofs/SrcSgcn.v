(** The source text of epcpy/epc_schemes/sgcn.py on the machine. *)
From Coq Require Import String Lia.
From Verif.Model Require Import Py PyFloat Re Sre PyFormat Syntax Machine Regexes Common Base Sgcn.
From Verif.Source Require Import World.
From Verif.Proofs Require Import Basics Num SreTexts SreUse SrcUse SrcBase.

Ltac start := let k := fresh "k" in intros k; cbv [sgcn_obj sgcn_member sgcn_name filter_member]; enter.
Lemma sgcn_L : table_of (ns_dict "sgcn" "PARTITION_TABLE_L") sgcn_table_L.
Proof. table. Qed.
Lemma sgcn_P : table_of (ns_dict "sgcn" "PARTITION_TABLE_P") sgcn_table_P.
Proof. table. Qed.

Lemma g_init u : builds "sgcn.SGCN" (fun u => result sgcn_obj (sgcn_init u)) u.
Proof. intros k. inits. full agree_SGCN_URI. unfold sgcn_init, field4, tail4, idx, cp_len_ok, unpack2, unpack3, unpack1_rest, unpack2_rest, unpack4_rest. consts. runs. Qed.
Lemma g_from_epc_uri u : gives "base_scheme.EPCScheme.from_epc_uri" [VClass "sgcn.SGCN"; VStr u] (result sgcn_obj (sgcn_init u)).
Proof. intros k. enter. tailcall g_init. done. Qed.
Lemma g_gs1_key x : gives "sgcn.SGCN.gs1_key" [sgcn_obj x] (Returned (VStr (sgcn_gs1_key x))).
Proof. start. done. Qed.
Lemma g_gs1_element_string x : gives "sgcn.SGCN.gs1_element_string" [sgcn_obj x] (Returned (VStr (sgcn_gs1_element_string x))).
Proof. start; runs; try done. Qed.
Lemma g_from_gs1_element_string s n : gives "sgcn.SGCN.from_gs1_element_string" [VClass "sgcn.SGCN"; VStr s; VInt n]
  (result sgcn_obj (sgcn_from_gs1_element_string s n)).
Proof. start. full agree_SGCN_GS1_ELEMENT_STRING. unfold sgcn_from_gs1_element_string, unpack2, unpack3, idx; consts. runs. tailcall g_init. done. Qed.
Lemma g_tag_uri x s c nm f : gives "sgcn.SGCN.tag_uri" [sgcn_obj x; filter_member c nm f; sgcn_member s] (result VStr (sgcn_tag_uri x s f)).
Proof. destruct s; start; unfold sgcn_tag_uri, bad_numeric_serial; consts; heads; runs. Qed.
Lemma g_binary x s c nm f : gives "sgcn.SGCN.binary" [sgcn_obj x; filter_member c nm f; sgcn_member s] (result VStr (sgcn_binary x s f)).
Proof. destruct s; start; member; unfold sgcn_binary; runs; ept sgcn_L; runs. Qed.
Lemma g_hex any kws x s c nm f : args_fs_default (sgcn_member s) (filter_member c nm f) (s = SGCN_96) [] kws -> (forall b, sgcn_binary x s f = Ok b -> fits (length b)) ->
  gives_kw "base_scheme.TagEncodable.hex" (sgcn_obj x :: any) kws (result VStr (binary_hex (sgcn_binary x s f))).
Proof. intros P F. cbv [sgcn_obj]. ways P. all: match goal with |- context [sgcn_binary ?x ?s ?f] => first [hex_by F (g_binary x s c nm f) | hex_by F (g_binary x s "sgcn.SGCNFilterValue" "ALL_OTHERS" f)] end. Qed.
Lemma g_base64 any kws x s c nm f : args_fs_default (sgcn_member s) (filter_member c nm f) (s = SGCN_96) [] kws -> (forall b, sgcn_binary x s f = Ok b -> fits (length b)) ->
  gives_kw "base_scheme.TagEncodable.base64" (sgcn_obj x :: any) kws (result VStr (binary_base64 (sgcn_binary x s f))).
Proof. intros P F. pose proof (g_hex [] kws x s c nm f P F) as G. cbv [sgcn_obj]. ways P. all: base64_by G. Qed.
Lemma g_header_to_schemes : gives "base_scheme.TagEncodable.header_to_schemes" [VClass "sgcn.SGCN"] (Returned (VDict (dict_of sgcn_member sgcn_header_to_schemes))).
Proof. intros k. enter. repeat (member; try enter). done. Qed.
Lemma g_header s : gives "common.parse_header_and_truncate_binary" [VStr s; VDict (dict_of sgcn_member sgcn_header_to_schemes)]
  (result (fun r => VTuple [sgcn_member (fst r); VStr (snd r)]) (parse_header_and_truncate_binary sgcn_scheme_value s sgcn_header_to_schemes)).
Proof. exact (g_parse_header "sgcn.SGCN.BinaryCodingScheme" sgcn_name sgcn_scheme_value s sgcn_header_to_schemes). Qed.
Lemma g_from_tag s b : gives "base_scheme.TagEncodable.from_tag_uri" [VClass "sgcn.SGCN"; VStr s; VBool b] (result sgcn_obj (from_tag_uri sgcn_init s b)).
Proof. exact (g_from_tag_uri "sgcn.SGCN" sgcn_obj sgcn_init g_init s b). Qed.
Lemma g_from_binary s : gives "sgcn.SGCN.from_binary" [VClass "sgcn.SGCN"; VStr s] (result sgcn_obj (sgcn_from_binary s)).
Proof.
  start. call g_header_to_schemes. use g_header. unfold sgcn_from_binary. headed E. header_len E.
  cbn [bind]. destruct sc; cbv [sgcn_member sgcn_name]; enter; runs; dpt sgcn_P; runs; tailalike g_from_tag; done.
Qed.
Lemma g_from_hex s : fits (length s * 4) ->
  gives "base_scheme.TagEncodable.from_hex" [VClass "sgcn.SGCN"; VStr s] (result sgcn_obj (from_hex sgcn_from_binary s)).
Proof. intros L. start. callr (g_hex_to_binary s L) as [b|?] E; unfold from_hex; rewrite E; cbn [bind]; [|done]. tailcall g_from_binary. done. Qed.
Lemma g_from_base64 s : fits (length s * 8) ->
  gives "base_scheme.TagEncodable.from_base64" [VClass "sgcn.SGCN"; VStr s] (result sgcn_obj (from_base64 sgcn_from_binary s)).
Proof.
  intros L. start. callr (g_base64_to_hex s) as [h|?] E; unfold from_base64; rewrite E; cbn [bind]; [|done].
  eapply reach_trans; [apply g_from_hex, (base64_fits s h E L)|]. eapply reach_trans; [apply tail|]. done.
Qed.

(** * The claims *)

Lemma sgcn_construct :
  (forall u args kws, passed1 "epc_uri" (VStr u) args kws -> calls W (VClass "sgcn.SGCN") args kws (result sgcn_obj (sgcn_init u))) /\
  (forall u args kws, passed1 "epc_uri" (VStr u) args kws -> invokes W (VClass "sgcn.SGCN") "from_epc_uri" args kws (result sgcn_obj (sgcn_init u))).
Proof.
  split; intros u args kws P; ways P; first [called (g_init u) | invoked (g_from_epc_uri u)].
Qed.
Lemma sgcn_gs1 :
  (forall x, invokes W (sgcn_obj x) "gs1_key" [] [] (Returned (VStr (sgcn_gs1_key x)))) /\
  (forall x, invokes W (sgcn_obj x) "gs1_element_string" [] [] (Returned (VStr (sgcn_gs1_element_string x)))) /\
  (forall s n args kws, passed2 "gs1_element_string" "company_prefix_length" (VStr s) (VInt n) args kws ->
     invokes W (VClass "sgcn.SGCN") "from_gs1_element_string" args kws (result sgcn_obj (sgcn_from_gs1_element_string s n))).
Proof.
  repeat apply conj.
  - intros x. cbv [sgcn_obj]. invoked (g_gs1_key x).
  - intros x. cbv [sgcn_obj]. invoked (g_gs1_element_string x).
  - intros s n args kws P. ways P; invoked (g_from_gs1_element_string s n).
Qed.
Lemma sgcn_encode :
  (forall x s c nm f args kws, args_fs_default (sgcn_member s) (filter_member c nm f) (s = SGCN_96) args kws ->
     invokes W (sgcn_obj x) "tag_uri" args kws (result VStr (sgcn_tag_uri x s f))) /\
  (forall x s c nm f args kws, args_fs_default (sgcn_member s) (filter_member c nm f) (s = SGCN_96) args kws ->
     invokes W (sgcn_obj x) "binary" args kws (result VStr (sgcn_binary x s f))) /\
  (forall x s c nm f args kws, args_fs_default (sgcn_member s) (filter_member c nm f) (s = SGCN_96) [] kws -> (forall b, sgcn_binary x s f = Ok b -> fits (length b)) ->
     invokes W (sgcn_obj x) "hex" args kws (result VStr (binary_hex (sgcn_binary x s f)))) /\
  (forall x s c nm f args kws, args_fs_default (sgcn_member s) (filter_member c nm f) (s = SGCN_96) [] kws -> (forall b, sgcn_binary x s f = Ok b -> fits (length b)) ->
     invokes W (sgcn_obj x) "base64" args kws (result VStr (binary_base64 (sgcn_binary x s f)))).
Proof.
  repeat apply conj.
  - intros x s c nm f args kws P. cbv [sgcn_obj]. ways P; match goal with |- context [sgcn_tag_uri ?x ?s ?f] => first [invoked (g_tag_uri x s c nm f) | invoked (g_tag_uri x s "sgcn.SGCNFilterValue" "ALL_OTHERS" f)] end.
  - intros x s c nm f args kws P. cbv [sgcn_obj]. ways P; match goal with |- context [sgcn_binary ?x ?s ?f] => first [invoked (g_binary x s c nm f) | invoked (g_binary x s "sgcn.SGCNFilterValue" "ALL_OTHERS" f)] end.
  - intros x s c nm f args kws P F. exact (g_hex args kws x s c nm f P F []).
  - intros x s c nm f args kws P F. exact (g_base64 args kws x s c nm f P F []).
Qed.
Lemma sgcn_decode :
  invokes W (VClass "sgcn.SGCN") "header_to_schemes" [] [] (Returned (VDict (dict_of sgcn_member sgcn_header_to_schemes))) /\
  (forall u args kws, passed1 "epc_tag_uri" (VStr u) args kws -> invokes W (VClass "sgcn.SGCN") "from_tag_uri" args kws (result sgcn_obj (sgcn_from_tag_uri u))) /\
  (forall u b args kws, passed2 "epc_tag_uri" "includes_filter" (VStr u) (VBool b) args kws ->
     invokes W (VClass "sgcn.SGCN") "from_tag_uri" args kws (result sgcn_obj (from_tag_uri sgcn_init u b))) /\
  (forall s args kws, passed1 "binary_string" (VStr s) args kws -> invokes W (VClass "sgcn.SGCN") "from_binary" args kws (result sgcn_obj (sgcn_from_binary s))) /\
  (forall s args kws, passed1 "tag_hex_string" (VStr s) args kws -> fits (length s * 4) ->
     invokes W (VClass "sgcn.SGCN") "from_hex" args kws (result sgcn_obj (from_hex sgcn_from_binary s))) /\
  (forall s args kws, passed1 "tag_base64_string" (VStr s) args kws -> fits (length s * 8) ->
     invokes W (VClass "sgcn.SGCN") "from_base64" args kws (result sgcn_obj (from_base64 sgcn_from_binary s))).
Proof.
  repeat apply conj.
  - invoked g_header_to_schemes.
  - intros u args kws P. ways P; invoked (g_from_tag u true).
  - intros u b args kws P. ways P; invoked (g_from_tag u b).
  - intros s args kws P. ways P; invoked (g_from_binary s).
  - intros s args kws P L. ways P; invoked (g_from_hex s L).
  - intros s args kws P L. ways P; invoked (g_from_base64 s L).
Qed.
