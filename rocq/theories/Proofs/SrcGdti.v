(** The source text of epcpy/epc_schemes/gdti.py on the machine. *)
From Coq Require Import String Lia.
From Verif.Model Require Import Py PyFloat Re Sre PyFormat Syntax Machine Regexes Common Base Gdti.
From Verif.Source Require Import World.
From Verif.Proofs Require Import Basics Num SreTexts SreUse SrcUse SrcBase.

Ltac start := let k := fresh "k" in intros k; cbv [gdti_obj gdti_member gdti_name filter_member]; enter.
Lemma gdti_L : table_of (ns_dict "gdti" "PARTITION_TABLE_L") gdti_table_L.
Proof. table. Qed.
Lemma gdti_P : table_of (ns_dict "gdti" "PARTITION_TABLE_P") gdti_table_P.
Proof. table. Qed.

Lemma g_init u : builds "gdti.GDTI" (fun u => result gdti_obj (gdti_init u)) u.
Proof. intros k. inits. full agree_GDTI_URI. unfold gdti_init, field4, tail4, idx, cp_len_ok, unpack2, unpack3, unpack1_rest, unpack2_rest, unpack4_rest. consts. runs. Qed.
Lemma g_from_epc_uri u : gives "base_scheme.EPCScheme.from_epc_uri" [VClass "gdti.GDTI"; VStr u] (result gdti_obj (gdti_init u)).
Proof. intros k. enter. tailcall g_init. done. Qed.
Lemma g_gs1_key x : gives "gdti.GDTI.gs1_key" [gdti_obj x] (Returned (VStr (gdti_gs1_key x))).
Proof. start. done. Qed.
Lemma g_gs1_element_string x : gives "gdti.GDTI.gs1_element_string" [gdti_obj x] (Returned (VStr (gdti_gs1_element_string x))).
Proof. start; runs; try done. Qed.
Lemma g_from_gs1_element_string s n : gives "gdti.GDTI.from_gs1_element_string" [VClass "gdti.GDTI"; VStr s; VInt n]
  (result gdti_obj (gdti_from_gs1_element_string s n)).
Proof. start. full agree_GDTI_GS1_ELEMENT_STRING. unfold gdti_from_gs1_element_string, unpack2, unpack3, idx; consts. runs. tailcall g_init. done. Qed.
Lemma g_tag_uri x s c nm f : gives "gdti.GDTI.tag_uri" [gdti_obj x; gdti_member s; filter_member c nm f] (result VStr (gdti_tag_uri x s f)).
Proof. destruct s; start; unfold gdti_tag_uri, bad_numeric_serial; consts; heads; repeat (names; simples; next). Qed.
Lemma g_binary x s c nm f : gives "gdti.GDTI.binary" [gdti_obj x; gdti_member s; filter_member c nm f] (result VStr (gdti_binary x s f)).
Proof. destruct s; start; member; unfold gdti_binary; runs; ept gdti_L; runs. Qed.
Lemma g_hex any kws x s c nm f : args_sf (gdti_member s) (filter_member c nm f) [] kws -> (forall b, gdti_binary x s f = Ok b -> fits (length b)) ->
  gives_kw "base_scheme.TagEncodable.hex" (gdti_obj x :: any) kws (result VStr (binary_hex (gdti_binary x s f))).
Proof. intros P F. cbv [gdti_obj]. ways P. all: match goal with |- context [gdti_binary ?x ?s ?f] => first [hex_by F (g_binary x s c nm f) | hex_by F (g_binary x s "gdti.GDTIFilterValue" "ALL_OTHERS" f)] end. Qed.
Lemma g_base64 any kws x s c nm f : args_sf (gdti_member s) (filter_member c nm f) [] kws -> (forall b, gdti_binary x s f = Ok b -> fits (length b)) ->
  gives_kw "base_scheme.TagEncodable.base64" (gdti_obj x :: any) kws (result VStr (binary_base64 (gdti_binary x s f))).
Proof. intros P F. pose proof (g_hex [] kws x s c nm f P F) as G. cbv [gdti_obj]. ways P. all: base64_by G. Qed.
Lemma g_header_to_schemes : gives "base_scheme.TagEncodable.header_to_schemes" [VClass "gdti.GDTI"] (Returned (VDict (dict_of gdti_member gdti_header_to_schemes))).
Proof. intros k. enter. repeat (member; try enter). done. Qed.
Lemma g_header s : gives "common.parse_header_and_truncate_binary" [VStr s; VDict (dict_of gdti_member gdti_header_to_schemes)]
  (result (fun r => VTuple [gdti_member (fst r); VStr (snd r)]) (parse_header_and_truncate_binary gdti_scheme_value s gdti_header_to_schemes)).
Proof. exact (g_parse_header "gdti.GDTI.BinaryCodingScheme" gdti_name gdti_scheme_value s gdti_header_to_schemes). Qed.
Lemma g_from_tag s b : gives "base_scheme.TagEncodable.from_tag_uri" [VClass "gdti.GDTI"; VStr s; VBool b] (result gdti_obj (from_tag_uri gdti_init s b)).
Proof. exact (g_from_tag_uri "gdti.GDTI" gdti_obj gdti_init g_init s b). Qed.
Lemma g_from_binary s : gives "gdti.GDTI.from_binary" [VClass "gdti.GDTI"; VStr s] (result gdti_obj (gdti_from_binary s)).
Proof.
  start. call g_header_to_schemes. use g_header. unfold gdti_from_binary. headed E. header_len E.
  cbn [bind]. destruct sc; cbv [gdti_member gdti_name]; enter; runs; dpt gdti_P; runs; tailalike g_from_tag; done.
Qed.
Lemma g_from_hex s : fits (length s * 4) ->
  gives "base_scheme.TagEncodable.from_hex" [VClass "gdti.GDTI"; VStr s] (result gdti_obj (from_hex gdti_from_binary s)).
Proof. intros L. start. callr (g_hex_to_binary s L) as [b|?] E; unfold from_hex; rewrite E; cbn [bind]; [|done]. tailcall g_from_binary. done. Qed.
Lemma g_from_base64 s : fits (length s * 8) ->
  gives "base_scheme.TagEncodable.from_base64" [VClass "gdti.GDTI"; VStr s] (result gdti_obj (from_base64 gdti_from_binary s)).
Proof.
  intros L. start. callr (g_base64_to_hex s) as [h|?] E; unfold from_base64; rewrite E; cbn [bind]; [|done].
  eapply reach_trans; [apply g_from_hex, (base64_fits s h E L)|]. eapply reach_trans; [apply tail|]. done.
Qed.

(** * The claims *)

Lemma gdti_construct :
  (forall u args kws, passed1 "epc_uri" (VStr u) args kws -> calls W (VClass "gdti.GDTI") args kws (result gdti_obj (gdti_init u))) /\
  (forall u args kws, passed1 "epc_uri" (VStr u) args kws -> invokes W (VClass "gdti.GDTI") "from_epc_uri" args kws (result gdti_obj (gdti_init u))).
Proof.
  split; intros u args kws P; ways P; first [called (g_init u) | invoked (g_from_epc_uri u)].
Qed.
Lemma gdti_gs1 :
  (forall x, invokes W (gdti_obj x) "gs1_key" [] [] (Returned (VStr (gdti_gs1_key x)))) /\
  (forall x, invokes W (gdti_obj x) "gs1_element_string" [] [] (Returned (VStr (gdti_gs1_element_string x)))) /\
  (forall s n args kws, passed2 "gs1_element_string" "company_prefix_length" (VStr s) (VInt n) args kws ->
     invokes W (VClass "gdti.GDTI") "from_gs1_element_string" args kws (result gdti_obj (gdti_from_gs1_element_string s n))).
Proof.
  repeat apply conj.
  - intros x. cbv [gdti_obj]. invoked (g_gs1_key x).
  - intros x. cbv [gdti_obj]. invoked (g_gs1_element_string x).
  - intros s n args kws P. ways P; invoked (g_from_gs1_element_string s n).
Qed.
Lemma gdti_encode :
  (forall x s c nm f args kws, args_sf (gdti_member s) (filter_member c nm f) args kws ->
     invokes W (gdti_obj x) "tag_uri" args kws (result VStr (gdti_tag_uri x s f))) /\
  (forall x s c nm f args kws, args_sf (gdti_member s) (filter_member c nm f) args kws ->
     invokes W (gdti_obj x) "binary" args kws (result VStr (gdti_binary x s f))) /\
  (forall x s c nm f args kws, args_sf (gdti_member s) (filter_member c nm f) [] kws -> (forall b, gdti_binary x s f = Ok b -> fits (length b)) ->
     invokes W (gdti_obj x) "hex" args kws (result VStr (binary_hex (gdti_binary x s f)))) /\
  (forall x s c nm f args kws, args_sf (gdti_member s) (filter_member c nm f) [] kws -> (forall b, gdti_binary x s f = Ok b -> fits (length b)) ->
     invokes W (gdti_obj x) "base64" args kws (result VStr (binary_base64 (gdti_binary x s f)))).
Proof.
  repeat apply conj.
  - intros x s c nm f args kws P. cbv [gdti_obj]. ways P; match goal with |- context [gdti_tag_uri ?x ?s ?f] => first [invoked (g_tag_uri x s c nm f) | invoked (g_tag_uri x s "gdti.GDTIFilterValue" "ALL_OTHERS" f)] end.
  - intros x s c nm f args kws P. cbv [gdti_obj]. ways P; match goal with |- context [gdti_binary ?x ?s ?f] => first [invoked (g_binary x s c nm f) | invoked (g_binary x s "gdti.GDTIFilterValue" "ALL_OTHERS" f)] end.
  - intros x s c nm f args kws P F. exact (g_hex args kws x s c nm f P F []).
  - intros x s c nm f args kws P F. exact (g_base64 args kws x s c nm f P F []).
Qed.
Lemma gdti_decode :
  invokes W (VClass "gdti.GDTI") "header_to_schemes" [] [] (Returned (VDict (dict_of gdti_member gdti_header_to_schemes))) /\
  (forall u args kws, passed1 "epc_tag_uri" (VStr u) args kws -> invokes W (VClass "gdti.GDTI") "from_tag_uri" args kws (result gdti_obj (gdti_from_tag_uri u))) /\
  (forall u b args kws, passed2 "epc_tag_uri" "includes_filter" (VStr u) (VBool b) args kws ->
     invokes W (VClass "gdti.GDTI") "from_tag_uri" args kws (result gdti_obj (from_tag_uri gdti_init u b))) /\
  (forall s args kws, passed1 "binary_string" (VStr s) args kws -> invokes W (VClass "gdti.GDTI") "from_binary" args kws (result gdti_obj (gdti_from_binary s))) /\
  (forall s args kws, passed1 "tag_hex_string" (VStr s) args kws -> fits (length s * 4) ->
     invokes W (VClass "gdti.GDTI") "from_hex" args kws (result gdti_obj (from_hex gdti_from_binary s))) /\
  (forall s args kws, passed1 "tag_base64_string" (VStr s) args kws -> fits (length s * 8) ->
     invokes W (VClass "gdti.GDTI") "from_base64" args kws (result gdti_obj (from_base64 gdti_from_binary s))).
Proof.
  repeat apply conj.
  - invoked g_header_to_schemes.
  - intros u args kws P. ways P; invoked (g_from_tag u true).
  - intros u b args kws P. ways P; invoked (g_from_tag u b).
  - intros s args kws P. ways P; invoked (g_from_binary s).
  - intros s args kws P L. ways P; invoked (g_from_hex s L).
  - intros s args kws P L. ways P; invoked (g_from_base64 s L).
Qed.
