(** The source text of epcpy/epc_schemes/itip.py on the machine. *)
From Coq Require Import String Lia.
From Verif.Model Require Import Py PyFloat Re Sre PyFormat Syntax Machine Regexes Common Base Itip.
From Verif.Source Require Import World.
From Verif.Proofs Require Import Basics Num SreTexts SreUse SrcUse SrcBase.

Ltac start := let k := fresh "k" in intros k; cbv [itip_obj itip_member itip_name filter_member]; enter.
Lemma itip_L : table_of (ns_dict "itip" "PARTITION_TABLE_L") itip_table_L.
Proof. table. Qed.
Lemma itip_P : table_of (ns_dict "itip" "PARTITION_TABLE_P") itip_table_P.
Proof. table. Qed.

Lemma g_init u : builds "itip.ITIP" (fun u => result itip_obj (itip_init u)) u.
Proof. intros k. inits. full agree_ITIP_URI. unfold itip_init, field4, tail4, idx, cp_len_ok, unpack2, unpack3, unpack1_rest, unpack2_rest, unpack4_rest. consts. runs. Qed.
Lemma g_from_epc_uri u : gives "base_scheme.EPCScheme.from_epc_uri" [VClass "itip.ITIP"; VStr u] (result itip_obj (itip_init u)).
Proof. intros k. enter. tailcall g_init. done. Qed.
Lemma g_gs1_element_string x : gives "itip.ITIP.gs1_element_string" [itip_obj x] (result VStr (itip_gs1_element_string x)).
Proof. start. unfold itip_gs1_element_string, idx. runs. Qed.
Lemma g_from_gs1_element_string s n : gives "itip.ITIP.from_gs1_element_string" [VClass "itip.ITIP"; VStr s; VInt n]
  (result itip_obj (itip_from_gs1_element_string s n)).
Proof. start. full agree_ITIP_GS1_ELEMENT_STRING. unfold itip_from_gs1_element_string, unpack2, unpack3, idx; consts. runs. tailcall g_init. done. Qed.
Lemma g_tag_uri x s c nm f : gives "itip.ITIP.tag_uri" [itip_obj x; itip_member s; filter_member c nm f] (result VStr (itip_tag_uri x s f)).
Proof. destruct s; start; unfold itip_tag_uri, bad_numeric_serial; consts; heads; runs. Qed.
Lemma g_binary x s c nm f : gives "itip.ITIP.binary" [itip_obj x; filter_member c nm f; itip_member s] (result VStr (itip_binary x s f)).
Proof. destruct s; start; member; unfold itip_binary; runs; ept itip_L; runs. Qed.
Lemma g_hex any kws x s c nm f : args_fs (itip_member s) (filter_member c nm f) [] kws -> (forall b, itip_binary x s f = Ok b -> fits (length b)) ->
  gives_kw "base_scheme.TagEncodable.hex" (itip_obj x :: any) kws (result VStr (binary_hex (itip_binary x s f))).
Proof. intros P F. cbv [itip_obj]. ways P. all: match goal with |- context [itip_binary ?x ?s ?f] => first [hex_by F (g_binary x s c nm f) | hex_by F (g_binary x s "itip.ITIPFilterValue" "ALL_OTHERS" f)] end. Qed.
Lemma g_base64 any kws x s c nm f : args_fs (itip_member s) (filter_member c nm f) [] kws -> (forall b, itip_binary x s f = Ok b -> fits (length b)) ->
  gives_kw "base_scheme.TagEncodable.base64" (itip_obj x :: any) kws (result VStr (binary_base64 (itip_binary x s f))).
Proof. intros P F. pose proof (g_hex [] kws x s c nm f P F) as G. cbv [itip_obj]. ways P. all: base64_by G. Qed.
Lemma g_header_to_schemes : gives "base_scheme.TagEncodable.header_to_schemes" [VClass "itip.ITIP"] (Returned (VDict (dict_of itip_member itip_header_to_schemes))).
Proof. intros k. enter. repeat (member; try enter). done. Qed.
Lemma g_header s : gives "common.parse_header_and_truncate_binary" [VStr s; VDict (dict_of itip_member itip_header_to_schemes)]
  (result (fun r => VTuple [itip_member (fst r); VStr (snd r)]) (parse_header_and_truncate_binary itip_scheme_value s itip_header_to_schemes)).
Proof. exact (g_parse_header "itip.ITIP.BinaryCodingScheme" itip_name itip_scheme_value s itip_header_to_schemes). Qed.
Lemma g_from_tag s b : gives "base_scheme.TagEncodable.from_tag_uri" [VClass "itip.ITIP"; VStr s; VBool b] (result itip_obj (from_tag_uri itip_init s b)).
Proof. exact (g_from_tag_uri "itip.ITIP" itip_obj itip_init g_init s b). Qed.
Lemma g_from_binary s : gives "itip.ITIP.from_binary" [VClass "itip.ITIP"; VStr s] (result itip_obj (itip_from_binary s)).
Proof.
  start. call g_header_to_schemes. use g_header. unfold itip_from_binary. headed E. header_len E.
  cbn [bind]. destruct sc; cbv [itip_member itip_name]; enter; runs; dpt itip_P; runs; fixed; runs; fixed; runs; tailalike g_from_tag; done.
Qed.
Lemma g_from_hex s : fits (length s * 4) ->
  gives "base_scheme.TagEncodable.from_hex" [VClass "itip.ITIP"; VStr s] (result itip_obj (from_hex itip_from_binary s)).
Proof. intros L. start. callr (g_hex_to_binary s L) as [b|?] E; unfold from_hex; rewrite E; cbn [bind]; [|done]. tailcall g_from_binary. done. Qed.
Lemma g_from_base64 s : fits (length s * 8) ->
  gives "base_scheme.TagEncodable.from_base64" [VClass "itip.ITIP"; VStr s] (result itip_obj (from_base64 itip_from_binary s)).
Proof.
  intros L. start. callr (g_base64_to_hex s) as [h|?] E; unfold from_base64; rewrite E; cbn [bind]; [|done].
  eapply reach_trans; [apply g_from_hex, (base64_fits s h E L)|]. eapply reach_trans; [apply tail|]. done.
Qed.

(** * The claims *)

Lemma itip_construct :
  (forall u args kws, passed1 "epc_uri" (VStr u) args kws -> calls W (VClass "itip.ITIP") args kws (result itip_obj (itip_init u))) /\
  (forall u args kws, passed1 "epc_uri" (VStr u) args kws -> invokes W (VClass "itip.ITIP") "from_epc_uri" args kws (result itip_obj (itip_init u))).
Proof.
  split; intros u args kws P; ways P; first [called (g_init u) | invoked (g_from_epc_uri u)].
Qed.
Lemma itip_gs1 :
  (forall x, invokes W (itip_obj x) "gs1_element_string" [] [] (result VStr (itip_gs1_element_string x))) /\
  (forall s n args kws, passed2 "gs1_element_string" "company_prefix_length" (VStr s) (VInt n) args kws ->
     invokes W (VClass "itip.ITIP") "from_gs1_element_string" args kws (result itip_obj (itip_from_gs1_element_string s n))).
Proof.
  repeat apply conj.
  - intros x. cbv [itip_obj]. invoked (g_gs1_element_string x).
  - intros s n args kws P. ways P; invoked (g_from_gs1_element_string s n).
Qed.
Lemma itip_encode :
  (forall x s c nm f args kws, args_sf (itip_member s) (filter_member c nm f) args kws ->
     invokes W (itip_obj x) "tag_uri" args kws (result VStr (itip_tag_uri x s f))) /\
  (forall x s c nm f args kws, args_fs (itip_member s) (filter_member c nm f) args kws ->
     invokes W (itip_obj x) "binary" args kws (result VStr (itip_binary x s f))) /\
  (forall x s c nm f args kws, args_fs (itip_member s) (filter_member c nm f) [] kws -> (forall b, itip_binary x s f = Ok b -> fits (length b)) ->
     invokes W (itip_obj x) "hex" args kws (result VStr (binary_hex (itip_binary x s f)))) /\
  (forall x s c nm f args kws, args_fs (itip_member s) (filter_member c nm f) [] kws -> (forall b, itip_binary x s f = Ok b -> fits (length b)) ->
     invokes W (itip_obj x) "base64" args kws (result VStr (binary_base64 (itip_binary x s f)))).
Proof.
  repeat apply conj.
  - intros x s c nm f args kws P. cbv [itip_obj]. ways P; match goal with |- context [itip_tag_uri ?x ?s ?f] => first [invoked (g_tag_uri x s c nm f) | invoked (g_tag_uri x s "itip.ITIPFilterValue" "ALL_OTHERS" f)] end.
  - intros x s c nm f args kws P. cbv [itip_obj]. ways P; match goal with |- context [itip_binary ?x ?s ?f] => first [invoked (g_binary x s c nm f) | invoked (g_binary x s "itip.ITIPFilterValue" "ALL_OTHERS" f)] end.
  - intros x s c nm f args kws P F. exact (g_hex args kws x s c nm f P F []).
  - intros x s c nm f args kws P F. exact (g_base64 args kws x s c nm f P F []).
Qed.
Lemma itip_decode :
  invokes W (VClass "itip.ITIP") "header_to_schemes" [] [] (Returned (VDict (dict_of itip_member itip_header_to_schemes))) /\
  (forall u args kws, passed1 "epc_tag_uri" (VStr u) args kws -> invokes W (VClass "itip.ITIP") "from_tag_uri" args kws (result itip_obj (itip_from_tag_uri u))) /\
  (forall u b args kws, passed2 "epc_tag_uri" "includes_filter" (VStr u) (VBool b) args kws ->
     invokes W (VClass "itip.ITIP") "from_tag_uri" args kws (result itip_obj (from_tag_uri itip_init u b))) /\
  (forall s args kws, passed1 "binary_string" (VStr s) args kws -> invokes W (VClass "itip.ITIP") "from_binary" args kws (result itip_obj (itip_from_binary s))) /\
  (forall s args kws, passed1 "tag_hex_string" (VStr s) args kws -> fits (length s * 4) ->
     invokes W (VClass "itip.ITIP") "from_hex" args kws (result itip_obj (from_hex itip_from_binary s))) /\
  (forall s args kws, passed1 "tag_base64_string" (VStr s) args kws -> fits (length s * 8) ->
     invokes W (VClass "itip.ITIP") "from_base64" args kws (result itip_obj (from_base64 itip_from_binary s))).
Proof.
  repeat apply conj.
  - invoked g_header_to_schemes.
  - intros u args kws P. ways P; invoked (g_from_tag u true).
  - intros u b args kws P. ways P; invoked (g_from_tag u b).
  - intros s args kws P. ways P; invoked (g_from_binary s).
  - intros s args kws P L. ways P; invoked (g_from_hex s L).
  - intros s args kws P L. ways P; invoked (g_from_base64 s L).
Qed.
