(** The source text of epcpy/epc_schemes/usdod.py on the machine. *)
From Coq Require Import String Lia.
From Verif.Model Require Import Py PyFloat Re Sre PyFormat Syntax Machine Regexes Common Base Usdod.
From Verif.Source Require Import World.
From Verif.Proofs Require Import Basics Num SreTexts SreUse SrcUse SrcBase.

Ltac start := let k := fresh "k" in intros k; cbv [usdod_obj usdod_member usdod_name filter_member]; enter.

Lemma g_init u : builds "usdod.USDOD" (fun u => result usdod_obj (usdod_init u)) u.
Proof. intros k. inits. full agree_USDOD_URI. unfold usdod_init, field4, idx, unpack2, unpack3. consts. repeat (heads; simples; next). Qed.
Lemma g_from_epc_uri u : gives "base_scheme.EPCScheme.from_epc_uri" [VClass "usdod.USDOD"; VStr u] (result usdod_obj (usdod_init u)).
Proof. intros k. enter. tailcall g_init. done. Qed.
Lemma g_tag_uri x s c nm f : gives "usdod.USDOD.tag_uri" [usdod_obj x; filter_member c nm f; usdod_member s] (result VStr (usdod_tag_uri x s f)).
Proof. destruct s; start; unfold usdod_tag_uri, bad_numeric_serial; consts; heads; runs. Qed.
Lemma g_binary x s c nm f : gives "usdod.USDOD.binary" [usdod_obj x; filter_member c nm f; usdod_member s] (result VStr (usdod_binary x s f)).
Proof. destruct s; start; member; unfold usdod_binary; simples; next; [|done]. rewrite fmt_str_6; cbv match; runs. Qed.
Lemma g_hex any kws x s c nm f : args_fs_default (usdod_member s) (filter_member c nm f) (s = USDOD_96) [] kws -> (forall b, usdod_binary x s f = Ok b -> fits (length b)) ->
  gives_kw "base_scheme.TagEncodable.hex" (usdod_obj x :: any) kws (result VStr (binary_hex (usdod_binary x s f))).
Proof. intros P F. cbv [usdod_obj]. ways P. all: match goal with |- context [usdod_binary ?x ?s ?f] => first [hex_by F (g_binary x s c nm f) | hex_by F (g_binary x s "usdod.USDODFilterValue" "ALL_OTHERS" f)] end. Qed.
Lemma g_base64 any kws x s c nm f : args_fs_default (usdod_member s) (filter_member c nm f) (s = USDOD_96) [] kws -> (forall b, usdod_binary x s f = Ok b -> fits (length b)) ->
  gives_kw "base_scheme.TagEncodable.base64" (usdod_obj x :: any) kws (result VStr (binary_base64 (usdod_binary x s f))).
Proof. intros P F. pose proof (g_hex [] kws x s c nm f P F) as G. cbv [usdod_obj]. ways P. all: base64_by G. Qed.
Lemma g_header_to_schemes : gives "base_scheme.TagEncodable.header_to_schemes" [VClass "usdod.USDOD"] (Returned (VDict (dict_of usdod_member usdod_header_to_schemes))).
Proof. intros k. enter. repeat (member; try enter). done. Qed.
Lemma g_header s : gives "common.parse_header_and_truncate_binary" [VStr s; VDict (dict_of usdod_member usdod_header_to_schemes)]
  (result (fun r => VTuple [usdod_member (fst r); VStr (snd r)]) (parse_header_and_truncate_binary usdod_scheme_value s usdod_header_to_schemes)).
Proof. exact (g_parse_header "usdod.USDOD.BinaryCodingScheme" usdod_name usdod_scheme_value s usdod_header_to_schemes). Qed.
Lemma g_from_tag s b : gives "base_scheme.TagEncodable.from_tag_uri" [VClass "usdod.USDOD"; VStr s; VBool b] (result usdod_obj (from_tag_uri usdod_init s b)).
Proof. exact (g_from_tag_uri "usdod.USDOD" usdod_obj usdod_init g_init s b). Qed.
Lemma g_from_binary s : gives "usdod.USDOD.from_binary" [VClass "usdod.USDOD"; VStr s] (result usdod_obj (usdod_from_binary s)).
Proof.
  start. call g_header_to_schemes. use g_header. unfold usdod_from_binary. headed E. header_len E.
  cbn [bind]. destruct sc; cbv [usdod_member usdod_name]; enter; runs; tailalike g_from_tag; done.
Qed.
Lemma g_from_hex s : fits (length s * 4) ->
  gives "base_scheme.TagEncodable.from_hex" [VClass "usdod.USDOD"; VStr s] (result usdod_obj (from_hex usdod_from_binary s)).
Proof. intros L. start. callr (g_hex_to_binary s L) as [b|?] E; unfold from_hex; rewrite E; cbn [bind]; [|done]. tailcall g_from_binary. done. Qed.
Lemma g_from_base64 s : fits (length s * 8) ->
  gives "base_scheme.TagEncodable.from_base64" [VClass "usdod.USDOD"; VStr s] (result usdod_obj (from_base64 usdod_from_binary s)).
Proof.
  intros L. start. callr (g_base64_to_hex s) as [h|?] E; unfold from_base64; rewrite E; cbn [bind]; [|done].
  eapply reach_trans; [apply g_from_hex, (base64_fits s h E L)|]. eapply reach_trans; [apply tail|]. done.
Qed.

(** * The claims *)

Lemma usdod_construct :
  (forall u args kws, passed1 "epc_uri" (VStr u) args kws -> calls W (VClass "usdod.USDOD") args kws (result usdod_obj (usdod_init u))) /\
  (forall u args kws, passed1 "epc_uri" (VStr u) args kws -> invokes W (VClass "usdod.USDOD") "from_epc_uri" args kws (result usdod_obj (usdod_init u))).
Proof.
  split; intros u args kws P; ways P; first [called (g_init u) | invoked (g_from_epc_uri u)].
Qed.
Lemma usdod_encode :
  (forall x s c nm f args kws, args_fs_default (usdod_member s) (filter_member c nm f) (s = USDOD_96) args kws ->
     invokes W (usdod_obj x) "tag_uri" args kws (result VStr (usdod_tag_uri x s f))) /\
  (forall x s c nm f args kws, args_fs_default (usdod_member s) (filter_member c nm f) (s = USDOD_96) args kws ->
     invokes W (usdod_obj x) "binary" args kws (result VStr (usdod_binary x s f))) /\
  (forall x s c nm f args kws, args_fs_default (usdod_member s) (filter_member c nm f) (s = USDOD_96) [] kws -> (forall b, usdod_binary x s f = Ok b -> fits (length b)) ->
     invokes W (usdod_obj x) "hex" args kws (result VStr (binary_hex (usdod_binary x s f)))) /\
  (forall x s c nm f args kws, args_fs_default (usdod_member s) (filter_member c nm f) (s = USDOD_96) [] kws -> (forall b, usdod_binary x s f = Ok b -> fits (length b)) ->
     invokes W (usdod_obj x) "base64" args kws (result VStr (binary_base64 (usdod_binary x s f)))).
Proof.
  repeat apply conj.
  - intros x s c nm f args kws P. cbv [usdod_obj]. ways P; match goal with |- context [usdod_tag_uri ?x ?s ?f] => first [invoked (g_tag_uri x s c nm f) | invoked (g_tag_uri x s "usdod.USDODFilterValue" "ALL_OTHERS" f)] end.
  - intros x s c nm f args kws P. cbv [usdod_obj]. ways P; match goal with |- context [usdod_binary ?x ?s ?f] => first [invoked (g_binary x s c nm f) | invoked (g_binary x s "usdod.USDODFilterValue" "ALL_OTHERS" f)] end.
  - intros x s c nm f args kws P F. exact (g_hex args kws x s c nm f P F []).
  - intros x s c nm f args kws P F. exact (g_base64 args kws x s c nm f P F []).
Qed.
Lemma usdod_decode :
  invokes W (VClass "usdod.USDOD") "header_to_schemes" [] [] (Returned (VDict (dict_of usdod_member usdod_header_to_schemes))) /\
  (forall u args kws, passed1 "epc_tag_uri" (VStr u) args kws -> invokes W (VClass "usdod.USDOD") "from_tag_uri" args kws (result usdod_obj (usdod_from_tag_uri u))) /\
  (forall u b args kws, passed2 "epc_tag_uri" "includes_filter" (VStr u) (VBool b) args kws ->
     invokes W (VClass "usdod.USDOD") "from_tag_uri" args kws (result usdod_obj (from_tag_uri usdod_init u b))) /\
  (forall s args kws, passed1 "binary_string" (VStr s) args kws -> invokes W (VClass "usdod.USDOD") "from_binary" args kws (result usdod_obj (usdod_from_binary s))) /\
  (forall s args kws, passed1 "tag_hex_string" (VStr s) args kws -> fits (length s * 4) ->
     invokes W (VClass "usdod.USDOD") "from_hex" args kws (result usdod_obj (from_hex usdod_from_binary s))) /\
  (forall s args kws, passed1 "tag_base64_string" (VStr s) args kws -> fits (length s * 8) ->
     invokes W (VClass "usdod.USDOD") "from_base64" args kws (result usdod_obj (from_base64 usdod_from_binary s))).
Proof.
  repeat apply conj.
  - invoked g_header_to_schemes.
  - intros u args kws P. ways P; invoked (g_from_tag u true).
  - intros u b args kws P. ways P; invoked (g_from_tag u b).
  - intros s args kws P. ways P; invoked (g_from_binary s).
  - intros s args kws P L. ways P; invoked (g_from_hex s L).
  - intros s args kws P L. ways P; invoked (g_from_base64 s L).
Qed.
