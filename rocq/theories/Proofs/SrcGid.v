(** The source text of epcpy/epc_schemes/gid.py on the machine. *)
From Coq Require Import String Lia.
From Verif.Model Require Import Py PyFloat Re Sre PyFormat Syntax Machine Regexes Common Base Gid.
From Verif.Source Require Import World.
From Verif.Proofs Require Import Basics Num SreTexts SreUse SrcUse SrcBase.

Ltac start := let k := fresh "k" in intros k; cbv [gid_obj gid_member gid_name filter_member]; enter.

Lemma g_init u : builds "gid.GID" (fun u => result gid_obj (gid_init u)) u.
Proof. intros k. inits. full agree_GID_URI. unfold gid_init, field4, idx, unpack2, unpack3. consts. repeat (heads; simples; next). Qed.
Lemma g_from_epc_uri u : gives "base_scheme.EPCScheme.from_epc_uri" [VClass "gid.GID"; VStr u] (result gid_obj (gid_init u)).
Proof. intros k. enter. tailcall g_init. done. Qed.
Lemma g_tag_uri x s : gives "gid.GID.tag_uri" [gid_obj x; gid_member s] (result VStr (gid_tag_uri x s)).
Proof. destruct s; start; unfold gid_tag_uri, bad_numeric_serial; consts; heads; runs. Qed.
Lemma g_binary x s : gives "gid.GID.binary" [gid_obj x; gid_member s] (result VStr (gid_binary x s)).
Proof. destruct s; start; member; unfold gid_binary; runs. Qed.
Lemma g_hex any kws x s : args_s_default (gid_member s) (s = GID_96) [] kws -> (forall b, gid_binary x s = Ok b -> fits (length b)) ->
  gives_kw "base_scheme.TagEncodable.hex" (gid_obj x :: any) kws (result VStr (binary_hex (gid_binary x s))).
Proof. intros P F. cbv [gid_obj]. ways P. all: match goal with |- context [gid_binary ?x ?s] => hex_by F (g_binary x s) end. Qed.
Lemma g_base64 any kws x s : args_s_default (gid_member s) (s = GID_96) [] kws -> (forall b, gid_binary x s = Ok b -> fits (length b)) ->
  gives_kw "base_scheme.TagEncodable.base64" (gid_obj x :: any) kws (result VStr (binary_base64 (gid_binary x s))).
Proof. intros P F. pose proof (g_hex [] kws x s P F) as G. cbv [gid_obj]. ways P. all: base64_by G. Qed.
Lemma g_header_to_schemes : gives "base_scheme.TagEncodable.header_to_schemes" [VClass "gid.GID"] (Returned (VDict (dict_of gid_member gid_header_to_schemes))).
Proof. intros k. enter. repeat (member; try enter). done. Qed.
Lemma g_header s : gives "common.parse_header_and_truncate_binary" [VStr s; VDict (dict_of gid_member gid_header_to_schemes)]
  (result (fun r => VTuple [gid_member (fst r); VStr (snd r)]) (parse_header_and_truncate_binary gid_scheme_value s gid_header_to_schemes)).
Proof. exact (g_parse_header "gid.GID.BinaryCodingScheme" gid_name gid_scheme_value s gid_header_to_schemes). Qed.
Lemma g_from_tag s b : gives "base_scheme.TagEncodable.from_tag_uri" [VClass "gid.GID"; VStr s; VBool b] (result gid_obj (from_tag_uri gid_init s b)).
Proof. exact (g_from_tag_uri "gid.GID" gid_obj gid_init g_init s b). Qed.
Lemma g_from_tag_gid s b : gives "gid.GID.from_tag_uri" [VClass "gid.GID"; VStr s; VBool b] (result gid_obj (from_tag_uri gid_init s b)).
Proof. intros k. enter. tailalike g_from_tag. done. Qed.
Lemma g_from_binary s : gives "gid.GID.from_binary" [VClass "gid.GID"; VStr s] (result gid_obj (gid_from_binary s)).
Proof.
  start. call g_header_to_schemes. use g_header. unfold gid_from_binary. headed E. header_len E.
  cbn [bind]. destruct sc; cbv [gid_member gid_name]; enter; runs; tailalike g_from_tag_gid; done.
Qed.
Lemma g_from_hex s : fits (length s * 4) ->
  gives "base_scheme.TagEncodable.from_hex" [VClass "gid.GID"; VStr s] (result gid_obj (from_hex gid_from_binary s)).
Proof. intros L. start. callr (g_hex_to_binary s L) as [b|?] E; unfold from_hex; rewrite E; cbn [bind]; [|done]. tailcall g_from_binary. done. Qed.
Lemma g_from_base64 s : fits (length s * 8) ->
  gives "base_scheme.TagEncodable.from_base64" [VClass "gid.GID"; VStr s] (result gid_obj (from_base64 gid_from_binary s)).
Proof.
  intros L. start. callr (g_base64_to_hex s) as [h|?] E; unfold from_base64; rewrite E; cbn [bind]; [|done].
  eapply reach_trans; [apply g_from_hex, (base64_fits s h E L)|]. eapply reach_trans; [apply tail|]. done.
Qed.

(** * The claims *)

Lemma gid_construct :
  (forall u args kws, passed1 "epc_uri" (VStr u) args kws -> calls W (VClass "gid.GID") args kws (result gid_obj (gid_init u))) /\
  (forall u args kws, passed1 "epc_uri" (VStr u) args kws -> invokes W (VClass "gid.GID") "from_epc_uri" args kws (result gid_obj (gid_init u))).
Proof.
  split; intros u args kws P; ways P; first [called (g_init u) | invoked (g_from_epc_uri u)].
Qed.
Lemma gid_encode :
  (forall x s args kws, args_s_default (gid_member s) (s = GID_96) args kws ->
     invokes W (gid_obj x) "tag_uri" args kws (result VStr (gid_tag_uri x s))) /\
  (forall x s args kws, args_s_default (gid_member s) (s = GID_96) args kws ->
     invokes W (gid_obj x) "binary" args kws (result VStr (gid_binary x s))) /\
  (forall x s args kws, args_s_default (gid_member s) (s = GID_96) [] kws -> (forall b, gid_binary x s = Ok b -> fits (length b)) ->
     invokes W (gid_obj x) "hex" args kws (result VStr (binary_hex (gid_binary x s)))) /\
  (forall x s args kws, args_s_default (gid_member s) (s = GID_96) [] kws -> (forall b, gid_binary x s = Ok b -> fits (length b)) ->
     invokes W (gid_obj x) "base64" args kws (result VStr (binary_base64 (gid_binary x s)))).
Proof.
  repeat apply conj.
  - intros x s args kws P. cbv [gid_obj]. ways P; match goal with |- context [gid_tag_uri ?x ?s] => invoked (g_tag_uri x s) end.
  - intros x s args kws P. cbv [gid_obj]. ways P; match goal with |- context [gid_binary ?x ?s] => invoked (g_binary x s) end.
  - intros x s args kws P F. exact (g_hex args kws x s P F []).
  - intros x s args kws P F. exact (g_base64 args kws x s P F []).
Qed.
Lemma gid_decode :
  invokes W (VClass "gid.GID") "header_to_schemes" [] [] (Returned (VDict (dict_of gid_member gid_header_to_schemes))) /\
  (forall u args kws, passed1 "epc_tag_uri" (VStr u) args kws -> invokes W (VClass "gid.GID") "from_tag_uri" args kws (result gid_obj (gid_from_tag_uri u))) /\
  (forall u b args kws, passed2 "epc_tag_uri" "includes_filter" (VStr u) (VBool b) args kws ->
     invokes W (VClass "gid.GID") "from_tag_uri" args kws (result gid_obj (from_tag_uri gid_init u b))) /\
  (forall s args kws, passed1 "binary_string" (VStr s) args kws -> invokes W (VClass "gid.GID") "from_binary" args kws (result gid_obj (gid_from_binary s))) /\
  (forall s args kws, passed1 "tag_hex_string" (VStr s) args kws -> fits (length s * 4) ->
     invokes W (VClass "gid.GID") "from_hex" args kws (result gid_obj (from_hex gid_from_binary s))) /\
  (forall s args kws, passed1 "tag_base64_string" (VStr s) args kws -> fits (length s * 8) ->
     invokes W (VClass "gid.GID") "from_base64" args kws (result gid_obj (from_base64 gid_from_binary s))).
Proof.
  repeat apply conj.
  - invoked g_header_to_schemes.
  - intros u args kws P. ways P; invoked (g_from_tag_gid u false).
  - intros u b args kws P. ways P; invoked (g_from_tag_gid u b).
  - intros s args kws P. ways P; invoked (g_from_binary s).
  - intros s args kws P L. ways P; invoked (g_from_hex s L).
  - intros s args kws P L. ways P; invoked (g_from_base64 s L).
Qed.
