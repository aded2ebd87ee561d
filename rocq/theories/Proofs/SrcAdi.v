(** The source text of epcpy/epc_schemes/adi.py on the machine. *)
From Coq Require Import String Lia.
From Verif.Model Require Import Py PyFloat Re Sre PyFormat Syntax Machine Regexes Common Base Adi.
From Verif.Source Require Import World.
From Verif.Proofs Require Import Basics Num SreTexts SreUse SrcUse SrcBase.

Ltac start := let k := fresh "k" in intros k; cbv [adi_obj adi_member adi_name filter_member]; enter.
Lemma leb_0 n : (0 <=? Z.of_nat n)%Z = true.
Proof. lia. Qed.

Lemma g_init u : builds "adi.ADI" (fun u => result adi_obj (adi_init u)) u.
Proof. intros k. inits. full agree_ADI_URI. unfold adi_init, field4, idx, unpack3. consts. lits. repeat (rewrite ?leb_0; cbv match; simples; next). Qed.
Lemma g_from_epc_uri u : gives "base_scheme.EPCScheme.from_epc_uri" [VClass "adi.ADI"; VStr u] (result adi_obj (adi_init u)).
Proof. intros k. enter. tailcall g_init. done. Qed.
Lemma g_tag_uri x s c nm f : gives "adi.ADI.tag_uri" [adi_obj x; filter_member c nm f; adi_member s] (result VStr (adi_tag_uri x s f)).
Proof. destruct s; start; unfold adi_tag_uri, bad_numeric_serial; consts; heads; runs. Qed.
Lemma g_binary x s c nm f : gives "adi.ADI.binary" [adi_obj x; filter_member c nm f; adi_member s] (result VStr (adi_binary x s f)).
Proof. destruct s; start; member; unfold adi_binary; runs. Qed.
Lemma g_hex any kws x s c nm f : args_fs_default (adi_member s) (filter_member c nm f) (s = ADI_VAR) [] kws -> (forall b, adi_binary x s f = Ok b -> fits (length b)) ->
  gives_kw "base_scheme.TagEncodable.hex" (adi_obj x :: any) kws (result VStr (binary_hex (adi_binary x s f))).
Proof. intros P F. cbv [adi_obj]. ways P. all: match goal with |- context [adi_binary ?x ?s ?f] => first [hex_by F (g_binary x s c nm f) | hex_by F (g_binary x s "adi.ADIFilterValue" "ALL_OTHERS" f)] end. Qed.
Lemma g_base64 any kws x s c nm f : args_fs_default (adi_member s) (filter_member c nm f) (s = ADI_VAR) [] kws -> (forall b, adi_binary x s f = Ok b -> fits (length b)) ->
  gives_kw "base_scheme.TagEncodable.base64" (adi_obj x :: any) kws (result VStr (binary_base64 (adi_binary x s f))).
Proof. intros P F. pose proof (g_hex [] kws x s c nm f P F) as G. cbv [adi_obj]. ways P. all: base64_by G. Qed.
Lemma g_header_to_schemes : gives "base_scheme.TagEncodable.header_to_schemes" [VClass "adi.ADI"] (Returned (VDict (dict_of adi_member adi_header_to_schemes))).
Proof. intros k. enter. repeat (member; try enter). done. Qed.
Lemma g_header s : gives "common.parse_header_and_truncate_binary" [VStr s; VDict (dict_of adi_member adi_header_to_schemes)]
  (result (fun r => VTuple [adi_member (fst r); VStr (snd r)]) (parse_header_and_truncate_binary adi_scheme_value s adi_header_to_schemes)).
Proof. exact (g_parse_header "adi.ADI.BinaryCodingScheme" adi_name adi_scheme_value s adi_header_to_schemes). Qed.
Lemma g_from_tag s b : gives "base_scheme.TagEncodable.from_tag_uri" [VClass "adi.ADI"; VStr s; VBool b] (result adi_obj (from_tag_uri adi_init s b)).
Proof. exact (g_from_tag_uri "adi.ADI" adi_obj adi_init g_init s b). Qed.
Lemma g_from_binary s : gives "adi.ADI.from_binary" [VClass "adi.ADI"; VStr s] (result adi_obj (adi_from_binary s)).
Proof.
  start. call g_header_to_schemes. use g_header. unfold adi_from_binary. headed E.
  cbn [bind]. destruct sc; cbv [adi_member adi_name]; enter. prims. pref agree_adi_terminator. cut_group (lit "([0]{6})") m_zeros6.
  unfold unpack2_rest. repeat (rewrite ?join_nil; change (- (6))%Z with (-6)%Z; simples; next). simples. tailalike g_from_tag; done.
Qed.
Lemma g_from_hex s : fits (length s * 4) ->
  gives "base_scheme.TagEncodable.from_hex" [VClass "adi.ADI"; VStr s] (result adi_obj (from_hex adi_from_binary s)).
Proof. intros L. start. callr (g_hex_to_binary s L) as [b|?] E; unfold from_hex; rewrite E; cbn [bind]; [|done]. tailcall g_from_binary. done. Qed.
Lemma g_from_base64 s : fits (length s * 8) ->
  gives "base_scheme.TagEncodable.from_base64" [VClass "adi.ADI"; VStr s] (result adi_obj (from_base64 adi_from_binary s)).
Proof.
  intros L. start. callr (g_base64_to_hex s) as [h|?] E; unfold from_base64; rewrite E; cbn [bind]; [|done].
  eapply reach_trans; [apply g_from_hex, (base64_fits s h E L)|]. eapply reach_trans; [apply tail|]. done.
Qed.

(** * The claims *)

Lemma adi_construct :
  (forall u args kws, passed1 "epc_uri" (VStr u) args kws -> calls W (VClass "adi.ADI") args kws (result adi_obj (adi_init u))) /\
  (forall u args kws, passed1 "epc_uri" (VStr u) args kws -> invokes W (VClass "adi.ADI") "from_epc_uri" args kws (result adi_obj (adi_init u))).
Proof.
  split; intros u args kws P; ways P; first [called (g_init u) | invoked (g_from_epc_uri u)].
Qed.
Lemma adi_encode :
  (forall x s c nm f args kws, args_fs_default (adi_member s) (filter_member c nm f) (s = ADI_VAR) args kws ->
     invokes W (adi_obj x) "tag_uri" args kws (result VStr (adi_tag_uri x s f))) /\
  (forall x s c nm f args kws, args_fs_default (adi_member s) (filter_member c nm f) (s = ADI_VAR) args kws ->
     invokes W (adi_obj x) "binary" args kws (result VStr (adi_binary x s f))) /\
  (forall x s c nm f args kws, args_fs_default (adi_member s) (filter_member c nm f) (s = ADI_VAR) [] kws -> (forall b, adi_binary x s f = Ok b -> fits (length b)) ->
     invokes W (adi_obj x) "hex" args kws (result VStr (binary_hex (adi_binary x s f)))) /\
  (forall x s c nm f args kws, args_fs_default (adi_member s) (filter_member c nm f) (s = ADI_VAR) [] kws -> (forall b, adi_binary x s f = Ok b -> fits (length b)) ->
     invokes W (adi_obj x) "base64" args kws (result VStr (binary_base64 (adi_binary x s f)))).
Proof.
  repeat apply conj.
  - intros x s c nm f args kws P. cbv [adi_obj]. ways P; match goal with |- context [adi_tag_uri ?x ?s ?f] => first [invoked (g_tag_uri x s c nm f) | invoked (g_tag_uri x s "adi.ADIFilterValue" "ALL_OTHERS" f)] end.
  - intros x s c nm f args kws P. cbv [adi_obj]. ways P; match goal with |- context [adi_binary ?x ?s ?f] => first [invoked (g_binary x s c nm f) | invoked (g_binary x s "adi.ADIFilterValue" "ALL_OTHERS" f)] end.
  - intros x s c nm f args kws P F. exact (g_hex args kws x s c nm f P F []).
  - intros x s c nm f args kws P F. exact (g_base64 args kws x s c nm f P F []).
Qed.
Lemma adi_decode :
  invokes W (VClass "adi.ADI") "header_to_schemes" [] [] (Returned (VDict (dict_of adi_member adi_header_to_schemes))) /\
  (forall u args kws, passed1 "epc_tag_uri" (VStr u) args kws -> invokes W (VClass "adi.ADI") "from_tag_uri" args kws (result adi_obj (adi_from_tag_uri u))) /\
  (forall u b args kws, passed2 "epc_tag_uri" "includes_filter" (VStr u) (VBool b) args kws ->
     invokes W (VClass "adi.ADI") "from_tag_uri" args kws (result adi_obj (from_tag_uri adi_init u b))) /\
  (forall s args kws, passed1 "binary_string" (VStr s) args kws -> invokes W (VClass "adi.ADI") "from_binary" args kws (result adi_obj (adi_from_binary s))) /\
  (forall s args kws, passed1 "tag_hex_string" (VStr s) args kws -> fits (length s * 4) ->
     invokes W (VClass "adi.ADI") "from_hex" args kws (result adi_obj (from_hex adi_from_binary s))) /\
  (forall s args kws, passed1 "tag_base64_string" (VStr s) args kws -> fits (length s * 8) ->
     invokes W (VClass "adi.ADI") "from_base64" args kws (result adi_obj (from_base64 adi_from_binary s))).
Proof.
  repeat apply conj.
  - invoked g_header_to_schemes.
  - intros u args kws P. ways P; invoked (g_from_tag u true).
  - intros u b args kws P. ways P; invoked (g_from_tag u b).
  - intros s args kws P. ways P; invoked (g_from_binary s).
  - intros s args kws P L. ways P; invoked (g_from_hex s L).
  - intros s args kws P L. ways P; invoked (g_from_base64 s L).
Qed.
