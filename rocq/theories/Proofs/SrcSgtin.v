(** The source text of epcpy/epc_schemes/sgtin.py on the machine. *)
From Coq Require Import String Lia.
From Verif.Model Require Import Py PyFloat Re Sre PyFormat Syntax Machine Regexes Common Base Sgtin.
From Verif.Source Require Import World.
From Verif.Proofs Require Import Basics Num SreTexts SreUse SrcUse SrcBase.

Ltac start := let k := fresh "k" in intros k; cbv [sgtin_obj sgtin_member sgtin_name filter_member gtin_member gtin_name]; enter.
Lemma sgtin_L : table_of (ns_dict "sgtin" "PARTITION_TABLE_L") sgtin_table_L.
Proof. table. Qed.
Lemma sgtin_P : table_of (ns_dict "sgtin" "PARTITION_TABLE_P") sgtin_table_P.
Proof. table. Qed.

Lemma g_init u : builds "sgtin.SGTIN" (fun u => result sgtin_obj (sgtin_init u)) u.
Proof. intros k. inits. full agree_SGTIN_URI. unfold sgtin_init, field4, tail4, idx, cp_len_ok, unpack2, unpack3, unpack1_rest, unpack2_rest, unpack4_rest. consts. runs. Qed.
Lemma g_from_epc_uri u : gives "base_scheme.EPCScheme.from_epc_uri" [VClass "sgtin.SGTIN"; VStr u] (result sgtin_obj (sgtin_init u)).
Proof. intros k. enter. tailcall g_init. done. Qed.
Lemma g_from_gtin_plus_serial g s n : gives "sgtin.SGTIN.from_gtin_plus_serial" [VClass "sgtin.SGTIN"; VStr g; VStr s; VInt n]
  (result sgtin_obj (sgtin_from_gtin_plus_serial g s n)).
Proof. start. unfold sgtin_from_gtin_plus_serial, idx; consts. runs. tailcall g_init. done. Qed.
Lemma g_gtin c x t : gtin_class c -> gives "sgtin.SGTIN.gtin" [sgtin_obj x; gtin_member c t] (result VStr (sgtin_gtin x t)).
Proof.
  intros [-> | ->]; destruct t; start; (unfold sgtin_gtin, gtin_view;
    match goal with |- context [Z.of_nat (gtin_len ?t)] =>
      let v := eval vm_compute in (Z.of_nat (gtin_len t)) in change (Z.of_nat (gtin_len t)) with v end; consts; runs).
Qed.
Lemma g_gs1_key c x t : gtin_class c -> gives "sgtin.SGTIN.gs1_key" [sgtin_obj x; gtin_member c t] (result VStr (sgtin_gs1_key x t)).
Proof. intros G. start. tailalike (g_gtin c x t G). done. Qed.
Lemma g_gs1_element_string x : gives "sgtin.SGTIN.gs1_element_string" [sgtin_obj x] (Returned (VStr (sgtin_gs1_element_string x))).
Proof. start; runs; try done. Qed.
Lemma g_from_gs1_element_string s n : gives "sgtin.SGTIN.from_gs1_element_string" [VClass "sgtin.SGTIN"; VStr s; VInt n]
  (result sgtin_obj (sgtin_from_gs1_element_string s n)).
Proof. start. full agree_SGTIN_GS1_ELEMENT_STRING. cut_at cut_paren2. unfold sgtin_from_gs1_element_string, unpack2, unpack3, idx; consts. runs. tailcall g_init. done. Qed.
Lemma g_tag_uri x s c nm f : gives "sgtin.SGTIN.tag_uri" [sgtin_obj x; sgtin_member s; filter_member c nm f] (result VStr (sgtin_tag_uri x s f)).
Proof. destruct s; start; unfold sgtin_tag_uri, bad_numeric_serial; consts; heads; runs. Qed.
Lemma g_binary x s c nm f : gives "sgtin.SGTIN.binary" [sgtin_obj x; sgtin_member s; filter_member c nm f] (result VStr (sgtin_binary x s f)).
Proof. destruct s; start; member; unfold sgtin_binary; runs; ept sgtin_L; runs. Qed.
Lemma g_hex any kws x s c nm f : args_sf (sgtin_member s) (filter_member c nm f) [] kws -> (forall b, sgtin_binary x s f = Ok b -> fits (length b)) ->
  gives_kw "base_scheme.TagEncodable.hex" (sgtin_obj x :: any) kws (result VStr (binary_hex (sgtin_binary x s f))).
Proof. intros P F. cbv [sgtin_obj]. ways P. all: match goal with |- context [sgtin_binary ?x ?s ?f] => first [hex_by F (g_binary x s c nm f) | hex_by F (g_binary x s "sgtin.SGTINFilterValue" "ALL_OTHERS" f)] end. Qed.
Lemma g_base64 any kws x s c nm f : args_sf (sgtin_member s) (filter_member c nm f) [] kws -> (forall b, sgtin_binary x s f = Ok b -> fits (length b)) ->
  gives_kw "base_scheme.TagEncodable.base64" (sgtin_obj x :: any) kws (result VStr (binary_base64 (sgtin_binary x s f))).
Proof. intros P F. pose proof (g_hex [] kws x s c nm f P F) as G. cbv [sgtin_obj]. ways P. all: base64_by G. Qed.
Lemma g_header_to_schemes : gives "base_scheme.TagEncodable.header_to_schemes" [VClass "sgtin.SGTIN"] (Returned (VDict (dict_of sgtin_member sgtin_header_to_schemes))).
Proof. intros k. enter. repeat (member; try enter). done. Qed.
Lemma g_header s : gives "common.parse_header_and_truncate_binary" [VStr s; VDict (dict_of sgtin_member sgtin_header_to_schemes)]
  (result (fun r => VTuple [sgtin_member (fst r); VStr (snd r)]) (parse_header_and_truncate_binary sgtin_scheme_value s sgtin_header_to_schemes)).
Proof. exact (g_parse_header "sgtin.SGTIN.BinaryCodingScheme" sgtin_name sgtin_scheme_value s sgtin_header_to_schemes). Qed.
Lemma g_from_tag s b : gives "base_scheme.TagEncodable.from_tag_uri" [VClass "sgtin.SGTIN"; VStr s; VBool b] (result sgtin_obj (from_tag_uri sgtin_init s b)).
Proof. exact (g_from_tag_uri "sgtin.SGTIN" sgtin_obj sgtin_init g_init s b). Qed.
Lemma g_from_binary s : gives "sgtin.SGTIN.from_binary" [VClass "sgtin.SGTIN"; VStr s] (result sgtin_obj (sgtin_from_binary s)).
Proof.
  start. call g_header_to_schemes. use g_header. unfold sgtin_from_binary. headed E. header_len E.
  cbn [bind]. destruct sc; cbv [sgtin_member sgtin_name]; enter; runs; dpt sgtin_P; runs; tailalike g_from_tag; done.
Qed.
Lemma g_from_hex s : fits (length s * 4) ->
  gives "base_scheme.TagEncodable.from_hex" [VClass "sgtin.SGTIN"; VStr s] (result sgtin_obj (from_hex sgtin_from_binary s)).
Proof. intros L. start. callr (g_hex_to_binary s L) as [b|?] E; unfold from_hex; rewrite E; cbn [bind]; [|done]. tailcall g_from_binary. done. Qed.
Lemma g_from_base64 s : fits (length s * 8) ->
  gives "base_scheme.TagEncodable.from_base64" [VClass "sgtin.SGTIN"; VStr s] (result sgtin_obj (from_base64 sgtin_from_binary s)).
Proof.
  intros L. start. callr (g_base64_to_hex s) as [h|?] E; unfold from_base64; rewrite E; cbn [bind]; [|done].
  eapply reach_trans; [apply g_from_hex, (base64_fits s h E L)|]. eapply reach_trans; [apply tail|]. done.
Qed.

(** * The claims *)

Lemma sgtin_construct :
  (forall u args kws, passed1 "epc_uri" (VStr u) args kws -> calls W (VClass "sgtin.SGTIN") args kws (result sgtin_obj (sgtin_init u))) /\
  (forall u args kws, passed1 "epc_uri" (VStr u) args kws -> invokes W (VClass "sgtin.SGTIN") "from_epc_uri" args kws (result sgtin_obj (sgtin_init u))).
Proof.
  split; intros u args kws P; ways P; first [called (g_init u) | invoked (g_from_epc_uri u)].
Qed.
Lemma sgtin_gs1 :
  (forall g s n args kws, passed3 "gtin" "serial" "company_prefix_length" (VStr g) (VStr s) (VInt n) args kws ->
     invokes W (VClass "sgtin.SGTIN") "from_gtin_plus_serial" args kws (result sgtin_obj (sgtin_from_gtin_plus_serial g s n))) /\
  (forall x c t args kws, gtin_class c -> passed1 "gtin_type" (gtin_member c t) args kws \/ (args = [] /\ kws = [] /\ t = GTIN14) ->
     invokes W (sgtin_obj x) "gs1_key" args kws (result VStr (sgtin_gs1_key x t))) /\
  (forall x c t args kws, gtin_class c -> passed1 "gtin_type" (gtin_member c t) args kws \/ (args = [] /\ kws = [] /\ t = GTIN14) ->
     invokes W (sgtin_obj x) "gtin" args kws (result VStr (sgtin_gtin x t))) /\
  (forall x, invokes W (sgtin_obj x) "gs1_element_string" [] [] (Returned (VStr (sgtin_gs1_element_string x)))) /\
  (forall s n args kws, passed2 "gs1_element_string" "company_prefix_length" (VStr s) (VInt n) args kws ->
     invokes W (VClass "sgtin.SGTIN") "from_gs1_element_string" args kws (result sgtin_obj (sgtin_from_gs1_element_string s n))).
Proof.
  repeat apply conj.
  - intros g s n args kws P. ways P; invoked (g_from_gtin_plus_serial g s n).
  - intros x c t args kws G P. cbv [sgtin_obj]. ways P; [invoked (g_gs1_key c x t G)|invoked (g_gs1_key c x t G)|invoked (g_gs1_key "sgtin.GTIN_TYPE" x GTIN14 ltac:(cbv; tauto))].
  - intros x c t args kws G P. cbv [sgtin_obj]. ways P; [invoked (g_gtin c x t G)|invoked (g_gtin c x t G)|invoked (g_gtin "sgtin.GTIN_TYPE" x GTIN14 ltac:(cbv; tauto))].
  - intros x. cbv [sgtin_obj]. invoked (g_gs1_element_string x).
  - intros s n args kws P. ways P; invoked (g_from_gs1_element_string s n).
Qed.
Lemma sgtin_encode :
  (forall x s c nm f args kws, args_sf (sgtin_member s) (filter_member c nm f) args kws ->
     invokes W (sgtin_obj x) "tag_uri" args kws (result VStr (sgtin_tag_uri x s f))) /\
  (forall x s c nm f args kws, args_sf (sgtin_member s) (filter_member c nm f) args kws ->
     invokes W (sgtin_obj x) "binary" args kws (result VStr (sgtin_binary x s f))) /\
  (forall x s c nm f args kws, args_sf (sgtin_member s) (filter_member c nm f) [] kws -> (forall b, sgtin_binary x s f = Ok b -> fits (length b)) ->
     invokes W (sgtin_obj x) "hex" args kws (result VStr (binary_hex (sgtin_binary x s f)))) /\
  (forall x s c nm f args kws, args_sf (sgtin_member s) (filter_member c nm f) [] kws -> (forall b, sgtin_binary x s f = Ok b -> fits (length b)) ->
     invokes W (sgtin_obj x) "base64" args kws (result VStr (binary_base64 (sgtin_binary x s f)))).
Proof.
  repeat apply conj.
  - intros x s c nm f args kws P. cbv [sgtin_obj]. ways P; match goal with |- context [sgtin_tag_uri ?x ?s ?f] => first [invoked (g_tag_uri x s c nm f) | invoked (g_tag_uri x s "sgtin.SGTINFilterValue" "ALL_OTHERS" f)] end.
  - intros x s c nm f args kws P. cbv [sgtin_obj]. ways P; match goal with |- context [sgtin_binary ?x ?s ?f] => first [invoked (g_binary x s c nm f) | invoked (g_binary x s "sgtin.SGTINFilterValue" "ALL_OTHERS" f)] end.
  - intros x s c nm f args kws P F. exact (g_hex args kws x s c nm f P F []).
  - intros x s c nm f args kws P F. exact (g_base64 args kws x s c nm f P F []).
Qed.
Lemma sgtin_decode :
  invokes W (VClass "sgtin.SGTIN") "header_to_schemes" [] [] (Returned (VDict (dict_of sgtin_member sgtin_header_to_schemes))) /\
  (forall u args kws, passed1 "epc_tag_uri" (VStr u) args kws -> invokes W (VClass "sgtin.SGTIN") "from_tag_uri" args kws (result sgtin_obj (sgtin_from_tag_uri u))) /\
  (forall u b args kws, passed2 "epc_tag_uri" "includes_filter" (VStr u) (VBool b) args kws ->
     invokes W (VClass "sgtin.SGTIN") "from_tag_uri" args kws (result sgtin_obj (from_tag_uri sgtin_init u b))) /\
  (forall s args kws, passed1 "binary_string" (VStr s) args kws -> invokes W (VClass "sgtin.SGTIN") "from_binary" args kws (result sgtin_obj (sgtin_from_binary s))) /\
  (forall s args kws, passed1 "tag_hex_string" (VStr s) args kws -> fits (length s * 4) ->
     invokes W (VClass "sgtin.SGTIN") "from_hex" args kws (result sgtin_obj (from_hex sgtin_from_binary s))) /\
  (forall s args kws, passed1 "tag_base64_string" (VStr s) args kws -> fits (length s * 8) ->
     invokes W (VClass "sgtin.SGTIN") "from_base64" args kws (result sgtin_obj (from_base64 sgtin_from_binary s))).
Proof.
  repeat apply conj.
  - invoked g_header_to_schemes.
  - intros u args kws P. ways P; invoked (g_from_tag u true).
  - intros u b args kws P. ways P; invoked (g_from_tag u b).
  - intros s args kws P. ways P; invoked (g_from_binary s).
  - intros s args kws P L. ways P; invoked (g_from_hex s L).
  - intros s args kws P L. ways P; invoked (g_from_base64 s L).
Qed.
