(** ID patterns in get_gs1_key *)
From Coq Require Import String Lia ZifyNat ZifyN ZifyBool Setoid.
From Verif.Model Require Import Py Re Regexes Common Base.
From Verif.Model Require Import Adi Cpi Gdti Giai Gid Grai Gsrn Gsrnp Itip Lgtin Sgcn Sgln Sgtin Sscc Usdod Others Parsers.
From Verif.Spec Require Import Spec SpecEscapes SpecGrammar SpecSchemes SpecElements SpecTags SpecLayout SpecCoding SpecHex SpecKeys.
From Verif.Proofs Require Import Basics Num ReLemmas Uni Grammar Ctor CtorAll TagUri PureParsers Elements GetKey.

(** regular expression of what follows the name in the patterns of a class *)
Definition strip_name (r : re) : re := match r with RSeq _ b => b | _ => REmp end.
Definition idpat_re (c : cls) : re :=
  match c with
  | C_SGTIN => strip_name SGTIN_IDPAT_URI_BODY | C_SSCC => strip_name SSCC_IDPAT_URI_BODY | C_SGLN => strip_name SGLN_IDPAT_URI_BODY
  | C_GRAI => strip_name GRAI_IDPAT_URI_BODY | C_GIAI => strip_name GIAI_IDPAT_URI_BODY | C_GSRN => strip_name GSRN_IDPAT_URI_BODY
  | C_GSRNP => strip_name GSRNP_IDPAT_URI_BODY | C_GDTI => strip_name GDTI_IDPAT_URI_BODY | C_CPI => strip_name CPI_IDPAT_URI_BODY
  | C_SGCN => strip_name SGCN_IDPAT_URI_BODY | C_GINC => strip_name GINC_IDPAT_URI_BODY | C_GSIN => strip_name GSIN_IDPAT_URI_BODY
  | C_ITIP => strip_name ITIP_IDPAT_URI_BODY | C_UPUI => strip_name UPUI_IDPAT_URI_BODY | C_PGLN => strip_name PGLN_IDPAT_URI_BODY
  | C_GID => strip_name GID_IDPAT_URI_BODY | C_USDOD => strip_name USDOD_IDPAT_URI_BODY | C_ADI => strip_name ADI_IDPAT_URI_BODY
  | C_BIC | C_IMOVN | C_LGTIN => REmp
  end.
Lemma colon_cut a b x y : ~ In 58 a -> ~ In 58 b -> a ++ 58 :: x = b ++ 58 :: y -> a = b /\ x = y.
Proof.
  revert b. induction a as [|c a IH]; intros [|d b] A B H; cbn [app] in H.
  - injection H as E. auto.
  - injection H as E _. destruct B. left. congruence.
  - injection H as E _. destruct A. left. congruence.
  - injection H as -> H. destruct (IH b) as [-> ->]; auto; intros J; [apply A|apply B]; now right.
Qed.
Lemma name_colon c : ~ In 58 (scheme_name c).
Proof. destruct c; cbn; intros H; repeat (destruct H as [H|H]; [discriminate H|]); destruct H. Qed.
Lemma name_inj c c' : scheme_name c = scheme_name c' -> c = c'.
Proof. destruct c, c'; intros H; try reflexivity; discriminate H. Qed.
Lemma idpat_body_lang s : lang IDPAT_BODY s <-> exists c r, s = scheme_name c ++ 58 :: r /\ lang (idpat_re c) r.
Proof.
  unfold IDPAT_BODY. rewrite lang_ralt. split.
  - intros (r & H & L). cbn [In] in H.
    Local Ltac one L := apply lang_lit_seq in L as (b & -> & L).
    destruct H as [<-|H]; [one L; exists C_SGTIN, b; split; [reflexivity|exact L]|].
    destruct H as [<-|H]; [one L; exists C_SSCC, b; split; [reflexivity|exact L]|].
    destruct H as [<-|H]; [one L; exists C_SGLN, b; split; [reflexivity|exact L]|].
    destruct H as [<-|H]; [one L; exists C_GRAI, b; split; [reflexivity|exact L]|].
    destruct H as [<-|H]; [one L; exists C_GIAI, b; split; [reflexivity|exact L]|].
    destruct H as [<-|H]; [one L; exists C_GSRN, b; split; [reflexivity|exact L]|].
    destruct H as [<-|H]; [one L; exists C_GSRNP, b; split; [reflexivity|exact L]|].
    destruct H as [<-|H]; [one L; exists C_GDTI, b; split; [reflexivity|exact L]|].
    destruct H as [<-|H]; [one L; exists C_CPI, b; split; [reflexivity|exact L]|].
    destruct H as [<-|H]; [one L; exists C_SGCN, b; split; [reflexivity|exact L]|].
    destruct H as [<-|H]; [one L; exists C_GINC, b; split; [reflexivity|exact L]|].
    destruct H as [<-|H]; [one L; exists C_GSIN, b; split; [reflexivity|exact L]|].
    destruct H as [<-|H]; [one L; exists C_ITIP, b; split; [reflexivity|exact L]|].
    destruct H as [<-|H]; [one L; exists C_UPUI, b; split; [reflexivity|exact L]|].
    destruct H as [<-|H]; [one L; exists C_PGLN, b; split; [reflexivity|exact L]|].
    destruct H as [<-|H]; [one L; exists C_GID, b; split; [reflexivity|exact L]|].
    destruct H as [<-|H]; [one L; exists C_USDOD, b; split; [reflexivity|exact L]|].
    destruct H as [<-|H]; [one L; exists C_ADI, b; split; [reflexivity|exact L]|]. destruct H.
  - intros (c & r & -> & L).
    assert (X : forall R T, In R [SGTIN_IDPAT_URI_BODY; SSCC_IDPAT_URI_BODY; SGLN_IDPAT_URI_BODY; GRAI_IDPAT_URI_BODY;
        GIAI_IDPAT_URI_BODY; GSRN_IDPAT_URI_BODY; GSRNP_IDPAT_URI_BODY; GDTI_IDPAT_URI_BODY;
        CPI_IDPAT_URI_BODY; SGCN_IDPAT_URI_BODY; GINC_IDPAT_URI_BODY; GSIN_IDPAT_URI_BODY;
        ITIP_IDPAT_URI_BODY; UPUI_IDPAT_URI_BODY; PGLN_IDPAT_URI_BODY; GID_IDPAT_URI_BODY;
        USDOD_IDPAT_URI_BODY; ADI_IDPAT_URI_BODY] -> R = RSeq (rlit T) (strip_name R) -> lit T = scheme_name c ++ [58] -> idpat_re c = strip_name R ->
        exists r0, In r0 [SGTIN_IDPAT_URI_BODY; SSCC_IDPAT_URI_BODY; SGLN_IDPAT_URI_BODY; GRAI_IDPAT_URI_BODY;
        GIAI_IDPAT_URI_BODY; GSRN_IDPAT_URI_BODY; GSRNP_IDPAT_URI_BODY; GDTI_IDPAT_URI_BODY;
        CPI_IDPAT_URI_BODY; SGCN_IDPAT_URI_BODY; GINC_IDPAT_URI_BODY; GSIN_IDPAT_URI_BODY;
        ITIP_IDPAT_URI_BODY; UPUI_IDPAT_URI_BODY; PGLN_IDPAT_URI_BODY; GID_IDPAT_URI_BODY;
        USDOD_IDPAT_URI_BODY; ADI_IDPAT_URI_BODY] /\ lang r0 (scheme_name c ++ 58 :: r)).
    { intros R T I E1 E2 E3. exists R. split; [exact I|]. rewrite E1. apply lang_lit_seq. exists r. split; [rewrite E2, <- app_assoc; reflexivity|].
      rewrite <- E3. exact L. }
    destruct c; try exact (False_ind _ L).
    all: [> apply (X ADI_IDPAT_URI_BODY "adi:"%string)|apply (X CPI_IDPAT_URI_BODY "cpi:"%string)|apply (X GDTI_IDPAT_URI_BODY "gdti:"%string)|apply (X GIAI_IDPAT_URI_BODY "giai:"%string)
     |apply (X GID_IDPAT_URI_BODY "gid:"%string)|apply (X GINC_IDPAT_URI_BODY "ginc:"%string)|apply (X GRAI_IDPAT_URI_BODY "grai:"%string)|apply (X GSIN_IDPAT_URI_BODY "gsin:"%string)
     |apply (X GSRN_IDPAT_URI_BODY "gsrn:"%string)|apply (X GSRNP_IDPAT_URI_BODY "gsrnp:"%string)|apply (X ITIP_IDPAT_URI_BODY "itip:"%string)|apply (X PGLN_IDPAT_URI_BODY "pgln:"%string)
     |apply (X SGCN_IDPAT_URI_BODY "sgcn:"%string)|apply (X SGLN_IDPAT_URI_BODY "sgln:"%string)|apply (X SGTIN_IDPAT_URI_BODY "sgtin:"%string)|apply (X SSCC_IDPAT_URI_BODY "sscc:"%string)
     |apply (X UPUI_IDPAT_URI_BODY "upui:"%string)|apply (X USDOD_IDPAT_URI_BODY "usdod:"%string)]; first [reflexivity|cbn [In]; tauto].
Qed.
Lemma idpat_lang c r : fullmatch IDPAT_URI (lit "urn:epc:idpat:" ++ scheme_name c ++ 58 :: r) = true <-> lang (idpat_re c) r.
Proof.
  rewrite fullmatch_lang. unfold IDPAT_URI. rewrite lang_lit_seq. split.
  - intros (b & E & L). apply app_inv_head in E. subst b. apply idpat_body_lang in L as (c' & r' & E & L).
    apply colon_cut in E as [N ->]; [|apply name_colon|apply name_colon]. apply name_inj in N. subst c'. exact L.
  - intros L. eexists. split; [reflexivity|]. apply idpat_body_lang. eauto.
Qed.

Lemma sub_star a : sub_dot_star (a ++ lit ".*") = a ++ lit ".0".
Proof.
  induction a as [|c a IH]; [reflexivity|]. cbn [app sub_dot_star]. rewrite IH.
  assert (X : str_eqb (c :: a ++ lit ".*") (lit ".*") = false).
  { match goal with |- ?t = false => destruct t eqn:E; [|reflexivity] end. apply str_eqb_eq in E. apply (f_equal (@length N)) in E.
    cbn [length] in E. rewrite app_length in E. cbn in E. lia. }
  assert (Y : str_eqb (c :: a ++ lit ".*") (lit ".*" ++ [c_nl]) = false).
  { match goal with |- ?t = false => destruct t eqn:E; [|reflexivity] end. apply str_eqb_eq in E.
    change (c :: a ++ lit ".*") with ((c :: a) ++ [46] ++ [42]) in E. rewrite app_assoc in E. apply app_inj_tail in E as [_ E]. discriminate E. }
  rewrite X, Y. reflexivity.
Qed.
Lemma replace_idpat r : replace_first (lit "idpat") (lit "id") (lit "urn:epc:idpat:" ++ r) = lit "urn:epc:id:" ++ r.
Proof. reflexivity. Qed.

(** the identifiers the scheme tables are read with *)
Lemma idpat_split c r : split c_colon (lit "urn:epc:idpat:" ++ scheme_name c ++ 58 :: r) = lit "urn" :: lit "epc" :: lit "idpat" :: scheme_name c :: split c_colon r.
Proof. destruct c; reflexivity. Qed.
Lemma keyed_assoc c : assoc_str (scheme_name c) GS1_KEYED_SCHEME_IDENTIFIERS = if is_gs1_keyed c then Some c else None.
Proof. destruct c; reflexivity. Qed.
Lemma one_escape c : mem_str (scheme_name c) ONE_ESCAPE_ALLOWED_SCHEMES = true -> c = C_SGTIN \/ c = C_SGLN \/ c = C_GRAI \/ c = C_GDTI \/ c = C_CPI.
Proof. destruct c; intros H; first [discriminate H|tauto]. Qed.
Lemma name_prefix c : c <> C_LGTIN -> lit "urn:epc:id:" ++ scheme_name c ++ [58] = scheme_prefix c.
Proof. destruct c; intros H; first [reflexivity|destruct H; reflexivity]. Qed.

Lemma star_lang s : lang star_c s -> s = lit "*".
Proof. intros H. apply lang_rchar in H. exact H. Qed.
Lemma not_star s : forallb is_d s = true -> s = lit "*" -> False.
Proof. intros H ->. discriminate H. Qed.
(** a pattern that is no URI has a wildcard where the second component should be *)
Definition wild (r : str) : Prop := exists p, r = p ++ lit ".*.*" /\ ~ In 46 p.
Lemma wild_pat a r : lang (ralt [rseq [PNC; dot; a; dot; GS3A3_COMPONENT]; rseq [PNC; dot; a; dot; star_c]; rseq [PNC; dot; star_c; dot; star_c]; st3]) r ->
  lang (rseq [PNC; dot; a; dot; GS3A3_COMPONENT]) r \/ wild r.
Proof.
  intros L. apply lang_ralt in L as (x & I & L). cbn [In] in I. destruct I as [<-|[<-|[<-|[<-|[]]]]].
  - left. exact L.
  - left. apply lang_dot3 in L as (x & y & z & -> & A & B & C). apply star_lang in C as ->. apply lang_dot3. exists x, y, (lit "*"). repeat split; trivial.
    apply lang_GS3A3. split; [discriminate|reflexivity].
  - right. apply lang_dot3 in L as (x & y & z & -> & A & B & C). apply star_lang in B as ->. apply star_lang in C as ->. exists x. split; [reflexivity|].
    apply lang_PNC in A as [_ A]. apply digits_no_dot. exact A.
  - right. apply lang_dot3 in L as (x & y & z & -> & A & B & C). apply star_lang in A as ->. apply star_lang in B as ->. apply star_lang in C as ->. exists (lit "*").
    split; [reflexivity|]. intros [H|[]]. discriminate H.
Qed.
Lemma dummy_no p a : ~ In 46 p -> (forall s, lang a s -> forallb is_d s = true) -> ~ lang (rseq [PNC; dot; a; dot; GS3A3_COMPONENT]) (p ++ lit ".*.0").
Proof.
  intros P A L. apply lang_dot3 in L as (x & y & z & E & B & C & D). apply lang_PNC in B as [_ B]. apply A in C.
  change (p ++ lit ".*.0") with (p ++ lit "." ++ lit "*.0") in E.
  apply cut_dot in E as [_ E]; [|exact P|apply digits_no_dot; exact B].
  change (lit "*.0") with (lit "*" ++ lit "." ++ lit "0") in E. apply cut_dot in E as [E _]; [|intros [H|[]]; discriminate H|apply digits_no_dot; exact C].
  subst y. discriminate C.
Qed.
Lemma cpi_unkeyed : is_gs1_keyed C_CPI = false. Proof. reflexivity. Qed.
Lemma uri_pat c r : c <> C_LGTIN -> is_gs1_keyed c = true -> fullmatch (uri_re c) (scheme_prefix c ++ r) = true -> lang (idpat_re c) r.
Proof.
  intros N K H. apply fullmatch_lang in H.
  destruct c; try discriminate K; try (now destruct N); cbn [uri_re] in H;
    apply lang_lit_seq in H as (b & E & H); change (lit "" ++ r) with r in E;
    apply app_inv_head in E; subst b; apply lang_ralt; eexists; (split; [left; reflexivity|exact H]).
Qed.
Lemma pat_uri c r : mem_str (scheme_name c) ONE_ESCAPE_ALLOWED_SCHEMES = true -> is_gs1_keyed c = true -> lang (idpat_re c) r ->
  fullmatch (uri_re c) (scheme_prefix c ++ r) = true \/
  exists p, r = p ++ lit ".*.*" /\ fullmatch (uri_re c) (scheme_prefix c ++ p ++ lit ".*.0") = false.
Proof.
  intros O K L.
  assert (D1 : forall s, lang PNC s -> forallb is_d s = true) by (intros s H; now apply lang_PNC in H).
  assert (D2 : forall s, lang PNCE s -> forallb is_d s = true) by (intros s H; now apply lang_PNCE in H).
  destruct (one_escape c O) as [-> |[-> |[-> |[-> | ->]]]]; try discriminate K; cbn [idpat_re strip_name] in L;
    (apply wild_pat in L as [L|(p & -> & P)]; [left; apply fullmatch_lang; apply lang_lit_seq; eexists; split; [reflexivity|exact L]
    |right; exists p; split; [reflexivity|]; apply fullmatch_false; intros H; apply lang_lit_seq in H as (b & E & H); apply app_inv_head in E; subst b;
     refine (dummy_no p _ P _ H); assumption]).
Qed.
Lemma epc_own c r : fullmatch EPC_URI (scheme_prefix c ++ r) = fullmatch (uri_re c) (scheme_prefix c ++ r).
Proof.
  destruct (fullmatch (uri_re c) (scheme_prefix c ++ r)) eqn:E; [apply epc_uri_lang; eauto|].
  nomatch ltac:(fun X => apply epc_uri_lang in X as (c' & X); pose proof X as Y; apply uri_re_prefix in Y as (b & Y); apply prefix_inj in Y as [<- _]; congruence).
Qed.
Lemma idpat_scheme c r : c <> C_LGTIN -> lang (idpat_re c) r ->
  idpat_to_gs1_keyed_scheme (lit "urn:epc:idpat:" ++ scheme_name c ++ 58 :: r) =
  if is_gs1_keyed c then init_of c (scheme_prefix c ++ r) else Raise ConvertException.
Proof.
  intros N L. unfold idpat_to_gs1_keyed_scheme. rewrite idpat_split. cbn [idx nth_error of_option bind]. rewrite keyed_assoc.
  destruct (is_gs1_keyed c) eqn:K; cbn [of_option bind]; [|reflexivity].
  rewrite replace_idpat.
  change (58 :: r) with ([58] ++ r). rewrite (app_assoc (scheme_name c)), (app_assoc (lit "urn:epc:id:")), (name_prefix c N).
  rewrite epc_own. destruct (fullmatch (uri_re c) (scheme_prefix c ++ r)) eqn:E; [reflexivity|].
  rewrite (init_nomatch c _ E). destruct (mem_str (scheme_name c) ONE_ESCAPE_ALLOWED_SCHEMES) eqn:O; cbn [negb]; [|reflexivity].
  destruct (pat_uri c r O K L) as [H|(p & -> & H)]; [congruence|].
  assert (S : sub_dot_star (scheme_prefix c ++ p ++ lit ".*.*") = scheme_prefix c ++ p ++ lit ".*.0").
  { change (lit ".*.*") with (lit ".*" ++ lit ".*"). rewrite !app_assoc, sub_star, <- !app_assoc. reflexivity. }
  rewrite S, epc_own, H. reflexivity.
Qed.
Theorem keyed_idpat c r l g : c <> C_LGTIN -> is_gs1_keyed c = true ->
  get_gs1_key (lit "urn:epc:idpat:" ++ scheme_name c ++ 58 :: r) l g = keyed (init_of c (scheme_prefix c ++ r)) g.
Proof.
  intros N K. unfold get_gs1_key. set (s := lit "urn:epc:idpat:" ++ scheme_name c ++ 58 :: r).
  assert (F : s = 117 :: lit "rn:epc:idpat:" ++ scheme_name c ++ 58 :: r) by reflexivity.
  rewrite (not_element s _ _ F) by discriminate.
  assert (E1 : fullmatch EPC_URI s = false).
  { nomatch ltac:(fun X => apply epc_uri_prefix in X as (c' & b & X); destruct c'; discriminate X). }
  assert (E2 : fullmatch TAG_URI s = false).
  { nomatch ltac:(fun X => apply tag_uri_prefix in X as (b & X); discriminate X). }
  rewrite E1, E2.
  assert (E3 : is_some (assoc_str (firstn 8 s) TAG_ENCODABLE_BINARY_HEADERS) = false) by (apply (no_bin s _ _ F); discriminate).
  assert (E4 : is_some (assoc_str (upper (firstn 2 s)) TAG_ENCODABLE_HEX_HEADERS) = false) by (apply (no_hex s _ _ F); lia).
  rewrite E3, E4.
  destruct (fullmatch IDPAT_URI s) eqn:I.
  - apply idpat_lang in I. unfold s. rewrite (idpat_scheme c r N I), K. apply keyed_some.
  - assert (X : fullmatch (uri_re c) (scheme_prefix c ++ r) = false).
    { nomatch ltac:(fun X => apply (uri_pat c r N K) in X; apply idpat_lang in X; fold s in X; congruence). }
    rewrite (init_nomatch c _ X). cbn [bind keyed]. reflexivity.
Qed.
(** nothing else that opens like a pattern is understood *)
Theorem idpat_other t l g : (forall c r, c <> C_LGTIN -> is_gs1_keyed c = true -> t <> scheme_name c ++ 58 :: r) ->
  get_gs1_key (lit "urn:epc:idpat:" ++ t) l g = Raise ConvertException.
Proof.
  intros N. unfold get_gs1_key. set (s := lit "urn:epc:idpat:" ++ t).
  assert (F : s = 117 :: lit "rn:epc:idpat:" ++ t) by reflexivity.
  rewrite (not_element s _ _ F) by discriminate.
  assert (E1 : fullmatch EPC_URI s = false).
  { nomatch ltac:(fun X => apply epc_uri_prefix in X as (c' & b & X); destruct c'; discriminate X). }
  assert (E2 : fullmatch TAG_URI s = false).
  { nomatch ltac:(fun X => apply tag_uri_prefix in X as (b & X); discriminate X). }
  rewrite E1, E2, (no_bin s _ _ F), (no_hex s _ _ F) by lia.
  destruct (fullmatch IDPAT_URI s) eqn:I; [|reflexivity].
  pose proof I as J. apply fullmatch_lang in J. apply lang_lit_seq in J as (b & E & J). unfold s in E. apply app_inv_head in E. subst b.
  apply idpat_body_lang in J as (c & r & -> & L). unfold s in *. clear s.
  assert (NL : c <> C_LGTIN) by (intros ->; destruct L).
  rewrite (idpat_scheme c r NL L). destruct (is_gs1_keyed c) eqn:K; [|reflexivity].
  destruct (N c r NL K eq_refl).
Qed.

(** ** Wildcards *)
From Verif.Proofs Require Import CtorA Keys.
Lemma keyed_idpat' c r l g : In c keyed_classes -> c <> C_LGTIN -> get_gs1_key (idpat_of c r) l g = keyed (init_of c (scheme_prefix c ++ r)) g.
Proof. intros I N. apply (keyed_idpat c r l g N). apply keyed_classes_iff in I. exact I. Qed.
Theorem idpat_key c r l g : In c keyed_classes -> c <> C_LGTIN -> key_via (init_of c (scheme_prefix c ++ r)) g (get_gs1_key (idpat_of c r) l g).
Proof. intros I N. rewrite (keyed_idpat' c r l g I N). apply keyed_via. Qed.
Theorem idpat_refused t l g : (forall c r, In c keyed_classes -> c <> C_LGTIN -> t <> scheme_name c ++ lit ":" ++ r) ->
  get_gs1_key (lit "urn:epc:idpat:" ++ t) l g = Raise ConvertException.
Proof. intros H. apply idpat_other. intros c r N K. apply (H c r); [|exact N]. apply keyed_classes_iff. exact K. Qed.

Lemma star_component : component (lit "*").
Proof. apply component_iff; [discriminate|reflexivity|reflexivity]. Qed.
Lemma keyed_ok c u e g : init_of c u = Ok e -> In c keyed_classes -> keyed (init_of c u) g = epc_gs1_key e g.
Proof. intros H I. rewrite H. apply init_class in H as [<- _]. apply keyed_classes_iff in I. unfold keyed. cbn [bind]. rewrite I. reflexivity. Qed.
Ltac in_list := cbn [In keyed_classes]; tauto.
Ltac star_key c L :=
  match goal with |- get_gs1_key ?t _ _ = _ => change t with (idpat_of c (skipn (length (idpat_of c [])) t)) end.

Theorem sgtin_star cp i rest gtin l : company_prefix cp -> digits (i :: rest) -> (length cp + length (i :: rest) = 13)%nat -> completed (i :: cp ++ rest) gtin ->
  get_gs1_key (lit "urn:epc:idpat:sgtin:" ++ cp ++ lit "." ++ (i :: rest) ++ lit ".*") l None = Ok gtin.
Proof.
  intros P D L C. change (lit "urn:epc:idpat:sgtin:" ++ cp ++ lit "." ++ (i :: rest) ++ lit ".*") with (idpat_of C_SGTIN (cp ++ lit "." ++ (i :: rest) ++ lit ".*")).
  rewrite keyed_idpat' by (try discriminate; in_list).
  destruct (sgtin_keys (scheme_prefix C_SGTIN ++ cp ++ lit "." ++ (i :: rest) ++ lit ".*") cp i rest (lit "*") gtin) as (x & X & K & _); [|exact C|].
  { repeat (split; [first [reflexivity|assumption|apply star_component]|]). vm_compute. repeat constructor. }
  rewrite (keyed_ok C_SGTIN _ (E_SGTIN x)); [exact K| |in_list]. cbn [init_of]. rewrite X. reflexivity.
Qed.
Theorem sgln_star cp loc gln l : company_prefix cp -> digits loc -> (length cp + length loc = 12)%nat -> completed (cp ++ loc) gln ->
  get_gs1_key (lit "urn:epc:idpat:sgln:" ++ cp ++ lit "." ++ loc ++ lit ".*") l None = Ok gln.
Proof.
  intros P D L C. change (lit "urn:epc:idpat:sgln:" ++ cp ++ lit "." ++ loc ++ lit ".*") with (idpat_of C_SGLN (cp ++ lit "." ++ loc ++ lit ".*")).
  rewrite keyed_idpat' by (try discriminate; in_list).
  destruct (sgln_keys (scheme_prefix C_SGLN ++ cp ++ lit "." ++ loc ++ lit ".*") cp loc (lit "*") gln) as (x & X & K & _); [|exact C|].
  { repeat (split; [first [reflexivity|assumption|apply star_component]|]). vm_compute. repeat constructor. }
  rewrite (keyed_ok C_SGLN _ (E_SGLN x)); [cbn [epc_gs1_key]; rewrite K; reflexivity| |in_list]. cbn [init_of]. rewrite X. reflexivity.
Qed.
Theorem grai_star cp asset k l : company_prefix cp -> digits asset -> (length cp + length asset = 12)%nat -> completed (cp ++ asset) k ->
  get_gs1_key (lit "urn:epc:idpat:grai:" ++ cp ++ lit "." ++ asset ++ lit ".*") l None = Ok (k ++ lit "*").
Proof.
  intros P D L C. change (lit "urn:epc:idpat:grai:" ++ cp ++ lit "." ++ asset ++ lit ".*") with (idpat_of C_GRAI (cp ++ lit "." ++ asset ++ lit ".*")).
  rewrite keyed_idpat' by (try discriminate; in_list).
  destruct (grai_keys (scheme_prefix C_GRAI ++ cp ++ lit "." ++ asset ++ lit ".*") cp asset (lit "*") k) as (x & X & K & _); [|exact C|].
  { repeat (split; [first [reflexivity|assumption|apply star_component]|]). vm_compute. repeat constructor. }
  rewrite (keyed_ok C_GRAI _ (E_GRAI x)); [cbn [epc_gs1_key]; rewrite K; reflexivity| |in_list]. cbn [init_of]. rewrite X. reflexivity.
Qed.
Theorem gdti_star cp doc k l : company_prefix cp -> digits doc -> (length cp + length doc = 12)%nat -> completed (cp ++ doc) k ->
  get_gs1_key (lit "urn:epc:idpat:gdti:" ++ cp ++ lit "." ++ doc ++ lit ".*") l None = Ok (k ++ lit "*").
Proof.
  intros P D L C. change (lit "urn:epc:idpat:gdti:" ++ cp ++ lit "." ++ doc ++ lit ".*") with (idpat_of C_GDTI (cp ++ lit "." ++ doc ++ lit ".*")).
  rewrite keyed_idpat' by (try discriminate; in_list).
  destruct (gdti_keys (scheme_prefix C_GDTI ++ cp ++ lit "." ++ doc ++ lit ".*") cp doc (lit "*") k) as (x & X & K & _); [|exact C|].
  { repeat (split; [first [reflexivity|assumption|apply star_component]|]). vm_compute. repeat constructor. }
  rewrite (keyed_ok C_GDTI _ (E_GDTI x)); [cbn [epc_gs1_key]; rewrite K; reflexivity| |in_list]. cbn [init_of]. rewrite X. reflexivity.
Qed.
Theorem giai_star cp l : company_prefix cp -> get_gs1_key (lit "urn:epc:idpat:giai:" ++ cp ++ lit ".*") l None = Ok (cp ++ lit "*").
Proof.
  intros P. change (lit "urn:epc:idpat:giai:" ++ cp ++ lit ".*") with (idpat_of C_GIAI (cp ++ lit ".*")).
  rewrite keyed_idpat' by (try discriminate; in_list).
  destruct (giai_keys (scheme_prefix C_GIAI ++ cp ++ lit ".*") cp (lit "*") []) as (x & X & K & _).
  { repeat (split; [first [reflexivity|assumption|apply star_component]|]). split; [intros [Z|[]]; discriminate Z|]. split; [|left; reflexivity].
    destruct P as [_ P]. change (length (lit "*")) with 1%nat. lia. }
  rewrite (keyed_ok C_GIAI _ (E_GIAI x)); [cbn [epc_gs1_key]; rewrite K; reflexivity| |in_list]. cbn [init_of]. rewrite X. reflexivity.
Qed.
Theorem ginc_star cp l : company_prefix cp -> get_gs1_key (lit "urn:epc:idpat:ginc:" ++ cp ++ lit ".*") l None = Ok (cp ++ lit "*").
Proof.
  intros P. change (lit "urn:epc:idpat:ginc:" ++ cp ++ lit ".*") with (idpat_of C_GINC (cp ++ lit ".*")).
  rewrite keyed_idpat' by (try discriminate; in_list).
  destruct (ginc_keys (scheme_prefix C_GINC ++ cp ++ lit ".*") cp (lit "*")) as (x & X & K & _).
  { repeat (split; [first [reflexivity|assumption|apply star_component]|]).
    destruct P as [_ P]. change (length (unescape (lit "*"))) with 1%nat. lia. }
  rewrite (keyed_ok C_GINC _ (E_GINC x)); [cbn [epc_gs1_key]; rewrite K; reflexivity| |in_list]. cbn [init_of]. rewrite X. reflexivity.
Qed.

(** wildcards where digits are expected *)
Lemma init_refuses c r : ~ lang (uri_re c) (scheme_prefix c ++ r) -> init_of c (scheme_prefix c ++ r) = Raise ConvertException.
Proof. intros H. apply init_nomatch. apply fullmatch_false. exact H. Qed.
Lemma dot_cut p q x y : ~ In 46 p -> forallb is_d x = true -> p ++ lit "." ++ q = x ++ [c_dot] ++ y -> p = x /\ q = y.
Proof. intros P X E. apply cut_dot in E; [exact E|exact P|apply digits_no_dot; exact X]. Qed.
Theorem reference_star c p q l g : In c keyed_by_reference -> ~ In 46 p ->
  get_gs1_key (idpat_of c (p ++ lit ".*" ++ q)) l g = Raise ConvertException.
Proof.
  intros I P.
  assert (K : In c keyed_classes /\ c <> C_LGTIN).
  { cbn [In keyed_by_reference] in I. repeat (destruct I as [<-|I]; [split; [in_list|discriminate]|]). destruct I. }
  rewrite (keyed_idpat' c _ l g (proj1 K) (proj2 K)). clear K.
  rewrite init_refuses; [reflexivity|]. intros H.
  change (p ++ lit ".*" ++ q) with (p ++ lit "." ++ 42 :: q) in H.
  cbn [In keyed_by_reference] in I; repeat (destruct I as [<-|I]; [cbn [uri_re] in H; apply lang_lit_seq in H as (b & E & H); apply app_inv_head in E; subst b;
    first [apply lang_dot3 in H as (x & y & z & E & A & B & _)|apply lang_dot2 in H as (x & y & E & A & B)];
    apply lang_PNC in A as [_ A]; apply (dot_cut _ _ _ _ P A) in E as [_ E]; first [apply lang_PNC in B as [_ B]|apply lang_PNCE in B];
    destruct y; [discriminate E|]; injection E as E _; subst; discriminate B|]); destruct I.
Qed.
Definition cls_dec (a b : cls) : {a = b} + {a <> b}. Proof. decide equality. Defined.
Theorem prefix_star c q l g : In c keyed_classes -> get_gs1_key (idpat_of c (lit "*" ++ q)) l g = Raise ConvertException.
Proof.
  intros I. destruct (cls_dec c C_LGTIN) as [-> |N].
  { apply idpat_refused. intros c' r _ N E. apply N. symmetry. apply name_inj.
    apply (colon_cut (scheme_name C_LGTIN) (scheme_name c') (lit "*" ++ q) r); [apply name_colon|apply name_colon|exact E]. }
  rewrite (keyed_idpat' c _ l g I N). rewrite init_refuses; [reflexivity|]. intros H.
  cbn [In keyed_classes] in I; repeat (destruct I as [<-|I]; [cbn [uri_re] in H; apply lang_lit_seq in H as (b & E & H); apply app_inv_head in E; subst b;
    first [apply lang_dot3 in H as (x & y & z & E & A & _)|apply lang_dot2 in H as (x & y & E & A & _)];
    apply lang_PNC in A as [Z A]; destruct x; [destruct (Z eq_refl)|]; injection E as E _; subst; discriminate A|]); destruct I.
Qed.
Theorem sgcn_star p q l g : ~ In 46 p -> ~ In 46 q -> get_gs1_key (lit "urn:epc:idpat:sgcn:" ++ p ++ lit "." ++ q ++ lit ".*") l g = Raise ConvertException.
Proof.
  intros P Q. change (lit "urn:epc:idpat:sgcn:" ++ p ++ lit "." ++ q ++ lit ".*") with (idpat_of C_SGCN (p ++ lit "." ++ q ++ lit "." ++ lit "*")).
  rewrite keyed_idpat' by (try discriminate; in_list). rewrite init_refuses; [reflexivity|]. intros H.
  cbn [uri_re] in H; apply lang_lit_seq in H as (b & E & H); apply app_inv_head in E; subst b.
  apply lang_dot3 in H as (x & y & z & E & A & B & C). apply lang_PNC in A as [_ A]. apply lang_PNCE in B. apply lang_PNC in C as [_ C].
  apply (dot_cut _ _ _ _ P A) in E as [_ E]. apply (dot_cut _ _ _ _ Q B) in E as [_ <-]. discriminate C.
Qed.
