(** Runs of [tag_uri]: what is returned and when. *)
From Coq Require Import String Lia.
From Verif.Model Require Import Py PyFormat Syntax Machine Common Base.
From Verif.Model Require Import Adi Cpi Gdti Giai Gid Grai Gsrn Gsrnp Itip Sgcn Sgln Sgtin Sscc Usdod Parsers.
From Verif.Source Require Import Program World.
From Verif.Spec Require Import Spec SpecEscapes SpecGrammar SpecSchemes SpecTags SpecLayout SpecCoding SpecReading SpecVarReading SpecWriting SpecTagUri SpecRuns.
From Verif.Proofs Require Import Run SrcUse Basics Num Uni Codecs Ctor CtorA CtorB CtorC CtorAll TagUri TagUri2 TagFits RunsTag Runs RunsAll.
From Verif.Proofs Require TagWriting.
Open Scope N_scope.
Open Scope list_scope.

Lemma start_kind q : scheme_prefix (class_of (req_epc q)) = uri_start (req_kind q).
Proof. destruct q as [x [] f|x [] f|x [] f|x [] f|x []|x [] f|x [] f|x [] f|x [] f|x [] f|x [] f|x [] f|x [] f|x [] f]; reflexivity. Qed.
Lemma coding_kind q : req_coding q = coding_name (req_kind q).
Proof. destruct q as [x [] f|x [] f|x [] f|x [] f|x []|x [] f|x [] f|x [] f|x [] f|x [] f|x [] f|x [] f|x [] f|x [] f]; reflexivity. Qed.
Lemma giai_kind q : class_of (req_epc q) = C_GIAI -> req_kind q = K_GIAI_96 \/ req_kind q = K_GIAI_202.
Proof. destruct q as [x [] f|x [] f|x [] f|x [] f|x []|x [] f|x [] f|x [] f|x [] f|x [] f|x [] f|x [] f|x [] f|x [] f]; intros E; try discriminate E; auto. Qed.

(** * The components of a URI are unique *)
Lemma item_start (cp item : str) : company_prefix cp -> (length cp + length item = 13)%nat -> exists i rest, item = i :: rest.
Proof. intros (_ & L) E. destruct item as [|i rest]; [cbn [length] in E; lia|]. now exists i, rest. Qed.
Lemma sgtin_unique u x cp i s : sgtin_init u = Ok x -> sgtin_uri u cp i s -> s = sgtin_serial x.
Proof.
  intros I H. destruct (item_start cp i) as (c & r & E); [apply H|apply H|].
  assert (J : sgtin_init u = Ok (mkSgtin u cp i s (complete (c :: cp ++ r)))).
  { apply sgtin_iff. split; [exact H|]. split; [reflexivity|]. exists c, r. split; [exact E|]. now apply completed_iff. }
  rewrite I in J. injection J as ->. reflexivity.
Qed.
Lemma itip_unique u x cp i p n s : itip_init u = Ok x -> itip_uri u cp i p n s -> s = itip_serial x.
Proof.
  intros I H. assert (J : itip_init u = Ok (mkItip u cp i p n s)) by (apply itip_iff; auto). rewrite I in J. injection J as ->. reflexivity.
Qed.
Lemma grai_unique u x cp i s : grai_init u = Ok x -> grai_uri u cp i s -> s = grai_serial x.
Proof.
  intros I H. assert (J : grai_init u = Ok (mkGrai u cp i s (complete (cp ++ i) ++ unescape s))).
  { apply grai_iff. split; [exact H|]. split; [reflexivity|]. exists (complete (cp ++ i)). split; [now apply completed_iff|reflexivity]. }
  rewrite I in J. injection J as ->. reflexivity.
Qed.
Lemma sgln_unique u x cp i s : sgln_init u = Ok x -> sgln_uri u cp i s -> s = sgln_serial x.
Proof.
  intros I H. assert (J : sgln_init u = Ok (mkSgln u cp i s (complete (cp ++ i)))).
  { apply sgln_iff. split; [exact H|]. split; [reflexivity|]. now apply completed_iff. }
  rewrite I in J. injection J as ->. reflexivity.
Qed.
Lemma gdti_unique u x cp i s : gdti_init u = Ok x -> gdti_uri u cp i s -> s = gdti_serial x.
Proof.
  intros I H. assert (J : gdti_init u = Ok (mkGdti u cp i s (complete (cp ++ i) ++ unescape s))).
  { apply gdti_iff. split; [exact H|]. split; [reflexivity|]. exists (complete (cp ++ i)). split; [now apply completed_iff|reflexivity]. }
  rewrite I in J. injection J as ->. reflexivity.
Qed.
Lemma giai_unique u x cp a g : giai_init u = Ok x -> giai_uri u cp a g -> cp = giai_cp x /\ a = giai_asset x.
Proof.
  intros I H. assert (J : giai_init u = Ok (mkGiai u cp a (cp ++ unescape a))).
  { apply giai_iff. split; [now exists g|]. split; reflexivity. }
  rewrite I in J. injection J as ->. split; reflexivity.
Qed.
Lemma cpi_unique u x cp r s : cpi_init u = Ok x -> cpi_uri u cp r s -> cp = cpi_cp x /\ r = cpi_ref x /\ s = cpi_serial x.
Proof.
  intros I H. assert (J : cpi_init u = Ok (mkCpi u cp r s)) by (apply cpi_iff; auto). rewrite I in J. injection J as ->. repeat split.
Qed.
Lemma room_iff q u : init_of (class_of (req_epc q)) u = Ok (req_epc q) -> coding_has_room q <-> has_room (req_kind q) u.
Proof.
  intros I. destruct q as [x [] f|x [] f|x [] f|x [] f|x []|x [] f|x [] f|x [] f|x [] f|x [] f|x [] f|x [] f|x [] f|x [] f];
    cbn [coding_has_room req_kind has_room]; try reflexivity; cbn [class_of req_epc init_of] in I; apply lift_ok in I as (y & I & Y); injection Y as <-.
  - split.
    + intros R. apply cpi_iff in I as (H & _). eauto 8.
    + intros (cp & r & s & H & R). destruct (cpi_unique _ _ _ _ _ I H) as (-> & -> & ->). exact R.
  - split.
    + intros R. apply gdti_iff in I as (H & _). eauto 8.
    + intros (cp & r & s & H & R). rewrite <- (gdti_unique _ _ _ _ _ I H). exact R.
  - split.
    + intros R. apply giai_iff in I as ((g & H) & _). eauto 8.
    + intros (cp & r & s & H & R). destruct (giai_unique _ _ _ _ _ I H) as (-> & ->). exact R.
  - split.
    + intros R. apply grai_iff in I as (H & _). eauto 8.
    + intros (cp & r & s & H & R). rewrite <- (grai_unique _ _ _ _ _ I H). exact R.
  - split.
    + intros R. apply itip_iff in I as (H & _). exists (itip_cp x), (itip_item x), (itip_piece x), (itip_total x), (itip_serial x). auto.
    + intros (cp & i & p & n & s & H & R). rewrite <- (itip_unique _ _ _ _ _ _ _ I H). exact R.
  - split.
    + intros R. apply sgln_iff in I as (H & _). eauto 8.
    + intros (cp & r & s & H & R). rewrite <- (sgln_unique _ _ _ _ _ I H). exact R.
  - split.
    + intros R. apply sgtin_iff in I as (H & _). eauto 8.
    + intros (cp & r & s & H & R). rewrite <- (sgtin_unique _ _ _ _ _ I H). exact R.
Qed.

(** * Runs *)
Lemma gid_kind q : match req_kind q with K_GID_96 => true | _ => false end = match req_filter q with None => true | Some _ => false end.
Proof. destruct q as [x [] f|x [] f|x [] f|x [] f|x []|x [] f|x [] f|x [] f|x [] f|x [] f|x [] f|x [] f|x [] f|x [] f]; reflexivity. Qed.
Theorem contract u v kws : parses "epc_pure_identity_to_scheme" u v -> tag_keywords v kws ->
  exists k, asks_coding kws k /\
    (has_room k u -> exists t, answers v "tag_uri" kws (VStr t) /\ tag_spelling k kws u t) /\
    (~ has_room k u -> invokes W v "tag_uri" [] kws (Raised (XExn ConvertException))).
Proof.
  intros H K. destruct (made_inv u v H) as (e & -> & _ & I & U). destruct (keywords_say e kws K) as (q & (Q & F & A & _) & SC & SF). subst e.
  exists (req_kind q). split; [exact SC|]. destruct (tag_uri_exact q u I) as (R & N). pose proof (room_iff q u I) as RI. split.
  - intros HR. apply RI in HR. destruct (R HR) as (t & T). rewrite T in A. exists t. split; [exact A|].
    destruct (tag_uri_spelling q u t I T) as (body & ignored & filter & E & G & FP & S). exists body, ignored, filter.
    rewrite <- start_kind, <- coding_kind. split; [exact E|]. split.
    { destruct G as [G|(G & G')]; [now left|]. right. split; [now apply giai_kind|exact G']. }
    split; [|exact S]. rewrite gid_kind. destruct (req_filter q) as [n|]; [|exact FP]. destruct FP as (s & FP). exists n, s. split; [exact SF|exact FP].
  - intros HR. rewrite N in A; [exact A|]. intros X. apply HR, RI, X.
Qed.
Lemma coding_inj k k' : coding_name k = coding_name k' -> k = k'.
Proof. destruct k, k'; intros E; try reflexivity; discriminate E. Qed.
Lemma asked_once v kws k k' : tag_keywords v kws -> asks_coding kws k -> asks_coding kws k' -> k = k'.
Proof.
  intros (c & s & _ & _ & K) (c1 & m1 & A) (c2 & m2 & B). apply coding_inj.
  assert (S : forall w, In ("binary_coding_scheme"%string, w) kws -> w = s).
  { intros w X. destruct (enum_members W (c ++ "FilterValue")).
    - subst kws. destruct X as [X|[]]. now injection X.
    - destruct K as (f & _ & [-> | ->]); cbn [In] in X; destruct X as [X|[X|[]]]; first [discriminate X | now injection X]. }
  apply S in A, B. rewrite <- A in B. injection B as _ _ B. symmetry. exact B.
Qed.
Theorem returns u v kws k : parses "epc_pure_identity_to_scheme" u v -> tag_keywords v kws -> asks_coding kws k -> has_room k u ->
  exists t, answers v "tag_uri" kws (VStr t) /\ tag_spelling k kws u t.
Proof. intros H K A R. destruct (contract u v kws H K) as (k' & A' & C & _). rewrite (asked_once _ _ _ _ K A A') in R |- *. exact (C R). Qed.
Theorem refuses u v kws k : parses "epc_pure_identity_to_scheme" u v -> tag_keywords v kws -> asks_coding kws k -> ~ has_room k u ->
  invokes W v "tag_uri" [] kws (Raised (XExn ConvertException)).
Proof. intros H K A R. destruct (contract u v kws H K) as (k' & A' & _ & C). rewrite (asked_once _ _ _ _ K A A') in R. exact (C R). Qed.
Theorem asked u v kws : parses "epc_pure_identity_to_scheme" u v -> tag_keywords v kws -> exists k, asks_coding kws k /\ exists rest, u = uri_start k ++ rest.
Proof.
  intros H K. destruct (made_inv u v H) as (e & -> & _ & I & U). destruct (keywords_say e kws K) as (q & (Q & _) & SC & _). subst e.
  exists (req_kind q). split; [exact SC|]. rewrite <- start_kind. exact (init_prefix _ _ _ I).
Qed.
Theorem writes u v kws k : parses "epc_pure_identity_to_scheme" u v -> tag_keywords v kws -> asks_coding kws k -> has_room k u -> standard_safe u ->
  exists b, answers v "binary" kws (VStr b) /\ stands_for k b u /\ (k <> K_GID_96 -> exists n, asks_filter kws n /\ carries_filter k b n).
Proof.
  intros H K A R S. destruct (returns u v kws k H K A R) as (t & T & _).
  destruct (TagWriting.all_stand u v kws t H K T S) as (k' & b & B & A' & X). rewrite (asked_once _ _ _ _ K A A'). now exists b.
Qed.
Theorem whole_contract u v kws : parses "epc_pure_identity_to_scheme" u v -> tag_keywords v kws ->
  exists k rest, asks_coding kws k /\ (forall k', asks_coding kws k' -> k' = k) /\ u = uri_start k ++ rest /\
    (has_room k u -> exists t, answers v "tag_uri" kws (VStr t) /\ tag_spelling k kws u t) /\
    (has_room k u -> standard_safe u -> exists b, answers v "binary" kws (VStr b) /\ stands_for k b u /\
       (k <> K_GID_96 -> exists n, asks_filter kws n /\ carries_filter k b n)) /\
    (~ has_room k u -> invokes W v "tag_uri" [] kws (Raised (XExn ConvertException))).
Proof.
  intros H K. destruct (asked u v kws H K) as (k & A & rest & E). exists k, rest. split; [exact A|].
  split; [intros k' A'; exact (asked_once v kws k' k K A' A)|]. split; [exact E|].
  split; [exact (returns u v kws k H K A)|]. split; [exact (writes u v kws k H K A)|exact (refuses u v kws k H K A)].
Qed.

(** * Cases *)
Definition case_uri (s : str) : str := lit "urn:epc:id:sgtin:0614141.812345." ++ s.
Definition case_object (s : str) : value := VObj "sgtin.SGTIN"
  [("epc_uri"%string, VStr (case_uri s)); ("_base64"%string, VNone); ("_binary"%string, VNone); ("_hex"%string, VNone); ("_tag_uri"%string, VNone);
   ("_company_pref"%string, VStr (lit "0614141")); ("_item_ref"%string, VStr (lit "812345")); ("_serial"%string, VStr s);
   ("_gtin"%string, VStr (lit "80614141123458"))].
Definition case_keywords : list (string * value) :=
  [("filter_value"%string, VEnum "sgtin.SGTINFilterValue" "FULL_CASE" (VStr (lit "2")));
   ("binary_coding_scheme"%string, VEnum "sgtin.SGTIN.BinaryCodingScheme" "SGTIN_96" (VStr (lit "sgtin-96")))].
Lemma case_keys s : tag_keywords (case_object s) case_keywords.
Proof.
  exists "sgtin.SGTIN"%string. eexists. split; [eexists; reflexivity|]. split; [vm_compute; left; reflexivity|].
  eexists. split; [|right; reflexivity]. vm_compute. auto 10.
Qed.
Lemma case_asks : asks_coding case_keywords K_SGTIN_96.
Proof. exists "sgtin.SGTIN.BinaryCodingScheme"%string, "SGTIN_96"%string. right. left. reflexivity. Qed.
Lemma seven_case : parses "epc_pure_identity_to_scheme" (case_uri (lit "7")) (case_object (lit "7")) /\
  tag_keywords (case_object (lit "7")) case_keywords /\ asks_coding case_keywords K_SGTIN_96 /\ has_room K_SGTIN_96 (case_uri (lit "7")).
Proof.
  split; [exists (300 * 100)%nat; vm_compute; reflexivity|]. split; [apply case_keys|]. split; [apply case_asks|].
  assert (I : exists x, sgtin_init (case_uri (lit "7")) = Ok x /\ sgtin_serial x = lit "7"). { eexists. split; vm_compute; reflexivity. }
  destruct I as (x & I & E). apply sgtin_iff in I as (H & _). exists (sgtin_cp x), (sgtin_item x), (sgtin_serial x). split; [exact H|]. rewrite E. split.
  - right. exists 55, []. split; [reflexivity|]. split; [lia|]. intros c [].
  - reflexivity.
Qed.
Lemma zeros_no_room s : has_room K_SGTIN_96 (case_uri (lit "00" ++ s)) -> exists x, sgtin_init (case_uri (lit "00" ++ s)) = Ok x /\ numeral (sgtin_serial x).
Proof.
  intros (cp & i & t & H & N & _). destruct (item_start cp i) as (c & r & E); [apply H|apply H|].
  exists (mkSgtin (case_uri (lit "00" ++ s)) cp i t (complete (c :: cp ++ r))). split; [|exact N].
  apply sgtin_iff. split; [exact H|]. split; [reflexivity|]. exists c, r. split; [exact E|]. now apply completed_iff.
Qed.
Lemma zeros_case : parses "epc_pure_identity_to_scheme" (case_uri (lit "007")) (case_object (lit "007")) /\
  tag_keywords (case_object (lit "007")) case_keywords /\ asks_coding case_keywords K_SGTIN_96 /\ ~ has_room K_SGTIN_96 (case_uri (lit "007")).
Proof.
  split; [exists (300 * 100)%nat; vm_compute; reflexivity|]. split; [apply case_keys|]. split; [apply case_asks|].
  intros R. apply (zeros_no_room (lit "7")) in R as (x & I & N).
  assert (J : exists y, sgtin_init (case_uri (lit "00" ++ lit "7")) = Ok y /\ sgtin_serial y = lit "007"). { eexists. split; vm_compute; reflexivity. }
  destruct J as (y & J & E). rewrite I in J. injection J as <-. rewrite E in N. destruct N as [N|(c & s' & N & L & _)]; [discriminate N|].
  injection N as <- _. lia.
Qed.
Lemma seven_safe : standard_safe (case_uri (lit "7")).
Proof.
  left. split; [intros c H; vm_compute in H; repeat (destruct H as [<-|H]; [reflexivity|]); destruct H|].
  split.
  { intros p body P E. exists (lit "0614141.812345.7"). cbn [In] in P.
    repeat (destruct P as [<-|P]; [first [discriminate E | vm_compute in E; repeat (injection E as E); subst; vm_compute; reflexivity]|]). destruct P. }
  split; [intros body E; discriminate E|]. split; [intros cp i p t s U; destruct U as (E & _); discriminate E|intros c p s U; destruct U as (E & _); discriminate E].
Qed.
Lemma unchecked : exists u u' v v' kws k b, u <> u' /\
  parses "epc_pure_identity_to_scheme" u v /\ tag_keywords v kws /\ asks_coding kws k /\ ~ has_room k u /\
  invokes W v "tag_uri" [] kws (Raised (XExn ConvertException)) /\ answers v "binary" kws (VStr b) /\
  parses "epc_pure_identity_to_scheme" u' v' /\ tag_keywords v' kws /\ has_room k u' /\ answers v' "binary" kws (VStr b) /\ stands_for k b u'.
Proof.
  destruct zeros_case as (P & K & A & N), seven_case as (P' & K' & _ & R).
  pose proof seven_safe as S.
  destruct (writes _ _ _ _ P' K' A R S) as (b & B & X & _).
  exists (case_uri (lit "007")), (case_uri (lit "7")), (case_object (lit "007")), (case_object (lit "7")), case_keywords, K_SGTIN_96, b.
  split; [discriminate|]. repeat (split; [first [exact P|exact K|exact A|exact N|exact (refuses _ _ _ _ P K A N)]|]).
  split; [|repeat (split; [first [exact P'|exact K'|exact R|exact B]|]); exact X].
  assert (Y : exists b', answers (case_object (lit "7")) "binary" case_keywords (VStr b') /\ answers (case_object (lit "007")) "binary" case_keywords (VStr b')).
  { eexists. split; [exists (300 * 100)%nat; vm_compute; reflexivity|]. exists (300 * 100)%nat. vm_compute. reflexivity. }
  destruct Y as (b' & Y & Z). pose proof (invokes_once _ _ _ _ _ _ B Y) as E. injection E as <-. exact Z.
Qed.
