(** What a caller of epcpy sees, from the proofs about the source and the proofs about the model. *)
From Coq Require Import String Lia.
From Verif.Model Require Import Py PyFormat Syntax Machine Common Base.
From Verif.Model Require Import Adi Cpi Gdti Giai Gid Grai Gsrn Gsrnp Itip Lgtin Sgcn Sgln Sgtin Sscc Usdod Others Parsers.
From Verif.Source Require Import Program World.
From Verif.Spec Require Import Spec SpecEscapes SpecGrammar SpecSchemes SpecTags SpecLayout SpecCoding SpecWriting SpecParsers SpecRuns.
From Verif.Proofs Require Import Run SrcUse SrcMembers.
From Verif.Proofs Require Num TagReading.
From Verif.Proofs Require SrcSgtin SrcSscc SrcSgln SrcGrai SrcGiai SrcGsrn SrcGsrnp SrcGdti SrcSgcn SrcItip SrcGid SrcCpi SrcUsdod SrcAdi.
Open Scope N_scope.

Lemma invokes_once v m args kws r r' : invokes W v m args kws r -> invokes W v m args kws r' -> r = r'.
Proof.
  intros [n H] [n' H']. assert (E : StDone r [] = StDone r' []).
  { apply (reach_unique W (do_method W (fun s => s) v m args kws [])); [exact I|exact I|exists n; exact H|exists n'; exact H']. }
  injection E. auto.
Qed.

(** * The keywords for tags *)

Lemma filter_in c k f : filter_numbers W c k -> In f (enum_members W c) -> exists nm n, f = filter_member c nm n /\ n < N.of_nat k.
Proof.
  intros (names & L & ->) H. apply in_map_iff in H as ([nm n] & <- & H). exists nm, n. split; [reflexivity|].
  apply in_combine_r in H. apply in_map_iff in H as (m & <- & H). apply in_seq in H. lia.
Qed.
Definition named (s f : value) (kws : list (string * value)) : Prop :=
  kws = [("binary_coding_scheme"%string, s); ("filter_value"%string, f)] \/ kws = [("filter_value"%string, f); ("binary_coding_scheme"%string, s)].
Lemma keywords_filter c k l kws : filter_numbers W (c ++ "FilterValue") (S k) -> tag_keywords (VObj c l) kws ->
  exists s nm n, In s (enum_members W (c ++ ".BinaryCodingScheme")) /\ n < N.of_nat (S k) /\ named s (filter_member (c ++ "FilterValue") nm n) kws.
Proof.
  intros F (c' & s & (l' & E) & S & K). injection E as <- <-.
  destruct (enum_members W (c ++ "FilterValue")) as [|f0 fs] eqn:M.
  - exfalso. destruct F as (names & L & F). rewrite M in F. destruct names; [discriminate L|]. discriminate F.
  - destruct K as (f & I & K). rewrite <- M in I. destruct (filter_in _ _ _ F I) as (nm & n & -> & B). exists s, nm, n. auto.
Qed.
Definition writing (e : epc) (q : tagreq) (kws : list (string * value)) : Prop :=
  req_epc q = e /\ filter_fits q /\
  invokes W (obj_of e) "tag_uri" [] kws (result VStr (req_tag_uri q)) /\
  invokes W (obj_of e) "binary" [] kws (result VStr (req_binary q)) /\
  ((forall b, req_binary q = Ok b -> fits (length b)) ->
   invokes W (obj_of e) "hex" [] kws (result VStr (req_hex q)) /\ invokes W (obj_of e) "base64" [] kws (result VStr (req_base64 q))).
Lemma named_sf s f kws : named s f kws -> args_sf s f [] kws /\ args_fs s f [] kws.
Proof. intros [-> | ->]; unfold args_sf, args_fs, passed2; auto 10. Qed.
Lemma named_default s f kws (d : Prop) : named s f kws -> args_fs_default s f d [] kws.
Proof. intros H. left. apply named_sf, H. Qed.
Lemma named_default2 s f kws (d d' : Prop) : named s f kws -> args_sf_default s f d d' [] kws.
Proof. intros H. left. apply named_sf, H. Qed.
Ltac named_args N := first [exact (proj1 (named_sf _ _ _ N)) | exact (proj2 (named_sf _ _ _ N)) | exact (named_default _ _ _ _ N) | exact (named_default2 _ _ _ _ _ N)].
(** the keywords name the coding scheme and the filter value of the request *)
Definition says (q : tagreq) (kws : list (string * value)) : Prop :=
  asks_coding kws (req_kind q) /\ match req_filter q with Some f => asks_filter kws f | None => True end.
Lemma named_says q c m c' m' f kws : req_filter q = Some f -> named (VEnum c m (VStr (coding_name (req_kind q)))) (filter_member c' m' f) kws -> says q kws.
Proof.
  intros F N. split.
  - exists c, m. destruct N as [-> | ->]; cbn; auto.
  - rewrite F. destruct (proj2 (TagReading.plain_iff f (filter_value f)) eq_refl) as (A & _ & D).
    exists c', m', (filter_value f). split; [destruct N as [-> | ->]; cbn; auto|]. auto.
Qed.
Ltac tagged T x E n B N :=
  let P1 := fresh "P" in let P2 := fresh "P" in let P3 := fresh "P" in let P4 := fresh "P" in let FB := fresh "FB" in
  destruct E as (P1 & P2 & P3 & P4);
  exists (T n); split; [|eapply named_says; [reflexivity|exact N]];
   split; [reflexivity|]; split; [exact B|]; split; [eapply P1; named_args N|]; split; [eapply P2; named_args N|];
   intros FB; split; [eapply P3|eapply P4]; first [exact FB|named_args N].
Lemma sgtin_keywords x kws : tag_keywords (sgtin_obj x) kws -> exists q, writing (E_SGTIN x) q kws /\ says q kws.
Proof.
  intros K. pose proof filter_values as (F & _ & _ & _ & _ & _ & _ & _ & _ & _ & _ & _ & _). eapply (keywords_filter "sgtin.SGTIN" 7) in K; [|exact F]. destruct K as (s & nm & n & S & B & N). clear F.
  pose proof coding_schemes as (F & _ & _ & _ & _ & _ & _ & _ & _ & _ & _ & _ & _ & _). change (In s (enum_members W "sgtin.SGTIN.BinaryCodingScheme")) in S. rewrite F in S. clear F.
  pose proof SrcSgtin.sgtin_encode as E. cbn [map In] in S. change (obj_of (E_SGTIN x)) with (sgtin_obj x) in *.
  destruct S as [<-|[<-|[]]]; [tagged (T_SGTIN x SGTIN_96) x E n B N|tagged (T_SGTIN x SGTIN_198) x E n B N].
Qed.
Lemma sscc_keywords x kws : tag_keywords (sscc_obj x) kws -> exists q, writing (E_SSCC x) q kws /\ says q kws.
Proof.
  intros K. pose proof filter_values as (_ & F & _ & _ & _ & _ & _ & _ & _ & _ & _ & _ & _). eapply (keywords_filter "sscc.SSCC" 7) in K; [|exact F]. destruct K as (s & nm & n & S & B & N). clear F.
  pose proof coding_schemes as (_ & F & _ & _ & _ & _ & _ & _ & _ & _ & _ & _ & _ & _). change (In s (enum_members W "sscc.SSCC.BinaryCodingScheme")) in S. rewrite F in S. clear F.
  pose proof SrcSscc.sscc_encode as E. cbn [map In] in S. change (obj_of (E_SSCC x)) with (sscc_obj x) in *.
  destruct S as [<-|[]]. tagged (T_SSCC x SSCC_96) x E n B N.
Qed.
Lemma sgln_keywords x kws : tag_keywords (sgln_obj x) kws -> exists q, writing (E_SGLN x) q kws /\ says q kws.
Proof.
  intros K. pose proof filter_values as (_ & _ & F & _ & _ & _ & _ & _ & _ & _ & _ & _ & _). eapply (keywords_filter "sgln.SGLN" 7) in K; [|exact F]. destruct K as (s & nm & n & S & B & N). clear F.
  pose proof coding_schemes as (_ & _ & F & _ & _ & _ & _ & _ & _ & _ & _ & _ & _ & _). change (In s (enum_members W "sgln.SGLN.BinaryCodingScheme")) in S. rewrite F in S. clear F.
  pose proof SrcSgln.sgln_encode as E. cbn [map In] in S. change (obj_of (E_SGLN x)) with (sgln_obj x) in *.
  destruct S as [<-|[<-|[]]]; [tagged (T_SGLN x SGLN_96) x E n B N|tagged (T_SGLN x SGLN_195) x E n B N].
Qed.
Lemma grai_keywords x kws : tag_keywords (grai_obj x) kws -> exists q, writing (E_GRAI x) q kws /\ says q kws.
Proof.
  intros K. pose proof filter_values as (_ & _ & _ & F & _ & _ & _ & _ & _ & _ & _ & _ & _). eapply (keywords_filter "grai.GRAI" 7) in K; [|exact F]. destruct K as (s & nm & n & S & B & N). clear F.
  pose proof coding_schemes as (_ & _ & _ & F & _ & _ & _ & _ & _ & _ & _ & _ & _ & _). change (In s (enum_members W "grai.GRAI.BinaryCodingScheme")) in S. rewrite F in S. clear F.
  pose proof SrcGrai.grai_encode as E. cbn [map In] in S. change (obj_of (E_GRAI x)) with (grai_obj x) in *.
  destruct S as [<-|[<-|[]]]; [tagged (T_GRAI x GRAI_96) x E n B N|tagged (T_GRAI x GRAI_170) x E n B N].
Qed.
Lemma giai_keywords x kws : tag_keywords (giai_obj x) kws -> exists q, writing (E_GIAI x) q kws /\ says q kws.
Proof.
  intros K. pose proof filter_values as (_ & _ & _ & _ & F & _ & _ & _ & _ & _ & _ & _ & _). eapply (keywords_filter "giai.GIAI" 7) in K; [|exact F]. destruct K as (s & nm & n & S & B & N). clear F.
  pose proof coding_schemes as (_ & _ & _ & _ & F & _ & _ & _ & _ & _ & _ & _ & _ & _). change (In s (enum_members W "giai.GIAI.BinaryCodingScheme")) in S. rewrite F in S. clear F.
  pose proof SrcGiai.giai_encode as E. cbn [map In] in S. change (obj_of (E_GIAI x)) with (giai_obj x) in *.
  destruct S as [<-|[<-|[]]]; [tagged (T_GIAI x GIAI_96) x E n B N|tagged (T_GIAI x GIAI_202) x E n B N].
Qed.
Lemma gsrn_keywords x kws : tag_keywords (gsrn_obj x) kws -> exists q, writing (E_GSRN x) q kws /\ says q kws.
Proof.
  intros K. pose proof filter_values as (_ & _ & _ & _ & _ & F & _ & _ & _ & _ & _ & _ & _). eapply (keywords_filter "gsrn.GSRN" 7) in K; [|exact F]. destruct K as (s & nm & n & S & B & N). clear F.
  pose proof coding_schemes as (_ & _ & _ & _ & _ & F & _ & _ & _ & _ & _ & _ & _ & _). change (In s (enum_members W "gsrn.GSRN.BinaryCodingScheme")) in S. rewrite F in S. clear F.
  pose proof SrcGsrn.gsrn_encode as E. cbn [map In] in S. change (obj_of (E_GSRN x)) with (gsrn_obj x) in *.
  destruct S as [<-|[]]. tagged (T_GSRN x GSRN_96) x E n B N.
Qed.
Lemma gsrnp_keywords x kws : tag_keywords (gsrnp_obj x) kws -> exists q, writing (E_GSRNP x) q kws /\ says q kws.
Proof.
  intros K. pose proof filter_values as (_ & _ & _ & _ & _ & _ & F & _ & _ & _ & _ & _ & _). eapply (keywords_filter "gsrnp.GSRNP" 7) in K; [|exact F]. destruct K as (s & nm & n & S & B & N). clear F.
  pose proof coding_schemes as (_ & _ & _ & _ & _ & _ & F & _ & _ & _ & _ & _ & _ & _). change (In s (enum_members W "gsrnp.GSRNP.BinaryCodingScheme")) in S. rewrite F in S. clear F.
  pose proof SrcGsrnp.gsrnp_encode as E. cbn [map In] in S. change (obj_of (E_GSRNP x)) with (gsrnp_obj x) in *.
  destruct S as [<-|[]]. tagged (T_GSRNP x GSRNP_96) x E n B N.
Qed.
Lemma gdti_keywords x kws : tag_keywords (gdti_obj x) kws -> exists q, writing (E_GDTI x) q kws /\ says q kws.
Proof.
  intros K. pose proof filter_values as (_ & _ & _ & _ & _ & _ & _ & F & _ & _ & _ & _ & _). eapply (keywords_filter "gdti.GDTI" 7) in K; [|exact F]. destruct K as (s & nm & n & S & B & N). clear F.
  pose proof coding_schemes as (_ & _ & _ & _ & _ & _ & _ & F & _ & _ & _ & _ & _ & _). change (In s (enum_members W "gdti.GDTI.BinaryCodingScheme")) in S. rewrite F in S. clear F.
  pose proof SrcGdti.gdti_encode as E. cbn [map In] in S. change (obj_of (E_GDTI x)) with (gdti_obj x) in *.
  destruct S as [<-|[<-|[]]]; [tagged (T_GDTI x GDTI_96) x E n B N|tagged (T_GDTI x GDTI_174) x E n B N].
Qed.
Lemma sgcn_keywords x kws : tag_keywords (sgcn_obj x) kws -> exists q, writing (E_SGCN x) q kws /\ says q kws.
Proof.
  intros K. pose proof filter_values as (_ & _ & _ & _ & _ & _ & _ & _ & F & _ & _ & _ & _). eapply (keywords_filter "sgcn.SGCN" 7) in K; [|exact F]. destruct K as (s & nm & n & S & B & N). clear F.
  pose proof coding_schemes as (_ & _ & _ & _ & _ & _ & _ & _ & F & _ & _ & _ & _ & _). change (In s (enum_members W "sgcn.SGCN.BinaryCodingScheme")) in S. rewrite F in S. clear F.
  pose proof SrcSgcn.sgcn_encode as E. cbn [map In] in S. change (obj_of (E_SGCN x)) with (sgcn_obj x) in *.
  destruct S as [<-|[]]. tagged (T_SGCN x SGCN_96) x E n B N.
Qed.
Lemma itip_keywords x kws : tag_keywords (itip_obj x) kws -> exists q, writing (E_ITIP x) q kws /\ says q kws.
Proof.
  intros K. pose proof filter_values as (_ & _ & _ & _ & _ & _ & _ & _ & _ & F & _ & _ & _). eapply (keywords_filter "itip.ITIP" 7) in K; [|exact F]. destruct K as (s & nm & n & S & B & N). clear F.
  pose proof coding_schemes as (_ & _ & _ & _ & _ & _ & _ & _ & _ & F & _ & _ & _ & _). change (In s (enum_members W "itip.ITIP.BinaryCodingScheme")) in S. rewrite F in S. clear F.
  pose proof SrcItip.itip_encode as E. cbn [map In] in S. change (obj_of (E_ITIP x)) with (itip_obj x) in *.
  destruct S as [<-|[<-|[]]]; [tagged (T_ITIP x ITIP_110) x E n B N|tagged (T_ITIP x ITIP_212) x E n B N].
Qed.
Lemma cpi_keywords x kws : tag_keywords (cpi_obj x) kws -> exists q, writing (E_CPI x) q kws /\ says q kws.
Proof.
  intros K. pose proof filter_values as (_ & _ & _ & _ & _ & _ & _ & _ & _ & _ & F & _ & _). eapply (keywords_filter "cpi.CPI" 7) in K; [|exact F]. destruct K as (s & nm & n & S & B & N). clear F.
  pose proof coding_schemes as (_ & _ & _ & _ & _ & _ & _ & _ & _ & _ & _ & F & _ & _). change (In s (enum_members W "cpi.CPI.BinaryCodingScheme")) in S. rewrite F in S. clear F.
  pose proof SrcCpi.cpi_encode as E. cbn [map In] in S. change (obj_of (E_CPI x)) with (cpi_obj x) in *.
  destruct S as [<-|[<-|[]]]; [tagged (T_CPI x CPI_96) x E n B N|tagged (T_CPI x CPI_VAR) x E n B N].
Qed.
Lemma usdod_keywords x kws : tag_keywords (usdod_obj x) kws -> exists q, writing (E_USDOD x) q kws /\ says q kws.
Proof.
  intros K. pose proof filter_values as (_ & _ & _ & _ & _ & _ & _ & _ & _ & _ & _ & F & _). eapply (keywords_filter "usdod.USDOD" 15) in K; [|exact F]. destruct K as (s & nm & n & S & B & N). clear F.
  pose proof coding_schemes as (_ & _ & _ & _ & _ & _ & _ & _ & _ & _ & _ & _ & F & _). change (In s (enum_members W "usdod.USDOD.BinaryCodingScheme")) in S. rewrite F in S. clear F.
  pose proof SrcUsdod.usdod_encode as E. cbn [map In] in S. change (obj_of (E_USDOD x)) with (usdod_obj x) in *.
  destruct S as [<-|[]]. tagged (T_USDOD x USDOD_96) x E n B N.
Qed.
Lemma adi_keywords x kws : tag_keywords (adi_obj x) kws -> exists q, writing (E_ADI x) q kws /\ says q kws.
Proof.
  intros K. pose proof filter_values as (_ & _ & _ & _ & _ & _ & _ & _ & _ & _ & _ & _ & F). eapply (keywords_filter "adi.ADI" 63) in K; [|exact F]. destruct K as (s & nm & n & S & B & N). clear F.
  pose proof coding_schemes as (_ & _ & _ & _ & _ & _ & _ & _ & _ & _ & _ & _ & _ & F). change (In s (enum_members W "adi.ADI.BinaryCodingScheme")) in S. rewrite F in S. clear F.
  pose proof SrcAdi.adi_encode as E. cbn [map In] in S. change (obj_of (E_ADI x)) with (adi_obj x) in *.
  destruct S as [<-|[]]. tagged (T_ADI x ADI_VAR) x E n B N.
Qed.
Lemma gid_keywords x kws : tag_keywords (gid_obj x) kws -> exists q, writing (E_GID x) q kws /\ says q kws.
Proof.
  intros (c & s & (l & E) & S & K). unfold gid_obj in E. injection E as <- <-.
  change (In s (enum_members W "gid.GID.BinaryCodingScheme")) in S. pose proof coding_schemes as (_ & _ & _ & _ & _ & _ & _ & _ & _ & _ & F & _ & _ & _).
  rewrite F in S. destruct S as [<-|[]]. change (enum_members W ("gid.GID" ++ "FilterValue")) with (@nil value) in K. cbv iota in K.
  assert (A : forall d : Prop, args_s_default (gid_member GID_96) d [] kws) by (intros d; left; right; auto).
  destruct SrcGid.gid_encode as (P1 & P2 & P3 & P4). exists (T_GID x GID_96). split; [|split; [rewrite K; exists "gid.GID.BinaryCodingScheme"%string, "GID_96"%string; left; reflexivity|exact I]].
  split; [reflexivity|]. split; [exact I|].
  split; [eapply P1, A|]. split; [eapply P2, A|]. intros FB. split; [eapply P3|eapply P4]; first [exact FB|apply A].
Qed.
Lemma keywords_say e kws : tag_keywords (obj_of e) kws -> exists q, writing e q kws /\ says q kws.
Proof.
  destruct e; unfold obj_of;
    first [ apply sgtin_keywords | apply sscc_keywords | apply sgln_keywords | apply grai_keywords | apply giai_keywords | apply gsrn_keywords
          | apply gsrnp_keywords | apply gdti_keywords | apply sgcn_keywords | apply itip_keywords | apply gid_keywords | apply cpi_keywords
          | apply usdod_keywords | apply adi_keywords
          | intros (c & s & (l & E) & S & _); exfalso;
            match type of E with ?o = _ => match o with ?f _ => unfold f in E end end; injection E as <- <-; vm_compute in S; exact S ].
Qed.
Lemma keywords_all e kws : tag_keywords (obj_of e) kws -> exists q, writing e q kws.
Proof. intros H. destruct (keywords_say e kws H) as (q & Q & _). now exists q. Qed.
