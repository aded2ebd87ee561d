(** Which tags the classes accept, and what reading a tag gives. *)
From Coq Require Import String Lia.
From Verif.Model Require Import Py Re Regexes Common Base.
From Verif.Model Require Import Adi Cpi Gdti Giai Gid Grai Gsrn Gsrnp Itip Sgcn Sgln Sgtin Sscc Usdod Parsers.
From Verif.Spec Require Import Spec SpecEscapes SpecGrammar SpecSchemes SpecTags SpecLayout SpecCoding SpecRespell SpecReading.
From Verif.Proofs Require Import Basics Num ReLemmas Uni Escapes Codecs Codecs2 CodecSpec Partition Verify Verify2 Grammar Ctor CtorA CtorB CtorC CtorAll TagUri TagUri2 TagFits Layout BinC BinD Decode DecodeA DecodeB Reencode Elements ElementAccept ElementBack NonAscii Respell NumSerial Exact TagReading.

Definition accepted (c : cls) (body : str) : Prop := exists e, init_of c (scheme_prefix c ++ body) = Ok e.
Lemma two_dots3 p cp ref v cp' ref' v' : digits cp -> digits ref -> digits cp' -> digits ref' ->
  p ++ two cp (two ref v) = p ++ cp' ++ lit "." ++ ref' ++ lit "." ++ v' -> cp' = cp /\ ref' = ref /\ v' = v.
Proof.
  intros A B C D E. unfold two in E. apply app_inv_head in E. apply dot_split in E as [<- E]; auto using digits_spec_no_dot.
  apply dot_split in E as [<- <-]; auto using digits_spec_no_dot.
Qed.
Lemma two_dots2 p cp v cp' v' : digits cp -> digits cp' -> p ++ two cp v = p ++ cp' ++ lit "." ++ v' -> cp' = cp /\ v' = v.
Proof. intros A C E. unfold two in E. apply app_inv_head in E. apply dot_split in E as [<- <-]; auto using digits_spec_no_dot. Qed.

Lemma sgtin_acc cp ref v : company_prefix cp -> digits ref -> (length cp + length ref = 13)%nat ->
  accepted C_SGTIN (two cp (two ref v)) <-> component v /\ (1 <= length (unescape v) <= 20)%nat.
Proof.
  intros C R L. unfold accepted. cbn [init_of]. split.
  - intros (e & E). apply lift_ok in E as (x & E & _). apply sgtin_iff in E as ((U & (CP & _) & IT & _ & K) & _).
    apply two_dots3 in U as (_ & _ & <-); [exact K|exact (proj1 C)|exact R|exact CP|exact IT].
  - intros K. destruct ref as [|i ref]; [cbn [length] in L; destruct C; lia|].
    exists (E_SGTIN (mkSgtin (scheme_prefix C_SGTIN ++ two cp (two (i :: ref) v)) cp (i :: ref) v (complete (i :: cp ++ ref)))). apply lift_ok. eexists. split; [|reflexivity].
    apply sgtin_iff. cbn [sgtin_cp sgtin_item sgtin_serial sgtin_epc_uri sgtin_gtin_]. split; [|split; [reflexivity|]].
    + split; [reflexivity|]. tauto.
    + exists i, ref. split; [reflexivity|]. now apply completed_iff.
Qed.
Lemma sgln_acc cp ref v : company_prefix cp -> digits ref -> (length cp + length ref = 12)%nat ->
  accepted C_SGLN (two cp (two ref v)) <-> component v /\ (length (unescape v) <= 20)%nat.
Proof.
  intros C R L. unfold accepted. cbn [init_of]. split.
  - intros (e & E). apply lift_ok in E as (x & E & _). apply sgln_iff in E as ((U & (CP & _) & IT & _ & K) & _).
    apply two_dots3 in U as (_ & _ & <-); [exact K|exact (proj1 C)|exact R|exact CP|exact IT].
  - intros K. exists (E_SGLN (mkSgln (scheme_prefix C_SGLN ++ two cp (two ref v)) cp ref v (complete (cp ++ ref)))). apply lift_ok. eexists. split; [|reflexivity].
    apply sgln_iff. cbn [sgln_cp sgln_loc sgln_serial sgln_epc_uri sgln_gln]. split; [|split; [reflexivity|now apply completed_iff]].
    split; [reflexivity|]. tauto.
Qed.
Lemma grai_acc cp ref v : company_prefix cp -> digits ref -> (length cp + length ref = 12)%nat ->
  accepted C_GRAI (two cp (two ref v)) <-> component v /\ (length v <= 16)%nat.
Proof.
  intros C R L. unfold accepted. cbn [init_of]. split.
  - intros (e & E). apply lift_ok in E as (x & E & _). apply grai_iff in E as ((U & (CP & _) & IT & _ & K) & _).
    apply two_dots3 in U as (_ & _ & <-); [exact K|exact (proj1 C)|exact R|exact CP|exact IT].
  - intros K. exists (E_GRAI (mkGrai (scheme_prefix C_GRAI ++ two cp (two ref v)) cp ref v (complete (cp ++ ref) ++ unescape v))). apply lift_ok. eexists. split; [|reflexivity].
    apply grai_iff. cbn [grai_cp grai_asset grai_serial grai_epc_uri grai_grai]. split; [|split; [reflexivity|]].
    + split; [reflexivity|]. tauto.
    + eexists. split; [now apply completed_iff|reflexivity].
Qed.
Lemma gdti_acc cp ref v : company_prefix cp -> digits ref -> (length cp + length ref = 12)%nat ->
  accepted C_GDTI (two cp (two ref v)) <-> component v /\ (length v <= 17)%nat.
Proof.
  intros C R L. unfold accepted. cbn [init_of]. split.
  - intros (e & E). apply lift_ok in E as (x & E & _). apply gdti_iff in E as ((U & (CP & _) & IT & _ & K) & _).
    apply two_dots3 in U as (_ & _ & <-); [exact K|exact (proj1 C)|exact R|exact CP|exact IT].
  - intros K. exists (E_GDTI (mkGdti (scheme_prefix C_GDTI ++ two cp (two ref v)) cp ref v (complete (cp ++ ref) ++ unescape v))). apply lift_ok. eexists. split; [|reflexivity].
    apply gdti_iff. cbn [gdti_cp gdti_doc gdti_serial gdti_epc_uri gdti_gdti]. split; [|split; [reflexivity|]].
    + split; [reflexivity|]. tauto.
    + eexists. split; [now apply completed_iff|reflexivity].
Qed.
Lemma sgcn_acc cp ref v : company_prefix cp -> digits ref -> (length cp + length ref = 12)%nat -> digits v -> (1 <= length v <= 12)%nat -> accepted C_SGCN (two cp (two ref v)).
Proof.
  intros C R L V K. exists (E_SGCN (mkSgcn (scheme_prefix C_SGCN ++ two cp (two ref v)) cp ref v (complete (cp ++ ref) ++ v))). cbn [init_of]. apply lift_ok. eexists. split; [|reflexivity].
  apply sgcn_iff. cbn [sgcn_cp sgcn_coupon sgcn_serial sgcn_epc_uri sgcn_gcn]. split; [|split; [reflexivity|]].
  - split; [reflexivity|]. tauto.
  - eexists. split; [now apply completed_iff|reflexivity].
Qed.
Lemma sscc_acc cp ref : company_prefix cp -> digits ref -> (length cp + length ref = 17)%nat -> accepted C_SSCC (two cp ref).
Proof.
  intros C R L. destruct ref as [|i ref]; [cbn [length] in L; destruct C; lia|].
  exists (E_SSCC (mkSscc (scheme_prefix C_SSCC ++ two cp (i :: ref)) cp (i :: ref) (complete (i :: cp ++ ref)))). cbn [init_of]. apply lift_ok. eexists. split; [|reflexivity].
  apply sscc_iff. cbn [sscc_cp sscc_serial sscc_epc_uri sscc_sscc]. split; [|split; [reflexivity|]].
  - split; [reflexivity|]. tauto.
  - exists i, ref. split; [reflexivity|]. now apply completed_iff.
Qed.
Lemma gsrn_acc cp ref : company_prefix cp -> digits ref -> (length cp + length ref = 17)%nat -> accepted C_GSRN (two cp ref).
Proof.
  intros C R L. exists (E_GSRN (mkGsrn (scheme_prefix C_GSRN ++ two cp ref) cp ref (complete (cp ++ ref)))). cbn [init_of]. apply lift_ok. eexists. split; [|reflexivity].
  apply gsrn_iff. cbn [gsrn_cp gsrn_service gsrn_epc_uri gsrn_key]. split; [|split; [reflexivity|now apply completed_iff]]. split; [reflexivity|]. tauto.
Qed.
Lemma gsrnp_acc cp ref : company_prefix cp -> digits ref -> (length cp + length ref = 17)%nat -> accepted C_GSRNP (two cp ref).
Proof.
  intros C R L. exists (E_GSRNP (mkGsrnp (scheme_prefix C_GSRNP ++ two cp ref) cp ref (complete (cp ++ ref)))). cbn [init_of]. apply lift_ok. eexists. split; [|reflexivity].
  apply gsrnp_iff. cbn [gsrnp_cp gsrnp_service gsrnp_epc_uri gsrnp_key]. split; [|split; [reflexivity|now apply completed_iff]]. split; [reflexivity|]. tauto.
Qed.
Definition giai_good (cp v : str) : Prop := exists a r, v = a ++ r /\ component a /\ ~ In 58 a /\ (length cp + length a <= 30)%nat /\ (r = [] \/ exists r', r = 58 :: r' /\ uri_text r').
Lemma giai_acc cp v : company_prefix cp -> accepted C_GIAI (two cp v) <-> giai_good cp v.
Proof.
  intros C. unfold accepted. cbn [init_of]. split.
  - intros (e & E). apply lift_ok in E as (x & E & _). apply giai_iff in E as ((r & U & (CP & CL) & K & N & L & R) & _).
    apply two_dots2 in U as (U1 & U2); [|exact (proj1 C)|exact CP]. rewrite U1 in L. exists (giai_asset x), r. auto.
  - intros (a & r & -> & K & N & L & R). exists (E_GIAI (mkGiai (scheme_prefix C_GIAI ++ two cp (a ++ r)) cp a (cp ++ unescape a))). apply lift_ok. eexists. split; [|reflexivity].
    apply giai_iff. cbn [giai_cp giai_asset giai_epc_uri giai_giai]. split; [|split; reflexivity]. exists r. split; [reflexivity|]. tauto.
Qed.
Lemma cpi_acc cp ref v : company_prefix cp -> ascii_digits ref -> ref <> [] -> (length cp + length ref <= 30)%nat -> numeral v -> (length v <= 12)%nat -> accepted C_CPI (two cp (two ref v)).
Proof.
  intros C R N L V K. exists (E_CPI (mkCpi (scheme_prefix C_CPI ++ two cp (two ref v)) cp ref v)). cbn [init_of]. apply lift_ok. eexists. split; [|reflexivity].
  apply cpi_iff. cbn [cpi_cp cpi_ref cpi_serial cpi_epc_uri]. split; [|reflexivity]. split; [reflexivity|]. split; [exact C|]. split; [|auto].
  exists ref. split; [exact N|]. split; [intros c I; right; left; now apply R|]. symmetry. clear N L. induction ref as [|c ref IH]; [reflexivity|].
  unfold escape6. cbn [flat_map]. fold (escape6 ref). rewrite IH by (intros x X; apply R; now right). specialize (R c (or_introl eq_refl)).
  destruct (N.eqb_spec c 35); [lia|]. destruct (N.eqb_spec c 47); [lia|]. reflexivity.
Qed.
Lemma itip_acc cp ref p t v : company_prefix cp -> digits ref -> (length cp + length ref = 13)%nat -> digits p -> length p = 2%nat -> digits t -> length t = 2%nat ->
  accepted C_ITIP (two cp (two ref (two p (two t v)))) <-> component v /\ (1 <= length (unescape v) <= 20)%nat.
Proof.
  intros C R L P PL T TL. unfold accepted. cbn [init_of]. split.
  - intros (e & E). apply lift_ok in E as (x & E & _). apply itip_iff in E as ((U & (CP & _) & IT & PI & TO & _ & _ & _ & _ & K) & _).
    unfold two in U. change (scheme_prefix C_ITIP) with (lit "urn:epc:id:itip:") in U. apply app_inv_head in U.
    apply dot_split in U as [_ U]; auto using digits_spec_no_dot; [|exact (digits_spec_no_dot _ (proj1 C))].
    apply dot_split in U as [_ U]; auto using digits_spec_no_dot. apply dot_split in U as [_ U]; auto using digits_spec_no_dot.
    apply dot_split in U as [_ U]; auto using digits_spec_no_dot. now rewrite U.
  - intros K. exists (E_ITIP (mkItip (scheme_prefix C_ITIP ++ two cp (two ref (two p (two t v)))) cp ref p t v)). apply lift_ok. eexists. split; [|reflexivity].
    apply itip_iff. cbn [itip_cp itip_item itip_piece itip_total itip_serial itip_epc_uri]. split; [|reflexivity]. split; [reflexivity|].
    destruct C as (C1 & C2). repeat (split; [first [assumption|lia|(split; assumption)|(intros ->; cbn [length] in *; lia)]|]). exact K.
Qed.
Lemma gid_acc m o v : numeral m -> numeral o -> numeral v -> decimal m < 2 ^ 28 -> decimal o < 2 ^ 24 -> decimal v < 2 ^ 36 -> accepted C_GID (two m (two o v)).
Proof.
  intros. exists (E_GID (mkGid (scheme_prefix C_GID ++ two m (two o v)) m o v)). cbn [init_of]. apply lift_ok. eexists. split; [|reflexivity].
  apply gid_iff. cbn [gid_manager gid_object gid_serial gid_epc_uri]. split; [|reflexivity]. split; [reflexivity|]. auto 10.
Qed.
Lemma usdod_acc c v : numeral v -> decimal v < 2 ^ 36 -> accepted C_USDOD (two c v) <-> cage_text c.
Proof.
  intros V B. unfold accepted. cbn [init_of]. split.
  - intros (e & E). apply lift_ok in E as (x & E & _). apply usdod_iff in E as ((U & K & NU & _) & _).
    unfold two in U. change (scheme_prefix C_USDOD) with (lit "urn:epc:id:usdod:") in U. apply app_inv_head in U.
    apply dot_split_last in U as (U & _); [now rewrite U|now apply numeral_no_dot|now apply numeral_no_dot].
  - intros K. exists (E_USDOD (mkUsdod (scheme_prefix C_USDOD ++ two c v) c v)). apply lift_ok. eexists. split; [|reflexivity].
    apply usdod_iff. cbn [usdod_cage usdod_serial usdod_epc_uri]. split; [|reflexivity]. split; [reflexivity|]. auto.
Qed.

Lemma ascii_digits_digits s : ascii_digits s -> digits s.
Proof. intros A. apply digits_iff, forallb_digit_d. now apply ascii_digits_iff. Qed.
Lemma ref_facts width tot b cp ref : (12 <= tot)%nat -> prefix_and_reference width tot b cp ref -> company_prefix cp /\ digits ref /\ (length cp + length ref = tot)%nat.
Proof.
  intros T (n & (Hn & _ & A & L & _) & R). split; [split; [now apply ascii_digits_digits|lia]|].
  destruct (Nat.eqb_spec n tot) as [Et|Et]; [subst ref; split; [intros c []|cbn [length]; lia]|].
  destruct R as (RA & RL & _). split; [now apply ascii_digits_digits|]. lia.
Qed.
Lemma bits_at_lt b i w : forallb is_bit b = true -> bits_at b i w < 2 ^ N.of_nat w.
Proof.
  intros B. unfold bits_at. rewrite binary_number_sval by now apply forallb_firstn, forallb_skipn.
  eapply N.lt_le_trans; [apply sval_bound; apply forallb_bit_in_base2; now apply forallb_firstn, forallb_skipn|].
  apply N.pow_le_mono_r; [lia|]. rewrite firstn_length. lia.
Qed.
Lemma num_facts b i w l v : forallb is_bit b = true -> (1 <= l)%nat -> (2 ^ N.of_nat w <=? 10 ^ N.of_nat l) = true -> plain_number (bits_at b i w) v ->
  component v /\ length (unescape v) = length v /\ (1 <= length v <= l)%nat /\ numeral v /\ decimal v < 2 ^ N.of_nat w.
Proof.
  intros B L W P. pose proof (bits_at_lt b i w B) as Q. pose proof P as (A & Nu & D).
  rewrite D. apply plain_iff in P. destruct (number_component (bits_at b i w)) as (C & U & _). rewrite <- P in C, U. apply N.leb_le in W.
  split; [exact C|]. split; [exact U|]. split; [|split; [exact Nu|exact Q]]. split; [destruct C as [C _]; destruct v; [congruence|cbn [length]; lia]|].
  rewrite P. apply ndec_length; [exact L|]. lia.
Qed.
Lemma comp_text t : component (escape t) <-> good_text t.
Proof.
  unfold good_text. destruct t as [|c t]; [|rewrite escape_component by discriminate; split; [intros H; split; [discriminate|exact H]|tauto]].
  split; [intros (H & _); now destruct H|intros (H & _); now destruct H].
Qed.
Lemma chars_length codes : (length (characters codes) <= length codes)%nat.
Proof. unfold characters. induction codes as [|c l IH]; [reflexivity|]. cbn [filter length]. destruct (negb _); cbn [length]; lia. Qed.
Lemma codes_length b i w m : length (codes_at b i w m) = m.
Proof. unfold codes_at. now rewrite map_length, seq_length. Qed.
Lemma text_facts b i m : (1 <= m <= 20)%nat -> component (text_of (codes_at b i 7 m)) /\ (1 <= length (unescape (text_of (codes_at b i 7 m))) <= 20)%nat <-> good_text (characters (codes_at b i 7 m)).
Proof.
  intros M. unfold text_of. rewrite comp_text, unescape_escape. split; [tauto|]. intros G. split; [exact G|]. destruct G as [G _].
  pose proof (chars_length (codes_at b i 7 m)) as Q. rewrite codes_length in Q. destruct (characters _); [congruence|cbn [length] in *; lia].
Qed.

Lemma text_facts0 b i m : (m <= 20)%nat -> component (text_of (codes_at b i 7 m)) /\ (length (unescape (text_of (codes_at b i 7 m))) <= 20)%nat <-> good_text (characters (codes_at b i 7 m)).
Proof.
  intros M. unfold text_of. rewrite comp_text, unescape_escape. split; [tauto|]. intros G. split; [exact G|].
  pose proof (chars_length (codes_at b i 7 m)) as Q. rewrite codes_length in Q. lia.
Qed.

(** GIAI-202: the text before the first colon *)
Lemma colon_split t : exists a r, t = a ++ r /\ ~ In 58 a /\ (r = [] \/ exists r', r = 58 :: r').
Proof.
  induction t as [|c t (a & r & -> & N & R)]; [exists [], []; auto|]. destruct (N.eqb_spec c 58) as [->|Q].
  - exists [], (58 :: a ++ r). repeat split; [intros []|]. right. eauto.
  - exists (c :: a), r. repeat split; [|exact R]. intros [I|I]; [congruence|exact (N I)].
Qed.
Lemma colon_unique (a r a' r' : str) : ~ In 58 a -> ~ In 58 a' -> (r = [] \/ exists s, r = 58 :: s) -> (r' = [] \/ exists s, r' = 58 :: s) -> a ++ r = a' ++ r' -> a = a' /\ r = r'.
Proof.
  revert a'. induction a as [|c a IH]; intros [|c' a'] N N' R R' E; cbn [app] in E.
  - auto.
  - exfalso. subst r. destruct R as [R|(s & R)]; [discriminate R|]. injection R as -> _. apply N'. now left.
  - exfalso. subst r'. destruct R' as [Q|(s & Q)]; [discriminate Q|]. injection Q as -> _. apply N. now left.
  - injection E as -> E. apply IH in E as [-> ->]; auto; intros I; [apply N|apply N']; now right.
Qed.
Lemma escape_no_colon t : ~ In 58 t -> ~ In 58 (escape t).
Proof.
  unfold escape. intros N I. apply in_flat_map in I as (c & C & I). destruct (reserved_dec c) as [R|R].
  - unfold reserved in R. cbn in R. repeat (destruct R as [<-|R]; [cbn in I; repeat (destruct I as [I|I]; [discriminate I|]); exact I|]). exact R.
  - rewrite escape_char_other in I by exact R. destruct I as [->|[]]. exact (N C).
Qed.
Lemma uri_text_escape t : uri_text (escape t) -> ai82_text t.
Proof.
  induction t as [|c t IH]; intros U; [intros x []|]. unfold escape in U. cbn [flat_map] in U. fold (escape t) in U. intros x [<-|X].
  - destruct (reserved_dec c) as [R|R].
    + unfold reserved in R. cbn in R. repeat (destruct R as [<-|R]; [vm_compute; tauto|]). destruct R.
    + rewrite escape_char_other in U by exact R. cbn [app] in U. inversion U as [|c' s' P U'|h s' H U' E]; subst.
      * unfold uri_plain in P. assert (Q : forallb (fun c => existsb (N.eqb c) ai82) (map N.of_nat (seq 48 10) ++ map N.of_nat (seq 65 26) ++ map N.of_nat (seq 97 26) ++ lit "!'()*+,-.:;=_") = true) by (vm_compute; reflexivity).
        assert (I : In c (map N.of_nat (seq 48 10) ++ map N.of_nat (seq 65 26) ++ map N.of_nat (seq 97 26) ++ lit "!'()*+,-.:;=_")).
        { rewrite !in_app_iff, !in_map_iff. destruct P as [P|[P|[P|P]]]; [left|right; left|right; right; left|auto]; exists (N.to_nat c); rewrite in_seq, N2Nat.id; lia. }
        apply (forallb_In _ _ _ Q) in I. apply existsb_exists in I as (y & Y & E). apply N.eqb_eq in E. now subst.
      * exfalso. apply R. vm_compute. tauto.
  - apply IH; [|exact X]. clear -U. destruct (reserved_dec c) as [R|R].
    + unfold reserved in R. cbn in R. repeat (destruct R as [<-|R]; [cbn [escape_char app] in U;
        inversion U as [|c' s' P U'|h s' H U']; subst; [unfold uri_plain in P; cbn in P; lia|]; inversion U' as [|c' s' P U''|h' s' H' U'']; subst; exact U''|]). destruct R.
    + rewrite escape_char_other in U by exact R. cbn [app] in U. inversion U as [|c' s' P U'|h s' H U' E]; subst; [exact U'|]. exfalso. apply R. vm_compute. tauto.
Qed.
Lemma giai_text cp t : giai_good cp (escape t) <-> exists a r, t = a ++ r /\ good_text a /\ ~ In 58 a /\ (length cp + length (escape a) <= 30)%nat /\ (r = [] \/ exists r', r = 58 :: r' /\ ai82_text r').
Proof.
  split.
  - intros (a' & r' & E & C & N & L & R). destruct (colon_split t) as (a & r & -> & Na & Ra). rewrite escape_app in E.
    assert (Er : escape r = [] \/ exists s, escape r = 58 :: s) by (destruct Ra as [->|(s & ->)]; [left; reflexivity|right; exists (escape s); reflexivity]).
    apply colon_unique in E as [<- E]; [|now apply escape_no_colon|exact N|exact Er|destruct R as [R|(s & R & _)]; eauto].
    exists a, r. split; [reflexivity|]. split; [now apply comp_text|]. split; [exact Na|]. split; [exact L|].
    destruct Ra as [->|(s & ->)]; [now left|]. right. exists s. split; [reflexivity|]. destruct R as [->|(s' & -> & U)]; [discriminate E|].
    change (escape (58 :: s)) with (58 :: escape s) in E. injection E as <-. now apply uri_text_escape.
  - intros (a & r & -> & G & N & L & R). exists (escape a), (escape r). split; [apply escape_app|]. split; [now apply comp_text|]. split; [now apply escape_no_colon|]. split; [exact L|].
    destruct R as [->|(s & -> & A)]; [left; reflexivity|]. right. exists (escape s). split; [reflexivity|]. now apply escape_uri_text.
Qed.

Lemma prefix_facts b n cp : prefix_of b n cp -> company_prefix cp /\ length cp = n.
Proof. intros (Hn & _ & A & L & _). split; [split; [now apply ascii_digits_digits|lia]|exact L]. Qed.
Lemma numeral_digits b i w v : plain_number (bits_at b i w) v -> ascii_digits v /\ v <> [].
Proof. intros (A & N & _). split; [exact A|]. destruct N as [->|(c & s & -> & _)]; discriminate. Qed.

Theorem body_accepted k n b s : tag_size k = Some n -> forallb is_bit b = true -> tag_body k b s -> (accepted (tag_class k) s <-> readable_tag k b).
Proof.
  intros Sz B T. destruct k; try discriminate Sz; clear n Sz; cbn [tag_body tag_class readable_tag] in *.
  - destruct T as (cp & ref & v & R & V & ->). apply ref_facts in R as (C & R & L); [|lia]. apply (num_facts b 55 41 13) in V as (K & U & Lv & _); [|exact B|lia|reflexivity].
    rewrite gdti_acc by assumption. split; [auto|]. intros _. split; [exact K|lia].
  - destruct T as (cp & ref & R & ->). apply ref_facts in R as (C & R & L); [|lia]. split; [auto|]. intros _. now apply gsrn_acc.
  - destruct T as (cp & ref & R & ->). apply ref_facts in R as (C & R & L); [|lia]. split; [auto|]. intros _. now apply gsrnp_acc.
  - destruct T as (v & V & ->). apply (num_facts b 60 36 11) in V as (K & U & Lv & Nu & D); [|exact B|lia|reflexivity]. apply usdod_acc; [exact Nu|exact D].
  - destruct T as (cp & ref & v & R & V & ->). apply ref_facts in R as (C & R & L); [|lia]. apply (num_facts b 58 38 12) in V as (K & U & Lv & _); [|exact B|lia|reflexivity].
    rewrite sgtin_acc by assumption. split; [auto|]. intros _. split; [exact K|lia].
  - destruct T as (cp & ref & R & ->). apply ref_facts in R as (C & R & L); [|lia]. split; [auto|]. intros _. now apply sscc_acc.
  - destruct T as (cp & ref & v & R & V & ->). apply ref_facts in R as (C & R & L); [|lia]. apply (num_facts b 55 41 13) in V as (K & U & Lv & _); [|exact B|lia|reflexivity].
    rewrite sgln_acc by assumption. split; [auto|]. intros _. split; [exact K|lia].
  - destruct T as (cp & ref & v & R & V & ->). apply ref_facts in R as (C & R & L); [|lia]. apply (num_facts b 58 38 12) in V as (K & U & Lv & _); [|exact B|lia|reflexivity].
    rewrite grai_acc by assumption. split; [auto|]. intros _. split; [exact K|lia].
  - destruct T as (cp & ref & (n & P & V) & ->). pose proof (proj1 P) as Hn. apply prefix_facts in P as (C & L). rewrite giai_acc by exact C. split; [auto|]. intros _.
    pose proof (numeral_digits _ _ _ _ V) as (A & _).
    assert (Q : (2 ^ N.of_nat (82 - prefix_bits n) <=? 10 ^ N.of_nat (30 - n)) = true).
    { clear -Hn. do 13 (destruct n as [|n]; [first [lia|vm_compute; reflexivity]|]). lia. }
    apply (num_facts b _ _ (30 - n)) in V as (K & U & Lv & _); [|exact B|lia|exact Q].
    exists ref, []. split; [now rewrite app_nil_r|]. split; [exact K|]. split; [intros I; apply A in I; lia|]. split; [lia|now left].
  - destruct T as (m & o & v & M & O & V & ->). apply (num_facts b 8 28 9) in M as (_ & _ & _ & M & M'); [|exact B|lia|reflexivity].
    apply (num_facts b 36 24 8) in O as (_ & _ & _ & O & O'); [|exact B|lia|reflexivity]. apply (num_facts b 60 36 11) in V as (_ & _ & _ & V & V'); [|exact B|lia|reflexivity].
    split; [auto|]. intros _. apply gid_acc; [exact M|exact O|exact V|exact M'|exact O'|exact V'].
  - destruct T as (cp & ref & R & ->). apply ref_facts in R as (C & R & L); [|lia]. rewrite sgtin_acc by assumption. apply text_facts; lia.
  - destruct T as (cp & ref & R & ->). apply ref_facts in R as (C & R & L); [|lia]. rewrite grai_acc by assumption. unfold text_of at 1. now rewrite comp_text.
  - destruct T as (n & cp & P & ->). pose proof P as (Hn & PV & _). apply prefix_facts in P as (C & L). rewrite giai_acc by exact C. unfold text_of. rewrite giai_text, L. split.
    + intros H m Hm Pm. rewrite PV in Pm. apply partition_value_inj in Pm; [|exact Hn|exact Hm]. subst m. exact H.
    + intros H. exact (H n Hn PV).
  - destruct T as (cp & ref & R & ->). apply ref_facts in R as (C & R & L); [|lia]. rewrite sgln_acc by assumption. apply text_facts0. lia.
  - destruct T as (cp & ref & v & (n & P & R) & V & ->). pose proof (proj1 P) as Hn. apply prefix_facts in P as (C & L). split; [auto|]. intros _.
    pose proof (numeral_digits _ _ _ _ R) as (A & Ne).
    assert (Q : (2 ^ N.of_nat (51 - prefix_bits n) <=? 10 ^ N.of_nat 18) = true).
    { clear -Hn. do 13 (destruct n as [|n]; [first [lia|vm_compute; reflexivity]|]). lia. }
    apply (num_facts b _ _ 18) in R as (_ & _ & Lr & _); [|exact B|lia|exact Q]. apply (num_facts b 65 31 12) in V as (_ & _ & Lv & Nu & _); [|exact B|lia|reflexivity].
    apply cpi_acc; auto; lia.
  - destruct T as (cp & ref & R & ->). apply ref_facts in R as (C & R & L); [|lia]. rewrite gdti_acc by assumption. unfold text_of at 1. now rewrite comp_text.
  - destruct T as (cp & ref & v & R & Ne & V & ->). apply ref_facts in R as (C & R & L); [|lia]. split; [auto|]. intros _.
    pose proof (numeral_digits _ _ _ _ V) as (A & _). apply (num_facts b 55 41 13) in V as (_ & _ & Lv & _); [|exact B|lia|reflexivity].
    change (lit "1" ++ v) with (c_1 :: v) in *. cbn [length] in Lv. apply sgcn_acc; auto.
    + apply ascii_digits_digits. intros c I. apply A. now right.
    + destruct v; [congruence|cbn [length] in *; lia].
  - destruct T as (cp & ref & p & t & v & R & P & Tt & V & ->). apply ref_facts in R as (C & R & L); [|lia]. destruct P as (PA & PL & _). destruct Tt as (TA & TL & _).
    apply (num_facts b 72 38 12) in V as (K & U & Lv & _); [|exact B|lia|reflexivity].
    rewrite itip_acc by auto using ascii_digits_digits. split; [auto|]. intros _. split; [exact K|lia].
  - destruct T as (cp & ref & p & t & R & P & Tt & ->). apply ref_facts in R as (C & R & L); [|lia]. destruct P as (PA & PL & _). destruct Tt as (TA & TL & _).
    rewrite itip_acc by auto using ascii_digits_digits. apply text_facts; lia.
Qed.

(** * Reading a tag *)
Theorem reading k n b : bitstring b -> firstn 8 b = tag_header k -> tag_size k = Some n -> (n <= length b)%nat ->
  (forall u, tag_text k b u -> binary_to_tag_encodable b = init_of (tag_class k) u) /\
  ((forall u, ~ tag_text k b u) -> binary_to_tag_encodable b = Raise ConvertException).
Proof.
  intros Bs H Sz L. apply bitstring_iff in Bs. rewrite (dispatch k b H), (from_binary_body k b Bs H).
  assert (T : too_short k b = false) by (unfold too_short; rewrite Sz; now apply Nat.ltb_ge). rewrite T. split.
  - intros u (s & S & ->). apply (body_iff k n b s Sz Bs L) in S. now rewrite S.
  - intros N. destruct (k_body k (after_filter k b)) as [s|e] eqn:E.
    + exfalso. apply (body_iff k n b s Sz Bs L) in E. apply (N (scheme_prefix (tag_class k) ++ s)). exists s. auto.
    + cbn [bind]. f_equal. eapply body_ce; [|  |exact E]; [now apply after_filter_bit|]. unfold body_len. rewrite Sz. now apply after_filter_length.
Qed.
Theorem one_text k n b u u' : bitstring b -> firstn 8 b = tag_header k -> tag_size k = Some n -> (n <= length b)%nat -> tag_text k b u -> tag_text k b u' -> u = u'.
Proof.
  intros Bs H Sz L (s & S & ->) (s' & S' & ->). apply bitstring_iff in Bs. apply (body_iff k n b _ Sz Bs L) in S, S'. rewrite S in S'. injection S' as ->. reflexivity.
Qed.
Theorem accepted_tags k n b : bitstring b -> firstn 8 b = tag_header k -> tag_size k = Some n -> (n <= length b)%nat ->
  forall e, binary_to_tag_encodable b = Ok e -> tag_text k b (epc_uri e) /\ class_of e = tag_class k /\ readable_tag k b.
Proof.
  intros Bs H Sz L e E. pose proof Bs as Bs'. apply bitstring_iff in Bs'.
  assert (E' := E). rewrite (dispatch k b H), (from_binary_body k b Bs' H) in E'.
  assert (T : too_short k b = false) by (unfold too_short; rewrite Sz; now apply Nat.ltb_ge). rewrite T in E'.
  destruct (k_body k (after_filter k b)) as [s|] eqn:K; [|discriminate E']. cbn [bind] in E'. apply (body_iff k n b s Sz Bs' L) in K.
  destruct (init_class _ _ _ E') as (C & U). split; [exists s; auto|]. split; [exact C|]. apply (body_accepted k n b s Sz Bs' K). exists e. exact E'.
Qed.
Theorem readable_tags k n b u : bitstring b -> firstn 8 b = tag_header k -> tag_size k = Some n -> (n <= length b)%nat ->
  tag_text k b u -> readable_tag k b -> exists e, binary_to_tag_encodable b = Ok e /\ epc_uri e = u /\ class_of e = tag_class k.
Proof.
  intros Bs H Sz L T R. rewrite (proj1 (reading k n b Bs H Sz L) u T). destruct T as (s & S & ->). apply bitstring_iff in Bs.
  apply (body_accepted k n b s Sz Bs S) in R as (e & E). exists e. split; [exact E|]. destruct (init_class _ _ _ E). auto.
Qed.
