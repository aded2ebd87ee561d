(** A tag that the library writes, read by the decoding procedure of the standard. *)
From Coq Require Import String Lia.
From Verif.Model Require Import Py PyFormat Syntax Machine Common Base.
From Verif.Model Require Import Adi Cpi Gdti Giai Gid Grai Gsrn Gsrnp Itip Sgcn Sgln Sgtin Sscc Usdod Parsers.
From Verif.Source Require Import Program World.
From Verif.Spec Require Import Spec SpecEscapes SpecGrammar SpecSchemes SpecTags SpecLayout SpecCoding SpecReading SpecVarReading SpecWriting SpecChain SpecParsers SpecRuns.
From Verif.Proofs Require Import Run SrcUse Basics Num Uni Codecs Layout CodecSpec CtorC CtorAll BinC BinAll RunsTag Runs RunsAll TagReading TagReading2 TagReadingRuns.
From Verif.Proofs Require SrcKeys NonAscii VarReading.
Open Scope N_scope.
Open Scope list_scope.

(** * Fields at bit positions *)
Lemma field_at l : forall w v l' b, spells (l ++ (w, v) :: l') b -> bits_at b (total_bits l) w = v.
Proof.
  induction l as [|[w0 v0] l IH]; intros w v l' b.
  - intros (a & r & -> & L & _ & V & _). unfold bits_at. cbn [total_bits map list_sum skipn fold_right]. change (skipn (total_bits []) (a ++ r)) with (a ++ r).
    rewrite <- L, firstn_app, firstn_all, Nat.sub_diag, firstn_O, app_nil_r. exact V.
  - intros (a & r & -> & L & _ & _ & R). specialize (IH _ _ _ _ R). unfold bits_at in *.
    change (total_bits ((w0, v0) :: l)) with (w0 + total_bits l)%nat. rewrite skipn_app, skipn_all2 by lia. rewrite L.
    replace (w0 + total_bits l - w0)%nat with (total_bits l) by lia. exact IH.
Qed.
Lemma codes_cons b i w m : codes_at b i w (S m) = bits_at b i w :: codes_at b (i + w) w m.
Proof.
  unfold codes_at. cbn [seq map]. f_equal; [f_equal; lia|]. rewrite <- seq_shift, map_map. apply map_ext. intros j. f_equal. lia.
Qed.
Lemma fields_at w (code : N -> N) t : forall l l' b, spells (l ++ map (fun c => (w, code c)) t ++ l') b -> codes_at b (total_bits l) w (length t) = map code t.
Proof.
  induction t as [|c t IH]; intros l l' b S; [reflexivity|]. cbn [length map app] in *. rewrite codes_cons. f_equal; [exact (field_at _ _ _ _ _ S)|].
  specialize (IH (l ++ [(w, code c)]) l' b). rewrite <- app_assoc in IH. specialize (IH S). rewrite total_app in IH.
  replace (total_bits [(w, code c)]) with w in IH by (unfold total_bits; cbn; lia). exact IH.
Qed.

(** * Header and filter value *)
Lemma header_written q b : spells (tag_layout q) b -> firstn 8 b = tag_header (req_kind q).
Proof.
  intros S. apply spells_eq in S. subst b. unfold tag_layout. generalize (filter_fields q ++ body_fields q). intros l.
  destruct q as [x [] f|x [] f|x [] f|x [] f|x []|x [] f|x [] f|x [] f|x [] f|x [] f|x [] f|x [] f|x [] f|x [] f]; vm_compute; reflexivity.
Qed.
Lemma filter_bits_kind q : filter_bits q = filter_width (req_kind q).
Proof. destruct q as [x [] f|x [] f|x [] f|x [] f|x []|x [] f|x [] f|x [] f|x [] f|x [] f|x [] f|x [] f|x [] f|x [] f]; reflexivity. Qed.
Lemma filter_at q b f : spells (tag_layout q) b -> req_filter q = Some f -> carries_filter (req_kind q) b f.
Proof.
  intros S F. unfold carries_filter. rewrite <- filter_bits_kind. unfold tag_layout, filter_fields in S. rewrite F in S.
  exact (field_at [header_field q] _ _ _ _ S).
Qed.
Lemma size_kind q : coding_bits q = tag_size (req_kind q).
Proof. destruct q as [x [] f|x [] f|x [] f|x [] f|x []|x [] f|x [] f|x [] f|x [] f|x [] f|x [] f|x [] f|x [] f|x [] f]; reflexivity. Qed.

(** * The tags of no fixed size *)
Lemma ascii_part (a b : str) : ascii (a ++ b) -> ascii a /\ ascii b.
Proof. intros A. split; intros c I; apply A, in_or_app; auto. Qed.
Lemma ascii_digits_of s : ascii s -> digits s -> ascii_digits s.
Proof.
  intros A D. rewrite <- (ascii_form_id s A). apply ascii_digits_iff, ascii_form_digit, digits_iff, D.
Qed.
Lemma prefix_there (b cp : str) l l' : company_prefix cp -> ascii cp -> total_bits l = 11%nat ->
  spells (l ++ (3%nat, partition_value (length cp)) :: (prefix_bits (length cp), decimal cp) :: l') b -> prefix_of b (length cp) cp.
Proof.
  intros (D & L) A T S. split; [exact L|]. split.
  - rewrite <- T. exact (field_at _ _ _ _ _ S).
  - split; [now apply ascii_digits_of|]. split; [reflexivity|]. symmetry.
    change (l ++ (3%nat, partition_value (length cp)) :: (prefix_bits (length cp), decimal cp) :: l') with (l ++ [(3%nat, partition_value (length cp))] ++ (prefix_bits (length cp), decimal cp) :: l') in S.
    rewrite app_assoc in S. apply field_at in S. rewrite total_app, T in S. exact S.
Qed.
Lemma text_there (b t : str) l l' i : six_bit_text t -> total_bits l = i -> spells (l ++ six_fields (escape6 t) ++ l') b -> closed_text b i t.
Proof.
  intros T <- S. assert (U : unescape6 (escape6 t) = t) by (apply unescape6_escape6, six_bit_text_iff, T). unfold six_fields in S. rewrite U in S.
  split; [|split; [exact T|split]].
  - apply spells_length in S. rewrite S, !total_app, total_map. change (total_bits [(6%nat, 0)]) with 6%nat. lia.
  - rewrite <- app_assoc in S. exact (fields_at _ _ _ _ _ _ S).
  - rewrite <- !app_assoc, app_assoc in S. cbn [app] in S. apply field_at in S. rewrite total_app, total_map in S. exact S.
Qed.
Lemma total_six t : six_bit_text t -> total_bits (six_fields (escape6 t)) = (6 * length t + 6)%nat.
Proof. intros T. unfold six_fields. rewrite unescape6_escape6 by (apply six_bit_text_iff, T). rewrite total_app, total_map. reflexivity. Qed.
Lemma cpi_var_written x f u b : cpi_init u = Ok x -> ascii u -> spells (tag_layout (T_CPI x CPI_VAR f)) b ->
  exists cp t v, cpi_var_fields b cp t v /\ u = lit "urn:epc:id:cpi:" ++ two cp (two (escape6 t) v) /\
    length b = (14 + prefix_bits (length cp) + 6 * length t + 6 + 40)%nat.
Proof.
  intros I A S. apply cpi_iff in I as ((U & C & (t & _ & T & R) & _ & N & _) & _). rewrite U in A.
  apply ascii_part in A as (_ & A). apply ascii_part in A as (AC & A). apply ascii_part in A as (_ & A). apply ascii_part in A as (_ & A). apply ascii_part in A as (_ & AS).
  unfold tag_layout, filter_fields, body_fields in S. cbn [req_filter filter_bits] in S. rewrite R in S.
  pose proof (spells_length _ _ S) as LB. set (h := header_field (T_CPI x CPI_VAR f)) in *.
  assert (H8 : fst h = 8%nat) by reflexivity. clearbody h. destruct h as [w hv]. cbn [fst] in H8. subst w.
  set (cp := cpi_cp x) in *. set (v := cpi_serial x) in *.
  exists cp, t, v. assert (LL : length b = (14 + prefix_bits (length cp) + 6 * length t + 6 + 40)%nat).
  { rewrite LB. cbn [app]. rewrite !total_cons, total_app, total_six by exact T. change (total_bits [(40%nat, decimal v)]) with 40%nat. lia. }
  split; [|split; [|exact LL]].
  - exists (length cp). split.
    { eapply (prefix_there b cp [(8%nat, hv); (3%nat, f)]); [exact C|exact AC|reflexivity|exact S]. }
    split.
    { eapply (text_there b t [(8%nat, hv); (3%nat, f); (3%nat, partition_value (length cp)); (prefix_bits (length cp), decimal cp)]); [exact T| |exact S].
      rewrite !total_cons. change (total_bits []) with 0%nat. lia. }
    split; [lia|]. split; [|split; [exact N|]].
    { apply ascii_digits_of; [exact AS|]. now apply NonAscii.digits_numeral. }
    { symmetry. change ((8%nat, hv) :: [(3%nat, f)] ++ ([(3%nat, partition_value (length cp)); (prefix_bits (length cp), decimal cp)] ++ six_fields (escape6 t) ++ [(40%nat, decimal v)]))
        with (([(8%nat, hv); (3%nat, f); (3%nat, partition_value (length cp)); (prefix_bits (length cp), decimal cp)]) ++ six_fields (escape6 t) ++ [(40%nat, decimal v)]) in S.
      rewrite app_assoc in S. apply field_at in S. rewrite total_app, total_six in S by exact T. rewrite !total_cons in S.
      change (total_bits []) with 0%nat in S. rewrite <- S. f_equal. lia. }
  - rewrite U, R. reflexivity.
Qed.
Lemma adi_var_written x f u b : adi_init u = Ok x -> spells (tag_layout (T_ADI x ADI_VAR f)) b ->
  exists c t w, adi_var_fields b c t w /\ u = lit "urn:epc:id:adi:" ++ two c (two (escape6 t) (escape6 w)) /\
    length b = (50 + 6 * length t + 6 + 6 * length w + 6)%nat.
Proof.
  intros I S. apply adi_iff in I as ((U & C & (t & T & _ & P & _) & (w & w' & W & _ & _ & _ & Q & _)) & _).
  unfold tag_layout, filter_fields, body_fields in S. cbn [req_filter filter_bits] in S. rewrite P, Q in S.
  pose proof (spells_length _ _ S) as LB. set (h := header_field (T_ADI x ADI_VAR f)) in *.
  assert (H8 : fst h = 8%nat) by reflexivity. clearbody h. destruct h as [w8 hv]. cbn [fst] in H8. subst w8.
  set (c := adi_cage x) in *. exists c, t, w.
  assert (CL : length (repeat 32 (6 - length c) ++ c) = 6%nat). { rewrite app_length, repeat_length. destruct C as (C & _). lia. }
  assert (TC : total_bits (cage_fields 6 code_six c) = 36%nat). { unfold cage_fields. rewrite total_map, CL. reflexivity. }
  split; [|split].
  - split; [split; [exact C|]|split].
    + pose proof (fields_at 6 code_six (repeat 32 (6 - length c) ++ c) [(8%nat, hv); (6%nat, f)] _ b S) as F. rewrite CL in F. exact F.
    + eapply (text_there b t ([(8%nat, hv); (6%nat, f)] ++ cage_fields 6 code_six c)); [exact T|rewrite total_app, TC; reflexivity|].
      rewrite <- app_assoc. exact S.
    + eapply (text_there b w (([(8%nat, hv); (6%nat, f)] ++ cage_fields 6 code_six c) ++ six_fields (escape6 t)) []); [exact W| |].
      * rewrite !total_app, TC, total_six by exact T. change (total_bits [(8%nat, hv); (6%nat, f)]) with 14%nat. lia.
      * rewrite app_nil_r, <- !app_assoc. exact S.
  - rewrite U, P, Q. reflexivity.
  - rewrite LB, !total_cons, !total_app, TC, !total_six by assumption. rewrite total_cons. change (total_bits []) with 0%nat. lia.
Qed.

(** * Runs *)
Theorem written_stands u v kws t : parses "epc_pure_identity_to_scheme" u v -> tag_keywords v kws -> answers v "tag_uri" kws (VStr t) -> tag_safe u ->
  exists k b, answers v "binary" kws (VStr b) /\ asks_coding kws k /\ stands_for k b u /\
    (k <> K_GID_96 -> exists n, asks_filter kws n /\ carries_filter k b n).
Proof.
  intros H K T S. destruct (tags_back u v kws t H K T S) as (b & _ & _ & B0 & _ & _ & BS & _ & R & _).
  destruct (made_inv u v H) as (e & -> & _ & I & U). destruct (keywords_say e kws K) as (q & (Q & F & A & B & _) & SC & SF).
  apply (written_by _ _ _ _ _ T) in A. apply (written_by _ _ _ _ _ B0) in B. subst e. destruct (safe_proper q u t I S F A) as [P Z].
  destruct P as (_ & AU & _ & PK & _ & PP & _). destruct (binary_written q u t I A PK F PP) as (b' & B' & SP & _ & BL & _). rewrite B in B'. injection B' as <-.
  exists (req_kind q), b. split; [exact B0|]. split; [exact SC|]. split.
  - split; [exact BS|]. split; [now apply header_written|]. rewrite size_kind in BL. destruct (tag_size (req_kind q)) as [n|] eqn:E.
    + split; [exact BL|].
      assert (WT : whole_tag (req_kind q) b). { split; [exact BS|]. split; [now apply header_written|]. exists n. split; [exact E|]. now rewrite BL. }
      destruct (run_only _ _ _ WT R) as (u' & TT & _ & AT & _). pose proof (own_uri _ _ H) as AT'.
      destruct AT as (c1 & l1 & E1 & A1), AT' as (c2 & l2 & E2 & A2). rewrite E1 in E2. injection E2 as <- <-. rewrite A1 in A2. injection A2 as <-. exact TT.
    + destruct q as [x s f|x [] f|x [] f|x [] f|x []|x [] f|x [] f|x [] f|x [] f|x [] f|x [] f|x [] f|x [] f|x [] f]; try discriminate E;
        cbn [class_of req_epc init_of] in I; apply lift_ok in I as (y & I & Y); injection Y as <-.
      * destruct s. cbn [req_kind]. now apply (adi_var_written x f u b).
      * cbn [req_kind]. now apply (cpi_var_written x f u b).
  - intros NG. destruct (req_filter q) as [f|] eqn:RF; [exists f; split; [exact SF|now apply filter_at]|].
    exfalso. apply NG. destruct q as [x s f|x s f|x s f|x s f|x []|x s f|x s f|x s f|x s f|x s f|x s f|x s f|x s f|x s f]; try discriminate RF. reflexivity.
Qed.
Lemma adi_stands u v kws t c p s : adi_uri u c p s -> parses "epc_pure_identity_to_scheme" u v -> tag_keywords v kws -> answers v "tag_uri" kws (VStr t) ->
  exists k b, answers v "binary" kws (VStr b) /\ asks_coding kws k /\ stands_for k b u /\ (k <> K_GID_96 -> exists n, asks_filter kws n /\ carries_filter k b n).
Proof.
  intros AD H K T. destruct (made_inv u v H) as (e & -> & _ & I & U). destruct (keywords_say e kws K) as (q & (Q & F & A & B & _) & SC & SF).
  apply (written_by _ _ _ _ _ T) in A. subst e.
  assert (C : class_of (req_epc q) = C_ADI).
  { destruct AD as (E & _). destruct (init_prefix _ _ _ I) as (body & E'). rewrite E in E'. change (lit "urn:epc:id:adi:") with (scheme_prefix C_ADI) in E'.
    apply prefix_inj in E' as [<- _]. reflexivity. }
  destruct q as [x [] f|x s0 f|x s0 f|x s0 f|x s0|x s0 f|x s0 f|x s0 f|x s0 f|x s0 f|x s0 f|x s0 f|x s0 f|x s0 f]; try discriminate C. clear C.
  destruct (binary_written (T_ADI x ADI_VAR f) u t I A Logic.I F Logic.I) as (b & B' & SP & BS & _ & _). rewrite B' in B.
  exists K_ADI_VAR, b. split; [exact B|]. split; [exact SC|]. split.
  - split; [exact BS|]. split; [exact (header_written _ _ SP)|]. cbn [class_of req_epc init_of] in I. apply lift_ok in I as (y & I & Y). injection Y as <-.
    now apply (adi_var_written x f u b).
  - intros _. exists f. split; [exact SF|]. now apply (filter_at (T_ADI x ADI_VAR f)).
Qed.
Theorem all_stand u v kws t : parses "epc_pure_identity_to_scheme" u v -> tag_keywords v kws -> answers v "tag_uri" kws (VStr t) ->
  standard_safe u ->
  exists k b, answers v "binary" kws (VStr b) /\ asks_coding kws k /\ stands_for k b u /\ (k <> K_GID_96 -> exists n, asks_filter kws n /\ carries_filter k b n).
Proof. intros H K T [S|(c & p & s & S)]; [exact (written_stands u v kws t H K T S)|exact (adi_stands u v kws t c p s S H K T)]. Qed.
Lemma header_inj k k' : tag_header k = tag_header k' -> k = k'.
Proof. destruct k, k'; intros E; try reflexivity; discriminate E. Qed.
Theorem stands_once k b u k' u' : stands_for k b u -> stands_for k' b u' -> k = k' /\ u = u'.
Proof.
  intros (B & H & S) (_ & H' & S'). rewrite H in H'. apply header_inj in H' as <-. split; [reflexivity|]. pose proof (proj1 (bitstring_iff b) B) as B1.
  destruct (tag_size k) as [n|] eqn:E.
  - destruct S as (L & S), S' as (_ & S'). apply (text_once k b u u'); [|exact S|exact S']. split; [exact B|]. split; [exact H|]. exists n. split; [exact E|]. now rewrite L.
  - destruct k; try discriminate E.
    + destruct S as (c & t & w & F & -> & _), S' as (c' & t' & w' & F' & -> & _). destruct (VarReading.adi_var_once b _ _ _ _ _ _ B1 F F') as (<- & <- & <-). reflexivity.
    + destruct S as (c & t & w & F & -> & _), S' as (c' & t' & w' & F' & -> & _). destruct (VarReading.cpi_var_once b _ _ _ _ _ _ B1 F F') as (<- & <- & <-). reflexivity.
Qed.
Theorem distinct u u' v v' kws kws' t t' b :
  parses "epc_pure_identity_to_scheme" u v -> tag_keywords v kws -> answers v "tag_uri" kws (VStr t) -> standard_safe u -> answers v "binary" kws (VStr b) ->
  parses "epc_pure_identity_to_scheme" u' v' -> tag_keywords v' kws' -> answers v' "tag_uri" kws' (VStr t') -> standard_safe u' -> answers v' "binary" kws' (VStr b) ->
  u = u'.
Proof.
  intros H K T S B H' K' T' S' B'. destruct (all_stand u v kws t H K T S) as (k & b1 & B1 & _ & X & _). destruct (all_stand u' v' kws' t' H' K' T' S') as (k' & b2 & B2 & _ & X' & _).
  pose proof (invokes_once _ _ _ _ _ _ B B1) as E. injection E as <-. pose proof (invokes_once _ _ _ _ _ _ B' B2) as E. injection E as <-.
  exact (proj2 (stands_once _ _ _ _ _ X X')).
Qed.

(** * A tag that the library writes, that stands for its URI, and that the library does not read *)
Definition tail_uri : str := lit "urn:epc:id:adi:2S194.TAIL-03.6789".
Definition tail_object : value := VObj "adi.ADI"
  [("epc_uri"%string, VStr tail_uri); ("_base64"%string, VNone); ("_binary"%string, VNone); ("_hex"%string, VNone); ("_tag_uri"%string, VNone);
   ("_cage_dodaac"%string, VStr (lit "2S194")); ("_part_number"%string, VStr (lit "TAIL-03")); ("_serial"%string, VStr (lit "6789"))].
Definition tail_keywords : list (string * value) :=
  [("binary_coding_scheme"%string, VEnum "adi.ADI.BinaryCodingScheme" "ADI_VAR" (VStr (lit "adi-var")));
   ("filter_value"%string, VEnum "adi.ADIFilterValue" "PALLET" (VStr (lit "6")))].
Lemma tail_case : parses "epc_pure_identity_to_scheme" tail_uri tail_object /\ tag_keywords tail_object tail_keywords /\
  answers tail_object "tag_uri" tail_keywords (VStr (lit "urn:epc:tag:adi-var:6.2S194.TAIL-03.6789")) /\ standard_safe tail_uri.
Proof.
  split; [exists (300 * 100)%nat; vm_compute; reflexivity|]. split.
  { exists "adi.ADI"%string. eexists. split; [eexists; reflexivity|]. split; [vm_compute; left; reflexivity|].
    eexists. split; [|left; reflexivity]. vm_compute. auto 10. }
  split; [exists (300 * 100)%nat; vm_compute; reflexivity|]. right. exists (lit "2S194"), (lit "TAIL-03"), (lit "6789"). split; [reflexivity|].
  split; [apply cage_text_iff; split; [cbn; lia|vm_compute; reflexivity]|]. split.
  - exists (lit "TAIL-03"). split; [apply six_bit_text_iff; vm_compute; reflexivity|]. split; [cbn; intuition discriminate|]. split; [reflexivity|cbn; lia].
  - exists (lit "6789"), (lit "6789"). split; [apply six_bit_text_iff; vm_compute; reflexivity|]. split; [cbn; intuition discriminate|]. split; [discriminate|].
    split; [left; reflexivity|]. split; [reflexivity|cbn; lia].
Qed.
Lemma own_reader : exists u v kws t k b,
  parses "epc_pure_identity_to_scheme" u v /\ tag_keywords v kws /\ answers v "tag_uri" kws (VStr t) /\ standard_safe u /\
  answers v "binary" kws (VStr b) /\ stands_for k b u /\ calls W (VFun "parsers.binary_to_tag_encodable") [VStr b] [] (Raised (XExn ConvertException)).
Proof.
  destruct tail_case as (P & K & T & S). destruct (all_stand _ _ _ _ P K T S) as (k & b & B & _ & X & _). exists tail_uri, tail_object, tail_keywords. eexists. exists k, b.
  repeat (split; [first [exact P|exact K|exact T|exact S|exact B|exact X]|]).
  assert (R : exists b', answers tail_object "binary" tail_keywords (VStr b') /\ calls W (VFun "parsers.binary_to_tag_encodable") [VStr b'] [] (Raised (XExn ConvertException))).
  { eexists. split; [exists (300 * 100)%nat; vm_compute; reflexivity|]. exists (300 * 100)%nat. vm_compute. reflexivity. }
  destruct R as (b' & B' & R). pose proof (invokes_once _ _ _ _ _ _ B B') as E. injection E as <-. exact R.
Qed.
