(** The enumerations and the dictionaries built from them *)
From Coq Require Import String Lia Setoid.
From Verif.Model Require Import Py Re Regexes Common Base.
From Verif.Model Require Import Adi Cpi Gdti Giai Gid Grai Gsrn Gsrnp Itip Lgtin Sgcn Sgln Sgtin Sscc Usdod Others Parsers Registry.
From Verif.Spec Require Import Spec SpecGrammar SpecHex SpecSchemes SpecRegistry.
From Verif.Proofs Require Import Basics Num Uni Grammar CtorA CtorAll TagUri TagUri2.

Fixpoint distinct (l : list str) : bool := match l with [] => true | x :: r => negb (existsb (str_eqb x) r) && distinct r end.
Lemma distinct_nodup l : distinct l = true -> NoDup l.
Proof.
  induction l as [|x r IH]; cbn; [constructor|]. intros H. apply andb_true_iff in H as [H D]. constructor; [|auto]. intros I.
  apply negb_true_iff in H. rewrite <- not_true_iff_false in H. apply H. apply existsb_exists. exists x. split; [exact I|]. now apply str_eqb_eq.
Qed.
Lemma find_key {V} k (v : V) l : NoDup (map fst l) -> (option_map snd (find (fun p => str_eqb k (fst p)) l) = Some v <-> In (k, v) l).
Proof.
  induction l as [|(k', v') l IH]; cbn [map fst find]; intros ND; [cbn; split; [discriminate|tauto]|].
  inversion_clear ND as [|? ? N ND']. destruct (str_eqb k k') eqn:E.
  - apply str_eqb_eq in E as <-. cbn. split; [intros H; left; congruence|]. intros [H|H]; [congruence|]. destruct N. apply in_map_iff. exists (k, v). auto.
  - rewrite (IH ND'). cbn. split; [auto|]. intros [H|H]; [|exact H]. injection H as -> ->. rewrite (proj2 (str_eqb_eq k k) eq_refl) in E. discriminate.
Qed.
Lemma dict_in {V} k (v : V) l : distinct (map fst l) = true -> (dict_get k l = Some v <-> In (k, v) l).
Proof.
  intros D. unfold dict_get. rewrite find_key; [symmetry; apply in_rev|]. rewrite map_rev. apply NoDup_rev, distinct_nodup, D.
Qed.
Lemma assoc_key {V} k (v : V) l : NoDup (map fst l) -> (assoc_str k l = Some v <-> In (k, v) l).
Proof.
  induction l as [|(k', v') l IH]; cbn [map fst assoc_str]; intros ND; [cbn; split; [discriminate|tauto]|].
  inversion_clear ND as [|? ? N ND']. destruct (str_eqb k k') eqn:E.
  - apply str_eqb_eq in E as <-. cbn. split; [intros H; left; congruence|]. intros [H|H]; [congruence|]. destruct N. apply in_map_iff. exists (k, v). auto.
  - rewrite (IH ND'). cbn. split; [auto|]. intros [H|H]; [|exact H]. injection H as -> ->. rewrite (proj2 (str_eqb_eq k k) eq_refl) in E. discriminate.
Qed.
Lemma dict_assoc {V} k (l : list (str * V)) : distinct (map fst l) = true -> dict_get k l = assoc_str k l.
Proof.
  intros D. pose proof (distinct_nodup _ D) as ND. destruct (dict_get k l) eqn:A, (assoc_str k l) eqn:B; try reflexivity.
  - apply dict_in in A; [|exact D]. apply (assoc_key _ _ _ ND) in A. congruence.
  - apply dict_in in A; [|exact D]. apply (assoc_key _ _ _ ND) in A. congruence.
  - apply (assoc_key _ _ _ ND) in B. apply dict_in in B; [|exact D]. congruence.
Qed.

(** membership in concrete lists *)
Definition sub {A} (eqb : A -> A -> bool) (l m : list A) : bool := forallb (fun x => existsb (eqb x) m) l.
Lemma sub_in {A} (eqb : A -> A -> bool) l m : (forall x y, eqb x y = true -> x = y) -> sub eqb l m = true -> forall x, In x l -> In x m.
Proof.
  intros E S x I. unfold sub in S. rewrite forallb_forall in S. specialize (S x I). apply existsb_exists in S as (y & J & Q). now rewrite (E _ _ Q).
Qed.
Definition cls_eqb (a b : cls) : bool := str_eqb (identifier a) (identifier b).
Lemma cls_eqb_eq a b : cls_eqb a b = true -> a = b.
Proof. intros H. apply str_eqb_eq in H. destruct a, b; try reflexivity; discriminate H. Qed.
Definition pair_eqb {A B} (f : A -> A -> bool) (g : B -> B -> bool) (x y : A * B) : bool := f (fst x) (fst y) && g (snd x) (snd y).
Lemma pair_eqb_eq {A B} (f : A -> A -> bool) (g : B -> B -> bool) : (forall x y, f x y = true -> x = y) -> (forall x y, g x y = true -> x = y) ->
  forall x y, pair_eqb f g x y = true -> x = y.
Proof. intros F G (a, b) (c, d) H. apply andb_true_iff in H as [H K]. apply F in H. apply G in K. cbn in H, K. now subst. Qed.
Lemma str_eq a b : str_eqb a b = true -> a = b. Proof. apply str_eqb_eq. Qed.

Theorem enums_plain c :
  NoDup (map fst (binary_coding_scheme_enum c)) /\ NoDup (map snd (binary_coding_scheme_enum c)) /\
  NoDup (map fst (binary_header_enum c)) /\ NoDup (map snd (binary_header_enum c)) /\
  NoDup (map fst (filter_value_enum c)) /\ NoDup (map snd (filter_value_enum c)).
Proof. repeat split; apply distinct_nodup; destruct c; vm_compute; reflexivity. Qed.

(** coding scheme names as identifiers *)
Definition idc (c : N) : N := if (97 <=? c) && (c <=? 122) then c - 32 else if c =? 45 then 95 else c.
Lemma identifier_idc c d : identifier_char c d -> d = idc c.
Proof.
  unfold idc. intros [(H & ->)|[(-> & ->)|(H & ->)]]; [|reflexivity|].
  - replace ((97 <=? c) && (c <=? 122)) with true; [reflexivity|]. symmetry. apply andb_true_iff. rewrite !N.leb_le. lia.
  - replace (97 <=? c) with false by (symmetry; apply N.leb_gt; lia). replace (c =? 45) with false by (symmetry; apply N.eqb_neq; lia). reflexivity.
Qed.
Lemma member_name_eq s n : member_name s n -> n = map idc s.
Proof. induction 1 as [|c d s n H _ IH]; [reflexivity|]. cbn [map]. now rewrite <- IH, <- (identifier_idc _ _ H). Qed.
Definition idc_ok (c : N) : bool := ((97 <=? c) && (c <=? 122)) || (c =? 45) || ((48 <=? c) && (c <=? 57)).
Lemma idc_member s : forallb idc_ok s = true -> member_name s (map idc s).
Proof.
  induction s as [|c s IH]; cbn [forallb map]; intros H; [constructor|]. apply andb_true_iff in H as [H K]. constructor; [|now apply IH].
  unfold idc_ok in H. unfold idc, identifier_char. rewrite !orb_true_iff, !andb_true_iff, N.eqb_eq, !N.leb_le in H.
  destruct ((97 <=? c) && (c <=? 122)) eqn:E.
  - apply andb_true_iff in E. rewrite !N.leb_le in E. left. split; [lia|reflexivity].
  - rewrite andb_false_iff, !N.leb_gt in E. destruct (N.eqb_spec c 45) as [->|N0]; [right; left; auto|]. right; right. split; [lia|reflexivity].
Qed.
Definition tds_of (c : cls) : list (str * (str * str)) :=
  map (fun x => (hex_bits (snd x), (map idc (snd (fst x)), snd (fst x)))) (filter (fun x => cls_eqb (fst (fst x)) c) tds_headers).
Lemma tds_of_in c k name coding : In (k, (name, coding)) (tds_of c) <-> exists hx, In (c, coding, hx) tds_headers /\ k = hex_bits hx /\ member_name coding name.
Proof.
  unfold tds_of. rewrite in_map_iff. split.
  - intros (((c', nm), hx) & E & I). cbn [fst snd] in E. injection E as <- <- <-. apply filter_In in I as [I Q]. cbn [fst] in Q. apply cls_eqb_eq in Q as ->.
    exists hx. split; [exact I|]. split; [reflexivity|]. apply idc_member.
    assert (X : forallb (fun x => forallb idc_ok (snd (fst x))) tds_headers = true) by (vm_compute; reflexivity).
    rewrite forallb_forall in X. exact (X _ I).
  - intros (hx & I & -> & M). apply member_name_eq in M as ->. exists (c, coding, hx). split; [reflexivity|]. apply filter_In. split; [exact I|]. apply str_eqb_eq. reflexivity.
Qed.
Notation item_eqb := (pair_eqb str_eqb (pair_eqb str_eqb str_eqb)).
Lemma item_eqb_eq x y : item_eqb x y = true -> x = y.
Proof. apply pair_eqb_eq; [exact str_eq|]. apply pair_eqb_eq; exact str_eq. Qed.
Definition items_of (c : cls) : list (str * (str * str)) := match header_to_schemes c with Ok l => l | Raise _ => [] end.
Theorem header_dict c : exists items, header_to_schemes c = Ok items /\
  forall k name coding, dict_get k items = Some (name, coding) <->
    exists hx, In (c, coding, hx) tds_headers /\ k = hex_bits hx /\ member_name coding name.
Proof.
  exists (items_of c). split; [destruct c; vm_compute; reflexivity|]. intros k name coding.
  rewrite dict_in by (destruct c; vm_compute; reflexivity). rewrite <- tds_of_in.
  split; apply (sub_in _ _ _ item_eqb_eq); destruct c; vm_compute; reflexivity.
Qed.
Theorem scheme_header c coding name : In (name, coding) (binary_coding_scheme_enum c) <->
  exists hx, In (c, coding, hx) tds_headers /\ member_name coding name /\ header_of_scheme c name = Ok (hex_bits hx).
Proof.
  assert (A : forall n co, In (n, co) (binary_coding_scheme_enum c) <-> exists k, In (k, (n, co)) (tds_of c)).
  { intros n co. assert (X : (exists k, In (k, (n, co)) (tds_of c)) <-> In (n, co) (map snd (tds_of c))).
    { rewrite in_map_iff. split; [intros (k & I); exists (k, (n, co)); auto|]. intros ((k, x) & E & I). cbn in E. subst x. eauto. }
    rewrite X. split; apply (sub_in (pair_eqb str_eqb str_eqb)); try (apply pair_eqb_eq; exact str_eq); destruct c; vm_compute; reflexivity. }
  assert (B : forallb (fun x => match header_of_scheme c (fst (snd x)) with Ok h => str_eqb h (fst x) | Raise _ => false end) (tds_of c) = true)
    by (destruct c; vm_compute; reflexivity).
  rewrite forallb_forall in B. rewrite A. split.
  - intros (k & I). pose proof (B _ I) as H. apply tds_of_in in I as (hx & I & -> & M). cbn [fst snd] in H. exists hx. split; [exact I|]. split; [exact M|].
    destruct (header_of_scheme c name) as [h|]; [|discriminate]. apply str_eqb_eq in H as ->. reflexivity.
  - intros (hx & I & M & _). exists (hex_bits hx). apply tds_of_in. eauto.
Qed.

(** the dictionaries of parsers.py *)
Notation entry_eqb := (pair_eqb str_eqb cls_eqb).
Lemma entry_eqb_eq x y : entry_eqb x y = true -> x = y.
Proof. apply pair_eqb_eq; [exact str_eq|exact cls_eqb_eq]. Qed.
Theorem binary_dict k c : dict_get k binary_headers_dict = Some c <-> exists coding hx, In (c, coding, hx) tds_headers /\ k = hex_bits hx.
Proof.
  rewrite dict_in by (vm_compute; reflexivity).
  transitivity (In (k, c) (map (fun x => (hex_bits (snd x), fst (fst x))) tds_headers)).
  - split; apply (sub_in _ _ _ entry_eqb_eq); vm_compute; reflexivity.
  - rewrite in_map_iff. split; [intros (((c', nm), hx) & E & I); injection E as <- <-; eauto|]. intros (nm & hx & I & ->). exists (c, nm, hx). auto.
Qed.
Theorem hex_dict k c : dict_get k hex_headers_dict = Some c <-> exists coding, In (c, coding, k) tds_headers.
Proof.
  rewrite dict_in by (vm_compute; reflexivity).
  transitivity (In (k, c) (map (fun x => (snd x, fst (fst x))) tds_headers)).
  - split; apply (sub_in _ _ _ entry_eqb_eq); vm_compute; reflexivity.
  - rewrite in_map_iff. split; [intros (((c', nm), hx) & E & I); injection E as <- <-; eauto|]. intros (nm & I). exists (c, nm, k). auto.
Qed.
Theorem identifier_dict classes k c : In classes [EPC_SCHEMES; TAG_ENCODABLE_CLASSES; GS1_KEYED_CLASSES] ->
  (dict_get k (identifiers_dict classes) = Some c <-> In c classes /\ k = scheme_name c).
Proof.
  intros I. rewrite dict_in by (repeat (destruct I as [<-|I]; [vm_compute; reflexivity|]); destruct I).
  unfold identifiers_dict. rewrite in_map_iff. split.
  - intros (c' & E & J). injection E as <- <-. split; [exact J|]. destruct c'; reflexivity.
  - intros (J & ->). exists c. split; [|exact J]. destruct c; reflexivity.
Qed.

(** what the model uses instead *)
Theorem model_dispatch k :
  assoc_str k TAG_ENCODABLE_BINARY_HEADERS = dict_get k binary_headers_dict /\
  assoc_str k TAG_ENCODABLE_HEX_HEADERS = dict_get k hex_headers_dict /\
  assoc_str k EPC_SCHEME_IDENTIFIERS = dict_get k (identifiers_dict EPC_SCHEMES) /\
  assoc_str k TAG_ENCODABLE_SCHEME_IDENTIFIERS = dict_get k (identifiers_dict TAG_ENCODABLE_CLASSES) /\
  assoc_str k GS1_KEYED_SCHEME_IDENTIFIERS = dict_get k (identifiers_dict GS1_KEYED_CLASSES).
Proof. rewrite !dict_assoc by (vm_compute; reflexivity). repeat split; f_equal; vm_compute; reflexivity. Qed.
Theorem model_headers c k coding : assoc_str k (model_table c) = Some coding <-> exists items name, header_to_schemes c = Ok items /\ dict_get k items = Some (name, coding).
Proof.
  destruct (header_dict c) as (items & E & D). rewrite assoc_key by (apply distinct_nodup; destruct c; vm_compute; reflexivity).
  transitivity (In (k, coding) (map (fun x => (fst x, snd (snd x))) (tds_of c))).
  - split; apply (sub_in (pair_eqb str_eqb str_eqb)); try (apply pair_eqb_eq; exact str_eq); destruct c; vm_compute; reflexivity.
  - rewrite in_map_iff. split.
    + intros ((k', (n, co)) & Q & I). injection Q as -> ->. exists items, n. split; [exact E|]. apply D. apply (proj1 (tds_of_in c k n coding)). exact I.
    + intros (items' & n & E' & G). rewrite E in E'. injection E' as <-. exists (k, (n, coding)). split; [reflexivity|]. apply (proj2 (tds_of_in c k n coding)). now apply D.
Qed.

(** filter values *)
Theorem filter_values c v : (exists name, In (name, v) (filter_value_enum c)) <-> exists n, n < filter_count c /\ spelled n v.
Proof.
  transitivity (In v (map (fun n => ndec (N.of_nat n)) (seq 0 (N.to_nat (filter_count c))))).
  - transitivity (In v (map snd (filter_value_enum c))).
    + rewrite in_map_iff. split; [intros (n & I); exists (n, v); auto|]. intros ((n, v') & E & I). cbn in E. subst v'. eauto.
    + split; apply (sub_in str_eqb); try exact str_eq; destruct c; vm_compute; reflexivity.
  - rewrite in_map_iff. split.
    + intros (n & <- & I). apply in_seq in I. exists (N.of_nat n). split; [lia|]. destruct (ndec_spec (N.of_nat n)) as (_ & A & _).
      split; [now apply ascii_digits_iff|]. split; [apply ndec_numeral|apply ndec_decimal].
    + intros (n & L & A & B & <-). exists (N.to_nat (decimal v)). split; [|apply in_seq; lia]. rewrite N2Nat.id.
      apply numeral_decimal_inj; [apply ndec_numeral|exact B| | |apply ndec_decimal].
      * intros c' I. destruct (ndec_spec (decimal v)) as (_ & A' & _). apply ascii_digits_iff in A'. specialize (A' c' I). lia.
      * intros c' I. specialize (A c' I). lia.
Qed.

Theorem subclasses c :
  (issubclass c B_TagEncodable = true <-> In c tag_classes) /\ (issubclass c B_GS1Element = true <-> In c element_classes) /\
  (issubclass c B_GS1Keyed = true <-> In c keyed_classes) /\ issubclass c B_EPCScheme = true /\
  is_tag_encodable c = issubclass c B_TagEncodable /\ is_gs1_element c = issubclass c B_GS1Element /\ is_gs1_keyed c = issubclass c B_GS1Keyed.
Proof.
  repeat split; try (destruct c; reflexivity);
  [intros H|intros H|intros H|intros H|intros H|intros H]; destruct c; try discriminate H; try (cbn; tauto);
  cbn in H; repeat (destruct H as [H|H]; [try discriminate H; reflexivity|]); destruct H.
Qed.
