(** The texts of regex.py and the regular expressions of the model agree. *)
From Coq Require Import String Lia Btauto.
From Verif.Model Require Import Py Re Regexes RegexText Sre.
From Verif.Spec Require Import SpecSre.
From Verif.Proofs Require Import Basics ReLemmas SreSound SreLang.

(** * Character classes *)

Lemma inr_one a c : inr a a c = (c =? a).
Proof.
  unfold inr. destruct (N.leb_spec a c), (N.leb_spec c a), (N.eqb_spec c a); cbn [andb]; try reflexivity; lia.
Qed.
Lemma cls_one a c : cls_match [CRange a a] c = (a =? c).
Proof. cbn [cls_match existsb citem_match]. rewrite orb_false_r, inr_one. apply N.eqb_sym. Qed.
Lemma cls_digit c : cls_match [CDigit] c = is_d c.
Proof. cbn [cls_match existsb citem_match]. apply orb_false_r. Qed.

(** both sides as disjunctions of the same ranges *)
Ltac cls := intros c; unfold cls_match; cbn [existsb citem_match];
  unfold cpref_char, gs3a3_plain, gs1_elem_char, gs1_elem_char_cpi, cage_char, bic_owner_char,
    bic_cat_char, is_hex;
  unfold gs3a3_plain, c_dash; unfold is_digit, is_upper, is_lower;
  rewrite ?inr_one;
  repeat match goal with |- context [inr ?a ?b ?c] => let x := fresh "b" in generalize (inr a b c); intros x end;
  repeat match goal with |- context [?a =? ?c] => let x := fresh "b" in generalize (a =? c); intros x end;
  btauto.

Lemma cls_cpref c : cls_match [CRange 48 57; CRange 65 90; CRange 45 45] c = cpref_char c.
Proof. revert c. cls. Qed.
Lemma cls_adi c : cls_match [CRange 65 90; CRange 48 57; CRange 45 45] c = cpref_char c.
Proof. revert c. cls. Qed.
Lemma cls_hex c : cls_match [CRange 48 57; CRange 97 102; CRange 65 70] c = is_hex c.
Proof. revert c. cls. Qed.
Lemma cls_gs3a3 c :
  cls_match [CRange 97 122; CRange 65 90; CRange 48 57; CRange 33 33; CRange 39 39; CRange 40 40;
             CRange 41 41; CRange 42 42; CRange 43 43; CRange 44 46; CRange 58 58; CRange 59 59;
             CRange 61 61; CRange 95 95] c = gs3a3_plain c.
Proof. revert c. cls. Qed.
Lemma cls_gs1 c :
  cls_match [CRange 97 122; CRange 65 90; CRange 48 57; CRange 33 33; CRange 39 39; CRange 40 40;
             CRange 41 41; CRange 42 42; CRange 43 43; CRange 44 46; CRange 58 58; CRange 59 59;
             CRange 61 61; CRange 95 95; CRange 34 34; CRange 37 37; CRange 38 38; CRange 47 47;
             CRange 60 60; CRange 62 62; CRange 63 63] c = gs1_elem_char c.
Proof.
  cbn [cls_match existsb citem_match]. unfold gs1_elem_char. rewrite <- cls_gs3a3.
  cbn [cls_match existsb citem_match]. rewrite !inr_one, !orb_false_r, <- !orb_assoc. reflexivity.
Qed.
Lemma cls_cpi c :
  cls_match [CRange 48 57; CRange 65 90; CRange 47 47; CRange 45 45; CRange 35 35] c = gs1_elem_char_cpi c.
Proof. revert c. cls. Qed.
Lemma cls_cage c :
  cls_match [CRange 48 57; CRange 65 72; CRange 74 78; CRange 80 90] c = cage_char c.
Proof. revert c. cls. Qed.
Lemma cls_bic_owner c : cls_match [CRange 65 72; CRange 74 78; CRange 80 90] c = bic_owner_char c.
Proof. revert c. cls. Qed.
Lemma cls_bic_cat c : cls_match [CRange 74 74; CRange 85 85; CRange 90 90] c = bic_cat_char c.
Proof. revert c. cls. Qed.
Lemma cls_range a b c : cls_match [CRange a b] c = inr a b c.
Proof. cbn [cls_match existsb citem_match]. apply orb_false_r. Qed.
Lemma cls_is_digit c : cls_match [CRange 48 57] c = is_digit c.
Proof. apply cls_range. Qed.

(** * The patterns *)

Definition agree (text : str) (r : re) : Prop :=
  exists p, re_compile text = Some p /\
  (forall s, sre_fullmatch p s = fullmatch r s) /\
  (forall s, match sre_match p s with Some _ => true | None => false end = rmatch r s).

(** the model's names for the classes that occur *)
Definition citem_eqb (x y : citem) : bool :=
  match x, y with
  | CRange a b, CRange c d => (a =? c) && (b =? d)
  | CDigit, CDigit => true
  | _, _ => false
  end.
Fixpoint items_eqb (x y : list citem) : bool :=
  match x, y with
  | [], [] => true
  | a :: x', b :: y' => citem_eqb a b && items_eqb x' y'
  | _, _ => false
  end.
Fixpoint lookup (tbl : list (list citem * (N -> bool))) (l : list citem) : option (N -> bool) :=
  match tbl with
  | [] => None
  | (l', p) :: tbl' => if items_eqb l l' then Some p else lookup tbl' l
  end.
Definition class_names : list (list citem * (N -> bool)) :=
  [ ([CDigit], is_d);
    ([CRange 48 57; CRange 65 90; CRange 45 45], cpref_char);
    ([CRange 65 90; CRange 48 57; CRange 45 45], cpref_char);
    ([CRange 48 57; CRange 97 102; CRange 65 70], is_hex);
    ([CRange 97 122; CRange 65 90; CRange 48 57; CRange 33 33; CRange 39 39; CRange 40 40;
      CRange 41 41; CRange 42 42; CRange 43 43; CRange 44 46; CRange 58 58; CRange 59 59;
      CRange 61 61; CRange 95 95], gs3a3_plain);
    ([CRange 97 122; CRange 65 90; CRange 48 57; CRange 33 33; CRange 39 39; CRange 40 40;
      CRange 41 41; CRange 42 42; CRange 43 43; CRange 44 46; CRange 58 58; CRange 59 59;
      CRange 61 61; CRange 95 95; CRange 34 34; CRange 37 37; CRange 38 38; CRange 47 47;
      CRange 60 60; CRange 62 62; CRange 63 63], gs1_elem_char);
    ([CRange 48 57; CRange 65 90; CRange 47 47; CRange 45 45; CRange 35 35], gs1_elem_char_cpi);
    ([CRange 48 57; CRange 65 72; CRange 74 78; CRange 80 90], cage_char);
    ([CRange 65 72; CRange 74 78; CRange 80 90], bic_owner_char);
    ([CRange 74 74; CRange 85 85; CRange 90 90], bic_cat_char) ].
Definition named (l : list citem) : N -> bool :=
  match lookup class_names l with
  | Some p => p
  | None => match l with
            | [CRange a b] => if a =? b then N.eqb a else inr a b
            | _ => cls_match l
            end
  end.

Lemma items_eqb_eq x : forall y, items_eqb x y = true -> x = y.
Proof.
  induction x as [|a x IH]; intros [|b y] H; cbn [items_eqb] in H; try discriminate; [reflexivity|].
  apply andb_true_iff in H. destruct H as [H1 H2]. rewrite (IH y H2). f_equal.
  destruct a as [a1 a2|], b as [b1 b2|]; cbn [citem_eqb] in H1; try discriminate; [|reflexivity].
  apply andb_true_iff in H1. destruct H1 as [E1 E2]. apply N.eqb_eq in E1, E2. now subst.
Qed.
Lemma lookup_ok tbl l p : Forall (fun x => forall c, cls_match (fst x) c = snd x c) tbl ->
  lookup tbl l = Some p -> forall c, cls_match l c = p c.
Proof.
  induction 1 as [|[l' q] tbl Hq _ IH]; cbn [lookup]; [discriminate|].
  destruct (items_eqb l l') eqn:E; [|exact IH]. apply items_eqb_eq in E. subst l'.
  intros H. injection H as <-. exact Hq.
Qed.
Lemma named_ok l c : named l c = cls_match l c.
Proof.
  unfold named. destruct (lookup class_names l) as [p|] eqn:E.
  - symmetry. revert c. apply (lookup_ok class_names l p); [|exact E].
    repeat (apply Forall_cons; [cbn [fst snd]|]); [..|apply Forall_nil].
    + exact cls_digit.
    + exact cls_cpref.
    + exact cls_adi.
    + exact cls_hex.
    + exact cls_gs3a3.
    + exact cls_gs1.
    + exact cls_cpi.
    + exact cls_cage.
    + exact cls_bic_owner.
    + exact cls_bic_cat.
  - destruct l as [|[a b|] [|y l]]; try reflexivity.
    destruct (N.eqb_spec a b) as [->|]; [symmetry; apply cls_one|symmetry; apply cls_range].
Qed.

Fixpoint erase_named (p : pat) : re :=
  match p with
  | PEps => REps
  | PSet l => RSet (named l)
  | PAny => RSet dotc
  | PEnd => REmp
  | PSeq a b => RSeq (erase_named a) (erase_named b)
  | PAlt a b => RAlt (erase_named a) (erase_named b)
  | PRep lo None a => RSeq (rrep lo (erase_named a)) (RStar (erase_named a))
  | PRep lo (Some h) a => rrange lo h (erase_named a)
  end.

Lemma same_rep n a b : same a b -> same (rrep n a) (rrep n b).
Proof. intros H. induction n; cbn [rrep]; [apply same_refl|now apply same_seq]. Qed.
Lemma same_upto n a b : same a b -> same (rupto n a) (rupto n b).
Proof.
  intros H. induction n; cbn [rupto]; [apply same_refl|]. apply same_alt; [apply same_refl|now apply same_seq].
Qed.
Lemma erase_named_same p : same (erase p) (erase_named p).
Proof.
  induction p as [|l| | |a IHa b IHb|a IHa b IHb|lo [h|] a IHa]; cbn [erase erase_named]; try apply same_refl.
  - apply same_set. intros c. symmetry. apply named_ok.
  - now apply same_seq.
  - now apply same_alt.
  - apply same_seq; [now apply same_rep|now apply same_upto].
  - apply same_seq; [now apply same_rep|now apply same_star].
Qed.

Lemma agree_intro text r p :
  re_compile text = Some p -> no_anchor p = true -> nfs (erase_named p) REps = nfs r REps ->
  agree text r.
Proof.
  intros C NA S. exists p. split; [exact C|]. apply (text_agrees text r p C NA).
  eapply same_trans; [apply erase_named_same|]. apply nf_same. exact S.
Qed.

Ltac agree_tac :=
  lazymatch goal with |- agree ?text ?r =>
    let c := eval vm_compute in (re_compile text) in
    lazymatch c with
    | Some ?p => apply (agree_intro text r p); [vm_compute; reflexivity|vm_compute; reflexivity|]
    end
  end;
  cbv -[is_d cpref_char gs3a3_plain gs1_elem_char gs1_elem_char_cpi cage_char bic_owner_char
        bic_cat_char is_hex inr N.eqb dotc];
  exact eq_refl.

Lemma agree_SGTIN_URI : agree T_SGTIN_URI SGTIN_URI.
Proof. agree_tac. Qed.
Lemma agree_SSCC_URI : agree T_SSCC_URI SSCC_URI.
Proof. agree_tac. Qed.
Lemma agree_SGLN_URI : agree T_SGLN_URI SGLN_URI.
Proof. agree_tac. Qed.
Lemma agree_GRAI_URI : agree T_GRAI_URI GRAI_URI.
Proof. agree_tac. Qed.
Lemma agree_GIAI_URI : agree T_GIAI_URI GIAI_URI.
Proof. agree_tac. Qed.
Lemma agree_GSRN_URI : agree T_GSRN_URI GSRN_URI.
Proof. agree_tac. Qed.
Lemma agree_GSRNP_URI : agree T_GSRNP_URI GSRNP_URI.
Proof. agree_tac. Qed.
Lemma agree_GDTI_URI : agree T_GDTI_URI GDTI_URI.
Proof. agree_tac. Qed.
Lemma agree_CPI_URI : agree T_CPI_URI CPI_URI.
Proof. agree_tac. Qed.
Lemma agree_SGCN_URI : agree T_SGCN_URI SGCN_URI.
Proof. agree_tac. Qed.
Lemma agree_GINC_URI : agree T_GINC_URI GINC_URI.
Proof. agree_tac. Qed.
Lemma agree_GSIN_URI : agree T_GSIN_URI GSIN_URI.
Proof. agree_tac. Qed.
Lemma agree_ITIP_URI : agree T_ITIP_URI ITIP_URI.
Proof. agree_tac. Qed.
Lemma agree_UPUI_URI : agree T_UPUI_URI UPUI_URI.
Proof. agree_tac. Qed.
Lemma agree_PGLN_URI : agree T_PGLN_URI PGLN_URI.
Proof. agree_tac. Qed.
Lemma agree_GID_URI : agree T_GID_URI GID_URI.
Proof. agree_tac. Qed.
Lemma agree_USDOD_URI : agree T_USDOD_URI USDOD_URI.
Proof. agree_tac. Qed.
Lemma agree_ADI_URI : agree T_ADI_URI ADI_URI.
Proof. agree_tac. Qed.
Lemma agree_BIC_URI : agree T_BIC_URI BIC_URI.
Proof. agree_tac. Qed.
Lemma agree_IMOVN_URI : agree T_IMOVN_URI IMOVN_URI.
Proof. agree_tac. Qed.
Lemma agree_LGTIN_CLASS : agree T_LGTIN_CLASS LGTIN_CLASS.
Proof. agree_tac. Qed.
Lemma agree_EPC_URI : agree T_EPC_URI EPC_URI.
Proof. agree_tac. Qed.
Lemma agree_IDPAT_URI : agree T_IDPAT_URI IDPAT_URI.
Proof. agree_tac. Qed.
Lemma agree_TAG_URI : agree T_TAG_URI TAG_URI.
Proof. agree_tac. Qed.
Lemma agree_SGTIN_GS1_ELEMENT_STRING : agree T_SGTIN_GS1_ELEMENT_STRING SGTIN_GS1_ELEMENT_STRING.
Proof. agree_tac. Qed.
Lemma agree_SSCC_GS1_ELEMENT_STRING : agree T_SSCC_GS1_ELEMENT_STRING SSCC_GS1_ELEMENT_STRING.
Proof. agree_tac. Qed.
Lemma agree_SGLN_GS1_ELEMENT_STRING : agree T_SGLN_GS1_ELEMENT_STRING SGLN_GS1_ELEMENT_STRING.
Proof. agree_tac. Qed.
Lemma agree_GRAI_GS1_ELEMENT_STRING : agree T_GRAI_GS1_ELEMENT_STRING GRAI_GS1_ELEMENT_STRING.
Proof. agree_tac. Qed.
Lemma agree_GIAI_GS1_ELEMENT_STRING : agree T_GIAI_GS1_ELEMENT_STRING GIAI_GS1_ELEMENT_STRING.
Proof. agree_tac. Qed.
Lemma agree_GSRN_GS1_ELEMENT_STRING : agree T_GSRN_GS1_ELEMENT_STRING GSRN_GS1_ELEMENT_STRING.
Proof. agree_tac. Qed.
Lemma agree_GSRNP_GS1_ELEMENT_STRING : agree T_GSRNP_GS1_ELEMENT_STRING GSRNP_GS1_ELEMENT_STRING.
Proof. agree_tac. Qed.
Lemma agree_GDTI_GS1_ELEMENT_STRING : agree T_GDTI_GS1_ELEMENT_STRING GDTI_GS1_ELEMENT_STRING.
Proof. agree_tac. Qed.
Lemma agree_CPI_GS1_ELEMENT_STRING : agree T_CPI_GS1_ELEMENT_STRING CPI_GS1_ELEMENT_STRING.
Proof. agree_tac. Qed.
Lemma agree_SGCN_GS1_ELEMENT_STRING : agree T_SGCN_GS1_ELEMENT_STRING SGCN_GS1_ELEMENT_STRING.
Proof. agree_tac. Qed.
Lemma agree_GINC_GS1_ELEMENT_STRING : agree T_GINC_GS1_ELEMENT_STRING GINC_GS1_ELEMENT_STRING.
Proof. agree_tac. Qed.
Lemma agree_GSIN_GS1_ELEMENT_STRING : agree T_GSIN_GS1_ELEMENT_STRING GSIN_GS1_ELEMENT_STRING.
Proof. agree_tac. Qed.
Lemma agree_ITIP_GS1_ELEMENT_STRING : agree T_ITIP_GS1_ELEMENT_STRING ITIP_GS1_ELEMENT_STRING.
Proof. agree_tac. Qed.
Lemma agree_UPUI_GS1_ELEMENT_STRING : agree T_UPUI_GS1_ELEMENT_STRING UPUI_GS1_ELEMENT_STRING.
Proof. agree_tac. Qed.
Lemma agree_PGLN_GS1_ELEMENT_STRING : agree T_PGLN_GS1_ELEMENT_STRING PGLN_GS1_ELEMENT_STRING.
Proof. agree_tac. Qed.
Lemma agree_LGTIN_GS1_ELEMENT_STRING : agree T_LGTIN_GS1_ELEMENT_STRING LGTIN_GS1_ELEMENT_STRING.
Proof. agree_tac. Qed.
Lemma agree_GS1_ELEMENT_STRING : agree T_GS1_ELEMENT_STRING GS1_ELEMENT_STRING.
Proof. agree_tac. Qed.
Lemma agree_VERIFY_GS3A3_CHARS : agree T_VERIFY_GS3A3_CHARS VERIFY_GS3A3_CHARS.
Proof. agree_tac. Qed.

Theorem compiled_agree : Forall (fun x => agree (fst x) (snd x)) compiled_patterns.
Proof.
  unfold compiled_patterns.
  repeat (apply Forall_cons; [cbn [fst snd]|]); [..|apply Forall_nil].
  - exact agree_SGTIN_URI.
  - exact agree_SSCC_URI.
  - exact agree_SGLN_URI.
  - exact agree_GRAI_URI.
  - exact agree_GIAI_URI.
  - exact agree_GSRN_URI.
  - exact agree_GSRNP_URI.
  - exact agree_GDTI_URI.
  - exact agree_CPI_URI.
  - exact agree_SGCN_URI.
  - exact agree_GINC_URI.
  - exact agree_GSIN_URI.
  - exact agree_ITIP_URI.
  - exact agree_UPUI_URI.
  - exact agree_PGLN_URI.
  - exact agree_GID_URI.
  - exact agree_USDOD_URI.
  - exact agree_ADI_URI.
  - exact agree_BIC_URI.
  - exact agree_IMOVN_URI.
  - exact agree_LGTIN_CLASS.
  - exact agree_EPC_URI.
  - exact agree_IDPAT_URI.
  - exact agree_TAG_URI.
  - exact agree_SGTIN_GS1_ELEMENT_STRING.
  - exact agree_SSCC_GS1_ELEMENT_STRING.
  - exact agree_SGLN_GS1_ELEMENT_STRING.
  - exact agree_GRAI_GS1_ELEMENT_STRING.
  - exact agree_GIAI_GS1_ELEMENT_STRING.
  - exact agree_GSRN_GS1_ELEMENT_STRING.
  - exact agree_GSRNP_GS1_ELEMENT_STRING.
  - exact agree_GDTI_GS1_ELEMENT_STRING.
  - exact agree_CPI_GS1_ELEMENT_STRING.
  - exact agree_SGCN_GS1_ELEMENT_STRING.
  - exact agree_GINC_GS1_ELEMENT_STRING.
  - exact agree_GSIN_GS1_ELEMENT_STRING.
  - exact agree_ITIP_GS1_ELEMENT_STRING.
  - exact agree_UPUI_GS1_ELEMENT_STRING.
  - exact agree_PGLN_GS1_ELEMENT_STRING.
  - exact agree_LGTIN_GS1_ELEMENT_STRING.
  - exact agree_GS1_ELEMENT_STRING.
  - exact agree_VERIFY_GS3A3_CHARS.
Qed.
