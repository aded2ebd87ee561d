(** GS1 element strings and back. *)
From Coq Require Import String Lia Setoid.
From Verif.Model Require Import Py Re Regexes Common Base Parsers.
From Verif.Model Require Import Cpi Gdti Giai Grai Gsrn Gsrnp Itip Lgtin Sgcn Sgln Sgtin Sscc Others.
From Verif.Spec Require Import Spec SpecEscapes SpecGrammar SpecSchemes SpecElements.
From Verif.Proofs Require Import Basics Num ReLemmas Uni Escapes Checksum Verify Verify2 Grammar Ctor CtorA CtorB CtorC CtorAll Keys
  ElementRe.

(** * Components *)

Lemma unesc_elem s : forallb gs1_elem_char s = true -> forallb gs1_elem_char (unesc uri_table s) = true.
Proof.
  refine (str_ind2 (fun s => forallb gs1_elem_char s = true -> forallb gs1_elem_char (unesc uri_table s) = true) _ s).
  clear s. intros s IH H. destruct s as [|c s]; [reflexivity|].
  cbn [forallb] in H. apply andb_true_iff in H as [C H].
  assert (K : forallb gs1_elem_char (c :: unesc uri_table s) = true)
    by (cbn [forallb]; rewrite C; apply IH; [cbn [length]; lia|exact H]).
  cbn [unesc]. destruct (c =? c_pct); [|exact K]. destruct s as [|a s]; [exact K|]. destruct s as [|b s]; [exact K|].
  destruct (tfind uri_table a b) as [x|] eqn:T; [|exact K].
  cbn [forallb] in H |- *. rewrite !andb_true_iff in H. apply andb_true_iff. split; [|apply IH; [cbn [length]; lia|tauto]].
  apply tfind_chars in T as (_ & _ & X). cbn in X. repeat destruct X as [<-|X]; try reflexivity. destruct X.
Qed.
Lemma shape_elem s : gs3a3_shape s = true -> forallb gs1_elem_char s = true.
Proof. intros H. apply shape_chars, H. Qed.
Lemma comp_ai82 s : component s -> ai82_text (unescape s) /\ unescape s <> [].
Proof.
  intros C. destruct (component_shape _ C) as [S N]. split.
  - rewrite unescape_unesc. apply ai82_text_iff, unesc_elem, shape_elem, S.
  - pose proof (unescape_nonempty _ N) as L. intros E. rewrite E in L. cbn in L. lia.
Qed.
Lemma comp_canon s : component s -> (canonical_serial s <-> escape (unescape s) = s).
Proof.
  intros C. destruct (comp_ai82 _ C) as [A N]. split.
  - intros (t & _ & _ & ->). rewrite unescape_escape. reflexivity.
  - intros E. exists (unescape s). auto.
Qed.
Lemma comp_upto s n : component s -> (length (unescape s) <= n)%nat -> ai82_upto n (unescape s).
Proof. intros C L. destruct (comp_ai82 _ C) as [A N]. split; [exact A|]. destruct (unescape s); [congruence|cbn [length] in *; lia]. Qed.
Lemma unescape_le s : (length (unescape s) <= length s)%nat.
Proof.
  rewrite unescape_unesc. refine (str_ind2 (fun s => length (unesc uri_table s) <= length s)%nat _ s).
  clear s. intros s IH. destruct s as [|c s]; [reflexivity|].
  assert (K : (length (c :: unesc uri_table s) <= length (c :: s))%nat) by (cbn [length]; apply le_n_S, IH; cbn [length]; lia).
  cbn [unesc]. destruct (c =? c_pct); [|exact K]. destruct s as [|a s]; [exact K|]. destruct s as [|b s]; [exact K|].
  destruct (tfind uri_table a b) as [x|] eqn:T; [|exact K].
  cbn [length] in *. pose proof (IH s ltac:(lia)). lia.
Qed.
Lemma bind_ok_eq {A B} (x : res A) (f : A -> res B) a : x = Ok a -> bind x f = f a. Proof. intros ->. reflexivity. Qed.
Lemma bind_raise_eq {A B} (x : res A) (f : A -> res B) e : x = Raise e -> bind x f = Raise e. Proof. intros ->. reflexivity. Qed.
Lemma nodot_digits s : digits s -> ~ In 46 s.
Proof. rewrite digits_iff. intros D. eapply notin_forallb; [exact D|reflexivity]. Qed.
Lemma cut_dot (a a' b b' : str) : ~ In 46 a -> ~ In 46 a' -> a ++ lit "." ++ b = a' ++ lit "." ++ b' -> a = a' /\ b = b'.
Proof.
  revert a'. induction a as [|x a IH]; intros [|y a'] N N' E; cbn in E.
  - injection E as ->. auto.
  - injection E as <- _. exfalso. apply N'. left. reflexivity.
  - injection E as -> _. exfalso. apply N. left. reflexivity.
  - injection E as -> E. destruct (IH a') as [-> ->]; [cbn [In] in N; tauto|cbn [In] in N'; tauto|exact E|]. auto.
Qed.
Lemma completed_inv s k : completed s k -> exists d, k = s ++ [d] /\ is_d d = true.
Proof.
  intros (d & L & -> & _). exists (48 + d). split; [reflexivity|].
  assert (D : digits [48 + d]). { intros c [<-|[]]. rewrite udigit_digit by lia. discriminate. }
  apply digits_iff in D. cbn [forallb] in D. rewrite andb_true_r in D. exact D.
Qed.
Lemma ndigits_of n d : digits d -> length d = n -> ndigits n d. Proof. intros; split; assumption. Qed.
Lemma digits_app a b : digits a -> digits b -> digits (a ++ b).
Proof. intros A B c I. apply in_app_or in I as [I|I]; auto. Qed.

(** the two ways to lay digits out: company prefix first, or behind the indicator *)
Lemma cut_gtin (i : N) (cp rest : str) (k : N) (n := length cp) : let g := (i :: cp ++ rest) ++ [k] in
  slz (Some 1%Z) (Some (Z.of_nat n + 1)%Z) g = cp /\ slz (Some 1%Z) (Some (1 + Z.of_nat n)%Z) g = cp /\
  slz (Some (1 + Z.of_nat n)%Z) (Some (-1)%Z) g = rest.
Proof.
  intros g. unfold g, n.
  assert (A : (i :: cp ++ rest) ++ [k] = [i] ++ cp ++ rest ++ [k]) by (cbn [app]; rewrite <- app_assoc; reflexivity).
  assert (B : (i :: cp ++ rest) ++ [k] = ([i] ++ cp) ++ rest ++ [k]) by (rewrite A, <- !app_assoc; reflexivity).
  split; [|split].
  - rewrite A. apply slz_mid; cbn [length]; lia.
  - rewrite A. apply slz_mid; cbn [length]; lia.
  - rewrite B. apply slz_mid_neg; [rewrite app_length; cbn [length]; lia|reflexivity|discriminate].
Qed.
Lemma cut_plain (cp rest : str) (k : N) (n := length cp) : let g := (cp ++ rest) ++ [k] in
  slz None (Some (Z.of_nat n)) g = cp /\ slz (Some (Z.of_nat n)) (Some (-1)%Z) g = rest.
Proof.
  intros g. unfold g, n. rewrite <- app_assoc. split; [apply slz_head; reflexivity|].
  apply slz_mid_neg; [reflexivity|reflexivity|discriminate].
Qed.

(** * What from_gs1_element_string does with a well-formed string *)

Ltac matched c g := rewrite (proj2 (element_regex c g)) by (cbn [element_string]; eauto 10); cbn [negb raise_if bind].
Ltac m_is c := let F := fresh in
  lazymatch goal with |- context [fullmatch ?r ?g] =>
    assert (F : fullmatch r g = true) by (apply (element_regex c g); cbn [element_string]; eauto 12);
    rewrite F; cbn [negb raise_if bind]; clear F end.

Lemma m_nonl2 a b : a <> c_nl -> b <> c_nl -> ~ In c_nl [a; b].
Proof. intros A B [X|[X|[]]]; congruence. Qed.

Definition gtin_body_uri (p : str) (l : Z) (d t : str) : str :=
  p ++ slz (Some 1%Z) (Some (1 + l)%Z) d ++ [c_dot] ++ [hd 0 d] ++ slz (Some (1 + l)%Z) (Some (-1)%Z) d ++ [c_dot] ++ t.

Lemma sgtin_from d t l : ndigits 14 d -> ai82_upto 20 t ->
  (~ bracketed 2 t /\ sgtin_from_gs1_element_string (lit "(01)" ++ d ++ lit "(21)" ++ t) l
     = sgtin_init (gtin_body_uri (lit "urn:epc:id:sgtin:") l d (escape t))) \/
  (bracketed 2 t /\ sgtin_from_gs1_element_string (lit "(01)" ++ d ++ lit "(21)" ++ t) l = Raise ValueError).
Proof.
  intros D T. unfold sgtin_from_gs1_element_string. m_is C_SGTIN. change m_paren2 with (m_group 2).
  destruct (split3 2 [48; 49] d [50; 49] t) as [[S B]|[S B]];
    try reflexivity; try (apply m_nonl2; discriminate); [apply D|apply T| |].
  - left. split; [exact B|]. refine (eq_trans (bind_ok_eq _ _ _ S) _). rewrite revert_uri_escapes_spec.
    destruct D as [_ L]. destruct d as [|d0 d]; [discriminate L|]. cbn [idx nth_error bind]. unfold gtin_body_uri. cbn [hd].
    rewrite (Z.add_comm l 1). reflexivity.
  - right. split; [exact B|]. exact (bind_raise_eq _ _ _ S).
Qed.

Lemma lgtin_from d t l : ndigits 14 d -> ai82_upto 20 t ->
  (~ bracketed 2 t /\ lgtin_from_gs1_element_string (lit "(01)" ++ d ++ lit "(10)" ++ t) l
     = lgtin_init (gtin_body_uri (lit "urn:epc:class:lgtin:") l d (escape t))) \/
  (bracketed 2 t /\ lgtin_from_gs1_element_string (lit "(01)" ++ d ++ lit "(10)" ++ t) l = Raise ValueError).
Proof.
  intros D T. unfold lgtin_from_gs1_element_string. m_is C_LGTIN. change lgtin_m_paren2 with (m_group 2).
  destruct (split3 2 [48; 49] d [49; 48] t) as [[S B]|[S B]];
    try reflexivity; try (apply m_nonl2; discriminate); [apply D|apply T| |].
  - left. split; [exact B|]. refine (eq_trans (bind_ok_eq _ _ _ S) _). rewrite revert_uri_escapes_spec.
    destruct D as [_ L]. destruct d as [|d0 d]; [discriminate L|]. cbn [idx nth_error bind]. unfold gtin_body_uri. cbn [hd].
    rewrite (Z.add_comm l 1). reflexivity.
  - right. split; [exact B|]. exact (bind_raise_eq _ _ _ S).
Qed.

Definition plain_body_uri (p : str) (l : Z) (d t : str) : str :=
  p ++ slz None (Some l) d ++ [c_dot] ++ slz (Some l) (Some (-1)%Z) d ++ [c_dot] ++ t.
Lemma sgln_from d t l : ndigits 13 d -> ai82_upto 20 t ->
  (~ bracketed 3 t /\ sgln_from_gs1_element_string (lit "(414)" ++ d ++ lit "(254)" ++ t) l
     = sgln_init (plain_body_uri (lit "urn:epc:id:sgln:") l d (escape t))) \/
  (bracketed 3 t /\ sgln_from_gs1_element_string (lit "(414)" ++ d ++ lit "(254)" ++ t) l = Raise ValueError).
Proof.
  intros D T. unfold sgln_from_gs1_element_string. m_is C_SGLN. change m_paren3 with (m_group 3).
  destruct (split3 3 (lit "414") d (lit "254") t) as [[S B]|[S B]];
    try reflexivity; try (intros [X|[X|[X|[]]]]; discriminate X); [apply D|apply T| |].
  - left. split; [exact B|]. refine (eq_trans (bind_ok_eq _ _ _ S) _). rewrite revert_uri_escapes_spec. reflexivity.
  - right. split; [exact B|]. exact (bind_raise_eq _ _ _ S).
Qed.

Lemma sl_lit (p d t : str) : sl (length p) (length p + length d) (p ++ d ++ t) = d.
Proof. apply sl_mid; reflexivity. Qed.
Lemma skip_lit (p d t : str) : skipn (length p + length d) (p ++ d ++ t) = t.
Proof. rewrite app_assoc. apply skipn_exact. rewrite app_length. reflexivity. Qed.

Lemma grai_from d t l : ndigits 13 d -> ai82_upto 16 t ->
  grai_from_gs1_element_string (lit "(8003)0" ++ d ++ t) l = grai_init (plain_body_uri (lit "urn:epc:id:grai:") l d (escape t)).
Proof.
  intros D T. unfold grai_from_gs1_element_string. m_is C_GRAI. destruct D as [_ L].
  pose proof (sl_lit (lit "(8003)0") d t) as A. pose proof (skip_lit (lit "(8003)0") d t) as B.
  rewrite L in A, B. change (sl 7 20 (lit "(8003)0" ++ d ++ t) = d) in A. change (skipn 20 (lit "(8003)0" ++ d ++ t) = t) in B.
  rewrite A, B, revert_uri_escapes_spec. reflexivity.
Qed.
Lemma gdti_from d t l : ndigits 13 d -> ai82_upto 17 t ->
  gdti_from_gs1_element_string (lit "(253)" ++ d ++ t) l = gdti_init (plain_body_uri (lit "urn:epc:id:gdti:") l d (escape t)).
Proof.
  intros D T. unfold gdti_from_gs1_element_string. m_is C_GDTI. destruct D as [_ L].
  pose proof (sl_lit (lit "(253)") d t) as A. pose proof (skip_lit (lit "(253)") d t) as B.
  rewrite L in A, B. change (sl 5 18 (lit "(253)" ++ d ++ t) = d) in A. change (skipn 18 (lit "(253)" ++ d ++ t) = t) in B.
  rewrite A, B, revert_uri_escapes_spec. reflexivity.
Qed.
Lemma sgcn_from d t l : ndigits 13 d -> ai82_upto 12 t ->
  sgcn_from_gs1_element_string (lit "(255)" ++ d ++ t) l = sgcn_init (plain_body_uri (lit "urn:epc:id:sgcn:") l d (escape t)).
Proof.
  intros D T. unfold sgcn_from_gs1_element_string. m_is C_SGCN. destruct D as [_ L].
  pose proof (sl_lit (lit "(255)") d t) as A. pose proof (skip_lit (lit "(255)") d t) as B.
  rewrite L in A, B. change (sl 5 18 (lit "(255)" ++ d ++ t) = d) in A. change (skipn 18 (lit "(255)" ++ d ++ t) = t) in B.
  rewrite A, B, revert_uri_escapes_spec. reflexivity.
Qed.
Lemma upui_from d t l : ndigits 14 d -> ai82_upto 28 t ->
  upui_from_gs1_element_string (lit "(01)" ++ d ++ lit "(235)" ++ t) l
    = upui_init (gtin_body_uri (lit "urn:epc:id:upui:") l d (escape t)).
Proof.
  intros D T. unfold upui_from_gs1_element_string. m_is C_UPUI. destruct D as [_ L].
  pose proof (sl_lit (lit "(01)") d (lit "(235)" ++ t)) as A.
  pose proof (skip_lit (lit "(01)") (d ++ lit "(235)") t) as B. rewrite app_length in B. rewrite <- app_assoc in B.
  rewrite L in A, B.
  change (sl 4 18 (lit "(01)" ++ d ++ lit "(235)" ++ t) = d) in A.
  change (skipn 23 (lit "(01)" ++ d ++ lit "(235)" ++ t) = t) in B.
  rewrite A, B, revert_uri_escapes_spec.
  destruct d as [|d0 d]; [discriminate L|]. reflexivity.
Qed.
Definition itip_body_uri (p : str) (l : Z) (d t : str) : str :=
  p ++ slz (Some 1%Z) (Some (1 + l)%Z) d ++ [c_dot] ++ [hd 0 d] ++ slz (Some (1 + l)%Z) (Some (-5)%Z) d
    ++ [c_dot] ++ slz (Some (-4)%Z) (Some (-2)%Z) d ++ [c_dot] ++ slz (Some (-2)%Z) None d ++ [c_dot] ++ t.
Lemma itip_from d t l : ndigits 18 d -> ai82_upto 20 t ->
  itip_from_gs1_element_string (lit "(8006)" ++ d ++ lit "(21)" ++ t) l
    = itip_init (itip_body_uri (lit "urn:epc:id:itip:") l d (escape t)).
Proof.
  intros D T. unfold itip_from_gs1_element_string. m_is C_ITIP. destruct D as [_ L].
  pose proof (sl_lit (lit "(8006)") d (lit "(21)" ++ t)) as A.
  pose proof (skip_lit (lit "(8006)") (d ++ lit "(21)") t) as B. rewrite app_length in B. rewrite <- app_assoc in B.
  rewrite L in A, B.
  change (sl 6 24 (lit "(8006)" ++ d ++ lit "(21)" ++ t) = d) in A.
  change (skipn 28 (lit "(8006)" ++ d ++ lit "(21)" ++ t) = t) in B.
  rewrite A, B, revert_uri_escapes_spec.
  destruct d as [|d0 d]; [discriminate L|]. reflexivity.
Qed.
Lemma sscc_from d l : ndigits 18 d ->
  sscc_from_gs1_element_string (lit "(00)" ++ d) l
    = sscc_init (lit "urn:epc:id:sscc:" ++ slz (Some 1%Z) (Some (1 + l)%Z) d ++ [c_dot] ++ [hd 0 d]
                 ++ slz (Some (1 + l)%Z) (Some (-1)%Z) d).
Proof.
  intros D. unfold sscc_from_gs1_element_string. m_is C_SSCC. change sscc_m_paren2 with (m_group 2).
  assert (S : re_split (m_group 2) (lit "(00)" ++ d) = [[]; d]).
  { unfold re_split. pose proof (re_split_hit 2 [48; 48] d []) as H. cbn [app rev] in H.
    refine (eq_trans (H eq_refl _) _); [apply m_nonl2; discriminate|]. f_equal.
    pose proof (re_split_run 2 d [] [] (digits_noparen _ (proj1 D))) as R. rewrite !app_nil_r in R. rewrite R. cbn [split_aux].
    rewrite rev_involutive. reflexivity. }
  rewrite S. cbn [unpack2 bind]. destruct D as [_ L]. destruct d as [|d0 d]; [discriminate L|]. cbn [idx nth_error bind hd].
  rewrite (Z.add_comm l 1). reflexivity.
Qed.
Lemma gsrn_from d l : ndigits 18 d ->
  gsrn_from_gs1_element_string (lit "(8018)" ++ d) l
    = gsrn_init (lit "urn:epc:id:gsrn:" ++ slz None (Some l) d ++ [c_dot] ++ slz (Some l) (Some (-1)%Z) d).
Proof. intros D. unfold gsrn_from_gs1_element_string. m_is C_GSRN. reflexivity. Qed.
Lemma gsrnp_from d l : ndigits 18 d ->
  gsrnp_from_gs1_element_string (lit "(8017)" ++ d) l
    = gsrnp_init (lit "urn:epc:id:gsrnp:" ++ slz None (Some l) d ++ [c_dot] ++ slz (Some l) (Some (-1)%Z) d).
Proof. intros D. unfold gsrnp_from_gs1_element_string. m_is C_GSRNP. reflexivity. Qed.
Lemma pgln_from d l : ndigits 13 d ->
  pgln_from_gs1_element_string (lit "(417)" ++ d) l
    = pgln_init (lit "urn:epc:id:pgln:" ++ slz None (Some l) d ++ [c_dot] ++ slz (Some l) (Some (-1)%Z) d).
Proof. intros D. unfold pgln_from_gs1_element_string. m_is C_PGLN. reflexivity. Qed.
Lemma gsin_from d k l : ndigits 17 (d ++ [k]) ->
  gsin_from_gs1_element_string (lit "(402)" ++ d ++ [k]) l
    = gsin_init (lit "urn:epc:id:gsin:" ++ slz None (Some l) d ++ [c_dot] ++ slz (Some l) None d).
Proof.
  intros D. unfold gsin_from_gs1_element_string. m_is C_GSIN.
  rewrite (slz_mid_neg (lit "(402)") d [k]) by (try reflexivity; discriminate). reflexivity.
Qed.
Lemma giai_from g l : element_string C_GIAI g ->
  giai_from_gs1_element_string g l
    = giai_init (lit "urn:epc:id:giai:" ++ slz (Some 6%Z) (Some (6 + l)%Z) g ++ [c_dot] ++ escape (slz (Some (6 + l)%Z) None g)).
Proof. intros D. unfold giai_from_gs1_element_string. m_is C_GIAI. rewrite revert_uri_escapes_spec. reflexivity. Qed.
Lemma ginc_from g l : element_string C_GINC g ->
  ginc_from_gs1_element_string g l
    = ginc_init (lit "urn:epc:id:ginc:" ++ slz (Some 5%Z) (Some (5 + l)%Z) g ++ [c_dot] ++ escape (slz (Some (5 + l)%Z) None g)).
Proof. intros D. unfold ginc_from_gs1_element_string. m_is C_GINC. rewrite revert_uri_escapes_spec. reflexivity. Qed.
Lemma cpi_from d t n l : digits d -> (6 <= length d <= 12)%nat -> six_bit_text t -> (length t <= 24)%nat -> digits n ->
  (1 <= length n <= 12)%nat ->
  cpi_from_gs1_element_string (lit "(8010)" ++ d ++ t ++ lit "(8011)" ++ n) l
    = cpi_init (lit "urn:epc:id:cpi:" ++ slz None (Some l) (d ++ t) ++ [c_dot] ++ cpi_escape (slz (Some l) None (d ++ t))
                ++ [c_dot] ++ n).
Proof.
  intros D D' T T' N N'. unfold cpi_from_gs1_element_string. m_is C_CPI. change m_paren4 with (m_group 4).
  assert (P : ~ In 40 (d ++ t)).
  { intros I. apply in_app_or in I as [I|I]; [exact (digits_noparen _ D I)|]. apply T in I. lia. }
  assert (S : re_split (m_group 4) (lit "(8010)" ++ d ++ t ++ lit "(8011)" ++ n) = [[]; d ++ t; n]).
  { unfold re_split. pose proof (re_split_hit 4 (lit "8010") (d ++ t ++ lit "(8011)" ++ n) []) as H.
    refine (eq_trans (H eq_refl _) _); [intros [X|[X|[X|[X|[]]]]]; discriminate X|]. cbn [rev]. f_equal.
    rewrite app_assoc, re_split_run by exact P. rewrite app_nil_r.
    pose proof (re_split_hit 4 (lit "8011") n (rev (d ++ t))) as H'.
    refine (eq_trans (H' eq_refl _) _); [intros [X|[X|[X|[X|[]]]]]; discriminate X|]. rewrite rev_involutive. f_equal.
    pose proof (re_split_run 4 n [] [] (digits_noparen _ N)) as R. rewrite !app_nil_r in R. rewrite R. cbn [split_aux].
    rewrite rev_involutive. reflexivity. }
  rewrite S. cbn [unpack3 bind]. rewrite revert_cpi_escapes_spec. reflexivity.
Qed.
