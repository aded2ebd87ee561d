(** the key an element string stands for *)
From Coq Require Import String Lia ZifyNat ZifyN ZifyBool Setoid.
From Verif.Model Require Import Py Re Regexes Common Base.
From Verif.Model Require Import Adi Cpi Gdti Giai Gid Grai Gsrn Gsrnp Itip Lgtin Sgcn Sgln Sgtin Sscc Usdod Others Parsers.
From Verif.Spec Require Import Spec SpecEscapes SpecGrammar SpecSchemes SpecElements SpecTags SpecLayout SpecCoding SpecHex SpecKeys.
From Verif.Proofs Require Import Basics Num ReLemmas Uni Grammar Escapes Ctor CtorA CtorB CtorC CtorAll Elements ElementRe ElementDispatch ElementBack ElementAccept Keys PureParsers.

Lemma accepted_string c g l e : In c element_classes -> from_gs1_element_string_of c g l = Ok e -> element_string c g.
Proof.
  intros I H. destruct (fullmatch (gs1_element_string_regex c) g) eqn:E; [apply element_regex; exact E|].
  rewrite element_refused in H; [discriminate H|exact I|]. intros X. apply element_regex in X. congruence.
Qed.
Lemma from_init c g l e : In c keyed_classes -> from_gs1_element_string_of c g l = Ok e -> init_of c (epc_uri e) = Ok e.
Proof.
  intros I H. assert (E : element_string c g).
  { apply (accepted_string c g l e); [|exact H]. cbn [In keyed_classes element_classes] in *. tauto. }
  assert (X : exists u, init_of c u = Ok e); [|destruct X as (u & X); pose proof (init_class _ _ _ X) as [_ ->]; exact X].
  cbn [In keyed_classes] in I. 
  repeat (destruct I as [<-|I]; [cbn [from_gs1_element_string_of] in H; apply lift_ok in H as (x & H & ->); cbn [element_string] in E|]); [..|destruct I].
  - destruct E as (d & t & -> & D & T). rewrite gdti_from in H by assumption. eexists. cbn [init_of]. rewrite H. reflexivity.
  - rewrite giai_from in H by exact E. eexists. cbn [init_of]. rewrite H. reflexivity.
  - rewrite ginc_from in H by exact E. eexists. cbn [init_of]. rewrite H. reflexivity.
  - destruct E as (d & t & -> & D & T). rewrite grai_from in H by assumption. eexists. cbn [init_of]. rewrite H. reflexivity.
  - destruct E as (d & -> & D). destruct (snoc_of d 16 (proj2 D)) as (a & k & -> & _). rewrite gsin_from in H by assumption. eexists. cbn [init_of]. rewrite H. reflexivity.
  - destruct E as (d & -> & D). rewrite gsrn_from in H by assumption. eexists. cbn [init_of]. rewrite H. reflexivity.
  - destruct E as (d & -> & D). rewrite gsrnp_from in H by assumption. eexists. cbn [init_of]. rewrite H. reflexivity.
  - destruct E as (d & t & -> & D & T). destruct (lgtin_from d t l D T) as [[_ E]|[_ E]]; rewrite E in H; [|discriminate H]. eexists. cbn [init_of]. rewrite H. reflexivity.
  - destruct E as (d & -> & D). rewrite pgln_from in H by assumption. eexists. cbn [init_of]. rewrite H. reflexivity.
  - destruct E as (d & t & -> & D & T). rewrite sgcn_from in H by assumption. eexists. cbn [init_of]. rewrite H. reflexivity.
  - destruct E as (d & t & -> & D & T). destruct (sgln_from d t l D T) as [[_ E]|[_ E]]; rewrite E in H; [|discriminate H]. eexists. cbn [init_of]. rewrite H. reflexivity.
  - destruct E as (d & t & -> & D & T). destruct (sgtin_from d t l D T) as [[_ E]|[_ E]]; rewrite E in H; [|discriminate H]. eexists. cbn [init_of]. rewrite H. reflexivity.
  - destruct E as (d & -> & D). rewrite sscc_from in H by assumption. eexists. cbn [init_of]. rewrite H. reflexivity.
Qed.

(** element strings with a check digit: opening, number of digits, what the key takes *)
Definition ai_of (c : cls) : str :=
  match c with
  | C_SGTIN | C_LGTIN => lit "(01)" | C_SSCC => lit "(00)" | C_SGLN => lit "(414)" | C_GRAI => lit "(8003)0" | C_GDTI => lit "(253)"
  | C_SGCN => lit "(255)" | C_GSRN => lit "(8018)" | C_GSRNP => lit "(8017)" | C_GSIN => lit "(402)" | C_PGLN => lit "(417)" | _ => []
  end.
Definition nd (c : cls) : nat :=
  match c with C_SGTIN | C_LGTIN => 13 | C_SSCC | C_GSRN | C_GSRNP => 17 | C_GSIN => 16 | _ => 12 end%nat.
Definition key_fn (c : cls) (full tail : str) (g : option gtin_type) : res str :=
  match c with
  | C_SGTIN | C_LGTIN => gtin_view full (match g with None => GTIN14 | Some t => t end)
  | C_GRAI | C_GDTI | C_SGCN => match g with None => Ok (full ++ tail) | Some _ => Raise TypeError end
  | _ => match g with None => Ok full | Some _ => Raise TypeError end
  end.
Definition checked_key (c : cls) : bool := match c with C_SGTIN | C_LGTIN | C_SSCC | C_SGLN | C_GRAI | C_GDTI | C_SGCN | C_GSRN | C_GSRNP | C_GSIN | C_PGLN => true | _ => false end.
Definition has_tail (c : cls) : bool := match c with C_SSCC | C_GSRN | C_GSRNP | C_GSIN | C_PGLN => false | _ => true end.
Lemma keyform c u e : checked_key c = true -> init_of c u = Ok e ->
  exists body full tail, (has_tail c = false -> tail = []) /\ length body = nd c /\ completed body full /\ epc_gs1_element_string e = Ok (ai_of c ++ full ++ tail) /\
    (forall g, epc_gs1_key e g = key_fn c full tail g).
Proof.
  intros K H. destruct c; try discriminate K; cbn [init_of] in H; apply lift_ok in H as (x & H & ->).
  - apply gdti_iff in H as (U & _ & k & C & G). exists (gdti_cp x ++ gdti_doc x), k, (unescape (gdti_serial x)).
    split; [intros; first [reflexivity|discriminate]|]. split; [rewrite app_length; apply U|]. split; [exact C|]. split; [cbn; unfold gdti_gs1_element_string; rewrite G; reflexivity|].
    intros g. cbn [epc_gs1_key key_fn]. unfold gdti_gs1_key. rewrite G. reflexivity.
  - apply grai_iff in H as (U & _ & k & C & G). exists (grai_cp x ++ grai_asset x), k, (unescape (grai_serial x)).
    split; [intros; first [reflexivity|discriminate]|]. split; [rewrite app_length; apply U|]. split; [exact C|]. split; [cbn; unfold grai_gs1_element_string; rewrite G; reflexivity|].
    intros g. cbn [epc_gs1_key key_fn]. unfold grai_gs1_key. rewrite G. reflexivity.
  - apply gsin_iff in H as (U & _ & C). exists (gsin_cp x ++ gsin_ref x), (gsin_gsin x), [].
    split; [intros; first [reflexivity|discriminate]|]. split; [rewrite app_length; apply U|]. split; [exact C|]. split; [rewrite app_nil_r; reflexivity|]. intros g. reflexivity.
  - apply gsrn_iff in H as (U & _ & C). exists (gsrn_cp x ++ gsrn_service x), (gsrn_key x), [].
    split; [intros; first [reflexivity|discriminate]|]. split; [rewrite app_length; apply U|]. split; [exact C|]. split; [rewrite app_nil_r; reflexivity|]. intros g. reflexivity.
  - apply gsrnp_iff in H as (U & _ & C). exists (gsrnp_cp x ++ gsrnp_service x), (gsrnp_key x), [].
    split; [intros; first [reflexivity|discriminate]|]. split; [rewrite app_length; apply U|]. split; [exact C|]. split; [rewrite app_nil_r; reflexivity|]. intros g. reflexivity.
  - apply lgtin_iff in H as (lot & U & _ & _ & i & rest & E & C). exists (i :: lgtin_cp x ++ rest), (lgtin_gtin_ x), (lit "(10)" ++ lgtin_lot x).
    split; [intros; first [reflexivity|discriminate]|]. split; [destruct U as (_ & _ & _ & U & _); rewrite E in U; cbn [length nd] in *; rewrite app_length; lia|]. split; [exact C|]. split; reflexivity.
  - apply pgln_iff in H as (U & _ & C). exists (pgln_cp x ++ pgln_party x), (pgln_pgln x), [].
    split; [intros; first [reflexivity|discriminate]|]. split; [rewrite app_length; apply U|]. split; [exact C|]. split; [rewrite app_nil_r; reflexivity|]. intros g. reflexivity.
  - apply sgcn_iff in H as (U & _ & k & C & G). exists (sgcn_cp x ++ sgcn_coupon x), k, (sgcn_serial x).
    split; [intros; first [reflexivity|discriminate]|]. split; [rewrite app_length; apply U|]. split; [exact C|]. split; [cbn; unfold sgcn_gs1_element_string; rewrite G; reflexivity|].
    intros g. cbn [epc_gs1_key key_fn]. unfold sgcn_gs1_key. rewrite G. reflexivity.
  - apply sgln_iff in H as (U & _ & C). exists (sgln_cp x ++ sgln_loc x), (sgln_gln x), (lit "(254)" ++ replace_uri_escapes (sgln_serial x)).
    split; [intros; first [reflexivity|discriminate]|]. split; [rewrite app_length; apply U|]. split; [exact C|]. split; [reflexivity|]. intros g. reflexivity.
  - apply sgtin_iff in H as (U & _ & i & rest & E & C). exists (i :: sgtin_cp x ++ rest), (sgtin_gtin_ x), (lit "(21)" ++ replace_uri_escapes (sgtin_serial x)).
    split; [intros; first [reflexivity|discriminate]|]. split; [destruct U as (_ & _ & _ & U & _); rewrite E in U; cbn [length nd] in *; rewrite app_length; lia|]. split; [exact C|]. split; reflexivity.
  - apply sscc_iff in H as (U & _ & i & rest & E & C). exists (i :: sscc_cp x ++ rest), (sscc_sscc x), [].
    split; [intros; first [reflexivity|discriminate]|]. split; [destruct U as (_ & _ & _ & U); rewrite E in U; cbn [length nd] in *; rewrite app_length; lia|]. split; [exact C|].
    split; [rewrite app_nil_r; reflexivity|]. intros g. reflexivity.
Qed.
Lemma recheck_form c g g' : checked_key c = true -> rechecked c g g' ->
  exists body k full tail, g = ai_of c ++ (body ++ [k]) ++ tail /\ completed body full /\ g' = ai_of c ++ full ++ tail /\ (length body = nd c \/ (has_tail c = false /\ tail = [])).
Proof.
  intros K H. destruct c; try discriminate K; cbn [rechecked] in H;
    first [destruct H as (b & k & f & t & -> & L & C & ->); eexists b, k, f, _; (split; [cbn [ai_of]; rewrite <- !app_assoc; reflexivity|]); (split; [exact C|]);
           (split; [reflexivity|left; exact L])
          |destruct H as (b & k & f & -> & C & ->); exists b, k, f, []; (split; [rewrite app_nil_r; reflexivity|]); (split; [exact C|]);
           (split; [rewrite app_nil_r; reflexivity|right; split; reflexivity])].
Qed.

Lemma app_len_inv {A} (a b x y : list A) : length a = length x -> a ++ b = x ++ y -> a = x /\ b = y.
Proof.
  revert x. induction a as [|c a IH]; intros [|d x] L H; try discriminate L; [auto|].
  cbn [app] in H. injection H as -> H. destruct (IH x) as [-> ->]; auto.
Qed.
Lemma rechecked_same c u e g g' : checked_key c = true -> init_of c u = Ok e -> epc_gs1_element_string e = Ok g -> rechecked c g g' -> g' = g.
Proof.
  intros K I E R. destruct (keyform c u e K I) as (b & f & t & T & L & C & G & _). rewrite G in E. apply ok_same in E. subst g.
  destruct (recheck_form c _ _ K R) as (b' & k & f' & t' & E & C' & -> & L'). apply app_inv_head in E. f_equal.
  pose proof (completed_length _ _ C) as CL.
  assert (X : f = b' ++ [k] /\ t = t').
  { destruct L' as [L'|[H ->]].
    - apply app_len_inv; [rewrite CL, app_length, L, L'; cbn; lia|exact E].
    - rewrite (T H), !app_nil_r in *. auto. }
  destruct X as [-> ->]. f_equal. destruct C as (d & D & C & M). apply app_inj_tail in C as [-> ->].
  eapply completed_unique; [exact C'|]. exists d. auto.
Qed.
Lemma same_key c u e u' e' g : checked_key c = true -> init_of c u = Ok e -> init_of c u' = Ok e' ->
  epc_gs1_element_string e = Ok g -> epc_gs1_element_string e' = Ok g -> forall k, epc_gs1_key e' k = epc_gs1_key e k.
Proof.
  intros K I I' E E' k. destruct (keyform c u e K I) as (b & f & t & T & L & C & G & F). destruct (keyform c u' e' K I') as (b' & f' & t' & T' & L' & C' & G' & F').
  rewrite G in E. rewrite G' in E'. rewrite <- E in E'. apply ok_same, app_inv_head in E'.
  apply app_len_inv in E' as [-> ->]; [|rewrite (completed_length _ _ C), (completed_length _ _ C'), L, L'; reflexivity].
  rewrite F, F'. reflexivity.
Qed.

Lemma unescape_no58 s : ~ In 58 s -> ~ In 58 (unescape s).
Proof.
  rewrite unescape_unesc. refine (str_ind2 (fun s => ~ In 58 s -> ~ In 58 (unesc uri_table s)) _ s).
  clear s. intros s IH N. destruct s as [|c s]; [exact N|].
  assert (K : ~ In 58 (c :: unesc uri_table s)).
  { intros [->|K]; [apply N; left; reflexivity|]. revert K. apply IH; [cbn [length]; lia|]. intros J. apply N. right. exact J. }
  cbn [unesc]. destruct (c =? c_pct); [|exact K]. destruct s as [|a s]; [exact K|]. destruct s as [|b s]; [exact K|].
  destruct (tfind uri_table a b) as [x|] eqn:T; [|exact K]. apply tfind_chars in T as (_ & _ & X).
  intros [->|J]; [cbn in X; repeat destruct X as [X|X]; try discriminate X; destruct X|].
  revert J. apply IH; [cbn [length]; lia|]. intros J. apply N. right. right. right. exact J.
Qed.
Lemma escape_no58' t : ~ In 58 t -> ~ In 58 (escape t).
Proof. intros N X. unfold escape in X. apply in_flat_map in X as (c & X & Y). revert Y. apply escape_no58. intros ->. exact (N X). Qed.

(** the element string of an object, read with any company prefix length with which it is understood, has the key of the object *)
Theorem element_key c u e cp rest g l e' :
  In c keyed_classes -> init_of c u = Ok e -> epc_gs1_element_string e = Ok g -> from_gs1_element_string_of c g l = Ok e' ->
  u = scheme_prefix c ++ cp ++ lit "." ++ rest -> ~ In 46 cp ->
  (c = C_GIAI \/ c = C_GINC -> ~ In 46 g \/ l = Z.of_nat (length cp)) ->
  forall k, epc_gs1_key e' k = epc_gs1_key e k.
Proof.
  intros I N E F Eu NP D k. pose proof (from_init c g l e' I F) as N'.
  destruct (checked_key c) eqn:K.
  - destruct (element_accepted c g l e' F) as (? & ? & g' & _ & _ & _ & E' & R).
    { intros [-> | ->]; discriminate K. }
    apply (same_key c u e _ e' g K N N' E). rewrite E'. f_equal. exact (rechecked_same c u e g g' K N E R).
  - assert (X : c = C_GIAI \/ c = C_GINC) by (destruct c; try discriminate K; cbn [In keyed_classes] in I; intuition discriminate).
    destruct X as [-> | ->].
    + cbn [init_of] in N, N'. apply lift_ok in N as (x & N & ->). apply lift_ok in N' as (y & N' & ->).
      cbn [epc_gs1_key]. destruct k as [k|]; [reflexivity|]. f_equal. unfold giai_gs1_key.
      cbn [epc_gs1_element_string] in E. apply ok_same in E. unfold giai_gs1_element_string in E.
      apply giai_iff in N as ((ig & U) & _ & G).
      destruct U as (U & (Dc & Lc) & C & NC & L & _).
      assert (NG : ~ In 58 g).
      { rewrite <- E, G. intros X. apply in_app_or in X as [X|X]; [cbn in X; repeat destruct X as [X|X]; try discriminate X; destruct X|].
        apply in_app_or in X as [X|X]; [exact (digits_no_colon _ (proj1 (digits_iff _) Dc) X)|exact (unescape_no58 _ NC X)]. }
      destruct (D (or_introl eq_refl)) as [D'| ->].
      * destruct (element_accepted C_GIAI g l (E_GIAI y) F) as (? & ? & g' & _ & _ & _ & E' & R); [intros _; exact D'|].
        destruct R as (r & Eg & _ & [->|(r' & ->)]); [|destruct NG; rewrite Eg; apply in_or_app; right; left; reflexivity].
        rewrite app_nil_r in Eg. subst g'. cbn [epc_gs1_element_string] in E'. apply ok_same in E'. unfold giai_gs1_element_string in E'.
        rewrite <- E in E'. exact (app_inv_head _ _ _ E').
      * rewrite U in Eu. apply app_inv_head in Eu. apply cut_dot in Eu as [Ecp _]; [|apply nodot_digits, Dc|exact NP]. subst cp.
        cbn [from_gs1_element_string_of] in F. apply lift_ok in F as (y' & F & Ey). assert (y' = y) by congruence. subst y'. clear Ey.
        rewrite giai_from in F; [|rewrite <- E, G; cbn [element_string]; exists (giai_cp x), (unescape (giai_asset x));
          pose proof (unescape_le (giai_asset x)); pose proof (comp_upto _ 24 C ltac:(lia)); auto].
        rewrite <- E, G in F. destruct (cut_key (lit "(8004)") (giai_cp x) (unescape (giai_asset x)) 6 eq_refl) as (Y1 & Y2). rewrite Y1, Y2 in F.
        apply giai_iff in F as ((ig' & U') & _ & G'). destruct U' as (U' & (Dc' & _) & _ & NC' & _ & Ig').
        apply app_inv_head in U'. apply cut_dot in U' as [Ecp U']; [|apply nodot_digits, Dc|apply nodot_digits, Dc'].
        destruct Ig' as [->|(r & -> & _)].
        -- rewrite app_nil_r in U'. rewrite G', G, <- Ecp, <- U'. f_equal. rewrite unescape_spec. apply replace_uri_escapes_escape.
        -- exfalso. apply (escape_no58' (unescape (giai_asset x))); [apply unescape_no58, NC|]. rewrite U'. apply in_or_app. right. left. reflexivity.
    + cbn [init_of] in N, N'. apply lift_ok in N as (x & N & ->). apply lift_ok in N' as (y & N' & ->).
      cbn [epc_gs1_key]. destruct k as [k|]; [reflexivity|]. f_equal. unfold ginc_gs1_key.
      cbn [epc_gs1_element_string] in E. apply ok_same in E. unfold ginc_gs1_element_string in E.
      apply ginc_iff in N as (_ & cp0 & ref & U & G).
      destruct U as (U & (Dc & Lc) & C & L).
      destruct (D (or_intror eq_refl)) as [D'| ->].
      * destruct (element_accepted C_GINC g l (E_GINC y) F) as (? & ? & g' & _ & _ & _ & E' & R); [intros _; exact D'|].
        cbn [rechecked] in R. subst g'. cbn [epc_gs1_element_string] in E'. apply ok_same in E'. unfold ginc_gs1_element_string in E'.
        rewrite <- E in E'. exact (app_inv_head _ _ _ E').
      * rewrite U in Eu. apply app_inv_head in Eu. apply cut_dot in Eu as [Ecp _]; [|apply nodot_digits, Dc|exact NP]. subst cp0.
        cbn [from_gs1_element_string_of] in F. apply lift_ok in F as (y' & F & Ey). assert (y' = y) by congruence. subst y'. clear Ey.
        rewrite ginc_from in F; [|rewrite <- E, G; cbn [element_string]; exists cp, (unescape ref); pose proof (comp_upto _ 24 C ltac:(lia)); auto].
        rewrite <- E, G in F. destruct (cut_key (lit "(401)") cp (unescape ref) 5 eq_refl) as (Y1 & Y2). rewrite Y1, Y2 in F.
        apply ginc_iff in F as (_ & cp' & ref' & U' & G'). destruct U' as (U' & (Dc' & _) & _).
        apply app_inv_head in U'. apply cut_dot in U' as [Ecp U']; [|apply nodot_digits, Dc|apply nodot_digits, Dc'].
        rewrite G', G, <- Ecp, <- U'. f_equal. rewrite unescape_spec. apply replace_uri_escapes_escape.
Qed.
