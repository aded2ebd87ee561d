(** What an accepted element string was, and what the object prints again. *)
From Coq Require Import String Lia Setoid.
From Verif.Model Require Import Py Re Regexes Common Base Parsers.
From Verif.Model Require Import Cpi Gdti Giai Grai Gsrn Gsrnp Itip Lgtin Sgcn Sgln Sgtin Sscc Others.
From Verif.Spec Require Import Spec SpecEscapes SpecGrammar SpecSchemes SpecElements.
From Verif.Proofs Require Import Basics Num ReLemmas Uni Escapes Checksum Verify Verify2 Grammar Ctor CtorA CtorB CtorC CtorAll Keys
  ElementRe Elements ElementBack ElementDispatch.

(** * Slices that cover *)

Lemma norm_le n i : (0 <= n)%Z -> (0 <= norm_idx n i <= n)%Z.
Proof. intros H. unfold norm_idx. destruct (i <? 0)%Z; lia. Qed.
Lemma norm_pos n i : (0 <= i)%Z -> norm_idx n i = Z.max 0 (Z.min i n).
Proof. intros H. unfold norm_idx. destruct (Z.ltb_spec i 0); [lia|reflexivity]. Qed.
Lemma norm_m1 n : (1 <= n)%Z -> norm_idx n (-1) = (n - 1)%Z.
Proof. intros H. unfold norm_idx. destruct (Z.ltb_spec (-1) 0); lia. Qed.
Lemma snoc_of {A} (d : list A) n : length d = S n -> exists a k, d = a ++ [k] /\ length a = n.
Proof.
  intros L. exists (firstn n d). pose proof (firstn_skipn n d) as E.
  assert (S : length (skipn n d) = 1%nat) by (rewrite skipn_length; lia).
  destruct (skipn n d) as [|k [|]]; try discriminate S. exists k. split; [congruence|]. rewrite firstn_length. lia.
Qed.
Lemma first_then (d : str) a b : (a <= b)%nat -> firstn a d ++ firstn (b - a) (skipn a d) = firstn b d.
Proof.
  revert d b. induction a as [|a IH]; intros d b L; [rewrite Nat.sub_0_r; reflexivity|].
  destruct d as [|c d]; [rewrite skipn_nil, !firstn_nil; reflexivity|].
  destruct b as [|b]; [lia|]. cbn. f_equal. apply IH. lia.
Qed.

Lemma slice_plain (d : str) n l cp rest : length d = S n ->
  slz None (Some l) d = cp -> slz (Some l) (Some (-1)%Z) d = rest -> (length cp + length rest = n)%nat ->
  exists k, d = (cp ++ rest) ++ [k] /\ (l = Z.of_nat (length cp) \/ l < 0)%Z.
Proof.
  intros L Ec Er S. destruct (snoc_of d n L) as (a & k & -> & La). exists k.
  unfold slz in Ec, Er. rewrite app_length in Ec, Er. cbn [length] in Ec, Er. rewrite La in Ec, Er.
  pose proof (norm_le (Z.of_nat (n + 1)) l ltac:(lia)) as B. set (i := norm_idx (Z.of_nat (n + 1)) l) in *.
  rewrite norm_m1 in Er by lia. cbn [Z.to_nat] in Ec. rewrite Z.sub_0_r in Ec. change (skipn 0 (a ++ [k])) with (a ++ [k]) in Ec.
  assert (Lcp : length cp = Z.to_nat i) by (rewrite <- Ec, firstn_length, app_length; cbn [length]; lia).
  assert (Q : (Z.to_nat i <= n)%nat) by lia.
  split.
  - rewrite <- Ec, <- Er. replace (Z.to_nat (Z.of_nat (n + 1) - 1 - i)) with (n - Z.to_nat i)%nat by lia.
    rewrite first_then by exact Q. rewrite firstn_exact by exact La. reflexivity.
  - destruct (Z_lt_le_dec l 0) as [|P]; [right; assumption|left]. rewrite Lcp. unfold i. rewrite norm_pos by exact P.
    unfold i in Q. rewrite norm_pos in Q by exact P. lia.
Qed.
Lemma slice_gtin (d : str) n l cp rest : length d = S (S n) ->
  slz (Some 1%Z) (Some (1 + l)%Z) d = cp -> slz (Some (1 + l)%Z) (Some (-1)%Z) d = rest -> cp <> [] ->
  (length cp + length rest = n)%nat ->
  exists k, d = (hd 0 d :: cp ++ rest) ++ [k] /\ (l = Z.of_nat (length cp) \/ l < 0)%Z.
Proof.
  intros L Ec Er N S. destruct d as [|h d]; [discriminate L|]. cbn [hd]. assert (L' : length d = Datatypes.S n) by (cbn [length] in L; lia).
  destruct (snoc_of d n L') as (a & k & -> & La). exists k.
  unfold slz in Ec, Er. cbn [length] in Ec, Er. rewrite app_length in Ec, Er. cbn [length] in Ec, Er. rewrite La in Ec, Er.
  pose proof (norm_le (Z.of_nat (Datatypes.S (n + 1))) (1 + l) ltac:(lia)) as B.
  set (i := norm_idx (Z.of_nat (Datatypes.S (n + 1))) (1 + l)) in *.
  rewrite norm_m1 in Er by lia. rewrite (norm_pos _ 1) in Ec by lia.
  replace (Z.to_nat (Z.max 0 (Z.min 1 (Z.of_nat (Datatypes.S (n + 1)))))) with 1%nat in Ec by lia.
  replace (Z.max 0 (Z.min 1 (Z.of_nat (Datatypes.S (n + 1))))) with 1%Z in Ec by lia. cbn [skipn] in Ec.
  assert (I1 : (1 <= i)%Z).
  { destruct (Z_lt_le_dec i 1) as [H|H]; [|exact H]. exfalso. apply N. rewrite <- Ec. replace (Z.to_nat (i - 1)) with 0%nat by lia. reflexivity. }
  assert (Lcp : length cp = Z.to_nat (i - 1)) by (rewrite <- Ec, firstn_length, app_length; cbn [length]; lia).
  assert (Q : (Z.to_nat (i - 1) <= n)%nat) by lia.
  split.
  - cbn [app]. f_equal. rewrite <- Ec, <- Er. replace (Z.to_nat i) with (Datatypes.S (Z.to_nat (i - 1))) by lia. cbn [skipn].
    replace (Z.to_nat (Z.of_nat (Datatypes.S (n + 1)) - 1 - i)) with (n - Z.to_nat (i - 1))%nat by lia.
    rewrite first_then by exact Q. rewrite firstn_exact by exact La. reflexivity.
  - destruct (Z_lt_le_dec l 0) as [|P]; [right; assumption|left]. rewrite Lcp. unfold i. rewrite norm_pos by lia.
    unfold i in Q. rewrite norm_pos in Q by lia. lia.
Qed.
Lemma slice_whole (s : str) l cp rest : slz None (Some l) s = cp -> slz (Some l) None s = rest -> rest <> [] ->
  s = cp ++ rest /\ (l = Z.of_nat (length cp) \/ l < 0)%Z.
Proof.
  intros Ec Er N. unfold slz in Ec, Er.
  pose proof (norm_le (Z.of_nat (length s)) l ltac:(lia)) as B. set (i := norm_idx (Z.of_nat (length s)) l) in *.
  cbn [Z.to_nat] in Ec. rewrite Z.sub_0_r in Ec. change (skipn 0 s) with s in Ec.
  assert (Er' : skipn (Z.to_nat i) s = rest).
  { rewrite <- Er. symmetry. apply firstn_all2. rewrite skipn_length. lia. }
  assert (Lcp : length cp = Z.to_nat i) by (rewrite <- Ec, firstn_length; lia).
  split; [rewrite <- Ec, <- Er'; symmetry; apply firstn_skipn|].
  destruct (Z_lt_le_dec l 0) as [|P]; [right; assumption|left]. rewrite Lcp. unfold i in *. rewrite norm_pos in * by exact P.
  assert (l < Z.of_nat (length s))%Z; [|lia].
  destruct (Z_lt_le_dec l (Z.of_nat (length s))) as [|Q]; [assumption|]. exfalso. apply N. rewrite <- Er'. apply skipn_all2. lia.
Qed.
Lemma slice_key (p s : str) l cp rest (n := Z.of_nat (length p)) :
  slz (Some n) (Some (n + l)%Z) (p ++ s) = cp -> slz (Some (n + l)%Z) None (p ++ s) = rest -> cp <> [] -> rest <> [] ->
  s = cp ++ rest /\ (l = Z.of_nat (length cp) \/ l < 0)%Z.
Proof.
  intros Ec Er N N'. unfold slz in Ec, Er. rewrite app_length in Ec, Er.
  pose proof (norm_le (Z.of_nat (length p + length s)) (n + l) ltac:(lia)) as B.
  set (i := norm_idx (Z.of_nat (length p + length s)) (n + l)) in *.
  assert (Z0 : norm_idx (Z.of_nat (length p + length s)) n = n) by (rewrite norm_pos by (unfold n; lia); unfold n; lia).
  rewrite Z0 in Ec. unfold n in Ec. rewrite Nat2Z.id in Ec. rewrite skipn_exact in Ec by reflexivity.
  assert (Ni : (n < i)%Z).
  { destruct (Z_lt_le_dec n i) as [H|H]; [exact H|]. exfalso. apply N. rewrite <- Ec.
    replace (Z.to_nat (i - Z.of_nat (length p))) with 0%nat by (unfold n in H; lia). reflexivity. }
  assert (Er' : skipn (Z.to_nat (i - n)) s = rest).
  { rewrite <- Er. symmetry.
    replace (Z.to_nat i) with (length p + Z.to_nat (i - n))%nat by (unfold n in *; lia).
    rewrite skipn_app, skipn_all2 by lia. cbn [app]. replace (length p + Z.to_nat (i - n) - length p)%nat with (Z.to_nat (i - n)) by lia.
    apply firstn_all2. rewrite skipn_length. lia. }
  change (Z.of_nat (length p)) with n in Ec.
  assert (Lcp : length cp = Z.to_nat (i - n)) by (rewrite <- Ec, firstn_length; unfold n in *; lia).
  split; [rewrite <- Ec, <- Er'; symmetry; apply firstn_skipn|].
  destruct (Z_lt_le_dec l 0) as [|P]; [right; assumption|left]. rewrite Lcp. unfold i in *. rewrite norm_pos in * by (unfold n; lia).
  assert (n + l < Z.of_nat (length p + length s))%Z; [|lia].
  destruct (Z_lt_le_dec (n + l) (Z.of_nat (length p + length s))) as [|Q]; [assumption|]. exfalso. apply N'. rewrite <- Er'.
  apply skipn_all2. unfold n in *. lia.
Qed.

(** * The classes *)

Definition accepted (c : cls) (g : str) (l : Z) (u : str) (g' : res str) : Prop :=
  exists cp rest, u = scheme_prefix c ++ cp ++ lit "." ++ rest /\ digits cp /\
    (l = Z.of_nat (length cp) \/ l < 0)%Z /\ exists s, g' = Ok s /\ rechecked c g s.

Lemma cons_inv {A} (a b : A) l m : [a] ++ l = b :: m -> a = b /\ l = m. Proof. cbn. intros H. injection H as -> ->. auto. Qed.
Lemma slz_digits lo hi d : digits d -> digits (slz lo hi d).
Proof. intros D c I. apply D. exact (slz_in _ _ _ _ I). Qed.
Lemma digits_hd d n : digits d -> length d = S n -> digits [hd 0 d].
Proof. intros D L. destruct d; [discriminate L|]. apply digits_cons in D. tauto. Qed.

Ltac cut2 H D := apply app_inv_head in H; apply cut_dot in H as [?Hc H]; [|apply nodot_digits; D|apply nodot_digits; D].

Lemma sgtin_accept g l x : sgtin_from_gs1_element_string g l = Ok x ->
  accepted C_SGTIN g l (sgtin_epc_uri x) (Ok (sgtin_gs1_element_string x)).
Proof.
  intros H. assert (E : element_string C_SGTIN g).
  { apply element_regex. unfold sgtin_from_gs1_element_string in H. cbn [gs1_element_string_regex].
    destruct (fullmatch SGTIN_GS1_ELEMENT_STRING g); [reflexivity|discriminate H]. }
  destruct E as (d & t & -> & D & T).
  destruct (sgtin_from d t l D T) as [[_ E]|[_ E]]; rewrite E in H; [|discriminate H]. clear E.
  apply sgtin_iff in H as (U & Eu & i & rest & Ei & K). destruct U as (U & (Dc & Lc) & Di & L & C & Ls).
  unfold gtin_body_uri in U. destruct D as [Dd Ld].
  apply app_inv_head in U. apply cut_dot in U as [Hc U]; [|apply nodot_digits, slz_digits, Dd|apply nodot_digits, Dc].
  rewrite (app_assoc [hd 0 d]) in U.
  apply cut_dot in U as [Hi Hs]; [|apply nodot_digits, digits_app; [apply (digits_hd _ _ Dd Ld)|apply slz_digits, Dd]|apply nodot_digits, Di].
  rewrite Ei in Hi. apply cons_inv in Hi as [Hh Hr].
  destruct (slice_gtin d 12 l _ _ Ld Hc Hr) as (k & Ed & Hl).
  { intros X. rewrite X in Lc. cbn in Lc. lia. }
  { rewrite Ei in L. cbn [length] in L. lia. }
  exists (sgtin_cp x), (sgtin_item x ++ lit "." ++ sgtin_serial x). split; [|split; [exact Dc|split; [exact Hl|]]].
  - rewrite Eu. unfold gtin_body_uri. rewrite Hc, Hr, Hs, Ei, Hh. reflexivity.
  - eexists. split; [reflexivity|]. exists (i :: sgtin_cp x ++ rest), k, (sgtin_gtin_ x), t.
    split; [rewrite Ed, Hh, <- !app_assoc; cbn [app]; rewrite <- !app_assoc; reflexivity|].
    split; [rewrite Ei in L; cbn [length] in *; rewrite app_length; lia|]. split; [exact K|].
    unfold sgtin_gs1_element_string. rewrite <- Hs, replace_uri_escapes_escape. reflexivity.
Qed.
Lemma lgtin_accept g l x : lgtin_from_gs1_element_string g l = Ok x ->
  accepted C_LGTIN g l (lgtin_epc_uri x) (Ok (lgtin_gs1_element_string x)).
Proof.
  intros H. assert (E : element_string C_LGTIN g).
  { apply element_regex. unfold lgtin_from_gs1_element_string in H. cbn [gs1_element_string_regex].
    destruct (fullmatch LGTIN_GS1_ELEMENT_STRING g); [reflexivity|discriminate H]. }
  destruct E as (d & t & -> & D & T).
  destruct (lgtin_from d t l D T) as [[_ E]|[_ E]]; rewrite E in H; [|discriminate H]. clear E.
  apply lgtin_iff in H as (lot & U & Eu & El & i & rest & Ei & K). destruct U as (U & (Dc & Lc) & Di & L & C & Ls).
  unfold gtin_body_uri in U. destruct D as [Dd Ld].
  apply app_inv_head in U. apply cut_dot in U as [Hc U]; [|apply nodot_digits, slz_digits, Dd|apply nodot_digits, Dc].
  rewrite (app_assoc [hd 0 d]) in U.
  apply cut_dot in U as [Hi Hs]; [|apply nodot_digits, digits_app; [apply (digits_hd _ _ Dd Ld)|apply slz_digits, Dd]|apply nodot_digits, Di].
  rewrite Ei in Hi. apply cons_inv in Hi as [Hh Hr].
  destruct (slice_gtin d 12 l _ _ Ld Hc Hr) as (k & Ed & Hl).
  { intros X. rewrite X in Lc. cbn in Lc. lia. }
  { rewrite Ei in L. cbn [length] in L. lia. }
  exists (lgtin_cp x), (lgtin_item x ++ lit "." ++ lot). split; [|split; [exact Dc|split; [exact Hl|]]].
  - rewrite Eu. unfold gtin_body_uri. rewrite Hc, Hr, Hs, Ei, Hh. reflexivity.
  - eexists. split; [reflexivity|]. exists (i :: lgtin_cp x ++ rest), k, (lgtin_gtin_ x), t.
    split; [rewrite Ed, Hh, <- !app_assoc; cbn [app]; rewrite <- !app_assoc; reflexivity|].
    split; [rewrite Ei in L; cbn [length] in *; rewrite app_length; lia|]. split; [exact K|].
    unfold lgtin_gs1_element_string. rewrite El, <- Hs, unescape_escape. reflexivity.
Qed.
Lemma upui_accept g l x : upui_from_gs1_element_string g l = Ok x ->
  accepted C_UPUI g l (upui_epc_uri x) (upui_gs1_element_string x).
Proof.
  intros H. assert (E : element_string C_UPUI g).
  { apply element_regex. unfold upui_from_gs1_element_string in H. cbn [gs1_element_string_regex].
    destruct (fullmatch UPUI_GS1_ELEMENT_STRING g); [reflexivity|discriminate H]. }
  destruct E as (d & t & -> & D & T).
  rewrite (upui_from d t l D T) in H.
  apply upui_iff in H as (lot & U & Eu & El). destruct U as (U & Dc & Nc & Di & L & C & Ls).
  unfold gtin_body_uri in U. destruct D as [Dd Ld].
  apply app_inv_head in U. apply cut_dot in U as [Hc U]; [|apply nodot_digits, slz_digits, Dd|apply nodot_digits, Dc].
  rewrite (app_assoc [hd 0 d]) in U.
  apply cut_dot in U as [Hi Hs]; [|apply nodot_digits, digits_app; [apply (digits_hd _ _ Dd Ld)|apply slz_digits, Dd]|apply nodot_digits, Di].
  destruct (upui_item x) as [|i rest] eqn:Ei; [discriminate Hi|]. apply cons_inv in Hi as [Hh Hr].
  destruct (slice_gtin d 12 l _ _ Ld Hc Hr) as (k & Ed & Hl).
  { exact Nc. }
  { cbn [length] in L. lia. }
  exists (upui_cp x), ((i :: rest) ++ lit "." ++ lot). split; [|split; [exact Dc|split; [exact Hl|]]].
  - rewrite Eu. unfold gtin_body_uri. rewrite Hc, Hr, Hs, Hh. reflexivity.
  - destruct (completed_exists (i :: upui_cp x ++ rest)) as (gt & K).
    assert (V : upui_uri (upui_epc_uri x) (upui_cp x) (i :: rest) lot).
    { split; [|split; [exact Dc|split; [exact Nc|split; [exact Di|split; [exact L|split; [exact C|exact Ls]]]]]].
      rewrite Eu. unfold gtin_body_uri. rewrite Hc, Hr, Hs, Hh. reflexivity. }
    destruct (upui_element _ _ _ _ _ _ V K) as (x' & I' & G).
    assert (X : x' = x). { pose proof I' as I2. apply upui_iff in I2 as (lot' & V' & Eu' & El').
      destruct x as [xu xc xi xt], x' as [yu yc yi yt]. cbn [upui_epc_uri upui_cp upui_item upui_tpx] in *.
      destruct V as (V & _). destruct V' as (V' & Dc' & _ & Di' & _). rewrite V in V'. apply app_inv_head in V'.
      apply cut_dot in V' as [<- V']; [|apply nodot_digits, Dc|apply nodot_digits, Dc'].
      apply cut_dot in V' as [<- <-]; [|apply nodot_digits, Di|apply nodot_digits, Di'].
      congruence. }
    subst x'. rewrite G. eexists. split; [reflexivity|]. exists (i :: upui_cp x ++ rest), k, gt, t.
    split; [rewrite Ed, Hh, <- !app_assoc; cbn [app]; rewrite <- !app_assoc; reflexivity|].
    split; [cbn [length] in *; rewrite app_length; lia|]. split; [exact K|]. rewrite <- Hs, unescape_escape. reflexivity.
Qed.
Lemma sgln_accept g l x : sgln_from_gs1_element_string g l = Ok x ->
  accepted C_SGLN g l (sgln_epc_uri x) (Ok (sgln_gs1_element_string x)).
Proof.
  intros H. assert (E : element_string C_SGLN g).
  { apply element_regex. unfold sgln_from_gs1_element_string in H. cbn [gs1_element_string_regex].
    destruct (fullmatch SGLN_GS1_ELEMENT_STRING g); [reflexivity|discriminate H]. }
  destruct E as (d & t & -> & D & T).
  destruct (sgln_from d t l D T) as [[_ E]|[_ E]]; rewrite E in H; [|discriminate H]. clear E.
  apply sgln_iff in H as (U & Eu & K).
  destruct U as (U & (Dc & Lc) & Di & L & C & Ls).
  unfold plain_body_uri in U. destruct D as [Dd Ld].
  apply app_inv_head in U. apply cut_dot in U as [Hc U]; [|apply nodot_digits, slz_digits, Dd|apply nodot_digits, Dc].
  apply cut_dot in U as [Hr Hs]; [|apply nodot_digits, slz_digits, Dd|apply nodot_digits, Di].
  destruct (slice_plain d 12 l _ _ Ld Hc Hr) as (k & Ed & Hl).
  { exact L. }
  exists (sgln_cp x), (sgln_loc x ++ lit "." ++ sgln_serial x). split; [|split; [exact Dc|split; [exact Hl|]]].
  - rewrite Eu. unfold plain_body_uri. rewrite Hc, Hr, Hs. reflexivity.
  - eexists. split; [reflexivity|]. exists (sgln_cp x ++ sgln_loc x), k, (sgln_gln x), t.
    split; [rewrite Ed, <- !app_assoc; reflexivity|]. split; [rewrite app_length; lia|]. split; [exact K|].
    unfold sgln_gs1_element_string. rewrite <- Hs, replace_uri_escapes_escape. reflexivity.
Qed.
Lemma grai_accept g l x : grai_from_gs1_element_string g l = Ok x ->
  accepted C_GRAI g l (grai_epc_uri x) (Ok (grai_gs1_element_string x)).
Proof.
  intros H. assert (E : element_string C_GRAI g).
  { apply element_regex. unfold grai_from_gs1_element_string in H. cbn [gs1_element_string_regex].
    destruct (fullmatch GRAI_GS1_ELEMENT_STRING g); [reflexivity|discriminate H]. }
  destruct E as (d & t & -> & D & T).
  rewrite (grai_from d t l D T) in H.
  apply grai_iff in H as (U & Eu & k0 & K & Ek).
  destruct U as (U & (Dc & Lc) & Di & L & C & Ls).
  unfold plain_body_uri in U. destruct D as [Dd Ld].
  apply app_inv_head in U. apply cut_dot in U as [Hc U]; [|apply nodot_digits, slz_digits, Dd|apply nodot_digits, Dc].
  apply cut_dot in U as [Hr Hs]; [|apply nodot_digits, slz_digits, Dd|apply nodot_digits, Di].
  destruct (slice_plain d 12 l _ _ Ld Hc Hr) as (k & Ed & Hl).
  { exact L. }
  exists (grai_cp x), (grai_asset x ++ lit "." ++ grai_serial x). split; [|split; [exact Dc|split; [exact Hl|]]].
  - rewrite Eu. unfold plain_body_uri. rewrite Hc, Hr, Hs. reflexivity.
  - eexists. split; [reflexivity|]. exists (grai_cp x ++ grai_asset x), k, k0, t.
    split; [rewrite Ed, <- !app_assoc; reflexivity|]. split; [rewrite app_length; lia|]. split; [exact K|].
    unfold grai_gs1_element_string. rewrite Ek, <- Hs, unescape_escape. reflexivity.
Qed.
Lemma gdti_accept g l x : gdti_from_gs1_element_string g l = Ok x ->
  accepted C_GDTI g l (gdti_epc_uri x) (Ok (gdti_gs1_element_string x)).
Proof.
  intros H. assert (E : element_string C_GDTI g).
  { apply element_regex. unfold gdti_from_gs1_element_string in H. cbn [gs1_element_string_regex].
    destruct (fullmatch GDTI_GS1_ELEMENT_STRING g); [reflexivity|discriminate H]. }
  destruct E as (d & t & -> & D & T).
  rewrite (gdti_from d t l D T) in H.
  apply gdti_iff in H as (U & Eu & k0 & K & Ek).
  destruct U as (U & (Dc & Lc) & Di & L & C & Ls).
  unfold plain_body_uri in U. destruct D as [Dd Ld].
  apply app_inv_head in U. apply cut_dot in U as [Hc U]; [|apply nodot_digits, slz_digits, Dd|apply nodot_digits, Dc].
  apply cut_dot in U as [Hr Hs]; [|apply nodot_digits, slz_digits, Dd|apply nodot_digits, Di].
  destruct (slice_plain d 12 l _ _ Ld Hc Hr) as (k & Ed & Hl).
  { exact L. }
  exists (gdti_cp x), (gdti_doc x ++ lit "." ++ gdti_serial x). split; [|split; [exact Dc|split; [exact Hl|]]].
  - rewrite Eu. unfold plain_body_uri. rewrite Hc, Hr, Hs. reflexivity.
  - eexists. split; [reflexivity|]. exists (gdti_cp x ++ gdti_doc x), k, k0, t.
    split; [rewrite Ed, <- !app_assoc; reflexivity|]. split; [rewrite app_length; lia|]. split; [exact K|].
    unfold gdti_gs1_element_string. rewrite Ek, <- Hs, unescape_escape. reflexivity.
Qed.
Lemma sgcn_accept g l x : sgcn_from_gs1_element_string g l = Ok x ->
  accepted C_SGCN g l (sgcn_epc_uri x) (Ok (sgcn_gs1_element_string x)).
Proof.
  intros H. assert (E : element_string C_SGCN g).
  { apply element_regex. unfold sgcn_from_gs1_element_string in H. cbn [gs1_element_string_regex].
    destruct (fullmatch SGCN_GS1_ELEMENT_STRING g); [reflexivity|discriminate H]. }
  destruct E as (d & t & -> & D & T).
  rewrite (sgcn_from d t l D T) in H.
  pose proof H as H0. apply sgcn_iff in H as (U & Eu & K).
  destruct K as (k0 & K & Ek). destruct U as (U & (Dc & Lc) & Di & L & C & Ls).
  unfold plain_body_uri in U. destruct D as [Dd Ld].
  apply app_inv_head in U. apply cut_dot in U as [Hc U]; [|apply nodot_digits, slz_digits, Dd|apply nodot_digits, Dc].
  apply cut_dot in U as [Hr Hs]; [|apply nodot_digits, slz_digits, Dd|apply nodot_digits, Di].
  destruct (slice_plain d 12 l _ _ Ld Hc Hr) as (k & Ed & Hl).
  { exact L. }
  exists (sgcn_cp x), (sgcn_coupon x ++ lit "." ++ sgcn_serial x). split; [|split; [exact Dc|split; [exact Hl|]]].
  - rewrite Eu. unfold plain_body_uri. rewrite Hc, Hr, Hs. reflexivity.
  - eexists. split; [reflexivity|]. exists (sgcn_cp x ++ sgcn_coupon x), k, k0, t.
    split; [rewrite Ed, <- !app_assoc; reflexivity|]. split; [rewrite app_length; lia|]. split; [exact K|].
    unfold sgcn_gs1_element_string. rewrite Ek, <- Hs.
    assert (A : escape t = t).
    { apply escape_digits, digits_ai82_ascii; [|apply T]. intros c J. apply C. rewrite <- Hs. unfold escape. apply in_flat_map. exists c. split; [exact J|].
      destruct (reserved_dec c) as [R|R]; [|rewrite escape_char_other by exact R; left; reflexivity].
      exfalso. assert (P : In 37 (sgcn_serial x)).
      { rewrite <- Hs. unfold escape. apply in_flat_map. exists c. split; [exact J|]. cbn in R. repeat destruct R as [<-|R]; try (left; reflexivity). destruct R. }
      specialize (C _ P). apply C. reflexivity. }
    rewrite A. reflexivity.
Qed.
Lemma sscc_accept g l x : sscc_from_gs1_element_string g l = Ok x ->
  accepted C_SSCC g l (sscc_epc_uri x) (Ok (sscc_gs1_element_string x)).
Proof.
  intros H. assert (E : element_string C_SSCC g).
  { apply element_regex. unfold sscc_from_gs1_element_string in H. cbn [gs1_element_string_regex].
    destruct (fullmatch SSCC_GS1_ELEMENT_STRING g); [reflexivity|discriminate H]. }
  destruct E as (d & -> & D). rewrite (sscc_from d l D) in H.
  apply sscc_iff in H as (U & Eu & i & rest & Ei & K). destruct U as (U & (Dc & Lc) & Di & L).
  destruct D as [Dd Ld].
  apply app_inv_head in U. apply cut_dot in U as [Hc Hi]; [|apply nodot_digits, slz_digits, Dd|apply nodot_digits, Dc].
  rewrite Ei in Hi. apply cons_inv in Hi as [Hh Hr].
  destruct (slice_gtin d 16 l _ _ Ld Hc Hr) as (k & Ed & Hl).
  { intros X. rewrite X in Lc. cbn in Lc. lia. }
  { rewrite Ei in L. cbn [length] in L. lia. }
  exists (sscc_cp x), (sscc_serial x). split; [|split; [exact Dc|split; [exact Hl|]]].
  - rewrite Eu, Hc, Hr, Ei, Hh. reflexivity.
  - eexists. split; [reflexivity|]. exists (i :: sscc_cp x ++ rest), k, (sscc_sscc x).
    split; [rewrite Ed, Hh; reflexivity|]. split; [exact K|]. reflexivity.
Qed.
Lemma gsrn_accept g l x : gsrn_from_gs1_element_string g l = Ok x ->
  accepted C_GSRN g l (gsrn_epc_uri x) (Ok (gsrn_gs1_element_string x)).
Proof.
  intros H. assert (E : element_string C_GSRN g).
  { apply element_regex. unfold gsrn_from_gs1_element_string in H. cbn [gs1_element_string_regex].
    destruct (fullmatch GSRN_GS1_ELEMENT_STRING g); [reflexivity|discriminate H]. }
  destruct E as (d & -> & D). rewrite (gsrn_from d l D) in H.
  apply gsrn_iff in H as (U & Eu & K). destruct U as (U & (Dc & Lc) & Di & L).
  destruct D as [Dd Ld].
  apply app_inv_head in U. apply cut_dot in U as [Hc Hr]; [|apply nodot_digits, slz_digits, Dd|apply nodot_digits, Dc].
  destruct (slice_plain d 17 l _ _ Ld Hc Hr L) as (k & Ed & Hl).
  exists (gsrn_cp x), (gsrn_service x). split; [|split; [exact Dc|split; [exact Hl|]]].
  - rewrite Eu, Hc, Hr. reflexivity.
  - eexists. split; [reflexivity|]. exists (gsrn_cp x ++ gsrn_service x), k, (gsrn_key x).
    split; [rewrite Ed; reflexivity|]. split; [exact K|]. reflexivity.
Qed.
Lemma gsrnp_accept g l x : gsrnp_from_gs1_element_string g l = Ok x ->
  accepted C_GSRNP g l (gsrnp_epc_uri x) (Ok (gsrnp_gs1_element_string x)).
Proof.
  intros H. assert (E : element_string C_GSRNP g).
  { apply element_regex. unfold gsrnp_from_gs1_element_string in H. cbn [gs1_element_string_regex].
    destruct (fullmatch GSRNP_GS1_ELEMENT_STRING g); [reflexivity|discriminate H]. }
  destruct E as (d & -> & D). rewrite (gsrnp_from d l D) in H.
  apply gsrnp_iff in H as (U & Eu & K). destruct U as (U & (Dc & Lc) & Di & L).
  destruct D as [Dd Ld].
  apply app_inv_head in U. apply cut_dot in U as [Hc Hr]; [|apply nodot_digits, slz_digits, Dd|apply nodot_digits, Dc].
  destruct (slice_plain d 17 l _ _ Ld Hc Hr L) as (k & Ed & Hl).
  exists (gsrnp_cp x), (gsrnp_service x). split; [|split; [exact Dc|split; [exact Hl|]]].
  - rewrite Eu, Hc, Hr. reflexivity.
  - eexists. split; [reflexivity|]. exists (gsrnp_cp x ++ gsrnp_service x), k, (gsrnp_key x).
    split; [rewrite Ed; reflexivity|]. split; [exact K|]. reflexivity.
Qed.
Lemma pgln_accept g l x : pgln_from_gs1_element_string g l = Ok x ->
  accepted C_PGLN g l (pgln_epc_uri x) (Ok (pgln_gs1_element_string x)).
Proof.
  intros H. assert (E : element_string C_PGLN g).
  { apply element_regex. unfold pgln_from_gs1_element_string in H. cbn [gs1_element_string_regex].
    destruct (fullmatch PGLN_GS1_ELEMENT_STRING g); [reflexivity|discriminate H]. }
  destruct E as (d & -> & D). rewrite (pgln_from d l D) in H.
  apply pgln_iff in H as (U & Eu & K). destruct U as (U & (Dc & Lc) & Di & L).
  destruct D as [Dd Ld].
  apply app_inv_head in U. apply cut_dot in U as [Hc Hr]; [|apply nodot_digits, slz_digits, Dd|apply nodot_digits, Dc].
  destruct (slice_plain d 12 l _ _ Ld Hc Hr L) as (k & Ed & Hl).
  exists (pgln_cp x), (pgln_party x). split; [|split; [exact Dc|split; [exact Hl|]]].
  - rewrite Eu, Hc, Hr. reflexivity.
  - eexists. split; [reflexivity|]. exists (pgln_cp x ++ pgln_party x), k, (pgln_pgln x).
    split; [rewrite Ed; reflexivity|]. split; [exact K|]. reflexivity.
Qed.
Lemma gsin_accept g l x : gsin_from_gs1_element_string g l = Ok x ->
  accepted C_GSIN g l (gsin_epc_uri x) (Ok (gsin_gs1_element_string x)).
Proof.
  intros H. assert (E : element_string C_GSIN g).
  { apply element_regex. unfold gsin_from_gs1_element_string in H. cbn [gs1_element_string_regex].
    destruct (fullmatch GSIN_GS1_ELEMENT_STRING g); [reflexivity|discriminate H]. }
  destruct E as (d0 & -> & D). destruct (snoc_of d0 16 (proj2 D)) as (d & k & -> & Ld). rewrite (gsin_from d k l D) in H.
  apply gsin_iff in H as (U & Eu & K). destruct U as (U & (Dc & Lc) & Di & L).
  assert (Dd : digits d). { intros c J. apply D. apply in_or_app. auto. }
  apply app_inv_head in U. apply cut_dot in U as [Hc Hr]; [|apply nodot_digits, slz_digits, Dd|apply nodot_digits, Dc].
  destruct (slice_whole d l _ _ Hc Hr) as (Ed & Hl).
  { intros X. rewrite X in L. cbn in L. lia. }
  exists (gsin_cp x), (gsin_ref x). split; [|split; [exact Dc|split; [exact Hl|]]].
  - rewrite Eu, Hc, Hr. reflexivity.
  - eexists. split; [reflexivity|]. exists (gsin_cp x ++ gsin_ref x), k, (gsin_gsin x).
    split; [rewrite Ed; reflexivity|]. split; [exact K|]. reflexivity.
Qed.

Lemma slice_mid (d : str) n (j : nat) l cp rest : length d = S (n + j) -> (1 <= j)%nat ->
  slz (Some 1%Z) (Some (1 + l)%Z) d = cp -> slz (Some (1 + l)%Z) (Some (- Z.of_nat j)%Z) d = rest -> cp <> [] ->
  (length cp + length rest = n)%nat ->
  firstn (S n) d = hd 0 d :: cp ++ rest /\ (l = Z.of_nat (length cp) \/ l < 0)%Z.
Proof.
  intros L J Ec Er N Sm. destruct d as [|h d]; [discriminate L|]. cbn [hd]. assert (L' : length d = (n + j)%nat) by (cbn [length] in L; lia).
  unfold slz in Ec, Er. cbn [length] in Ec, Er. rewrite L' in Ec, Er.
  pose proof (norm_le (Z.of_nat (S (n + j))) (1 + l) ltac:(lia)) as B.
  set (i := norm_idx (Z.of_nat (S (n + j))) (1 + l)) in *.
  assert (M : norm_idx (Z.of_nat (S (n + j))) (- Z.of_nat j) = Z.of_nat (S n)).
  { unfold norm_idx. destruct (Z.ltb_spec (- Z.of_nat j) 0); lia. }
  rewrite M in Er. rewrite (norm_pos _ 1) in Ec by lia.
  replace (Z.to_nat (Z.max 0 (Z.min 1 (Z.of_nat (S (n + j)))))) with 1%nat in Ec by lia.
  replace (Z.max 0 (Z.min 1 (Z.of_nat (S (n + j))))) with 1%Z in Ec by lia. cbn [skipn] in Ec.
  assert (I1 : (1 <= i)%Z).
  { destruct (Z_lt_le_dec i 1) as [H|H]; [|exact H]. exfalso. apply N. rewrite <- Ec. replace (Z.to_nat (i - 1)) with 0%nat by lia. reflexivity. }
  assert (Lcp : length cp = Z.to_nat (i - 1)) by (rewrite <- Ec, firstn_length, L'; lia).
  assert (Q : (Z.to_nat (i - 1) <= n)%nat) by lia.
  split.
  - cbn [firstn]. f_equal. rewrite <- Ec, <- Er. replace (Z.to_nat i) with (S (Z.to_nat (i - 1))) by lia. cbn [skipn].
    replace (Z.to_nat (Z.of_nat (S n) - i)) with (n - Z.to_nat (i - 1))%nat by lia.
    rewrite first_then by exact Q. reflexivity.
  - destruct (Z_lt_le_dec l 0) as [|P]; [right; assumption|left]. rewrite Lcp. unfold i. rewrite norm_pos by lia.
    unfold i in Q. rewrite norm_pos in Q by lia. lia.
Qed.

Lemma escape_no58 c : c <> 58 -> ~ In 58 (escape_char c).
Proof.
  intros N. destruct (reserved_dec c) as [R|R].
  - intros Y. cbn in R. repeat destruct R as [<-|R]; try (cbn in Y; repeat destruct Y as [Y|Y]; try discriminate Y; exact Y). destruct R.
  - rewrite escape_char_other by exact R. intros [X|[]]. congruence.
Qed.
Lemma escape_colon t a b : ~ In 58 a -> escape t = a ++ 58 :: b -> exists t1 t2, t = t1 ++ 58 :: t2 /\ a = escape t1 /\ b = escape t2.
Proof.
  revert a. induction t as [|c t IH]; intros a A E; [destruct a; discriminate E|].
  cbn [escape flat_map] in E. fold (escape t) in E. destruct (N.eq_dec c 58) as [->|N].
  - change (escape_char 58) with [58] in E. cbn [app] in E. destruct a as [|x a].
    + cbn in E. injection E as E. exists [], t. auto.
    + cbn in E. injection E as <- _. exfalso. apply A. left. reflexivity.
  - pose proof (escape_no58 c N) as X.
    assert (Y : exists a', a = escape_char c ++ a' /\ escape t = a' ++ 58 :: b).
    { revert X E. generalize (escape_char c). clear IH. revert A. induction a as [|y a IHa]; intros A w X E.
      - destruct w as [|z w]; [exists []; auto|]. cbn in E. injection E as -> _. exfalso. apply X. left. reflexivity.
      - destruct w as [|z w]; [exists (y :: a); auto|]. cbn in E. injection E as -> E.
        destruct (IHa ltac:(cbn [In] in A; tauto) w ltac:(cbn [In] in X; tauto) E) as (a' & -> & E'). exists a'. auto. }
    destruct Y as (a' & -> & E'). destruct (IH a') as (t1 & t2 & -> & -> & ->); [intros I; apply A, in_or_app; auto|exact E'|].
    exists (c :: t1), t2. auto.
Qed.
Lemma in58_escape t : In 58 t -> In 58 (escape t).
Proof. intros I. unfold escape. apply in_flat_map. exists 58. split; [exact I|left; reflexivity]. Qed.

Lemma giai_accept g l x : ~ In 46 g -> giai_from_gs1_element_string g l = Ok x ->
  accepted C_GIAI g l (giai_epc_uri x) (Ok (giai_gs1_element_string x)).
Proof.
  intros ND H. assert (E : element_string C_GIAI g).
  { apply element_regex. unfold giai_from_gs1_element_string in H. cbn [gs1_element_string_regex].
    destruct (fullmatch GIAI_GS1_ELEMENT_STRING g); [reflexivity|discriminate H]. }
  rewrite (giai_from g l E) in H. destruct E as (d & t & Eg & _).
  assert (Eg' : g = lit "(8004)" ++ (d ++ t)) by exact Eg. clear Eg.
  apply giai_iff in H as ((ig & U) & Eu & K). destruct U as (U & (Dc & Lc) & C & NC & L & Ig).
  apply app_inv_head in U. apply cut_dot in U as [Hc Hr]; [|intros I; apply ND; exact (slz_in _ _ _ _ I)|apply nodot_digits, Dc].
  assert (Ne : slz (Some (6 + l)%Z) None g <> []).
  { intros X. rewrite X in Hr. cbn in Hr. symmetry in Hr. apply app_eq_nil in Hr as [Hr _]. destruct C as [C _]. congruence. }
  rewrite Eg' in Hc, Hr, Ne.
  destruct (slice_key (lit "(8004)") (d ++ t) l (giai_cp x) (slz (Some (6 + l)%Z) None (lit "(8004)" ++ d ++ t)) Hc eq_refl) as (Ed & Hl).
  { intros X. rewrite X in Lc. cbn in Lc. lia. }
  { exact Ne. }
  exists (giai_cp x), (giai_asset x ++ ig). split; [|split; [exact Dc|split; [exact Hl|]]].
  - rewrite Eu, Eg', Hc, Hr. reflexivity.
  - eexists. split; [reflexivity|]. cbn [rechecked]. unfold giai_gs1_element_string. rewrite K.
    set (r0 := slz (Some (6 + l)%Z) None (lit "(8004)" ++ d ++ t)) in *.
    assert (N58 : ~ In 58 (giai_cp x)) by (rewrite digits_iff in Dc; eapply notin_forallb; [exact Dc|reflexivity]).
    destruct Ig as [->|(r & -> & _)].
    + rewrite app_nil_r in Hr. exists []. rewrite app_nil_r, Eg', Ed, <- Hr, unescape_escape. split; [reflexivity|]. split; [|left; reflexivity].
      intros I. apply in_app_or in I as [I|I]; [cbn in I; repeat destruct I as [I|I]; try discriminate I; exact I|].
      apply in_app_or in I as [I|I]; [exact (N58 I)|]. apply NC. rewrite <- Hr. apply in58_escape, I.
    + destruct (escape_colon _ _ _ NC Hr) as (t1 & t2 & E0 & Ea & _). exists (58 :: t2).
      rewrite Eg', Ed, E0, Ea, unescape_escape, <- !app_assoc. split; [reflexivity|]. split; [|right; eauto].
      intros I. apply in_app_or in I as [I|I]; [cbn in I; repeat destruct I as [I|I]; try discriminate I; exact I|].
      apply in_app_or in I as [I|I]; [exact (N58 I)|]. apply NC. rewrite Ea. apply in58_escape, I.
Qed.
Lemma ginc_accept g l x : ~ In 46 g -> ginc_from_gs1_element_string g l = Ok x ->
  accepted C_GINC g l (ginc_epc_uri x) (Ok (ginc_gs1_element_string x)).
Proof.
  intros ND H. assert (E : element_string C_GINC g).
  { apply element_regex. unfold ginc_from_gs1_element_string in H. cbn [gs1_element_string_regex].
    destruct (fullmatch GINC_GS1_ELEMENT_STRING g); [reflexivity|discriminate H]. }
  rewrite (ginc_from g l E) in H. destruct E as (d & t & Eg & _).
  assert (Eg' : g = lit "(401)" ++ (d ++ t)) by exact Eg. clear Eg.
  apply ginc_iff in H as (Eu & cp & ref & U & K). destruct U as (U & (Dc & Lc) & C & L).
  apply app_inv_head in U. apply cut_dot in U as [Hc Hr]; [|intros I; apply ND; exact (slz_in _ _ _ _ I)|apply nodot_digits, Dc].
  assert (Ne : slz (Some (5 + l)%Z) None g <> []).
  { intros X. rewrite X in Hr. destruct C as [C _]. symmetry in Hr. exact (C Hr). }
  rewrite Eg' in Hc, Hr, Ne.
  destruct (slice_key (lit "(401)") (d ++ t) l cp (slz (Some (5 + l)%Z) None (lit "(401)" ++ d ++ t)) Hc eq_refl) as (Ed & Hl).
  { intros X. rewrite X in Lc. cbn in Lc. lia. }
  { exact Ne. }
  exists cp, ref. split; [|split; [exact Dc|split; [exact Hl|]]].
  - rewrite Eu, Eg', Hc, Hr. reflexivity.
  - eexists. split; [reflexivity|]. cbn [rechecked]. unfold ginc_gs1_element_string. rewrite K, <- Hr, unescape_escape, Eg', <- Ed. reflexivity.
Qed.
Lemma cpi_accept g l x : cpi_from_gs1_element_string g l = Ok x ->
  accepted C_CPI g l (cpi_epc_uri x) (Ok (cpi_gs1_element_string x)).
Proof.
  intros H. assert (E : element_string C_CPI g).
  { apply element_regex. unfold cpi_from_gs1_element_string in H. cbn [gs1_element_string_regex].
    destruct (fullmatch CPI_GS1_ELEMENT_STRING g); [reflexivity|discriminate H]. }
  destruct E as (d & t & n & -> & D & D' & T & T' & N & N'). rewrite (cpi_from d t n l D D' T T' N N') in H.
  assert (S6 : six_bit_text t -> forall c, In c (d ++ t) -> c <> 46 /\ c <> 37).
  { intros _ c I. apply in_app_or in I as [I|I]; [|apply T in I; lia]. specialize (D c I). split; intros ->; apply D; reflexivity. }
  specialize (S6 T).
  apply cpi_iff in H as (U & Eu). destruct U as (U & (Dc & Lc) & (q & Nq & Q & Er) & L & Nu & Ls).
  apply app_inv_head in U.
  apply cut_dot in U as [Hc U]; [|intros I; apply slz_in in I; destruct (S6 _ I); congruence|apply nodot_digits, Dc].
  assert (Nd : forall w, (forall c, In c w -> c <> 46) -> ~ In 46 (cpi_escape w)).
  { intros w W I. unfold cpi_escape in I. apply in_flat_map in I as (c & J & K). unfold cpi_esc_char in K.
    destruct (c =? 35); [cbn in K; repeat destruct K as [K|K]; try discriminate K; exact K|].
    destruct (c =? 47); [cbn in K; repeat destruct K as [K|K]; try discriminate K; exact K|].
    destruct K as [->|[]]. exact (W 46 J eq_refl). }
  apply cut_dot in U as [Hr Hs].
  2: { apply Nd. intros c I. apply slz_in in I. apply S6, I. }
  2: { rewrite Er, escape6_eq. apply Nd. intros c I. apply Q in I. lia. }
  assert (Ne : slz (Some l) None (d ++ t) <> []).
  { intros X. rewrite X, Er in Hr. apply escape6_nonempty in Nq. apply Nq. rewrite <- Hr. reflexivity. }
  destruct (slice_whole (d ++ t) l _ _ Hc eq_refl Ne) as (Ed & Hl).
  exists (cpi_cp x), (cpi_ref x ++ lit "." ++ cpi_serial x). split; [|split; [exact Dc|split; [exact Hl|]]].
  - rewrite Eu, Hc, Hr, Hs. reflexivity.
  - eexists. split; [reflexivity|]. cbn [rechecked]. unfold cpi_gs1_element_string. rewrite replace_cpi_escapes_spec, <- Hr.
    rewrite unesc_cpi_escape by (intros I; apply slz_in in I; destruct (S6 _ I) as [_ Z0]; apply Z0; reflexivity).
    rewrite <- Hs, (app_assoc (cpi_cp x)), <- Ed, <- app_assoc. reflexivity.
Qed.
Lemma itip_accept g l x : itip_from_gs1_element_string g l = Ok x ->
  accepted C_ITIP g l (itip_epc_uri x) (itip_gs1_element_string x).
Proof.
  intros H. assert (E : element_string C_ITIP g).
  { apply element_regex. unfold itip_from_gs1_element_string in H. cbn [gs1_element_string_regex].
    destruct (fullmatch ITIP_GS1_ELEMENT_STRING g); [reflexivity|discriminate H]. }
  destruct E as (d & t & -> & D & T). rewrite (itip_from d t l D T) in H. pose proof H as I.
  apply itip_iff in H as (U & Eu). pose proof U as V. destruct U as (U & (Dc & Lc) & Di & Dp & Dt & Ni & Np & Nt & L & C & Ls).
  unfold itip_body_uri in U. destruct D as [Dd Ld].
  assert (W : exists q p2 t2, d = q ++ p2 ++ t2 /\ length p2 = 2%nat /\ length t2 = 2%nat).
  { exists (firstn 14 d), (firstn 2 (skipn 14 d)), (skipn 2 (skipn 14 d)).
    split; [rewrite !firstn_skipn; reflexivity|]. rewrite firstn_length, !skipn_length. lia. }
  destruct W as (q & p2 & t2 & Eq & Lp & Lt).
  assert (C3 : slz (Some (-4)%Z) (Some (-2)%Z) d = p2).
  { rewrite Eq. apply slz_mid_negneg; [rewrite app_length, Lp, Lt; reflexivity|rewrite Lt; reflexivity|destruct t2; [discriminate Lt|discriminate]]. }
  assert (C4 : slz (Some (-2)%Z) None d = t2).
  { rewrite Eq, app_assoc. apply slz_tail_neg; [rewrite Lt; reflexivity|destruct t2; [discriminate Lt|discriminate]]. }
  apply app_inv_head in U. apply cut_dot in U as [Hc U]; [|apply nodot_digits, slz_digits, Dd|apply nodot_digits, Dc].
  rewrite (app_assoc [hd 0 d]) in U.
  apply cut_dot in U as [Hi U]; [|apply nodot_digits, digits_app; [apply (digits_hd _ _ Dd Ld)|apply slz_digits, Dd]|apply nodot_digits, Di].
  apply cut_dot in U as [H3 U]; [|apply nodot_digits, slz_digits, Dd|apply nodot_digits, Dp].
  apply cut_dot in U as [H4 Hs]; [|apply nodot_digits, slz_digits, Dd|apply nodot_digits, Dt].
  rewrite C3 in H3. rewrite C4 in H4.
  destruct (itip_item x) as [|i rest] eqn:Ei; [congruence|]. apply cons_inv in Hi as [Hh Hr].
  assert (Lr : (length (itip_cp x) + length rest = 12)%nat).
  { rewrite <- H3, <- H4, Lp, Lt in L. cbn [length] in L. lia. }
  destruct (slice_mid d 12 5 l (itip_cp x) rest) as [Ed Hl]; try assumption; [lia|intros X; rewrite X in Lc; cbn in Lc; lia|].
  destruct (completed_exists (i :: itip_cp x ++ rest)) as (k & K).
  destruct (itip_element _ _ _ _ _ _ _ _ V K) as (x' & I' & G). pose proof (eq_trans (eq_sym I) I') as X. apply ok_same in X. subst x'.
  exists (itip_cp x), ((i :: rest) ++ lit "." ++ itip_piece x ++ lit "." ++ itip_total x ++ lit "." ++ itip_serial x).
  split; [|split; [exact Dc|split; [exact Hl|]]].
  - rewrite Eu. unfold itip_body_uri. rewrite Hc, Hh, Hr, C3, C4, H3, H4, Hs. reflexivity.
  - rewrite G. eexists. split; [reflexivity|].
    assert (Lq : length q = 14%nat).
    { pose proof (f_equal (@length _) Eq) as X. rewrite !app_length in X. lia. }
    destruct (snoc_of q 13 Lq) as (q0 & kk & -> & Lq0).
    assert (Q : q0 = i :: itip_cp x ++ rest).
    { rewrite <- Hh, <- Ed, Eq, <- !app_assoc. symmetry. apply firstn_exact. exact Lq0. }
    exists (i :: itip_cp x ++ rest), kk, k, (p2 ++ t2 ++ lit "(21)" ++ t).
    split; [rewrite Eq, <- Q, <- !app_assoc; reflexivity|]. split; [rewrite <- Q; exact Lq0|]. split; [exact K|].
    rewrite H3, H4, <- Hs, unescape_escape. reflexivity.
Qed.

Theorem element_accepted c g l e : from_gs1_element_string_of c g l = Ok e -> (c = C_GIAI \/ c = C_GINC -> ~ In 46 g) ->
  exists cp rest g', epc_uri e = scheme_prefix c ++ cp ++ lit "." ++ rest /\ digits cp /\
    (l = Z.of_nat (length cp) \/ l < 0)%Z /\ epc_gs1_element_string e = Ok g' /\ rechecked c g g'.
Proof.
  intros H ND.
  assert (A : accepted c g l (epc_uri e) (epc_gs1_element_string e)).
  { destruct c; try discriminate H; cbn [from_gs1_element_string_of] in H; apply lift_ok in H as (x & H & ->);
      cbn [epc_uri epc_gs1_element_string];
      first [exact (cpi_accept _ _ _ H) | exact (gdti_accept _ _ _ H) | exact (giai_accept _ _ _ (ND (or_introl eq_refl)) H)
            | exact (ginc_accept _ _ _ (ND (or_intror eq_refl)) H) | exact (grai_accept _ _ _ H) | exact (gsin_accept _ _ _ H)
            | exact (gsrn_accept _ _ _ H) | exact (gsrnp_accept _ _ _ H) | exact (itip_accept _ _ _ H)
            | exact (lgtin_accept _ _ _ H) | exact (pgln_accept _ _ _ H) | exact (sgcn_accept _ _ _ H)
            | exact (sgln_accept _ _ _ H) | exact (sgtin_accept _ _ _ H) | exact (sscc_accept _ _ _ H) | exact (upui_accept _ _ _ H)]. }
  destruct A as (cp & rest & E & D & Hl & s & Es & R). exists cp, rest, s. auto.
Qed.
(** with a dot the length may be wrong, and the key comes out different *)
Theorem element_dot_refuted : exists g l x,
  giai_from_gs1_element_string g l = Ok x /\ g = lit "(8004)0614141.AB" /\ l = 9%Z /\
  giai_gs1_element_string x = lit "(8004)0614141A.B".
Proof. eexists _, _, _. split; [|split; [reflexivity|split; [reflexivity|]]]; [vm_compute; reflexivity|vm_compute; reflexivity]. Qed.

(** which exceptions *)
Theorem element_exn c g l ex : In c element_classes -> from_gs1_element_string_of c g l = Raise ex ->
  ex = ConvertException \/ ex = ValueError \/ ex = OverflowError.
Proof.
  intros I H. destruct (fullmatch (gs1_element_string_regex c) g) eqn:F.
  2: { left. rewrite element_refused in H; [congruence|exact I|]. rewrite <- element_regex. congruence. }
  apply element_regex in F.
  assert (X : forall u, init_of c u = Raise ex -> ex = ConvertException \/ ex = ValueError \/ ex = OverflowError).
  { intros u U. apply init_exn in U. tauto. }
  destruct c; try (cbn in I; exfalso; repeat destruct I as [I|I]; try discriminate I; exact I);
    cbn [from_gs1_element_string_of] in H; apply lift_raise in H; cbn [init_of] in X;
    assert (Y : forall u, _ u = Raise ex -> ex = ConvertException \/ ex = ValueError \/ ex = OverflowError)
      by (intros u U; apply (X u), lift_raise, U); clear X I.
  - destruct F as (d & t & n & -> & D & D' & T & T' & N & N'). rewrite cpi_from in H by assumption. exact (Y _ H).
  - destruct F as (d & t & -> & D & T). rewrite gdti_from in H by assumption. exact (Y _ H).
  - rewrite giai_from in H by exact F. exact (Y _ H).
  - rewrite ginc_from in H by exact F. exact (Y _ H).
  - destruct F as (d & t & -> & D & T). rewrite grai_from in H by assumption. exact (Y _ H).
  - destruct F as (d0 & -> & D). destruct (snoc_of d0 16 (proj2 D)) as (d & k & -> & _). rewrite gsin_from in H by assumption. exact (Y _ H).
  - destruct F as (d & -> & D). rewrite gsrn_from in H by assumption. exact (Y _ H).
  - destruct F as (d & -> & D). rewrite gsrnp_from in H by assumption. exact (Y _ H).
  - destruct F as (d & t & -> & D & T). rewrite itip_from in H by assumption. exact (Y _ H).
  - destruct F as (d & t & -> & D & T). destruct (lgtin_from d t l D T) as [[_ E]|[_ E]]; rewrite E in H; [exact (Y _ H)|].
    right. left. congruence.
  - destruct F as (d & -> & D). rewrite pgln_from in H by assumption. exact (Y _ H).
  - destruct F as (d & t & -> & D & T). rewrite sgcn_from in H by assumption. exact (Y _ H).
  - destruct F as (d & t & -> & D & T). destruct (sgln_from d t l D T) as [[_ E]|[_ E]]; rewrite E in H; [exact (Y _ H)|].
    right. left. congruence.
  - destruct F as (d & t & -> & D & T). destruct (sgtin_from d t l D T) as [[_ E]|[_ E]]; rewrite E in H; [exact (Y _ H)|].
    right. left. congruence.
  - destruct F as (d & -> & D). rewrite sscc_from in H by assumption. exact (Y _ H).
  - destruct F as (d & t & -> & D & T). rewrite upui_from in H by assumption. exact (Y _ H).
Qed.
