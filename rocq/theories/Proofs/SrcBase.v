(** What the scheme classes have in common: base_scheme.py, and the step from runs of the machine to the claims about methods. *)
From Coq Require Import String Lia.
From Verif.Model Require Import Py PyFloat Re Sre PyFormat Syntax Machine Regexes Common Base.
From Verif.Source Require Import World.
From Verif.Spec Require Export SpecMethods.
From Verif.Proofs Require Import Basics Num.
From Verif.Proofs Require Export SrcTac.

(** the same for the second step: a constructor called with a keyword *)
Lemma reach_alt2 s f args kws i k r k' : step W (step W s) = step W (step W (StCall f args kws i k)) -> step W (StCall f args kws i k) <> StDone r k' ->
  reach W (StCall f args kws i k) (StDone r k') -> reach W s (StDone r k').
Proof.
  intros E N [n H]. destruct n as [|[|n]]; [discriminate H|cbn [steps] in H; contradiction|]. exists (S (S n)). cbn [steps] in *. rewrite E. exact H.
Qed.

Notation builds c r := (fun u => forall k, reach W (StCall (VClass c) [VStr u] [] false k) (StDone (r u) k)).

(** claims about calls with any way to give the arguments *)
Ltac parts P := repeat match type of P with _ \/ _ => destruct P as [P|P] end;
  lazymatch type of P with _ /\ _ => let A := fresh in destruct P as [A P]; parts A; parts P | _ => idtac end.
Ltac ways P := unfold args_fs_default, args_sf_default, args_s_default, args_sf, args_fs, passed1, passed2, passed3 in P; parts P; try discriminate; subst.
Ltac called H := cbv [calls]; match goal with |- exists n, steps W n ?s = ?t => change (reach W s t) end;
  first [apply H | eapply reach_alt2; [| |apply H]; [mach_red; reflexivity|mach_red; discriminate]].
Lemma invokes_of v m args kws s r : do_method W (fun s => s) v m args kws [] = s -> reach W s (StDone r []) -> invokes W v m args kws r.
Proof. intros <- H. exact H. Qed.
Ltac invoked H := eapply invokes_of; [mach_red; reflexivity|bound_alike H].

(** from_binary: after the header, the fields; the length of the truncated binary is known *)
Ltac headed E := match goal with |- reach _ (StDone (result _ ?r) _) _ =>
  let sc := fresh "sc" in let t := fresh "t" in
  destruct r as [[sc t]|?] eqn:E; cbn [result fst snd]; [|enter; done] end.
Ltac header_len E := let L := fresh "L" in match type of E with _ = Ok (?sc, ?t) =>
  assert (L : (length t <= 1000)%nat) by (destruct sc; apply (header_bound _ _ _ _ _ _ _ E eq_refl eq_refl); eexists; (split; [vm_compute; reflexivity|lia])) end.

(** the same for one known coding scheme *)
Ltac header_len1 E := let L := fresh "L" in match type of E with _ = Ok (?sc, ?t) =>
  assert (L : (length t <= 1000)%nat) by (apply (header_bound _ _ _ _ _ _ _ E eq_refl eq_refl); eexists; (split; [vm_compute; reflexivity|lia])) end.

Lemma padding_nat n : ((16 - Z.of_nat n mod 16) mod 16)%Z = Z.of_nat ((16 - n mod 16) mod 16).
Proof.
  rewrite Nat2Z.inj_mod, Nat2Z.inj_sub, Nat2Z.inj_mod; [reflexivity|]. pose proof (Nat.mod_upper_bound n 16). lia.
Qed.

Lemma a2b_length s : forall q l p b, a2b (s ++ [61; 61]) q l p = Some b -> (length b <= length s)%nat.
Proof.
  induction s as [|c s IH]; intros q l p b.
  - cbn [app a2b]. change (61 =? 61) with true. cbv match. repeat match goal with |- context [if ?x then _ else _] => destruct x end; intros [= <-]; reflexivity.
  - cbn [app a2b length].
    assert (C : forall x q l p, option_map (cons x) (a2b (s ++ [61; 61]) q l p) = Some b -> (length b <= S (length s))%nat).
    { intros x q' l' p'. destruct (a2b _ q' l' p') as [b'|] eqn:E; [|discriminate]. intros [= <-]. apply IH in E. cbn [length]. lia. }
    assert (D : forall q l p, a2b (s ++ [61; 61]) q l p = Some b -> (length b <= S (length s))%nat).
    { intros q' l' p' E. apply IH in E. lia. }
    destruct (c =? 61).
    + destruct (_ && _); [intros [= <-]; cbn [length]; lia|apply D].
    + destruct (b64_val c); [|apply D]. repeat match goal with |- context [if ?x then _ else _] => destruct x end; first [apply C | apply D].
Qed.
Lemma base64_fits s h : base64_to_hex s = Ok h -> fits (length s * 8) -> fits (length h * 4).
Proof.
  unfold base64_to_hex, b64decode. change (lit "==") with [61; 61]. destruct (forallb _ _); [|discriminate]. cbn [bind].
  destruct (a2b _ 0 0 0) as [b|] eqn:E; [|discriminate]. cbn [of_option bind]. intros [= <-]. apply a2b_length in E. unfold fits.
  assert (L : length (bytes_hex b) = (length b * 2)%nat).
  { unfold bytes_hex. clear. induction b as [|x b IH]; [reflexivity|]. cbn [flat_map length app]. rewrite IH. lia. }
  rewrite L. lia.
Qed.

Lemma fmt_int_X z : fmt_int z [88] = Some (Ok (fmt_hex_up z)).
Proof.
  unfold fmt_int. change (parse_spec true [88]) with (Some (mkSpec 32 None 0 (Some 88))). cbv iota beta.
  unfold fmt_digits. change (88 =? 98) with false. change (88 =? 120) with false. change (88 =? 88) with true. cbv iota. cbn [fmt_align option_map].
  rewrite padl_ge by lia. unfold fmt_hex_up, signed.
  destruct (Z.ltb_spec z 0); [replace (Z.to_N (- z)) with (Z.abs_N z) by lia|replace (Z.to_N z) with (Z.abs_N z) by lia]; reflexivity.
Qed.
Lemma str_int_padded n m : fits n -> (m < 16)%nat -> str_int (Z.of_nat n + Z.of_nat m) = Ok (ndec (N.of_nat (n + m))).
Proof.
  intros H M. rewrite <- Nat2Z.inj_add, <- nat_N_Z. apply str_int_spec, (intable_ndec _ 101); [|lia]. unfold fits in H. apply N2Z.inj_lt.
  rewrite nat_N_Z. change (Z.of_N (2 ^ N.of_nat 101)) with (2 * 2 ^ 100)%Z.
  change (2 ^ 100)%Z with 1267650600228229401496703205376%Z in *. lia.
Qed.
(** the end of [hex], base_scheme.py:114-117 *)
Lemma hex_end a k : fits (length a) ->
  (if (16 =? 0)%Z then StStuck else if (16 =? 0)%Z then StStuck else
   match str_int (Z.of_nat (length a) + (16 - Z.of_nat (length a) mod 16) mod 16) with
   | Ok x => match fmt_str a ([60; 48] ++ x) with
     | Some (Ok x0) => match int_base 2 x0 with
       | Ok x1 => match fmt_int x1 [88] with
         | Some (Ok x2) => StDone (Returned (VStr x2)) k
         | Some (Raise e) => StDone (Raised (XExn e)) k
         | None => StStuck
         end
       | Raise e => StDone (Raised (XExn e)) k
       end
     | Some (Raise e) => StDone (Raised (XExn e)) k
     | None => StStuck
     end
   | Raise e => StDone (Raised (XExn e)) k
   end) = StDone (result VStr (binary_hex (Ok a))) k.
Proof.
  intros F. change (16 =? 0)%Z with false. cbv match. rewrite padding_nat, str_int_padded by (exact F || (apply Nat.mod_upper_bound; lia)).
  rewrite fmt_str_left. unfold binary_hex. cbn [bind]. destruct (int_base 2 _) as [z|]; [|reflexivity]. rewrite fmt_int_X. reflexivity.
Qed.
Notation gives_kw q args kws r := (forall k, reach W (StCall (VFun q%string) args kws false k) (StDone r k)).
(** [hex] and [base64] of a class, by what is known of [binary] *)
Ltac hex_by F G := let k := fresh "k" in intros k; match goal with any : list value |- _ => destruct any end; enter;
  (eapply reach_trans; [bound_alike G|]); answered;
  try match goal with E : _ = Ok _ |- _ => rewrite hex_end by exact (F _ eq_refl) end; done.
Ltac base64_by G := let k := fresh "k" in intros k; match goal with any : list value |- _ => destruct any end; enter;
  (eapply reach_trans; [bound_alike G|]); unfold binary_base64; (answered; [tailcall g_hex_to_base64|]); done.
Lemma py_last {A} (l : list A) : idx_last l = of_option IndexError (py_index l (-1)).
Proof.
  unfold idx_last, py_index. change (-1 <? 0)%Z with true. cbv match. rewrite <- (rev_involutive l). destruct (rev l) as [|x r]; [reflexivity|].
  cbn [rev]. rewrite rev_app_distr, rev_involutive. cbn [app rev]. rewrite app_length. cbn [length].
  destruct ((_ <? 0)%Z || _) eqn:E; [exfalso; apply orb_prop in E as [E|E]; lia|].
  rewrite nth_error_app2 by lia. replace (Z.to_nat _ - length (rev r))%nat with 0%nat by lia. reflexivity.
Qed.
(** a fixed-width field *)
Ltac fixed := match goal with |- reach _ (StCall (VFun "common.decode_fixed_width_integer") [VStr ?s] [] _ _) _ =>
  let B := fresh in assert (B : (length s <= 4300)%nat) by (apply (Nat.le_trans _ 1000); [short|lia]);
  let E := fresh "E" in callr (g_decode_fixed_width_integer s B) as [?|?] E; clear B end; cbn [of_option bind raise_if negb orb andb result].
(** comparisons of the texts of two members *)
Ltac names := repeat match goal with |- context [str_eqb ?a ?b] =>
  let v := eval vm_compute in (str_eqb a b) in match v with true => idtac | false => idtac end; change (str_eqb a b) with v; cbv match end.
