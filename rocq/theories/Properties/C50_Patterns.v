(** The texts of the regular expressions: C50. *)
From Coq Require Import String.
From Verif.Model Require Import Py Re Regexes RegexText Sre Common Adi Parsers.
From Verif.Spec Require Import SpecSre.
From Verif.Proofs Require Import SreSound SreLang SreTexts SreUse.

(** the backtracking search finds a match of the whole text exactly if there is one, for every
    pattern text that can be compiled *)
Theorem C50_fullmatch : forall text p s, re_compile text = Some p ->
  sre_fullmatch p s = true <-> matches p s [].
Proof. exact search_full. Qed.
Print Assumptions C50_fullmatch.
(** and a match at the start exactly if there is one, and what it leaves is what follows a match *)
Theorem C50_match : forall text p s, re_compile text = Some p ->
  ((exists t, sre_match p s = Some t) <-> exists u t, s = u ++ t /\ matches p u t) /\
  forall t, sre_match p s = Some t -> exists u, s = u ++ t /\ matches p u t.
Proof. exact search_prefix. Qed.
Print Assumptions C50_match.
(** every pattern of regex.py compiles, and the search on its text answers as the regular
    expression the model uses *)
Theorem C50_patterns : Forall (fun x => exists p, re_compile (fst x) = Some p /\
  (forall s, sre_fullmatch p s = fullmatch (snd x) s) /\
  (forall s, match sre_match p s with Some _ => true | None => false end = rmatch (snd x) s)) compiled_patterns.
Proof. exact compiled_agree. Qed.
Print Assumptions C50_patterns.
(** adi.py:203 *)
Theorem C50_adi_terminator : exists p, re_compile (lit ".*([0]{6})+.*") = Some p /\
  (forall s, sre_fullmatch p s = fullmatch adi_terminator s) /\
  (forall s, match sre_match p s with Some _ => true | None => false end = rmatch adi_terminator s).
Proof. exact agree_adi_terminator. Qed.
Print Assumptions C50_adi_terminator.
(** the patterns of re.split and re.findall match as many characters as the model takes *)
Theorem C50_cutting_patterns : Forall (fun x => exists p, re_compile (fst x) = Some p /\
  forall s, match_length p s = snd x s) cutting_patterns.
Proof. exact cutting_agree. Qed.
Print Assumptions C50_cutting_patterns.
(** parsers.py:304 *)
Theorem C50_substitution : exists p, re_compile (lit "\.\*$") = Some p /\
  forall s, sre_sub1 p (lit ".0") s = sub_dot_star s.
Proof. exact sub_agrees. Qed.
Print Assumptions C50_substitution.

(** a pattern compiles, matches one text and not another *)
Example C50_epc_uri_case : match re_compile T_EPC_URI with
  | Some p => sre_fullmatch p (lit "urn:epc:id:sgtin:0614141.112345.400%2F") &&
              negb (sre_fullmatch p (lit "urn:epc:id:sgtin:0614141.112345.")) &&
              negb (sre_fullmatch p (lit "urn:epc:id:sgtin:0614141.112345.400%"))
  | None => false
  end = true.
Proof. vm_compute. reflexivity. Qed.
(** greedy repetition gives characters back *)
Example C50_backtracking_case : match re_compile (lit "(a|ab)*b\d{2,}$") with
  | Some p => sre_fullmatch p (lit "aabb42") && negb (sre_fullmatch p (lit "aabb4"))
  | None => false end = true.
Proof. vm_compute. reflexivity. Qed.
Example C50_cut_case : match re_compile (lit "(%[0-9a-fA-F]{2}|-)") with
  | Some p => match match_length p (lit "%2Fx"), match_length p (lit "-%"), match_length p (lit "%2") with
              | Some 3%nat, Some 1%nat, None => true | _, _, _ => false end
  | None => false end = true.
Proof. vm_compute. reflexivity. Qed.
Example C50_substitution_case : sub_dot_star (lit "urn:epc:idpat:sgtin:0614141.112345.*") = lit "urn:epc:idpat:sgtin:0614141.112345.0" /\
  sub_dot_star (lit "a.*.*") = lit "a.*.0".
Proof. split; reflexivity. Qed.
