(** How long matching takes: C51. *)
From Coq Require Import String.
From Verif.Model Require Import Py Re Regexes RegexText Sre Common.
From Verif.Spec Require Import SpecSre.
From Verif.Proofs Require Import SreUse.

(** the steps fullmatch takes are bounded by a * length + b, with the a and b listed for each
    pattern of regex.py; a is 0 for the element strings *)
Theorem C51_fullmatch : Forall (fun x => exists p, re_compile (fst (fst x)) = Some p /\
  forall s, fullmatch_steps p s <= snd (fst x) * N.of_nat (length s) + snd x) step_bounds.
Proof. exact all_bounded. Qed.
Print Assumptions C51_fullmatch.
(** base_scheme.py:186, the only match of a pattern of regex.py *)
Theorem C51_tag_uri_match : exists p, re_compile T_TAG_URI = Some p /\
  forall s, match_steps p s <= 103 * N.of_nat (length s) + 539.
Proof. exact tag_uri_match_bounded. Qed.
Print Assumptions C51_tag_uri_match.
(** re.split and re.findall take at most 9 steps at each position *)
Theorem C51_cutting : Forall (fun x => exists p, re_compile (fst x) = Some p /\
  forall s, match_steps p s <= 9) cutting_patterns.
Proof. exact cutting_constant. Qed.
Print Assumptions C51_cutting.
(** adi.py:203 has two stars but stays linear *)
Theorem C51_adi_terminator : exists p, re_compile (lit ".*([0]{6})+.*") = Some p /\
  forall s, match_steps p s <= 17 * N.of_nat (length s) + 33.
Proof. exact adi_terminator_bounded. Qed.
Print Assumptions C51_adi_terminator.
(** the same does not hold of every pattern: this one doubles its steps with every two digits *)
Theorem C51_every_pattern_refuted : exists p, re_compile (lit "(\d|\d\d)+\.") = Some p /\
  forall n, N.of_nat (2 ^ n) <= fullmatch_steps p (repeat 49 (2 * n + 1)).
Proof. exact exponential. Qed.
Print Assumptions C51_every_pattern_refuted.

Example C51_covers : map fst (map fst step_bounds) = map fst compiled_patterns.
Proof. vm_compute. reflexivity. Qed.
Example C51_epc_uri_case : match re_compile T_EPC_URI with
  | Some p => (fullmatch_steps p (lit "urn:epc:id:sgtin:0614141.112345.400"), sre_fullmatch p (lit "urn:epc:id:sgtin:0614141.112345.400"))
  | None => (0, false)
  end = (60, true).
Proof. vm_compute. reflexivity. Qed.
Example C51_exponential_case : match re_compile (lit "(\d|\d\d)+\.") with
  | Some p => (fullmatch_steps p (repeat 49 16), sre_fullmatch p (repeat 49 16))
  | None => (0, true)
  end = (23473, false).
Proof. vm_compute. reflexivity. Qed.
