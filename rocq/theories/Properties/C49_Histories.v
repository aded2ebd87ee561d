(** One object over time: C49. *)
From Coq Require Import String.
From Verif.Model Require Import Py Re Regexes Common Base.
From Verif.Model Require Import Adi Cpi Gdti Giai Gid Grai Gsrn Gsrnp Itip Lgtin Sgcn Sgln Sgtin Sscc Usdod Others Parsers Calls Objects.
From Verif.Spec Require Import Spec SpecObjects.
From Verif.Proofs Require Import Objects.

(** whatever was called or assigned before, a method answers what it would have answered at the start *)
Theorem C49_methods_do_not_depend_on_the_past : forall o h a,
  looks_at_uri a = false -> snd (perform (after o h) a) = snd (perform o a).
Proof. exact history_methods. Qed.
Print Assumptions C49_methods_do_not_depend_on_the_past.
(** epc_uri and == follow the last assignment *)
Theorem C49_uri_and_equality : forall o h,
  snd (perform (after o h) Get_epc_uri) = Text (Ok (current_uri (epc_uri (o_self o)) h)) /\
  forall e, snd (perform (after o h) (Equals e)) = Truth true <-> current_uri (epc_uri (o_self o)) h = epc_uri e.
Proof. exact history_uri. Qed.
Print Assumptions C49_uri_and_equality.
(** so equal objects need not have equal keys once epc_uri has been assigned to *)
Theorem C49_equal_objects_equal_keys_refuted : exists u u' x y h, init_of C_SSCC u = Ok x /\ init_of C_SSCC u' = Ok y /\
  snd (perform (after (new_object x) h) (Equals y)) = Truth true /\
  snd (perform (after (new_object x) h) (Gs1_key None)) <> snd (perform (new_object y) (Gs1_key None)).
Proof. exact equal_but_different. Qed.
Print Assumptions C49_equal_objects_equal_keys_refuted.
(** the cache CPI.tag_uri fills is not looked at: the second call answers for its own arguments *)
Example C49_cache_case :
  match init_of C_CPI (lit "urn:epc:id:cpi:0614141.5PQ7%2FZ43.12345") with
  | Ok x =>
      let o := after (new_object x) [Tag_uri [M_CPI CPI_VAR; M_filter 1] kw_none; Hash; Set_epc_uri (lit "x")] in
      match o_tag_uri o, snd (perform o (Tag_uri [M_CPI CPI_VAR; M_filter 2] kw_none)), snd (perform o Get_epc_uri) with
      | Some a, Text (Ok b), Text (Ok c) =>
          str_eqb a (lit "urn:epc:tag:cpi-var:1.0614141.5PQ7%2FZ43.12345") && str_eqb b (lit "urn:epc:tag:cpi-var:2.0614141.5PQ7%2FZ43.12345") && str_eqb c (lit "x")
      | _, _, _ => false
      end
  | Raise _ => false
  end = true.
Proof. vm_compute. reflexivity. Qed.
