(** What C57 claims of arguments of other types is what the source does: C66, second part.

    [stands v v']: the value [v] of C57 is the value [v'] of the machine; [entry_runs x v' r]: the call of the entry point [x] with the text
    [v'] ends with [r] (SpecStands.v). *)
From Coq Require Import String.
From Verif.Model Require Import Py PyFormat Syntax Machine Common Base.
From Verif.Model Require Import Adi Cpi Gdti Giai Gid Grai Gsrn Gsrnp Itip Lgtin Sgcn Sgln Sgtin Sscc Usdod Others Parsers Calls Registry Dynamic.
From Verif.Source Require Import World.
From Verif.Spec Require Import SpecSchemes SpecParsers SpecDynamic SpecStands.
From Verif.Proofs Require RunsOther.
Open Scope list_scope.

(** All refusals of C57: what is refused for its type there is refused by the source with the same exception. *)
Theorem C66_refusals : forall x v v' e, has_entry x -> stands v v' -> refusal (first_use x) v = Some e -> entry_runs x v' (raised e).
Proof. exact RunsOther.refused_types. Qed.
Print Assumptions C66_refusals.
(** Lengths of any type: the source does what C57 says, the objects it returns included. *)
Theorem C66_lengths : forall c s l l', In c element_classes -> stands l l' ->
  invokes W (class_value c) "from_gs1_element_string" [VStr s; l'] [] (outcome_of obj_of (dyn_from_gs1_element_string c (V_str s) l)).
Proof. exact RunsOther.length_run. Qed.
Print Assumptions C66_lengths.
Theorem C66_parser_lengths : forall s l l', stands l l' ->
  calls W (VFun "parsers.gs1_element_string_to_gs1_element") [VStr s; l'] [] (outcome_of obj_of (dyn_gs1_element_string_to_gs1_element (V_str s) l)).
Proof. exact RunsOther.parser_lengths. Qed.
Print Assumptions C66_parser_lengths.
Theorem C66_key_lengths : forall s l l', stands l l' -> fits (length s * 4) ->
  calls W (VFun "parsers.get_gs1_key") [VStr s; l'] [] (outcome_of VStr (dyn_get_gs1_key (V_str s) l None)).
Proof. exact RunsOther.key_lengths. Qed.
Print Assumptions C66_key_lengths.
Example C66_model_cases :
  stands V_none VNone /\ stands (V_gtin GTIN13) (VEnum "sgtin.GTIN_TYPE" "GTIN13" (VInt 13)) /\ stands (V_float (lit "0.0")) (VFloat (SpecFloat.S754_zero false)) /\
  refusal (first_use X_pure) (V_int 5) = Some AttributeError /\ refusal (first_use (X_from_binary C_SSCC)) (V_bytes []) = Some (Exn KeyError) /\
  outcome_of obj_of (dyn_from_gs1_element_string C_SGTIN (V_str (lit "(01)80614141123458(21)6(ab)9")) (V_str (lit "7"))) = Raised (XExn ValueError) /\
  outcome_of VStr (dyn_get_gs1_key (V_str (lit "(01)80614141123458(21)6789")) (V_str (lit "7")) None) = Raised (XExn TypeError) /\
  outcome_of VStr (dyn_get_gs1_key (V_str (lit "(01)80614141123458(21)6789")) (V_float (lit "0.0")) None) = Raised (XExn ConvertException).
Proof. repeat split; try constructor; vm_compute; reflexivity. Qed.
