(** When a call of [tag_uri], [binary], [hex] or [base64] has the arguments the method asks for. *)
From Coq Require Import List.
From Verif.Model Require Import Py Parsers Calls.
From Verif.Spec Require Import SpecCalls.
Import ListNotations.

(** the parameters in their order *)
Definition parameters (o : order) : list param :=
  match o with Scheme_first => [P_scheme; P_filter] | Filter_first => [P_filter; P_scheme] | Scheme_only => [P_scheme] end.
(** those that may be left out *)
Definition optional (c : cls) (p : param) : Prop :=
  match p with
  | P_scheme => In c [C_ADI; C_GID; C_GSRN; C_GSRNP; C_SGCN; C_SSCC; C_USDOD]
  | P_filter => In c [C_GSRN; C_GSRNP]
  end.
(** the value a keyword gives to a parameter *)
Definition by_keyword (k : kwargs) (p : param) : option member := match p with P_scheme => kw_scheme k | P_filter => kw_filter k end.
(** no keyword the method does not know, not more arguments than parameters, and every parameter given once: by position, by
    keyword, or not at all if it may be left out *)
Definition well_called (c : cls) (o : order) (args : list member) (k : kwargs) : Prop :=
  kw_other k = false /\
  (length args <= length (parameters o))%nat /\
  (forall p, by_keyword k p <> None -> In p (parameters o)) /\
  (forall i p, nth_error (parameters o) i = Some p ->
     ((i < length args)%nat -> by_keyword k p = None) /\
     ((length args <= i)%nat -> by_keyword k p <> None \/ optional c p)).
(** what the call gives to a parameter *)
Definition gives (o : order) (args : list member) (k : kwargs) (p : param) (m : member) : Prop :=
  (exists i, nth_error (parameters o) i = Some p /\ nth_error args i = Some m) \/ by_keyword k p = Some m.
