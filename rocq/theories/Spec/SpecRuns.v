(** Runs of the source alone: what a caller of epcpy sees. *)
From Coq Require Import String.
From Verif.Model Require Import Py PyFormat Syntax Machine Common Base.
From Verif.Source Require Import Program World.
From Verif.Spec Require Export SpecMethods.
From Verif.Spec Require Import Spec SpecEscapes SpecGrammar SpecSchemes SpecLayout SpecElements SpecErrors.

(** [parsers.f(s)] returns [v]; [v.m()], with the keywords [kws], returns [v'] *)
Definition parses (f : string) (s : str) (v : value) : Prop := calls W (VFun ("parsers." ++ f)) [VStr s] [] (Returned v).
Definition answers (v : value) (m : string) (kws : list (string * value)) (v' : value) : Prop := invokes W v m [] kws (Returned v').
(** [v] is an instance of [c]; its attribute [a] *)
Definition instance (v : value) (c : string) : Prop := exists l, v = VObj c l.
Definition attribute (v : value) (a : string) (x : value) : Prop := exists c l, v = VObj c l /\ assoc a l = Some x.

(** the call ends: with an object, with a text, or with an exception that [bad] allows *)
Definition is_object (v : value) : Prop := exists u, attribute v "epc_uri" (VStr u) /\ parses "epc_pure_identity_to_scheme" u v.
Definition is_text (v : value) : Prop := exists t, v = VStr t.
Definition ends (f : string) (args : list value) (kws : list (string * value)) (good : value -> Prop) (bad : exn -> Prop) : Prop :=
  exists r, calls W (VFun ("parsers." ++ f)) args kws r /\
    match r with Returned v => good v | Raised (XExn x) => bad x | Raised _ => False end.

(** keywords for the methods that write tags: a member of the enumeration of binary coding schemes of the class, and one of the
    enumeration of its filter values where it has them (GID does not) *)
Definition tag_keywords (v : value) (kws : list (string * value)) : Prop :=
  exists c s, instance v c /\ In s (enum_members W (c ++ ".BinaryCodingScheme")) /\
    match enum_members W (c ++ "FilterValue") with
    | [] => kws = [("binary_coding_scheme"%string, s)]
    | fs => exists f, In f fs /\ (kws = [("binary_coding_scheme"%string, s); ("filter_value"%string, f)] \/
                                  kws = [("filter_value"%string, f); ("binary_coding_scheme"%string, s)])
    end.

(** What the URI must look like for its tag to give it back: ASCII; escapes as the library itself writes them; and in three classes
    - GIAI: no further colon;
    - ITIP: piece and total of two digits, below 99;
    - ADI: no six zero bits in the part number before those that close it. *)
Definition tag_safe (u : str) : Prop :=
  ascii u /\
  (forall p body, In p ["sgtin"; "sgln"; "grai"; "giai"; "gdti"; "itip"]%string -> u = lit "urn:epc:id:" ++ lit p ++ lit ":" ++ body ->
     canonical_text body) /\
  (forall body, u = lit "urn:epc:id:giai:" ++ body -> ~ In 58%N body) /\
  (forall cp item piece total serial, itip_uri u cp item piece total serial ->
     length piece = 2%nat /\ length total = 2%nat /\ (decimal piece < 99)%N /\ (decimal total < 99)%N) /\
  (forall cage part serial, adi_uri u cage part serial -> no_early_zeros part).

(** The URI [u] has the company prefix [cp] and is spelled such that its element string determines it (see C29). *)
Definition element_safe (u cp : str) : Prop :=
  exists c rest, u = scheme_prefix c ++ cp ++ lit "." ++ rest /\ ~ In 46%N cp /\ element_exact c u cp.
(** the keyword that chooses a GTIN type, if there is one *)
Definition gtin_keyword (kws : list (string * value)) : Prop :=
  kws = [] \/ exists c g, gtin_class c /\ In g (enum_members W c) /\ kws = [("gtin_type"%string, g)].
(** how a text is refused: ConvertException, ValueError or OverflowError; and IndexError when it has not four fields *)
Definition uri_refused (s : str) (x : exn) : Prop := refused x \/ (x = IndexError /\ (colons s < 3)%nat).
