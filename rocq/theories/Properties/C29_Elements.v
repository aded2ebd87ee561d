(** GS1 element strings: C29, C30, C45 and C46. *)
From Coq Require Import String Lia.
From Verif.Model Require Import Py Re Regexes Common Base.
From Verif.Model Require Import Adi Cpi Gdti Giai Gid Grai Gsrn Gsrnp Itip Lgtin Sgcn Sgln Sgtin Sscc Usdod Others Parsers.
From Verif.Spec Require Import Spec SpecEscapes SpecGrammar SpecSchemes SpecElements.
From Verif.Proofs Require Import ElementRe ElementBack ElementDispatch ElementAccept.

Theorem C29_element_roundtrip : forall c u e cp rest, 
  In c element_classes -> init_of c u = Ok e ->
  u = scheme_prefix c ++ cp ++ lit "." ++ rest -> ~ In 46 cp ->
  ((exists g, epc_gs1_element_string e = Ok g /\ from_gs1_element_string_of c g (Z.of_nat (length cp)) = Ok e) <->
   element_exact c u cp).
Proof. exact element_roundtrip. Qed.
Print Assumptions C29_element_roundtrip.
(** an accepted URI of each kind: a serial with escapes comes back, one with a bracketed group does not *)
Example C29_case :
  match init_of C_SGTIN (lit "urn:epc:id:sgtin:0614141.812345.32a%2Fb") with
  | Ok e => match epc_gs1_element_string e with
            | Ok g => str_eqb g (lit "(01)80614141123458(21)32a/b") && match from_gs1_element_string_of C_SGTIN g 7 with Ok e' => str_eqb (epc_uri e') (epc_uri e) | _ => false end
            | _ => false
            end
  | _ => false
  end = true.
Proof. vm_compute. reflexivity. Qed.
Example C29_bracket_case :
  match init_of C_SGTIN (lit "urn:epc:id:sgtin:0614141.812345.1(21)2") with
  | Ok e => match epc_gs1_element_string e with
            | Ok g => match from_gs1_element_string_of C_SGTIN g 7 with Raise ValueError => true | _ => false end
            | _ => false
            end
  | _ => false
  end = true.
Proof. vm_compute. reflexivity. Qed.
Example C29_exact_case : element_exact C_SSCC (lit "urn:epc:id:sscc:0614141.1234567890") (lit "0614141").
Proof.
  exists (lit "1234567890"). assert (D : forall s, forallb is_d s = true -> digits s) by (intros s H; apply Uni.digits_iff, H).
  repeat split; try (apply D; reflexivity); cbn; lia.
Qed.

(** the element strings a class accepts are the ones of the grammar, and no two classes share one *)
Theorem C30_element_grammar : forall c s, 
  fullmatch (gs1_element_string_regex c) s = true <-> element_string c s.
Proof. exact element_regex. Qed.
Print Assumptions C30_element_grammar.
Theorem C30_any_element : forall s, 
  fullmatch GS1_ELEMENT_STRING s = true <-> exists c, element_string c s.
Proof. exact gs1_element_any. Qed.
Print Assumptions C30_any_element.
Theorem C30_one_class : forall c c' s, element_string c s -> element_string c' s -> c = c'.
Proof. exact element_class. Qed.
Print Assumptions C30_one_class.
Theorem C30_dispatch : forall c g l, 
  element_string c g -> gs1_element_string_to_gs1_element g l = from_gs1_element_string_of c g l.
Proof. exact element_dispatch. Qed.
Print Assumptions C30_dispatch.
Theorem C30_dispatch_none : forall g l, 
  (forall c, ~ element_string c g) -> gs1_element_string_to_gs1_element g l = Raise ConvertException.
Proof. exact element_dispatch_none. Qed.
Print Assumptions C30_dispatch_none.
Theorem C30_class_refuses : forall c g l, 
  In c element_classes -> ~ element_string c g -> from_gs1_element_string_of c g l = Raise ConvertException.
Proof. exact element_refused. Qed.
Print Assumptions C30_class_refuses.
Example C30_case : fullmatch (gs1_element_string_regex C_UPUI) (lit "(01)10614141543213(235)51qIgY") = true /\
  fullmatch (gs1_element_string_regex C_SGTIN) (lit "(01)10614141543213(235)51qIgY") = false.
Proof. split; vm_compute; reflexivity. Qed.
Example C30_none_case : gs1_element_string_to_gs1_element (lit "(99)1234") 7 = Raise ConvertException.
Proof. vm_compute. reflexivity. Qed.

(** what an accepted element string means *)
Theorem C45_accepted_element : forall c g l e, 
  from_gs1_element_string_of c g l = Ok e -> (c = C_GIAI \/ c = C_GINC -> ~ In 46 g) ->
  exists cp rest g', epc_uri e = scheme_prefix c ++ cp ++ lit "." ++ rest /\ digits cp /\
    (l = Z.of_nat (length cp) \/ l < 0)%Z /\ epc_gs1_element_string e = Ok g' /\ rechecked c g g'.
Proof. exact element_accepted. Qed.
Print Assumptions C45_accepted_element.
(** the wrong check digit 0 is put right *)
Example C45_case :
  match from_gs1_element_string_of C_SGTIN (lit "(01)80614141123450(21)6789") 7 with
  | Ok e => match epc_gs1_element_string e with Ok g => str_eqb g (lit "(01)80614141123458(21)6789") | _ => false end
  | _ => false
  end = true.
Proof. vm_compute. reflexivity. Qed.
(** with a negative length the prefix is found from the right *)
Example C45_negative_case :
  match from_gs1_element_string_of C_SGLN (lit "(414)0614141123452(254)5678") (-6) with
  | Ok e => str_eqb (epc_uri e) (lit "urn:epc:id:sgln:0614141.12345.5678")
  | _ => false
  end = true.
Proof. vm_compute. reflexivity. Qed.
(** the condition on dots is needed *)
Theorem C45_dot_refuted : 
  exists g l x,
  giai_from_gs1_element_string g l = Ok x /\ g = lit "(8004)0614141.AB" /\ l = 9%Z /\
  giai_gs1_element_string x = lit "(8004)0614141A.B".
Proof. exact element_dot_refuted. Qed.
Print Assumptions C45_dot_refuted.
Theorem C46_element_exceptions : forall c g l ex, 
  In c element_classes -> from_gs1_element_string_of c g l = Raise ex ->
  ex = ConvertException \/ ex = ValueError \/ ex = OverflowError.
Proof. exact element_exn. Qed.
Print Assumptions C46_element_exceptions.
Example C46_value_case : from_gs1_element_string_of C_SGTIN (lit "(01)80614141123458(21)1(21)2") 7 = Raise ValueError.
Proof. vm_compute. reflexivity. Qed.
Example C46_overflow_case : from_gs1_element_string_of C_SGTIN (lit "(01)80614141123458(21)/AAAAAAAAAA") 7 = Raise OverflowError.
Proof. vm_compute. reflexivity. Qed.
Example C46_convert_case : from_gs1_element_string_of C_SGTIN (lit "(01)80614141123458(21)12") 5 = Raise ConvertException.
Proof. vm_compute. reflexivity. Qed.
