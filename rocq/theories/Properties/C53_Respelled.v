(** Serials with escapes spelled in any way, on tags that hold text: C53. *)
From Coq Require Import String.
From Verif.Model Require Import Py Common Base.
From Verif.Model Require Import Adi Cpi Gdti Giai Gid Grai Gsrn Gsrnp Itip Sgcn Sgln Sgtin Sscc Usdod Parsers.
From Verif.Spec Require Import Spec SpecEscapes SpecGrammar SpecSchemes SpecTags SpecLayout SpecCoding SpecRespell.
From Verif.Proofs Require Import Respell.

(** a percent-encoded serial of seven-bit text is written character by character, however its escapes are spelled, and
    what from_binary makes of the tag is what the constructor makes of the canonical spelling *)
Theorem C53_written : forall q u s t, init_of (class_of (req_epc q)) u = Ok (req_epc q) -> text_part q = Some s ->
  percent_text s t -> seven_bit_text t -> filter_fits q -> pieces_fit q ->
  exists b, req_binary q = Ok b /\ spells (text_layout q t) b /\ bitstring b /\
    forall extra, from_binary_of (class_of (req_epc q)) (b ++ extra) = init_of (class_of (req_epc q)) (ascii_form (text_uri q (escape t))).
Proof. exact respelled. Qed.
Print Assumptions C53_written.

(** the tag is read, as the object of the canonical spelling, exactly if the text is readable *)
Theorem C53_read : forall q u s t, init_of (class_of (req_epc q)) u = Ok (req_epc q) -> text_part q = Some s ->
  percent_text s t -> seven_bit_text t -> filter_fits q -> pieces_fit q -> colon_free q t ->
  exists b, req_binary q = Ok b /\
    forall extra,
      (readable_text t -> exists e, from_binary_of (class_of (req_epc q)) (b ++ extra) = Ok e /\
         epc_uri e = ascii_form (text_uri q (escape t)) /\ class_of e = class_of (req_epc q)) /\
      (~ readable_text t -> exists ex, from_binary_of (class_of (req_epc q)) (b ++ extra) = Raise ex /\
         (ex = ConvertException \/ ex = ValueError \/ ex = OverflowError)).
Proof. exact respelled_read. Qed.
Print Assumptions C53_read.
(** "6%2f%417" stands for 6/A7 and comes back as "6%2FA7" *)
Definition C53_uri : str := lit "urn:epc:id:sgtin:0614141.812345.6%2f%417".
Definition C53_back : str := lit "urn:epc:id:sgtin:0614141.812345.6%2FA7".
Example C53_case : percent_text (lit "6%2f%417") (lit "6/A7") /\ seven_bit_text (lit "6/A7") /\ readable_text (lit "6/A7") /\
  escape (lit "6/A7") = lit "6%2FA7" /\
  match sgtin_init C53_uri with
  | Ok x => text_part (T_SGTIN x SGTIN_198 3) = Some (lit "6%2f%417") /\
      match sgtin_binary x SGTIN_198 3 with Ok b => sgtin_from_binary b = sgtin_init C53_back | Raise _ => False end
  | Raise _ => False end.
Proof.
  split. { apply percent_plain; [discriminate|]. apply (percent_escape 50 102 2 15); [left; split; [split; discriminate|reflexivity]|right; right; split; [split; discriminate|reflexivity]|].
    apply (percent_escape 52 49 4 1); [left; split; [split; discriminate|reflexivity]|left; split; [split; discriminate|reflexivity]|].
    apply percent_plain; [discriminate|]. apply percent_end. }
  split. { intros c H. cbn in H. repeat destruct H as [<-|H]; try (split; discriminate). destruct H. }
  split. { apply escape_component; [discriminate|]. apply (proj2 (CtorA.component_iff (lit "6%2FA7") ltac:(discriminate) eq_refl)). reflexivity. }
  repeat split; vm_compute; reflexivity.
Qed.
(** "%2F%31%32" stands for /12: accepted and written, but the tag is refused *)
Example C53_unreadable_case :
  match sgtin_init (lit "urn:epc:id:sgtin:0614141.812345.%2F%31%32") with
  | Ok x => match sgtin_binary x SGTIN_198 3 with Ok b => sgtin_from_binary b = Raise ConvertException | Raise _ => False end
  | Raise _ => False end /\ misread (lit "/12").
Proof.
  split; [vm_compute; reflexivity|]. exists [], 47, 49, (lit "2"). split; [reflexivity|]. split; [left; reflexivity|]. split; [|now left].
  unfold digit_escaped. cbn. intuition discriminate.
Qed.

(** two serials share a tag exactly if they share coding scheme, filter, numbers and the text they stand for *)
Theorem C53_same_tag : forall q u s t q' u' s' t',
  init_of (class_of (req_epc q)) u = Ok (req_epc q) -> text_part q = Some s -> percent_text s t ->
  readable_text t -> colon_free q t -> filter_fits q -> pieces_fit q ->
  init_of (class_of (req_epc q')) u' = Ok (req_epc q') -> text_part q' = Some s' -> percent_text s' t' ->
  readable_text t' -> colon_free q' t' -> filter_fits q' -> pieces_fit q' ->
  (req_binary q = req_binary q' <->
   req_kind q = req_kind q' /\ req_filter q = req_filter q' /\ ascii_form (text_uri q (escape t)) = ascii_form (text_uri q' (escape t'))).
Proof. exact same_tag. Qed.
Print Assumptions C53_same_tag.
Example C53_same_case : C53_uri <> C53_back /\
  match sgtin_init C53_uri, sgtin_init C53_back, sgtin_init (lit "urn:epc:id:sgtin:0614141.812345.6%2FA8") with
  | Ok x, Ok y, Ok z => sgtin_binary x SGTIN_198 3 = sgtin_binary y SGTIN_198 3 /\ sgtin_binary x SGTIN_198 3 <> sgtin_binary z SGTIN_198 3
  | _, _, _ => False end.
Proof. split; [discriminate|]. vm_compute. split; [reflexivity|discriminate]. Qed.

(** with an escape above 127 the claim is false: its eight bits shift what follows, and the tag is that of another serial *)
Theorem C53_wide_escape_refuted : exists x y b,
  sgtin_init (lit "urn:epc:id:sgtin:0614141.812345.a%8Ab") = Ok x /\ sgtin_init (lit "urn:epc:id:sgtin:0614141.812345.aE1") = Ok y /\ x <> y /\
  sgtin_binary x SGTIN_198 3 = Ok b /\ sgtin_binary y SGTIN_198 3 = Ok b /\ sgtin_from_binary b = Ok y.
Proof. exact wide_escape. Qed.
Print Assumptions C53_wide_escape_refuted.
(** a percent sign with one hexadecimal digit is accepted: it is written as a character and comes back escaped, *)
Theorem C53_stray_percent_refuted : exists x y b,
  sgtin_init (lit "urn:epc:id:sgtin:0614141.812345.a%2x") = Ok x /\ sgtin_init (lit "urn:epc:id:sgtin:0614141.812345.a%252x") = Ok y /\
  sgtin_binary x SGTIN_198 3 = Ok b /\ sgtin_from_binary b = Ok y.
Proof. exact stray_percent. Qed.
Print Assumptions C53_stray_percent_refuted.
(** except after an escape, where binary() raises ValueError *)
Theorem C53_stray_after_escape_refuted : exists x,
  sgtin_init (lit "urn:epc:id:sgtin:0614141.812345.a%2F%2x") = Ok x /\ sgtin_binary x SGTIN_198 3 = Raise ValueError.
Proof. exact stray_after_escape. Qed.
Print Assumptions C53_stray_after_escape_refuted.
