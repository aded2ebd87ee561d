(** What a percent-encoded serial stands for, whichever way its escapes are spelled. *)
From Coq Require Import String.
From Verif.Model Require Import Py Parsers.
From Verif.Model Require Import Adi Cpi Gdti Giai Gid Grai Gsrn Gsrnp Itip Sgcn Sgln Sgtin Sscc Usdod.
From Verif.Spec Require Import Spec SpecEscapes SpecGrammar SpecSchemes SpecTags SpecLayout.

(** a hexadecimal digit, of either case, and its value *)
Definition hex_value (c v : N) : Prop :=
  48 <= c <= 57 /\ v = c - 48 \/ 65 <= c <= 70 /\ v = c - 55 \/ 97 <= c <= 102 /\ v = c - 87.
(** percent-encoding: every percent sign opens an escape of two hexadecimal digits *)
Inductive percent_text : str -> str -> Prop :=
| percent_end : percent_text [] []
| percent_plain c s t : c <> 37 -> percent_text s t -> percent_text (c :: s) (c :: t)
| percent_escape h l a b s t : hex_value h a -> hex_value l b -> percent_text s t ->
    percent_text (37 :: h :: l :: s) (16 * a + b :: t).
(** the codes a seven-bit field can hold and read *)
Definition seven_bit_text (t : str) : Prop := forall c, In c t -> 1 <= c <= 127.

(** the URI of a text request with the text [s] in place of its own *)
Definition text_uri (q : tagreq) (s : str) : str :=
  match q with
  | T_SGTIN x _ _ => lit "urn:epc:id:sgtin:" ++ sgtin_cp x ++ lit "." ++ sgtin_item x ++ lit "." ++ s
  | T_SGLN x _ _ => lit "urn:epc:id:sgln:" ++ sgln_cp x ++ lit "." ++ sgln_loc x ++ lit "." ++ s
  | T_GRAI x _ _ => lit "urn:epc:id:grai:" ++ grai_cp x ++ lit "." ++ grai_asset x ++ lit "." ++ s
  | T_GIAI x _ _ => lit "urn:epc:id:giai:" ++ giai_cp x ++ lit "." ++ s
  | T_GDTI x _ _ => lit "urn:epc:id:gdti:" ++ gdti_cp x ++ lit "." ++ gdti_doc x ++ lit "." ++ s
  | T_ITIP x _ _ => lit "urn:epc:id:itip:" ++ itip_cp x ++ lit "." ++ itip_item x ++ lit "." ++ itip_piece x ++ lit "." ++ itip_total x ++ lit "." ++ s
  | _ => []
  end.
(** the fields of a tag with the text [t], seven bits for each character, zeros up to the size of the coding *)
Definition text_tail (width : nat) (t : str) : list field := map (fun c => (7%nat, c)) t ++ [((width - 7 * length t)%nat, 0)].
Definition text_layout (q : tagreq) (t : str) : list field :=
  header_field q :: filter_fields q ++
  match q with
  | T_SGTIN x _ _ => partition_fields 44 (sgtin_cp x) (sgtin_item x) ++ text_tail 140 t
  | T_SGLN x _ _ => partition_fields 41 (sgln_cp x) (sgln_loc x) ++ text_tail 140 t
  | T_GRAI x _ _ => partition_fields 44 (grai_cp x) (grai_asset x) ++ text_tail 112 t
  | T_GIAI x _ _ => [(3%nat, partition_value (length (giai_cp x))); (prefix_bits (length (giai_cp x)), decimal (giai_cp x))] ++
      text_tail (188 - prefix_bits (length (giai_cp x))) t
  | T_GDTI x _ _ => partition_fields 41 (gdti_cp x) (gdti_doc x) ++ text_tail 119 t
  | T_ITIP x _ _ => partition_fields 44 (itip_cp x) (itip_item x) ++
      [(7%nat, decimal (itip_piece x)); (7%nat, decimal (itip_total x))] ++ text_tail 140 t
  | _ => []
  end.
(** the text [t], escaped in the canonical way, is a serial the classes accept *)
Definition readable_text (t : str) : Prop := ai82_text t /\ ~ misread t.
(** giai.py ends an asset reference at the first colon *)
Definition colon_free (q : tagreq) (t : str) : Prop := match q with T_GIAI _ _ _ => ~ In 58 t | _ => True end.
