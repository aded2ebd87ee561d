(** What a pattern matches, without any search.  [matches p u t]: [p] matches the text [u] when
    [t] is what follows it. *)
From Coq Require Import String.
From Verif.Model Require Import Py Re Regexes RegexText Sre Common Cpi Sgln Sgtin Sscc Lgtin Adi.

(** [n] consecutive matches *)
Inductive rounds (m : str -> str -> Prop) : nat -> str -> str -> Prop :=
| rounds_O t : rounds m 0 [] t
| rounds_S n u v t : m u (v ++ t) -> rounds m n v t -> rounds m (S n) (u ++ v) t.

Fixpoint matches (p : pat) (u t : str) : Prop :=
  match p with
  | PEps => u = []
  | PSet l => exists c, u = [c] /\ exists i, In i l /\ citem_match i c = true
  | PAny => exists c, u = [c] /\ c <> 10
  | PEnd => u = [] /\ (t = [] \/ t = [10])
  | PSeq a b => exists v w, u = v ++ w /\ matches a v (w ++ t) /\ matches b w t
  | PAlt a b => matches a u t \/ matches b u t
  | PRep lo hi a =>
      exists n, (lo <= n)%nat /\ (forall h, hi = Some h -> (n <= h)%nat) /\ rounds (matches a) n u t
  end.

(** every counted repetition has its bounds in the right order, as [re.compile] insists *)
Fixpoint wf (p : pat) : Prop :=
  match p with
  | PEps | PSet _ | PAny | PEnd => True
  | PSeq a b | PAlt a b => wf a /\ wf b
  | PRep lo hi a => (forall h, hi = Some h -> (lo <= h)%nat) /\ wf a
  end.

(** * The patterns of regex.py that the code compiles: their text beside the regular expression the
    model uses *)
Definition compiled_patterns : list (str * re) :=
  [(T_SGTIN_URI, SGTIN_URI);
   (T_SSCC_URI, SSCC_URI);
   (T_SGLN_URI, SGLN_URI);
   (T_GRAI_URI, GRAI_URI);
   (T_GIAI_URI, GIAI_URI);
   (T_GSRN_URI, GSRN_URI);
   (T_GSRNP_URI, GSRNP_URI);
   (T_GDTI_URI, GDTI_URI);
   (T_CPI_URI, CPI_URI);
   (T_SGCN_URI, SGCN_URI);
   (T_GINC_URI, GINC_URI);
   (T_GSIN_URI, GSIN_URI);
   (T_ITIP_URI, ITIP_URI);
   (T_UPUI_URI, UPUI_URI);
   (T_PGLN_URI, PGLN_URI);
   (T_GID_URI, GID_URI);
   (T_USDOD_URI, USDOD_URI);
   (T_ADI_URI, ADI_URI);
   (T_BIC_URI, BIC_URI);
   (T_IMOVN_URI, IMOVN_URI);
   (T_LGTIN_CLASS, LGTIN_CLASS);
   (T_EPC_URI, EPC_URI);
   (T_IDPAT_URI, IDPAT_URI);
   (T_TAG_URI, TAG_URI);
   (T_SGTIN_GS1_ELEMENT_STRING, SGTIN_GS1_ELEMENT_STRING);
   (T_SSCC_GS1_ELEMENT_STRING, SSCC_GS1_ELEMENT_STRING);
   (T_SGLN_GS1_ELEMENT_STRING, SGLN_GS1_ELEMENT_STRING);
   (T_GRAI_GS1_ELEMENT_STRING, GRAI_GS1_ELEMENT_STRING);
   (T_GIAI_GS1_ELEMENT_STRING, GIAI_GS1_ELEMENT_STRING);
   (T_GSRN_GS1_ELEMENT_STRING, GSRN_GS1_ELEMENT_STRING);
   (T_GSRNP_GS1_ELEMENT_STRING, GSRNP_GS1_ELEMENT_STRING);
   (T_GDTI_GS1_ELEMENT_STRING, GDTI_GS1_ELEMENT_STRING);
   (T_CPI_GS1_ELEMENT_STRING, CPI_GS1_ELEMENT_STRING);
   (T_SGCN_GS1_ELEMENT_STRING, SGCN_GS1_ELEMENT_STRING);
   (T_GINC_GS1_ELEMENT_STRING, GINC_GS1_ELEMENT_STRING);
   (T_GSIN_GS1_ELEMENT_STRING, GSIN_GS1_ELEMENT_STRING);
   (T_ITIP_GS1_ELEMENT_STRING, ITIP_GS1_ELEMENT_STRING);
   (T_UPUI_GS1_ELEMENT_STRING, UPUI_GS1_ELEMENT_STRING);
   (T_PGLN_GS1_ELEMENT_STRING, PGLN_GS1_ELEMENT_STRING);
   (T_LGTIN_GS1_ELEMENT_STRING, LGTIN_GS1_ELEMENT_STRING);
   (T_GS1_ELEMENT_STRING, GS1_ELEMENT_STRING);
   (T_VERIFY_GS3A3_CHARS, VERIFY_GS3A3_CHARS)].

(** * The patterns given to [re.split] and [re.findall], beside the function the model uses to find
    the length of a match *)
Definition cutting_patterns : list (str * (str -> option nat)) :=
  [(lit "(%[0-9a-fA-F]{2})", m_escape);                  (* common.py:170 *)
   (lit "([0-1]{6})", m_bits 6);                         (* common.py:194, cpi.py:361 *)
   (lit "(%[0-9a-fA-F]{2}|-)", m_escape_or_dash);        (* common.py:220 *)
   (lit ".......", m_seq (repeat dotc 7));               (* common.py:267 *)
   (lit "([0-1]{8})", m_bits 8);                         (* common.py:453 *)
   (lit "(%\d\d)", m_escape_dd);                         (* common.py:509 *)
   (lit "([0]{6})", m_zeros6);                           (* adi.py:208 *)
   (lit "\(.{4}\)", m_paren4);                           (* cpi.py:253 *)
   (lit "\(.{3}\)", m_paren3);                           (* sgln.py:195 *)
   (lit "\(.{2}\)", m_paren2);                           (* sgtin.py:258 *)
   (lit "\(.{2}\)", sscc_m_paren2);                      (* sscc.py:187 *)
   (lit "\(.{2}\)", lgtin_m_paren2)].                    (* lgtin.py:144 *)

(** * Steps

    The text of a pattern, [a] and [b]: [fullmatch] takes at most [a * length + b] steps. *)
Definition step_bounds : list (str * N * N) :=
  [(T_SGTIN_URI, 6, 35); (T_SSCC_URI, 3, 24); (T_SGLN_URI, 6, 33); (T_GRAI_URI, 6, 33);
   (T_GIAI_URI, 6, 30); (T_GSRN_URI, 3, 24); (T_GSRNP_URI, 3, 25); (T_GDTI_URI, 6, 33);
   (T_CPI_URI, 22, 62); (T_SGCN_URI, 3, 27); (T_GINC_URI, 6, 30); (T_GSIN_URI, 3, 24);
   (T_ITIP_URI, 6, 42); (T_UPUI_URI, 6, 33); (T_PGLN_URI, 3, 23); (T_GID_URI, 3, 33);
   (T_USDOD_URI, 3, 32); (T_ADI_URI, 14, 59); (T_BIC_URI, 0, 27); (T_IMOVN_URI, 0, 25);
   (T_LGTIN_CLASS, 6, 38); (T_EPC_URI, 114, 712); (T_IDPAT_URI, 123, 485); (T_TAG_URI, 113, 539);
   (T_SGTIN_GS1_ELEMENT_STRING, 0, 81); (T_SSCC_GS1_ELEMENT_STRING, 0, 23);
   (T_SGLN_GS1_ELEMENT_STRING, 0, 82); (T_GRAI_GS1_ELEMENT_STRING, 0, 67);
   (T_GIAI_GS1_ELEMENT_STRING, 0, 521); (T_GSRN_GS1_ELEMENT_STRING, 0, 25);
   (T_GSRNP_GS1_ELEMENT_STRING, 0, 25); (T_GDTI_GS1_ELEMENT_STRING, 0, 68);
   (T_CPI_GS1_ELEMENT_STRING, 0, 815); (T_SGCN_GS1_ELEMENT_STRING, 0, 53);
   (T_GINC_GS1_ELEMENT_STRING, 0, 520); (T_GSIN_GS1_ELEMENT_STRING, 0, 23);
   (T_ITIP_GS1_ELEMENT_STRING, 0, 87); (T_UPUI_GS1_ELEMENT_STRING, 0, 106);
   (T_PGLN_GS1_ELEMENT_STRING, 0, 19); (T_LGTIN_GS1_ELEMENT_STRING, 0, 81);
   (T_GS1_ELEMENT_STRING, 0, 2611); (T_VERIFY_GS3A3_CHARS, 3, 4)].
