(** What [tag_uri] is to return and when, said of URIs as texts. *)
From Coq Require Import String.
From Verif.Model Require Import Py PyFormat Syntax Machine Parsers.
From Verif.Spec Require Import Spec SpecEscapes SpecGrammar SpecSchemes SpecTags SpecLayout SpecCoding SpecReading SpecVarReading SpecRuns SpecWriting.
Open Scope N_scope.
Open Scope list_scope.

(** what the URIs begin with whose tags are of the coding scheme [k] *)
Definition uri_start (k : coding) : str :=
  match k with
  | K_GDTI_96 | K_GDTI_174 => lit "urn:epc:id:gdti:" | K_GSRN_96 => lit "urn:epc:id:gsrn:" | K_GSRNP_96 => lit "urn:epc:id:gsrnp:"
  | K_USDOD_96 => lit "urn:epc:id:usdod:" | K_SGTIN_96 | K_SGTIN_198 => lit "urn:epc:id:sgtin:" | K_SSCC_96 => lit "urn:epc:id:sscc:"
  | K_SGLN_96 | K_SGLN_195 => lit "urn:epc:id:sgln:" | K_GRAI_96 | K_GRAI_170 => lit "urn:epc:id:grai:"
  | K_GIAI_96 | K_GIAI_202 => lit "urn:epc:id:giai:" | K_GID_96 => lit "urn:epc:id:gid:" | K_ADI_VAR => lit "urn:epc:id:adi:"
  | K_CPI_96 | K_CPI_VAR => lit "urn:epc:id:cpi:" | K_SGCN_96 => lit "urn:epc:id:sgcn:" | K_ITIP_110 | K_ITIP_212 => lit "urn:epc:id:itip:"
  end.
(** The coding scheme [k] has room for the URI [u]: the numeric ones take only serials that are numbers without superfluous leading zero and that
    fit the bits there are; giai-96 and cpi-96 also bound the digits that are shared with the company prefix. *)
Definition has_room (k : coding) (u : str) : Prop :=
  match k with
  | K_SGTIN_96 => exists cp item serial, sgtin_uri u cp item serial /\ serial_fits serial 38
  | K_ITIP_110 => exists cp item piece total serial, itip_uri u cp item piece total serial /\ serial_fits serial 38
  | K_GRAI_96 => exists cp asset serial, grai_uri u cp asset serial /\ serial_fits serial 38
  | K_SGLN_96 => exists cp loc ext, sgln_uri u cp loc ext /\ serial_fits ext 41
  | K_GDTI_96 => exists cp doc serial, gdti_uri u cp doc serial /\ serial_fits serial 41
  | K_GIAI_96 => exists cp asset ignored, giai_uri u cp asset ignored /\
      serial_fits asset (giai_96_bits (length cp)) /\ (length cp + length asset <= 25)%nat
  | K_CPI_96 => exists cp ref serial, cpi_uri u cp ref serial /\
      numeral ref /\ (length cp + length ref <= 15)%nat /\ decimal serial < 2 ^ 31
  | _ => True
  end.
(** [t] is the tag URI of [u]: the coding scheme, the filter value asked for, of which GID has none, and what follows the name of the scheme in
    [u]; of a GIAI, only what stands before a further colon. *)
Definition tag_spelling (k : coding) (kws : list (string * value)) (u t : str) : Prop :=
  exists body ignored filter,
    u = uri_start k ++ body ++ ignored /\
    (ignored = [] \/ ((k = K_GIAI_96 \/ k = K_GIAI_202) /\ (exists r, ignored = 58 :: r) /\ ~ In 58 body)) /\
    (if match k with K_GID_96 => true | _ => false end then filter = []
     else exists n s, asks_filter kws n /\ ascii_digits s /\ numeral s /\ decimal s = n /\ filter = s ++ lit ".") /\
    t = lit "urn:epc:tag:" ++ coding_name k ++ lit ":" ++ filter ++ body.
