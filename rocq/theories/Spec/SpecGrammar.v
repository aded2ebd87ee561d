(** The pure identity URI of every scheme, spelled out component by component.  Nothing of the program is
    used: no regular expressions, no splitting. *)
From Coq Require Import String.
From Verif.Model Require Import Py.
From Verif.Spec Require Import Spec SpecEscapes.

(** * Components *)

(** letters, digits and !'()*+,-.:;=_ stand for themselves *)
Definition uri_plain (c : N) : Prop :=
  48 <= c <= 57 \/ 65 <= c <= 90 \/ 97 <= c <= 122 \/ In c (lit "!'()*+,-.:;=_").
Definition hex_digit (c : N) : Prop := 48 <= c <= 57 \/ 65 <= c <= 70 \/ 97 <= c <= 102.
(** the alphabet of serial components: plain characters and percent signs followed by a hexadecimal digit *)
Inductive uri_text : str -> Prop :=
| uri_text_end : uri_text []
| uri_text_plain c s : uri_plain c -> uri_text s -> uri_text (c :: s)
| uri_text_pct h s : hex_digit h -> uri_text s -> uri_text (37 :: h :: s).
(** a serial component: alphabet and escapes *)
Definition component (s : str) : Prop := s <> [] /\ uri_text s /\ escapes_ok s.
(** a serial component with escapes the check does not accept *)
Definition malformed_component (s : str) : Prop := s <> [] /\ uri_text s /\ ~ escapes_ok s.

(** the text a component stands for: the seven escapes are undone, from left to right *)
Fixpoint unescape (s : str) : str :=
  match s with
  | [] => []
  | c :: s' =>
      match s' with
      | a :: s1 =>
          match s1 with
          | b :: s2 =>
              match find (fun x => str_eqb (escape_char x) [c; a; b]) [34; 37; 38; 47; 60; 62; 63] with
              | Some x => x :: unescape s2
              | None => c :: unescape s'
              end
          | [] => c :: unescape s'
          end
      | [] => c :: unescape s'
      end
  end.

(** a company prefix: 6 to 12 digits *)
Definition company_prefix (cp : str) : Prop := digits cp /\ (6 <= length cp <= 12)%nat.
(** a number without superfluous leading zero *)
Definition numeral (s : str) : Prop :=
  s = lit "0" \/ exists c s', s = c :: s' /\ 49 <= c <= 57 /\ digits s'.
(** a number with more digits than Python's int() takes *)
Definition long_number (s : str) : Prop := numeral s /\ 4300 < N.of_nat (length s).

(** [full] is [body] followed by its check digit *)
Definition completed (body full : str) : Prop :=
  exists d, d < 10 /\ full = body ++ [48 + d] /\ mod10_law (digit_values body ++ [d]).

(** * The schemes *)

(** urn:epc:id:sgtin:CompanyPrefix.ItemRefAndIndicator.SerialNumber *)
Definition sgtin_uri (u cp item serial : str) : Prop :=
  u = lit "urn:epc:id:sgtin:" ++ cp ++ lit "." ++ item ++ lit "." ++ serial /\
  company_prefix cp /\ digits item /\ (length cp + length item = 13)%nat /\
  component serial /\ (1 <= length (unescape serial) <= 20)%nat.
(** urn:epc:class:lgtin:CompanyPrefix.ItemRefAndIndicator.Lot *)
Definition lgtin_uri (u cp item lot : str) : Prop :=
  u = lit "urn:epc:class:lgtin:" ++ cp ++ lit "." ++ item ++ lit "." ++ lot /\
  company_prefix cp /\ digits item /\ (length cp + length item = 13)%nat /\
  component lot /\ (1 <= length (unescape lot) <= 20)%nat.
(** urn:epc:id:sscc:CompanyPrefix.SerialReference *)
Definition sscc_uri (u cp serial : str) : Prop :=
  u = lit "urn:epc:id:sscc:" ++ cp ++ lit "." ++ serial /\
  company_prefix cp /\ digits serial /\ (length cp + length serial = 17)%nat.
(** urn:epc:id:gsrn:CompanyPrefix.ServiceReference, the same for gsrnp *)
Definition gsrn_uri (u cp service : str) : Prop :=
  u = lit "urn:epc:id:gsrn:" ++ cp ++ lit "." ++ service /\
  company_prefix cp /\ digits service /\ (length cp + length service = 17)%nat.
Definition gsrnp_uri (u cp service : str) : Prop :=
  u = lit "urn:epc:id:gsrnp:" ++ cp ++ lit "." ++ service /\
  company_prefix cp /\ digits service /\ (length cp + length service = 17)%nat.
(** urn:epc:id:sgln:CompanyPrefix.LocationReference.Extension *)
Definition sgln_uri (u cp loc ext : str) : Prop :=
  u = lit "urn:epc:id:sgln:" ++ cp ++ lit "." ++ loc ++ lit "." ++ ext /\
  company_prefix cp /\ digits loc /\ (length cp + length loc = 12)%nat /\
  component ext /\ (length (unescape ext) <= 20)%nat.
(** urn:epc:id:grai:CompanyPrefix.AssetType.SerialNumber; the limit of 16 counts escaped characters *)
Definition grai_uri (u cp asset serial : str) : Prop :=
  u = lit "urn:epc:id:grai:" ++ cp ++ lit "." ++ asset ++ lit "." ++ serial /\
  company_prefix cp /\ digits asset /\ (length cp + length asset = 12)%nat /\
  component serial /\ (length serial <= 16)%nat.
(** urn:epc:id:gdti:CompanyPrefix.DocumentType.SerialNumber; the limit of 17 counts escaped characters *)
Definition gdti_uri (u cp doc serial : str) : Prop :=
  u = lit "urn:epc:id:gdti:" ++ cp ++ lit "." ++ doc ++ lit "." ++ serial /\
  company_prefix cp /\ digits doc /\ (length cp + length doc = 12)%nat /\
  component serial /\ (length serial <= 17)%nat.
(** urn:epc:id:giai:CompanyPrefix.IndividualAssetReference; only what stands before the first colon is read
    ([ignored] is the rest), and the limit of 30 counts escaped characters *)
Definition giai_uri (u cp asset ignored : str) : Prop :=
  u = lit "urn:epc:id:giai:" ++ cp ++ lit "." ++ asset ++ ignored /\
  company_prefix cp /\ component asset /\ ~ In 58 asset /\ (length cp + length asset <= 30)%nat /\
  (ignored = [] \/ exists r, ignored = 58 :: r /\ uri_text r).
(** urn:epc:id:sgcn:CompanyPrefix.CouponReference.SerialComponent *)
Definition sgcn_uri (u cp coupon serial : str) : Prop :=
  u = lit "urn:epc:id:sgcn:" ++ cp ++ lit "." ++ coupon ++ lit "." ++ serial /\
  company_prefix cp /\ digits coupon /\ (length cp + length coupon = 12)%nat /\
  digits serial /\ (1 <= length serial <= 12)%nat.
(** urn:epc:id:cpi:CompanyPrefix.ComponentPartReference.Serial; the limit of 30 counts escaped characters *)
Definition cpi_uri (u cp ref serial : str) : Prop :=
  u = lit "urn:epc:id:cpi:" ++ cp ++ lit "." ++ ref ++ lit "." ++ serial /\
  company_prefix cp /\ (exists t, t <> [] /\ six_bit_text t /\ ref = escape6 t) /\
  (length cp + length ref <= 30)%nat /\ numeral serial /\ (length serial <= 12)%nat.
(** urn:epc:id:itip:CompanyPrefix.ItemRefAndIndicator.Piece.Total.SerialNumber; the four digit groups have 17
    digits together *)
Definition itip_uri (u cp item piece total serial : str) : Prop :=
  u = lit "urn:epc:id:itip:" ++ cp ++ lit "." ++ item ++ lit "." ++ piece ++ lit "." ++ total ++ lit "." ++ serial /\
  company_prefix cp /\ digits item /\ digits piece /\ digits total /\
  item <> [] /\ piece <> [] /\ total <> [] /\
  (length cp + length item + length piece + length total = 17)%nat /\
  component serial /\ (1 <= length (unescape serial) <= 20)%nat.
(** urn:epc:id:gid:ManagerNumber.ObjectClass.SerialNumber *)
Definition gid_uri (u manager object serial : str) : Prop :=
  u = lit "urn:epc:id:gid:" ++ manager ++ lit "." ++ object ++ lit "." ++ serial /\
  numeral manager /\ numeral object /\ numeral serial /\
  decimal manager < 2 ^ 28 /\ decimal object < 2 ^ 24 /\ decimal serial < 2 ^ 36.
(** urn:epc:id:usdod:CAGEOrDODAAC.SerialNumber *)
Definition usdod_uri (u cage serial : str) : Prop :=
  u = lit "urn:epc:id:usdod:" ++ cage ++ lit "." ++ serial /\
  cage_text cage /\ numeral serial /\ decimal serial < 2 ^ 36.
(** urn:epc:id:adi:CAGEOrDODAAC.OriginalPartNumber.Serial; a serial may open with %23 *)
Definition adi_uri (u cage part serial : str) : Prop :=
  u = lit "urn:epc:id:adi:" ++ cage ++ lit "." ++ part ++ lit "." ++ serial /\
  cage_text cage /\
  (exists t, six_bit_text t /\ ~ In 35 t /\ part = escape6 t /\ (length t <= 32)%nat) /\
  (exists t t', six_bit_text t /\ ~ In 35 t' /\ t' <> [] /\ (t = t' \/ t = 35 :: t') /\
     serial = escape6 t /\ (length t <= 30)%nat).
(** urn:epc:id:gsin:CompanyPrefix.ShipperReference *)
Definition gsin_uri (u cp ref : str) : Prop :=
  u = lit "urn:epc:id:gsin:" ++ cp ++ lit "." ++ ref /\
  company_prefix cp /\ digits ref /\ (length cp + length ref = 16)%nat.
(** urn:epc:id:ginc:CompanyPrefix.ConsignmentReference *)
Definition ginc_uri (u cp ref : str) : Prop :=
  u = lit "urn:epc:id:ginc:" ++ cp ++ lit "." ++ ref /\
  company_prefix cp /\ component ref /\ (length cp + length (unescape ref) <= 30)%nat.
(** urn:epc:id:pgln:CompanyPrefix.PartyReference *)
Definition pgln_uri (u cp party : str) : Prop :=
  u = lit "urn:epc:id:pgln:" ++ cp ++ lit "." ++ party /\
  company_prefix cp /\ digits party /\ (length cp + length party = 12)%nat.
(** urn:epc:id:upui:CompanyPrefix.ItemRefAndIndicator.TPX; no limit on the length of the company prefix, and the
    item may be empty *)
Definition upui_uri (u cp item tpx : str) : Prop :=
  u = lit "urn:epc:id:upui:" ++ cp ++ lit "." ++ item ++ lit "." ++ tpx /\
  digits cp /\ cp <> [] /\ digits item /\ (length cp + length item = 13)%nat /\
  component tpx /\ (1 <= length (unescape tpx) <= 28)%nat.
(** urn:epc:id:bic:BICcontainerCode: three letters, one of JUZ, six digits, check digit *)
Definition bic_letter (c : N) : Prop := 65 <= c <= 90 /\ c <> 73 /\ c <> 79.
Definition bic_uri (u owner : str) (category : N) (serial : str) (check : N) : Prop :=
  u = lit "urn:epc:id:bic:" ++ owner ++ category :: serial ++ [check] /\
  length owner = 3%nat /\ (forall c, In c owner -> bic_letter c) /\
  In category (lit "JUZ") /\ length serial = 6%nat /\ ascii_digits serial /\ 48 <= check <= 57.
(** urn:epc:id:imovn:VesselNumber *)
Definition imovn_uri (u vessel : str) : Prop :=
  u = lit "urn:epc:id:imovn:" ++ vessel /\ length vessel = 7%nat /\ ascii_digits vessel.
