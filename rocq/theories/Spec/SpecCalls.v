(** What a caller of [tag_uri], [binary], [hex] or [base64] may mean by the arguments. *)
From Verif.Model Require Import Py Base.
From Verif.Model Require Import Adi Cpi Gdti Giai Gid Grai Gsrn Gsrnp Itip Sgcn Sgln Sgtin Sscc Usdod Parsers Calls.
From Verif.Spec Require Import SpecGrammar SpecSchemes.

(** the class a coding scheme belongs to; none for a filter value *)
Definition member_class (m : member) : option cls :=
  match m with
  | M_ADI _ => Some C_ADI | M_CPI _ => Some C_CPI | M_GDTI _ => Some C_GDTI | M_GIAI _ => Some C_GIAI | M_GID _ => Some C_GID
  | M_GRAI _ => Some C_GRAI | M_GSRN _ => Some C_GSRN | M_GSRNP _ => Some C_GSRNP | M_ITIP _ => Some C_ITIP
  | M_SGCN _ => Some C_SGCN | M_SGLN _ => Some C_SGLN | M_SGTIN _ => Some C_SGTIN | M_SSCC _ => Some C_SSCC
  | M_USDOD _ => Some C_USDOD | M_filter _ => None
  end.
(** the coding scheme and the filter value of a request *)
Definition req_scheme (q : tagreq) : member :=
  match q with
  | T_ADI _ s _ => M_ADI s | T_CPI _ s _ => M_CPI s | T_GDTI _ s _ => M_GDTI s | T_GIAI _ s _ => M_GIAI s | T_GID _ s => M_GID s
  | T_GRAI _ s _ => M_GRAI s | T_GSRN _ s _ => M_GSRN s | T_GSRNP _ s _ => M_GSRNP s | T_ITIP _ s _ => M_ITIP s
  | T_SGCN _ s _ => M_SGCN s | T_SGLN _ s _ => M_SGLN s | T_SGTIN _ s _ => M_SGTIN s | T_SSCC _ s _ => M_SSCC s
  | T_USDOD _ s _ => M_USDOD s
  end.
Definition req_filter_arg (q : tagreq) : option member := option_map M_filter (req_filter q).
(** the request spelled out with keywords *)
Definition keywords (q : tagreq) : kwargs := mkKw (Some (req_scheme q)) (req_filter_arg q) false.

(** The order of the parameters.  [tag_uri] and [binary] agree on it but for ITIP. *)
Inductive order := Scheme_first | Filter_first | Scheme_only.
Definition tag_uri_order (c : cls) : order :=
  match c with C_GID => Scheme_only | C_ADI | C_SGCN | C_SSCC | C_USDOD => Filter_first | _ => Scheme_first end.
Definition binary_order (c : cls) : order :=
  match c with
  | C_GID => Scheme_only | C_ADI | C_SGCN | C_SSCC | C_USDOD | C_ITIP => Filter_first | _ => Scheme_first
  end.
(** the arguments of a request by position, in the given order *)
Definition positional (o : order) (q : tagreq) : list member :=
  match o, req_filter_arg q with
  | Scheme_first, Some f => [req_scheme q; f]
  | Filter_first, Some f => [f; req_scheme q]
  | _, _ => [req_scheme q]
  end.
Definition swap (o : order) : order :=
  match o with Scheme_first => Filter_first | Filter_first => Scheme_first | Scheme_only => Scheme_only end.

(** the requests a call without arguments stands for *)
Definition default_request (e : epc) : option tagreq :=
  match e with
  | E_GSRN x => Some (T_GSRN x GSRN_96 0) | E_GSRNP x => Some (T_GSRNP x GSRNP_96 0) | E_GID x => Some (T_GID x GID_96)
  | _ => None
  end.
(** and those a call with a filter value only stands for *)
Definition filter_only_request (e : epc) (f : N) : option tagreq :=
  match e with
  | E_ADI x => Some (T_ADI x ADI_VAR f) | E_SGCN x => Some (T_SGCN x SGCN_96 f) | E_SSCC x => Some (T_SSCC x SSCC_96 f)
  | E_USDOD x => Some (T_USDOD x USDOD_96 f)
  | _ => None
  end.
