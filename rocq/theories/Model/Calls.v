(** How Python hands the arguments of [tag_uri], [binary], [hex] and [base64] to the methods: positional and keyword
    arguments, defaults, and members of the wrong enumeration. *)
From Coq Require Import String.
From Verif.Model Require Import Py Re Regexes Common Base.
From Verif.Model Require Import Adi Cpi Gdti Giai Gid Grai Gsrn Gsrnp Itip Lgtin Sgcn Sgln Sgtin Sscc Usdod Parsers.

(** An argument: a member of the BinaryCodingScheme enumeration of some class, or a member of some filter value
    enumeration.  Other objects are left out: they have no [.value] and end in AttributeError. *)
Inductive member :=
| M_ADI (s : adi_scheme) | M_CPI (s : cpi_scheme) | M_GDTI (s : gdti_scheme) | M_GIAI (s : giai_scheme)
| M_GID (s : gid_scheme) | M_GRAI (s : grai_scheme) | M_GSRN (s : gsrn_scheme) | M_GSRNP (s : gsrnp_scheme)
| M_ITIP (s : itip_scheme) | M_SGCN (s : sgcn_scheme) | M_SGLN (s : sgln_scheme) | M_SGTIN (s : sgtin_scheme)
| M_SSCC (s : sscc_scheme) | M_USDOD (s : usdod_scheme)
| M_filter (n : N).
(** [m.value] *)
Definition member_value (m : member) : str :=
  match m with
  | M_ADI s => adi_scheme_value s | M_CPI s => cpi_scheme_value s | M_GDTI s => gdti_scheme_value s
  | M_GIAI s => giai_scheme_value s | M_GID s => gid_scheme_value s | M_GRAI s => grai_scheme_value s
  | M_GSRN s => gsrn_scheme_value s | M_GSRNP s => gsrnp_scheme_value s | M_ITIP s => itip_scheme_value s
  | M_SGCN s => sgcn_scheme_value s | M_SGLN s => sgln_scheme_value s | M_SGTIN s => sgtin_scheme_value s
  | M_SSCC s => sscc_scheme_value s | M_USDOD s => usdod_scheme_value s
  | M_filter n => filter_value n
  end.
(** [m] is a coding scheme of the class of [e]; [n] the number of a filter value *)
Definition request (e : epc) (m : member) (n : N) : option tagreq :=
  match e, m with
  | E_ADI x, M_ADI s => Some (T_ADI x s n) | E_CPI x, M_CPI s => Some (T_CPI x s n)
  | E_GDTI x, M_GDTI s => Some (T_GDTI x s n) | E_GIAI x, M_GIAI s => Some (T_GIAI x s n)
  | E_GID x, M_GID s => Some (T_GID x s) | E_GRAI x, M_GRAI s => Some (T_GRAI x s n)
  | E_GSRN x, M_GSRN s => Some (T_GSRN x s n) | E_GSRNP x, M_GSRNP s => Some (T_GSRNP x s n)
  | E_ITIP x, M_ITIP s => Some (T_ITIP x s n) | E_SGCN x, M_SGCN s => Some (T_SGCN x s n)
  | E_SGLN x, M_SGLN s => Some (T_SGLN x s n) | E_SGTIN x, M_SGTIN s => Some (T_SGTIN x s n)
  | E_SSCC x, M_SSCC s => Some (T_SSCC x s n) | E_USDOD x, M_USDOD s => Some (T_USDOD x s n)
  | _, _ => None
  end.

(** the last part of the f-string every [tag_uri] returns: adi.py:151, cpi.py:289, gdti.py:235, giai.py:295, gid.py:78,
    grai.py:230, gsrn.py:204, gsrnp.py:206, itip.py:231, sgcn.py:213, sgln.py:230, sgtin.py:294, sscc.py:208, usdod.py:95 *)
Definition tag_uri_body (e : epc) : str :=
  match e with
  | E_ADI x => adi_cage x ++ [c_dot] ++ adi_part x ++ [c_dot] ++ adi_serial x
  | E_CPI x => cpi_cp x ++ [c_dot] ++ cpi_ref x ++ [c_dot] ++ cpi_serial x
  | E_GDTI x => gdti_cp x ++ [c_dot] ++ gdti_doc x ++ [c_dot] ++ gdti_serial x
  | E_GIAI x => giai_cp x ++ [c_dot] ++ giai_asset x
  | E_GID x => gid_manager x ++ [c_dot] ++ gid_object x ++ [c_dot] ++ gid_serial x
  | E_GRAI x => grai_cp x ++ [c_dot] ++ grai_asset x ++ [c_dot] ++ grai_serial x
  | E_GSRN x => gsrn_cp x ++ [c_dot] ++ gsrn_service x
  | E_GSRNP x => gsrnp_cp x ++ [c_dot] ++ gsrnp_service x
  | E_ITIP x => itip_cp x ++ [c_dot] ++ itip_item x ++ [c_dot] ++ itip_piece x ++ [c_dot] ++ itip_total x ++ [c_dot] ++ itip_serial x
  | E_SGCN x => sgcn_cp x ++ [c_dot] ++ sgcn_coupon x ++ [c_dot] ++ sgcn_serial x
  | E_SGLN x => sgln_cp x ++ [c_dot] ++ sgln_loc x ++ [c_dot] ++ sgln_serial x
  | E_SGTIN x => sgtin_cp x ++ [c_dot] ++ sgtin_item x ++ [c_dot] ++ sgtin_serial x
  | E_SSCC x => sscc_cp x ++ [c_dot] ++ sscc_serial x
  | E_USDOD x => usdod_cage x ++ [c_dot] ++ usdod_serial x
  | _ => []
  end.
(** [e.tag_uri] once its parameters are bound.  The guards of the methods compare [s] with the coding schemes of the class
    of [e] and do not look at [f], so for those the guard is that of the model with any filter value; other members pass. *)
Definition tag_uri_members (e : epc) (s f : member) : res str :=
  let* _ := match request e s 0 with Some q => req_tag_uri q | None => Ok [] end in
  Ok (TAG_URI_PREFIX ++ member_value s ++ [c_colon] ++
      match e with E_GID _ => [] | _ => member_value f ++ [c_dot] end ++ tag_uri_body e).
(** [e.binary] once its parameters are bound: the header is looked up by the name of [s] first (KeyError), then the value of
    [f] is read as a number (ValueError for the value of a coding scheme) *)
Definition binary_members (e : epc) (s f : member) : res str :=
  match request e s (match f with M_filter n => n | _ => 0 end) with
  | None => Raise KeyError
  | Some q =>
      let* _ := match e, f with
                | E_GID _, _ | _, M_filter _ => Ok []
                | _, _ => str_to_binary (member_value f) 3
                end in
      req_binary q
  end.

Inductive param := P_scheme | P_filter.
(** parameters in order, with their defaults: adi.py:137-141, cpi.py:260-262, gdti.py:202-206, giai.py:259-261, gid.py:65-68,
    grai.py:200-202, gsrn.py:190-194, gsrnp.py:190-194, itip.py:201-203, sgcn.py:198-202, sgln.py:202-204, sgtin.py:265-269,
    sscc.py:193-197, usdod.py:80-84 *)
Definition tag_uri_params (c : cls) : list (param * option member) :=
  match c with
  | C_ADI => [(P_filter, None); (P_scheme, Some (M_ADI ADI_VAR))]
  | C_CPI | C_GDTI | C_GIAI | C_GRAI | C_ITIP | C_SGLN | C_SGTIN => [(P_scheme, None); (P_filter, None)]
  | C_GID => [(P_scheme, Some (M_GID GID_96))]
  | C_GSRN => [(P_scheme, Some (M_GSRN GSRN_96)); (P_filter, Some (M_filter 0))]
  | C_GSRNP => [(P_scheme, Some (M_GSRNP GSRNP_96)); (P_filter, Some (M_filter 0))]
  | C_SGCN => [(P_filter, None); (P_scheme, Some (M_SGCN SGCN_96))]
  | C_SSCC => [(P_filter, None); (P_scheme, Some (M_SSCC SSCC_96))]
  | C_USDOD => [(P_filter, None); (P_scheme, Some (M_USDOD USDOD_96))]
  | _ => []
  end.
(** adi.py:153-157, cpi.py:293-297, gdti.py:237-241, giai.py:297-301, gid.py:80-83, grai.py:232-236, gsrn.py:206-210,
    gsrnp.py:208-212, itip.py:233-237, sgcn.py:215-219, sgln.py:232-236, sgtin.py:296-300, sscc.py:210-214, usdod.py:97-101 *)
Definition binary_params (c : cls) : list (param * option member) :=
  match c with
  | C_ADI => [(P_filter, None); (P_scheme, Some (M_ADI ADI_VAR))]
  | C_CPI | C_GDTI | C_GIAI | C_GRAI | C_SGLN | C_SGTIN => [(P_scheme, None); (P_filter, None)]
  | C_GID => [(P_scheme, Some (M_GID GID_96))]
  | C_GSRN => [(P_scheme, Some (M_GSRN GSRN_96)); (P_filter, Some (M_filter 0))]
  | C_GSRNP => [(P_scheme, Some (M_GSRNP GSRNP_96)); (P_filter, Some (M_filter 0))]
  | C_ITIP => [(P_filter, None); (P_scheme, None)]
  | C_SGCN => [(P_filter, None); (P_scheme, Some (M_SGCN SGCN_96))]
  | C_SSCC => [(P_filter, None); (P_scheme, Some (M_SSCC SSCC_96))]
  | C_USDOD => [(P_filter, None); (P_scheme, Some (M_USDOD USDOD_96))]
  | _ => []
  end.

(** keyword arguments: binary_coding_scheme, filter_value, and whether any other keyword is given *)
Record kwargs := mkKw { kw_scheme : option member; kw_filter : option member; kw_other : bool }.
Definition kw_get (k : kwargs) (p : param) : option member := match p with P_scheme => kw_scheme k | P_filter => kw_filter k end.
Definition kw_none : kwargs := mkKw None None false.
(** Python's rules for binding arguments: positional ones first, in order; TypeError for too many of them, for a parameter
    given twice and for one that is missing *)
Fixpoint bind_params (ps : list (param * option member)) (args : list member) (k : kwargs) : res (list (param * member)) :=
  match ps with
  | [] => match args with [] => Ok [] | _ => Raise TypeError end
  | (p, d) :: ps' =>
      match args with
      | a :: args' =>
          match kw_get k p with
          | Some _ => Raise TypeError
          | None => let* l := bind_params ps' args' k in Ok ((p, a) :: l)
          end
      | [] =>
          match kw_get k p with
          | Some a => let* l := bind_params ps' [] k in Ok ((p, a) :: l)
          | None => match d with
                    | Some a => let* l := bind_params ps' [] k in Ok ((p, a) :: l)
                    | None => Raise TypeError
                    end
          end
      end
  end.
Definition is_param (p q : param) : bool := match p, q with P_scheme, P_scheme | P_filter, P_filter => true | _, _ => false end.
(** a keyword the method does not have is a TypeError too (GID has no filter_value) *)
Definition unexpected (ps : list (param * option member)) (k : kwargs) : bool :=
  kw_other k ||
  existsb (fun p => match kw_get k p with Some _ => negb (existsb (fun q => is_param p (fst q)) ps) | None => false end) [P_scheme; P_filter].
Definition bind_call (ps : list (param * option member)) (args : list member) (k : kwargs) : res (list (param * member)) :=
  let* _ := raise_if (unexpected ps k) TypeError in bind_params ps args k.
(** the value of a parameter; [M_filter 0] stands for GID's missing filter and is not looked at *)
Definition bound (p : param) (l : list (param * member)) : member :=
  match find (fun x => is_param p (fst x)) l with Some (_, m) => m | None => M_filter 0 end.

(** [e.tag_uri( *args, **kwargs )] and [e.binary( *args, **kwargs )]; meant for objects of the 14 classes that have these
    methods *)
Definition call_tag_uri (e : epc) (args : list member) (k : kwargs) : res str :=
  let* l := bind_call (tag_uri_params (class_of e)) args k in
  tag_uri_members e (bound P_scheme l) (bound P_filter l).
Definition call_binary (e : epc) (args : list member) (k : kwargs) : res str :=
  let* l := bind_call (binary_params (class_of e)) args k in
  binary_members e (bound P_scheme l) (bound P_filter l).
(** base_scheme.py:106-117: [hex( *args, **kwargs )] calls [self.binary( **kwargs )] *)
Definition call_hex (e : epc) (args : list member) (k : kwargs) : res str := binary_hex (call_binary e [] k).
(** base_scheme.py:119-127: [base64( *args, **kwargs )] calls [self.hex( **kwargs )] *)
Definition call_base64 (e : epc) (args : list member) (k : kwargs) : res str :=
  let* h := call_hex e [] k in hex_to_base64 h.

(** gtin_type is an IntEnum and [gtin] computes with it, so any int (or bool) may be passed for it: sgtin.py:207-224 and
    lgtin.py:94-111 with an integer; [n * "0"] is empty for a negative n *)
Definition gtin_view_int (gtin : str) (gtin_type : Z) : res str :=
  let* _ := raise_if (negb (gtin_type =? 14)%Z && negb (startswith (repeat c_0 (Z.to_nat (14 - gtin_type))) gtin)) ConvertException in
  Ok (slz (Some (14 - gtin_type)%Z) (Some 14%Z) gtin).
Definition sgtin_gtin_int (x : sgtin) (gtin_type : Z) : res str := gtin_view_int (sgtin_gtin_ x) gtin_type.
Definition lgtin_gtin_int (x : lgtin) (gtin_type : Z) : res str := gtin_view_int (lgtin_gtin_ x) gtin_type.

(** [X.from_tag_uri(u, includes_filter)] with the second argument given: base_scheme.py:169-196 for every class, reached
    through gid.py:101-115 for GID *)
Definition from_tag_uri_flag (c : cls) (u : str) (includes_filter : bool) : res epc :=
  match c with
  | C_ADI => lift E_ADI (from_tag_uri adi_init u includes_filter)
  | C_CPI => lift E_CPI (from_tag_uri cpi_init u includes_filter)
  | C_GDTI => lift E_GDTI (from_tag_uri gdti_init u includes_filter)
  | C_GIAI => lift E_GIAI (from_tag_uri giai_init u includes_filter)
  | C_GID => lift E_GID (from_tag_uri gid_init u includes_filter)
  | C_GRAI => lift E_GRAI (from_tag_uri grai_init u includes_filter)
  | C_GSRN => lift E_GSRN (from_tag_uri gsrn_init u includes_filter)
  | C_GSRNP => lift E_GSRNP (from_tag_uri gsrnp_init u includes_filter)
  | C_ITIP => lift E_ITIP (from_tag_uri itip_init u includes_filter)
  | C_SGCN => lift E_SGCN (from_tag_uri sgcn_init u includes_filter)
  | C_SGLN => lift E_SGLN (from_tag_uri sgln_init u includes_filter)
  | C_SGTIN => lift E_SGTIN (from_tag_uri sgtin_init u includes_filter)
  | C_SSCC => lift E_SSCC (from_tag_uri sscc_init u includes_filter)
  | C_USDOD => lift E_USDOD (from_tag_uri usdod_init u includes_filter)
  | _ => Raise TypeError
  end.
