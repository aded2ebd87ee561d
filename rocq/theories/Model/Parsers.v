(** epcpy/utils/parsers.py, and the parts of base_scheme.py that work on any scheme object *)
From Coq Require Import String.
From Verif.Model Require Import Py Re Regexes Common Base.
From Verif.Model Require Import Adi Cpi Gdti Giai Gid Grai Gsrn Gsrnp Itip Lgtin Sgcn Sgln Sgtin Sscc Usdod Others.

(** * Classes and objects *)

(** parsers.py:41-63 EPC_SCHEMES, in that order *)
Inductive cls :=
| C_ADI | C_BIC | C_CPI | C_GDTI | C_GIAI | C_GID | C_GINC | C_GRAI | C_GSIN | C_GSRN | C_GSRNP | C_IMOVN | C_ITIP | C_LGTIN | C_PGLN | C_SGCN | C_SGLN | C_SGTIN | C_SSCC | C_UPUI | C_USDOD.
Definition EPC_SCHEMES : list cls :=
  [C_ADI; C_BIC; C_CPI; C_GDTI; C_GIAI; C_GID; C_GINC; C_GRAI; C_GSIN; C_GSRN; C_GSRNP; C_IMOVN; C_ITIP; C_LGTIN; C_PGLN; C_SGCN; C_SGLN; C_SGTIN; C_SSCC; C_UPUI; C_USDOD].

(** an instance of one of the classes *)
Inductive epc :=
| E_ADI (x : adi)
| E_BIC (x : bic)
| E_CPI (x : cpi)
| E_GDTI (x : gdti)
| E_GIAI (x : giai)
| E_GID (x : gid)
| E_GINC (x : ginc)
| E_GRAI (x : grai)
| E_GSIN (x : gsin)
| E_GSRN (x : gsrn)
| E_GSRNP (x : gsrnp)
| E_IMOVN (x : imovn)
| E_ITIP (x : itip)
| E_LGTIN (x : lgtin)
| E_PGLN (x : pgln)
| E_SGCN (x : sgcn)
| E_SGLN (x : sgln)
| E_SGTIN (x : sgtin)
| E_SSCC (x : sscc)
| E_UPUI (x : upui)
| E_USDOD (x : usdod).

Definition class_of (e : epc) : cls :=
  match e with
  | E_ADI _ => C_ADI
  | E_BIC _ => C_BIC
  | E_CPI _ => C_CPI
  | E_GDTI _ => C_GDTI
  | E_GIAI _ => C_GIAI
  | E_GID _ => C_GID
  | E_GINC _ => C_GINC
  | E_GRAI _ => C_GRAI
  | E_GSIN _ => C_GSIN
  | E_GSRN _ => C_GSRN
  | E_GSRNP _ => C_GSRNP
  | E_IMOVN _ => C_IMOVN
  | E_ITIP _ => C_ITIP
  | E_LGTIN _ => C_LGTIN
  | E_PGLN _ => C_PGLN
  | E_SGCN _ => C_SGCN
  | E_SGLN _ => C_SGLN
  | E_SGTIN _ => C_SGTIN
  | E_SSCC _ => C_SSCC
  | E_UPUI _ => C_UPUI
  | E_USDOD _ => C_USDOD
  end.

(** base_scheme.py:24 [self.epc_uri] *)
Definition epc_uri (e : epc) : str :=
  match e with
  | E_ADI x => adi_epc_uri x
  | E_BIC x => bic_epc_uri x
  | E_CPI x => cpi_epc_uri x
  | E_GDTI x => gdti_epc_uri x
  | E_GIAI x => giai_epc_uri x
  | E_GID x => gid_epc_uri x
  | E_GINC x => ginc_epc_uri x
  | E_GRAI x => grai_epc_uri x
  | E_GSIN x => gsin_epc_uri x
  | E_GSRN x => gsrn_epc_uri x
  | E_GSRNP x => gsrnp_epc_uri x
  | E_IMOVN x => imovn_epc_uri x
  | E_ITIP x => itip_epc_uri x
  | E_LGTIN x => lgtin_epc_uri x
  | E_PGLN x => pgln_epc_uri x
  | E_SGCN x => sgcn_epc_uri x
  | E_SGLN x => sgln_epc_uri x
  | E_SGTIN x => sgtin_epc_uri x
  | E_SSCC x => sscc_epc_uri x
  | E_UPUI x => upui_epc_uri x
  | E_USDOD x => usdod_epc_uri x
  end.

(** base_scheme.py:26-38, __eq__: URIs are compared *)
Definition epc_eqb (a b : epc) : bool := str_eqb (epc_uri a) (epc_uri b).

(** lift a class's constructor to [epc] *)
Definition lift {T U} (inj : T -> U) (r : res T) : res U := let* x := r in Ok (inj x).

(** [cls(uri)]; also [cls.from_epc_uri] (base_scheme.py:40-50) *)
Definition init_of (c : cls) (uri : str) : res epc :=
  match c with
  | C_ADI => lift E_ADI (adi_init uri)
  | C_BIC => lift E_BIC (bic_init uri)
  | C_CPI => lift E_CPI (cpi_init uri)
  | C_GDTI => lift E_GDTI (gdti_init uri)
  | C_GIAI => lift E_GIAI (giai_init uri)
  | C_GID => lift E_GID (gid_init uri)
  | C_GINC => lift E_GINC (ginc_init uri)
  | C_GRAI => lift E_GRAI (grai_init uri)
  | C_GSIN => lift E_GSIN (gsin_init uri)
  | C_GSRN => lift E_GSRN (gsrn_init uri)
  | C_GSRNP => lift E_GSRNP (gsrnp_init uri)
  | C_IMOVN => lift E_IMOVN (imovn_init uri)
  | C_ITIP => lift E_ITIP (itip_init uri)
  | C_LGTIN => lift E_LGTIN (lgtin_init uri)
  | C_PGLN => lift E_PGLN (pgln_init uri)
  | C_SGCN => lift E_SGCN (sgcn_init uri)
  | C_SGLN => lift E_SGLN (sgln_init uri)
  | C_SGTIN => lift E_SGTIN (sgtin_init uri)
  | C_SSCC => lift E_SSCC (sscc_init uri)
  | C_UPUI => lift E_UPUI (upui_init uri)
  | C_USDOD => lift E_USDOD (usdod_init uri)
  end.

(** [cls.__name__.lower()] *)
Definition identifier (c : cls) : str :=
  match c with
  | C_ADI => lit "adi"
  | C_BIC => lit "bic"
  | C_CPI => lit "cpi"
  | C_GDTI => lit "gdti"
  | C_GIAI => lit "giai"
  | C_GID => lit "gid"
  | C_GINC => lit "ginc"
  | C_GRAI => lit "grai"
  | C_GSIN => lit "gsin"
  | C_GSRN => lit "gsrn"
  | C_GSRNP => lit "gsrnp"
  | C_IMOVN => lit "imovn"
  | C_ITIP => lit "itip"
  | C_LGTIN => lit "lgtin"
  | C_PGLN => lit "pgln"
  | C_SGCN => lit "sgcn"
  | C_SGLN => lit "sgln"
  | C_SGTIN => lit "sgtin"
  | C_SSCC => lit "sscc"
  | C_UPUI => lit "upui"
  | C_USDOD => lit "usdod"
  end.

(** [issubclass(cls, GS1Keyed)] *)
Definition is_gs1_keyed (c : cls) : bool :=
  match c with
  | C_GDTI | C_GIAI | C_GINC | C_GRAI | C_GSIN | C_GSRN | C_GSRNP | C_LGTIN | C_PGLN | C_SGCN | C_SGLN | C_SGTIN | C_SSCC => true
  | _ => false
  end.

(** [issubclass(cls, GS1Element)]; GS1Keyed is a subclass of GS1Element (base_scheme.py) *)
Definition is_gs1_element (c : cls) : bool :=
  match c with
  | C_CPI | C_GDTI | C_GIAI | C_GINC | C_GRAI | C_GSIN | C_GSRN | C_GSRNP | C_ITIP | C_LGTIN | C_PGLN | C_SGCN | C_SGLN | C_SGTIN | C_SSCC | C_UPUI => true
  | _ => false
  end.

(** [issubclass(cls, TagEncodable)] *)
Definition is_tag_encodable (c : cls) : bool :=
  match c with
  | C_ADI | C_CPI | C_GDTI | C_GIAI | C_GID | C_GRAI | C_GSRN | C_GSRNP | C_ITIP | C_SGCN | C_SGLN | C_SGTIN | C_SSCC | C_USDOD => true
  | _ => false
  end.

(** parsers.py:64-69 *)
Definition GS1_KEYED_CLASSES : list cls := filter is_gs1_keyed EPC_SCHEMES.
Definition TAG_ENCODABLE_CLASSES : list cls := filter is_tag_encodable EPC_SCHEMES.

(** the values of [cls.BinaryHeader], in declaration order *)
Definition binary_headers (c : cls) : list str :=
  match c with
  | C_ADI => [adi_header ADI_VAR]
  | C_CPI => [cpi_header CPI_96; cpi_header CPI_VAR]
  | C_GDTI => [gdti_header GDTI_96; gdti_header GDTI_174]
  | C_GIAI => [giai_header GIAI_96; giai_header GIAI_202]
  | C_GID => [gid_header GID_96]
  | C_GRAI => [grai_header GRAI_96; grai_header GRAI_170]
  | C_GSRN => [gsrn_header GSRN_96]
  | C_GSRNP => [gsrnp_header GSRNP_96]
  | C_ITIP => [itip_header ITIP_110; itip_header ITIP_212]
  | C_SGCN => [sgcn_header SGCN_96]
  | C_SGLN => [sgln_header SGLN_96; sgln_header SGLN_195]
  | C_SGTIN => [sgtin_header SGTIN_96; sgtin_header SGTIN_198]
  | C_SSCC => [sscc_header SSCC_96]
  | C_USDOD => [usdod_header USDOD_96]
  | _ => []
  end.

(** parsers.py:71-78.  Later entries of a dict display overwrite earlier ones; the keys are
    distinct, so a first-match association list is the same dictionary. *)
Definition TAG_ENCODABLE_BINARY_HEADERS : list (str * cls) :=
  flat_map (fun c => map (fun h => (h, c)) (binary_headers c)) TAG_ENCODABLE_CLASSES.
Definition header_hex (h : str) : str := match binary_to_hex h with Ok x => x | Raise _ => [] end.
Definition TAG_ENCODABLE_HEX_HEADERS : list (str * cls) :=
  map (fun p => (header_hex (fst p), snd p)) TAG_ENCODABLE_BINARY_HEADERS.

(** [cls.gs1_element_string_regex] *)
Definition gs1_element_string_regex (c : cls) : re :=
  match c with
  | C_CPI => CPI_GS1_ELEMENT_STRING
  | C_GDTI => GDTI_GS1_ELEMENT_STRING
  | C_GIAI => GIAI_GS1_ELEMENT_STRING
  | C_GINC => GINC_GS1_ELEMENT_STRING
  | C_GRAI => GRAI_GS1_ELEMENT_STRING
  | C_GSIN => GSIN_GS1_ELEMENT_STRING
  | C_GSRN => GSRN_GS1_ELEMENT_STRING
  | C_GSRNP => GSRNP_GS1_ELEMENT_STRING
  | C_ITIP => ITIP_GS1_ELEMENT_STRING
  | C_LGTIN => LGTIN_GS1_ELEMENT_STRING
  | C_PGLN => PGLN_GS1_ELEMENT_STRING
  | C_SGCN => SGCN_GS1_ELEMENT_STRING
  | C_SGLN => SGLN_GS1_ELEMENT_STRING
  | C_SGTIN => SGTIN_GS1_ELEMENT_STRING
  | C_SSCC => SSCC_GS1_ELEMENT_STRING
  | C_UPUI => UPUI_GS1_ELEMENT_STRING
  | _ => REmp
  end.

(** parsers.py:80-84 *)
Definition GS1_ELEMENT_STRING_REGEX_TO_SCHEME : list (re * cls) :=
  map (fun c => (gs1_element_string_regex c, c)) (filter is_gs1_element EPC_SCHEMES).

(** parsers.py:86-90 *)
Definition EPC_SCHEME_IDENTIFIERS : list (str * cls) := map (fun c => (identifier c, c)) EPC_SCHEMES.
Definition TAG_ENCODABLE_SCHEME_IDENTIFIERS : list (str * cls) :=
  map (fun c => (identifier c, c)) TAG_ENCODABLE_CLASSES.
Definition GS1_KEYED_SCHEME_IDENTIFIERS : list (str * cls) :=
  map (fun c => (identifier c, c)) GS1_KEYED_CLASSES.

(** the class methods, by class.  The classes without the method are never looked up; the value
    there is immaterial. *)
Definition from_binary_of (c : cls) (b : str) : res epc :=
  match c with
  | C_ADI => lift E_ADI (adi_from_binary b)
  | C_CPI => lift E_CPI (cpi_from_binary b)
  | C_GDTI => lift E_GDTI (gdti_from_binary b)
  | C_GIAI => lift E_GIAI (giai_from_binary b)
  | C_GID => lift E_GID (gid_from_binary b)
  | C_GRAI => lift E_GRAI (grai_from_binary b)
  | C_GSRN => lift E_GSRN (gsrn_from_binary b)
  | C_GSRNP => lift E_GSRNP (gsrnp_from_binary b)
  | C_ITIP => lift E_ITIP (itip_from_binary b)
  | C_SGCN => lift E_SGCN (sgcn_from_binary b)
  | C_SGLN => lift E_SGLN (sgln_from_binary b)
  | C_SGTIN => lift E_SGTIN (sgtin_from_binary b)
  | C_SSCC => lift E_SSCC (sscc_from_binary b)
  | C_USDOD => lift E_USDOD (usdod_from_binary b)
  | _ => Raise TypeError
  end.
Definition from_tag_uri_of (c : cls) (u : str) : res epc :=
  match c with
  | C_ADI => lift E_ADI (adi_from_tag_uri u)
  | C_CPI => lift E_CPI (cpi_from_tag_uri u)
  | C_GDTI => lift E_GDTI (gdti_from_tag_uri u)
  | C_GIAI => lift E_GIAI (giai_from_tag_uri u)
  | C_GID => lift E_GID (gid_from_tag_uri u)
  | C_GRAI => lift E_GRAI (grai_from_tag_uri u)
  | C_GSRN => lift E_GSRN (gsrn_from_tag_uri u)
  | C_GSRNP => lift E_GSRNP (gsrnp_from_tag_uri u)
  | C_ITIP => lift E_ITIP (itip_from_tag_uri u)
  | C_SGCN => lift E_SGCN (sgcn_from_tag_uri u)
  | C_SGLN => lift E_SGLN (sgln_from_tag_uri u)
  | C_SGTIN => lift E_SGTIN (sgtin_from_tag_uri u)
  | C_SSCC => lift E_SSCC (sscc_from_tag_uri u)
  | C_USDOD => lift E_USDOD (usdod_from_tag_uri u)
  | _ => Raise TypeError
  end.
Definition from_gs1_element_string_of (c : cls) (g : str) (l : Z) : res epc :=
  match c with
  | C_CPI => lift E_CPI (cpi_from_gs1_element_string g l)
  | C_GDTI => lift E_GDTI (gdti_from_gs1_element_string g l)
  | C_GIAI => lift E_GIAI (giai_from_gs1_element_string g l)
  | C_GINC => lift E_GINC (ginc_from_gs1_element_string g l)
  | C_GRAI => lift E_GRAI (grai_from_gs1_element_string g l)
  | C_GSIN => lift E_GSIN (gsin_from_gs1_element_string g l)
  | C_GSRN => lift E_GSRN (gsrn_from_gs1_element_string g l)
  | C_GSRNP => lift E_GSRNP (gsrnp_from_gs1_element_string g l)
  | C_ITIP => lift E_ITIP (itip_from_gs1_element_string g l)
  | C_LGTIN => lift E_LGTIN (lgtin_from_gs1_element_string g l)
  | C_PGLN => lift E_PGLN (pgln_from_gs1_element_string g l)
  | C_SGCN => lift E_SGCN (sgcn_from_gs1_element_string g l)
  | C_SGLN => lift E_SGLN (sgln_from_gs1_element_string g l)
  | C_SGTIN => lift E_SGTIN (sgtin_from_gs1_element_string g l)
  | C_SSCC => lift E_SSCC (sscc_from_gs1_element_string g l)
  | C_UPUI => lift E_UPUI (upui_from_gs1_element_string g l)
  | _ => Raise TypeError
  end.

(** [e.gs1_element_string()] *)
Definition epc_gs1_element_string (e : epc) : res str :=
  match e with
  | E_CPI x => Ok (cpi_gs1_element_string x)
  | E_GDTI x => Ok (gdti_gs1_element_string x)
  | E_GIAI x => Ok (giai_gs1_element_string x)
  | E_GINC x => Ok (ginc_gs1_element_string x)
  | E_GRAI x => Ok (grai_gs1_element_string x)
  | E_GSIN x => Ok (gsin_gs1_element_string x)
  | E_GSRN x => Ok (gsrn_gs1_element_string x)
  | E_GSRNP x => Ok (gsrnp_gs1_element_string x)
  | E_ITIP x => itip_gs1_element_string x
  | E_LGTIN x => Ok (lgtin_gs1_element_string x)
  | E_PGLN x => Ok (pgln_gs1_element_string x)
  | E_SGCN x => Ok (sgcn_gs1_element_string x)
  | E_SGLN x => Ok (sgln_gs1_element_string x)
  | E_SGTIN x => Ok (sgtin_gs1_element_string x)
  | E_SSCC x => Ok (sscc_gs1_element_string x)
  | E_UPUI x => upui_gs1_element_string x
  | _ => Raise TypeError
  end.

(** [e.gs1_key( **kwargs )]; the only keyword any [gs1_key] takes is SGTIN's and LGTIN's [gtin_type]
    (default GTIN14); the other classes raise TypeError when it is given *)
Definition epc_gs1_key (e : epc) (gtin_type : option gtin_type) : res str :=
  let plain k := match gtin_type with None => Ok k | Some _ => Raise TypeError end in
  let t := match gtin_type with None => GTIN14 | Some t => t end in
  match e with
  | E_GDTI x => plain (gdti_gs1_key x)
  | E_GIAI x => plain (giai_gs1_key x)
  | E_GINC x => plain (ginc_gs1_key x)
  | E_GRAI x => plain (grai_gs1_key x)
  | E_GSIN x => plain (gsin_gs1_key x)
  | E_GSRN x => plain (gsrn_gs1_key x)
  | E_GSRNP x => plain (gsrnp_gs1_key x)
  | E_LGTIN x => lgtin_gs1_key x t
  | E_PGLN x => plain (pgln_gs1_key x)
  | E_SGCN x => plain (sgcn_gs1_key x)
  | E_SGLN x => plain (sgln_gs1_key x)
  | E_SGTIN x => sgtin_gs1_key x t
  | E_SSCC x => plain (sscc_gs1_key x)
  | _ => Raise TypeError
  end.

(** an object together with the arguments of its [tag_uri]/[binary]/[hex]/[base64] methods:
    a coding scheme of its class and a filter value *)
Inductive tagreq :=
| T_ADI (x : adi) (s : adi_scheme) (f : N)
| T_CPI (x : cpi) (s : cpi_scheme) (f : N)
| T_GDTI (x : gdti) (s : gdti_scheme) (f : N)
| T_GIAI (x : giai) (s : giai_scheme) (f : N)
| T_GID (x : gid) (s : gid_scheme)
| T_GRAI (x : grai) (s : grai_scheme) (f : N)
| T_GSRN (x : gsrn) (s : gsrn_scheme) (f : N)
| T_GSRNP (x : gsrnp) (s : gsrnp_scheme) (f : N)
| T_ITIP (x : itip) (s : itip_scheme) (f : N)
| T_SGCN (x : sgcn) (s : sgcn_scheme) (f : N)
| T_SGLN (x : sgln) (s : sgln_scheme) (f : N)
| T_SGTIN (x : sgtin) (s : sgtin_scheme) (f : N)
| T_SSCC (x : sscc) (s : sscc_scheme) (f : N)
| T_USDOD (x : usdod) (s : usdod_scheme) (f : N).
Definition req_epc (t : tagreq) : epc :=
  match t with
  | T_ADI x s f => E_ADI x
  | T_CPI x s f => E_CPI x
  | T_GDTI x s f => E_GDTI x
  | T_GIAI x s f => E_GIAI x
  | T_GID x s => E_GID x
  | T_GRAI x s f => E_GRAI x
  | T_GSRN x s f => E_GSRN x
  | T_GSRNP x s f => E_GSRNP x
  | T_ITIP x s f => E_ITIP x
  | T_SGCN x s f => E_SGCN x
  | T_SGLN x s f => E_SGLN x
  | T_SGTIN x s f => E_SGTIN x
  | T_SSCC x s f => E_SSCC x
  | T_USDOD x s f => E_USDOD x
  end.
Definition req_binary (t : tagreq) : res str :=
  match t with
  | T_ADI x s f => adi_binary x s f
  | T_CPI x s f => cpi_binary x s f
  | T_GDTI x s f => gdti_binary x s f
  | T_GIAI x s f => giai_binary x s f
  | T_GID x s => gid_binary x s
  | T_GRAI x s f => grai_binary x s f
  | T_GSRN x s f => gsrn_binary x s f
  | T_GSRNP x s f => gsrnp_binary x s f
  | T_ITIP x s f => itip_binary x s f
  | T_SGCN x s f => sgcn_binary x s f
  | T_SGLN x s f => sgln_binary x s f
  | T_SGTIN x s f => sgtin_binary x s f
  | T_SSCC x s f => sscc_binary x s f
  | T_USDOD x s f => usdod_binary x s f
  end.
Definition req_tag_uri (t : tagreq) : res str :=
  match t with
  | T_ADI x s f => adi_tag_uri x s f
  | T_CPI x s f => cpi_tag_uri x s f
  | T_GDTI x s f => gdti_tag_uri x s f
  | T_GIAI x s f => giai_tag_uri x s f
  | T_GID x s => gid_tag_uri x s
  | T_GRAI x s f => grai_tag_uri x s f
  | T_GSRN x s f => gsrn_tag_uri x s f
  | T_GSRNP x s f => gsrnp_tag_uri x s f
  | T_ITIP x s f => itip_tag_uri x s f
  | T_SGCN x s f => sgcn_tag_uri x s f
  | T_SGLN x s f => sgln_tag_uri x s f
  | T_SGTIN x s f => sgtin_tag_uri x s f
  | T_SSCC x s f => sscc_tag_uri x s f
  | T_USDOD x s f => usdod_tag_uri x s f
  end.
(** [x.hex(...)] and [x.base64(...)] *)
Definition req_hex (t : tagreq) : res str := binary_hex (req_binary t).
Definition req_base64 (t : tagreq) : res str := binary_base64 (req_binary t).

(** * The parsers *)

(** parsers.py:139-156 *)
Definition epc_pure_identity_to_scheme (uri : str) : res epc :=
  let* identifier := idx (split c_colon uri) 3 in
  let* c := of_option ConvertException (assoc_str identifier EPC_SCHEME_IDENTIFIERS) in
  init_of c uri.

(** parsers.py:159-176 *)
Definition epc_pure_identity_to_gs1_element (uri : str) : res epc :=
  let* e := epc_pure_identity_to_scheme uri in
  let* _ := raise_if (negb (is_gs1_element (class_of e))) ConvertException in
  Ok e.

(** parsers.py:179-188 *)
Definition epc_pure_identity_to_gs1_element_string (uri : str) : res str :=
  let* e := epc_pure_identity_to_gs1_element uri in epc_gs1_element_string e.

(** parsers.py:191-208 *)
Definition epc_pure_identity_to_gs1_keyed (uri : str) : res epc :=
  let* e := epc_pure_identity_to_scheme uri in
  let* _ := raise_if (negb (is_gs1_keyed (class_of e))) ConvertException in
  Ok e.

(** parsers.py:211-220 *)
Definition epc_pure_identity_to_gs1_key (uri : str) (kwargs : option gtin_type) : res str :=
  let* e := epc_pure_identity_to_gs1_keyed uri in epc_gs1_key e kwargs.

(** parsers.py:223-240 *)
Definition epc_pure_identity_to_tag_encodable (uri : str) : res epc :=
  let* e := epc_pure_identity_to_scheme uri in
  let* _ := raise_if (negb (is_tag_encodable (class_of e))) ConvertException in
  Ok e.

(** parsers.py:257-263: the loop *)
Fixpoint first_regex (l : list (re * cls)) (s : str) : option cls :=
  match l with
  | [] => None
  | (r, c) :: l' => if fullmatch r s then Some c else first_regex l' s
  end.

(** parsers.py:243-263 *)
Definition gs1_element_string_to_gs1_element (gs1_element_string : str) (company_prefix_length : Z) : res epc :=
  let* c := of_option ConvertException (first_regex GS1_ELEMENT_STRING_REGEX_TO_SCHEME gs1_element_string) in
  from_gs1_element_string_of c gs1_element_string company_prefix_length.

(** parsers.py:266-275 *)
Definition ONE_ESCAPE_ALLOWED_SCHEMES : list str := map identifier [C_SGTIN; C_SGLN; C_GRAI; C_GDTI; C_CPI].
Definition mem_str (s : str) (l : list str) : bool := existsb (str_eqb s) l.

(** parsers.py:304: re.sub of a final ".*" by ".0" ($ also matches before a final newline) *)
Fixpoint sub_dot_star (s : str) : str :=
  match s with
  | [] => []
  | c :: s' =>
      if str_eqb s (lit ".*") then lit ".0"
      else if str_eqb s (lit ".*" ++ [c_nl]) then lit ".0" ++ [c_nl]
      else c :: sub_dot_star s'
  end.

(** parsers.py:278-308 *)
Definition idpat_to_gs1_keyed_scheme (idpat : str) : res epc :=
  let* identifier := idx (split c_colon idpat) 3 in
  let* c := of_option ConvertException (assoc_str identifier GS1_KEYED_SCHEME_IDENTIFIERS) in
  let uri := replace_first (lit "idpat") (lit "id") idpat in
  if fullmatch EPC_URI uri then init_of c uri
  else if negb (mem_str identifier ONE_ESCAPE_ALLOWED_SCHEMES) then Raise ConvertException
  else
    let dummy_uri := sub_dot_star uri in
    if fullmatch EPC_URI dummy_uri then init_of c dummy_uri
    else Raise ConvertException.

(** parsers.py:311-325 *)
Definition tag_uri_to_tag_encodable (epc_tag_uri : str) : res epc :=
  let* f := idx (split c_colon epc_tag_uri) 3 in
  let* identifier := idx (split c_dash f) 0 in
  let* c := of_option ConvertException (assoc_str identifier TAG_ENCODABLE_SCHEME_IDENTIFIERS) in
  from_tag_uri_of c epc_tag_uri.

(** parsers.py:328-345 *)
Definition binary_to_tag_encodable (binary_string : str) : res epc :=
  let header := firstn 8 binary_string in
  let* c := of_option ConvertException (assoc_str header TAG_ENCODABLE_BINARY_HEADERS) in
  from_binary_of c binary_string.

(** parsers.py:348-359 *)
Definition hex_to_tag_encodable (hex_string : str) : res epc :=
  let* binary := hex_to_binary hex_string in
  binary_to_tag_encodable binary.

(** parsers.py:362-373 *)
Definition base64_to_tag_encodable (base64_string : str) : res epc :=
  let* hex_string := base64_to_hex base64_string in
  hex_to_tag_encodable hex_string.

(** truth value of an optional int *)
Definition truthy (z : option Z) : option Z :=
  match z with Some z => if (z =? 0)%Z then None else Some z | None => None end.

Definition is_some {A} (o : option A) : bool := match o with Some _ => true | None => false end.

(** parsers.py:93-136 *)
Definition get_gs1_key (source : str) (company_prefix_length : option Z) (kwargs : option gtin_type) : res str :=
  let* scheme :=
    (if fullmatch EPC_URI source then lift Some (epc_pure_identity_to_scheme source)
     else match (if fullmatch GS1_ELEMENT_STRING source then truthy company_prefix_length else None) with
     | Some l => lift Some (gs1_element_string_to_gs1_element source l)
     | None =>
         if fullmatch TAG_URI source then lift Some (tag_uri_to_tag_encodable source)
         else if fullmatch IDPAT_URI source then lift Some (idpat_to_gs1_keyed_scheme source)
         else if is_some (assoc_str (firstn 8 source) TAG_ENCODABLE_BINARY_HEADERS)
              then lift Some (binary_to_tag_encodable source)
         else if is_some (assoc_str (upper (firstn 2 source)) TAG_ENCODABLE_HEX_HEADERS)
              then lift Some (hex_to_tag_encodable source)
         else Ok None
     end) in
  match scheme with
  | Some e => if is_gs1_keyed (class_of e) then epc_gs1_key e kwargs else Raise ConvertException
  | None => Raise ConvertException
  end.
