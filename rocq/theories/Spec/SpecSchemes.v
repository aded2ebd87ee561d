(** The schemes as a whole: how their pure identity URIs open. *)
From Coq Require Import String.
From Verif.Model Require Import Py Parsers.
From Verif.Model Require Adi Cpi Gdti Giai Gid Grai Gsrn Gsrnp Itip Sgcn Sgln Sgtin Sscc Usdod.
From Verif.Spec Require Import Spec SpecEscapes SpecGrammar.

(** what a pure identity URI of the class opens with *)
Definition scheme_prefix (c : cls) : str :=
  match c with
  | C_ADI => lit "urn:epc:id:adi:"
  | C_BIC => lit "urn:epc:id:bic:"
  | C_CPI => lit "urn:epc:id:cpi:"
  | C_GDTI => lit "urn:epc:id:gdti:"
  | C_GIAI => lit "urn:epc:id:giai:"
  | C_GID => lit "urn:epc:id:gid:"
  | C_GINC => lit "urn:epc:id:ginc:"
  | C_GRAI => lit "urn:epc:id:grai:"
  | C_GSIN => lit "urn:epc:id:gsin:"
  | C_GSRN => lit "urn:epc:id:gsrn:"
  | C_GSRNP => lit "urn:epc:id:gsrnp:"
  | C_IMOVN => lit "urn:epc:id:imovn:"
  | C_ITIP => lit "urn:epc:id:itip:"
  | C_LGTIN => lit "urn:epc:class:lgtin:"
  | C_PGLN => lit "urn:epc:id:pgln:"
  | C_SGCN => lit "urn:epc:id:sgcn:"
  | C_SGLN => lit "urn:epc:id:sgln:"
  | C_SGTIN => lit "urn:epc:id:sgtin:"
  | C_SSCC => lit "urn:epc:id:sscc:"
  | C_UPUI => lit "urn:epc:id:upui:"
  | C_USDOD => lit "urn:epc:id:usdod:"
  end.

(** the coding schemes of a class, as tag URIs name them *)
Definition coding_names (c : cls) : list str :=
  match c with
  | C_ADI => [lit "adi-var"]
  | C_CPI => [lit "cpi-96"; lit "cpi-var"]
  | C_GDTI => [lit "gdti-96"; lit "gdti-174"]
  | C_GIAI => [lit "giai-96"; lit "giai-202"]
  | C_GID => [lit "gid-96"]
  | C_GRAI => [lit "grai-96"; lit "grai-170"]
  | C_GSRN => [lit "gsrn-96"]
  | C_GSRNP => [lit "gsrnp-96"]
  | C_ITIP => [lit "itip-110"; lit "itip-212"]
  | C_SGCN => [lit "sgcn-96"]
  | C_SGLN => [lit "sgln-96"; lit "sgln-195"]
  | C_SGTIN => [lit "sgtin-96"; lit "sgtin-198"]
  | C_SSCC => [lit "sscc-96"]
  | C_USDOD => [lit "usdod-96"]
  | _ => []
  end.

(** the coding scheme and the filter value of a request for a tag *)
Definition req_coding (q : tagreq) : str :=
  match q with
  | T_ADI _ Adi.ADI_VAR _ => lit "adi-var"
  | T_CPI _ Cpi.CPI_96 _ => lit "cpi-96"
  | T_CPI _ Cpi.CPI_VAR _ => lit "cpi-var"
  | T_GDTI _ Gdti.GDTI_96 _ => lit "gdti-96"
  | T_GDTI _ Gdti.GDTI_174 _ => lit "gdti-174"
  | T_GIAI _ Giai.GIAI_96 _ => lit "giai-96"
  | T_GIAI _ Giai.GIAI_202 _ => lit "giai-202"
  | T_GID _ Gid.GID_96 => lit "gid-96"
  | T_GRAI _ Grai.GRAI_96 _ => lit "grai-96"
  | T_GRAI _ Grai.GRAI_170 _ => lit "grai-170"
  | T_GSRN _ Gsrn.GSRN_96 _ => lit "gsrn-96"
  | T_GSRNP _ Gsrnp.GSRNP_96 _ => lit "gsrnp-96"
  | T_ITIP _ Itip.ITIP_110 _ => lit "itip-110"
  | T_ITIP _ Itip.ITIP_212 _ => lit "itip-212"
  | T_SGCN _ Sgcn.SGCN_96 _ => lit "sgcn-96"
  | T_SGLN _ Sgln.SGLN_96 _ => lit "sgln-96"
  | T_SGLN _ Sgln.SGLN_195 _ => lit "sgln-195"
  | T_SGTIN _ Sgtin.SGTIN_96 _ => lit "sgtin-96"
  | T_SGTIN _ Sgtin.SGTIN_198 _ => lit "sgtin-198"
  | T_SSCC _ Sscc.SSCC_96 _ => lit "sscc-96"
  | T_USDOD _ Usdod.USDOD_96 _ => lit "usdod-96"
  end.
Definition req_filter (q : tagreq) : option N :=
  match q with
  | T_GID _ _ => None
  | T_ADI _ _ f | T_CPI _ _ f | T_GDTI _ _ f | T_GIAI _ _ f | T_GRAI _ _ f | T_GSRN _ _ f | T_GSRNP _ _ f
  | T_ITIP _ _ f | T_SGCN _ _ f | T_SGLN _ _ f | T_SGTIN _ _ f | T_SSCC _ _ f | T_USDOD _ _ f => Some f
  end.
(** the filter part of a tag URI: the filter value in decimal and a dot; nothing for GID *)
Definition filter_part (f : option N) (text : str) : Prop :=
  match f with
  | None => text = []
  | Some n => exists s, ascii_digits s /\ numeral s /\ decimal s = n /\ text = s ++ lit "."
  end.

(** the classes with a GS1 element string, with a GS1 key, and with a tag encoding *)
Definition element_classes : list cls :=
  [C_CPI; C_GDTI; C_GIAI; C_GINC; C_GRAI; C_GSIN; C_GSRN; C_GSRNP; C_ITIP; C_LGTIN; C_PGLN; C_SGCN; C_SGLN; C_SGTIN;
   C_SSCC; C_UPUI].
Definition keyed_classes : list cls :=
  [C_GDTI; C_GIAI; C_GINC; C_GRAI; C_GSIN; C_GSRN; C_GSRNP; C_LGTIN; C_PGLN; C_SGCN; C_SGLN; C_SGTIN; C_SSCC].
Definition tag_classes : list cls :=
  [C_SGTIN; C_SSCC; C_SGLN; C_GRAI; C_GIAI; C_GSRN; C_GSRNP; C_GDTI; C_CPI; C_SGCN; C_ITIP; C_GID; C_USDOD; C_ADI].

(** the name by which a URI refers to a class *)
Definition scheme_name (c : cls) : str :=
  match c with
  | C_ADI => lit "adi" | C_BIC => lit "bic" | C_CPI => lit "cpi" | C_GDTI => lit "gdti" | C_GIAI => lit "giai"
  | C_GID => lit "gid" | C_GINC => lit "ginc" | C_GRAI => lit "grai" | C_GSIN => lit "gsin" | C_GSRN => lit "gsrn"
  | C_GSRNP => lit "gsrnp" | C_IMOVN => lit "imovn" | C_ITIP => lit "itip" | C_LGTIN => lit "lgtin"
  | C_PGLN => lit "pgln" | C_SGCN => lit "sgcn" | C_SGLN => lit "sgln" | C_SGTIN => lit "sgtin"
  | C_SSCC => lit "sscc" | C_UPUI => lit "upui" | C_USDOD => lit "usdod"
  end.
(** [name] is the fourth colon-separated field of [u] *)
Definition fourth_field (u name : str) : Prop :=
  exists a b c r, ~ In 58 a /\ ~ In 58 b /\ ~ In 58 c /\ ~ In 58 name /\
    u = a ++ lit ":" ++ b ++ lit ":" ++ c ++ lit ":" ++ name ++ r /\ (r = [] \/ exists r', r = 58 :: r').
Definition colons (u : str) : nat := length (filter (N.eqb 58) u).

(** [f] is [epc_pure_identity_to_scheme], except that it refuses objects of classes not in [can] *)
Definition restricted (can : list cls) (f : str -> res epc) : Prop :=
  (forall u e, f u = Ok e <-> epc_pure_identity_to_scheme u = Ok e /\ In (class_of e) can) /\
  (forall u e, epc_pure_identity_to_scheme u = Ok e -> ~ In (class_of e) can -> f u = Raise ConvertException) /\
  (forall u x, epc_pure_identity_to_scheme u = Raise x -> f u = Raise x).
