(** Objects over time: the public attribute epc_uri can be assigned to, and CPI.tag_uri fills a cache. *)
From Coq Require Import String.
From Verif.Model Require Import Py Re Regexes Common Base.
From Verif.Model Require Import Adi Cpi Gdti Giai Gid Grai Gsrn Gsrnp Itip Lgtin Sgcn Sgln Sgtin Sscc Usdod Others Parsers Calls.

(** [e.epc_uri = s]: the other attributes stay *)
Definition set_epc_uri (e : epc) (s : str) : epc :=
  match e with
  | E_ADI x => E_ADI (mkAdi s (adi_cage x) (adi_part x) (adi_serial x))
  | E_BIC x => E_BIC (mkBic s (bic_container_code x) (bic_owner_code x) (bic_equipment_category_identifier x) (bic_serial x) (bic_check_digit x))
  | E_CPI x => E_CPI (mkCpi s (cpi_cp x) (cpi_ref x) (cpi_serial x))
  | E_GDTI x => E_GDTI (mkGdti s (gdti_cp x) (gdti_doc x) (gdti_serial x) (gdti_gdti x))
  | E_GIAI x => E_GIAI (mkGiai s (giai_cp x) (giai_asset x) (giai_giai x))
  | E_GID x => E_GID (mkGid s (gid_manager x) (gid_object x) (gid_serial x))
  | E_GINC x => E_GINC (mkGinc s (ginc_ginc x))
  | E_GRAI x => E_GRAI (mkGrai s (grai_cp x) (grai_asset x) (grai_serial x) (grai_grai x))
  | E_GSIN x => E_GSIN (mkGsin s (gsin_cp x) (gsin_ref x) (gsin_gsin x))
  | E_GSRN x => E_GSRN (mkGsrn s (gsrn_cp x) (gsrn_service x) (gsrn_key x))
  | E_GSRNP x => E_GSRNP (mkGsrnp s (gsrnp_cp x) (gsrnp_service x) (gsrnp_key x))
  | E_IMOVN x => E_IMOVN (mkImovn s (imovn_vessel_number x))
  | E_ITIP x => E_ITIP (mkItip s (itip_cp x) (itip_item x) (itip_piece x) (itip_total x) (itip_serial x))
  | E_LGTIN x => E_LGTIN (mkLgtin s (lgtin_cp x) (lgtin_item x) (lgtin_lot x) (lgtin_gtin_ x))
  | E_PGLN x => E_PGLN (mkPgln s (pgln_cp x) (pgln_party x) (pgln_pgln x))
  | E_SGCN x => E_SGCN (mkSgcn s (sgcn_cp x) (sgcn_coupon x) (sgcn_serial x) (sgcn_gcn x))
  | E_SGLN x => E_SGLN (mkSgln s (sgln_cp x) (sgln_loc x) (sgln_serial x) (sgln_gln x))
  | E_SGTIN x => E_SGTIN (mkSgtin s (sgtin_cp x) (sgtin_item x) (sgtin_serial x) (sgtin_gtin_ x))
  | E_SSCC x => E_SSCC (mkSscc s (sscc_cp x) (sscc_serial x) (sscc_sscc x))
  | E_UPUI x => E_UPUI (mkUpui s (upui_cp x) (upui_item x) (upui_tpx x))
  | E_USDOD x => E_USDOD (mkUsdod s (usdod_cage x) (usdod_serial x))
  end.

(** an object with its caches (base_scheme.py:76-82) *)
Record object := mkObject { o_self : epc; o_tag_uri : option str; o_binary : option str; o_hex : option str; o_base64 : option str }.
(** what [cls(uri)] makes *)
Definition new_object (e : epc) : object := mkObject e None None None None.

Inductive action :=
| Tag_uri (args : list member) (k : kwargs) | Binary (args : list member) (k : kwargs)
| Hex (args : list member) (k : kwargs) | Base64 (args : list member) (k : kwargs)
| Gs1_key (t : option gtin_type) | Gs1_element_string | Hash | Equals (other : epc) | Get_epc_uri | Set_epc_uri (s : str).
Inductive answer := Text (r : res str) | Truth (b : bool) | Nothing.

(** cpi.py:289-291: the tag URI is stored before it is returned; no other method assigns to an attribute.  A class that
    defines [__eq__] and not [__hash__] is unhashable (base_scheme.py:26-38). *)
Definition perform (o : object) (a : action) : object * answer :=
  match a with
  | Tag_uri args k =>
      let r := call_tag_uri (o_self o) args k in
      (match o_self o, r with
       | E_CPI _, Ok t => mkObject (o_self o) (Some t) (o_binary o) (o_hex o) (o_base64 o)
       | _, _ => o
       end, Text r)
  | Binary args k => (o, Text (call_binary (o_self o) args k))
  | Hex args k => (o, Text (call_hex (o_self o) args k))
  | Base64 args k => (o, Text (call_base64 (o_self o) args k))
  | Gs1_key t => (o, Text (epc_gs1_key (o_self o) t))
  | Gs1_element_string => (o, Text (epc_gs1_element_string (o_self o)))
  | Hash => (o, Text (Raise TypeError))
  | Equals other => (o, Truth (epc_eqb (o_self o) other))
  | Get_epc_uri => (o, Text (Ok (epc_uri (o_self o))))
  | Set_epc_uri s => (mkObject (set_epc_uri (o_self o) s) (o_tag_uri o) (o_binary o) (o_hex o) (o_base64 o), Nothing)
  end.
(** the object after a history of actions, oldest first *)
Definition after (o : object) (h : list action) : object := fold_left (fun o a => fst (perform o a)) h o.
