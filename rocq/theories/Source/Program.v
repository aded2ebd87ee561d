(** The modules of epcpy, in an order in which each one comes after those it imports.
    Written by a program from the syntax trees of the source text: docstrings and annotations are left out, nothing else. *)
From Coq Require Import String ZArith List.
From Verif.Model Require Import Syntax.
From Verif.Source Require Import S_regex S_common S_base_scheme S_adi S_bic S_cpi S_gdti S_giai S_gid S_ginc S_grai S_gsin S_gsrn S_gsrnp S_imovn S_itip S_lgtin S_pgln S_sgcn S_sgln S_sgtin S_sscc S_upui S_usdod S_epc_schemes S_parsers.
Import ListNotations.
Open Scope string_scope.
Open Scope Z_scope.
Open Scope list_scope.

Definition modules : list (string * list top) :=
  [("regex", m_regex); ("common", m_common); ("base_scheme", m_base_scheme); ("adi", m_adi); ("bic", m_bic); ("cpi", m_cpi); ("gdti", m_gdti); ("giai", m_giai); ("gid", m_gid); ("ginc", m_ginc); ("grai", m_grai); ("gsin", m_gsin); ("gsrn", m_gsrn); ("gsrnp", m_gsrnp); ("imovn", m_imovn); ("itip", m_itip); ("lgtin", m_lgtin); ("pgln", m_pgln); ("sgcn", m_sgcn); ("sgln", m_sgln); ("sgtin", m_sgtin); ("sscc", m_sscc); ("upui", m_upui); ("usdod", m_usdod); ("epc_schemes", m_epc_schemes); ("parsers", m_parsers)].

Definition codes : list (string * fundef) :=
  [("common.ConvertException.__init__", f_common_ConvertException___init__);
   ("common.replace_uri_escapes", f_common_replace_uri_escapes);
   ("common.revert_uri_escapes", f_common_revert_uri_escapes);
   ("common.int_to_binary", f_common_int_to_binary);
   ("common.binary_to_int", f_common_binary_to_int);
   ("common.str_to_binary", f_common_str_to_binary);
   ("common.base64_to_hex", f_common_base64_to_hex);
   ("common.hex_to_base64", f_common_hex_to_base64);
   ("common.hex_to_binary", f_common_hex_to_binary);
   ("common.binary_to_hex", f_common_binary_to_hex);
   ("common.encode_string", f_common_encode_string);
   ("common.decode_string_six_bits", f_common_decode_string_six_bits);
   ("common.encode_string_six_bits", f_common_encode_string_six_bits);
   ("common.decode_binary_char", f_common_decode_binary_char);
   ("common.decode_string", f_common_decode_string);
   ("common.encode_partition_table", f_common_encode_partition_table);
   ("common.decode_partition_table", f_common_decode_partition_table);
   ("common.encode_numeric_string", f_common_encode_numeric_string);
   ("common.decode_numeric_string", f_common_decode_numeric_string);
   ("common.encode_fixed_width_integer", f_common_encode_fixed_width_integer);
   ("common.decode_fixed_width_integer", f_common_decode_fixed_width_integer);
   ("common.decode_cage_code", f_common_decode_cage_code);
   ("common.encode_cage_code", f_common_encode_cage_code);
   ("common.decode_cage_code_six_bits", f_common_decode_cage_code_six_bits);
   ("common.encode_cage_code_six_bits", f_common_encode_cage_code_six_bits);
   ("common.verify_gs3a3_component", f_common_verify_gs3a3_component);
   ("common.calculate_checksum", f_common_calculate_checksum);
   ("common.parse_header_and_truncate_binary", f_common_parse_header_and_truncate_binary);
   ("base_scheme.EPCScheme.__init__", f_base_scheme_EPCScheme___init__);
   ("base_scheme.EPCScheme.__eq__", f_base_scheme_EPCScheme___eq__);
   ("base_scheme.EPCScheme.from_epc_uri", f_base_scheme_EPCScheme_from_epc_uri);
   ("base_scheme.TagEncodable.__init__", f_base_scheme_TagEncodable___init__);
   ("base_scheme.TagEncodable.tag_uri", f_base_scheme_TagEncodable_tag_uri);
   ("base_scheme.TagEncodable.binary", f_base_scheme_TagEncodable_binary);
   ("base_scheme.TagEncodable.hex", f_base_scheme_TagEncodable_hex);
   ("base_scheme.TagEncodable.base64", f_base_scheme_TagEncodable_base64);
   ("base_scheme.TagEncodable.from_binary", f_base_scheme_TagEncodable_from_binary);
   ("base_scheme.TagEncodable.from_hex", f_base_scheme_TagEncodable_from_hex);
   ("base_scheme.TagEncodable.from_base64", f_base_scheme_TagEncodable_from_base64);
   ("base_scheme.TagEncodable.from_tag_uri", f_base_scheme_TagEncodable_from_tag_uri);
   ("base_scheme.TagEncodable.header_to_schemes", f_base_scheme_TagEncodable_header_to_schemes);
   ("base_scheme.GS1Element.__init__", f_base_scheme_GS1Element___init__);
   ("base_scheme.GS1Element.gs1_element_string", f_base_scheme_GS1Element_gs1_element_string);
   ("base_scheme.GS1Element.from_gs1_element_string", f_base_scheme_GS1Element_from_gs1_element_string);
   ("base_scheme.GS1Keyed.__init__", f_base_scheme_GS1Keyed___init__);
   ("base_scheme.GS1Keyed.gs1_key", f_base_scheme_GS1Keyed_gs1_key);
   ("adi.ADI.__init__", f_adi_ADI___init__);
   ("adi.ADI.tag_uri", f_adi_ADI_tag_uri);
   ("adi.ADI.binary", f_adi_ADI_binary);
   ("adi.ADI.from_binary", f_adi_ADI_from_binary);
   ("bic.BIC.__init__", f_bic_BIC___init__);
   ("cpi.replace_cpi_escapes", f_cpi_replace_cpi_escapes);
   ("cpi.revert_cpi_escapes", f_cpi_revert_cpi_escapes);
   ("cpi.CPI.__init__", f_cpi_CPI___init__);
   ("cpi.CPI.gs1_element_string", f_cpi_CPI_gs1_element_string);
   ("cpi.CPI.from_gs1_element_string", f_cpi_CPI_from_gs1_element_string);
   ("cpi.CPI.tag_uri", f_cpi_CPI_tag_uri);
   ("cpi.CPI.binary", f_cpi_CPI_binary);
   ("cpi.CPI.from_binary", f_cpi_CPI_from_binary);
   ("gdti.GDTI.__init__", f_gdti_GDTI___init__);
   ("gdti.GDTI.gs1_key", f_gdti_GDTI_gs1_key);
   ("gdti.GDTI.gs1_element_string", f_gdti_GDTI_gs1_element_string);
   ("gdti.GDTI.from_gs1_element_string", f_gdti_GDTI_from_gs1_element_string);
   ("gdti.GDTI.tag_uri", f_gdti_GDTI_tag_uri);
   ("gdti.GDTI.binary", f_gdti_GDTI_binary);
   ("gdti.GDTI.from_binary", f_gdti_GDTI_from_binary);
   ("giai.GIAI.__init__", f_giai_GIAI___init__);
   ("giai.GIAI.gs1_key", f_giai_GIAI_gs1_key);
   ("giai.GIAI.gs1_element_string", f_giai_GIAI_gs1_element_string);
   ("giai.GIAI.from_gs1_element_string", f_giai_GIAI_from_gs1_element_string);
   ("giai.GIAI.tag_uri", f_giai_GIAI_tag_uri);
   ("giai.GIAI.binary", f_giai_GIAI_binary);
   ("giai.GIAI.from_binary", f_giai_GIAI_from_binary);
   ("gid.GID.__init__", f_gid_GID___init__);
   ("gid.GID.tag_uri", f_gid_GID_tag_uri);
   ("gid.GID.binary", f_gid_GID_binary);
   ("gid.GID.from_tag_uri", f_gid_GID_from_tag_uri);
   ("gid.GID.from_binary", f_gid_GID_from_binary);
   ("ginc.GINC.__init__", f_ginc_GINC___init__);
   ("ginc.GINC.gs1_key", f_ginc_GINC_gs1_key);
   ("ginc.GINC.gs1_element_string", f_ginc_GINC_gs1_element_string);
   ("ginc.GINC.from_gs1_element_string", f_ginc_GINC_from_gs1_element_string);
   ("grai.GRAI.__init__", f_grai_GRAI___init__);
   ("grai.GRAI.gs1_key", f_grai_GRAI_gs1_key);
   ("grai.GRAI.gs1_element_string", f_grai_GRAI_gs1_element_string);
   ("grai.GRAI.from_gs1_element_string", f_grai_GRAI_from_gs1_element_string);
   ("grai.GRAI.tag_uri", f_grai_GRAI_tag_uri);
   ("grai.GRAI.binary", f_grai_GRAI_binary);
   ("grai.GRAI.from_binary", f_grai_GRAI_from_binary);
   ("gsin.calculate_checksum", f_gsin_calculate_checksum);
   ("gsin.GSIN.__init__", f_gsin_GSIN___init__);
   ("gsin.GSIN.gs1_key", f_gsin_GSIN_gs1_key);
   ("gsin.GSIN.gs1_element_string", f_gsin_GSIN_gs1_element_string);
   ("gsin.GSIN.from_gs1_element_string", f_gsin_GSIN_from_gs1_element_string);
   ("gsrn.GSRN.__init__", f_gsrn_GSRN___init__);
   ("gsrn.GSRN.gs1_key", f_gsrn_GSRN_gs1_key);
   ("gsrn.GSRN.gs1_element_string", f_gsrn_GSRN_gs1_element_string);
   ("gsrn.GSRN.from_gs1_element_string", f_gsrn_GSRN_from_gs1_element_string);
   ("gsrn.GSRN.tag_uri", f_gsrn_GSRN_tag_uri);
   ("gsrn.GSRN.binary", f_gsrn_GSRN_binary);
   ("gsrn.GSRN.from_binary", f_gsrn_GSRN_from_binary);
   ("gsrnp.GSRNP.__init__", f_gsrnp_GSRNP___init__);
   ("gsrnp.GSRNP.gs1_key", f_gsrnp_GSRNP_gs1_key);
   ("gsrnp.GSRNP.gs1_element_string", f_gsrnp_GSRNP_gs1_element_string);
   ("gsrnp.GSRNP.from_gs1_element_string", f_gsrnp_GSRNP_from_gs1_element_string);
   ("gsrnp.GSRNP.tag_uri", f_gsrnp_GSRNP_tag_uri);
   ("gsrnp.GSRNP.binary", f_gsrnp_GSRNP_binary);
   ("gsrnp.GSRNP.from_binary", f_gsrnp_GSRNP_from_binary);
   ("imovn.IMOVN.__init__", f_imovn_IMOVN___init__);
   ("itip.ITIP.__init__", f_itip_ITIP___init__);
   ("itip.ITIP.gs1_element_string", f_itip_ITIP_gs1_element_string);
   ("itip.ITIP.from_gs1_element_string", f_itip_ITIP_from_gs1_element_string);
   ("itip.ITIP.tag_uri", f_itip_ITIP_tag_uri);
   ("itip.ITIP.binary", f_itip_ITIP_binary);
   ("itip.ITIP.from_binary", f_itip_ITIP_from_binary);
   ("lgtin.LGTIN.__init__", f_lgtin_LGTIN___init__);
   ("lgtin.LGTIN.gs1_key", f_lgtin_LGTIN_gs1_key);
   ("lgtin.LGTIN.gtin", f_lgtin_LGTIN_gtin);
   ("lgtin.LGTIN.gs1_element_string", f_lgtin_LGTIN_gs1_element_string);
   ("lgtin.LGTIN.from_gs1_element_string", f_lgtin_LGTIN_from_gs1_element_string);
   ("pgln.PGLN.__init__", f_pgln_PGLN___init__);
   ("pgln.PGLN.gs1_key", f_pgln_PGLN_gs1_key);
   ("pgln.PGLN.gs1_element_string", f_pgln_PGLN_gs1_element_string);
   ("pgln.PGLN.from_gs1_element_string", f_pgln_PGLN_from_gs1_element_string);
   ("sgcn.SGCN.__init__", f_sgcn_SGCN___init__);
   ("sgcn.SGCN.gs1_key", f_sgcn_SGCN_gs1_key);
   ("sgcn.SGCN.gs1_element_string", f_sgcn_SGCN_gs1_element_string);
   ("sgcn.SGCN.from_gs1_element_string", f_sgcn_SGCN_from_gs1_element_string);
   ("sgcn.SGCN.tag_uri", f_sgcn_SGCN_tag_uri);
   ("sgcn.SGCN.binary", f_sgcn_SGCN_binary);
   ("sgcn.SGCN.from_binary", f_sgcn_SGCN_from_binary);
   ("sgln.SGLN.__init__", f_sgln_SGLN___init__);
   ("sgln.SGLN.gs1_key", f_sgln_SGLN_gs1_key);
   ("sgln.SGLN.gs1_element_string", f_sgln_SGLN_gs1_element_string);
   ("sgln.SGLN.from_gs1_element_string", f_sgln_SGLN_from_gs1_element_string);
   ("sgln.SGLN.tag_uri", f_sgln_SGLN_tag_uri);
   ("sgln.SGLN.binary", f_sgln_SGLN_binary);
   ("sgln.SGLN.from_binary", f_sgln_SGLN_from_binary);
   ("sgtin.SGTIN.__init__", f_sgtin_SGTIN___init__);
   ("sgtin.SGTIN.from_gtin_plus_serial", f_sgtin_SGTIN_from_gtin_plus_serial);
   ("sgtin.SGTIN.gs1_key", f_sgtin_SGTIN_gs1_key);
   ("sgtin.SGTIN.gtin", f_sgtin_SGTIN_gtin);
   ("sgtin.SGTIN.gs1_element_string", f_sgtin_SGTIN_gs1_element_string);
   ("sgtin.SGTIN.from_gs1_element_string", f_sgtin_SGTIN_from_gs1_element_string);
   ("sgtin.SGTIN.tag_uri", f_sgtin_SGTIN_tag_uri);
   ("sgtin.SGTIN.binary", f_sgtin_SGTIN_binary);
   ("sgtin.SGTIN.from_binary", f_sgtin_SGTIN_from_binary);
   ("sscc.SSCC.__init__", f_sscc_SSCC___init__);
   ("sscc.SSCC.gs1_key", f_sscc_SSCC_gs1_key);
   ("sscc.SSCC.gs1_element_string", f_sscc_SSCC_gs1_element_string);
   ("sscc.SSCC.from_gs1_element_string", f_sscc_SSCC_from_gs1_element_string);
   ("sscc.SSCC.tag_uri", f_sscc_SSCC_tag_uri);
   ("sscc.SSCC.binary", f_sscc_SSCC_binary);
   ("sscc.SSCC.from_binary", f_sscc_SSCC_from_binary);
   ("upui.UPUI.__init__", f_upui_UPUI___init__);
   ("upui.UPUI.gs1_element_string", f_upui_UPUI_gs1_element_string);
   ("upui.UPUI.from_gs1_element_string", f_upui_UPUI_from_gs1_element_string);
   ("usdod.USDOD.__init__", f_usdod_USDOD___init__);
   ("usdod.USDOD.tag_uri", f_usdod_USDOD_tag_uri);
   ("usdod.USDOD.binary", f_usdod_USDOD_binary);
   ("usdod.USDOD.from_binary", f_usdod_USDOD_from_binary);
   ("parsers.get_gs1_key", f_parsers_get_gs1_key);
   ("parsers.epc_pure_identity_to_scheme", f_parsers_epc_pure_identity_to_scheme);
   ("parsers.epc_pure_identity_to_gs1_element", f_parsers_epc_pure_identity_to_gs1_element);
   ("parsers.epc_pure_identity_to_gs1_element_string", f_parsers_epc_pure_identity_to_gs1_element_string);
   ("parsers.epc_pure_identity_to_gs1_keyed", f_parsers_epc_pure_identity_to_gs1_keyed);
   ("parsers.epc_pure_identity_to_gs1_key", f_parsers_epc_pure_identity_to_gs1_key);
   ("parsers.epc_pure_identity_to_tag_encodable", f_parsers_epc_pure_identity_to_tag_encodable);
   ("parsers.gs1_element_string_to_gs1_element", f_parsers_gs1_element_string_to_gs1_element);
   ("parsers._idpat_to_gs1_keyed_scheme", f_parsers__idpat_to_gs1_keyed_scheme);
   ("parsers.tag_uri_to_tag_encodable", f_parsers_tag_uri_to_tag_encodable);
   ("parsers.binary_to_tag_encodable", f_parsers_binary_to_tag_encodable);
   ("parsers.hex_to_tag_encodable", f_parsers_hex_to_tag_encodable);
   ("parsers.base64_to_tag_encodable", f_parsers_base64_to_tag_encodable)].
