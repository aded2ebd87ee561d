{"claims": [
{"property": "C01", "status": "proved", "theorems": ["C01_check_digit_law"], "note": "all strings of Unicode decimal digits, including the empty one"},
{"property": "C02", "status": "proved", "theorems": ["C02_single_digit_error_detected", "C02_transposition_detected_iff"], "note": ""},
{"property": "C03", "status": "proved", "theorems": ["C03_gsin_checksum", "C03_gsin_checksum_odd_length_refuted"], "note": "even length is needed: the odd-length version is refuted"},
{"property": "C04", "status": "proved", "theorems": ["C04_completion_exists", "C04_sgtin_keys", "C04_lgtin_keys", "C04_sscc_keys", "C04_sgln_keys", "C04_grai_keys", "C04_gdti_keys", "C04_gsrn_keys", "C04_gsrnp_keys", "C04_sgcn_keys", "C04_pgln_keys", "C04_gsin_keys", "C04_giai_keys", "C04_ginc_keys", "C04_itip_element", "C04_upui_element", "C04_cpi_element", "C04_upui_element_empty_item_refuted"], "note": "GIAI, GINC, CPI keys and element strings are covered too; UPUI with an empty item reference is refuted"},
{"property": "C05", "status": "proved", "theorems": ["C05_revert_escapes_each_reserved_character", "C05_unescape_escape", "C05_escape_unescape", "C05_escape_injective", "C05_escape_unescape_noncanonical_refuted"], "note": ""},
{"property": "C06", "status": "proved", "theorems": ["C06_sgtin_accepts_exactly", "C06_sgtin_refusal", "C06_lgtin_accepts_exactly", "C06_lgtin_refusal", "C06_sscc_accepts_exactly", "C06_sscc_refusal", "C06_sgln_accepts_exactly", "C06_sgln_refusal", "C06_grai_accepts_exactly", "C06_grai_refusal", "C06_gdti_accepts_exactly", "C06_gdti_refusal", "C06_upui_accepts_exactly", "C06_upui_refusal", "C06_gsrn_accepts_exactly", "C06_gsrn_refusal", "C06_gsrnp_accepts_exactly", "C06_gsrnp_refusal", "C06_gsin_accepts_exactly", "C06_gsin_refusal", "C06_pgln_accepts_exactly", "C06_pgln_refusal", "C06_ginc_accepts_exactly", "C06_ginc_refusal", "C06_giai_accepts_exactly", "C06_giai_refusal", "C06_sgcn_accepts_exactly", "C06_sgcn_refusal", "C06_cpi_accepts_exactly", "C06_cpi_refusal", "C06_itip_accepts_exactly", "C06_itip_refusal", "C06_gid_accepts_exactly", "C06_gid_refusal", "C06_usdod_accepts_exactly", "C06_usdod_refusal", "C06_adi_accepts_exactly", "C06_adi_refusal", "C06_bic_accepts_exactly", "C06_bic_refusal", "C06_imovn_accepts_exactly", "C06_imovn_refusal"], "note": "one pair of theorems per scheme: the URIs accepted with the components exposed, and the refusals"},
{"property": "C07", "status": "proved", "theorems": ["C07_uri_kept", "C07_equality_is_equivalence", "C07_equality_is_uri_equality"], "note": ""},
{"property": "C08", "status": "proved", "theorems": ["C08_tag_uri_spelling", "C08_tag_uri_roundtrip", "C08_giai_tag_uri", "C08_giai_colon_refuted", "C08_wrong_filter_flag", "C08_filter_flag_refuted"], "note": "for all tag-encodable classes, coding schemes and filter values; the exception for GIAI URIs with a further colon is stated and witnessed; includes_filter given wrongly"},
{"property": "C09", "status": "proved", "theorems": ["C09_sgtin_binary_roundtrip"], "note": ""},
{"property": "C10", "status": "proved", "theorems": ["C10_sscc_binary_roundtrip"], "note": ""},
{"property": "C11", "status": "proved", "theorems": ["C11_sgln_binary_roundtrip"], "note": ""},
{"property": "C12", "status": "proved", "theorems": ["C12_grai_binary_roundtrip"], "note": ""},
{"property": "C13", "status": "proved", "theorems": ["C13_giai_binary_roundtrip"], "note": "no further colon in the URI: the constructor ignores what follows one"},
{"property": "C14", "status": "proved", "theorems": ["C14_gsrn_binary_roundtrip", "C14_gsrnp_binary_roundtrip"], "note": ""},
{"property": "C15", "status": "proved", "theorems": ["C15_gdti_binary_roundtrip"], "note": ""},
{"property": "C16", "status": "proved", "theorems": ["C16_cpi_96_binary_roundtrip", "C16_cpi_var_binary_roundtrip"], "note": ""},
{"property": "C17", "status": "proved", "theorems": ["C17_sgcn_binary_roundtrip"], "note": ""},
{"property": "C18", "status": "proved", "theorems": ["C18_itip_binary_roundtrip", "C18_itip_99_refused"], "note": "two-digit piece and total below 99; 99 is refused by binary()"},
{"property": "C19", "status": "proved", "theorems": ["C19_gid_binary_roundtrip"], "note": ""},
{"property": "C20", "status": "proved", "theorems": ["C20_usdod_binary_roundtrip"], "note": ""},
{"property": "C21", "status": "proved", "theorems": ["C21_adi_binary_roundtrip_iff", "C21_adi_roundtrip_refuted"], "note": "the condition is stated on the six-bit codes of neighbouring characters"},
{"property": "C22", "status": "proved", "theorems": ["C22_binary_injective", "C22_noncanonical_refuted"], "note": ""},
{"property": "C23", "status": "proved", "theorems": ["C23_decode_exceptions", "C23_seven_bit_other_exceptions", "C23_cpi_var_truncated"], "note": ""},
{"property": "C24", "status": "proved", "theorems": ["C24_decode_encode", "C24_usdod_blank_refuted", "C24_itip_99_refuted"], "note": ""},
{"property": "C25", "status": "proved", "theorems": ["C25_filter_only_filter_bits", "C25_decoding_ignores_filter"], "note": ""},
{"property": "C26", "status": "proved", "theorems": ["C26_short_tag_refused", "C26_unknown_header_refused", "C26_foreign_header_keyerror"], "note": ""},
{"property": "C27", "status": "proved", "theorems": ["C27_headers_distinct", "C27_binary_header", "C27_dispatch", "C27_dispatch_by_header", "C28_tag_forms"], "note": "The hexadecimal and base64 half is in C28_tag_forms."},
{"property": "C28", "status": "proved", "theorems": ["C28_hex_form", "C28_hex_to_binary", "C28_base64_form", "C28_base64_odd", "C28_tag_forms", "C28_forms_roundtrip"], "note": ""},
{"property": "C29", "status": "proved", "theorems": ["C29_element_roundtrip"], "note": "Exact characterisation (iff) for all 16 element string classes, stated with a separate grammar (SpecElements)."},
{"property": "C30", "status": "proved", "theorems": ["C30_element_grammar", "C30_any_element", "C30_one_class", "C30_dispatch", "C30_dispatch_none", "C30_class_refuses"], "note": "The element string grammar is a separate specification; classes are disjoint, the dispatcher calls the one class."},
{"property": "C31", "status": "proved", "theorems": ["C31_pure", "C31_tag_text", "C31_binary_text", "C31_hex_text", "C31_element_text", "C31_element_no_length", "C31_base64_text", "C31_anything_else", "C31_agreement", "C31_tag_uri", "C31_element_string"], "note": "Every text of each kind (pure identity, tag URI, element string with a length, binary, hexadecimal in either case) has the key of the object the corresponding parser yields, or the exception it raises; base64 text and anything else is refused with ConvertException. For every object of a keyed class that a tag is written for, pure identity URI, tag URI, binary and hexadecimal form have the key of the object; every tag URI has, also of objects no tag is written for. The element string has the key of the object with every company prefix length with which it is understood, or no key at all (the exception of from_gs1_element_string); for GIAI and GINC with a dot only with the own company prefix length (C45_dot_refuted)."},
{"property": "C32", "status": "proved", "theorems": ["C32_sgtin_views", "C32_lgtin_views", "C32_sgtin_integer", "C32_lgtin_integer"], "note": "gtin(kind) of every accepted SGTIN and LGTIN, all four kinds, and any integer in place of the kind."},
{"property": "C33", "status": "proved", "theorems": ["C33_inverse", "C33_accepted", "C33_check_digit"], "note": "Every view of every accepted SGTIN; what acceptance means for every digit string and length; a 14-digit GTIN comes back exactly when its check digit is right."},
{"property": "C34", "status": "proved", "theorems": ["C34_tag_uri_exactly_when_room"], "note": "the room each coding scheme has is spelled by coding_has_room in Spec/SpecTags.v"},
{"property": "C35", "status": "proved", "theorems": ["C35_number", "C35_negative", "C35_no_number", "C35_exact", "C35_cpi_reference"], "note": "The seven codings that write any serial as a number. A part reference of a CPI that is a number too big for cpi-96 is not covered: it moves the serial."},
{"property": "C36", "status": "proved", "theorems": ["C36_sgtin_table", "C36_itip_table", "C36_sscc_table", "C36_gsrn_table", "C36_gsrnp_table", "C36_sgln_table", "C36_gdti_table", "C36_sgcn_table", "C36_grai_table", "C36_cpi_96_table", "C36_cpi_var_table", "C36_giai_202_table", "C36_giai_96_table", "C36_giai_96_reference_fits_refuted"], "note": "for giai-96 the claim that K-digit references fit is refuted"},
{"property": "C37", "status": "proved", "theorems": ["C37_cage_code", "C37_cage_code_six_bits", "C37_fixed_width_integer", "C37_numeric_string", "C37_padded_integer", "C37_seven_bit_string", "C37_six_bit_string"], "note": ""},
{"property": "C38", "status": "proved", "theorems": ["C38_verify_accepts_exactly", "C38_verify_refusal", "C38_verify_refuses_standard_serials", "C38_verify_accepts_without_letter_escapes", "C38_verify_total"], "note": "verify_gs3a3_component on every canonical AI-82 serial: accepts iff not misread; refusals are one of three exceptions, each witnessed; always accepts without letter escapes; total for every string."},
{"property": "C39", "status": "proved", "theorems": ["C39_constructors", "C39_plain_constructors", "C39_long_gid", "C39_long_usdod", "C39_field_parsers", "C39_id_patterns", "C39_element_string_of_uri", "C39_key_of_uri", "C39_from_tag_uri", "C39_from_binary", "C39_from_hex_and_base64", "C39_text_parsers", "C39_get_gs1_key", "C39_not_hexadecimal", "C39_empty_hexadecimal", "C39_base64_not_ascii", "C39_tag_uri_method", "C39_binary_method", "C39_hex_methods"], "note": "Every exception of every constructor, parser and coding method is listed: constructors only ConvertException, or ValueError/OverflowError for a malformed component, or ValueError for a GID or USDOD number of more than 4300 digits; pure identity, ID pattern and tag URI parsers IndexError exactly on texts with fewer than three colons; the class from_binary methods KeyError exactly on a foreign header; base64 and hexadecimal parsers only refusals; get_gs1_key a TypeError only when a GTIN type is passed for a scheme without one; tag_uri, binary and hex only ConvertException and ValueError."},
{"property": "C40", "status": "proved", "theorems": ["C40_any_script", "C40_key_ascii", "C40_element_string_ascii", "C40_tag_uri_ascii", "C40_ascii_form_accepted", "C40_binary"], "note": "Every digit character of the modelled Unicode table is accepted and stays in the key; key, element string and tag URI of any accepted URI of any class are ASCII exactly when the URI is; the URI with ASCII digits is always accepted too, has the same key in ASCII digits, and is an equal object only if nothing was replaced; reading back a tag written from a non-ASCII URI yields exactly that other object."},
{"property": "C41", "status": "proved", "theorems": ["C41_pattern", "C41_other", "C41_sgtin", "C41_sgln", "C41_grai", "C41_gdti", "C41_giai", "C41_ginc", "C41_sgcn", "C41_reference", "C41_company_prefix"], "note": "Every pattern text of a keyed class other than LGTIN has the key of the pure identity URI it is spelled like, the wildcard being an ordinary character of serials; everything else opening with urn:epc:idpat: is refused. The cases of the claim follow: GTIN and GLN of the fixed part, literal '*' for GRAI, GDTI, GIAI and GINC, refusal of wildcards in SGCN serials, references and company prefixes. The replacement of a final wildcard by 0 in the code never takes effect."},
{"property": "C42", "status": "proved", "theorems": ["C42_other_pure_identity", "C42_foreign_text", "C42_other_tag_uri", "C42_tag_uri_names_class"], "note": ""},
{"property": "C43", "status": "proved", "theorems": ["C43_scheme_is_constructor", "C43_unknown_scheme", "C43_too_few_fields", "C43_element_variant", "C43_keyed_variant", "C43_tag_variant", "C43_element_string", "C43_key"], "note": ""},
{"property": "C44", "status": "proved", "theorems": ["C44_binary_layout"], "note": ""},
{"property": "C45", "status": "proved", "theorems": ["C45_accepted_element", "C45_dot_refuted"], "note": "The condition on dots for GIAI and GINC is shown to be needed by C45_dot_refuted."},
{"property": "C46", "status": "proved", "theorems": ["C46_element_exceptions"], "note": "All three exceptions occur, see the examples."},
{"property": "C47", "status": "proved", "theorems": ["C47_keywords", "C47_positional", "C47_same_order_refuted", "C47_defaults", "C47_filter_only", "C47_hex_positional", "C47_positional_hex_refuted", "C47_wrong_order", "C47_foreign_scheme", "C47_foreign_tag_uri_refuted", "C47_scheme_as_filter", "C47_binary_call", "C47_type_errors", "C47_same_as_keywords"], "note": "Positional arguments of hex/base64 are ignored, ITIP's two methods disagree on the order and tag_uri takes schemes of other classes; the claims that they do not are refuted."},
{"property": "C48", "status": "proved", "theorems": ["C48_no_aliases", "C48_header_to_schemes", "C48_header_of_coding", "C48_binary_headers", "C48_hex_headers", "C48_identifiers", "C48_subclasses", "C48_tables_of_the_parsers", "C48_tables_of_the_classes", "C48_filter_values"], "note": "Enum and dict semantics are in Model/Registry.v, with every enumeration transcribed; also shows that the first-match tables used by the rest of the model are these dictionaries."},
{"property": "C49", "status": "proved", "theorems": ["C49_methods_do_not_depend_on_the_past", "C49_uri_and_equality", "C49_equal_objects_equal_keys_refuted"], "note": "Histories are lists of actions; assignment to private attributes and a second call of __init__ are not modelled."},
{"property": "C50", "status": "proved", "theorems": ["C50_fullmatch", "C50_match", "C50_patterns", "C50_adi_terminator", "C50_cutting_patterns", "C50_substitution"], "note": "Patterns are transcribed as texts in Model/RegexText.v and parsed in Coq."},
{"property": "C51", "status": "proved", "theorems": ["C51_fullmatch", "C51_tag_uri_match", "C51_cutting", "C51_adi_terminator", "C51_every_pattern_refuted"], "note": "Steps are those of the reference backtracking search of Model/Sre.v; C51_every_pattern_refuted shows the bound is not true of every pattern."},
{"property": "C52", "status": "proved", "theorems": ["C52_reads_back", "C52_read_fits", "C52_read_write_read", "C52_tag_uri", "C52_tag_uri_cpi_refuted"], "note": "C52_reads_back is an equivalence; the CPI-96 gap between tag_uri and binary is C52_tag_uri_cpi_refuted."},
{"property": "C53", "status": "proved", "theorems": ["C53_written", "C53_read", "C53_same_tag", "C53_wide_escape_refuted", "C53_stray_percent_refuted", "C53_stray_after_escape_refuted"], "note": "The text request is described by the percent-encoding relation of SpecRespell.v; GIAI texts with a colon are excluded where the constructor cuts the reference. Three refutations show what lies outside."},
{"property": "C54", "status": "proved", "theorems": ["C54_element", "C54_identified", "C54_key", "C54_element_injective_refuted", "C54_escape_refuted", "C54_piece_refuted", "C54_class_refuted"], "note": "Refuted parts carry the suffix _refuted and have witnesses."},
{"property": "C55", "status": "proved", "theorems": ["C55_hex_accepted", "C55_hex_digits", "C55_hex_other", "C55_from_hex_other", "C55_base64", "C55_base64_read_part", "C55_base64_non_ascii", "C55_base64_tag", "C55_base64_same", "C55_base64_injective_refuted", "C55_spaced_pairs", "C55_unpaired", "C55_binary_bits_refuted"], "note": "total description of the three text forms read; the binary form also reads texts that are no bits (refuted)"},
{"property": "C56", "status": "proved", "theorems": ["C56_one_conversion", "C56_conversions", "C56_read_sound", "C56_idpat_sound", "C56_gtin_serial_sound", "C56_class_sound", "C56_unsafe_refuted", "C56_length_refuted"], "note": "all chains of conversions; parsers and class methods only return what the constructor makes"},
{"property": "C57", "status": "proved", "theorems": ["C57_declared_texts", "C57_declared_key", "C57_declared_get_key", "C57_declared_tag_uri", "C57_declared_binary", "C57_declared_hex", "C57_refused", "C57_bytes_as_hex", "C57_formatted", "C57_formatted_refused", "C57_length_integer", "C57_element_integer", "C57_length_other", "C57_element_length", "C57_length_none", "C57_length_none_refuted", "C57_gtin_serial", "C57_gtin_serial_text", "C57_text", "C57_key_integer", "C57_get_key_absent", "C57_get_key_element", "C57_flag", "C57_tag_uri_arguments", "C57_binary_arguments", "C57_header_member", "C57_header_member_refuted", "C57_filter_member_refuted", "C57_equal_objects"], "note": "All theorems are closed; refuted variants give the witnesses for silent acceptance (None as length of a CPI, header member as coding scheme, GTIN type as filter value)."},
{"property": "C58", "status": "proved", "theorems": ["C58_loaded", "C58_one_result", "C58_replace_uri_escapes", "C58_revert_uri_escapes", "C58_int_to_binary", "C58_binary_to_int", "C58_str_to_binary", "C58_base64_to_hex", "C58_hex_to_base64", "C58_hex_to_binary", "C58_binary_to_hex", "C58_encode_string", "C58_decode_string", "C58_decode_binary_char", "C58_encode_string_six_bits", "C58_decode_string_six_bits", "C58_encode_numeric_string", "C58_decode_numeric_string", "C58_encode_fixed_width_integer", "C58_decode_fixed_width_integer", "C58_encode_cage_code", "C58_decode_cage_code", "C58_encode_cage_code_six_bits", "C58_decode_cage_code_six_bits", "C58_verify_gs3a3_component", "C58_calculate_checksum", "C58_encode_partition_table", "C58_decode_partition_table", "C58_parse_header_and_truncate_binary"], "note": "Each function of common.py, as syntax tree, run by the machine of Model/Machine.v with unknown arguments; equal to Model/Common.v. Not expressed: exception texts."},
{"property": "C59", "status": "proved", "theorems": ["C59_sgtin_construct", "C59_sgtin_gs1", "C59_sscc_construct", "C59_sscc_gs1", "C59_sgln_construct", "C59_sgln_gs1", "C59_grai_construct", "C59_grai_gs1", "C59_giai_construct", "C59_giai_gs1", "C59_gsrn_construct", "C59_gsrn_gs1", "C59_gsrnp_construct", "C59_gsrnp_gs1", "C59_gdti_construct", "C59_gdti_gs1", "C59_sgcn_construct", "C59_sgcn_gs1", "C59_itip_construct", "C59_itip_gs1", "C59_gid_construct", "C59_cpi_construct", "C59_cpi_gs1", "C59_usdod_construct", "C59_adi_construct", "C59_lgtin_construct", "C59_lgtin_gs1", "C59_gsin_construct", "C59_gsin_gs1", "C59_ginc_construct", "C59_ginc_gs1", "C59_pgln_construct", "C59_pgln_gs1", "C59_upui_construct", "C59_upui_gs1", "C59_bic_construct", "C59_imovn_construct"], "note": "Properties/C59_SourceConstruct.v. Symbolic runs of Machine.v on the syntax trees of the scheme files."},
{"property": "C60", "status": "proved", "theorems": ["C60_filter_values", "C60_coding_schemes", "C60_sgtin_encode", "C60_sscc_encode", "C60_sgln_encode", "C60_grai_encode", "C60_giai_encode", "C60_gsrn_encode", "C60_gsrnp_encode", "C60_gdti_encode", "C60_sgcn_encode", "C60_itip_encode", "C60_gid_encode", "C60_cpi_encode", "C60_usdod_encode", "C60_adi_encode"], "note": "Properties/C60_SourceEncode.v. Symbolic runs of Machine.v on the syntax trees of the scheme files."},
{"property": "C61", "status": "proved", "theorems": ["C61_sgtin_decode", "C61_sscc_decode", "C61_sgln_decode", "C61_grai_decode", "C61_giai_decode", "C61_gsrn_decode", "C61_gsrnp_decode", "C61_gdti_decode", "C61_sgcn_decode", "C61_itip_decode", "C61_gid_decode", "C61_cpi_decode", "C61_usdod_decode", "C61_adi_decode"], "note": "Properties/C61_SourceDecode.v. Symbolic runs of Machine.v on the syntax trees of the scheme files."},
{"property": "C62", "status": "proved", "theorems": ["C62_tables", "C62_identities", "C62_element_strings_and_patterns", "C62_tags", "C62_keys", "C62_equality"], "note": "Runs of the syntax trees of parsers.py and of EPCScheme.__eq__ on the machine; objects with all their attributes."},
{"property": "C63", "status": "proved", "theorems": ["C63_every_call_ends", "C63_own_uri", "C63_tag_uri_back", "C63_tags_back", "C63_elements_back", "C63_equal", "C63_keys_agree", "C63_unsafe_refuted", "C63_giai_refuted"], "note": "Statements about runs of the source text and about texts; hypotheses shown necessary by the two refuted variants."},
{"property": "C64", "status": "proved", "theorems": ["C64_constructors", "C64_constructor_is_parser", "C64_readers_end", "C64_reader_is_parser", "C64_elements_end", "C64_element_reader_is_parser", "C64_tag_writers_end", "C64_element_writers_end", "C64_key_writers_end", "C64_class_reads_back", "C64_class_reads_element_back"], "note": "Runs of the source on the machine; no model function in the statements."},
{"property": "C65", "status": "proved", "theorems": ["C65_program", "C65_modules", "C65_names_once", "C65_loaded", "C65_package"], "note": "A lexer and parser of the Python subset, run on the embedded text of the files."},
{"property": "C66", "status": "proved", "theorems": ["C66_refusals", "C66_lengths", "C66_parser_lengths", "C66_key_lengths", "C66_constructors", "C66_matched", "C66_split", "C66_bits", "C66_class_bits", "C66_hex", "C66_length_number", "C66_length_refused", "C66_length_type_error", "C66_length_no_element", "C66_length_none", "C66_length_none_refuted", "C66_coding_scheme", "C66_filter", "C66_gtin_type", "C66_gtin_plus_serial"], "note": "Values: None, bools, ints, floats, bytes, members of enumerations, objects of the scheme classes (for texts that are matched: all values). C66_length_none_refuted: CPI accepts None as length. Not covered: bytes as hexadecimal digits, Base64 of other types, filter values of other types in tag_uri, numbers as gtin_type."},
{"property": "C67", "status": "proved", "theorems": ["C67_reads", "C67_only", "C67_one_text", "C67_same", "C67_refuses", "C67_zeros_only_at_the_end_refuted"], "note": "Fixed-size codings (19 of 21). C67_zeros_only_at_the_end_refuted: zero characters within a text are skipped, where the standard ends the text."},
{"property": "C68", "status": "proved", "theorems": ["C68_reads", "C68_only", "C68_one_text", "C68_same", "C68_unclosed_reference_refuted", "C68_short_serial_refuted", "C68_unclosed_serial_refuted", "C68_early_zeros_refuted"], "note": "CPI-var and ADI-var: reading a tag against the standard's decoding, as runs of the source. Four stronger claims (tags that are not closed or cut short are refused; every conforming ADI-var tag is read) are refuted by runs."},
{"property": "C69", "status": "proved", "theorems": ["C69_stands", "C69_once", "C69_distinct", "C69_own_reader_refuted"], "note": "Written tags against the standard's decoding, as runs of the source; that the library reads every such tag is refuted."},
{"property": "C70", "status": "proved", "theorems": ["C70_contract", "C70_unchecked_refuted"], "note": "The whole contract of tag_uri, and of binary where there is room, as runs of the source. What binary does where there is no room is C35."},
{"property": "C71", "status": "proved", "theorems": ["C71_back_exactly", "C71_accepted_refuted", "C71_refused_refuted", "C71_bits_refuted"], "note": "The run-level form of C52, with the boundary said of the URI's text."}
]}
