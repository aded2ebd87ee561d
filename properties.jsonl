{"id": "C01", "title": "Check digits obey the GS1 mod-10 law", "statement": "For every string of decimal digits, appending the digit computed by calculate_checksum gives a number whose digits, weighted 1,3,1,3,... from the right, sum to a multiple of ten; it is the only digit that does.", "quantifier": "every non-empty digit string (and every value of the check digit)", "why_tests_cant": "The digit strings are unbounded in number; tests only fix a handful of published keys, and odd/even length parity is handled by separate branches.", "anchors": ["epcpy/utils/common.py:calculate_checksum"]}
{"id": "C02", "title": "Check digits detect single-digit errors and most transpositions", "statement": "Changing any single digit of a number completed by calculate_checksum breaks the mod-10 law; swapping two adjacent digits breaks it exactly when the two digits do not differ by 0 or 5.", "quantifier": "every digit string, every position, every replacement digit / every adjacent pair", "why_tests_cant": "Requires every position in strings of every length and every pair of digits.", "anchors": ["epcpy/utils/common.py:calculate_checksum"]}
{"id": "C03", "title": "GSIN check digit agrees with the standard one", "statement": "The separate checksum used for GSIN gives, on every 16 digit shipment number (indeed every even-length number), the same digit as the GS1 checksum used by all other schemes, so GSIN keys also obey the mod-10 law.", "quantifier": "every even-length digit string", "why_tests_cant": "Two implementations can agree on all sampled inputs and differ elsewhere (they do differ on odd lengths).", "anchors": ["epcpy/epc_schemes/gsin.py:calculate_checksum", "epcpy/utils/common.py:calculate_checksum"]}
{"id": "C04", "title": "GS1 keys and element strings carry a correct check digit and the right digits", "statement": "For every accepted pure identity URI of a scheme with a check digit (SGTIN, SSCC, SGLN, GRAI, GSRN, GSRNP, GDTI, SGCN, PGLN, GSIN, LGTIN, and the element strings of ITIP and UPUI) the numeric part of gs1_key()/gs1_element_string() is company prefix and reference in the documented order followed by the digit that satisfies the mod-10 law.", "quantifier": "every URI string accepted by the constructor", "why_tests_cant": "Quantifies over all identifiers of the scheme.", "anchors": ["epcpy/epc_schemes/sgtin.py", "epcpy/epc_schemes/sscc.py", "epcpy/epc_schemes/sgln.py", "epcpy/epc_schemes/grai.py", "epcpy/epc_schemes/gsrn.py", "epcpy/epc_schemes/gsrnp.py", "epcpy/epc_schemes/gdti.py", "epcpy/epc_schemes/sgcn.py", "epcpy/epc_schemes/pgln.py", "epcpy/epc_schemes/gsin.py", "epcpy/epc_schemes/lgtin.py", "epcpy/epc_schemes/itip.py", "epcpy/epc_schemes/upui.py"]}
{"id": "C05", "title": "URI escaping and unescaping are inverse", "statement": "replace_uri_escapes(revert_uri_escapes(s)) == s for every string s; revert_uri_escapes(replace_uri_escapes(t)) == t for every t in which the reserved characters only occur as the seven upper-case escapes; revert_uri_escapes is injective; and revert_uri_escapes escapes exactly the reserved characters one by one.", "quantifier": "every string of Unicode characters", "why_tests_cant": "Chained str.replace calls can interact (a replacement can create or destroy a later match); no sample excludes an interaction.", "anchors": ["epcpy/utils/common.py:replace_uri_escapes", "epcpy/utils/common.py:revert_uri_escapes"]}
{"id": "C06", "title": "Constructors accept exactly the documented grammar", "statement": "For each of the 21 schemes the constructor succeeds exactly on the strings urn:epc:... with components in the documented alphabets and lengths (with the escape check of GS3A3 components where one applies), and on success exposes the components the URI spells; on any other string that is not malformed in its escapes it raises ConvertException (GID and USDOD: ValueError where a number has more than 4300 digits).", "quantifier": "every string", "why_tests_cant": "Acceptance is decided by a regular expression plus several length tests; only a proof covers all strings.", "anchors": ["epcpy/epc_schemes/*.py:__init__", "epcpy/utils/regex.py"]}
{"id": "C07", "title": "Objects keep the URI they were built from; equality is URI equality", "statement": "X(uri).epc_uri == uri whenever construction succeeds, and == between scheme objects is exactly equality of the URIs: reflexive, symmetric, transitive, and class-independent only when URIs coincide (which, for different schemes, never happens).", "quantifier": "every URI accepted by any scheme, every pair of schemes", "why_tests_cant": "Ranges over all accepted URIs and all pairs of classes.", "anchors": ["epcpy/epc_schemes/base_scheme.py:EPCScheme.__eq__", "epcpy/epc_schemes/base_scheme.py:EPCScheme.__init__"]}
{"id": "C08", "title": "Tag URIs round-trip", "statement": "For every tag-encodable scheme, coding scheme and filter value: if x.tag_uri(...) returns t then t spells the coding scheme, the filter value and the components of x, and from_tag_uri(t) returns an object equal to x, also through the generic tag_uri_to_tag_encodable; except that a GIAI URI with a further colon loses what follows the colon. Read with includes_filter at odds with the scheme, such a t is never accepted (for filter values of at most two digits); a hand-written tag URI can be accepted both ways, as two different objects.", "quantifier": "every accepted URI, coding scheme and filter value", "why_tests_cant": "Serials may contain ':' '.' and escapes; the parser splits on those characters.", "anchors": ["epcpy/epc_schemes/base_scheme.py:TagEncodable.from_tag_uri", "epcpy/utils/parsers.py:tag_uri_to_tag_encodable", "epcpy/epc_schemes/gid.py:from_tag_uri"]}
{"id": "C09", "title": "SGTIN binary round-trip", "statement": "For every accepted SGTIN URI written with ASCII digits, every filter value and every coding scheme for which tag_uri() succeeds - sgtin-96 (when tag_uri accepts the serial) and sgtin-198 (when the serial uses canonical escapes) - binary() returns a string of exactly the coding scheme's number of bits and from_binary() of it (also with any bits appended, for fixed-size schemes) returns an equal object.", "quantifier": "every accepted SGTIN URI x coding scheme x filter value (x trailing bits)", "why_tests_cant": "All company prefix lengths, all values up to the numeric limits, all serial strings up to the maximum length.", "anchors": ["epcpy/epc_schemes/sgtin.py:binary", "epcpy/epc_schemes/sgtin.py:from_binary", "epcpy/utils/common.py:encode_partition_table", "epcpy/utils/common.py:decode_partition_table"]}
{"id": "C10", "title": "SSCC binary round-trip", "statement": "For every accepted SSCC URI written with ASCII digits, every filter value and every coding scheme for which tag_uri() succeeds - sscc-96 - binary() returns a string of exactly the coding scheme's number of bits and from_binary() of it (also with any bits appended, for fixed-size schemes) returns an equal object.", "quantifier": "every accepted SSCC URI x coding scheme x filter value (x trailing bits)", "why_tests_cant": "All company prefix lengths, all values up to the numeric limits, all serial strings up to the maximum length.", "anchors": ["epcpy/epc_schemes/sscc.py:binary", "epcpy/epc_schemes/sscc.py:from_binary", "epcpy/utils/common.py:encode_partition_table", "epcpy/utils/common.py:decode_partition_table"]}
{"id": "C11", "title": "SGLN binary round-trip", "statement": "For every accepted SGLN URI written with ASCII digits, every filter value and every coding scheme for which tag_uri() succeeds - sgln-96 and sgln-195 (canonical escapes) - binary() returns a string of exactly the coding scheme's number of bits and from_binary() of it (also with any bits appended, for fixed-size schemes) returns an equal object.", "quantifier": "every accepted SGLN URI x coding scheme x filter value (x trailing bits)", "why_tests_cant": "All company prefix lengths, all values up to the numeric limits, all serial strings up to the maximum length.", "anchors": ["epcpy/epc_schemes/sgln.py:binary", "epcpy/epc_schemes/sgln.py:from_binary", "epcpy/utils/common.py:encode_partition_table", "epcpy/utils/common.py:decode_partition_table"]}
{"id": "C12", "title": "GRAI binary round-trip", "statement": "For every accepted GRAI URI written with ASCII digits, every filter value and every coding scheme for which tag_uri() succeeds - grai-96 and grai-170 (canonical escapes) - binary() returns a string of exactly the coding scheme's number of bits and from_binary() of it (also with any bits appended, for fixed-size schemes) returns an equal object.", "quantifier": "every accepted GRAI URI x coding scheme x filter value (x trailing bits)", "why_tests_cant": "All company prefix lengths, all values up to the numeric limits, all serial strings up to the maximum length.", "anchors": ["epcpy/epc_schemes/grai.py:binary", "epcpy/epc_schemes/grai.py:from_binary", "epcpy/utils/common.py:encode_partition_table", "epcpy/utils/common.py:decode_partition_table"]}
{"id": "C13", "title": "GIAI binary round-trip", "statement": "For every accepted GIAI URI written with ASCII digits, every filter value and every coding scheme for which tag_uri() succeeds - giai-96 and giai-202 (canonical escapes, no ':' in the asset reference) - binary() returns a string of exactly the coding scheme's number of bits and from_binary() of it (also with any bits appended, for fixed-size schemes) returns an equal object.", "quantifier": "every accepted GIAI URI x coding scheme x filter value (x trailing bits)", "why_tests_cant": "All company prefix lengths, all values up to the numeric limits, all serial strings up to the maximum length.", "anchors": ["epcpy/epc_schemes/giai.py:binary", "epcpy/epc_schemes/giai.py:from_binary", "epcpy/utils/common.py:encode_partition_table", "epcpy/utils/common.py:decode_partition_table"]}
{"id": "C14", "title": "GSRN and GSRNP binary round-trip", "statement": "For every accepted GSRN and GSRNP URI written with ASCII digits, every filter value and every coding scheme for which tag_uri() succeeds - gsrn-96 and gsrnp-96 - binary() returns a string of exactly the coding scheme's number of bits and from_binary() of it (also with any bits appended, for fixed-size schemes) returns an equal object.", "quantifier": "every accepted GSRN and GSRNP URI x coding scheme x filter value (x trailing bits)", "why_tests_cant": "All company prefix lengths, all values up to the numeric limits, all serial strings up to the maximum length.", "anchors": ["epcpy/epc_schemes/gsrn.py:binary", "epcpy/epc_schemes/gsrn.py:from_binary", "epcpy/utils/common.py:encode_partition_table", "epcpy/utils/common.py:decode_partition_table"]}
{"id": "C15", "title": "GDTI binary round-trip", "statement": "For every accepted GDTI URI written with ASCII digits, every filter value and every coding scheme for which tag_uri() succeeds - gdti-96 and gdti-174 (canonical escapes) - binary() returns a string of exactly the coding scheme's number of bits and from_binary() of it (also with any bits appended, for fixed-size schemes) returns an equal object.", "quantifier": "every accepted GDTI URI x coding scheme x filter value (x trailing bits)", "why_tests_cant": "All company prefix lengths, all values up to the numeric limits, all serial strings up to the maximum length.", "anchors": ["epcpy/epc_schemes/gdti.py:binary", "epcpy/epc_schemes/gdti.py:from_binary", "epcpy/utils/common.py:encode_partition_table", "epcpy/utils/common.py:decode_partition_table"]}
{"id": "C16", "title": "CPI binary round-trip", "statement": "For every accepted CPI URI written with ASCII digits, every filter value and every coding scheme for which tag_uri() succeeds - cpi-96 and cpi-var - binary() returns a string of exactly the coding scheme's number of bits (cpi-var: 60 bits, the company prefix, six for each character of the part reference) and from_binary() of it (also with any bits appended) returns an equal object.", "quantifier": "every accepted CPI URI x coding scheme x filter value (x trailing bits)", "why_tests_cant": "All company prefix lengths, all values up to the numeric limits, all serial strings up to the maximum length.", "anchors": ["epcpy/epc_schemes/cpi.py:binary", "epcpy/epc_schemes/cpi.py:from_binary", "epcpy/utils/common.py:encode_partition_table", "epcpy/utils/common.py:decode_partition_table"]}
{"id": "C17", "title": "SGCN binary round-trip", "statement": "For every accepted SGCN URI written with ASCII digits, every filter value and every coding scheme for which tag_uri() succeeds - sgcn-96 - binary() returns a string of exactly the coding scheme's number of bits and from_binary() of it (also with any bits appended, for fixed-size schemes) returns an equal object.", "quantifier": "every accepted SGCN URI x coding scheme x filter value (x trailing bits)", "why_tests_cant": "All company prefix lengths, all values up to the numeric limits, all serial strings up to the maximum length.", "anchors": ["epcpy/epc_schemes/sgcn.py:binary", "epcpy/epc_schemes/sgcn.py:from_binary", "epcpy/utils/common.py:encode_partition_table", "epcpy/utils/common.py:decode_partition_table"]}
{"id": "C18", "title": "ITIP binary round-trip", "statement": "For every accepted ITIP URI written with ASCII digits, every filter value and every coding scheme for which tag_uri() succeeds - itip-110 and itip-212 (two-digit piece and total, both below 99) - binary() returns a string of exactly the coding scheme's number of bits and from_binary() of it (also with any bits appended, for fixed-size schemes) returns an equal object. A two-digit piece number or total of 99 is refused by binary() though tag_uri() accepts it.", "quantifier": "every accepted ITIP URI x coding scheme x filter value (x trailing bits)", "why_tests_cant": "All company prefix lengths, all values up to the numeric limits, all serial strings up to the maximum length.", "anchors": ["epcpy/epc_schemes/itip.py:binary", "epcpy/epc_schemes/itip.py:from_binary", "epcpy/utils/common.py:encode_partition_table", "epcpy/utils/common.py:decode_partition_table"]}
{"id": "C19", "title": "GID binary round-trip", "statement": "For every accepted GID URI written with ASCII digits, every filter value and every coding scheme for which tag_uri() succeeds - gid-96 - binary() returns a string of exactly the coding scheme's number of bits and from_binary() of it (also with any bits appended, for fixed-size schemes) returns an equal object.", "quantifier": "every accepted GID URI x coding scheme x filter value (x trailing bits)", "why_tests_cant": "All company prefix lengths, all values up to the numeric limits, all serial strings up to the maximum length.", "anchors": ["epcpy/epc_schemes/gid.py:binary", "epcpy/epc_schemes/gid.py:from_binary", "epcpy/utils/common.py:encode_partition_table", "epcpy/utils/common.py:decode_partition_table"]}
{"id": "C20", "title": "USDOD binary round-trip", "statement": "For every accepted USDOD URI written with ASCII digits, every filter value and every coding scheme for which tag_uri() succeeds - usdod-96 - binary() returns a string of exactly the coding scheme's number of bits and from_binary() of it (also with any bits appended, for fixed-size schemes) returns an equal object.", "quantifier": "every accepted USDOD URI x coding scheme x filter value (x trailing bits)", "why_tests_cant": "All company prefix lengths, all values up to the numeric limits, all serial strings up to the maximum length.", "anchors": ["epcpy/epc_schemes/usdod.py:binary", "epcpy/epc_schemes/usdod.py:from_binary", "epcpy/utils/common.py:encode_partition_table", "epcpy/utils/common.py:decode_partition_table"]}
{"id": "C21", "title": "ADI binary round-trip holds exactly when no early six-zero run exists", "statement": "For every accepted ADI URI and filter, from_binary(binary(x)) equals x exactly when the six-bit encoding of the part number followed by the terminator contains no six-zero run before the terminator; otherwise the decoder cuts the part number at the wrong, unaligned place (e.g. any part number whose last character has an even code).", "quantifier": "every accepted ADI URI and filter value", "why_tests_cant": "The decoder searches for the terminator unaligned; whether that is harmless depends on every adjacent pair of characters.", "anchors": ["epcpy/epc_schemes/adi.py:from_binary", "epcpy/utils/common.py:encode_string_six_bits", "epcpy/utils/common.py:decode_string_six_bits"]}
{"id": "C22", "title": "Binary encoding is injective", "statement": "Two requests for a tag (object, coding scheme, filter value) for which tag_uri succeeds and whose text parts use canonical escapes, and that have the same binary(), are the same request and come from the same URI, for every class and coding scheme; without canonical escapes two URIs can share a tag.", "quantifier": "every pair of accepted URIs and filter values", "why_tests_cant": "Pairs of inputs; a collision may sit anywhere.", "anchors": ["epcpy/epc_schemes/*.py:binary"]}
{"id": "C23", "title": "Every bit string decodes or raises ConvertException, up to named exceptions", "statement": "binary_to_tag_encodable on any string of 0s and 1s either returns a scheme object or raises ConvertException, except that under the seven-bit headers (198, 195, 170, 202, 174, 212 bits) a ValueError or OverflowError can escape (and for each of them does for some tag of full length), and that a cpi-var tag cut off before bit 15 raises ValueError.", "quantifier": "every string over {0,1}", "why_tests_cant": "2^96 payloads per header; corrupted RFID reads are arbitrary bits.", "anchors": ["epcpy/utils/parsers.py:binary_to_tag_encodable", "epcpy/utils/common.py:parse_header_and_truncate_binary", "epcpy/utils/common.py:decode_partition_table", "epcpy/utils/common.py:verify_gs3a3_component"]}
{"id": "C24", "title": "Decoding then re-encoding reproduces the tag", "statement": "If a 0/1 string with the header of a fixed-size numeric coding scheme decodes, re-encoding the result with the filter value read from the tag reproduces every bit of the tag except the unused ones (the 24 last of SSCC/GSRN/GSRNP, the reference field of a 12 digit company prefix), which become 0. Two kinds of tag are excepted: a usdod-96 CAGE code with its blank not in front (it moves to the front) and an itip-110 piece or total of 99 (it decodes but cannot be encoded).", "quantifier": "every 0/1 string accepted by from_binary", "why_tests_cant": "Quantifies over all tag contents.", "anchors": ["epcpy/epc_schemes/*.py:from_binary", "epcpy/epc_schemes/*.py:binary"]}
{"id": "C25", "title": "Filter values only affect the filter bits", "statement": "binary() under two filter values differs at most in the filter field, whose bits spell the filter value, and the decoded object does not depend on the filter bits.", "quantifier": "every object, coding scheme and pair of filter values; every bit string", "why_tests_cant": "All objects x filters.", "anchors": ["epcpy/epc_schemes/*.py:binary", "epcpy/epc_schemes/*.py:from_binary"]}
{"id": "C26", "title": "Too short or wrongly headed tags are refused", "statement": "from_binary of a fixed-size scheme raises ConvertException on every string with its header that is shorter than the coding scheme's size; on a header of no scheme binary_to_tag_encodable raises ConvertException, while X.from_binary raises KeyError.", "quantifier": "every string", "why_tests_cant": "Unbounded input space.", "anchors": ["epcpy/utils/common.py:parse_header_and_truncate_binary", "epcpy/utils/parsers.py:binary_to_tag_encodable"]}
{"id": "C27", "title": "Generic decoding dispatches to the class that encoded the tag", "statement": "The binary headers of all schemes are distinct, and for every object x of a tag-encodable class, binary_to_tag_encodable(x.binary(...)), hex_to_tag_encodable(x.hex(...)) and base64_to_tag_encodable(x.base64(...)) behave exactly like x's own class's from_binary on x.binary(...) (for the variable-length schemes: on the zero-padded binary).", "quantifier": "every object of every tag-encodable class, every coding scheme and filter", "why_tests_cant": "All tags of all classes.", "anchors": ["epcpy/utils/parsers.py:binary_to_tag_encodable", "epcpy/utils/parsers.py:hex_to_tag_encodable", "epcpy/utils/parsers.py:base64_to_tag_encodable"]}
{"id": "C28", "title": "Hex and base64 forms are faithful", "statement": "For every 0/1 string with a known header, hex() is the upper-case hexadecimal spelling of the binary zero-padded on the right to whole 16-bit words (its length is a multiple of 4), hex_to_binary restores those bits, and base64_to_hex(hex_to_base64(h)) spells the same bits; so from_hex(x.hex()) and from_base64(x.base64()) return x whenever from_binary(x.binary()) does.", "quantifier": "every tag binary; every even-length hex string; every byte string", "why_tests_cant": "Leading zeros are dropped by integer formatting and padding is re-added by length; all lengths matter.", "anchors": ["epcpy/epc_schemes/base_scheme.py:TagEncodable.hex", "epcpy/epc_schemes/base_scheme.py:TagEncodable.base64", "epcpy/utils/common.py:hex_to_binary", "epcpy/utils/common.py:hex_to_base64", "epcpy/utils/common.py:base64_to_hex", "epcpy/utils/common.py:binary_to_hex"]}
{"id": "C29", "title": "GS1 element strings round-trip", "statement": "For every accepted URI, from_gs1_element_string(x.gs1_element_string(), length of the company prefix) succeeds and equals x exactly when the escapes are canonical and, for SGTIN, LGTIN and SGLN, the serial/lot/extension contains no bracketed group of AI length, for GIAI no ':', for ITIP two-digit piece and total, for UPUI a non-empty item reference, for SGCN an ASCII serial; for the other schemes always.", "quantifier": "every accepted URI of each of the 16 GS1 element schemes", "why_tests_cant": "Element strings are cut by fixed offsets and by a splitting regex that also matches inside serials.", "anchors": ["epcpy/epc_schemes/*.py:gs1_element_string", "epcpy/epc_schemes/*.py:from_gs1_element_string"]}
{"id": "C30", "title": "Element strings dispatch to one class", "statement": "No string matches the element-string grammar of two schemes, so gs1_element_string_to_gs1_element behaves as the from_gs1_element_string of the only matching class, and raises ConvertException when none matches.", "quantifier": "every string and company prefix length", "why_tests_cant": "Pairwise disjointness of 16 regular languages.", "anchors": ["epcpy/utils/parsers.py:gs1_element_string_to_gs1_element", "epcpy/utils/regex.py"]}
{"id": "C31", "title": "get_gs1_key agrees over all representations", "statement": "For every accepted URI of a GS1-keyed scheme, get_gs1_key gives the same key from the pure identity URI, from any of its tag URIs, from any of its binary/hex encodings that decode to it, and from its element string whenever from_gs1_element_string understands that with the given company prefix length (for GIAI and GINC with a dot: with the own length); its base64 form, and any text of no recognised kind, is refused with ConvertException.", "quantifier": "every accepted URI x representation", "why_tests_cant": "The function guesses the representation from the text; every string must be guessed right.", "anchors": ["epcpy/utils/parsers.py:get_gs1_key"]}
{"id": "C32", "title": "GTIN-8/12/13 views are consistent", "statement": "SGTIN/LGTIN gtin(GTINn) returns the last n digits of the GTIN-14 exactly when the 14-n leading digits are zero, else raises ConvertException; zero-filling the result gives the GTIN-14 back. Any other integer passed as the type is taken as a digit count: from 0 to 14 the same rule holds, below 0 ConvertException is always raised, from 15 to 28 the last n-14 digits come back unchecked, above 28 the whole GTIN-14.", "quantifier": "every SGTIN and LGTIN, each GTIN type and every integer", "why_tests_cant": "All GTINs.", "anchors": ["epcpy/epc_schemes/sgtin.py:gtin", "epcpy/epc_schemes/lgtin.py:gtin"]}
{"id": "C33", "title": "from_gtin_plus_serial inverts gtin()", "statement": "SGTIN.from_gtin_plus_serial(v, serial of x, company prefix length) == x for every SGTIN x and every view v = x.gtin(kind); conversely the GTIN of SGTIN.from_gtin_plus_serial(g, ...) is g zero-filled with its last digit replaced by the check digit, so for 14 digits it is g exactly when g has a correct check digit (a wrong one is silently replaced).", "quantifier": "every SGTIN and every view; every digit string and every integer as company prefix length", "why_tests_cant": "All GTINs and prefix lengths.", "anchors": ["epcpy/epc_schemes/sgtin.py:from_gtin_plus_serial"]}
{"id": "C34", "title": "96-bit tag URIs are refused exactly when the serial does not fit", "statement": "tag_uri succeeds exactly when the coding scheme has room for the object: for the numeric ones, when the serial is numeric, has no superfluous leading zero and fits the bit field (for giai-96 also 25 digits in all, for cpi-96 a numeric reference and 15 digits in all), for the others always; otherwise it raises ConvertException.", "quantifier": "every accepted URI and filter value", "why_tests_cant": "Boundary of 38/41/31-bit fields for all serial strings.", "anchors": ["epcpy/epc_schemes/sgtin.py:tag_uri", "epcpy/epc_schemes/sgln.py:tag_uri", "epcpy/epc_schemes/grai.py:tag_uri", "epcpy/epc_schemes/gdti.py:tag_uri", "epcpy/epc_schemes/giai.py:tag_uri", "epcpy/epc_schemes/cpi.py:tag_uri", "epcpy/epc_schemes/itip.py:tag_uri"]}
{"id": "C35", "title": "binary() without tag_uri()'s check can lose information", "statement": "For the seven codings that write any serial as a number (SGTIN-96, SGLN-96, GRAI-96, GDTI-96, ITIP-110, GIAI-96 with its asset reference, CPI-96), binary() does not make tag_uri()'s check. It raises ValueError exactly when the serial is not an int() literal; a literal of z >= 0 gives size+k bits, where k is how many bits z is too long, and reading them gives the EPC with serial z / 2^k, so '007', '+7' and '0_7' give the tag of 7; a negative literal gives a string with a minus sign that hex() refuses. The tag gives the object back exactly when tag_uri() accepts the serial. CPI-96 also raises ValueError when its part reference is not an int() literal.", "quantifier": "every accepted ASCII URI of the seven schemes (ITIP: piece and total of two digits, below 99; CPI: a part reference that cpi-96 has room for; that the object comes back, of a GIAI: no further colon), every filter below 8", "why_tests_cant": "Shows the failing inputs as a class, not as one example.", "anchors": ["epcpy/epc_schemes/sgtin.py:binary", "epcpy/epc_schemes/sgln.py:binary", "epcpy/epc_schemes/grai.py:binary", "epcpy/epc_schemes/gdti.py:binary", "epcpy/epc_schemes/itip.py:binary", "epcpy/epc_schemes/giai.py:binary", "epcpy/epc_schemes/cpi.py:binary"]}
{"id": "C36", "title": "Partition tables are sound", "statement": "In each scheme's partition table, every company prefix of L digits fits the M bits and every reference of K digits fits the N bits, the widths and digits of all rows add up to the same totals, and the row found from the prefix length is the row found from its partition value (giai-96 is the exception: its widest references need not fit, which tag_uri() checks).", "quantifier": "all rows of all tables, all digit strings of the row's length", "why_tests_cant": "Finite rows but unbounded digit strings.", "anchors": ["epcpy/epc_schemes/*.py:PARTITION_TABLE_P", "epcpy/epc_schemes/*.py:PARTITION_TABLE_L"]}
{"id": "C37", "title": "Field codecs are inverse", "statement": "7-bit strings, six-bit strings, six-bit and eight-bit CAGE codes, numeric strings with leading zeros, fixed-width integers and zero-padded integers each decode back to what was encoded, for every value in their domain and bit width (numbers up to the 4300 digits that int() reads).", "quantifier": "every string/value in the codec's domain, every width", "why_tests_cant": "Unbounded domains.", "anchors": ["epcpy/utils/common.py:encode_string", "epcpy/utils/common.py:decode_string", "epcpy/utils/common.py:encode_string_six_bits", "epcpy/utils/common.py:decode_string_six_bits", "epcpy/utils/common.py:encode_cage_code", "epcpy/utils/common.py:decode_cage_code", "epcpy/utils/common.py:encode_numeric_string", "epcpy/utils/common.py:decode_numeric_string", "epcpy/utils/common.py:encode_fixed_width_integer", "epcpy/utils/common.py:decode_fixed_width_integer", "epcpy/utils/common.py:str_to_binary"]}
{"id": "C38", "title": "Escape verification rejects some standard serials, exactly these", "statement": "verify_gs3a3_component accepts every serial of the GS1 alphabet without letter escapes; on canonical serials in general it accepts exactly those in which an escape written with a letter (%2F %3C %3E %3F) that opens the serial or follows a digit escape is itself followed by the end or by a digit escape; other standard serials (e.g. %2F12) are refused, some with ValueError instead of ConvertException.", "quantifier": "every canonically escaped string over the 82-character alphabet", "why_tests_cant": "The defect depends on the position of escapes in serials of any length.", "anchors": ["epcpy/utils/common.py:verify_gs3a3_component"]}
{"id": "C39", "title": "Which exceptions can escape", "statement": "Constructors raise only ConvertException on any string, except ValueError/OverflowError from the escape check of GS3A3 components and ValueError from a GID or USDOD number of more than 4300 digits; the URI, ID pattern and element string parsers raise ConvertException, ValueError, IndexError, OverflowError or TypeError only as listed per parser; X.from_binary additionally KeyError; hexadecimal and base64 parsers ValueError on text that is not hexadecimal or base64; the instance methods tag_uri, binary, hex raise only ConvertException and ValueError.", "quantifier": "every string", "why_tests_cant": "Users are told to catch ConvertException; only a proof can list all exceptions.", "anchors": ["epcpy/utils/common.py:ConvertException", "epcpy/utils/parsers.py", "README.md:Exceptions"]}
{"id": "C40", "title": "Non-ASCII digits are accepted and change the identity", "statement": "\\d matches every Unicode decimal digit, so a URI with non-ASCII digits is accepted; its key then contains non-ASCII characters and its binary round-trip returns the URI with those digits replaced by ASCII ones, not an equal object.", "quantifier": "witnesses, plus: for every accepted URI whose digits are ASCII the key is ASCII", "why_tests_cant": "Alphabet of 660 digit characters.", "anchors": ["epcpy/utils/regex.py:PADDED_NUMERIC_COMPONENT"]}
{"id": "C41", "title": "ID patterns yield the key of their fixed part", "statement": "get_gs1_key of an ID pattern is the key of the pure identity URI spelled like it, with '*' an ordinary character: an SGTIN or SGLN pattern with wildcard serial gives the GTIN/GLN of its fixed part; patterns with a wildcard in the reference or the company prefix, or in an SGCN serial, raise ConvertException; for GRAI, GDTI, GIAI and GINC the wildcard is taken literally and appears as '*' in the key.", "quantifier": "every pattern string", "why_tests_cant": "All company prefixes and references.", "anchors": ["epcpy/utils/parsers.py:_idpat_to_gs1_keyed_scheme", "epcpy/utils/parsers.py:get_gs1_key"]}
{"id": "C42", "title": "A class cannot be built from another scheme's tag URI or pure identity URI", "statement": "X.from_tag_uri and X(...) raise ConvertException on every tag URI / pure identity URI naming a different scheme.", "quantifier": "every string, every pair of classes", "why_tests_cant": "All strings.", "anchors": ["epcpy/epc_schemes/base_scheme.py:TagEncodable.from_tag_uri", "epcpy/epc_schemes/*.py:__init__"]}
{"id": "C43", "title": "epc_pure_identity_* parsers agree with the class constructors", "statement": "epc_pure_identity_to_scheme(u) is the constructor of the class named by the fourth colon-separated field; the gs1_element / gs1_keyed / tag_encodable variants succeed exactly when in addition the class has that capability, and else raise ConvertException.", "quantifier": "every string with at least four colon-separated fields", "why_tests_cant": "All strings and all classes.", "anchors": ["epcpy/utils/parsers.py:epc_pure_identity_to_scheme", "epcpy/utils/parsers.py:epc_pure_identity_to_gs1_element", "epcpy/utils/parsers.py:epc_pure_identity_to_gs1_keyed", "epcpy/utils/parsers.py:epc_pure_identity_to_tag_encodable"]}
{"id": "C44", "title": "Tags are laid out as the Tag Data Standard says", "statement": "For every accepted URI, coding scheme and filter value for which tag_uri() succeeds and whose alphanumeric part uses canonical escapes, binary() is the concatenation, in the order and with the widths of the GS1 Tag Data Standard, of header, filter value, partition value, company prefix, reference and serial, each written in binary (text: seven or six bits a character), and it has the size of the coding scheme.", "quantifier": "every object of every tag-encodable class (ITIP: piece and total of two digits, below 99), every coding scheme and filter value", "why_tests_cant": "A test compares single tags; a wrong width for one partition value or one class can go unnoticed, and a round trip cannot see a layout that is wrong in the same way in both directions.", "anchors": ["epcpy/utils/common.py:encode_partition_table", "epcpy/epc_schemes/sgtin.py:SGTIN.binary", "epcpy/epc_schemes/adi.py:ADI.binary"]}
{"id": "C45", "title": "An accepted element string is reprinted with its check digit put right", "statement": "When from_gs1_element_string accepts a string, the element string of the result is the same string with the check digit replaced by the correct one (a GIAI is cut at its first ':'), and the company prefix length given was the length of the company prefix of the result or was negative. For GIAI and GINC this needs a string without '.': with one, a wrong length can be accepted and the key silently changed.", "quantifier": "every string, class and integer company prefix length", "why_tests_cant": "Every split position, every check digit, negative slice indices.", "anchors": ["epcpy/epc_schemes/*.py:from_gs1_element_string"]}
{"id": "C46", "title": "Exceptions of from_gs1_element_string", "statement": "from_gs1_element_string raises only ConvertException, ValueError or OverflowError; each of them occurs.", "quantifier": "every string, class and integer company prefix length", "why_tests_cant": "Users are told to catch ConvertException only.", "anchors": ["epcpy/epc_schemes/*.py:from_gs1_element_string"]}
{"id": "C47", "title": "The four coding methods agree on what their arguments mean", "statement": "tag_uri, binary, hex and base64 called with the keywords binary_coding_scheme and filter_value do what the request says. By position, tag_uri and binary take them in the documented order of each class (ITIP: a different order for each). hex and base64 ignore arguments given by position: TypeError for the classes with required parameters, the default tag for GSRN, GSRNP and GID, so a filter value can get lost without notice. Arguments in the wrong order or a coding scheme of another class make binary raise KeyError, while tag_uri returns a text that no parser reads as an object of that class (it may read as an object of another class). Mixed calls, some arguments by position and some by keyword, do what the same call with keywords does; TypeError is raised exactly when the arguments do not fit: an unknown keyword, too many arguments, a parameter given twice or a required one missing.", "quantifier": "every object of every tag-encodable class, every coding scheme of any class, every filter value, positional or keyword arguments", "why_tests_cant": "Tests call each method one way; the signatures differ from class to class and from method to method, and the generic hex/base64 drop arguments silently.", "anchors": ["epcpy/epc_schemes/base_scheme.py:TagEncodable.hex", "epcpy/epc_schemes/base_scheme.py:TagEncodable.base64", "epcpy/epc_schemes/itip.py:ITIP.binary", "epcpy/epc_schemes/gsrn.py:GSRN.binary"]}
{"id": "C48", "title": "The tables the library dispatches on are the standard's", "statement": "The enumerations of coding schemes, binary headers and filter values have no repeated names or values; each class has exactly the coding schemes and 8-bit headers of the Tag Data Standard and the filter values 0 to 7 (0 to 15 for USDOD, 0 to 63 for ADI); header_to_schemes() never raises and pairs each header with its own coding scheme; the dictionaries of parsers.py, where a later entry would overwrite an earlier one, lead from each standard header, in binary and in upper-case hex, and from each scheme name to its own class, and from nothing else to anything.", "quantifier": "every class, every key looked up", "why_tests_cant": "A repeated value turns an Enum member into an alias and a repeated key overwrites silently; absence of further keys is a statement about all strings.", "anchors": ["epcpy/epc_schemes/base_scheme.py:TagEncodable.header_to_schemes", "epcpy/utils/parsers.py:TAG_ENCODABLE_BINARY_HEADERS", "epcpy/utils/parsers.py:EPC_SCHEME_IDENTIFIERS", "epcpy/epc_schemes/sgtin.py:SGTINFilterValue"]}
{"id": "C49", "title": "An object's past does not change its answers", "statement": "After any history of tag_uri, binary, hex, base64, gs1_key, gs1_element_string, hash and == calls and assignments to epc_uri, every method answers as it would have on the fresh object (the cache CPI.tag_uri fills is never read; hash() always raises TypeError); epc_uri and == follow the last assignment, so after one, equal objects may have different keys.", "quantifier": "every object, every finite history, every call", "why_tests_cant": "Histories are unbounded.", "anchors": ["epcpy/epc_schemes/base_scheme.py:EPCScheme.__eq__", "epcpy/epc_schemes/base_scheme.py:TagEncodable.__init__", "epcpy/epc_schemes/cpi.py:tag_uri"]}
{"id": "C50", "title": "The pattern texts mean what the model says, and the search finds every match", "statement": "For every pattern text the parser accepts, Python's backtracking search (greedy, leftmost alternative first, empty rounds cut) reports a match exactly if the text matches by the usual meaning of the pattern. Each pattern string of regex.py, built from its f-strings, and each pattern given to re.match, re.split, re.findall and re.sub, parses and answers on every text as the language or function used in the rest of the model.", "quantifier": "every pattern text, every subject text", "why_tests_cant": "Both the pattern and the subject are arbitrary strings; precedence slips (an unparenthesised alternative, '+,-.' read as a range) only show on particular subjects.", "anchors": ["epcpy/utils/regex.py", "epcpy/utils/common.py:verify_gs3a3_component", "epcpy/utils/parsers.py:epc_pure_identity_to_gs1_key"]}
{"id": "C51", "title": "Matching takes linear time", "statement": "Counting the steps of the backtracking search, fullmatch of every pattern of regex.py takes at most a*n+b steps on a text of length n, for the listed a and b, and a bounded number of steps for element strings; the same holds of the match in base_scheme.py and adi.py, and every position of re.split and re.findall costs at most 9 steps. There are patterns of the same syntax with exponential cost.", "quantifier": "every subject text", "why_tests_cant": "Catastrophic backtracking shows only on adversarial inputs; no finite set of inputs bounds the cost.", "anchors": ["epcpy/utils/regex.py", "epcpy/epc_schemes/base_scheme.py:TagEncodable.from_tag_uri", "epcpy/epc_schemes/adi.py"]}
{"id": "C52", "title": "Exactly which tags read back", "statement": "For every object and coding scheme, with a filter that fits its field: writing the tag and reading it gives the same object back if and only if the URI is ASCII, the numbers fit the bits of their fields, the text of a text coding is escaped canonically, ITIP piece and total have two digits below 99, a GIAI URI has no colon part that is ignored, and an ADI part number makes no early run of six zeros. Every object read from any tag meets all but the last three, so that reading, writing and reading again is stable. tag_uri succeeds exactly if the numbers fit, except CPI-96 where it also refuses numbers that fit.", "quantifier": "every object of the 14 tag-encodable classes, every coding scheme, every fitting filter, every bit string", "why_tests_cant": "The 'only if' direction speaks of every request that is not a round trip, which sampling round trips cannot show.", "anchors": ["epcpy/epc_schemes/*.py:binary", "epcpy/epc_schemes/*.py:from_binary", "epcpy/utils/common.py"]}
{"id": "C53", "title": "Serials with escapes spelled in any way", "statement": "On the seven-bit codings (SGTIN-198, SGLN-195, GRAI-170, GIAI-202, GDTI-174, ITIP-212) a percent-encoded serial of codes 1 to 127 is written as the text it stands for, seven bits a character, whatever the case of the hexadecimal digits and whichever characters are escaped without need. Reading the tag gives the object of the canonical spelling exactly if that spelling is one the constructor accepts, and one of three exceptions otherwise. Two such serials share a tag if and only if they share coding scheme, filter, numbers and text. Escapes above 127 and percent signs that open no escape break this: the former may give the tag of another serial, the latter come back escaped or raise ValueError.", "quantifier": "every object of the six classes (ITIP: piece and total of two digits, below 99), every serial, every fitting filter, every continuation of the bit string", "why_tests_cant": "The equivalence speaks of all pairs of spellings; tests use the canonical spelling only.", "anchors": ["epcpy/utils/common.py:encode_string", "epcpy/utils/common.py:decode_string", "epcpy/epc_schemes/*.py:binary", "epcpy/epc_schemes/*.py:from_binary"]}
{"id": "C54", "title": "Which objects share an element string or a GS1 key", "statement": "Two objects have the same gs1_element_string() if and only if they are of the same class, their digit groups run together are the same and their serials, unescaped, are the same text; the division into company prefix and reference and the spelling of escapes are all that is lost. If the company prefixes have the same length and the serials are spelled the standard way, the same element string means the same URI. Two objects of one class have the same gs1_key() if and only if this holds leaving aside the serial of a SGTIN, the lot of a LGTIN and the extension of a SGLN. Element strings are therefore not injective (every SGTIN whose company prefix can be lengthened shares its string with another object, and %2f shares with %252f; an ITIP's piece and total run together), and a key does not determine the class.", "quantifier": "every pair of accepted URIs of every pair of classes", "why_tests_cant": "It is a statement about all pairs of objects; a test compares a few.", "anchors": ["epcpy/epc_schemes/*.py:gs1_element_string", "epcpy/epc_schemes/*.py:gs1_key", "epcpy/utils/common.py:replace_uri_escapes"]}
{"id": "C55", "title": "What is read as hexadecimal, base64 and binary besides what the library writes", "statement": "A text that hex_to_tag_encodable reads consists of hexadecimal digits only, in either case and with 0-9 of any script, and is read as the bits of those digits; although int() takes blanks, signs, 0x and underscores, every text that has one is refused (ConvertException if int() takes it, ValueError if not; KeyError or ValueError from X.from_hex). base64_to_hex reads the base64 digits up to where the first group is closed by '=', skips every other ASCII character and drops the bits short of a byte; it raises ValueError exactly for non-ASCII text and when 4k+1 digits are read. So different base64 texts are read as the same tag. hex_to_base64 allows blanks between pairs of digits and nothing else. binary_to_tag_encodable does read texts that are no bits: fields may have signs, blanks and underscores, and a minus sign makes a SGLN with the extension -5.", "quantifier": "every text", "why_tests_cant": "It is about all texts, most of them malformed; tests try well-formed ones.", "anchors": ["epcpy/utils/common.py:109-156", "epcpy/utils/parsers.py:hex_to_tag_encodable", "epcpy/utils/parsers.py:base64_to_tag_encodable", "epcpy/epc_schemes/base_scheme.py:from_hex"]}
{"id": "C56", "title": "Chained conversions keep the object", "statement": "Start from anything a top-level parser reads (pure identity URI, tag URI, binary, hexadecimal or base64 tag, element string with its company prefix length), write the object in any of the six representations, read that, and go on for any number of steps, choosing a coding scheme, a filter value and a representation anew each time: the object read at the end equals the first one, provided each written form is one the object fits in (reserved characters escaped the standard way, filter value in range, ITIP pieces below 99, no second ':' in a GIAI, the true company prefix length). Moreover every object returned by any parser or class method is the one the constructor of its class makes from the object's own URI, and a class method returns an object of its own class. Without the conditions the object can change: %2f comes back from a tag as %2F, and another company prefix length gives another URI.", "quantifier": "every text, every object read, every chain of any length", "why_tests_cant": "Chains of unbounded length over six representations cannot be enumerated; tests convert once there and back for a few examples.", "anchors": ["epcpy/utils/parsers.py", "epcpy/epc_schemes/base_scheme.py", "epcpy/epc_schemes/*.py"]}
{"id": "C57", "title": "Arguments of other types", "statement": "Every entry point is described for None, bools, ints, floats, str, bytes, members of the library's enumerations and its objects, not only for the declared types. With the declared types it does what the typed description says. A value that is no str never yields an object or a key, except bytes given to the hexadecimal readers, which are read as the ASCII text they hold (non-ASCII bytes: ValueError); the exception is TypeError where the text is matched first, AttributeError (TypeError for bytes) where it is split first, and for binary texts TypeError (for bytes: ConvertException in the generic parser, KeyError in the class). The base64 readers format any value into text; still no object comes of a value that is no str, and the exception is ConvertException, KeyError or ValueError. As company prefix length, integers, bools and GTIN types count by their number; everything else makes no object, with one exception: None makes a CPI whose company prefix and part reference are both the whole reference. from_gtin_plus_serial needs a str and an integer, but takes any serial by its str(), None included. get_gs1_key treats every false length as absent and needs an integer for element strings. gtin_type may be any integer. includes_filter counts by its truth. tag_uri needs enumeration members; binary needs a coding scheme or a BinaryHeader member of the class and a filter member with a numeric value. A BinaryHeader member gives the same tag as the coding scheme it names if that is the last of the class; for a shorter scheme it gives a tag that does not read back, and a GTIN type as filter value can give a tag of 97 bits. An object equals only objects, namely those with the same URI.", "quantifier": "every value of the listed types, every text, every entry point", "why_tests_cant": "Tests call with the declared types only; the wrong types times the entry points are never tried, and silent acceptance (None as a length or serial) does not show as a failure.", "anchors": ["epcpy/utils/parsers.py", "epcpy/utils/common.py:109-143", "epcpy/epc_schemes/base_scheme.py", "epcpy/epc_schemes/sgtin.py:176-224", "epcpy/epc_schemes/cpi.py:232-258", "epcpy/epc_schemes/*.py"]}
{"id": "C58", "title": "The source text of common.py does what its model says", "statement": "When the syntax trees of epcpy are run by the rules of Python (after importing all modules), each of the 27 functions of epcpy/utils/common.py, called with arguments of the declared types, returns the value or raises the exception that its description in the formal model says; the result is unique. The descriptions are those that all other properties are proved about.", "quantifier": "every argument of the declared types: all texts, all integers, all partition tables and header dictionaries; widths below 2^100, fixed-width integers up to 4300 bits", "why_tests_cant": "Tests compare a few inputs with expected outputs. That a description written by hand agrees with the code on every input, exceptions included, is a statement about all runs.", "anchors": ["epcpy/utils/common.py"]}
{"id": "C59", "title": "The source text of the constructors and GS1 methods does what its model says", "statement": "When the syntax trees of epcpy are run by the rules of Python, constructing any of the 21 scheme classes from a text (directly or through from_epc_uri), gs1_key, gtin, gs1_element_string, from_gs1_element_string and from_gtin_plus_serial return the object or text, or raise the exception, that their descriptions in the formal model say, whether the arguments are given by position or by keyword.", "quantifier": "every text as URI or element string, every integer as company prefix length, every object, every GTIN type, every way of passing the arguments", "why_tests_cant": "Tests compare a few inputs with expected outputs. That descriptions written by hand agree with the code on every input, exceptions included, is a statement about all runs.", "anchors": ["epcpy/epc_schemes/", "epcpy/epc_schemes/base_scheme.py"]}
{"id": "C60", "title": "The source text of the tag writers does what its model says", "statement": "When the syntax trees of epcpy are run by the rules of Python, tag_uri, binary, hex and base64 of each of the 14 tag-encodable classes return the text, or raise the exception, that their descriptions in the formal model say, with arguments given by position, by keyword or left to their defaults. The enumerations of filter values have the members 0, 1, ... in order, those of coding schemes the schemes of the description.", "quantifier": "every object, coding scheme and filter value, every way of passing them; for hex and base64, binary texts shorter than 2^100", "why_tests_cant": "Tests compare a few inputs with expected outputs. That descriptions written by hand agree with the code on every input, exceptions included, is a statement about all runs.", "anchors": ["epcpy/epc_schemes/", "epcpy/epc_schemes/base_scheme.py:72-135"]}
{"id": "C61", "title": "The source text of the tag readers does what its model says", "statement": "When the syntax trees of epcpy are run by the rules of Python, header_to_schemes, from_tag_uri (with and without includes_filter), from_binary, from_hex and from_base64 of each of the 14 tag-encodable classes return the object, or raise the exception, that their descriptions in the formal model say.", "quantifier": "every text and every way of passing it; for hexadecimal and Base64 texts, lengths below 2^100 bits", "why_tests_cant": "Tests compare a few inputs with expected outputs. That descriptions written by hand agree with the code on every input, exceptions included, is a statement about all runs.", "anchors": ["epcpy/epc_schemes/", "epcpy/epc_schemes/base_scheme.py:136-240"]}
{"id": "C62", "title": "The source text of the parsers and of equality does what its model says", "statement": "When the syntax trees of epcpy are run by the rules of Python, every function of parsers.py (the five epc_pure_identity_to_* functions, epc_pure_identity_to_gs1_key, gs1_element_string_to_gs1_element, _idpat_to_gs1_keyed_scheme, the four *_to_tag_encodable functions and get_gs1_key) returns the object or text, or raises the exception, that its description in the formal model says, keyword arguments for gs1_key included; the lists and dictionaries made at import are those of the model; __eq__ of any two scheme objects compares their URIs, and is False for None, texts, ints and bools.", "quantifier": "every text, company prefix length and GTIN_TYPE, every way of passing them, every pair of objects of the 21 classes; for hexadecimal and Base64 texts, lengths below 2^100 bits", "why_tests_cant": "Tests compare a few inputs with expected outputs. That descriptions written by hand agree with the code on every input, whichever of 21 classes it leads to, exceptions included, is a statement about all runs.", "anchors": ["epcpy/utils/parsers.py", "epcpy/epc_schemes/base_scheme.py:26-38"]}
{"id": "C63", "title": "Runs of the source: every call ends, and what is written is read back", "statement": "When the syntax trees of epcpy are run by the rules of Python: every call of a parser on any text ends with an object that its own epc_uri makes again, with a text, or with ConvertException, ValueError, OverflowError or (too few fields; no indicator digit) IndexError, TypeError only when a GTIN type is given; the object made from a URI keeps it; what its tag_uri returns is parsed as the same object; where tag_uri returns and the URI is safe (ASCII, escapes as the library writes them, no further colon in a GIAI, two-digit pieces below 99 in an ITIP, no early run of six zeros in an ADI), binary, hex and base64 return too and are parsed as the same object; the element string is parsed as the same object under the conditions of C29; == is equality of URIs; get_gs1_key finds the same key in the URI, the tag URI, the bits and the hexadecimal digits.", "quantifier": "every text, every object that a parser returns, every member of the enumerations of coding schemes, filter values and GTIN types, keywords in either order; for hexadecimal and Base64 texts and those given to get_gs1_key, lengths below 2^100 bits", "why_tests_cant": "The round trips are laws over all URIs, coding schemes and filter values; termination and the list of exceptions are statements about all texts. Both are about the code as run, not about a description of it.", "anchors": ["epcpy/utils/parsers.py", "epcpy/epc_schemes/base_scheme.py", "epcpy/epc_schemes/sgtin.py", "epcpy/utils/common.py"]}
{"id": "C64", "title": "Runs of the source: the scheme classes called directly", "statement": "When the syntax trees of epcpy are run by the rules of Python: every constructor and from_epc_uri on any text ends with an object of the class that keeps the text as epc_uri, or with ConvertException, ValueError or OverflowError; from_tag_uri, from_binary, from_hex and from_base64 of the 14 tag classes and from_gs1_element_string of the 16 element classes end with an object of the class that its own URI makes again, or with one of those exceptions or (bits with another class's header) KeyError; each of these reads exactly what the parser for all classes reads as an object of that class; tag_uri, binary, hex, base64, gs1_element_string and gs1_key of any object end with a text or with the exceptions named for each (gs1_key without a GTIN type always returns); what an object writes, its own class reads back as the same object, under the conditions of C63.", "quantifier": "every text, every class, every object a parser returns, every int as company prefix length, every member of the enumerations; for hexadecimal and Base64 texts, lengths below 2^100 bits", "why_tests_cant": "That fourteen classes and one dispatcher read the same texts as the same objects, that every call ends, and the list of exceptions are statements about all texts and all runs of the code.", "anchors": ["epcpy/epc_schemes/base_scheme.py", "epcpy/epc_schemes/sgtin.py", "epcpy/epc_schemes/sscc.py", "epcpy/epc_schemes/upui.py", "epcpy/utils/parsers.py"]}
{"id": "C65", "title": "The trees that are run are those of the source text", "statement": "The text of the 26 modules of epcpy, read by Python's lexical rules and grammar, is exactly the modules and functions that C58 to C64 are about; no function or module hides another of the same name; importing what is read gives the namespaces, classes and default values of those theorems; and import epcpy offers exactly the eleven parsers and ConvertException.", "quantifier": "every line of the 27 files, every module and function in them", "why_tests_cant": "A test runs whatever text is there; it cannot say that the program a proof is about is that text, nor that nothing else is in it.", "anchors": ["epcpy/__init__.py", "epcpy/utils/common.py", "epcpy/utils/parsers.py", "epcpy/utils/regex.py", "epcpy/epc_schemes/base_scheme.py"]}
{"id": "C66", "title": "Runs of the source: arguments of other types than the declared ones", "statement": "When the syntax trees of epcpy are run by the rules of Python: every constructor, from_epc_uri, from_tag_uri, from_gs1_element_string, gs1_element_string_to_gs1_element and get_gs1_key raise TypeError for anything that is no text; the seven parsers that split their text raise AttributeError, TypeError for bytes; binary_to_tag_encodable and from_binary raise TypeError, for bytes ConvertException and KeyError; hexadecimal readers raise TypeError for what is neither text nor bytes. As company prefix length, bools and IntEnum members count as their number, everything else is refused (TypeError if the text can be read with some number), except that CPI takes None. A coding scheme that is no enumeration member raises AttributeError in tag_uri, binary, hex and base64, such a filter value in binary, hex and base64; gtin_type None, text or bytes raises TypeError; from_gtin_plus_serial raises AttributeError for a GTIN that is neither text nor bytes and TypeError for a length that is no number. What C57 says of refused texts and of lengths of any type is what the source does.", "quantifier": "every value of the kinds named, every class, every object a parser returns, every text (to get_gs1_key: of length below 2^98)", "why_tests_cant": "Which of several checks comes first decides the exception, for each of twenty entry points and twenty-one classes and for all texts; a test samples a few pairs.", "anchors": ["epcpy/epc_schemes/base_scheme.py", "epcpy/utils/parsers.py", "epcpy/utils/common.py", "epcpy/epc_schemes/sgtin.py", "epcpy/epc_schemes/cpi.py"]}
{"id": "C67", "title": "Reading a tag follows the decoding procedure of the Tag Data Standard", "statement": "When the syntax trees of epcpy are run by the rules of Python: binary_to_tag_encodable reads the bits of a tag of a fixed-size coding scheme as the object of the URI that the decoding procedure of the standard gives for these bits (which bits are the partition value, the company prefix, the references, the serial or the seven-bit characters, and how many digits each has), if the text on the tag is one that the constructor accepts. Nothing else is read. A tag has at most one such URI, and reading the tag ends as reading the URI does, exceptions included; a tag that has none (a number too wide for its digits, partition value 7) is refused with ConvertException. One departure from the standard: zero characters are skipped wherever they stand, so that two tags with different texts are read as the same object.", "quantifier": "every bit string that has the header and at least the size of one of the 19 coding schemes of a fixed size (all but CPI-var and ADI-var)", "why_tests_cant": "There are up to 2^202 tags of each coding scheme; the field widths depend on the partition value, and a slip in one of the seven rows or in one bound only shows on the tags of that row.", "anchors": ["epcpy/utils/common.py", "epcpy/epc_schemes/base_scheme.py", "epcpy/utils/parsers.py", "epcpy/epc_schemes/sgtin.py", "epcpy/epc_schemes/giai.py"]}
{"id": "C68", "title": "Reading the tags of no fixed size, CPI-var and ADI-var, against the decoding procedure of the standard", "statement": "When the syntax trees of epcpy are run by the rules of Python: binary_to_tag_encodable reads a CPI-var tag (company prefix by partition value, six-bit characters closed by six zeros, a serial of 40 bits) and an ADI-var tag (CAGE code or DoDAAC of six characters, part number and serial each closed by six zeros) as the object of the URI that the decoding procedure of the standard gives for these bits, exactly if the texts are within the limits of the class. Such a tag has at most one URI, and reading the tag ends as reading the URI does, exceptions included. Found false and shown by counterexamples: a CPI-var tag whose reference is not closed is read with serial 0, one with a serial of fewer than 40 bits is read with those; an ADI-var tag whose serial is not closed is read without its last character; an ADI-var tag that conforms to the standard is refused when six zeros stand across two characters of its part number.", "quantifier": "every bit string that has the header of CPI-var or ADI-var and the fields that the standard asks for, of any length and with any bits behind the last field; of ADI-var, those whose part number does not hold six zeros across two characters", "why_tests_cant": "These tags have no bound on their length, and where a text ends depends on its own bits; the tests of the library read a handful of tags that it has written itself.", "anchors": ["epcpy/epc_schemes/cpi.py", "epcpy/epc_schemes/adi.py", "epcpy/utils/common.py", "epcpy/utils/parsers.py"]}
{"id": "C69", "title": "Tags that the library writes mean, to any reader that follows the standard, the object they were written from", "statement": "When the syntax trees of epcpy are run by the rules of Python: for an object built from a URI, a coding scheme of its class and a filter value, if tag_uri returns then binary returns bits that, by the decoding procedure of the Tag Data Standard, are a tag of exactly that coding scheme, of exactly its size, that stands for exactly that URI and carries that filter value. A tag stands for at most one URI, so that two different objects are never written as the same bits. Found false: that the library itself reads every such tag (an ADI whose part number holds six zeros across two characters is written correctly and refused when read).", "quantifier": "every URI that is standard_safe (tag_safe as in C63, or any ADI URI), every coding scheme and every filter value of its class, for which tag_uri returns", "why_tests_cant": "The library's tests write and read with the same code, so a field that is misplaced in both goes unnoticed; here the tag is read by the standard's tables, for all serials, prefixes, coding schemes and filter values.", "anchors": ["epcpy/epc_schemes/base_scheme.py", "epcpy/utils/common.py", "epcpy/epc_schemes/sgtin.py", "epcpy/epc_schemes/adi.py", "epcpy/epc_schemes/cpi.py"]}
{"id": "C70", "title": "tag_uri returns the standard's tag URI exactly when the coding scheme has room, and then binary returns a tag that stands for the object", "statement": "When the syntax trees of epcpy are run by the rules of Python: for an object built from a URI, a coding scheme of its class and a filter value, the coding scheme either has room for the URI (said of the URI's text: the numeric schemes take serials that are numbers without superfluous zeros and fit the bits; giai-96 and cpi-96 also bound the digits shared with the company prefix) or not. If it has, tag_uri returns 'urn:epc:tag:', the coding scheme's name, the filter value (GID has none) and the URI's own components, and binary returns bits of that coding scheme that by the standard stand for the URI and carry the filter value. If it has not, tag_uri raises ConvertException. Found false: that binary refuses what tag_uri refuses (serial 007 in sgtin-96 is written as the tag of serial 7).", "quantifier": "every URI the library accepts, every coding scheme and filter value of its class given as keywords in either order; binary: every such URI that is standard_safe as in C69", "why_tests_cant": "The boundary (2^38, 2^41, the seven GIAI partitions, leading zeros, digits shared with the prefix) is decided for every serial, and the outcome on both sides of it is fixed by the text of the URI alone, not by the library's own check.", "anchors": ["epcpy/epc_schemes/sgtin.py", "epcpy/epc_schemes/giai.py", "epcpy/epc_schemes/cpi.py", "epcpy/epc_schemes/itip.py", "epcpy/epc_schemes/base_scheme.py"]}
{"id": "C71", "title": "Exactly which URIs come back from the tag that is written for them", "statement": "When the syntax trees of epcpy are run by the rules of Python: for an object built from a URI, a coding scheme of its class and a filter value, binary returns bits that binary_to_tag_encodable reads as an equal object if and only if the text of the URI is of the following kind. It is ASCII. Numeric serials are numbers without superfluous zeros that fit their bits. Serials written as text have escapes spelled in the one way the library spells them. A GIAI has no further colon, and in giai-96 at most 25 digits. Piece and total of an ITIP have two digits and are below 99. The part reference of a CPI in cpi-96 is a number without superfluous zeros that fits the bits the company prefix leaves, and its serial fits 31 bits. The part number of an ADI has no six zero bits before those that close it. Found false: that a tag comes back wherever tag_uri returns (%2f is read as %2F), that it comes back only there (CPI-96 with part reference 2000 and a company prefix of 12 digits), and that only bits are read (the serial -7 in sgtin-96 is written with a minus sign among the bits, and read back).", "quantifier": "every URI the library accepts, every coding scheme and filter value of its class given as keywords in either order", "why_tests_cant": "Tests can show tags that come back and tags that do not; the claim is the exact boundary, for every URI of all 14 classes and 21 coding schemes, said without any function of the library.", "anchors": ["epcpy/epc_schemes/base_scheme.py", "epcpy/epc_schemes/sgtin.py", "epcpy/epc_schemes/itip.py", "epcpy/epc_schemes/cpi.py", "epcpy/epc_schemes/adi.py", "epcpy/epc_schemes/giai.py", "epcpy/utils/parsers.py"]}
