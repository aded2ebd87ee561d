(** The tables, enumerations, class statements and pattern strings of /repo, taken from the source text by a program that reads
    the literals, against the definitions of [Model/], which were written by hand.  These are tests, not proofs. *)
From Coq Require Import String.
From Verif.Model Require Import Py Common Base.
From Verif.Model Require Import Adi Cpi Gdti Giai Gid Grai Gsrn Gsrnp Itip Lgtin Sgcn Sgln Sgtin Sscc Usdod Others Parsers Registry RegexText.

Example adi_filter : filter_value_enum C_ADI =
  [(lit "ALL_OTHERS", lit "0"); (lit "ITEM_OTHER", lit "1"); (lit "CARTON", lit "2"); (lit "RESERVED_3", lit "3"); (lit "RESERVED_4", lit "4"); (lit "RESERVED_5", lit "5"); (lit "PALLET", lit "6"); (lit "RESERVED_7", lit "7"); (lit "SEAT_CUSHIONS", lit "8"); (lit "SEAT_COVERS", lit "9"); (lit "SEAT_BELTS", lit "10"); (lit "GALLEY", lit "11"); (lit "UNIT_LOAD_DEVICES", lit "12"); (lit "AIRCRAFT_SECURITY_ITEMS", lit "13"); (lit "LIFE_VESTS", lit "14"); (lit "OXYGEN_GENERATOR", lit "15"); (lit "ENGINE_COMPONENTS", lit "16"); (lit "AVIONICS", lit "17"); (lit "EXPERIMENTAL_EQUIPMENT", lit "18"); (lit "OTHER_EMERGENCY_EQUIPMENT", lit "19"); (lit "OTHER_ROTABLES", lit "20"); (lit "OTHER_REPAIRABLE", lit "21"); (lit "OTHER_CABIN_INTERIOR", lit "22"); (lit "OTHER_REPAIR", lit "23"); (lit "PASSENGER_SEATS", lit "24"); (lit "IFE_SYSTEMS", lit "25"); (lit "RESERVED_26", lit "26"); (lit "RESERVED_27", lit "27"); (lit "RESERVED_28", lit "28"); (lit "RESERVED_29", lit "29"); (lit "RESERVED_30", lit "30"); (lit "RESERVED_31", lit "31"); (lit "RESERVED_32", lit "32"); (lit "RESERVED_33", lit "33"); (lit "RESERVED_34", lit "34"); (lit "RESERVED_35", lit "35"); (lit "RESERVED_36", lit "36"); (lit "RESERVED_37", lit "37"); (lit "RESERVED_38", lit "38"); (lit "RESERVED_39", lit "39"); (lit "RESERVED_40", lit "40"); (lit "RESERVED_41", lit "41"); (lit "RESERVED_42", lit "42"); (lit "RESERVED_43", lit "43"); (lit "RESERVED_44", lit "44"); (lit "RESERVED_45", lit "45"); (lit "RESERVED_46", lit "46"); (lit "RESERVED_47", lit "47"); (lit "RESERVED_48", lit "48"); (lit "RESERVED_49", lit "49"); (lit "RESERVED_50", lit "50"); (lit "RESERVED_51", lit "51"); (lit "RESERVED_52", lit "52"); (lit "RESERVED_53", lit "53"); (lit "RESERVED_54", lit "54"); (lit "RESERVED_55", lit "55"); (lit "LOCATION_IDENTIFIER", lit "56"); (lit "DOCUMENTATION", lit "57"); (lit "TOOLS", lit "58"); (lit "GROUND_SUPPORT_EQUIPMENT", lit "59"); (lit "OTHER_NON_FLYABLE_EQUIPMENT", lit "60"); (lit "RESERVED_61", lit "61"); (lit "RESERVED_62", lit "62"); (lit "RESERVED_63", lit "63")].
Proof. reflexivity. Qed.
Example adi_bases : class_name C_ADI = lit "ADI" /\ bases C_ADI = [B_TagEncodable].
Proof. split; reflexivity. Qed.
Example adi_BinaryCodingScheme : binary_coding_scheme_enum C_ADI = [(lit "ADI_VAR", lit "adi-var")].
Proof. reflexivity. Qed.
Example adi_BinaryHeader : binary_header_enum C_ADI = [(lit "ADI_VAR", lit "00111011")].
Proof. reflexivity. Qed.
Example bic_bases : class_name C_BIC = lit "BIC" /\ bases C_BIC = [B_EPCScheme].
Proof. split; reflexivity. Qed.
Example cpi_filter : filter_value_enum C_CPI =
  [(lit "ALL_OTHERS", lit "0"); (lit "RESERVED_1", lit "1"); (lit "RESERVED_2", lit "2"); (lit "RESERVED_3", lit "3"); (lit "RESERVED_4", lit "4"); (lit "RESERVED_5", lit "5"); (lit "RESERVED_6", lit "6"); (lit "RESERVED_7", lit "7")].
Proof. reflexivity. Qed.
Example cpi_bases : class_name C_CPI = lit "CPI" /\ bases C_CPI = [B_GS1Element; B_TagEncodable].
Proof. split; reflexivity. Qed.
Example cpi_BinaryCodingScheme : binary_coding_scheme_enum C_CPI = [(lit "CPI_96", lit "cpi-96"); (lit "CPI_VAR", lit "cpi-var")].
Proof. reflexivity. Qed.
Example cpi_BinaryHeader : binary_header_enum C_CPI = [(lit "CPI_96", lit "00111100"); (lit "CPI_VAR", lit "00111101")].
Proof. reflexivity. Qed.
Example cpi_table_P_96 : table_P cpi_rows_96 =
  [(0%Z, mkRow 0 40 12 11 3); (1%Z, mkRow 1 37 11 14 4); (2%Z, mkRow 2 34 10 17 5); (3%Z, mkRow 3 30 9 21 6); (4%Z, mkRow 4 27 8 24 7); (5%Z, mkRow 5 24 7 27 8); (6%Z, mkRow 6 20 6 31 9)].
Proof. reflexivity. Qed.
Example cpi_table_L_96 : table_L cpi_rows_96 =
  [(12%Z, mkRow 0 40 12 11 3); (11%Z, mkRow 1 37 11 14 4); (10%Z, mkRow 2 34 10 17 5); (9%Z, mkRow 3 30 9 21 6); (8%Z, mkRow 4 27 8 24 7); (7%Z, mkRow 5 24 7 27 8); (6%Z, mkRow 6 20 6 31 9)].
Proof. reflexivity. Qed.
Example cpi_table_P_var : table_P cpi_rows_var =
  [(0%Z, mkRow 0 40 12 114 18); (1%Z, mkRow 1 37 11 120 19); (2%Z, mkRow 2 34 10 126 20); (3%Z, mkRow 3 30 9 132 21); (4%Z, mkRow 4 27 8 138 22); (5%Z, mkRow 5 24 7 144 23); (6%Z, mkRow 6 20 6 150 24)].
Proof. reflexivity. Qed.
Example cpi_table_L_var : table_L cpi_rows_var =
  [(12%Z, mkRow 0 40 12 114 18); (11%Z, mkRow 1 37 11 120 19); (10%Z, mkRow 2 34 10 126 20); (9%Z, mkRow 3 30 9 132 21); (8%Z, mkRow 4 27 8 138 22); (7%Z, mkRow 5 24 7 144 23); (6%Z, mkRow 6 20 6 150 24)].
Proof. reflexivity. Qed.
Example gdti_filter : filter_value_enum C_GDTI =
  [(lit "ALL_OTHERS", lit "0"); (lit "TRAVEL_DOCUMENT", lit "1"); (lit "RESERVED_2", lit "2"); (lit "RESERVED_3", lit "3"); (lit "RESERVED_4", lit "4"); (lit "RESERVED_5", lit "5"); (lit "RESERVED_6", lit "6"); (lit "RESERVED_7", lit "7")].
Proof. reflexivity. Qed.
Example gdti_bases : class_name C_GDTI = lit "GDTI" /\ bases C_GDTI = [B_TagEncodable; B_GS1Keyed].
Proof. split; reflexivity. Qed.
Example gdti_BinaryCodingScheme : binary_coding_scheme_enum C_GDTI = [(lit "GDTI_96", lit "gdti-96"); (lit "GDTI_174", lit "gdti-174")].
Proof. reflexivity. Qed.
Example gdti_BinaryHeader : binary_header_enum C_GDTI = [(lit "GDTI_96", lit "00101100"); (lit "GDTI_174", lit "00111110")].
Proof. reflexivity. Qed.
Example gdti_table_P : table_P gdti_rows =
  [(0%Z, mkRow 0 40 12 1 0); (1%Z, mkRow 1 37 11 4 1); (2%Z, mkRow 2 34 10 7 2); (3%Z, mkRow 3 30 9 11 3); (4%Z, mkRow 4 27 8 14 4); (5%Z, mkRow 5 24 7 17 5); (6%Z, mkRow 6 20 6 21 6)].
Proof. reflexivity. Qed.
Example gdti_table_L : table_L gdti_rows =
  [(12%Z, mkRow 0 40 12 1 0); (11%Z, mkRow 1 37 11 4 1); (10%Z, mkRow 2 34 10 7 2); (9%Z, mkRow 3 30 9 11 3); (8%Z, mkRow 4 27 8 14 4); (7%Z, mkRow 5 24 7 17 5); (6%Z, mkRow 6 20 6 21 6)].
Proof. reflexivity. Qed.
Example giai_filter : filter_value_enum C_GIAI =
  [(lit "ALL_OTHERS", lit "0"); (lit "RAIL_VEHICLE", lit "1"); (lit "RESERVED_2", lit "2"); (lit "RESERVED_3", lit "3"); (lit "RESERVED_4", lit "4"); (lit "RESERVED_5", lit "5"); (lit "RESERVED_6", lit "6"); (lit "RESERVED_7", lit "7")].
Proof. reflexivity. Qed.
Example giai_bases : class_name C_GIAI = lit "GIAI" /\ bases C_GIAI = [B_TagEncodable; B_GS1Keyed].
Proof. split; reflexivity. Qed.
Example giai_BinaryCodingScheme : binary_coding_scheme_enum C_GIAI = [(lit "GIAI_96", lit "giai-96"); (lit "GIAI_202", lit "giai-202")].
Proof. reflexivity. Qed.
Example giai_BinaryHeader : binary_header_enum C_GIAI = [(lit "GIAI_96", lit "00110100"); (lit "GIAI_202", lit "00111000")].
Proof. reflexivity. Qed.
Example giai_table_P_96 : table_P giai_rows_96 =
  [(0%Z, mkRow 0 40 12 42 13); (1%Z, mkRow 1 37 11 45 14); (2%Z, mkRow 2 34 10 48 15); (3%Z, mkRow 3 30 9 52 16); (4%Z, mkRow 4 27 8 55 17); (5%Z, mkRow 5 24 7 58 18); (6%Z, mkRow 6 20 6 62 19)].
Proof. reflexivity. Qed.
Example giai_table_L_96 : table_L giai_rows_96 =
  [(12%Z, mkRow 0 40 12 42 13); (11%Z, mkRow 1 37 11 45 14); (10%Z, mkRow 2 34 10 48 15); (9%Z, mkRow 3 30 9 52 16); (8%Z, mkRow 4 27 8 55 17); (7%Z, mkRow 5 24 7 58 18); (6%Z, mkRow 6 20 6 62 19)].
Proof. reflexivity. Qed.
Example giai_table_P_202 : table_P giai_rows_202 =
  [(0%Z, mkRow 0 40 12 148 18); (1%Z, mkRow 1 37 11 151 19); (2%Z, mkRow 2 34 10 154 20); (3%Z, mkRow 3 30 9 158 21); (4%Z, mkRow 4 27 8 161 22); (5%Z, mkRow 5 24 7 164 23); (6%Z, mkRow 6 20 6 168 24)].
Proof. reflexivity. Qed.
Example giai_table_L_202 : table_L giai_rows_202 =
  [(12%Z, mkRow 0 40 12 148 18); (11%Z, mkRow 1 37 11 151 19); (10%Z, mkRow 2 34 10 154 20); (9%Z, mkRow 3 30 9 158 21); (8%Z, mkRow 4 27 8 161 22); (7%Z, mkRow 5 24 7 164 23); (6%Z, mkRow 6 20 6 168 24)].
Proof. reflexivity. Qed.
Example gid_bases : class_name C_GID = lit "GID" /\ bases C_GID = [B_TagEncodable].
Proof. split; reflexivity. Qed.
Example gid_BinaryCodingScheme : binary_coding_scheme_enum C_GID = [(lit "GID_96", lit "gid-96")].
Proof. reflexivity. Qed.
Example gid_BinaryHeader : binary_header_enum C_GID = [(lit "GID_96", lit "00110101")].
Proof. reflexivity. Qed.
Example ginc_bases : class_name C_GINC = lit "GINC" /\ bases C_GINC = [B_GS1Keyed].
Proof. split; reflexivity. Qed.
Example grai_filter : filter_value_enum C_GRAI =
  [(lit "ALL_OTHERS", lit "0"); (lit "RESERVED_1", lit "1"); (lit "RESERVED_2", lit "2"); (lit "RESERVED_3", lit "3"); (lit "RESERVED_4", lit "4"); (lit "RESERVED_5", lit "5"); (lit "RESERVED_6", lit "6"); (lit "RESERVED_7", lit "7")].
Proof. reflexivity. Qed.
Example grai_bases : class_name C_GRAI = lit "GRAI" /\ bases C_GRAI = [B_TagEncodable; B_GS1Keyed].
Proof. split; reflexivity. Qed.
Example grai_BinaryCodingScheme : binary_coding_scheme_enum C_GRAI = [(lit "GRAI_96", lit "grai-96"); (lit "GRAI_170", lit "grai-170")].
Proof. reflexivity. Qed.
Example grai_BinaryHeader : binary_header_enum C_GRAI = [(lit "GRAI_96", lit "00110011"); (lit "GRAI_170", lit "00110111")].
Proof. reflexivity. Qed.
Example grai_table_P : table_P grai_rows =
  [(0%Z, mkRow 0 40 12 4 0); (1%Z, mkRow 1 37 11 7 1); (2%Z, mkRow 2 34 10 10 2); (3%Z, mkRow 3 30 9 14 3); (4%Z, mkRow 4 27 8 17 4); (5%Z, mkRow 5 24 7 20 5); (6%Z, mkRow 6 20 6 24 6)].
Proof. reflexivity. Qed.
Example grai_table_L : table_L grai_rows =
  [(12%Z, mkRow 0 40 12 4 0); (11%Z, mkRow 1 37 11 7 1); (10%Z, mkRow 2 34 10 10 2); (9%Z, mkRow 3 30 9 14 3); (8%Z, mkRow 4 27 8 17 4); (7%Z, mkRow 5 24 7 20 5); (6%Z, mkRow 6 20 6 24 6)].
Proof. reflexivity. Qed.
Example gsin_bases : class_name C_GSIN = lit "GSIN" /\ bases C_GSIN = [B_GS1Keyed].
Proof. split; reflexivity. Qed.
Example gsrn_filter : filter_value_enum C_GSRN =
  [(lit "ALL_OTHERS", lit "0"); (lit "RESERVED_1", lit "1"); (lit "RESERVED_2", lit "2"); (lit "RESERVED_3", lit "3"); (lit "RESERVED_4", lit "4"); (lit "RESERVED_5", lit "5"); (lit "RESERVED_6", lit "6"); (lit "RESERVED_7", lit "7")].
Proof. reflexivity. Qed.
Example gsrn_bases : class_name C_GSRN = lit "GSRN" /\ bases C_GSRN = [B_TagEncodable; B_GS1Keyed].
Proof. split; reflexivity. Qed.
Example gsrn_BinaryCodingScheme : binary_coding_scheme_enum C_GSRN = [(lit "GSRN_96", lit "gsrn-96")].
Proof. reflexivity. Qed.
Example gsrn_BinaryHeader : binary_header_enum C_GSRN = [(lit "GSRN_96", lit "00101101")].
Proof. reflexivity. Qed.
Example gsrn_table_P : table_P gsrn_rows =
  [(0%Z, mkRow 0 40 12 18 5); (1%Z, mkRow 1 37 11 21 6); (2%Z, mkRow 2 34 10 24 7); (3%Z, mkRow 3 30 9 28 8); (4%Z, mkRow 4 27 8 31 9); (5%Z, mkRow 5 24 7 34 10); (6%Z, mkRow 6 20 6 38 11)].
Proof. reflexivity. Qed.
Example gsrn_table_L : table_L gsrn_rows =
  [(12%Z, mkRow 0 40 12 18 5); (11%Z, mkRow 1 37 11 21 6); (10%Z, mkRow 2 34 10 24 7); (9%Z, mkRow 3 30 9 28 8); (8%Z, mkRow 4 27 8 31 9); (7%Z, mkRow 5 24 7 34 10); (6%Z, mkRow 6 20 6 38 11)].
Proof. reflexivity. Qed.
Example gsrnp_filter : filter_value_enum C_GSRNP =
  [(lit "ALL_OTHERS", lit "0"); (lit "RESERVED_1", lit "1"); (lit "RESERVED_2", lit "2"); (lit "RESERVED_3", lit "3"); (lit "RESERVED_4", lit "4"); (lit "RESERVED_5", lit "5"); (lit "RESERVED_6", lit "6"); (lit "RESERVED_7", lit "7")].
Proof. reflexivity. Qed.
Example gsrnp_bases : class_name C_GSRNP = lit "GSRNP" /\ bases C_GSRNP = [B_TagEncodable; B_GS1Keyed].
Proof. split; reflexivity. Qed.
Example gsrnp_BinaryCodingScheme : binary_coding_scheme_enum C_GSRNP = [(lit "GSRNP_96", lit "gsrnp-96")].
Proof. reflexivity. Qed.
Example gsrnp_BinaryHeader : binary_header_enum C_GSRNP = [(lit "GSRNP_96", lit "00101110")].
Proof. reflexivity. Qed.
Example gsrnp_table_P : table_P gsrnp_rows =
  [(0%Z, mkRow 0 40 12 18 5); (1%Z, mkRow 1 37 11 21 6); (2%Z, mkRow 2 34 10 24 7); (3%Z, mkRow 3 30 9 28 8); (4%Z, mkRow 4 27 8 31 9); (5%Z, mkRow 5 24 7 34 10); (6%Z, mkRow 6 20 6 38 11)].
Proof. reflexivity. Qed.
Example gsrnp_table_L : table_L gsrnp_rows =
  [(12%Z, mkRow 0 40 12 18 5); (11%Z, mkRow 1 37 11 21 6); (10%Z, mkRow 2 34 10 24 7); (9%Z, mkRow 3 30 9 28 8); (8%Z, mkRow 4 27 8 31 9); (7%Z, mkRow 5 24 7 34 10); (6%Z, mkRow 6 20 6 38 11)].
Proof. reflexivity. Qed.
Example imovn_bases : class_name C_IMOVN = lit "IMOVN" /\ bases C_IMOVN = [B_EPCScheme].
Proof. split; reflexivity. Qed.
Example itip_filter : filter_value_enum C_ITIP =
  [(lit "ALL_OTHERS", lit "0"); (lit "RESERVED_1", lit "1"); (lit "RESERVED_2", lit "2"); (lit "RESERVED_3", lit "3"); (lit "RESERVED_4", lit "4"); (lit "RESERVED_5", lit "5"); (lit "RESERVED_6", lit "6"); (lit "RESERVED_7", lit "7")].
Proof. reflexivity. Qed.
Example itip_bases : class_name C_ITIP = lit "ITIP" /\ bases C_ITIP = [B_GS1Element; B_TagEncodable].
Proof. split; reflexivity. Qed.
Example itip_BinaryCodingScheme : binary_coding_scheme_enum C_ITIP = [(lit "ITIP_110", lit "itip-110"); (lit "ITIP_212", lit "itip-212")].
Proof. reflexivity. Qed.
Example itip_BinaryHeader : binary_header_enum C_ITIP = [(lit "ITIP_110", lit "01000000"); (lit "ITIP_212", lit "01000001")].
Proof. reflexivity. Qed.
Example itip_table_P : table_P itip_rows =
  [(0%Z, mkRow 0 40 12 4 1); (1%Z, mkRow 1 37 11 7 2); (2%Z, mkRow 2 34 10 10 3); (3%Z, mkRow 3 30 9 14 4); (4%Z, mkRow 4 27 8 17 5); (5%Z, mkRow 5 24 7 20 6); (6%Z, mkRow 6 20 6 24 7)].
Proof. reflexivity. Qed.
Example itip_table_L : table_L itip_rows =
  [(12%Z, mkRow 0 40 12 4 1); (11%Z, mkRow 1 37 11 7 2); (10%Z, mkRow 2 34 10 10 3); (9%Z, mkRow 3 30 9 14 4); (8%Z, mkRow 4 27 8 17 5); (7%Z, mkRow 5 24 7 20 6); (6%Z, mkRow 6 20 6 24 7)].
Proof. reflexivity. Qed.
Example lgtin_bases : class_name C_LGTIN = lit "LGTIN" /\ bases C_LGTIN = [B_GS1Keyed].
Proof. split; reflexivity. Qed.
Example pgln_bases : class_name C_PGLN = lit "PGLN" /\ bases C_PGLN = [B_GS1Keyed].
Proof. split; reflexivity. Qed.
Example sgcn_filter : filter_value_enum C_SGCN =
  [(lit "ALL_OTHERS", lit "0"); (lit "RESERVED_1", lit "1"); (lit "RESERVED_2", lit "2"); (lit "RESERVED_3", lit "3"); (lit "RESERVED_4", lit "4"); (lit "RESERVED_5", lit "5"); (lit "RESERVED_6", lit "6"); (lit "RESERVED_7", lit "7")].
Proof. reflexivity. Qed.
Example sgcn_bases : class_name C_SGCN = lit "SGCN" /\ bases C_SGCN = [B_TagEncodable; B_GS1Keyed].
Proof. split; reflexivity. Qed.
Example sgcn_BinaryCodingScheme : binary_coding_scheme_enum C_SGCN = [(lit "SGCN_96", lit "sgcn-96")].
Proof. reflexivity. Qed.
Example sgcn_BinaryHeader : binary_header_enum C_SGCN = [(lit "SGCN_96", lit "00111111")].
Proof. reflexivity. Qed.
Example sgcn_table_P : table_P sgcn_rows =
  [(0%Z, mkRow 0 40 12 1 0); (1%Z, mkRow 1 37 11 4 1); (2%Z, mkRow 2 34 10 7 2); (3%Z, mkRow 3 30 9 11 3); (4%Z, mkRow 4 27 8 14 4); (5%Z, mkRow 5 24 7 17 5); (6%Z, mkRow 6 20 6 21 6)].
Proof. reflexivity. Qed.
Example sgcn_table_L : table_L sgcn_rows =
  [(12%Z, mkRow 0 40 12 1 0); (11%Z, mkRow 1 37 11 4 1); (10%Z, mkRow 2 34 10 7 2); (9%Z, mkRow 3 30 9 11 3); (8%Z, mkRow 4 27 8 14 4); (7%Z, mkRow 5 24 7 17 5); (6%Z, mkRow 6 20 6 21 6)].
Proof. reflexivity. Qed.
Example sgln_filter : filter_value_enum C_SGLN =
  [(lit "ALL_OTHERS", lit "0"); (lit "RESERVED_1", lit "1"); (lit "RESERVED_2", lit "2"); (lit "RESERVED_3", lit "3"); (lit "RESERVED_4", lit "4"); (lit "RESERVED_5", lit "5"); (lit "RESERVED_6", lit "6"); (lit "RESERVED_7", lit "7")].
Proof. reflexivity. Qed.
Example sgln_bases : class_name C_SGLN = lit "SGLN" /\ bases C_SGLN = [B_TagEncodable; B_GS1Keyed].
Proof. split; reflexivity. Qed.
Example sgln_BinaryCodingScheme : binary_coding_scheme_enum C_SGLN = [(lit "SGLN_96", lit "sgln-96"); (lit "SGLN_195", lit "sgln-195")].
Proof. reflexivity. Qed.
Example sgln_BinaryHeader : binary_header_enum C_SGLN = [(lit "SGLN_96", lit "00110010"); (lit "SGLN_195", lit "00111001")].
Proof. reflexivity. Qed.
Example sgln_table_P : table_P sgln_rows =
  [(0%Z, mkRow 0 40 12 1 0); (1%Z, mkRow 1 37 11 4 1); (2%Z, mkRow 2 34 10 7 2); (3%Z, mkRow 3 30 9 11 3); (4%Z, mkRow 4 27 8 14 4); (5%Z, mkRow 5 24 7 17 5); (6%Z, mkRow 6 20 6 21 6)].
Proof. reflexivity. Qed.
Example sgln_table_L : table_L sgln_rows =
  [(12%Z, mkRow 0 40 12 1 0); (11%Z, mkRow 1 37 11 4 1); (10%Z, mkRow 2 34 10 7 2); (9%Z, mkRow 3 30 9 11 3); (8%Z, mkRow 4 27 8 14 4); (7%Z, mkRow 5 24 7 17 5); (6%Z, mkRow 6 20 6 21 6)].
Proof. reflexivity. Qed.
Example sgtin_filter : filter_value_enum C_SGTIN =
  [(lit "ALL_OTHERS", lit "0"); (lit "POS_ITEM", lit "1"); (lit "FULL_CASE", lit "2"); (lit "RESERVED_3", lit "3"); (lit "INNER_PACK", lit "4"); (lit "RESERVED_5", lit "5"); (lit "UNIT_LOAD", lit "6"); (lit "COMPONENT", lit "7")].
Proof. reflexivity. Qed.
Example sgtin_bases : class_name C_SGTIN = lit "SGTIN" /\ bases C_SGTIN = [B_TagEncodable; B_GS1Keyed].
Proof. split; reflexivity. Qed.
Example sgtin_BinaryCodingScheme : binary_coding_scheme_enum C_SGTIN = [(lit "SGTIN_96", lit "sgtin-96"); (lit "SGTIN_198", lit "sgtin-198")].
Proof. reflexivity. Qed.
Example sgtin_BinaryHeader : binary_header_enum C_SGTIN = [(lit "SGTIN_96", lit "00110000"); (lit "SGTIN_198", lit "00110110")].
Proof. reflexivity. Qed.
Example sgtin_table_P : table_P sgtin_rows =
  [(0%Z, mkRow 0 40 12 4 1); (1%Z, mkRow 1 37 11 7 2); (2%Z, mkRow 2 34 10 10 3); (3%Z, mkRow 3 30 9 14 4); (4%Z, mkRow 4 27 8 17 5); (5%Z, mkRow 5 24 7 20 6); (6%Z, mkRow 6 20 6 24 7)].
Proof. reflexivity. Qed.
Example sgtin_table_L : table_L sgtin_rows =
  [(12%Z, mkRow 0 40 12 4 1); (11%Z, mkRow 1 37 11 7 2); (10%Z, mkRow 2 34 10 10 3); (9%Z, mkRow 3 30 9 14 4); (8%Z, mkRow 4 27 8 17 5); (7%Z, mkRow 5 24 7 20 6); (6%Z, mkRow 6 20 6 24 7)].
Proof. reflexivity. Qed.
Example sscc_filter : filter_value_enum C_SSCC =
  [(lit "ALL_OTHERS", lit "0"); (lit "RESERVED_1", lit "1"); (lit "FULL_CASE", lit "2"); (lit "RESERVED_3", lit "3"); (lit "RESERVED_4", lit "4"); (lit "RESERVED_5", lit "5"); (lit "UNIT_LOAD", lit "6"); (lit "RESERVED_7", lit "7")].
Proof. reflexivity. Qed.
Example sscc_bases : class_name C_SSCC = lit "SSCC" /\ bases C_SSCC = [B_TagEncodable; B_GS1Keyed].
Proof. split; reflexivity. Qed.
Example sscc_BinaryCodingScheme : binary_coding_scheme_enum C_SSCC = [(lit "SSCC_96", lit "sscc-96")].
Proof. reflexivity. Qed.
Example sscc_BinaryHeader : binary_header_enum C_SSCC = [(lit "SSCC_96", lit "00110001")].
Proof. reflexivity. Qed.
Example sscc_table_P : table_P sscc_rows =
  [(0%Z, mkRow 0 40 12 18 5); (1%Z, mkRow 1 37 11 21 6); (2%Z, mkRow 2 34 10 24 7); (3%Z, mkRow 3 30 9 28 8); (4%Z, mkRow 4 27 8 31 9); (5%Z, mkRow 5 24 7 34 10); (6%Z, mkRow 6 20 6 38 11)].
Proof. reflexivity. Qed.
Example sscc_table_L : table_L sscc_rows =
  [(12%Z, mkRow 0 40 12 18 5); (11%Z, mkRow 1 37 11 21 6); (10%Z, mkRow 2 34 10 24 7); (9%Z, mkRow 3 30 9 28 8); (8%Z, mkRow 4 27 8 31 9); (7%Z, mkRow 5 24 7 34 10); (6%Z, mkRow 6 20 6 38 11)].
Proof. reflexivity. Qed.
Example upui_bases : class_name C_UPUI = lit "UPUI" /\ bases C_UPUI = [B_GS1Element].
Proof. split; reflexivity. Qed.
Example usdod_filter : filter_value_enum C_USDOD =
  [(lit "PALLET", lit "0"); (lit "CASE", lit "1"); (lit "UNIT_PACK", lit "2"); (lit "RESERVED_3", lit "3"); (lit "RESERVED_4", lit "4"); (lit "RESERVED_5", lit "5"); (lit "RESERVED_6", lit "6"); (lit "RESERVED_7", lit "7"); (lit "RESERVED_8", lit "8"); (lit "RESERVED_9", lit "9"); (lit "RESERVED_10", lit "10"); (lit "RESERVED_11", lit "11"); (lit "RESERVED_12", lit "12"); (lit "RESERVED_13", lit "13"); (lit "RESERVED_14", lit "14"); (lit "RESERVED_15", lit "15")].
Proof. reflexivity. Qed.
Example usdod_bases : class_name C_USDOD = lit "USDOD" /\ bases C_USDOD = [B_TagEncodable].
Proof. split; reflexivity. Qed.
Example usdod_BinaryCodingScheme : binary_coding_scheme_enum C_USDOD = [(lit "USDOD_96", lit "usdod-96")].
Proof. reflexivity. Qed.
Example usdod_BinaryHeader : binary_header_enum C_USDOD = [(lit "USDOD_96", lit "00101111")].
Proof. reflexivity. Qed.
Example text_CPREF_COMPONENT : T_CPREF_COMPONENT = lit "([0-9A-Z-]|%2F|%23)+".
Proof. vm_compute. reflexivity. Qed.
Example text_NUMERIC_COMPONENT : T_NUMERIC_COMPONENT = lit "(0|[1-9]\d*)".
Proof. vm_compute. reflexivity. Qed.
Example text_GS3A3_CHAR : T_GS3A3_CHAR = lit "((%[0-9a-fA-F])|([a-zA-Z0-9!'()*+,-.:;=_]))".
Proof. vm_compute. reflexivity. Qed.
Example text_GS3A3_COMPONENT : T_GS3A3_COMPONENT = lit "((%[0-9a-fA-F])|([a-zA-Z0-9!'()*+,-.:;=_]))+".
Proof. vm_compute. reflexivity. Qed.
Example text_PADDED_NUMERIC_COMPONENT : T_PADDED_NUMERIC_COMPONENT = lit "\d+".
Proof. vm_compute. reflexivity. Qed.
Example text_PADDED_NUMERIC_COMPONENT_OR_EMPTY : T_PADDED_NUMERIC_COMPONENT_OR_EMPTY = lit "\d*".
Proof. vm_compute. reflexivity. Qed.
Example text_VERIFY_GS3A3_CHARS : T_VERIFY_GS3A3_CHARS = lit "[a-zA-Z0-9!'()*+,-.:;=_""%&/<>?]+".
Proof. vm_compute. reflexivity. Qed.
Example text_GS1_ELEM_CHARS : T_GS1_ELEM_CHARS = lit "[a-zA-Z0-9!'()*+,-.:;=_""%&/<>?]".
Proof. vm_compute. reflexivity. Qed.
Example text_GS1_ELEM_CHARS_CPI : T_GS1_ELEM_CHARS_CPI = lit "[0-9A-Z\/\-\#]".
Proof. vm_compute. reflexivity. Qed.
Example text_DIGIT : T_DIGIT = lit "\d".
Proof. vm_compute. reflexivity. Qed.
Example text_FOUR_PADDED_NUMERIC_COMPONENTS : T_FOUR_PADDED_NUMERIC_COMPONENTS = lit "\d+\.\d+\.\d+\.\d+".
Proof. vm_compute. reflexivity. Qed.
Example text_SGTIN_URI_BODY : T_SGTIN_URI_BODY = lit "\d+\.\d+\.((%[0-9a-fA-F])|([a-zA-Z0-9!'()*+,-.:;=_]))+".
Proof. vm_compute. reflexivity. Qed.
Example text_SGTIN_URI : T_SGTIN_URI = lit "urn:epc:id:sgtin:\d+\.\d+\.((%[0-9a-fA-F])|([a-zA-Z0-9!'()*+,-.:;=_]))+".
Proof. vm_compute. reflexivity. Qed.
Example text_SSCC_URI_BODY : T_SSCC_URI_BODY = lit "\d+\.\d+".
Proof. vm_compute. reflexivity. Qed.
Example text_SSCC_URI : T_SSCC_URI = lit "urn:epc:id:sscc:\d+\.\d+".
Proof. vm_compute. reflexivity. Qed.
Example text_SGLN_URI_BODY : T_SGLN_URI_BODY = lit "\d+\.\d*\.((%[0-9a-fA-F])|([a-zA-Z0-9!'()*+,-.:;=_]))+".
Proof. vm_compute. reflexivity. Qed.
Example text_SGLN_URI : T_SGLN_URI = lit "urn:epc:id:sgln:\d+\.\d*\.((%[0-9a-fA-F])|([a-zA-Z0-9!'()*+,-.:;=_]))+".
Proof. vm_compute. reflexivity. Qed.
Example text_GRAI_URI_BODY : T_GRAI_URI_BODY = lit "\d+\.\d*\.((%[0-9a-fA-F])|([a-zA-Z0-9!'()*+,-.:;=_]))+".
Proof. vm_compute. reflexivity. Qed.
Example text_GRAI_URI : T_GRAI_URI = lit "urn:epc:id:grai:\d+\.\d*\.((%[0-9a-fA-F])|([a-zA-Z0-9!'()*+,-.:;=_]))+".
Proof. vm_compute. reflexivity. Qed.
Example text_GIAI_URI_BODY : T_GIAI_URI_BODY = lit "\d+\.((%[0-9a-fA-F])|([a-zA-Z0-9!'()*+,-.:;=_]))+".
Proof. vm_compute. reflexivity. Qed.
Example text_GIAI_URI : T_GIAI_URI = lit "urn:epc:id:giai:\d+\.((%[0-9a-fA-F])|([a-zA-Z0-9!'()*+,-.:;=_]))+".
Proof. vm_compute. reflexivity. Qed.
Example text_GSRN_URI_BODY : T_GSRN_URI_BODY = lit "\d+\.\d+".
Proof. vm_compute. reflexivity. Qed.
Example text_GSRN_URI : T_GSRN_URI = lit "urn:epc:id:gsrn:\d+\.\d+".
Proof. vm_compute. reflexivity. Qed.
Example text_GSRNP_URI_BODY : T_GSRNP_URI_BODY = lit "\d+\.\d+".
Proof. vm_compute. reflexivity. Qed.
Example text_GSRNP_URI : T_GSRNP_URI = lit "urn:epc:id:gsrnp:\d+\.\d+".
Proof. vm_compute. reflexivity. Qed.
Example text_GDTI_URI_BODY : T_GDTI_URI_BODY = lit "\d+\.\d*\.((%[0-9a-fA-F])|([a-zA-Z0-9!'()*+,-.:;=_]))+".
Proof. vm_compute. reflexivity. Qed.
Example text_GDTI_URI : T_GDTI_URI = lit "urn:epc:id:gdti:\d+\.\d*\.((%[0-9a-fA-F])|([a-zA-Z0-9!'()*+,-.:;=_]))+".
Proof. vm_compute. reflexivity. Qed.
Example text_CPI_URI_BODY : T_CPI_URI_BODY = lit "\d+\.([0-9A-Z-]|%2F|%23)+\.(0|[1-9]\d*)".
Proof. vm_compute. reflexivity. Qed.
Example text_CPI_URI : T_CPI_URI = lit "urn:epc:id:cpi:\d+\.([0-9A-Z-]|%2F|%23)+\.(0|[1-9]\d*)".
Proof. vm_compute. reflexivity. Qed.
Example text_SGCN_URI_BODY : T_SGCN_URI_BODY = lit "\d+\.\d*\.\d+".
Proof. vm_compute. reflexivity. Qed.
Example text_SGCN_URI : T_SGCN_URI = lit "urn:epc:id:sgcn:\d+\.\d*\.\d+".
Proof. vm_compute. reflexivity. Qed.
Example text_GINC_URI_BODY : T_GINC_URI_BODY = lit "\d+\.((%[0-9a-fA-F])|([a-zA-Z0-9!'()*+,-.:;=_]))+".
Proof. vm_compute. reflexivity. Qed.
Example text_GINC_URI : T_GINC_URI = lit "urn:epc:id:ginc:\d+\.((%[0-9a-fA-F])|([a-zA-Z0-9!'()*+,-.:;=_]))+".
Proof. vm_compute. reflexivity. Qed.
Example text_GSIN_URI_BODY : T_GSIN_URI_BODY = lit "\d+\.\d+".
Proof. vm_compute. reflexivity. Qed.
Example text_GSIN_URI : T_GSIN_URI = lit "urn:epc:id:gsin:\d+\.\d+".
Proof. vm_compute. reflexivity. Qed.
Example text_ITIP_URI_BODY : T_ITIP_URI_BODY = lit "\d+\.\d+\.\d+\.\d+\.((%[0-9a-fA-F])|([a-zA-Z0-9!'()*+,-.:;=_]))+".
Proof. vm_compute. reflexivity. Qed.
Example text_ITIP_URI : T_ITIP_URI = lit "urn:epc:id:itip:\d+\.\d+\.\d+\.\d+\.((%[0-9a-fA-F])|([a-zA-Z0-9!'()*+,-.:;=_]))+".
Proof. vm_compute. reflexivity. Qed.
Example text_UPUI_URI_BODY : T_UPUI_URI_BODY = lit "\d+\.\d*\.((%[0-9a-fA-F])|([a-zA-Z0-9!'()*+,-.:;=_]))+".
Proof. vm_compute. reflexivity. Qed.
Example text_UPUI_URI : T_UPUI_URI = lit "urn:epc:id:upui:\d+\.\d*\.((%[0-9a-fA-F])|([a-zA-Z0-9!'()*+,-.:;=_]))+".
Proof. vm_compute. reflexivity. Qed.
Example text_PGLN_URI_BODY : T_PGLN_URI_BODY = lit "\d+\.\d*".
Proof. vm_compute. reflexivity. Qed.
Example text_PGLN_URI : T_PGLN_URI = lit "urn:epc:id:pgln:\d+\.\d*".
Proof. vm_compute. reflexivity. Qed.
Example text_GID_URI_BODY : T_GID_URI_BODY = lit "(0|[1-9]\d*)\.(0|[1-9]\d*)\.(0|[1-9]\d*)".
Proof. vm_compute. reflexivity. Qed.
Example text_GID_URI : T_GID_URI = lit "urn:epc:id:gid:(0|[1-9]\d*)\.(0|[1-9]\d*)\.(0|[1-9]\d*)".
Proof. vm_compute. reflexivity. Qed.
Example text_CAGE_CODE_OR_DODAAC : T_CAGE_CODE_OR_DODAAC = lit "([0-9A-HJ-NP-Z]){5,6}".
Proof. vm_compute. reflexivity. Qed.
Example text_USDOD_URI_BODY : T_USDOD_URI_BODY = lit "([0-9A-HJ-NP-Z]){5,6}\.(0|[1-9]\d*)".
Proof. vm_compute. reflexivity. Qed.
Example text_USDOD_URI : T_USDOD_URI = lit "urn:epc:id:usdod:([0-9A-HJ-NP-Z]){5,6}\.(0|[1-9]\d*)".
Proof. vm_compute. reflexivity. Qed.
Example text_ADI_CHAR : T_ADI_CHAR = lit "([A-Z0-9-]|(%2F))".
Proof. vm_compute. reflexivity. Qed.
Example text_ADI_URI_BODY : T_ADI_URI_BODY = lit "([0-9A-HJ-NP-Z]){5,6}\.([A-Z0-9-]|(%2F))*\.(%23)?([A-Z0-9-]|(%2F))+".
Proof. vm_compute. reflexivity. Qed.
Example text_ADI_URI : T_ADI_URI = lit "urn:epc:id:adi:([0-9A-HJ-NP-Z]){5,6}\.([A-Z0-9-]|(%2F))*\.(%23)?([A-Z0-9-]|(%2F))+".
Proof. vm_compute. reflexivity. Qed.
Example text_BIC_URI_BODY : T_BIC_URI_BODY = lit "[A-HJ-NP-Z]{3}[JUZ][0-9]{7}".
Proof. vm_compute. reflexivity. Qed.
Example text_BIC_URI : T_BIC_URI = lit "urn:epc:id:bic:[A-HJ-NP-Z]{3}[JUZ][0-9]{7}".
Proof. vm_compute. reflexivity. Qed.
Example text_IMOVN_URI_BODY : T_IMOVN_URI_BODY = lit "[0-9]{7}".
Proof. vm_compute. reflexivity. Qed.
Example text_IMOVN_URI : T_IMOVN_URI = lit "urn:epc:id:imovn:[0-9]{7}".
Proof. vm_compute. reflexivity. Qed.
Example text_LGTIN_CLASS : T_LGTIN_CLASS = lit "urn:epc:class:lgtin:\d+\.\d+\.((%[0-9a-fA-F])|([a-zA-Z0-9!'()*+,-.:;=_]))+".
Proof. vm_compute. reflexivity. Qed.
Example text_EPC_URI : T_EPC_URI = lit "(urn:epc:id:sgtin:\d+\.\d+\.((%[0-9a-fA-F])|([a-zA-Z0-9!'()*+,-.:;=_]))+|urn:epc:id:sscc:\d+\.\d+|urn:epc:id:sgln:\d+\.\d*\.((%[0-9a-fA-F])|([a-zA-Z0-9!'()*+,-.:;=_]))+|urn:epc:id:grai:\d+\.\d*\.((%[0-9a-fA-F])|([a-zA-Z0-9!'()*+,-.:;=_]))+|urn:epc:id:giai:\d+\.((%[0-9a-fA-F])|([a-zA-Z0-9!'()*+,-.:;=_]))+|urn:epc:id:gsrn:\d+\.\d+|urn:epc:id:gsrnp:\d+\.\d+|urn:epc:id:gdti:\d+\.\d*\.((%[0-9a-fA-F])|([a-zA-Z0-9!'()*+,-.:;=_]))+|urn:epc:id:cpi:\d+\.([0-9A-Z-]|%2F|%23)+\.(0|[1-9]\d*)|urn:epc:id:sgcn:\d+\.\d*\.\d+|urn:epc:id:ginc:\d+\.((%[0-9a-fA-F])|([a-zA-Z0-9!'()*+,-.:;=_]))+|urn:epc:id:gsin:\d+\.\d+|urn:epc:id:itip:\d+\.\d+\.\d+\.\d+\.((%[0-9a-fA-F])|([a-zA-Z0-9!'()*+,-.:;=_]))+|urn:epc:id:upui:\d+\.\d*\.((%[0-9a-fA-F])|([a-zA-Z0-9!'()*+,-.:;=_]))+|urn:epc:id:pgln:\d+\.\d*|urn:epc:id:gid:(0|[1-9]\d*)\.(0|[1-9]\d*)\.(0|[1-9]\d*)|urn:epc:id:usdod:([0-9A-HJ-NP-Z]){5,6}\.(0|[1-9]\d*)|urn:epc:id:adi:([0-9A-HJ-NP-Z]){5,6}\.([A-Z0-9-]|(%2F))*\.(%23)?([A-Z0-9-]|(%2F))+|urn:epc:id:bic:[A-HJ-NP-Z]{3}[JUZ][0-9]{7}|urn:epc:id:imovn:[0-9]{7}|urn:epc:class:lgtin:\d+\.\d+\.((%[0-9a-fA-F])|([a-zA-Z0-9!'()*+,-.:;=_]))+)".
Proof. vm_compute. reflexivity. Qed.
Example text_SGTIN_IDPAT_URI_BODY : T_SGTIN_IDPAT_URI_BODY = lit "sgtin:(\d+\.\d+\.((%[0-9a-fA-F])|([a-zA-Z0-9!'()*+,-.:;=_]))+|\d+\.\d+\.\*|\d+\.\*\.\*|\*\.\*\.\*)".
Proof. vm_compute. reflexivity. Qed.
Example text_SSCC_IDPAT_URI_BODY : T_SSCC_IDPAT_URI_BODY = lit "sscc:(\d+\.\d+|\d+\.\*|\*\.\*)".
Proof. vm_compute. reflexivity. Qed.
Example text_SGLN_GRAI_IDPAT_URI_BODY_MAIN : T_SGLN_GRAI_IDPAT_URI_BODY_MAIN = lit "(\d+\.\d*\.((%[0-9a-fA-F])|([a-zA-Z0-9!'()*+,-.:;=_]))+|\d+\.\d*\.\*|\d+\.\*\.\*|\*\.\*\.\*)".
Proof. vm_compute. reflexivity. Qed.
Example text_SGLN_IDPAT_URI_BODY : T_SGLN_IDPAT_URI_BODY = lit "sgln:(\d+\.\d*\.((%[0-9a-fA-F])|([a-zA-Z0-9!'()*+,-.:;=_]))+|\d+\.\d*\.\*|\d+\.\*\.\*|\*\.\*\.\*)".
Proof. vm_compute. reflexivity. Qed.
Example text_GRAI_IDPAT_URI_BODY : T_GRAI_IDPAT_URI_BODY = lit "grai:(\d+\.\d*\.((%[0-9a-fA-F])|([a-zA-Z0-9!'()*+,-.:;=_]))+|\d+\.\d*\.\*|\d+\.\*\.\*|\*\.\*\.\*)".
Proof. vm_compute. reflexivity. Qed.
Example text_GIAI_IDPAT_URI_BODY : T_GIAI_IDPAT_URI_BODY = lit "giai:(\d+\.((%[0-9a-fA-F])|([a-zA-Z0-9!'()*+,-.:;=_]))+|\d+\.\*|\*\.\*)".
Proof. vm_compute. reflexivity. Qed.
Example text_GSRN_IDPAT_URI_BODY : T_GSRN_IDPAT_URI_BODY = lit "gsrn:(\d+\.\d+|\d+\.\*|\*\.\*)".
Proof. vm_compute. reflexivity. Qed.
Example text_GSRNP_IDPAT_URI_BODY : T_GSRNP_IDPAT_URI_BODY = lit "gsrnp:(\d+\.\d+|\d+\.\*|\*\.\*)".
Proof. vm_compute. reflexivity. Qed.
Example text_GDTI_IDPAT_URI_BODY : T_GDTI_IDPAT_URI_BODY = lit "gdti:(\d+\.\d*\.((%[0-9a-fA-F])|([a-zA-Z0-9!'()*+,-.:;=_]))+|\d+\.\d*\.\*|\d+\.\*\.\*|\*\.\*\.\*)".
Proof. vm_compute. reflexivity. Qed.
Example text_CPI_IDPAT_URI_BODY : T_CPI_IDPAT_URI_BODY = lit "cpi:(\d+\.([0-9A-Z-]|%2F|%23)+\.(0|[1-9]\d*)|\d+\.([0-9A-Z-]|%2F|%23)+\.\*|\d+\.\*\.\*|\*\.\*\.\*)".
Proof. vm_compute. reflexivity. Qed.
Example text_SGCN_IDPAT_URI_BODY : T_SGCN_IDPAT_URI_BODY = lit "sgcn:(\d+\.\d*\.\d+|\d+\.\d*\.\*|\d+\.\*\.\*|\*\.\*\.\*)".
Proof. vm_compute. reflexivity. Qed.
Example text_GINC_IDPAT_URI_BODY : T_GINC_IDPAT_URI_BODY = lit "ginc:(\d+\.((%[0-9a-fA-F])|([a-zA-Z0-9!'()*+,-.:;=_]))+|\d+\.\*|\*\.\*)".
Proof. vm_compute. reflexivity. Qed.
Example text_GSIN_IDPAT_URI_BODY : T_GSIN_IDPAT_URI_BODY = lit "gsin:(\d+\.\d+|\d+\.\*|\*\.\*)".
Proof. vm_compute. reflexivity. Qed.
Example text_ITIP_IDPAT_URI_BODY : T_ITIP_IDPAT_URI_BODY = lit "itip:(\d+\.\d+\.\d+\.\d+\.((%[0-9a-fA-F])|([a-zA-Z0-9!'()*+,-.:;=_]))+|\d+\.\d+\.\d+\.\d+\.\*|\d+\.\d+\.\*\.\*\.\*|\d+\.\*\.\*\.\*\.\*|\*\.\*\*\.\*\.\*)".
Proof. vm_compute. reflexivity. Qed.
Example text_UPUI_IDPAT_URI_BODY : T_UPUI_IDPAT_URI_BODY = lit "upui:(\d+\.\d+\.((%[0-9a-fA-F])|([a-zA-Z0-9!'()*+,-.:;=_]))+|\d+\.\d+\.\*|\d+\.\*\.\*|\*\.\*\.\*)".
Proof. vm_compute. reflexivity. Qed.
Example text_PGLN_IDPAT_URI_BODY : T_PGLN_IDPAT_URI_BODY = lit "pgln:(\d+\.\d*|\d+\.\*|\*\.\*)".
Proof. vm_compute. reflexivity. Qed.
Example text_GID_IDPAT_URI_BODY : T_GID_IDPAT_URI_BODY = lit "gid:((0|[1-9]\d*)\.(0|[1-9]\d*)\.(0|[1-9]\d*)|(0|[1-9]\d*)\.(0|[1-9]\d*)\.\*|(0|[1-9]\d*)\.\*\.\*|\*\.\*\.\*)".
Proof. vm_compute. reflexivity. Qed.
Example text_USDOD_IDPAT_URI_BODY : T_USDOD_IDPAT_URI_BODY = lit "usdod:(([0-9A-HJ-NP-Z]){5,6}\.(0|[1-9]\d*)|([0-9A-HJ-NP-Z]){5,6}\.\*|\*\.\*)".
Proof. vm_compute. reflexivity. Qed.
Example text_ADI_IDPAT_URI_BODY : T_ADI_IDPAT_URI_BODY = lit "adi:(([0-9A-HJ-NP-Z]){5,6}\.([A-Z0-9-]|(%2F))*\.(%23)?([A-Z0-9-]|(%2F))+|([0-9A-HJ-NP-Z]){5,6}\.([A-Z0-9-]|(%2F))*\.\*|([0-9A-HJ-NP-Z]){5,6}\.\*\.\*|\*\.\*\.\*)".
Proof. vm_compute. reflexivity. Qed.
Example text_IDPAT_BODY : T_IDPAT_BODY = lit "(sgtin:(\d+\.\d+\.((%[0-9a-fA-F])|([a-zA-Z0-9!'()*+,-.:;=_]))+|\d+\.\d+\.\*|\d+\.\*\.\*|\*\.\*\.\*)|sscc:(\d+\.\d+|\d+\.\*|\*\.\*)|sgln:(\d+\.\d*\.((%[0-9a-fA-F])|([a-zA-Z0-9!'()*+,-.:;=_]))+|\d+\.\d*\.\*|\d+\.\*\.\*|\*\.\*\.\*)|grai:(\d+\.\d*\.((%[0-9a-fA-F])|([a-zA-Z0-9!'()*+,-.:;=_]))+|\d+\.\d*\.\*|\d+\.\*\.\*|\*\.\*\.\*)|giai:(\d+\.((%[0-9a-fA-F])|([a-zA-Z0-9!'()*+,-.:;=_]))+|\d+\.\*|\*\.\*)|gsrn:(\d+\.\d+|\d+\.\*|\*\.\*)|gsrnp:(\d+\.\d+|\d+\.\*|\*\.\*)|gdti:(\d+\.\d*\.((%[0-9a-fA-F])|([a-zA-Z0-9!'()*+,-.:;=_]))+|\d+\.\d*\.\*|\d+\.\*\.\*|\*\.\*\.\*)|cpi:(\d+\.([0-9A-Z-]|%2F|%23)+\.(0|[1-9]\d*)|\d+\.([0-9A-Z-]|%2F|%23)+\.\*|\d+\.\*\.\*|\*\.\*\.\*)|sgcn:(\d+\.\d*\.\d+|\d+\.\d*\.\*|\d+\.\*\.\*|\*\.\*\.\*)|ginc:(\d+\.((%[0-9a-fA-F])|([a-zA-Z0-9!'()*+,-.:;=_]))+|\d+\.\*|\*\.\*)|gsin:(\d+\.\d+|\d+\.\*|\*\.\*)|itip:(\d+\.\d+\.\d+\.\d+\.((%[0-9a-fA-F])|([a-zA-Z0-9!'()*+,-.:;=_]))+|\d+\.\d+\.\d+\.\d+\.\*|\d+\.\d+\.\*\.\*\.\*|\d+\.\*\.\*\.\*\.\*|\*\.\*\*\.\*\.\*)|upui:(\d+\.\d+\.((%[0-9a-fA-F])|([a-zA-Z0-9!'()*+,-.:;=_]))+|\d+\.\d+\.\*|\d+\.\*\.\*|\*\.\*\.\*)|pgln:(\d+\.\d*|\d+\.\*|\*\.\*)|gid:((0|[1-9]\d*)\.(0|[1-9]\d*)\.(0|[1-9]\d*)|(0|[1-9]\d*)\.(0|[1-9]\d*)\.\*|(0|[1-9]\d*)\.\*\.\*|\*\.\*\.\*)|usdod:(([0-9A-HJ-NP-Z]){5,6}\.(0|[1-9]\d*)|([0-9A-HJ-NP-Z]){5,6}\.\*|\*\.\*)|adi:(([0-9A-HJ-NP-Z]){5,6}\.([A-Z0-9-]|(%2F))*\.(%23)?([A-Z0-9-]|(%2F))+|([0-9A-HJ-NP-Z]){5,6}\.([A-Z0-9-]|(%2F))*\.\*|([0-9A-HJ-NP-Z]){5,6}\.\*\.\*|\*\.\*\.\*))".
Proof. vm_compute. reflexivity. Qed.
Example text_IDPAT_URI : T_IDPAT_URI = lit "urn:epc:idpat:(sgtin:(\d+\.\d+\.((%[0-9a-fA-F])|([a-zA-Z0-9!'()*+,-.:;=_]))+|\d+\.\d+\.\*|\d+\.\*\.\*|\*\.\*\.\*)|sscc:(\d+\.\d+|\d+\.\*|\*\.\*)|sgln:(\d+\.\d*\.((%[0-9a-fA-F])|([a-zA-Z0-9!'()*+,-.:;=_]))+|\d+\.\d*\.\*|\d+\.\*\.\*|\*\.\*\.\*)|grai:(\d+\.\d*\.((%[0-9a-fA-F])|([a-zA-Z0-9!'()*+,-.:;=_]))+|\d+\.\d*\.\*|\d+\.\*\.\*|\*\.\*\.\*)|giai:(\d+\.((%[0-9a-fA-F])|([a-zA-Z0-9!'()*+,-.:;=_]))+|\d+\.\*|\*\.\*)|gsrn:(\d+\.\d+|\d+\.\*|\*\.\*)|gsrnp:(\d+\.\d+|\d+\.\*|\*\.\*)|gdti:(\d+\.\d*\.((%[0-9a-fA-F])|([a-zA-Z0-9!'()*+,-.:;=_]))+|\d+\.\d*\.\*|\d+\.\*\.\*|\*\.\*\.\*)|cpi:(\d+\.([0-9A-Z-]|%2F|%23)+\.(0|[1-9]\d*)|\d+\.([0-9A-Z-]|%2F|%23)+\.\*|\d+\.\*\.\*|\*\.\*\.\*)|sgcn:(\d+\.\d*\.\d+|\d+\.\d*\.\*|\d+\.\*\.\*|\*\.\*\.\*)|ginc:(\d+\.((%[0-9a-fA-F])|([a-zA-Z0-9!'()*+,-.:;=_]))+|\d+\.\*|\*\.\*)|gsin:(\d+\.\d+|\d+\.\*|\*\.\*)|itip:(\d+\.\d+\.\d+\.\d+\.((%[0-9a-fA-F])|([a-zA-Z0-9!'()*+,-.:;=_]))+|\d+\.\d+\.\d+\.\d+\.\*|\d+\.\d+\.\*\.\*\.\*|\d+\.\*\.\*\.\*\.\*|\*\.\*\*\.\*\.\*)|upui:(\d+\.\d+\.((%[0-9a-fA-F])|([a-zA-Z0-9!'()*+,-.:;=_]))+|\d+\.\d+\.\*|\d+\.\*\.\*|\*\.\*\.\*)|pgln:(\d+\.\d*|\d+\.\*|\*\.\*)|gid:((0|[1-9]\d*)\.(0|[1-9]\d*)\.(0|[1-9]\d*)|(0|[1-9]\d*)\.(0|[1-9]\d*)\.\*|(0|[1-9]\d*)\.\*\.\*|\*\.\*\.\*)|usdod:(([0-9A-HJ-NP-Z]){5,6}\.(0|[1-9]\d*)|([0-9A-HJ-NP-Z]){5,6}\.\*|\*\.\*)|adi:(([0-9A-HJ-NP-Z]){5,6}\.([A-Z0-9-]|(%2F))*\.(%23)?([A-Z0-9-]|(%2F))+|([0-9A-HJ-NP-Z]){5,6}\.([A-Z0-9-]|(%2F))*\.\*|([0-9A-HJ-NP-Z]){5,6}\.\*\.\*|\*\.\*\.\*))".
Proof. vm_compute. reflexivity. Qed.
Example text_SGTIN_TAG_URI_BODY : T_SGTIN_TAG_URI_BODY = lit "(sgtin-96|sgtin-198):(0|[1-9]\d*)\.\d+\.\d+\.((%[0-9a-fA-F])|([a-zA-Z0-9!'()*+,-.:;=_]))+".
Proof. vm_compute. reflexivity. Qed.
Example text_SSCC_TAG_URI_BODY : T_SSCC_TAG_URI_BODY = lit "sscc-96:(0|[1-9]\d*)\.\d+\.\d+".
Proof. vm_compute. reflexivity. Qed.
Example text_SGLN_TAG_URI_BODY : T_SGLN_TAG_URI_BODY = lit "(sgln-96|sgln-195):(0|[1-9]\d*)\.\d+\.\d*\.((%[0-9a-fA-F])|([a-zA-Z0-9!'()*+,-.:;=_]))+".
Proof. vm_compute. reflexivity. Qed.
Example text_GRAI_TAG_URI_BODY : T_GRAI_TAG_URI_BODY = lit "(grai-96|grai-170):(0|[1-9]\d*)\.\d+\.\d*\.((%[0-9a-fA-F])|([a-zA-Z0-9!'()*+,-.:;=_]))+".
Proof. vm_compute. reflexivity. Qed.
Example text_GIAI_TAG_URI_BODY : T_GIAI_TAG_URI_BODY = lit "(giai-96|giai-202):(0|[1-9]\d*)\.\d+\.((%[0-9a-fA-F])|([a-zA-Z0-9!'()*+,-.:;=_]))+".
Proof. vm_compute. reflexivity. Qed.
Example text_GSRN_TAG_URI_BODY : T_GSRN_TAG_URI_BODY = lit "gsrn-96:(0|[1-9]\d*)\.\d+\.\d+".
Proof. vm_compute. reflexivity. Qed.
Example text_GSRNP_TAG_URI_BODY : T_GSRNP_TAG_URI_BODY = lit "gsrnp-96:(0|[1-9]\d*)\.\d+\.\d+".
Proof. vm_compute. reflexivity. Qed.
Example text_GDTI_TAG_URI_BODY : T_GDTI_TAG_URI_BODY = lit "(gdti-96|gdti-174):(0|[1-9]\d*)\.\d+\.\d*\.((%[0-9a-fA-F])|([a-zA-Z0-9!'()*+,-.:;=_]))+".
Proof. vm_compute. reflexivity. Qed.
Example text_CPI_TAG_URI_BODY : T_CPI_TAG_URI_BODY = lit "(cpi-96|cpi-var):(0|[1-9]\d*)\.\d+\.([0-9A-Z-]|%2F|%23)+\.(0|[1-9]\d*)".
Proof. vm_compute. reflexivity. Qed.
Example text_SGCN_TAG_URI_BODY : T_SGCN_TAG_URI_BODY = lit "sgcn-96:(0|[1-9]\d*)\.\d+\.\d*\.\d+".
Proof. vm_compute. reflexivity. Qed.
Example text_ITIP_TAG_URI_BODY : T_ITIP_TAG_URI_BODY = lit "(itip-110|itip-212):(0|[1-9]\d*)\.\d+\.\d+\.\d+\.\d+\.((%[0-9a-fA-F])|([a-zA-Z0-9!'()*+,-.:;=_]))+".
Proof. vm_compute. reflexivity. Qed.
Example text_GID_TAG_URI_BODY : T_GID_TAG_URI_BODY = lit "gid-96:(0|[1-9]\d*)\.(0|[1-9]\d*)\.(0|[1-9]\d*)".
Proof. vm_compute. reflexivity. Qed.
Example text_USDOD_TAG_URI_BODY : T_USDOD_TAG_URI_BODY = lit "usdod-96:(0|[1-9]\d*)\.([0-9A-HJ-NP-Z]){5,6}\.(0|[1-9]\d*)".
Proof. vm_compute. reflexivity. Qed.
Example text_ADI_TAG_URI_BODY : T_ADI_TAG_URI_BODY = lit "adi-var:(0|[1-9]\d*)\.([0-9A-HJ-NP-Z]){5,6}\.([A-Z0-9-]|(%2F))*\.(%23)?([A-Z0-9-]|(%2F))+".
Proof. vm_compute. reflexivity. Qed.
Example text_TAG_URI_BODY : T_TAG_URI_BODY = lit "((sgtin-96|sgtin-198):(0|[1-9]\d*)\.\d+\.\d+\.((%[0-9a-fA-F])|([a-zA-Z0-9!'()*+,-.:;=_]))+|sscc-96:(0|[1-9]\d*)\.\d+\.\d+|(sgln-96|sgln-195):(0|[1-9]\d*)\.\d+\.\d*\.((%[0-9a-fA-F])|([a-zA-Z0-9!'()*+,-.:;=_]))+|(grai-96|grai-170):(0|[1-9]\d*)\.\d+\.\d*\.((%[0-9a-fA-F])|([a-zA-Z0-9!'()*+,-.:;=_]))+|(giai-96|giai-202):(0|[1-9]\d*)\.\d+\.((%[0-9a-fA-F])|([a-zA-Z0-9!'()*+,-.:;=_]))+|gsrn-96:(0|[1-9]\d*)\.\d+\.\d+|gsrnp-96:(0|[1-9]\d*)\.\d+\.\d+|(gdti-96|gdti-174):(0|[1-9]\d*)\.\d+\.\d*\.((%[0-9a-fA-F])|([a-zA-Z0-9!'()*+,-.:;=_]))+|(cpi-96|cpi-var):(0|[1-9]\d*)\.\d+\.([0-9A-Z-]|%2F|%23)+\.(0|[1-9]\d*)|sgcn-96:(0|[1-9]\d*)\.\d+\.\d*\.\d+|(itip-110|itip-212):(0|[1-9]\d*)\.\d+\.\d+\.\d+\.\d+\.((%[0-9a-fA-F])|([a-zA-Z0-9!'()*+,-.:;=_]))+|gid-96:(0|[1-9]\d*)\.(0|[1-9]\d*)\.(0|[1-9]\d*)|usdod-96:(0|[1-9]\d*)\.([0-9A-HJ-NP-Z]){5,6}\.(0|[1-9]\d*)|adi-var:(0|[1-9]\d*)\.([0-9A-HJ-NP-Z]){5,6}\.([A-Z0-9-]|(%2F))*\.(%23)?([A-Z0-9-]|(%2F))+)".
Proof. vm_compute. reflexivity. Qed.
Example text_TAG_URI : T_TAG_URI = lit "urn:epc:tag:((sgtin-96|sgtin-198):(0|[1-9]\d*)\.\d+\.\d+\.((%[0-9a-fA-F])|([a-zA-Z0-9!'()*+,-.:;=_]))+|sscc-96:(0|[1-9]\d*)\.\d+\.\d+|(sgln-96|sgln-195):(0|[1-9]\d*)\.\d+\.\d*\.((%[0-9a-fA-F])|([a-zA-Z0-9!'()*+,-.:;=_]))+|(grai-96|grai-170):(0|[1-9]\d*)\.\d+\.\d*\.((%[0-9a-fA-F])|([a-zA-Z0-9!'()*+,-.:;=_]))+|(giai-96|giai-202):(0|[1-9]\d*)\.\d+\.((%[0-9a-fA-F])|([a-zA-Z0-9!'()*+,-.:;=_]))+|gsrn-96:(0|[1-9]\d*)\.\d+\.\d+|gsrnp-96:(0|[1-9]\d*)\.\d+\.\d+|(gdti-96|gdti-174):(0|[1-9]\d*)\.\d+\.\d*\.((%[0-9a-fA-F])|([a-zA-Z0-9!'()*+,-.:;=_]))+|(cpi-96|cpi-var):(0|[1-9]\d*)\.\d+\.([0-9A-Z-]|%2F|%23)+\.(0|[1-9]\d*)|sgcn-96:(0|[1-9]\d*)\.\d+\.\d*\.\d+|(itip-110|itip-212):(0|[1-9]\d*)\.\d+\.\d+\.\d+\.\d+\.((%[0-9a-fA-F])|([a-zA-Z0-9!'()*+,-.:;=_]))+|gid-96:(0|[1-9]\d*)\.(0|[1-9]\d*)\.(0|[1-9]\d*)|usdod-96:(0|[1-9]\d*)\.([0-9A-HJ-NP-Z]){5,6}\.(0|[1-9]\d*)|adi-var:(0|[1-9]\d*)\.([0-9A-HJ-NP-Z]){5,6}\.([A-Z0-9-]|(%2F))*\.(%23)?([A-Z0-9-]|(%2F))+)".
Proof. vm_compute. reflexivity. Qed.
Example text_SGTIN_GS1_ELEMENT_STRING : T_SGTIN_GS1_ELEMENT_STRING = lit "\(01\)\d{14}\(21\)[a-zA-Z0-9!'()*+,-.:;=_""%&/<>?]{1,20}".
Proof. vm_compute. reflexivity. Qed.
Example text_SSCC_GS1_ELEMENT_STRING : T_SSCC_GS1_ELEMENT_STRING = lit "\(00\)\d{18}".
Proof. vm_compute. reflexivity. Qed.
Example text_SGLN_GS1_ELEMENT_STRING : T_SGLN_GS1_ELEMENT_STRING = lit "\(414\)\d{13}\(254\)[a-zA-Z0-9!'()*+,-.:;=_""%&/<>?]{1,20}".
Proof. vm_compute. reflexivity. Qed.
Example text_GRAI_GS1_ELEMENT_STRING : T_GRAI_GS1_ELEMENT_STRING = lit "\(8003\)0\d{13}[a-zA-Z0-9!'()*+,-.:;=_""%&/<>?]{1,16}".
Proof. vm_compute. reflexivity. Qed.
Example text_GIAI_GS1_ELEMENT_STRING : T_GIAI_GS1_ELEMENT_STRING = lit "\(8004\)\d{6,12}[a-zA-Z0-9!'()*+,-.:;=_""%&/<>?]{1,24}".
Proof. vm_compute. reflexivity. Qed.
Example text_GSRN_GS1_ELEMENT_STRING : T_GSRN_GS1_ELEMENT_STRING = lit "\(8018\)\d{18}".
Proof. vm_compute. reflexivity. Qed.
Example text_GSRNP_GS1_ELEMENT_STRING : T_GSRNP_GS1_ELEMENT_STRING = lit "\(8017\)\d{18}".
Proof. vm_compute. reflexivity. Qed.
Example text_GDTI_GS1_ELEMENT_STRING : T_GDTI_GS1_ELEMENT_STRING = lit "\(253\)\d{13}[a-zA-Z0-9!'()*+,-.:;=_""%&/<>?]{1,17}".
Proof. vm_compute. reflexivity. Qed.
Example text_CPI_GS1_ELEMENT_STRING : T_CPI_GS1_ELEMENT_STRING = lit "\(8010\)\d{6,12}[0-9A-Z\/\-\#]{,24}\(8011\)\d{1,12}".
Proof. vm_compute. reflexivity. Qed.
Example text_SGCN_GS1_ELEMENT_STRING : T_SGCN_GS1_ELEMENT_STRING = lit "\(255\)\d{13}[a-zA-Z0-9!'()*+,-.:;=_""%&/<>?]{1,12}".
Proof. vm_compute. reflexivity. Qed.
Example text_GINC_GS1_ELEMENT_STRING : T_GINC_GS1_ELEMENT_STRING = lit "\(401\)\d{6,12}[a-zA-Z0-9!'()*+,-.:;=_""%&/<>?]{1,24}".
Proof. vm_compute. reflexivity. Qed.
Example text_GSIN_GS1_ELEMENT_STRING : T_GSIN_GS1_ELEMENT_STRING = lit "\(402\)\d{17}".
Proof. vm_compute. reflexivity. Qed.
Example text_ITIP_GS1_ELEMENT_STRING : T_ITIP_GS1_ELEMENT_STRING = lit "\(8006\)\d{18}\(21\)[a-zA-Z0-9!'()*+,-.:;=_""%&/<>?]{1,20}".
Proof. vm_compute. reflexivity. Qed.
Example text_UPUI_GS1_ELEMENT_STRING : T_UPUI_GS1_ELEMENT_STRING = lit "\(01\)\d{14}\(235\)[a-zA-Z0-9!'()*+,-.:;=_""%&/<>?]{1,28}".
Proof. vm_compute. reflexivity. Qed.
Example text_PGLN_GS1_ELEMENT_STRING : T_PGLN_GS1_ELEMENT_STRING = lit "\(417\)\d{13}".
Proof. vm_compute. reflexivity. Qed.
Example text_LGTIN_GS1_ELEMENT_STRING : T_LGTIN_GS1_ELEMENT_STRING = lit "\(01\)\d{14}\(10\)[a-zA-Z0-9!'()*+,-.:;=_""%&/<>?]{1,20}".
Proof. vm_compute. reflexivity. Qed.
Example text_GS1_ELEMENT_STRING : T_GS1_ELEMENT_STRING = lit "(\(01\)\d{14}\(21\)[a-zA-Z0-9!'()*+,-.:;=_""%&/<>?]{1,20}|\(00\)\d{18}|\(414\)\d{13}\(254\)[a-zA-Z0-9!'()*+,-.:;=_""%&/<>?]{1,20}|\(8003\)0\d{13}[a-zA-Z0-9!'()*+,-.:;=_""%&/<>?]{1,16}|\(8004\)\d{6,12}[a-zA-Z0-9!'()*+,-.:;=_""%&/<>?]{1,24}|\(8018\)\d{18}|\(8017\)\d{18}|\(253\)\d{13}[a-zA-Z0-9!'()*+,-.:;=_""%&/<>?]{1,17}|\(8010\)\d{6,12}[0-9A-Z\/\-\#]{,24}\(8011\)\d{1,12}|\(255\)\d{13}[a-zA-Z0-9!'()*+,-.:;=_""%&/<>?]{1,12}|\(401\)\d{6,12}[a-zA-Z0-9!'()*+,-.:;=_""%&/<>?]{1,24}|\(402\)\d{17}|\(8006\)\d{18}\(21\)[a-zA-Z0-9!'()*+,-.:;=_""%&/<>?]{1,20}|\(01\)\d{14}\(235\)[a-zA-Z0-9!'()*+,-.:;=_""%&/<>?]{1,28}|\(417\)\d{13}|\(01\)\d{14}\(10\)[a-zA-Z0-9!'()*+,-.:;=_""%&/<>?]{1,20})".
Proof. vm_compute. reflexivity. Qed.
Example escape_characters : ESCAPE_CHARACTERS = [(lit "0100010", lit "%22"); (lit "0100101", lit "%25"); (lit "0100110", lit "%26"); (lit "0101111", lit "%2F"); (lit "0111100", lit "%3C"); (lit "0111110", lit "%3E"); (lit "0111111", lit "%3F")].
Proof. reflexivity. Qed.
