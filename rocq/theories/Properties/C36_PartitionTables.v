(** Partition tables: C36. *)
From Verif.Model Require Import Py Common Sgtin Sscc Gsrn Gsrnp Sgln Grai Gdti Giai Cpi Sgcn Itip.
From Verif.Spec Require Import Spec SpecTables.
From Verif.Proofs Require Import Tables.

(** C36.  See [Spec.SpecTables.sound_table]: every prefix length 6..12 has exactly one row, found
    again by its partition value; prefixes fit M bits; M+N and L+K are the stated totals. *)
Theorem C36_sgtin_table : sound_table sgtin_table_L sgtin_table_P (fun _ => 44%nat) 13 numeric_reference_fits.
Proof. exact sgtin_table_sound. Qed.
Print Assumptions C36_sgtin_table.
Theorem C36_itip_table : sound_table itip_table_L itip_table_P (fun _ => 44%nat) 13 numeric_reference_fits.
Proof. exact itip_table_sound. Qed.
Print Assumptions C36_itip_table.
Theorem C36_sscc_table : sound_table sscc_table_L sscc_table_P (fun _ => 58%nat) 17 numeric_reference_fits.
Proof. exact sscc_table_sound. Qed.
Print Assumptions C36_sscc_table.
Theorem C36_gsrn_table : sound_table gsrn_table_L gsrn_table_P (fun _ => 58%nat) 17 numeric_reference_fits.
Proof. exact gsrn_table_sound. Qed.
Print Assumptions C36_gsrn_table.
Theorem C36_gsrnp_table : sound_table gsrnp_table_L gsrnp_table_P (fun _ => 58%nat) 17 numeric_reference_fits.
Proof. exact gsrnp_table_sound. Qed.
Print Assumptions C36_gsrnp_table.
Theorem C36_sgln_table : sound_table sgln_table_L sgln_table_P (fun _ => 41%nat) 12 numeric_reference_fits.
Proof. exact sgln_table_sound. Qed.
Print Assumptions C36_sgln_table.
Theorem C36_gdti_table : sound_table gdti_table_L gdti_table_P (fun _ => 41%nat) 12 numeric_reference_fits.
Proof. exact gdti_table_sound. Qed.
Print Assumptions C36_gdti_table.
Theorem C36_sgcn_table : sound_table sgcn_table_L sgcn_table_P (fun _ => 41%nat) 12 numeric_reference_fits.
Proof. exact sgcn_table_sound. Qed.
Print Assumptions C36_sgcn_table.
Theorem C36_grai_table : sound_table grai_table_L grai_table_P (fun _ => 44%nat) 12 numeric_reference_fits.
Proof. exact grai_table_sound. Qed.
Print Assumptions C36_grai_table.
Theorem C36_cpi_96_table : sound_table cpi_table_L_96 cpi_table_P_96 (fun _ => 51%nat) 15 numeric_reference_fits.
Proof. exact cpi_96_table_sound. Qed.
Print Assumptions C36_cpi_96_table.
(** six-bit references: K characters and a terminator; the rows have different total widths *)
Theorem C36_cpi_var_table : sound_table cpi_table_L_var cpi_table_P_var
  (fun L => match L with 12 => 154 | 11 => 157 | 10 => 160 | 9 => 162 | 8 => 165 | 7 => 168 | _ => 170 end%nat)
  30 (text_reference_fits 6 6).
Proof. exact cpi_var_table_sound. Qed.
Print Assumptions C36_cpi_var_table.
(** seven-bit references *)
Theorem C36_giai_202_table : sound_table giai_table_L_202 giai_table_P_202 (fun _ => 188%nat) 30 (text_reference_fits 7 0).
Proof. exact giai_202_table_sound. Qed.
Print Assumptions C36_giai_202_table.
(** giai-96: everything except that references of K digits need not fit *)
Theorem C36_giai_96_table : sound_table giai_table_L_96 giai_table_P_96 (fun _ => 82%nat) 25 (fun _ => True).
Proof. exact giai_96_table_sound. Qed.
Print Assumptions C36_giai_96_table.
Theorem C36_giai_96_reference_fits_refuted : exists r ref, lookup 12 giai_table_L_96 = Some r /\
  digits ref /\ length ref = rK r /\ ~ (decimal ref < 2 ^ N.of_nat (rN r)).
Proof. exact giai_96_overflow. Qed.
Print Assumptions C36_giai_96_reference_fits_refuted.
Example C36_case : lookup 7 sgtin_table_L = Some (mkRow 5 24 7 20 6) /\ decimal [57;57;57;57;57;57;57] = 9999999 /\ 9999999 < 2 ^ 24.
Proof. repeat split. Qed.
