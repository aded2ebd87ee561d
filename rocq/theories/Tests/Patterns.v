(** The patterns of [RegexText.v], compiled and searched by [Sre.v], against CPython 3.11.10's [re]: for each text, whether
    [fullmatch] succeeds and where [match] ends.  Half of the texts were made from the patterns, the others by changing some
    characters.  No code of /repo was run.  These are tests, not proofs. *)
From Verif.Model Require Import Py Re RegexText Sre.

Definition pattern_cases : list (str * list (str * bool * option nat)) :=
 [  (T_CPREF_COMPONENT,
   [([], false, None);
    ([35;50], false, None);
    ([37;50;51], true, Some 3%nat);
    ([37;50;63;51], false, None);
    ([37;50;66;51], false, None);
    ([37;51], false, None);
    ([37;121;51], false, None);
    ([50;51], true, Some 2%nat);
    ([56], true, Some 1%nat);
    ([57;37;40;51;37;50;51;68], false, Some 1%nat);
    ([57;37;50;37;50;51;68], false, Some 1%nat);
    ([57;37;50;51], true, Some 4%nat);
    ([57;37;50;51;37;50;51;68], true, Some 8%nat);
    ([57;37;50;51;37;50;66;68], false, Some 4%nat);
    ([57;45;37;50], false, Some 2%nat);
    ([57;45;37;50;51], true, Some 5%nat);
    ([85;51], true, Some 2%nat);
    ([85;56], true, Some 2%nat);
    ([85;121], false, Some 1%nat)]);
  (T_NUMERIC_COMPONENT,
   [([], false, None);
    ([32], false, None);
    ([38;48], false, None);
    ([48], true, Some 1%nat);
    ([48;59], false, Some 1%nat);
    ([51;48], true, Some 2%nat);
    ([54], true, Some 1%nat);
    ([54;52], true, Some 2%nat);
    ([54;52;53;57], true, Some 4%nat);
    ([55;100], false, Some 1%nat);
    ([57;52;53;57], true, Some 4%nat);
    ([63;54;52;53;57], false, None);
    ([100], false, None);
    ([120], false, None);
    ([233;48], false, None)]);
  (T_GS3A3_CHAR,
   [([], false, None);
    ([37], false, None);
    ([37;49], true, Some 2%nat);
    ([37;49;55], false, Some 2%nat);
    ([37;100], true, Some 2%nat);
    ([40;58], false, Some 1%nat);
    ([41], true, Some 1%nat);
    ([49], true, Some 1%nat);
    ([49;61], false, Some 1%nat);
    ([53;60;61], false, Some 1%nat);
    ([58], true, Some 1%nat);
    ([58;37], false, Some 1%nat);
    ([59], true, Some 1%nat);
    ([61], true, Some 1%nat);
    ([95;37;100], false, Some 1%nat);
    ([95;37;101], false, Some 1%nat);
    ([95;58], false, Some 1%nat);
    ([100], true, Some 1%nat);
    ([101;38], false, Some 1%nat)]);
  (T_GS3A3_COMPONENT,
   [([], false, None);
    ([37;34;99], false, None);
    ([37;65;37;50], true, Some 4%nat);
    ([37;65;37;59;50], false, Some 2%nat);
    ([37;98;37;52;37;101;37;67], true, Some 8%nat);
    ([37;98;37;52;37;101;37;67;60], false, Some 8%nat);
    ([37;98;44;37;52;37;101;37;49], true, Some 9%nat);
    ([37;98;52;37;101;37;67], true, Some 7%nat);
    ([37;99], true, Some 2%nat);
    ([42], true, Some 1%nat);
    ([49], true, Some 1%nat);
    ([55], true, Some 1%nat);
    ([59;35;65;37;50], false, Some 1%nat);
    ([59;37;65;37;95], false, Some 3%nat);
    ([59;99], true, Some 2%nat);
    ([61], true, Some 1%nat);
    ([95;61], true, Some 2%nat);
    ([121;37;99], true, Some 3%nat);
    ([122], true, Some 1%nat);
    ([1635;61], false, None)]);
  (T_PADDED_NUMERIC_COMPONENT,
   [([], false, None);
    ([34], false, None);
    ([41;57], false, None);
    ([49], true, Some 1%nat);
    ([49;57], true, Some 2%nat);
    ([52], true, Some 1%nat);
    ([52;55;48], true, Some 3%nat);
    ([54;52], true, Some 2%nat);
    ([55], true, Some 1%nat);
    ([55;53], true, Some 2%nat);
    ([55;53;53;49], true, Some 4%nat);
    ([56], true, Some 1%nat);
    ([56;52], true, Some 2%nat);
    ([57], true, Some 1%nat);
    ([58;52], false, None);
    ([58;53], false, None);
    ([95;52;55;48], false, None);
    ([120;1635], false, None)]);
  (T_PADDED_NUMERIC_COMPONENT_OR_EMPTY,
   [([], true, Some 0%nat);
    ([34], false, Some 0%nat);
    ([37], false, Some 0%nat);
    ([45], false, Some 0%nat);
    ([48], true, Some 1%nat);
    ([50], true, Some 1%nat);
    ([52;1635], true, Some 2%nat);
    ([65], false, Some 0%nat);
    ([67], false, Some 0%nat);
    ([120], false, Some 0%nat);
    ([1635], true, Some 1%nat);
    ([1635;54], true, Some 2%nat)]);
  (T_VERIFY_GS3A3_CHARS,
   [([], false, None);
    ([34], true, Some 1%nat);
    ([34;33;61;34], true, Some 4%nat);
    ([39;80], true, Some 2%nat);
    ([39;95;112;80], true, Some 4%nat);
    ([39;112;80], true, Some 3%nat);
    ([47], true, Some 1%nat);
    ([52], true, Some 1%nat);
    ([52;32], false, Some 1%nat);
    ([52;42], true, Some 2%nat);
    ([52;52;50], true, Some 3%nat);
    ([52;63], true, Some 2%nat);
    ([56;61;58;37], true, Some 4%nat);
    ([59;33;61;34], true, Some 4%nat);
    ([59;63;33;61;34], true, Some 5%nat);
    ([62], true, Some 1%nat);
    ([62;50;58;37], true, Some 4%nat);
    ([62;59;33;61;34], true, Some 5%nat);
    ([62;61;58;37], true, Some 4%nat);
    ([62;95;61;58;49;37], true, Some 6%nat)]);
  (T_GS1_ELEM_CHARS,
   [([], false, None);
    ([33], true, Some 1%nat);
    ([40;43], false, Some 1%nat);
    ([41], true, Some 1%nat);
    ([41;33], false, Some 1%nat);
    ([41;38], false, Some 1%nat);
    ([43], true, Some 1%nat);
    ([49;41], false, Some 1%nat);
    ([55], true, Some 1%nat);
    ([55;60], false, Some 1%nat);
    ([60], true, Some 1%nat);
    ([63;41], false, Some 1%nat);
    ([101], true, Some 1%nat);
    ([102], true, Some 1%nat);
    ([120], true, Some 1%nat);
    ([1635], false, None)]);
  (T_GS1_ELEM_CHARS_CPI,
   [([], false, None);
    ([35], true, Some 1%nat);
    ([35;102], false, Some 1%nat);
    ([41], false, None);
    ([47], true, Some 1%nat);
    ([47;120], false, Some 1%nat);
    ([53], true, Some 1%nat);
    ([54], true, Some 1%nat);
    ([55], true, Some 1%nat);
    ([56], true, Some 1%nat);
    ([57], true, Some 1%nat);
    ([59], false, None);
    ([63;35], false, None);
    ([67], true, Some 1%nat);
    ([85], true, Some 1%nat);
    ([95], false, None);
    ([120], false, None)]);
  (T_DIGIT,
   [([], false, None);
    ([34], false, None);
    ([37], false, None);
    ([48], true, Some 1%nat);
    ([51], true, Some 1%nat);
    ([51;121], false, Some 1%nat);
    ([53], true, Some 1%nat);
    ([54], true, Some 1%nat);
    ([56;53], false, Some 1%nat);
    ([63], false, None);
    ([101], false, None);
    ([102], false, None);
    ([233], false, None);
    ([65305], true, Some 1%nat)]);
  (T_FOUR_PADDED_NUMERIC_COMPONENTS,
   [([], false, None);
    ([38], false, None);
    ([48;49;46;48;46;52;55;56;49;46;57], true, Some 11%nat);
    ([48;49;46;48;46;52;55;56;49;53;46;57], true, Some 12%nat);
    ([48;49;46;48;46;60;55;56;49;46;57], false, None);
    ([48;49;48;46;52;55;56;49;46;57], false, None);
    ([50;46;34;46;55;46;52], false, None);
    ([50;53;46;53;37;55;46;52], false, None);
    ([50;53;46;53;46;55;46;52], true, Some 8%nat);
    ([52;46;48;48;47;54;54;46;51;54;56;46;56], false, None);
    ([52;46;48;48;54;46;51;54;56;46;56], true, Some 11%nat);
    ([52;46;48;48;54;54;46;51;54;56;46;56], true, Some 12%nat);
    ([52;46;48;48;54;54;46;51;1635;56;56], false, None);
    ([53;52;46;55;51;46;50;52;50;51;46;49;53;50;50], true, Some 15%nat);
    ([53;52;46;55;51;46;50;52;50;51;46;52;53;50;51], true, Some 15%nat);
    ([53;52;46;55;51;46;50;52;50;51;46;66;53;50;50], false, None);
    ([53;52;46;55;51;50;52;50;51;46;49;53;50;50], false, None);
    ([56;51;56;46;51;46;49;56;55;48;46;49;50], true, Some 13%nat);
    ([56;53;51;56;46;51;46;49;56;55;48;46;49;50], true, Some 14%nat);
    ([56;53;51;56;46;51;101;46;49;56;55;48;46;49;50], false, None);
    ([56;100;51;56;46;51;46;49;56;55;48;46;49;50], false, None)]);
  (T_SGTIN_URI_BODY,
   [([], false, None);
    ([49;52;50;53;46;54;51;53;46;37;69;37;66;59;41], true, Some 15%nat);
    ([49;52;50;53;46;54;53;46;37;69;37;66;59;41], true, Some 14%nat);
    ([49;52;50;53;46;54;120;53;46;37;69;37;66;101;41], false, None);
    ([49;52;50;53;46;121;54;53;46;37;69;37;66;59;41], false, None);
    ([50;46;33;48;46;45], false, None);
    ([50;46;46;45], false, None);
    ([50;46;48;46;45], true, Some 5%nat);
    ([50;46;50;56;46;61;37;57;33], true, Some 9%nat);
    ([50;46;52;50;50;46;61;37;57;33], true, Some 10%nat);
    ([50;46;52;50;56;46;61;37;57;33], true, Some 10%nat);
    ([50;46;52;50;56;121;46;61;37;57;33], false, None);
    ([50;48;46;60], false, None);
    ([52;46;57;50;46;116;37;87], false, Some 6%nat);
    ([52;46;57;50;46;116;87], true, Some 7%nat);
    ([52;62;46;50;50;46;116;87], false, None);
    ([55;46;55;46;45], true, Some 5%nat);
    ([55;46;55;46;46], true, Some 5%nat);
    ([55;57;46;55;46;101], true, Some 6%nat);
    ([55;233;46;55;46;45], false, None)]);
  (T_SGTIN_URI,
   [([], false, None);
    ([117;49;114;110;58;101;112;99;58;105;100;58;115;103;116;105;110;58;52;46;56;46;39;59;37;65], false, None);
    ([117;114;110;41;58;101;112;99;58;105;100;58;115;103;116;105;110;58;48;49;46;1635;48;46;37;97;37;67], false, None);
    ([117;114;110;58;53;112;99;58;105;100;58;115;103;116;105;110;58;57;46;48;54;46;37;100], false, None);
    ([117;114;110;58;101;112;99;57;105;100;58;115;103;116;105;110;58;54;46;54;52;46;45], false, None);
    ([117;114;110;58;101;112;99;58;32;100;58;115;103;116;105;110;62;65305;46;52;46;37;50;39;37;70], false, None);
    ([117;114;110;58;101;112;99;58;105;100;58;32;103;116;105;110;58;65305;46;52;46;37;50;39;37;70], false, None);
    ([117;114;110;58;101;112;99;58;105;100;58;103;116;105;110;58;52;46;56;46;39;59;37;65;63], false, None);
    ([117;114;110;58;101;112;99;58;105;100;58;115;103;116;34;110;58;57;46;48;54;46;37;100], false, None);
    ([117;114;110;58;101;112;99;58;105;100;58;115;103;116;105;110;53;58;57;46;48;54;46;37;100], false, None);
    ([117;114;110;58;101;112;99;58;105;100;58;115;103;116;105;110;58;48;50;49;46;1635;48;46;37;97;37;67], true, Some 28%nat);
    ([117;114;110;58;101;112;99;58;105;100;58;115;103;116;105;110;58;48;50;49;46;1635;48;46;97;37;67], true, Some 27%nat);
    ([117;114;110;58;101;112;99;58;105;100;58;115;103;116;105;110;58;52;46;56;46;39;59;37;65], true, Some 25%nat);
    ([117;114;110;58;101;112;99;58;105;100;58;115;103;116;105;110;58;52;46;178;46;39;59;37;65], false, None);
    ([117;114;110;58;101;112;99;58;105;100;58;115;103;116;105;110;58;54;46;54;52;46;45], true, Some 23%nat);
    ([117;114;110;58;101;112;99;58;105;100;58;115;103;116;105;110;58;54;46;54;57;46;45;120], true, Some 24%nat);
    ([117;114;110;58;101;112;99;58;105;100;58;115;103;116;105;110;58;54;46;62;52;46;45], false, None);
    ([117;114;110;58;101;112;99;58;105;100;58;115;103;116;105;110;58;57;46;48;54;46;37;100], true, Some 24%nat);
    ([117;114;110;58;101;112;99;58;105;100;58;115;103;116;105;110;58;65305;46;35;46;37;50;39;37;70], false, None);
    ([117;114;110;58;101;112;99;58;105;100;58;115;103;116;105;110;58;65305;46;52;46;37;50;39;37;70], true, Some 26%nat)]);
  (T_SSCC_URI_BODY,
   [([], false, None);
    ([41;46;57;58;52], false, None);
    ([50;46;52], true, Some 3%nat);
    ([50;46;52;102], false, Some 3%nat);
    ([50;46;57;44;50;52], false, Some 3%nat);
    ([50;46;57;50;52], true, Some 5%nat);
    ([50;46;57;52], true, Some 4%nat);
    ([50;46;101], false, None);
    ([50;46;1635;52], true, Some 4%nat);
    ([51;46;56;53;48;51], true, Some 6%nat);
    ([51;56;46;56;53;42;48;51], false, Some 5%nat);
    ([51;56;46;56;53;48;51], true, Some 7%nat);
    ([51;56;46;56;53;48;54], true, Some 7%nat);
    ([55;42;51;1635], false, None);
    ([55;46;42;51;1635], false, None);
    ([55;46;51;1635], true, Some 4%nat);
    ([55;53;46;47;51;1635], false, None);
    ([56;52;46;48;46;52;51], false, Some 4%nat);
    ([56;52;46;48;49], true, Some 5%nat);
    ([56;52;46;48;49;52;51], true, Some 7%nat);
    ([61;56;52;46;48;49;52;51;50], false, None)]);
  (T_SSCC_URI,
   [([], false, None);
    ([117;44;110;58;101;112;99;58;105;100;58;115;115;99;99;58;55;49;46;56;51], false, None);
    ([117;114], false, None);
    ([117;114;110;58], false, None);
    ([117;114;110;58;101;47;99;58;105;100;58;115;115;99;99;58;48;48;46;56;48;49], false, None);
    ([117;114;110;58;101;99;58;105;100;58;115;115;99;99;58;53;48;48;46;56;48;49], false, None);
    ([117;114;110;58;101;112;47;99;58;105;100;58;115;115;99;99;58;51;46;50], false, None);
    ([117;114;110;58;101;112;99], false, None);
    ([117;114;110;58;101;112;99;58;100;58;115;115;99;99;58;50;51;56;46;48;56;55;56], false, None);
    ([117;114;110;58;101;112;99;58;105;100;58;115;115;99;99;58;50;51;56;46;48;56;55;56], true, Some 24%nat);
    ([117;114;110;58;101;112;99;58;105;100;58;115;115;99;99;58;50;51;56;46;48;56;56], true, Some 23%nat);
    ([117;114;110;58;101;112;99;58;105;100;58;115;115;99;99;58;50;51;56;57;46;48;56;55;56], true, Some 25%nat);
    ([117;114;110;58;101;112;99;58;105;100;58;115;115;99;99;58;51;46;50], true, Some 19%nat);
    ([117;114;110;58;101;112;99;58;105;100;58;115;115;99;99;58;53;48;48;46;56;48;49], true, Some 23%nat);
    ([117;114;110;58;101;112;99;58;105;100;58;115;115;99;99;58;55;49;46;34;56;51], false, None);
    ([117;114;110;58;101;112;99;58;105;100;58;115;115;99;99;58;55;49;46;56;51], true, Some 21%nat);
    ([117;114;110;58;101;112;99;58;105;100;58;115;115;99;99;58;55;49;46;1635;50;53;53], true, Some 23%nat);
    ([117;114;110;58;101;112;99;58;105;100;58;115;115;99;99;58;55;49;46;1635;53;53], true, Some 22%nat);
    ([117;114;110;58;101;112;99;58;122;100;58;115;115;99;99;58;55;49;46;1635;50;53;53;101], false, None);
    ([117;114;110;58;112;99;58;105;100;58;115;115;99;99;58;51;46;50], false, None);
    ([122;117;114;110;58;101;112;99;58;105;100;58;115;115;99;99;58;55;49;46;56;51;49], false, None)]);
  (T_SGLN_URI_BODY,
   [([], false, None);
    ([51;51;53;46;57;1635;46;39], true, Some 8%nat);
    ([51;54;51;53;46;57;95;46;39], false, None);
    ([51;54;51;53;46;57;1635;46;39], true, Some 9%nat);
    ([53;35;48;48;46;46;37;49;37;98], false, None);
    ([53;56;48;48;46;46;37;49;37;98], true, Some 10%nat);
    ([53;56;48;48;46;46;37;49;37;98;50], true, Some 11%nat);
    ([53;56;48;48;122;46;46;37;49;37;98], false, None);
    ([54;51;53;46;57;1635;178;39], false, None);
    ([55;46;50;57;57;46;62;37;102], false, None);
    ([55;46;50;57;57;46;120;37;102], true, Some 9%nat);
    ([55;60;50;65305;57;57;46;120;37;102], false, None);
    ([55;121;50;57;57;46;178;37;102], false, None);
    ([57;35;46;46;37;51], false, None);
    ([57;46;46;37;51], true, Some 5%nat);
    ([57;51;46;95;48;49;46;37;101], false, None);
    ([57;51;46;65305;48;49;46;37;49;101], true, Some 10%nat);
    ([57;51;46;65305;48;49;46;37;101], true, Some 9%nat);
    ([57;51;46;65305;48;49;46;44;101], true, Some 9%nat);
    ([57;57;46;46;37], false, None);
    ([57;62;46;37;51], false, None)]);
  (T_SGLN_URI,
   [([], false, None);
    ([117;114;110;58;101;44;99;58;105;100;58;115;103;108;110;58;49;51;46;46;58;37;65;37;55], false, None);
    ([117;114;110;58;101;112;99;58;105;56;42;58;115;103;108;110;58;56;49;54;46;56;50;46;40;95], false, None);
    ([117;114;110;58;101;112;99;58;105;100;56;58;115;103;108;110;58;54;49;48;50;46;46;40;42;46;37;67], false, None);
    ([117;114;110;58;101;112;99;58;105;100;58;115;44;108;110;58;52;46;54;55;52;46;40], false, None);
    ([117;114;110;58;101;112;99;58;105;100;58;115;103;108;110;58;49;51;46;46;58;37;65;41;37;55], true, Some 26%nat);
    ([117;114;110;58;101;112;99;58;105;100;58;115;103;108;110;58;51;54;49;46;1635;49;49;46;42], true, Some 25%nat);
    ([117;114;110;58;101;112;99;58;105;100;58;115;103;108;110;58;52;46;54;55;52;46;10;40], false, None);
    ([117;114;110;58;101;112;99;58;105;100;58;115;103;108;110;58;52;46;54;55;52;46;40], true, Some 23%nat);
    ([117;114;110;58;101;112;99;58;105;100;58;115;103;108;110;58;52;178;46;54;55;52;46;40], false, None);
    ([117;114;110;58;101;112;99;58;105;100;58;115;103;108;110;58;54;49;48;50;46;46;40;42;46;37;67], true, Some 27%nat);
    ([117;114;110;58;101;112;99;58;105;100;58;115;103;108;110;58;54;49;48;50;46;46;40;42;46;37;67;51], true, Some 28%nat);
    ([117;114;110;58;101;112;99;58;105;100;58;115;103;108;110;58;56;49;54;46], false, None);
    ([117;114;110;58;101;112;99;58;105;100;58;115;103;108;110;58;56;49;54;46;56;50;46;40;95], true, Some 25%nat);
    ([117;114;110;58;101;112;99;58;105;100;58;115;103;108;110;58;56;51;54;49;46;101;49;49;46;42], false, None);
    ([117;114;110;58;101;112;99;58;105;100;58;115;103;108;110;58;56;51;54;49;46;1635;49;49;46;42], true, Some 26%nat);
    ([117;114;110;58;101;112;99;58;105;100;58;115;103;108;110;58;56;51;54;49;46;1635;121;49;46;42], false, None);
    ([117;114;110;58;101;112;99;58;105;100;60;115;103;108;110;58;49;51;46;46;58;37;65;41;37;55], false, None);
    ([117;114;110;58;112;99;58;105;100;58;115;103;108;110;49;51;46;46;58;37;65;41;37;55], false, None);
    ([117;120;114;110;58;101;112;99;58;105;100;58;115;103;108;110;58;56;49;54;46;56;50;46;40;95], false, None);
    ([1635;117;114;110;58;101;112;99;58;105;100;58;115;103;108;110;58;54;49;48;50;46;46;40;42;46;37;67], false, None)]);
  (T_GRAI_URI_BODY,
   [([], false, None);
    ([48;54;46;48;33;57;51;46;37;68;41;39;39], false, None);
    ([48;54;46;48;57;51;46;37;68;41;10;39], false, Some 10%nat);
    ([48;54;46;48;57;51;46;37;68;41;39;39], true, Some 12%nat);
    ([48;54;46;48;57;51;46;37;68;41;39;39;48], true, Some 13%nat);
    ([52;52;46;56;48;46;39], true, Some 7%nat);
    ([52;52;46;56;48;46;39;57], true, Some 8%nat);
    ([52;52;46;56;48;46;39;100], true, Some 8%nat);
    ([52;52;61;56;48;46;39;57], false, None);
    ([52;53;50;50;46;46;37;69;44], true, Some 9%nat);
    ([52;53;54;50;46;46;37;69;44], true, Some 9%nat);
    ([52;53;54;50;46;46;37;178;44], false, None);
    ([53;55;48;55;46;56;51;57;46;37;102;42;119], true, Some 13%nat);
    ([53;55;48;55;46;56;51;57;46;37;102;42;119;37;48], true, Some 15%nat);
    ([53;55;48;55;46;56;51;57;46;37;102;42;119;37;48;32], false, Some 15%nat);
    ([53;55;48;55;56;51;57;46;37;102;42;119;37;48], false, None);
    ([54;48;46;46;37;101;37;54], true, Some 8%nat);
    ([54;48;62;46;46;37;101;37;54], false, None);
    ([57;48;46;57;46;37;101;37;54], true, Some 9%nat);
    ([57;54;48;46;46;37;101;37;54], true, Some 9%nat);
    ([101;52;53;54;50;46;46;37;69;44;65], false, None)]);
  (T_GRAI_URI,
   [([], false, None);
    ([117;59;110;58;101;112;99;58;105;100;58;103;114;97;105;58;51;46;55;54;46;79;37;97], false, None);
    ([117;114;110;58;101;102;99;58;105;100;58;103;114;97;105;58;51;46;55;54;46;79;37;97], false, None);
    ([117;114;110;58;101;112;53;105;100;58;103;114;97;105;58;52;56;46;46;42;37;101;37;100;37;67], false, None);
    ([117;114;110;58;101;112;58;105;100;58;103;114;97;105;58;51;57;46;50;46;46;61;37;99;39], false, None);
    ([117;114;110;58;101;112;99;52;105;100;58;103;114;97;105;58;51;57;46;50;46;46;61;37;99;39], false, None);
    ([117;114;110;58;101;112;99;57;105;100;58;103;114;97;105;102;51;57;46;50;46;46;61;37;99;39], false, None);
    ([117;114;110;58;101;112;99;58;100;100;58;103;114;97;105;58;55;46;54;54;65305;46;55], false, None);
    ([117;114;110;58;101;112;99;58;105;100;58;103;114;97;58;51;46;53;53;46;40], false, None);
    ([117;114;110;58;101;112;99;58;105;100;58;103;114;97;105;58;51;46;53;49;46;40], true, Some 22%nat);
    ([117;114;110;58;101;112;99;58;105;100;58;103;114;97;105;58;51;46;53;53;46;40], true, Some 22%nat);
    ([117;114;110;58;101;112;99;58;105;100;58;103;114;97;105;58;51;46;55;54;46;79;37;97], true, Some 24%nat);
    ([117;114;110;58;101;112;99;58;105;100;58;103;114;97;105;58;51;46;55;54;46;79;37;97;63], false, Some 24%nat);
    ([117;114;110;58;101;112;99;58;105;100;58;103;114;97;105;58;51;57;46;50;46;46;61;37;99;39], true, Some 26%nat);
    ([117;114;110;58;101;112;99;58;105;100;58;103;114;97;105;58;52;56;46;46;42;37;101;37;100;37;67], true, Some 27%nat);
    ([117;114;110;58;101;112;99;58;105;100;58;103;114;97;105;58;52;56;46;46;42;37;101;37;100;37;67;66], true, Some 28%nat);
    ([117;114;110;58;101;112;99;58;105;100;58;103;114;97;105;58;52;56;95;46;42;37;101;37;100;37;67], false, None);
    ([117;114;110;58;101;112;99;58;105;100;58;103;114;97;105;58;55;46;54;54;65305;46;55], true, Some 23%nat);
    ([117;114;110;58;101;112;99;58;105;100;58;103;114;97;105;58;55;46;54;54;65305;46;55;51], true, Some 24%nat);
    ([117;114;110;58;101;112;99;105;100;58;103;114;97;105;58;55;46;54;54;65305;46;55], false, None)]);
  (T_GIAI_URI_BODY,
   [([], false, None);
    ([38;53;46;39;47], false, None);
    ([50;45;51;33;37;50;37;66], false, None);
    ([50;51;46;37;50;37;53;66], true, Some 8%nat);
    ([50;51;46;37;50;37;66], true, Some 7%nat);
    ([51;49;46;61], true, Some 4%nat);
    ([51;49;46;65;10;61], false, Some 4%nat);
    ([51;49;46;65;61], true, Some 5%nat);
    ([51;49;50;65;61], false, None);
    ([54;53;46], false, None);
    ([54;53;46;39], true, Some 4%nat);
    ([54;53;58;46;39], false, None);
    ([55;46;40;37;51;37;1635;100], false, Some 5%nat);
    ([55;46;40;37;100;37], false, Some 5%nat);
    ([55;46;40;37;100;37;42], false, Some 5%nat);
    ([55;46;40;37;100;37;100], true, Some 7%nat);
    ([56;54;38;49;46;37;99;95;37;97;53], false, None);
    ([56;54;46;37;99;95;37;97;53], true, Some 9%nat);
    ([56;54;49;37;99;95;37;97;53], false, None);
    ([56;54;49;46;37;99;95;37;97;53], true, Some 10%nat);
    ([95;51;46;37;50;37;66], false, None)]);
  (T_GIAI_URI,
   [([], false, None);
    ([117;35;114;110;58;101;112;99;58;105;100;58;103;105;97;105;58;56;51;46;76], false, None);
    ([117;110;58;101;112;99;58;105;100;58;103;105;97;105;58;52;46;59], false, None);
    ([117;114;37;58;101;112;99;58;105;100;58;103;105;97;105;58;55;53;52;46;37;97;42;37;69], false, None);
    ([117;114;110;58;101;112;99;58;105], false, None);
    ([117;114;110;58;101;112;99;58;105;41;58;103;105;97;105;58;55;53;52;46;37;97;42;37;69], false, None);
    ([117;114;110;58;101;112;99;58;105;100;58;103;105;42;105;58;54;53;48;50;46;58], false, None);
    ([117;114;110;58;101;112;99;58;105;100;58;103;105;97;105;58;50;65305;46;58;46;37;65], true, Some 23%nat);
    ([117;114;110;58;101;112;99;58;105;100;58;103;105;97;105;58;50;65305;46;58;58;37;65], true, Some 23%nat);
    ([117;114;110;58;101;112;99;58;105;100;58;103;105;97;105;58;52;46;59], true, Some 19%nat);
    ([117;114;110;58;101;112;99;58;105;100;58;103;105;97;105;58;53;48;50;46;58], true, Some 21%nat);
    ([117;114;110;58;101;112;99;58;105;100;58;103;105;97;105;58;54;53;48;50;46;58], true, Some 22%nat);
    ([117;114;110;58;101;112;99;58;105;100;58;103;105;97;105;58;55;53;52;46;37;97;42;37;69], true, Some 25%nat);
    ([117;114;110;58;101;112;99;58;105;100;58;103;105;97;105;58;56;51;46;76], true, Some 20%nat);
    ([117;114;110;58;101;112;99;58;105;100;58;103;105;97;105;58;56;51;76], false, None);
    ([117;114;110;58;101;112;99;58;105;100;58;103;105;120;105;58;54;53;48;50;46;58], false, None);
    ([117;114;110;58;101;112;99;67;105;100;58;103;105;97;105;58;52;46;59], false, None);
    ([117;114;110;120;101;112;99;58;105;100;58;103;105;97;105;58;56;51;46;76], false, None);
    ([122;114;110;58;101;112;99;58;105;100;58;103;105;97;105;58;50;65305;46;58;58;37;65], false, None);
    ([178;114;110;58;101;112;99;58;105;100;58;103;105;105;58;52;46;59], false, None)]);
  (T_GSRN_URI_BODY,
   [([], false, None);
    ([44;46;55;56], false, None);
    ([49;56;38;56;46;48], false, None);
    ([49;56;56;46;48], true, Some 5%nat);
    ([49;56;56;48], false, None);
    ([50;46;37;57;48], false, None);
    ([50;46;46;57;48;66], false, None);
    ([50;46;57;48], true, Some 4%nat);
    ([50;46;57;57;48], true, Some 5%nat);
    ([54;46;52;57;50], true, Some 5%nat);
    ([54;46;56;57], true, Some 4%nat);
    ([54;57;46;52;50], true, Some 5%nat);
    ([54;57;46;52;57;50], true, Some 6%nat);
    ([54;121;46;56;57], false, None);
    ([56;46;53;55;56], true, Some 5%nat);
    ([56;46;53;55;61;56], false, Some 4%nat);
    ([56;46;55;56], true, Some 4%nat);
    ([62;54;46;56;57], false, None);
    ([63;46;56;57], false, None);
    ([63;54;46;52;57;50], false, None);
    ([95;49;56;56;46;48], false, None)]);
  (T_GSRN_URI,
   [([], false, None);
    ([117;110;58;101;112;99;58;105;100;58;103;115;114;110;58;57;51;46;48;48;52;50], false, None);
    ([117;114;110;58;101;112;34;99;58;105;100;58;103;115;114;110;58;47;57;51;46;48;48;52;50], false, None);
    ([117;114;110;58;101;112;99;58;105;67;58;103;115;114;110;58;57;51;46;48;48;52;50], false, None);
    ([117;114;110;58;101;112;99;58;105;100;58;35;103;115;114;110;58;54;46;57;51;49], false, None);
    ([117;114;110;58;101;112;99;58;105;100;58;103;115;114;110;58;37;51;52;50;46;56], false, None);
    ([117;114;110;58;101;112;99;58;105;100;58;103;115;114;110;58;50;54;48;53;46], false, None);
    ([117;114;110;58;101;112;99;58;105;100;58;103;115;114;110;58;50;54;48;53;46;53], true, Some 22%nat);
    ([117;114;110;58;101;112;99;58;105;100;58;103;115;114;110;58;50;54;48;53;46;53;34], false, Some 22%nat);
    ([117;114;110;58;101;112;99;58;105;100;58;103;115;114;110;58;51;52;50;46;56], true, Some 21%nat);
    ([117;114;110;58;101;112;99;58;105;100;58;103;115;114;110;58;51;52;57;50;46;56;63], false, Some 22%nat);
    ([117;114;110;58;101;112;99;58;105;100;58;103;115;114;110;58;52;50;46;56], true, Some 20%nat);
    ([117;114;110;58;101;112;99;58;105;100;58;103;115;114;110;58;54;46;57;51;49], true, Some 21%nat);
    ([117;114;110;58;101;112;99;58;105;100;58;103;115;114;110;58;55;53;46;56;48], true, Some 21%nat);
    ([117;114;110;58;101;112;99;58;105;100;58;103;115;114;110;58;55;53;46;56;48;44], false, Some 21%nat);
    ([117;114;110;58;101;112;99;58;105;100;58;103;115;114;110;58;55;53;63;56;48], false, None);
    ([117;114;110;58;101;112;99;58;105;100;58;103;115;114;110;58;57;51;46;48;48;52;50], true, Some 23%nat);
    ([117;114;110;58;101;112;99;58;105;100;58;103;115;114;110;58;63;46;57;51;49], false, None);
    ([117;114;110;58;101;112;99;58;105;100;58;103;115;114;110;59;50;54;48;53;46;53], false, None);
    ([117;233;114;110;58;101;112;99;58;105;100;58;103;115;114;110;58;54;66;57;51;49], false, None)]);
  (T_GSRNP_URI_BODY,
   [([], false, None);
    ([46;46;55;50;56;49], false, None);
    ([48;57;54;46;49;53;55], true, Some 7%nat);
    ([48;57;54;49;53;55], false, None);
    ([48;100;54;46;49;53;40], false, None);
    ([49;53;53;55;46;53;48], true, Some 7%nat);
    ([49;53;53;55;46;53;57;48], true, Some 8%nat);
    ([49;53;53;55;46;53;57;65305], true, Some 8%nat);
    ([49;53;53;65;55;46;53;57], false, None);
    ([49;65305;46], false, None);
    ([49;65305;46;55], true, Some 4%nat);
    ([49;65305;55], false, None);
    ([55;46;55;33;56;49], false, Some 3%nat);
    ([55;46;55;50;49], true, Some 5%nat);
    ([55;46;55;50;56;49], true, Some 6%nat);
    ([56;46;52;53], true, Some 4%nat);
    ([56;46;53], true, Some 3%nat);
    ([57;120;46;49;53;55], false, None);
    ([58;65;52;53], false, None);
    ([65305;46;52;53], true, Some 4%nat)]);
  (T_GSRNP_URI,
   [([], false, None);
    ([117;114;110;58;101], false, None);
    ([117;114;110;58;101;61;112;99;58;105;100;58;103;115;114;110;112;58;50;46;52;53], false, None);
    ([117;114;110;58;101;112;58;105;100;58;103;115;114;110;112;58;55;46;50;50], false, None);
    ([117;114;110;58;101;112;99;58;95;105;100;58;103;115;114;110;112;58;65305;46], false, None);
    ([117;114;110;58;101;112;99;58;105;100;45;103;115;114;110;112;58;65305;46;55;53], false, None);
    ([117;114;110;58;101;112;99;58;105;100;58;103;115;114;110;112;50;46;52;53], false, None);
    ([117;114;110;58;101;112;99;58;105;100;58;103;115;114;110;112;58], false, None);
    ([117;114;110;58;101;112;99;58;105;100;58;103;115;114;110;112;58;50;46;37;53], false, None);
    ([117;114;110;58;101;112;99;58;105;100;58;103;115;114;110;112;58;50;46;52;50;50;57], true, Some 23%nat);
    ([117;114;110;58;101;112;99;58;105;100;58;103;115;114;110;112;58;50;46;52;53], true, Some 21%nat);
    ([117;114;110;58;101;112;99;58;105;100;58;103;115;114;110;112;58;50;46;52;53;100], false, Some 21%nat);
    ([117;114;110;58;101;112;99;58;105;100;58;103;115;114;110;112;58;50;46;53], true, Some 20%nat);
    ([117;114;110;58;101;112;99;58;105;100;58;103;115;114;110;112;58;50;46;57;53], true, Some 21%nat);
    ([117;114;110;58;101;112;99;58;105;100;58;103;115;114;110;112;58;50;46;57;53;58], false, Some 21%nat);
    ([117;114;110;58;101;112;99;58;105;100;58;103;115;114;110;112;58;55;46;50;50], true, Some 21%nat);
    ([117;114;110;58;101;112;99;58;105;100;58;103;115;114;110;112;58;65305;46;55;53], true, Some 21%nat);
    ([117;114;110;58;101;112;99;58;105;100;58;103;115;114;112;58;50;46;52;50;50;57], false, None);
    ([117;114;110;58;101;112;122;99;58;105;100;58;103;115;114;110;112;58;55;46;50;50], false, None);
    ([117;114;110;58;120;112;99;58;105;100;58;103;115;114;110;112;58;50;46;52;50;50;57], false, None);
    ([117;114;121;110;58;101;112;99;58;105;100;58;103;115;114;110;112;58;65305;46;55;53], false, None)]);
  (T_GDTI_URI_BODY,
   [([], false, None);
    ([46;48;46;42;39], false, None);
    ([52;1635;46;46;33;37;53;41], true, Some 8%nat);
    ([52;1635;46;46;33;37;53;1635;41], false, Some 7%nat);
    ([52;1635;46;46;56;37;53;41], true, Some 8%nat);
    ([52;1635;46;48;33;37;53], false, None);
    ([57], false, None);
    ([57;46;46;37;65;37;102;37;68;37;70], true, Some 11%nat);
    ([57;46;46;37;69;37;102;37;68;37;70], true, Some 11%nat);
    ([57;46;46;37;69;37;102;68;37;70], true, Some 10%nat);
    ([57;46;48;42;39], false, None);
    ([57;46;48;46;42;39], true, Some 6%nat);
    ([57;46;49;46;40;37;51;95;33], true, Some 9%nat);
    ([57;46;49;46;40;37;98;33], true, Some 8%nat);
    ([57;46;49;46;40;37;98;95;33], true, Some 9%nat);
    ([57;46;61;48;46;42;39], false, None);
    ([57;47;46;46;37;69;37;45;37;68;37;70], false, None);
    ([65305;55;46;52;46;37;57;58], true, Some 8%nat);
    ([65305;55;46;52;46;37;97;58], true, Some 8%nat);
    ([65305;55;52;46;37;97;58], false, None);
    ([65305;56;55;46;52;46;37;97;58], true, Some 9%nat)]);
  (T_GDTI_URI,
   [([], false, None);
    ([117;34;110;58;101;112;99;58;105;100;58;103;100;116;105;58;48;46;46;66;42], false, None);
    ([117;110;58;101;112;99;58;105;100;58;103;100;116;105;58;53;46;50;53;46;61], false, None);
    ([117;114;110;58;101;42;99;58;105;100;58;103;100;116;105;58;51;65305;57;46;50;46;59], false, None);
    ([117;114;110;58;101;112;99;58;105;61;100;58;103;100;116;105;58;49;56;49;52;46;56;46;44;82;43], false, None);
    ([117;114;110;58;101;112;99;58;105;100;58;48;100;116;105;58;48;46;46;66;42], false, None);
    ([117;114;110;58;101;112;99;58;105;100;58;103;100;116;105;58;48;46;46;66;42], true, Some 21%nat);
    ([117;114;110;58;101;112;99;58;105;100;58;103;100;116;105;58;49;49;52;46;56;46;44;82;43;120], true, Some 26%nat);
    ([117;114;110;58;101;112;99;58;105;100;58;103;100;116;105;58;49;56;49;52;46;56;46;44;82;43], true, Some 26%nat);
    ([117;114;110;58;101;112;99;58;105;100;58;103;100;116;105;58;51;65305;57;46;50;46;59], true, Some 23%nat);
    ([117;114;110;58;101;112;99;58;105;100;58;103;100;116;105;58;51;65305;101;46;50;46;59], false, None);
    ([117;114;110;58;101;112;99;58;105;100;58;103;100;116;105;58;52;65305;50;46;49;53;46;34;37;69;37;69], false, None);
    ([117;114;110;58;101;112;99;58;105;100;58;103;100;116;105;58;52;65305;50;46;49;53;46;37;69;37;69], true, Some 27%nat);
    ([117;114;110;58;101;112;99;58;105;100;58;103;100;116;105;58;52;65305;50;46;49;53;46;37;69;37;69;52], true, Some 28%nat);
    ([117;114;110;58;101;112;99;58;105;100;58;103;100;116;105;58;53;46;50;45;46;61], false, None);
    ([117;114;110;58;101;112;99;58;105;100;58;103;100;116;105;58;53;46;50;53;46;61], true, Some 22%nat);
    ([117;114;110;58;101;112;99;58;105;100;58;103;100;116;105;58;59;65305;50;46;49;53;46;37;69;37], false, None);
    ([117;114;110;58;101;112;99;58;105;100;58;103;100;116;105;58;122;48;46;46;66;42], false, None);
    ([117;114;110;58;101;112;99;105;100;58;103;100;105;58;51;65305;57;46;50;46;59], false, None);
    ([117;114;110;58;122;112;99;58;105;100;58;103;100;116;105;58;53;46;50;53;46;61;32], false, None);
    ([117;65305;114;110;58;101;112;99;58;105;100;58;103;100;116;105;58;49;56;49;52;46;56;46;44;82;43], false, None)]);
  (T_CPI_URI_BODY,
   [([], false, None);
    ([10;50;46;37;50;70;46;53], false, None);
    ([50;46;37;50;66;46;53], false, None);
    ([50;46;37;50;70;46;53], true, Some 7%nat);
    ([50;46;37;50;70;53], false, None);
    ([50;54;50;46;37;50;70;45;37;50;70;55;46;48], true, Some 14%nat);
    ([50;54;50;46;37;50;70;45;37;50;70;55;46;48;102], false, Some 14%nat);
    ([50;54;50;46;50;70;45;37;50;70;55;46;48], true, Some 13%nat);
    ([50;54;57;50;46;37;50;70;45;37;50;70;55;46;48], true, Some 15%nat);
    ([52;46;45;37;50;70;46;49;50;1635], true, Some 10%nat);
    ([52;46;45;37;50;70;46;49;50;1635;65305], true, Some 11%nat);
    ([52;46;45;37;50;101;46;49;50;1635], false, None);
    ([52;46;45;37;70;46;49;50;1635], false, None);
    ([56;46;37;50;51;50;37;10;70;46;56;48], false, None);
    ([56;46;37;50;51;50;37;50;70;46;56;48], true, Some 12%nat);
    ([56;46;37;50;51;50;37;50;70;46;56;1635;48], true, Some 13%nat);
    ([56;46;37;50;51;50;37;67;70;46;56;48], false, None);
    ([56;49;38;57;46;37;50;51;37;70;46;48], false, None);
    ([56;49;57;46;37;50;51;37;50;70;46;48], true, Some 12%nat);
    ([56;49;57;46;37;50;51;37;50;233;46;48], false, None);
    ([56;49;57;46;37;50;51;37;70;46;48], false, None)]);
  (T_CPI_URI,
   [([], false, None);
    ([42;117;114;110;58;101;112;99;58;105;100;58;99;112;105;58;48;53;46;48;37;50;70;37;50;70;45;46;52], false, None);
    ([117;114;63;110;58;35;112;99;58;105;100;58;99;112;105;58;54;52;46;37;50;51;46;48], false, None);
    ([117;114;110;58;101;112;99;58;105], false, None);
    ([117;114;110;58;101;112;99;58;105;100;58;60;112;105;58;54;52;46;37;50;51;46;48], false, None);
    ([117;114;110;58;101;112;99;58;105;100;58;99;112;100;105;58;54;46;37;50;70;84;37;50;51;37;50;51;46;50], false, None);
    ([117;114;110;58;101;112;99;58;105;100;58;99;112;105;58;48;53;46;48], false, None);
    ([117;114;110;58;101;112;99;58;105;100;58;99;112;105;58;48;53;46;48;37;50;70;37;50;70;45;46;52], true, Some 28%nat);
    ([117;114;110;58;101;112;99;58;105;100;58;99;112;105;58;48;53;46;48;37;50;70;37;50;70;61;46;52], false, None);
    ([117;114;110;58;101;112;99;58;105;100;58;99;112;105;58;50;49;49;46;37;50;70;37;50;70;37;50;51;37;50;70;46;48], true, Some 33%nat);
    ([117;114;110;58;101;112;99;58;105;100;58;99;112;105;58;50;49;49;46;37;50;70;37;50;70;37;50;51;37;120;70;46;48], false, None);
    ([117;114;110;58;101;112;99;58;105;100;58;99;112;105;58;50;49;49;46;50;70;37;50;70;37;50;51;37;50;70;46;48;57], false, Some 32%nat);
    ([117;114;110;58;101;112;99;58;105;100;58;99;112;105;58;54;46;37;50;61;70;84;37;50;51;37;50;51;46;50], false, None);
    ([117;114;110;58;101;112;99;58;105;100;58;99;112;105;58;54;46;37;50;70;84;37;50;51;37;50;51;46;50], true, Some 29%nat);
    ([117;114;110;58;101;112;99;58;105;100;58;99;112;105;58;54;52;46;37;50;51;46], false, None);
    ([117;114;110;58;101;112;99;58;105;100;58;99;112;105;58;54;52;46;37;50;51;46;48], true, Some 23%nat);
    ([117;114;110;58;101;112;99;58;105;100;58;99;112;105;58;54;53;37;50;70;84;37;50;51;37;50;51;46;50], false, None);
    ([117;114;110;58;101;112;99;58;105;100;58;99;112;105;58;1635;49;46;37;50;70;46;56;49], true, Some 24%nat);
    ([117;114;110;58;101;112;99;58;105;100;58;99;112;105;58;1635;49;46;37;50;70;46;56;49;53], true, Some 25%nat);
    ([117;114;110;58;101;112;99;58;105;100;58;99;112;105;58;1635;49;46;37;120;50;70;46;56;49], false, None)]);
  (T_SGCN_URI_BODY,
   [([], false, None);
    ([48;56;56;46;38;46;49;48], false, None);
    ([48;56;56;46;46;49], true, Some 6%nat);
    ([48;56;56;46;46;49;48], true, Some 7%nat);
    ([48;56;56;46;46;49;48;101], false, Some 7%nat);
    ([49;46;57;46;55;48;57;50], true, Some 8%nat);
    ([49;46;57;46;55;233;57;50;67], false, Some 5%nat);
    ([49;46;57;55;48;57;50], false, None);
    ([49;46;60;46;55;48;57;50], false, None);
    ([50;37;52;54;1635;46;46;49], false, None);
    ([50;52;54;45;46;46;49], false, None);
    ([50;52;54;1635;46;46;49], true, Some 7%nat);
    ([50;52;54;1635;46;46;122], false, None);
    ([52;46;53;54;46;57;48], true, Some 7%nat);
    ([52;46;53;54;46;57;48;50], true, Some 8%nat);
    ([52;46;53;54;46;102;57;48;50], false, None);
    ([52;54;46;53;54;46;57;48;50], true, Some 9%nat);
    ([57;48], false, None);
    ([57;48;46;46;65305;53;51;54], true, Some 8%nat);
    ([57;48;46;46;65305;53;51;56], true, Some 8%nat);
    ([57;48;46;120;65305;53;51;56], false, None)]);
  (T_SGCN_URI,
   [([], false, None);
    ([32;117;114;110;58;101;112], false, None);
    ([37;114], false, None);
    ([117;114], false, None);
    ([117;114;58;101;112;99;58;105;100;58;115;103;99;110;58;51;51;51;46;46;57;49;48;51], false, None);
    ([117;114;110;58;41;112;99;58;105;100;58;103;99;110;58;51;51;51;46;46;57;49;48;51], false, None);
    ([117;114;110;58;101;112;99;58;105;100;58;115;103;99;59;110;58;54;1635;46;46;57], false, None);
    ([117;114;110;58;101;112;99;58;105;100;58;115;103;99;110;57;48;50;55;46;53;50;46;53;57;52;57], false, None);
    ([117;114;110;58;101;112;99;58;105;100;58;115;103;99;110;58;50;50;54;54;46;51;52;55;46;51], true, Some 26%nat);
    ([117;114;110;58;101;112;99;58;105;100;58;115;103;99;110;58;50;50;54;54;46;51;52;55;46;51;48], true, Some 27%nat);
    ([117;114;110;58;101;112;99;58;105;100;58;115;103;99;110;58;50;57;54;54;46;51;52;55;46;51;48], true, Some 27%nat);
    ([117;114;110;58;101;112;99;58;105;100;58;115;103;99;110;58;51;51;51;46;46;57;49;48;51], true, Some 25%nat);
    ([117;114;110;58;101;112;99;58;105;100;58;115;103;99;110;58;54;1635;46;46;57], true, Some 21%nat);
    ([117;114;110;58;101;112;99;58;105;100;58;115;103;99;110;58;54;1635;46;46;57;120], false, Some 21%nat);
    ([117;114;110;58;101;112;99;58;105;100;58;115;103;99;110;58;55;47;48;55;50;46;46;54;55;48], false, None);
    ([117;114;110;58;101;112;99;58;105;100;58;115;103;99;110;58;55;48;55;50;46;46;54;35;55;48], false, Some 23%nat);
    ([117;114;110;58;101;112;99;58;105;100;58;115;103;99;110;58;55;48;55;50;46;46;54;55;48], true, Some 25%nat);
    ([117;114;110;58;101;112;99;58;105;100;58;115;103;99;110;58;57;48;50;55;46;53;50;46;53;57;52;57], true, Some 28%nat);
    ([117;114;110;58;101;112;99;58;105;100;58;115;103;99;110;58;57;48;50;55;46;53;50;46;53;57;62;57], false, Some 26%nat);
    ([117;114;110;58;101;112;99;58;105;100;58;115;103;99;110;58;95;51;51;51;46;46;57;49;48;51], false, None);
    ([117;114;110;58;112;99;58;105;100;58;115;103;99;110;58;55;55;50;46;46;54;55;48], false, None)]);
  (T_GINC_URI_BODY,
   [([], false, None);
    ([49;46;37;51;33], true, Some 5%nat);
    ([49;46;37;68], true, Some 4%nat);
    ([49;56;49;46;37;66], true, Some 6%nat);
    ([49;67;46;37;68], false, None);
    ([49;95;37;68], false, None);
    ([50;52;57;55;46], false, None);
    ([50;52;57;55;46;37;66;60], false, Some 7%nat);
    ([50;52;57;55;46;37;66;95], true, Some 8%nat);
    ([50;52;57;55;46;37;66;102], true, Some 8%nat);
    ([53;61;49;56;49;46;37;66], false, None);
    ([54;49;56;49;46;37], false, None);
    ([54;49;56;49;46;37;66], true, Some 7%nat);
    ([56;55;46;59;37;66], true, Some 6%nat);
    ([56;55;46;59;67;37;66], true, Some 7%nat);
    ([56;55;51;59;42;66], false, None);
    ([56;55;63;46;59;37;66], false, None);
    ([57;48;53;46;81;95], true, Some 6%nat);
    ([57;48;53;46;81;95;38], false, Some 6%nat);
    ([57;48;53;47;81;95], false, None);
    ([57;48;53;122;46;81], false, None)]);
  (T_GINC_URI,
   [([], false, None);
    ([117;56;110;58;101;112;99;58;105;100;58;103;105;110;47;58;51;46;71], false, None);
    ([117;114;10;58;101;112;99;58;105;100;58;103;105;110;99;58;53;51;51;46;95], false, None);
    ([117;114;110;58;51;112;99;58;105;100;58;103;105;110;99;58;52;46;75;39], false, None);
    ([117;114;110;58;101;99;58;105;100;58;103;105;110;99;58;53;51;51;46;95], false, None);
    ([117;114;110;58;101;112;33;58;105;100;58;103;105;110;99;58;57;46;59;37;99;37;102;37;67], false, None);
    ([117;114;110;58;101;112;99;38;105;100;58;103;105;110;99;58;57;46;59;37;99;37;102;37;67], false, None);
    ([117;114;110;58;101;112;99;58;38;105;100;58;103;105;110;99;58;51;46;71], false, None);
    ([117;114;110;58;101;112;99;58;105;37;58;103;105;110;99;58;53;46;37;99;43;37;53;51;107], false, None);
    ([117;114;110;58;101;112;99;58;105;58;103;105;110;99;58;53;46;51;46;95], false, None);
    ([117;114;110;58;101;112;99;58;105;65;100;58;122;105;110;99;58;52;46;75;39], false, None);
    ([117;114;110;58;101;112;99;58;105;100;58;103;105], false, None);
    ([117;114;110;58;101;112;99;58;105;100;58;103;105;99;58;57;46;59;37;99;37;102;37;67], false, None);
    ([117;114;110;58;101;112;99;58;105;100;58;103;105;110;99;58;46;75;39], false, None);
    ([117;114;110;58;101;112;99;58;105;100;58;103;105;110;99;58;51;46;71], true, Some 19%nat);
    ([117;114;110;58;101;112;99;58;105;100;58;103;105;110;99;58;52;46;75;39], true, Some 20%nat);
    ([117;114;110;58;101;112;99;58;105;100;58;103;105;110;99;58;53;46;37;99;43;37;51], true, Some 23%nat);
    ([117;114;110;58;101;112;99;58;105;100;58;103;105;110;99;58;53;46;37;99;43;37;51;107], true, Some 24%nat);
    ([117;114;110;58;101;112;99;58;105;100;58;103;105;110;99;58;53;46;37;99;43;51;107], true, Some 23%nat);
    ([117;114;110;58;101;112;99;58;105;100;58;103;105;110;99;58;53;51;51;46;95], true, Some 21%nat);
    ([117;114;110;58;101;112;99;58;105;100;58;103;105;110;99;58;57;46;59;37;99;37;102;37;67], true, Some 25%nat)]);
  (T_GSIN_URI_BODY,
   [([], false, None);
    ([48;46;52;57;51], true, Some 5%nat);
    ([48;46;54;54;55], true, Some 5%nat);
    ([48;46;57;51], true, Some 4%nat);
    ([48;46;57;54;54;55], true, Some 6%nat);
    ([48;46;57;54;55], true, Some 5%nat);
    ([48;46;57;62], false, Some 3%nat);
    ([48;46;58;51], false, None);
    ([50;55;46;35;56;50;49], false, None);
    ([50;55;46;65305;56;50;49], true, Some 7%nat);
    ([50;55;65;65305;56;50;49], false, None);
    ([50;55;65305;56;50;49], false, None);
    ([53;46;49;52;54], true, Some 5%nat);
    ([53;46;56;52;54], true, Some 5%nat);
    ([53;53;46;56;52;54], true, Some 6%nat);
    ([54;48;50;46;54], true, Some 5%nat);
    ([54;48;57;50;46], false, None);
    ([54;48;57;50;46;54], true, Some 6%nat);
    ([63;46;56;52;54], false, None)]);
  (T_GSIN_URI,
   [([], false, None);
    ([117], false, None);
    ([117;110;58;101;112;99;58;105;100;58;103;115;105;110;1635;55;46;52;52;50], false, None);
    ([117;114;10;110;58;101;112;99;58;105;100;58;103;115;105;110;58;57;56;46;53;52;56], false, None);
    ([117;114;35;58;101;112;99;58;105;100;58;103;115;105;110;58;57;57;56;55;46;54;57], false, None);
    ([117;114;110;58;101;65;112;99;58;105;100;58;103;115;105;110;58;57;56;46;53;52;56], false, None);
    ([117;114;110;58;101;112;53;58;105;100;58;103;115;105;110;58;57;57;56;55;46;54;57], false, None);
    ([117;114;110;58;101;112;67;99], false, None);
    ([117;114;110;58;101;112;99;58;105;51;58;103;115;105;110;58;48;50;46;46;52;50], false, None);
    ([117;114;110;58;101;112;99;58;105;100;58;56;115;105;110;58;57;48;46;54;53], false, None);
    ([117;114;110;58;101;112;99;58;105;100;58;103;115;53;105;110;58;48;50;46;52;50], false, None);
    ([117;114;110;58;101;112;99;58;105;100;58;103;115;105;58;57;57;56;55;46;54;57], false, None);
    ([117;114;110;58;101;112;99;58;105;100;58;103;115;105;110;48;50;46;52;50], false, None);
    ([117;114;110;58;101;112;99;58;105;100;58;103;115;105;110;58;48;50;46;52;50], true, Some 21%nat);
    ([117;114;110;58;101;112;99;58;105;100;58;103;115;105;110;58;57;48;46;54;53], true, Some 21%nat);
    ([117;114;110;58;101;112;99;58;105;100;58;103;115;105;110;58;57;56;46;53;52;56], true, Some 22%nat);
    ([117;114;110;58;101;112;99;58;105;100;58;103;115;105;110;58;57;57;56;55;46;54;57], true, Some 23%nat);
    ([117;114;110;58;101;112;99;58;105;100;58;103;115;105;110;58;1635;55;46;52;52;50], true, Some 22%nat);
    ([117;114;110;58;101;112;99;58;105;100;58;103;115;105;110;58;65305;48;46;54;53], true, Some 21%nat);
    ([117;114;110;58;101;112;99;58;105;100;102;58;103;178;115;105;110;58;1635;55;46;52;52;50], false, None);
    ([117;114;110;58;101;112;99;65305;105;100;58;103;115;105;110;58;57;48;46;54;53], false, None)]);
  (T_ITIP_URI_BODY,
   [([], false, None);
    ([50;53;56;54;46;56;46;51;1635;46;51;65305;49;49;46;37;50], true, Some 17%nat);
    ([50;53;56;54;46;56;46;51;1635;46;51;65305;49;49;46;37;68], true, Some 17%nat);
    ([50;53;56;54;46;56;46;51;1635;46;51;65305;49;49;50;46;37;57], true, Some 18%nat);
    ([53;56;54;46;56;46;51;1635;46;51;65305;49;49;46;37;68], true, Some 16%nat);
    ([54;46;54;1635;52;52;46;57;48;46;57;46;42;43], true, Some 14%nat);
    ([54;46;55;1635;52;52;46;57;48;46;57;46;42;43], true, Some 14%nat);
    ([54;46;55;1635;52;52;46;57;48;46;57;46;42;43;120], true, Some 15%nat);
    ([54;46;55;1635;52;52;46;57;48;46;57;46;43], true, Some 13%nat);
    ([54;48;46;50;46;54;52;46;55;48;1635;53;46;41;42], true, Some 15%nat);
    ([54;48;46;50;46;54;52;56;46;55;48;1635;53;46;41;42], true, Some 16%nat);
    ([54;48;46;50;46;57;52;56;46;55;48;1635;53;46;41;42], true, Some 16%nat);
    ([54;48;121;50;46;54;52;56;46;56;55;48;1635;53;46;41;42], false, None);
    ([55;46;46;52;46;53;46;1635;49;46;59;40;37;68;37;67], false, None);
    ([55;48;46;56;46;50;54;53;46;48;55;46;44], true, Some 13%nat);
    ([55;48;46;56;46;54;53;46;48;55;46;43], true, Some 12%nat);
    ([55;48;46;56;46;54;95;53;46;48;55;46;43], false, None);
    ([55;48;46;56;120;46;54;53;46;48;55;121;46;43], false, None);
    ([55;1635;46;52;46;53;46;1635;49;46;59;40;37;68;37;67], true, Some 16%nat);
    ([55;1635;46;52;46;53;46;1635;49;46;59;40;37;68;37;67;102], true, Some 17%nat);
    ([55;1635;46;52;46;65305;53;46;1635;49;46;59;40;37;68;37;67], true, Some 17%nat)]);
  (T_ITIP_URI,
   [([], false, None);
    ([117;114;110;58;101;112;99;58;105;100;58;105;35;105;112;58;1635;1635;54;46;50;54;49;54;46;54;46;57;48;46;37;99;95], false, None);
    ([117;114;110;58;101;112;99;58;105;100;58;105;116;105;112;58;34;53;1635;54;46;50;54;49;54;46;54;46;57;48;46;37;99;95], false, None);
    ([117;114;110;58;101;112;99;58;105;100;58;105;116;105;112;58;52;57;46;56;50;56;50;46;55;52;1635;46;51;51;46;37;101;37;50;37;67], true, Some 37%nat);
    ([117;114;110;58;101;112;99;58;105;100;58;105;116;105;112;58;53;54;56;46;53;46;56;65305;56;46;57;46;37;69;44], true, Some 31%nat);
    ([117;114;110;58;101;112;99;58;105;100;58;105;116;105;112;58;53;54;56;46;53;46;56;65305;56;46;57;46;37;69;66], true, Some 31%nat);
    ([117;114;110;58;101;112;99;58;105;100;58;105;116;105;112;58;53;54;56;46;53;46;65305;56;46;57;46;37;69;44], true, Some 30%nat);
    ([117;114;110;58;101;112;99;58;105;100;58;105;116;105;112;58;53;1635;54;46;50;54;49;54;46;46;54;56;46;57;48;46;37;99;95], false, None);
    ([117;114;110;58;101;112;99;58;105;100;58;105;116;105;112;58;53;1635;54;46;50;54;49;54;46;54;46;57;48;46;37;99;95], true, Some 33%nat);
    ([117;114;110;58;101;112;99;58;105;100;58;105;116;105;112;58;54;55;57;50;46;55;48;46;52;56;46;54;46;59], true, Some 30%nat);
    ([117;114;110;58;101;112;99;58;105;100;58;105;116;105;112;58;54;55;57;50;46;55;48;46;52;56;46;54;46;59;32], false, Some 30%nat);
    ([117;114;110;58;101;112;99;58;105;100;58;105;116;105;112;58;54;55;57;50;178;46;55;48;46;52;56;46;54;46;59], false, None);
    ([117;114;110;58;101;112;99;58;105;100;58;105;116;105;112;58;55;46;46;57;46;54;46;37;99;42;37;51], false, None);
    ([117;114;110;58;101;112;99;58;105;100;58;105;116;105;112;58;55;46;49;46;57;46;54;46;37;99;42;37;51], true, Some 29%nat);
    ([117;114;110;58;101;112;99;58;105;100;58;105;116;105;112;58;55;46;49;46;57;46;54;46;37;99;42;37;51;54], true, Some 30%nat);
    ([117;114;110;58;101;112;99;58;105;100;58;105;116;105;112;58;57;46;56;50;56;50;46;55;52;1635;46;51;51;46;37;101;37;50;37;67], true, Some 36%nat);
    ([117;114;110;58;101;112;99;58;105;100;58;65305;116;105;112;58;53;54;56;46;53;46;56;65305;56;46;57;46;37;69;44], false, None);
    ([117;114;110;58;101;112;99;120;58;105;100;58;105;116;105;112;58;57;56;50;56;50;46;55;52;1635;46;51;51;46;37;101;37;50;37;67], false, None);
    ([117;114;110;58;101;112;121;58;105;100;58;105;116;105;112;58;54;55;57;50;46;55;48;46;52;56;46;54;46;59], false, None);
    ([117;114;110;58;112;99;58;105;100;58;105;116;105;112;58;55;46;49;46;57;46;54;46;37;99;42;37;51], false, None);
    ([117;114;110;101;101;112;99;58;105;100;58;105;116;105;112;58;57;46;56;50;56;50;46;55;52;1635;51;51;46;37;101;37;50;37;67], false, None)]);
  (T_UPUI_URI_BODY,
   [([], false, None);
    ([40;52;48;53;65305;48;55;46;87;37;48], false, None);
    ([49;46;55;48;56;46;37;99;107], true, Some 9%nat);
    ([49;46;55;49;56;46;37], false, None);
    ([49;46;55;49;56;46;37;99;107], true, Some 9%nat);
    ([49;46;55;49;56;67;99;107], false, None);
    ([50;46;54;57;46;37;97;37], false, Some 7%nat);
    ([50;46;54;57;46;37;97;37;50], true, Some 9%nat);
    ([50;46;54;57;46;37;97;37;50;52;233], false, Some 10%nat);
    ([50;46;54;57;46;54;37;97;37;50], true, Some 10%nat);
    ([52;32;46;57;48;46;37;50;33;37;70], false, None);
    ([52;46;57;48;46;37;50;33;37;70], true, Some 10%nat);
    ([52;46;57;48;46;50;33;37;70], true, Some 9%nat);
    ([52;46;57;54;46;37;50;33;37;70], true, Some 10%nat);
    ([52;48;53;46;65305;48;46;87;37;48], true, Some 10%nat);
    ([52;48;53;46;65305;48;55;46;87;37;48], true, Some 11%nat);
    ([52;48;53;46;65305;48;55;46;87;37;48;48], true, Some 12%nat);
    ([53;55;46;56;46;46], true, Some 6%nat);
    ([55;46;56;46;45], true, Some 5%nat);
    ([55;46;56;46;46], true, Some 5%nat);
    ([55;46;56;46;53], true, Some 5%nat)]);
  (T_UPUI_URI,
   [([], false, None);
    ([102;117;114;110;58;101;112;99;58;105;100;58;117;112;117;105;58;57;52;52;52;46;57;46;37;68;61;49], false, None);
    ([117;102;114;110;58;101;112;99;58;105;100;58;117;112;117;105;58;51;46;55;46;37;49;37;57;58], false, None);
    ([117;114;110;40;101;112;99;58;105;100;58;117;112;117;105;58;52;46;55;46;40], false, None);
    ([117;114;110;58;62;112;99;58;105;100;58;117;112;117;105;58;51;46;55;46;37;49;37;57;58], false, None);
    ([117;114;110;58;101;112;99;58;101;100;58;117;112;117;105;58;52;46;55;46;40], false, None);
    ([117;114;110;58;101;112;99;58;105;100;58;117;49;117;105;58;52;46;55;46;40], false, None);
    ([117;114;110;58;101;112;99;58;105;100;58;117;112], false, None);
    ([117;114;110;58;101;112;99;58;105;100;58;117;112;58;105;58;57;52;52;52;46;57;46;37;68;61;49], false, None);
    ([117;114;110;58;101;112;99;58;105;100;58;117;112;117;58;49;46;46;37;48;41;40], false, None);
    ([117;114;110;58;101;112;99;58;105;100;58;117;112;117;105;58;49;46;46;37;48;41;40], true, Some 23%nat);
    ([117;114;110;58;101;112;99;58;105;100;58;117;112;117;105;58;51;46;33;55;46;37;49;37;57;58], false, None);
    ([117;114;110;58;101;112;99;58;105;100;58;117;112;117;105;58;51;46;55;46;37;49;37;57;58], true, Some 25%nat);
    ([117;114;110;58;101;112;99;58;105;100;58;117;112;117;105;58;52;46;55;46;40], true, Some 21%nat);
    ([117;114;110;58;101;112;99;58;105;100;58;117;112;117;105;58;57;52;52;52;46;57;46;37;68;61;49], true, Some 27%nat);
    ([117;114;110;58;101;112;99;58;105;100;58;117;112;117;105;58;65305;51;48;46;55;49;57;46;37;70;61;33;39], true, Some 29%nat);
    ([117;114;110;58;101;112;99;58;105;100;58;117;112;117;105;58;65305;51;48;46;55;49;57;46;37;70;61;45;39], true, Some 29%nat);
    ([117;114;110;58;101;112;99;58;105;100;58;117;112;117;105;58;65305;51;48;46;233;55;49;57;46;37;70;61;33;39], false, None);
    ([117;114;110;58;101;112;99;58;105;100;58;117;112;117;105;58;65305;51;48;52;46;55;49;57;46;37;70;61;33;39], true, Some 30%nat);
    ([117;114;110;67], false, None);
    ([117;233;110;58;101;112;99;58;105;100;58;117;112;117;105;58;49;46;46;37;48;41;40], false, None)]);
  (T_PGLN_URI_BODY,
   [([], false, None);
    ([33], false, None);
    ([44;52;1635;54;55;46;52;1635;48;54], false, None);
    ([46], false, None);
    ([47;52;46;38], false, None);
    ([48;46], true, Some 2%nat);
    ([48;54;55], false, None);
    ([48;54;55;46], true, Some 4%nat);
    ([48;55], false, None);
    ([48;101], false, None);
    ([51], false, None);
    ([51;52;46], true, Some 3%nat);
    ([51;101;53], false, None);
    ([52;38;53], false, None);
    ([52;46;53], true, Some 3%nat);
    ([52;1635;54;55;46;52;48;54], true, Some 8%nat);
    ([52;1635;102;54;55;46;52;48;54], false, None);
    ([62;54;55;46], false, None);
    ([120;52;59;53], false, None);
    ([1635;54;55;46;52;48;54], true, Some 7%nat)]);
  (T_PGLN_URI,
   [([], false, None);
    ([57;117;114;110;58;101;112;99;58;105;100;58;112;103;108;110;58;50;46;49], false, None);
    ([61;117;114;110;58;112;99;58;105;100;58;112;103;108;110;58;50;46;49], false, None);
    ([117;110;58;101;112;99;58;105;100;58;112;103;108;110;58;56;53;55;46;56], false, None);
    ([117;114;51;110;58;101;112;99;58;105;100;58;112;103;108;110;58;55;54;46;54], false, None);
    ([117;114;110;58;35;101;112;99;58;61;105;100;58;112;103;108;110;58;56;53;55;46;56], false, None);
    ([117;114;110;58;101;53;99;58;105;100;58;112;103;108;110;58;56;53;55;46;56], false, None);
    ([117;114;110;58;101;112;32;99;58;105;100;58;112;103;108;110;58;48;46;52;62], false, None);
    ([117;114;110;58;101;112;99;58;105;100;58;112;65;108;110;58;54;55;49;52;34;46;56], false, None);
    ([117;114;110;58;101;112;99;58;105;100;58;112;103;108;35;58;48;46;52], false, None);
    ([117;114;110;58;101;112;99;58;105;100;58;112;103;108;110;54;55;49;52;46;56], false, None);
    ([117;114;110;58;101;112;99;58;105;100;58;112;103;108;110;58;46;52], false, None);
    ([117;114;110;58;101;112;99;58;105;100;58;112;103;108;110;58;48;46;52], true, Some 19%nat);
    ([117;114;110;58;101;112;99;58;105;100;58;112;103;108;110;58;50;46;49], true, Some 19%nat);
    ([117;114;110;58;101;112;99;58;105;100;58;112;103;108;110;58;54;46;54], true, Some 19%nat);
    ([117;114;110;58;101;112;99;58;105;100;58;112;103;108;110;58;54;55;49;52;46;56], true, Some 22%nat);
    ([117;114;110;58;101;112;99;58;105;100;58;112;103;108;110;58;54;55;49;52;46;56;42], false, Some 22%nat);
    ([117;114;110;58;101;112;99;58;105;100;58;112;103;108;110;58;55;54;46;54], true, Some 20%nat);
    ([117;114;110;58;101;112;99;58;105;100;58;112;103;108;110;58;56;53;55;46;56], true, Some 21%nat);
    ([117;114;110;58;101;112;99;58;105;100;58;112;103;108;110;59;58;50;46;49], false, None);
    ([117;114;110;58;101;112;99;58;105;100;112;103;108;110;58;55;54;46;54], false, None)]);
  (T_GID_URI_BODY,
   [([], false, None);
    ([32;46;48;46;48], false, None);
    ([40;50;55;50;46;48;46;49], false, None);
    ([41;46;48;46;48], false, None);
    ([48;42;54;57;46;48], false, None);
    ([48;46;48;46;48], true, Some 5%nat);
    ([48;46;48;62;100], false, None);
    ([48;46;52], false, None);
    ([48;46;52;51;46;51;51;52;51], true, Some 9%nat);
    ([48;46;52;51;46;51;51;52;56], true, Some 9%nat);
    ([48;46;54;57;46;48], true, Some 6%nat);
    ([48;46;54;57;46;122;48], false, None);
    ([48;62;46;52;51;51;51;52;51], false, None);
    ([50;41;50;46;48;46;49], false, None);
    ([50;55;50;46;48;46;49], true, Some 7%nat);
    ([53;55;50;46;48;46;49], true, Some 7%nat);
    ([55;48;46;48;46;33;48], false, None);
    ([55;48;46;48;46;48], true, Some 6%nat);
    ([55;48;46;48;233;46], false, None);
    ([55;48;48;46;48], false, None);
    ([62;46;54;57;46;48], false, None)]);
  (T_GID_URI,
   [([], false, None);
    ([37;117;114;110;58;101;112;99;58;105;100;58;103;105;100;58;52;48;56;46;48;46;48], false, None);
    ([117;37;110;58;101;112;99;58;105;100;58;103;105;100;58;48;46;48;46;56;49;57], false, None);
    ([117;114;32;101;112;99;58;105;100;58;103;105;100;58;48;46;54;57;1635;46;48], false, None);
    ([117;114;58;101;112;99;58;105;100;58;103;105;100;58;48;46;37;57;1635;46;48], false, None);
    ([117;114;58;101;112;99;58;105;100;58;103;105;100;58;56;51;48;54;46;53;46;48], false, None);
    ([117;114;110;58;101;102;99;58;105;100;58;103;105;67;100;58;48;46;49;46;57], false, None);
    ([117;114;110;58;101;112;99;58;105;100;55;103;105;100;58;48;101;46;54;57;1635;46;48], false, None);
    ([117;114;110;58;101;112;99;58;105;100;58;103;105;100;58;48;46;10;46;57], false, None);
    ([117;114;110;58;101;112;99;58;105;100;58;103;105;100;58;48;46;48;46;56;49;57], true, Some 22%nat);
    ([117;114;110;58;101;112;99;58;105;100;58;103;105;100;58;48;46;48;46;66;49;57], false, None);
    ([117;114;110;58;101;112;99;58;105;100;58;103;105;100;58;48;46;49;46;57], true, Some 20%nat);
    ([117;114;110;58;101;112;99;58;105;100;58;103;105;100;58;48;46;54;57;1635;46;48], true, Some 22%nat);
    ([117;114;110;58;101;112;99;58;105;100;58;103;105;100;58;48;48;46;56;49;65;57], false, None);
    ([117;114;110;58;101;112;99;58;105;100;58;103;105;100;58;52;48;56;46;48;46;48], true, Some 22%nat);
    ([117;114;110;58;101;112;99;58;105;100;58;103;105;100;58;52;48;56;46;48;60;48], false, None);
    ([117;114;110;58;101;112;99;58;105;100;58;103;105;100;58;52;122;48;56;46;48;46;48], false, None);
    ([117;114;110;58;101;112;99;58;105;100;58;103;105;100;58;56;51;48;54;46;53;32;48], false, None);
    ([117;114;110;58;101;112;99;58;105;100;58;103;105;100;58;56;51;48;54;46;53;46;48], true, Some 23%nat);
    ([117;114;110;58;101;112;99;60;105;100;58;103;105;100;58;48;46;49;46;57], false, None);
    ([117;114;1635;58;101;112;99;58;105;100;58;103;105;100;58;56;51;48;54;46;53;46;48], false, None)]);
  (T_CAGE_CODE_OR_DODAAC,
   [([], false, None);
    ([63;76;66;49;74;51], false, None);
    ([65;67;76;77;60;84;68], false, None);
    ([65;67;76;77;84;68], true, Some 6%nat);
    ([65;65305;67;76;77;84;68], false, None);
    ([75;80;35;74;78;48], false, None);
    ([75;80;51;74;78;48], true, Some 6%nat);
    ([75;80;51;74;100;48], false, None);
    ([76;78;57;55;50;86;51], false, Some 6%nat);
    ([76;78;57;55;86;51], true, Some 6%nat);
    ([76;78;57;55;101;51], false, None);
    ([76;122;57;86;51], false, None);
    ([77;83;69;86], false, None);
    ([77;83;69;86;62;72], false, None);
    ([77;83;69;86;67;72], true, Some 6%nat);
    ([77;83;69;86;67;72;67], false, Some 6%nat);
    ([83;76;66;49;74;51], true, Some 6%nat);
    ([83;76;66;102;74;61], false, None);
    ([83;76;66;178;74;51], false, None);
    ([100;65;67;76;77;84;68], false, None)]);
  (T_USDOD_URI_BODY,
   [([], false, None);
    ([32;72;48;85;55;86;75;46;48], false, None);
    ([51;56;37;68;67;80;46;53;52;51], false, None);
    ([51;56;72;68;67;80;46;53;52;51], true, Some 10%nat);
    ([51;56;72;68;67;80;46;53;52;51;33], false, Some 10%nat);
    ([56;75;87;87;46;57], false, None);
    ([56;75;87;89;87;46;57], true, Some 7%nat);
    ([56;75;89;87;46;57], false, None);
    ([56;89;87;46;57], false, None);
    ([61;74], false, None);
    ([67;56;72;68;67;80;46;53;52;51;40], false, Some 10%nat);
    ([74;10;65;70;82;90;46;48], false, None);
    ([77;72;48;85;86;75;46;48], true, Some 8%nat);
    ([77;72;48;85;86;75;66;46;48], false, None);
    ([77;72;59;85;86;75;46;48], false, None);
    ([78;74;65;70;82;90;46;48], true, Some 8%nat);
    ([78;74;70;67;90;46;48], true, Some 7%nat);
    ([89;57;178;55;55;49;46;54;1635], false, None);
    ([89;69;88;42;55;55;100;46;54;1635], false, None);
    ([89;69;88;55;55], false, None);
    ([89;69;88;55;55;49;46;54;1635], true, Some 9%nat)]);
  (T_USDOD_URI,
   [([], false, None);
    ([114;110;58;101;112;99;58;105;100;58;117;115;100;111;100;58;89;70;83;75;57;76;46;51;55;49;34], false, None);
    ([117;49;110;58;101;112;99;58;105;100;58;117;115;100;111;100;58;54;74;50;50;83;55;46;50;56;57;53], false, None);
    ([117;114;110;58;57;101;112;99;58;105;100;58;117;115;100;111;100;58;87;76;53;77;53;77;46;54;51], false, None);
    ([117;114;110;58;100;112;99;58;105;100;58;117;115;100;111;100;58;75;74;85;86;77;72;46;48], false, None);
    ([117;114;110;58;101;112;45;58;105;100;58;117;115;100;111;100;58;87;76;53;77;53;102;46;54;51], false, None);
    ([117;114;110;58;101;112;99;58;105;100;47;117;115;100;111;100;58;87;76;53;77;53;77;46;54;51], false, None);
    ([117;114;110;58;101;112;99;58;105;100;58;117;115;100;111;100;58;54;74;50;46;50;83;55;46;50;56;57;53], false, None);
    ([117;114;110;58;101;112;99;58;105;100;58;117;115;100;111;100;58;54;74;50;50;83;55;46;50;56;57;53], true, Some 28%nat);
    ([117;114;110;58;101;112;99;58;105;100;58;117;115;100;111;100;58;57;77;65;72;71;46], false, None);
    ([117;114;110;58;101;112;99;58;105;100;58;117;115;100;111;100;58;57;77;65;72;71;46;48], true, Some 24%nat);
    ([117;114;110;58;101;112;99;58;105;100;58;117;115;100;111;100;58;57;77;65;72;71;48], false, None);
    ([117;114;110;58;101;112;99;58;105;100;58;117;115;100;111;100;58;61;75;74;85;86;77;72;46;48], false, None);
    ([117;114;110;58;101;112;99;58;105;100;58;117;115;100;111;100;58;75;74;85;86;77;72;46;48], true, Some 25%nat);
    ([117;114;110;58;101;112;99;58;105;100;58;117;115;100;111;100;58;75;74;86;77;72;46;48], true, Some 24%nat);
    ([117;114;110;58;101;112;99;58;105;100;58;117;115;100;111;100;58;87;76;53;77;53;77;46;54;51], true, Some 26%nat);
    ([117;114;110;58;101;112;99;58;105;100;58;117;115;100;111;100;58;89;70;83;75;57;76;46;51;55;49], true, Some 27%nat);
    ([117;114;110;58;101;112;99;58;105;100;58;117;115;100;111;100;58;89;70;83;75;57;76;46;53;55;49], true, Some 27%nat);
    ([117;114;110;58;101;112;99;58;105;100;58;121;117;115;100;111;100;58;57;77;65;72;71;46;48], false, None);
    ([117;114;110;58;112;99;58;105;100;58;117;115;100;111;100;58;89;70;83;75;57;76;46;51;55;49], false, None);
    ([117;114;110;101;112;99;58;105;100;58;117;115;100;111;100;58;54;74;50;50;83;55;46;50;56;57;53], false, None)]);
  (T_ADI_CHAR,
   [([], false, None);
    ([37], false, None);
    ([37;40;50;70], false, None);
    ([37;50], false, None);
    ([37;50;10;53;70], false, None);
    ([37;50;56;70], false, None);
    ([37;50;70], true, Some 3%nat);
    ([38;37;50;70], false, None);
    ([38;52], false, None);
    ([45], true, Some 1%nat);
    ([45;50;70], false, Some 1%nat);
    ([52], true, Some 1%nat);
    ([60;120;85], false, None);
    ([62], false, None);
    ([65], true, Some 1%nat);
    ([67;45], false, Some 1%nat);
    ([85], true, Some 1%nat);
    ([233], false, None);
    ([65305], false, None)]);
  (T_ADI_URI_BODY,
   [([], false, None);
    ([48;71;68;51;75;55;46;37;50;70;37;50;70;46;37;50;45], false, None);
    ([48;71;68;51;75;55;46;37;50;70;37;50;70;46;37;50;51;45], true, Some 18%nat);
    ([48;71;68;51;75;55;46;37;50;70;37;50;70;46;37;50;51;45;42], false, Some 18%nat);
    ([48;71;68;51;75;55;46;37;50;70;53;50;70;46;37;50;51;45], true, Some 18%nat);
    ([54;51;51;35;52;51;46;48;37;50;70;53;46;37;50;51;37;50;70;37;50;70;83], false, None);
    ([54;51;51;51;52;51;46], false, None);
    ([54;51;51;51;52;51;46;48;37;50;70;53;46;37;50;51;37;50;70;37;50;70;83], true, Some 23%nat);
    ([54;51;51;51;52;51;46;48;37;50;70;53;120;46;37;50;51;37;50;70;37;50;70;83], false, None);
    ([72;76;89;70;53;46;46;37;50;51;37;50;70;37;50;70], true, Some 16%nat);
    ([72;76;89;70;53;72;46], false, None);
    ([72;76;89;70;53;72;46;46;37;50;51;37;50;70;37;50;70], true, Some 17%nat);
    ([72;76;89;70;53;72;65;46;37;50;51;37;50;70;37;50;70], false, None);
    ([74;88;83;54;85;46;45;37;50;70;45;46;37;50;51;33;45;37;50;70], false, None);
    ([74;88;83;54;85;46;45;37;50;70;45;46;37;50;51;50;45;37;50;70], true, Some 20%nat);
    ([74;88;83;54;85;46;45;37;70;45;46;37;50;51;50;45;37;50;70;62], false, None);
    ([74;88;83;101;85;46;45;37;50;70;45;46;37;50;51;50;45;37;50;70], false, None);
    ([81;78;71;74;48;89;46;37;50;70;53;46;37;50;51;37;50;70;55], true, Some 19%nat);
    ([81;78;71;74;48;89;46;37;50;70;53;46;37;50;51;37;50;70;61], false, Some 18%nat);
    ([81;78;71;74;48;89;46;37;50;70;53;46;37;50;51;37;50;70;70], true, Some 19%nat);
    ([81;78;71;74;48;89;46;37;50;70;53;46;37;51;37;50;70;70], false, None)]);
  (T_ADI_URI,
   [([], false, None);
    ([117;114;44;58;101;112;99;58;105;100;58;97;100;105;58;82;66;86;65;65;49;46;72;46;37;50;51;37;50;70;45], false, None);
    ([117;114;110;58;101;112;41;58;105;100;58;97;100;105;58;72;51;81;71;56;76;46;53;46;37;50;51;37;50;70;67], false, None);
    ([117;114;110;58;101;112;95;58;105;100;58;97;100;105;58;84;56;83;67;77;74;46;37;50;70;45;49;46;37;50;51;56], false, None);
    ([117;114;110;58;101;112;99;58;105;100;58;97;100;37;105;58;86;65;76;55;78;46;45;46;50;51;37;50;70;37;50;70;37;50;70], false, None);
    ([117;114;110;58;101;112;99;58;105;100;58;97;100;105;38;82;66;86;65;65;49;46;72;46;37;50;51;37;50;70;45], false, None);
    ([117;114;110;58;101;112;99;58;105;100;58;97;100;105;58;67;54;51;50;53;46;46;37;50;51;37;50;70;56], true, Some 29%nat);
    ([117;114;110;58;101;112;99;58;105;100;58;97;100;105;58;67;74;54;51;50;53;34;46;46;37;50;51;37;50;70;56], false, None);
    ([117;114;110;58;101;112;99;58;105;100;58;97;100;105;58;67;74;54;51;50;53;46;46;37;50;51;37;50;70;56], true, Some 30%nat);
    ([117;114;110;58;101;112;99;58;105;100;58;97;100;105;58;72;51;81;71;56;76;46;53;46;37;50;51;37;50;70;67], true, Some 31%nat);
    ([117;114;110;58;101;112;99;58;105;100;58;97;100;105;58;72;51;81;71;56;76;53;46;37;50;51;37;50;70;67], false, None);
    ([117;114;110;58;101;112;99;58;105;100;58;97;100;105;58;82;66;86;65;65;49;46;72;46;37;50;37;50;70;45], false, None);
    ([117;114;110;58;101;112;99;58;105;100;58;97;100;105;58;82;66;86;65;65;49;46;72;46;37;50;51;37;50;70;45], true, Some 31%nat);
    ([117;114;110;58;101;112;99;58;105;100;58;97;100;105;58;84;56;83;67;77;74;46;37;50;70;45;49;41;46;37;50;51;56], false, None);
    ([117;114;110;58;101;112;99;58;105;100;58;97;100;105;58;84;56;83;67;77;74;46;37;50;70;45;49;46;37;50;51;56], true, Some 32%nat);
    ([117;114;110;58;101;112;99;58;105;100;58;97;100;105;58;86;65;76;55;78;46;45;46;37;50;51;37;50;70;37;50;70;37;50;70], true, Some 35%nat);
    ([117;114;110;58;101;112;99;58;105;100;58;97;100;105;58;86;65;76;55;78;46;45;46;37;50;51;37;50;70;37;66;50;70;37;50;70], false, Some 29%nat);
    ([117;114;110;58;101;112;99;58;105;100;58;97;100;105;58;86;65;76;55;78;46;45;65;46;37;50;51;37;50;70;37;50;70;37;50;70], true, Some 36%nat);
    ([117;114;110;58;101;112;99;58;105;100;97;100;105;58;67;74;54;51;50;53;46;46;37;50;51;37;50;70;56], false, None);
    ([117;114;110;58;101;112;99;58;105;100;97;100;105;58;84;56;83;67;77;74;46;37;50;70;45;49;46;37;50;51;56], false, None);
    ([117;114;110;1635;101;112;99;58;105;100;58;97;100;105;58;72;51;81;71;56;76;46;53;46;37;50;51;37;50;70;67;38], false, None)]);
  (T_BIC_URI_BODY,
   [([], false, None);
    ([67;76;68;85;54;51;53;49;55;57;48], true, Some 11%nat);
    ([67;76;68;85;54;51;53;49;55;57;50], true, Some 11%nat);
    ([67;76;68;85;54;51;53;49;55;65305;48], false, None);
    ([67;76;68;85;54;55;51;49;55;57;48], true, Some 11%nat);
    ([74;68;72;90;48;56;56;49;51;52;53], true, Some 11%nat);
    ([74;68;72;90;48;56;56;49;51;52;53;67], false, Some 11%nat);
    ([74;68;72;90;48;56;56;49;52;53], false, None);
    ([74;68;72;102;48;56;40;49;51;52;53], false, None);
    ([74;76;74;57;52;57;49;56;50;49], false, None);
    ([74;76;83;74;57;52;57;49;56;50;49], true, Some 11%nat);
    ([74;76;83;74;57;52;57;101;49;56;50;49], false, None);
    ([84;85;80;85;54;51;53;49;55;53], false, None);
    ([84;85;80;85;54;54;51;50;49;55;53], true, Some 11%nat);
    ([84;85;80;85;54;54;51;53;49;55;53], true, Some 11%nat);
    ([84;85;80;85;54;54;51;53;49;55;53;38], false, Some 11%nat);
    ([87;58;71;85;57;56;50;52;49;55;48], false, None);
    ([87;74;71;85;57;56;34;52;49;55;48], false, None);
    ([87;74;71;85;57;56;50;52;49;55;48], true, Some 11%nat);
    ([87;74;85;57;95;50;52;49;55;48], false, None);
    ([101;76;83;74;57;52;57;49;56;50;49], false, None)]);
  (T_BIC_URI,
   [([], false, None);
    ([117;114;110;58;101;112;46;99;58;105;100;58;98;105;99;58;74;76;78;90;52;50;50;49;55;54;49], false, None);
    ([117;114;110;58;101;112;99;35;58;105;100;58;98;105;99;58;67;76;66;74;50;52;49;55;56;48;34], false, None);
    ([117;114;110;58;101;112;99;38;105;100;58;98;105;99;58;89;72;85;90;55;56;48;49;57;52;50], false, None);
    ([117;114;110;58;101;112;99;58;105;65;58;98;105;99;58;72;70;80;74;54;55;51;49;50;56;57], false, None);
    ([117;114;110;58;101;112;99;58;105;100;47;58;98;105;99;58;72;70;80;74;54;55;51;49;50;56;57], false, None);
    ([117;114;110;58;101;112;99;58;105;100;58;98;105;99;58;67;76;66;74;50;52;49;55;56;48;51], true, Some 26%nat);
    ([117;114;110;58;101;112;99;58;105;100;58;98;105;99;58;67;76;66;74;50;52;59;55;56;48;51], false, None);
    ([117;114;110;58;101;112;99;58;105;100;58;98;105;99;58;72;70;80;74;54;55;51;49;32;50;56;57], false, None);
    ([117;114;110;58;101;112;99;58;105;100;58;98;105;99;58;72;70;80;74;54;55;51;49;50;56;57], true, Some 26%nat);
    ([117;114;110;58;101;112;99;58;105;100;58;98;105;99;58;74;76;78;90;52;50;50;49;55;54;49], true, Some 26%nat);
    ([117;114;110;58;101;112;99;58;105;100;58;98;105;99;58;74;76;78;90;52;122;50;49;55;54;49], false, None);
    ([117;114;110;58;101;112;99;58;105;100;58;98;105;99;58;74;78;90;52;50;50;49;55;54;49], false, None);
    ([117;114;110;58;101;112;99;58;105;100;58;98;105;99;58;77;68;68;85;56;48;54;50;55;50], false, None);
    ([117;114;110;58;101;112;99;58;105;100;58;98;105;99;58;77;68;68;85;56;48;54;50;55;50;54], true, Some 26%nat);
    ([117;114;110;58;101;112;99;58;105;100;58;98;105;99;58;77;68;85;56;48;54;50;55;50;54], false, None);
    ([117;114;110;58;101;112;99;58;105;100;58;98;105;99;58;89;72;85;90;55;56;48;49;57;52;50], true, Some 26%nat);
    ([117;114;110;58;101;112;99;58;105;100;58;98;105;99;58;89;72;85;90;55;56;48;49;57;52;50;66], false, Some 26%nat);
    ([117;114;110;58;101;112;99;58;105;100;58;98;105;99;58;89;72;85;90;55;56;48;60;49;57;52;50], false, None);
    ([117;114;110;58;101;112;233;99;58;105;100;58;98;105;99;58;77;68;68;85;56;48;54;50;55;50;54], false, None);
    ([117;114;110;58;102;101;112;99;58;105;100;58;98;105;102;99;58;67;76;66;74;50;52;49;55;56;48;51], false, None)]);
  (T_IMOVN_URI_BODY,
   [([], false, None);
    ([51;53;53;54;45;51;54;57], false, None);
    ([51;53;53;54;51;54;57], true, Some 7%nat);
    ([51;53;53;54;51;54;121;57], false, None);
    ([51;53;53;54;95;51;54;35;57], false, None);
    ([53;50;49;48;52;34;49;49], false, None);
    ([53;50;49;48;52;49;49], true, Some 7%nat);
    ([53;50;49;48;52;101;49], false, None);
    ([55], false, None);
    ([55;49;51;48;56;51;57], true, Some 7%nat);
    ([55;49;51;56;51;57], false, None);
    ([56;48;51;51;52;49], false, None);
    ([56;48;51;51;52;49;55], true, Some 7%nat);
    ([56;48;51;51;52;54;55], true, Some 7%nat);
    ([56;48;60;51;52;49;55], false, None);
    ([56;49;54;48;55;50], false, None);
    ([56;49;54;48;55;51;50], true, Some 7%nat);
    ([56;49;54;1635;55;51;50], false, None);
    ([102;56;49;54;48;55;51;50], false, None)]);
  (T_IMOVN_URI,
   [([], false, None);
    ([117;114;110;58;101;112;58;105;100;58;105;109;111;118;110;58;52;55;57;53;57;56;52], false, None);
    ([117;114;110;58;101;112;58;105;100;58;105;109;111;118;110;65305;58;50;56;49;50;52;54;50], false, None);
    ([117;114;110;58;101;112;99;58;100;58;105;109;111;118;110;58;51;51;55;54;49;55;51], false, None);
    ([117;114;110;58;101;112;99;58;105;58;100;58;105;109;111;118;110;58;52;55;57;53;57;56;52], false, None);
    ([117;114;110;58;101;112;99;58;105;100;58;40;105;109;111;118;110;58;55;52;56;49;53;53;53], false, None);
    ([117;114;110;58;101;112;99;58;105;100;58;105;109;111], false, None);
    ([117;114;110;58;101;112;99;58;105;100;58;105;109;111;118;53;58;54;48;52;49;49;52;54], false, None);
    ([117;114;110;58;101;112;99;58;105;100;58;105;109;111;118;110;37;54;48;52;49;49;52;54], false, None);
    ([117;114;110;58;101;112;99;58;105;100;58;105;109;111;118;110;58;42;54;48;52;49;49;52;54], false, None);
    ([117;114;110;58;101;112;99;58;105;100;58;105;109;111;118;110;58;50;56;49;50;52;54;50], true, Some 24%nat);
    ([117;114;110;58;101;112;99;58;105;100;58;105;109;111;118;110;58;51;51;54;49;55;51], false, None);
    ([117;114;110;58;101;112;99;58;105;100;58;105;109;111;118;110;58;51;51;55;54;49;55;51], true, Some 24%nat);
    ([117;114;110;58;101;112;99;58;105;100;58;105;109;111;118;110;58;52;55;57;53;57;56;52], true, Some 24%nat);
    ([117;114;110;58;101;112;99;58;105;100;58;105;109;111;118;110;58;52;55;57;53;57;56;52;122], false, Some 24%nat);
    ([117;114;110;58;101;112;99;58;105;100;58;105;109;111;118;110;58;54;48;52;49;49;52;54], true, Some 24%nat);
    ([117;114;110;58;101;112;99;58;105;100;58;105;109;111;118;110;58;55;52;49;53;53;53;35], false, None);
    ([117;114;110;58;101;112;99;58;105;100;58;105;109;111;118;110;58;55;52;56;49;53;53;53], true, Some 24%nat);
    ([117;114;110;58;101;112;99;58;105;100;58;105;109;118;110;58;50;56;49;50;52;59;50], false, None)]);
  (T_LGTIN_CLASS,
   [([], false, None);
    ([117;110;58;101;112;51;99;58;99;108;97;115;115;58;108;103;116;105;110;58;65305;55;46;56;57;46;87;37;51;37;50], false, None);
    ([117;114;58;101;99;58;99;108;97;115;115;58;108;103;116;105;110;58;52;46;49;46;59], false, None);
    ([117;114;58;101;112;99;58;99;108;97;115;115;58;108;103;116;105;110;58;55;53;56;51;46;55;1635;46;43;37;98;39;41], false, None);
    ([117;114;110;34;58;101;112;99;58;99;108;97;115;115;58;108;103;116;105;110;58;55;53;56;51;46;55;1635;46;43;37;98;39;41;61], false, None);
    ([117;114;110;37;58;101;112;58;99;108;97;115;115;58;108;103;116;105;110;58;57;49;57;46;51;46;37;98;42], false, None);
    ([117;114;110;58;101;112;58;99;108;97;115;115;58;108;103;116;105;110;58;53;50;50;57;46;53;50;53;46;37;69;37;99;42;39], false, None);
    ([117;114;110;58;101;112;99;58;99;61;97;115;115;58;108;103;116;105;110;58;53;50;50;57;46;53;50;53;46;37;69;37;99;42;39], false, None);
    ([117;114;110;58;101;112;99;58;99;108;97], false, None);
    ([117;114;110;58;101;112;99;58;99;108;97;115;115;58;103;116;105;110;58;57;49;57;46;51;46;37;98;42], false, None);
    ([117;114;110;58;101;112;99;58;99;108;97;115;115;58;108;103;116;105;110;58;49;57;46;51;46;37;98;42], true, Some 28%nat);
    ([117;114;110;58;101;112;99;58;99;108;97;115;115;58;108;103;116;105;110;58;52;46;49;46;59], true, Some 25%nat);
    ([117;114;110;58;101;112;99;58;99;108;97;115;115;58;108;103;116;105;110;58;53;50;50;57;46;53;50;53;46;37;69;37;99;42;39], true, Some 35%nat);
    ([117;114;110;58;101;112;99;58;99;108;97;115;115;58;108;103;116;105;110;58;55;10;56;51;46;55;1635;46;43;37;98;39;41], false, None);
    ([117;114;110;58;101;112;99;58;99;108;97;115;115;58;108;103;116;105;110;58;55;53;56;51;46;55;1635;46;43;37;98;39;41], true, Some 33%nat);
    ([117;114;110;58;101;112;99;58;99;108;97;115;115;58;108;103;116;105;110;58;57;49;57;46;51;46;37;98;42], true, Some 29%nat);
    ([117;114;110;58;101;112;99;58;99;108;97;115;115;58;108;103;116;105;110;58;65305;55;46], false, None);
    ([117;114;110;58;101;112;99;58;99;108;97;115;115;58;108;103;116;105;110;58;65305;55;46;56;57;46;87;37;51;37;50], true, Some 31%nat);
    ([117;114;110;58;101;112;99;58;99;108;97;115;115;58;108;121;116;105;110;58;52;46;49;46;59], false, None);
    ([117;114;110;58;101;112;99;58;99;108;115;115;58;108;103;116;105;110;58;65305;55;46;56;57;46;87;37;51;37;50], false, None);
    ([117;114;110;58;101;112;99;99;108;97;115;115;58;108;103;116;105;110;58;52;46;49;46;59], false, None)]);
  (T_EPC_URI,
   [([], false, None);
    ([57;117;114;110;58;101;112;99;58;105;100;58;115;115;99;99;58;52;54;46;55;53], false, None);
    ([65;117;114;110;58;101;112;99;58;105;100;58;103;105;97;105;58;55;56;56;57;46;37;65], false, None);
    ([117;40;114;110;58;101;112;99;58;105;100;58;115;115;99;99;58;52;54;46;55;53], false, None);
    ([117;55;114;110;58;101;112;99;58;105;100;58;115;103;116;105;110;58;54;52;51;57;46;54;56;50;46;56], false, None);
    ([117;114;45;58;101;112;99;58;105;100;58;112;103;108;110;58;54;46;51;51], false, None);
    ([117;114;58;101;112;99;58;105;100;58;105;116;105;112;58;48;46;50;46;48;46;51;46;59;40], false, None);
    ([117;114;110;58], false, None);
    ([117;114;110;58;101;112;58;105;100;58;115;103;99;110;58;55;52;46;55;49;46;54;50], false, None);
    ([117;114;110;58;101;112;99;58;105;100;58;97;100;105;58;53;74;71;69;57;55;46;49;90;46;37;50;51;49], true, Some 29%nat);
    ([117;114;110;58;101;112;99;58;105;100;58;97;100;105;58;53;74;71;69;57;55;120;49;90;46;37;50;51;49], false, None);
    ([117;114;110;58;101;112;99;58;105;100;58;97;100;105;58;53;74;71;69;57;95;55;46;49;90;46;37;50;51;49], false, None);
    ([117;114;110;58;101;112;99;58;105;100;58;99;112;105;58;52;49;46;55;37;50;51;46;55;50;51], true, Some 26%nat);
    ([117;114;110;58;101;112;99;58;105;100;58;99;112;105;58;52;49;46;55;37;51;46;55;50;51], false, None);
    ([117;114;110;58;101;112;99;58;105;100;58;103;100;58;56;46;56;50;55;57;46;48], false, None);
    ([117;114;110;58;101;112;99;58;105;100;58;103;100;116;105;58;52;46;46;37;51], true, Some 21%nat);
    ([117;114;110;58;101;112;99;58;105;100;58;103;100;116;105;58;56;52;46;46;37;51], true, Some 22%nat);
    ([117;114;110;58;101;112;99;58;105;100;58;103;105;97;105;58;55;56;56;57;46;37;65], true, Some 23%nat);
    ([117;114;110;58;101;112;99;58;105;100;58;103;105;97;105;58;56;56;46;37;54;42], true, Some 22%nat);
    ([117;114;110;58;101;112;99;58;105;100;58;103;105;97;105;58;56;56;46;37;62;42], false, None);
    ([117;114;110;58;101;112;99;58;105;100;58;103;105;100;58;56;46;56;50;32;57;46;48], false, None);
    ([117;114;110;58;101;112;99;58;105;100;58;103;105;100;58;56;46;56;50;55;57;46;48], true, Some 23%nat);
    ([117;114;110;58;101;112;99;58;105;100;58;103;105;110;99;58;57;46;37;97;37;100;37;51], true, Some 24%nat);
    ([117;114;110;58;101;112;99;58;105;100;58;105;116;105;112;51;46;1635;51;54;46;57;46;55;54;54;46;37;57;40], false, None);
    ([117;114;110;58;101;112;99;58;105;100;58;105;116;105;112;58;48;46;46;48;46;51;46;59;40], false, None);
    ([117;114;110;58;101;112;99;58;105;100;58;105;116;105;112;58;48;46;50;46;48;46;51;46;59;40], true, Some 26%nat);
    ([117;114;110;58;101;112;99;58;105;100;58;105;116;105;112;58;51;46;1635;51;54;46;57;46;55;54;54;46;37;57;40], true, Some 31%nat);
    ([117;114;110;58;101;112;99;58;105;100;58;105;178;105;112;58;48;46;50;46;48;46;51;46;59;40], false, None);
    ([117;114;110;58;101;112;99;58;105;100;58;112;103;108;110;58;54;46;51;51], true, Some 20%nat);
    ([117;114;110;58;101;112;99;58;105;100;58;115;103;99;110;58;55;52;46;55;49;46;54;50], true, Some 24%nat);
    ([117;114;110;58;101;112;99;58;105;100;58;115;103;99;110;58;57;65305;46;55;46;49], true, Some 22%nat);
    ([117;114;110;58;101;112;99;58;105;100;58;115;103;108;110;58;53;53;51;1635;46;49;46;33;37;68], true, Some 26%nat);
    ([117;114;110;58;101;112;99;58;105;100;58;115;103;108;110;58;53;101;53;51;1635;46;49;46;33;37;68], false, None);
    ([117;114;110;58;101;112;99;58;105;100;58;115;103;116;105;110;58;49;65305;46;53;46;37;100;37;99;95;39], true, Some 28%nat);
    ([117;114;110;58;101;112;99;58;105;100;58;115;103;116;105;110;58;54;52;51;57;46;54;56;50;46;56], true, Some 27%nat);
    ([117;114;110;58;101;112;99;58;105;100;58;115;115;99;99;58;52;54;46;55;53], true, Some 21%nat);
    ([117;114;110;58;101;112;99;58;105;100;58;115;115;99;99;65;58;52;54;46;55;53], false, None);
    ([117;114;110;58;101;112;99;58;105;100;58;115;178;99;110;58;57;65305;46;55;46;49], false, None);
    ([117;114;110;58;101;112;99;58;105;100;58;117;115;100;111;100;58;52;85;71;55;83;46;48], true, Some 24%nat);
    ([117;114;110;58;101;112;99;58;178;100;58;115;103;116;105;110;58;49;65305;56;46;53;46;37;100;37;99;95;39], false, None);
    ([117;114;110;58;101;112;99;58;1635;105;100;58;103;105;100;58;56;46;56;50;55;57;46;48;40], false, None);
    ([117;114;110;58;101;112;99;65;58;105;100;58;117;115;100;111;100;58;52;85;71;55;83;46;48], false, None);
    ([120;117;114;110;58;101;112;99;58;105;100;58;115;103;116;105;110;58;54;52;51;57;46;54;56;50;46;56], false, None)]);
  (T_SGTIN_IDPAT_URI_BODY,
   [([], false, None);
    ([61;103;116;105;110;58;52;57;48;46;55;46;33;37;98;43], false, None);
    ([115;40;103;116;105;110;58;48;49;53;46;42;46;42], false, None);
    ([115;103;41;116;105], false, None);
    ([115;103;116;66;110;58;49;56;51;46;54;54;55;46;42], false, None);
    ([115;103;116;105;44;110;58;48;48;46;1635;54;56;46;42], false, None);
    ([115;103;116;105;67;110;58;49;56;51;46;54;54;55;46;42], false, None);
    ([115;103;116;105;100;58;48;48;46;54;56;46;42], false, None);
    ([115;103;116;105;110;58;48;48;46;54;56;42;120], false, None);
    ([115;103;116;105;110;58;48;48;46;54;56;46;42], true, Some 13%nat);
    ([115;103;116;105;110;58;48;49;53;46;42;46;42], true, Some 13%nat);
    ([115;103;116;105;110;58;48;49;53;46;42;46;42;42], false, Some 13%nat);
    ([115;103;116;105;110;58;48;49;53;46;63;46;42], false, None);
    ([115;103;116;105;110;58;49;56;51;46;54;54;55;46;42], true, Some 15%nat);
    ([115;103;116;105;110;58;52;57;48;46;55;46;33;37;98;43], true, Some 16%nat);
    ([115;103;116;105;110;58;52;57;48;46;55;46;39;33;37;98;43], true, Some 17%nat);
    ([115;103;116;105;110;58;52;57;48;46;55;46;39;37;98;43], true, Some 16%nat);
    ([115;103;116;105;110;58;56;50;56;46;49;46;37;99], true, Some 14%nat);
    ([115;103;116;105;110;58;56;50;56;51;46;49;46;37;99], true, Some 15%nat);
    ([115;103;116;105;110;58;56;50;95;51;46;50;49;46;37;99], false, None);
    ([115;103;116;105;110;58;56;56;51;46;49;46;37;99], true, Some 14%nat)]);
  (T_SSCC_IDPAT_URI_BODY,
   [([], false, None);
    ([99;99;58;51;57;46;56], false, None);
    ([115;63;99;99;58;51;1635;46;42], false, None);
    ([115;99;99;58;51;57;46;56], false, None);
    ([115;99;99;58;57;46;56;49;54;53], false, None);
    ([115;115;99;99;35;58;53;50;46;50;56;49], false, None);
    ([115;115;99;99;53;50;46;50;53;56;49], false, None);
    ([115;115;99;99;58;46;56;49;49;53], false, None);
    ([115;115;99;99;58;50;1635;46;42], true, Some 9%nat);
    ([115;115;99;99;58;51;57;46;56], true, Some 9%nat);
    ([115;115;99;99;58;51;57;63;120;56], false, None);
    ([115;115;99;99;58;51;1635;42], false, None);
    ([115;115;99;99;58;51;1635;46;42], true, Some 9%nat);
    ([115;115;99;99;58;53;50;46;50;53;56;49], true, Some 12%nat);
    ([115;115;99;99;58;53;50;46;50;56;49], true, Some 11%nat);
    ([115;115;99;99;58;57;46;56;49;54;53], true, Some 11%nat);
    ([115;115;99;99;58;57;46;56;50;54;102], false, Some 10%nat);
    ([115;115;99;99;58;1635;51], false, None);
    ([115;115;99;99;58;1635;51;46;51], true, Some 9%nat);
    ([115;115;99;99;58;1635;51;52;46;51], true, Some 10%nat);
    ([115;115;99;100;99;58;1635;51;52;46;51], false, None)]);
  (T_SGLN_GRAI_IDPAT_URI_BODY_MAIN,
   [([], false, None);
    ([51;46;42;46;42], true, Some 5%nat);
    ([51;57;42;46], false, None);
    ([51;67;46;42;46;42], false, None);
    ([53;46;46;95;58;55;37;99], true, Some 8%nat);
    ([53;57;46;46;95;58], true, Some 6%nat);
    ([53;57;46;46;95;58;104;37;99], true, Some 9%nat);
    ([53;57;46;46;95;58;104;99], true, Some 8%nat);
    ([55], false, None);
    ([55;46;53;46;42], true, Some 5%nat);
    ([55;46;54;42], false, None);
    ([55;46;54;46;42], true, Some 5%nat);
    ([55;53;37;46;54;46;42], false, None);
    ([55;53;55;46;54;46;42], true, Some 7%nat);
    ([55;53;55;46;54;46;42;44], true, Some 8%nat);
    ([55;54;46;42], false, None);
    ([56;55;65305;59;46;46;44;45;53;58], false, None);
    ([56;55;65305;65305;46;46;44;45;37;53;58], true, Some 11%nat);
    ([56;55;65305;65305;101;46;44;45;37;53;58], false, None);
    ([56;120;65305;46;46;44;45;37;53;58], false, None);
    ([62;42;46;42], false, None)]);
  (T_SGLN_IDPAT_URI_BODY,
   [([], false, None);
    ([115], false, None);
    ([115;103;108;58;56;56;46;42;46;42], false, None);
    ([115;103;108;110;51;46;42;46;42], false, None);
    ([115;103;108;110;58;42;35;46;42;46;42], false, None);
    ([115;103;108;110;58;42;46;42], false, None);
    ([115;103;108;110;58;42;46;42;46;42], true, Some 10%nat);
    ([115;103;108;110;58;42;46;42;46;49], false, None);
    ([115;103;108;110;58;42;46;42;46;58], false, None);
    ([115;103;108;110;58;42;46;42;67;46;42], false, None);
    ([115;103;108;110;58;55;46;42;46;42], true, Some 10%nat);
    ([115;103;108;110;58;55;46;42;46;65305], false, None);
    ([115;103;108;110;58;56;56;46;42;46;42], true, Some 11%nat);
    ([115;103;108;110;58;56;56;46;42;46;42;33], false, Some 11%nat);
    ([115;103;108;110;58;57;46;56], false, None);
    ([115;103;108;110;58;57;46;56;65305;46;42], true, Some 11%nat);
    ([115;103;108;110;58;57;58;56;65305;46;42], false, None);
    ([115;103;108;110;120;56;56;46;42;46;42], false, None);
    ([115;103;110;58;55;46;42;46;42], false, None)]);
  (T_GRAI_IDPAT_URI_BODY,
   [([], false, None);
    ([61;103;114;97;105;58;53;46;56;46;42], false, None);
    ([103], false, None);
    ([103;34;114;97;105;58;56;46;42;46;42], false, None);
    ([103;42;97;105;58;59;51;1635;50;46;46;42], false, None);
    ([103;114;65;97;105;58;56;46;42;46;42], false, None);
    ([103;114;97;105], false, None);
    ([103;114;97;105;58;34;46;42;46;42], false, None);
    ([103;114;97;105;58;35;55;52;46;42;46;42], false, None);
    ([103;114;97;105;58;51;1635;50;46;46;42], true, Some 11%nat);
    ([103;114;97;105;58;53;46;42;46;42], true, Some 10%nat);
    ([103;114;97;105;58;53;46;56;46;42], true, Some 10%nat);
    ([103;114;97;105;58;55;52;46;42;46;42], true, Some 11%nat);
    ([103;114;97;105;58;55;52;46;42;46;1635;42], false, None);
    ([103;114;97;105;58;55;100;46;42;46;42], false, None);
    ([103;114;97;105;58;56;46;42;46;42], true, Some 10%nat);
    ([103;114;97;105;58;56;233;46;42;46;42], false, None);
    ([103;114;105;58], false, None);
    ([114;97;105;58;53;33;42;46;42], false, None);
    ([114;97;105;58;53;46;56;46;42], false, None);
    ([233;103;114;97;105;58;53;46;42;46;42], false, None)]);
  (T_GIAI_IDPAT_URI_BODY,
   [([], false, None);
    ([100;103;105;97;105;58;54;51;55;51;46;58;37;100], false, None);
    ([103;97;105;58;42;46;42], false, None);
    ([103;97;105;58;48;56;48;46;50;41], false, None);
    ([103;105;97;54;58;42;46;42], false, None);
    ([103;105;97;105;58;34;51;55;51;46;58;37;100], false, None);
    ([103;105;97;105;58;42;46], false, None);
    ([103;105;97;105;58;42;46;42], true, Some 8%nat);
    ([103;105;97;105;58;42;46;42;121], false, Some 8%nat);
    ([103;105;97;105;58;48;56;48;46;50;41], true, Some 11%nat);
    ([103;105;97;105;58;48;56;48;50;41], false, None);
    ([103;105;97;105;58;48;56;54;48;46;50;41], true, Some 12%nat);
    ([103;105;97;105;58;52;50;1635;46;42], true, Some 10%nat);
    ([103;105;97;105;58;52;1635;46], false, None);
    ([103;105;97;105;58;52;1635;46;42], true, Some 9%nat);
    ([103;105;97;105;58;52;1635;46;47;42], false, None);
    ([103;105;97;105;58;54;51;55;51;46;58;37;100], true, Some 13%nat)]);
  (T_GSRN_IDPAT_URI_BODY,
   [([], false, None);
    ([103;62;114;110;58;42;66;42], false, None);
    ([103;115;110;58;42;46;42], false, None);
    ([103;115;110;58;57;46;48;48], false, None);
    ([103;115;114;67;58;42;46;42;40], false, None);
    ([103;115;114;110;42;46;42], false, None);
    ([103;115;114;110;58;42;46], false, None);
    ([103;115;114;110;58;42;46;42], true, Some 8%nat);
    ([103;115;114;110;58;42;46;120], false, None);
    ([103;115;114;110;58;42;46;233], false, None);
    ([103;115;114;110;58;42;65;42], false, None);
    ([103;115;114;110;58;46;42], false, None);
    ([103;115;114;110;58;57;46;48;48], true, Some 9%nat);
    ([103;115;114;110;58;57;46;50;48], true, Some 9%nat);
    ([103;115;114;110;58;233;46;59], false, None);
    ([103;115;114;65305;58;57;46;48;48], false, None);
    ([115;114;110;58;42;46;42], false, None);
    ([121;103;115;114], false, None)]);
  (T_GSRNP_IDPAT_URI_BODY,
   [([], false, None);
    ([103;114;110;58;42;46;42], false, None);
    ([103;114;110;112;58], false, None);
    ([103;115;62;114;110;58;42;46;42], false, None);
    ([103;115;114;110], false, None);
    ([103;115;114;110;49], false, None);
    ([103;115;114;110;52;54;46;42], false, None);
    ([103;115;114;110;112;58;42;46;41], false, None);
    ([103;115;114;110;112;58;42;46;42], true, Some 9%nat);
    ([103;115;114;110;112;58;42;46;42;100], false, Some 9%nat);
    ([103;115;114;110;112;58;42;46;102], false, None);
    ([103;115;114;110;112;58;54;46], false, None);
    ([103;115;114;110;112;58;54;46;42], true, Some 9%nat);
    ([103;115;114;110;112;58;57;49], false, None);
    ([103;115;114;110;112;58;57;49;55;57;46;42], true, Some 12%nat);
    ([103;115;114;110;112;100;42;46;42], false, None);
    ([103;115;114;121;112;58;57;49;55;57;46;42], false, None);
    ([115;114;110;112;58;54;46;42], false, None)]);
  (T_GDTI_IDPAT_URI_BODY,
   [([], false, None);
    ([10;103;100;116;105;58;57;46;49;46;95;41], false, None);
    ([103;38;116;105;58;51;54;46;42;46;42], false, None);
    ([103;44;116;105;58;57;46;49;46;95;41], false, None);
    ([103;100;105;58;1635;56;63;54;46;46;42], false, None);
    ([103;100;116;54;58;51;54;46;42;46;42], false, None);
    ([103;100;116;58;52;46;42;46], false, None);
    ([103;100;116;105;58], false, None);
    ([103;100;116;105;58;42;46;42;46;42], true, Some 10%nat);
    ([103;100;116;105;58;42;46;46;42], false, None);
    ([103;100;116;105;58;42;46;46;42;46;42], false, None);
    ([103;100;116;105;58;51;54;46;42;46], false, None);
    ([103;100;116;105;58;51;54;46;42;46;42], true, Some 11%nat);
    ([103;100;116;105;58;52;46;42;46;42], true, Some 10%nat);
    ([103;100;116;105;58;56;1635;56;54;46;46;42], true, Some 12%nat);
    ([103;100;116;105;58;57;46;33;46;95;41], false, None);
    ([103;100;116;105;58;57;46;49;46;95;41], true, Some 11%nat);
    ([103;100;116;105;58;62;46;42;46;42], false, None);
    ([103;100;116;105;58;1635;56;54;46;46;42], true, Some 11%nat);
    ([103;100;116;105;58;1635;62;56;54;46;46;42], false, None);
    ([103;100;116;105;121;58;52;46;42;42;46;42], false, None)]);
  (T_CPI_IDPAT_URI_BODY,
   [([], false, None);
    ([99;38;112;105;58;49;49;49;46;42;46;42], false, None);
    ([99;55;112;105;58;49;53;49;46;42;46;42], false, None);
    ([99;105;58;49;49;49;46;42;46;42], false, None);
    ([99;112;45;105;58;53;56;46;76;45;37;51;46;42], false, None);
    ([99;112;105;37;55;56;46;37;50;51;46;42], false, None);
    ([99;112;105;58;48;46;37;50;51;52;45;37;50;51;46;42], true, Some 16%nat);
    ([99;112;105;58;48;46;37;50;51;52;45;37;50;51;66;42], false, None);
    ([99;112;105;58;48;46;37;50;51;52;45;37;95;51;46;42], false, None);
    ([99;112;105;58;48;46;37;50;51;52;45;49;37;50;51;46;42;57], false, Some 17%nat);
    ([99;112;105;58;48;57;46;37;50;51;37], false, None);
    ([99;112;105;58;48;57;46;37;50;51;37;50;70;67;37;50;51;46;48], true, Some 19%nat);
    ([99;112;105;58;48;57;46;37;50;51;37;121;70;67;37;50;178;46;48], false, None);
    ([99;112;105;58;48;57;46;37;51;37;50;70;67;37;50;51;46;48], false, None);
    ([99;112;105;58;49;49;49;46;42;46;42], true, Some 11%nat);
    ([99;112;105;58;53;52;46;76;45;37;50;51;46;42], true, Some 14%nat);
    ([99;112;105;58;53;56;46;76;45;37;50;51;46;42], true, Some 14%nat);
    ([99;112;105;58;53;56;46;76;45;37;50;120;46;42], false, None);
    ([99;112;105;58;55;56;46;37;50;51;46;42], true, Some 12%nat);
    ([99;112;105;58;55;56;46;37;178;33;51;46;42], false, None);
    ([99;112;105;58;55;120;46;37;50;51;46;42], false, None)]);
  (T_SGCN_IDPAT_URI_BODY,
   [([], false, None);
    ([103;99;110;58;52;52;52;49;46;42;46;42], false, None);
    ([115], false, None);
    ([115;63;99;110;58;56;50;46;51;50;54;46;52], false, None);
    ([115;103;99;53;110;58;42;46;42;46;42;1635], false, None);
    ([115;103;99;58;52;52;52;49;46;42;46;42], false, None);
    ([115;103;99;61;110;58;55;53;46;46;42], false, None);
    ([115;103;99;110;10;42;46;42;46;42], false, None);
    ([115;103;99;110;58;42;46;42;46;42], true, Some 10%nat);
    ([115;103;99;110;58;46;42;46;42], false, None);
    ([115;103;99;110;58;52;52;52;49;46;42;46;42], true, Some 13%nat);
    ([115;103;99;110;58;55;53;46;46;42], true, Some 10%nat);
    ([115;103;99;110;58;55;53;46;46;44], false, None);
    ([115;103;99;110;58;55;53;46;46;102;42], false, None);
    ([115;103;99;110;58;56;50;46;51;50;54;46;52], true, Some 13%nat);
    ([115;103;99;110;58;56;50;46;51;54;46;52], true, Some 12%nat);
    ([115;103;99;110;58;57;51;56;57;46;53;55;46;65305], true, Some 14%nat);
    ([115;103;99;110;58;57;51;56;57;46;53;55;46;65305;1635], true, Some 15%nat);
    ([115;103;99;110;58;57;51;56;57;46;53;55;46;65305;1635;44], false, Some 15%nat);
    ([115;103;99;110;58;102;50;46;51;50;54;46;52], false, None);
    ([115;103;99;110;65305;56;52;52;49;46;42;46;42], false, None)]);
  (T_GINC_IDPAT_URI_BODY,
   [([], false, None);
    ([103;63;110;99;58;56;35;46;61], false, None);
    ([103;105;37;110;99;58;1635;51;46;37;101;37;51;37;54;37;99], false, None);
    ([103;105;46;99;58;48;121;42], false, None);
    ([103;105;54;110;99;58;1635;51;46;37;101;37;51;37;54;37;99], false, None);
    ([103;105;99;58;178;51;46;42], false, None);
    ([103;105;110], false, None);
    ([103;105;110;61;58;48;46;42;35], false, None);
    ([103;105;110;99;50;65305;46;42], false, None);
    ([103;105;110;99;58;48;46;42], true, Some 8%nat);
    ([103;105;110;99;58;50;65305;46;42], true, Some 9%nat);
    ([103;105;110;99;58;50;65305;46;42;38], false, Some 9%nat);
    ([103;105;110;99;58;51;42], false, None);
    ([103;105;110;99;58;51;46;42], true, Some 8%nat);
    ([103;105;110;99;58;56], false, None);
    ([103;105;110;99;58;56;46;50;61], true, Some 9%nat);
    ([103;105;110;99;58;56;46;61], true, Some 8%nat);
    ([103;105;110;99;58;1635;51;46;37;101;37;51;37;54;37;99], true, Some 16%nat);
    ([103;105;110;99;65;50;65305;52;42], false, None);
    ([103;65305;110;99;58;48;46;42], false, None);
    ([105;110;99;58;1635;51;46;37;101;37;51;37;54;37;99], false, None)]);
  (T_GSIN_IDPAT_URI_BODY,
   [([], false, None);
    ([103;54;115;105;110;58;49;53;46;48], false, None);
    ([103;101;105;110;58;66;46;42], false, None);
    ([103;115;44;105;110;58;51;46;53;52], false, None);
    ([103;115;105;58;42;46;42], false, None);
    ([103;115;105;58;49;53;46;48], false, None);
    ([103;115;105;61;110;58;51;46;42], false, None);
    ([103;115;105;67;110;58;51;46;53;52], false, None);
    ([103;115;105;110;58;42;46;10;42], false, None);
    ([103;115;105;110;58;42;46;42], true, Some 8%nat);
    ([103;115;105;110;58;42;46;42;101], false, Some 8%nat);
    ([103;115;105;110;58;49;53;46], false, None);
    ([103;115;105;110;58;49;53;46;48], true, Some 9%nat);
    ([103;115;105;110;58;51;46], false, None);
    ([103;115;105;110;58;51;46;37], false, None);
    ([103;115;105;110;58;51;46;42], true, Some 8%nat);
    ([103;115;105;110;58;51;46;42;56], false, Some 8%nat);
    ([103;115;105;110;58;51;46;53;52], true, Some 9%nat);
    ([103;115;105;110;102;58;42;46;42;42], false, None);
    ([103;115;110;58;42;46;42], false, None)]);
  (T_ITIP_IDPAT_URI_BODY,
   [([], false, None);
    ([105;105;112;58;49;46;51;54;46;53;46;57;50;55;46;37;48], false, None);
    ([105;116;105;56;58;54;46;50;54;56;54;46;53;57;56;48;46;52;46;39;37;100], false, None);
    ([105;116;105;112;32;52;56;53;52;46;54;51;52;46;48;48;48;46;55;54;51;54;46;42], false, None);
    ([105;116;105;112;58;48;46;42;46;42;46;42;46;42], true, Some 14%nat);
    ([105;116;105;112;58;48;46;46;42;46;42;46;42;46;42], false, None);
    ([105;116;105;112;58;48;46;54;42;46;42;46;42;46;42], false, None);
    ([105;116;105;112;58;49;46;51;54;41;46;53;49;46;57;50;55;46;37;48], false, None);
    ([105;116;105;112;58;49;46;51;54;46;53;49;46;57;50;55;46;37;48], true, Some 19%nat);
    ([105;116;105;112;58;49;46;51;54;46;53;49;46;57;51;55;46;37;48], true, Some 19%nat);
    ([105;116;105;112;58;52;51;53;52;46;54], false, None);
    ([105;116;105;112;58;52;51;53;52;46;54;51;52;46;48;40;48;48;46;55;54;51;54;46;42], false, None);
    ([105;116;105;112;58;52;51;53;52;46;54;51;52;46;48;48;48;46;55;54;51;54;46;42], true, Some 24%nat);
    ([105;116;105;112;58;54;46;50;38;56;54;46;53;57;56;48;46;52;46;39;37;100], false, None);
    ([105;116;105;112;58;54;46;50;54;56;54;46;53;57;56;48;46;52;46;39;37;100], true, Some 22%nat);
    ([105;116;105;112;58;54;50;54;56;54;46;53;57;56;48;46;52;46;39;37;100], false, None);
    ([105;116;105;112;58;57;56;49;55;46;48;49;46;42;46;42;46;42], true, Some 18%nat);
    ([105;116;105;112;58;57;56;49;55;46;48;49;46;42;46;60;46;42], false, None);
    ([105;116;105;112;58;57;56;49;56;46;48;49;46;42;46;42;46;42], true, Some 18%nat);
    ([105;116;105;112;58;57;56;55;46;48;49;46;42;46;42;46;42], true, Some 17%nat);
    ([105;116;105;112;120;48;58;42;46;42;46;42;46;42], false, None)]);
  (T_UPUI_IDPAT_URI_BODY,
   [([], false, None);
    ([34;112;117;105;58;42;48;46;56;46;112], false, None);
    ([117;33;117;105;58;42;46;42;46;42], false, None);
    ([117;112;102;117;105;58;42;46;42;46;42], false, None);
    ([117;112;117;105;58;42;46;42;46;42], true, Some 10%nat);
    ([117;112;117;105;58;46;51;53;49;46;42], false, None);
    ([117;112;117;105;58;49;46;56;46;112], true, Some 10%nat);
    ([117;112;117;105;58;49;48;46;56;46;112], true, Some 11%nat);
    ([117;112;117;105;58;50;56;56;50;46;53;50;46;37], false, None);
    ([117;112;117;105;58;50;56;56;50;46;53;50;46;37;100;40;37;57;100], true, Some 19%nat);
    ([117;112;117;105;58;50;56;56;50;46;53;50;46;37;100;40;37;57;100;50], true, Some 20%nat);
    ([117;112;117;105;58;50;56;56;50;46;58;53;50;46;37;100;40;37;57;100], false, None);
    ([117;112;117;105;58;52;46;51;53;49;46;37;42], false, None);
    ([117;112;117;105;58;52;46;51;53;49;46;42], true, Some 12%nat);
    ([117;112;117;105;58;52;51;53;37;46;42], false, None);
    ([117;112;117;105;67;42;46;42;46;42], false, None);
    ([117;112;117;105;65305;41;46;42;46;42], false, None);
    ([117;117;105;58;42;46;42;46;41], false, None);
    ([117;120;112;117;58;49;48;46;56;46;112], false, None);
    ([117;65305;117;105;58;42;46;42;46;42], false, None)]);
  (T_PGLN_IDPAT_URI_BODY,
   [([], false, None);
    ([103;108;110;58;48;46;52], false, None);
    ([112], false, None);
    ([112;103;10;108], false, None);
    ([112;103;66;110;58;48;46;52], false, None);
    ([112;103;108;41;110;58;42;46;42], false, None);
    ([112;103;108;47;58;42;46;42], false, None);
    ([112;103;108;110;58;35;55;46;42;10], false, None);
    ([112;103;108;110;58;42;46;42], true, Some 8%nat);
    ([112;103;108;110;58;47;46;42], false, None);
    ([112;103;108;110;58;48;46;52], true, Some 8%nat);
    ([112;103;108;110;58;48;46;52;54], true, Some 9%nat);
    ([112;103;108;110;58;48;50;51;52;56;46;56;54;49], true, Some 14%nat);
    ([112;103;108;110;58;48;51;52;46;56;54;49], true, Some 12%nat);
    ([112;103;108;110;58;48;51;52;56;46;56;54;49], true, Some 13%nat);
    ([112;103;108;110;58;51;54;46;49;52], true, Some 10%nat);
    ([112;103;108;110;58;51;54;46;49;52;51;52], true, Some 12%nat);
    ([112;103;108;110;58;51;54;46;49;52;52], true, Some 11%nat);
    ([112;103;108;110;58;51;54;49;52;52], false, None);
    ([112;103;108;110;58;55;46;42], true, Some 7%nat);
    ([112;108;110;58;55;46;42], false, None)]);
  (T_GID_IDPAT_URI_BODY,
   [([], false, None);
    ([103;105;44;100;58], false, None);
    ([103;105;100;48;46;48;46;42], false, None);
    ([103;105;100;58;42;46;42;46;42], true, Some 9%nat);
    ([103;105;100;58;42;46;42;46;42;121], false, Some 9%nat);
    ([103;105;100;58;42;46;42;46;51], false, None);
    ([103;105;100;58;42;46;46;42], false, None);
    ([103;105;100;58;42;46;56;46;42;233], false, None);
    ([103;105;100;58;42;46;121;42;46;42], false, None);
    ([103;105;100;58;42;52;42;46;42], false, None);
    ([103;105;100;58;48;46;42;46;42], true, Some 9%nat);
    ([103;105;100;58;48;46;42;46;53], false, None);
    ([103;105;100;58;48;46;42;57;46;35;42], false, None);
    ([103;105;100;58;48;46;42;59;46;42], false, None);
    ([103;105;100;58;48;46;48;46;42], true, Some 9%nat);
    ([103;105;100;58;48;46;48;46;233], false, None);
    ([103;105;100;58;52;51;53;46;42;46;42], true, Some 11%nat);
    ([103;105;100;58;52;51;53;46;42;46;42;66], false, Some 11%nat);
    ([103;105;100;58;52;51;53;46;60;42;46;42], false, None);
    ([103;105;100;58;52;56;53;46;42;46;42], true, Some 11%nat)]);
  (T_USDOD_IDPAT_URI_BODY,
   [([], false, None);
    ([117;52;115;100;111;100;58;82;75;70;68;33;46;42], false, None);
    ([117;100;111;100;58;71;69;65;68;65;56;46;50;48;53], false, None);
    ([117;115;100;111;100;47;58;74;67;59;74;76;69;46;42], false, None);
    ([117;115;100;111;100;58;71;69;65;68;65;56;46;50;48;53], true, Some 16%nat);
    ([117;115;100;111;100;58;74;67;44;74;63;69;46;42], false, None);
    ([117;115;100;111;100;58;74;67;75;74;76;69;46;42], true, Some 14%nat);
    ([117;115;100;111;100;58;74;67;75;74;122;76;69;46;42], false, None);
    ([117;115;100;111;100;58;77;71;72;75;35;52;89;46;42], false, None);
    ([117;115;100;111;100;58;77;71;72;75;52;89;46;42], true, Some 14%nat);
    ([117;115;100;111;100;58;81;76;78;74;67;56;46], false, None);
    ([117;115;100;111;100;58;81;76;78;74;67;56;46;48], true, Some 14%nat);
    ([117;115;100;111;100;58;82;75;38;70;67;46;42], false, None);
    ([117;115;100;111;100;58;82;75;70;68;67;46;42], true, Some 13%nat);
    ([117;115;100;111;100;58;82;101;75;70;68;67;46;42], false, None);
    ([117;115;100;111;100;77;71;72;75;52;89;46;42], false, None);
    ([117;115;100;111;100;1635;71;69;65;68;65;56;46;50;48;53;50], false, None);
    ([117;115;100;233;111;100;58;77;71;72;75;52;89;46;42], false, None);
    ([117;115;111;100;58;81;76;78;74;67;56;46], false, None)]);
  (T_ADI_IDPAT_URI_BODY,
   [([], false, None);
    ([55;100;105;58;42;46;42;46;42], false, None);
    ([97;50;100;105;58], false, None);
    ([97;95;105;58;42;46;42;46;42], false, None);
    ([97;95;105;58;89;56;78;56;87;71;46;46;42], false, None);
    ([97;100;105;53;42;46;42;46;42], false, None);
    ([97;100;105;58;42;46;42;46;42], true, Some 9%nat);
    ([97;100;105;58;42;46;42;46;42;10], false, Some 9%nat);
    ([97;100;105;58;65;80;68;56;88;46;46;80;68], true, Some 13%nat);
    ([97;100;105;58;65;80;68;56;88;46;46;122;62;68], false, None);
    ([97;100;105;58;72;72;68;72;84;46;37;50;70;46;42], true, Some 15%nat);
    ([97;100;105;58;72;72;68;78;72;84;37;50;70;46], false, None);
    ([97;100;105;58;72;72;68;78;72;84;46;37;50;70;46;42], true, Some 16%nat);
    ([97;100;105;58;72;72;100;68;78;46;84;46;37;50;70;46;42], false, None);
    ([97;100;105;58;89;56;78;56;87;71;46;46;42], true, Some 13%nat);
    ([97;100;105;58;89;56;78;178;56;87;71;46;46;42], false, None);
    ([97;100;105;58;89;78;56;87;71;46;46;42], true, Some 12%nat);
    ([100;105;58;65;80;68;56;88;33;46;46;80;68], false, None);
    ([100;105;58;65;80;68;56;88;46;46;80;68], false, None);
    ([65305;100;105;58;42;46;42;46;42], false, None)]);
  (T_IDPAT_BODY,
   [([], false, None);
    ([46;115;105;110;58;42;46;42], false, None);
    ([55;103;115;105;110;58;42;46;42], false, None);
    ([103;40;114;110;112;58;50;56;52;46;42], false, None);
    ([103;105;48;105;58;50;57;51;46;37;68;42], false, None);
    ([103;105;97;105;58;50;57;51;46;37;42], false, None);
    ([103;105;97;105;58;50;57;51;46;37;68;42], true, Some 12%nat);
    ([103;105;97;105;58;50;57;51;46;37;68;178;42], false, Some 11%nat);
    ([103;114;110;112;58;50;56;46;42], false, None);
    ([103;115;42;105;110;58;42;46;42], false, None);
    ([103;115;105;110;58;42;46;42], true, Some 8%nat);
    ([103;115;114;110;34;58;50;46;51], false, None);
    ([103;115;114;110;42;58;50;46;51], false, None);
    ([103;115;114;110;112;55;50;56;46;42], false, None);
    ([103;115;114;110;112;58;50;46;51], true, Some 9%nat);
    ([103;115;114;110;112;58;50;56;46;42], true, Some 10%nat);
    ([115;103;108;110;58;42;46;42;46], false, None);
    ([115;103;108;110;58;42;46;42;46;42], true, Some 10%nat);
    ([115;103;108;110;58;42;46;42;46;42;95], false, Some 10%nat);
    ([115;108;110;58;42;46;42;46;42], false, None);
    ([233;114;110;112;58;50;46;51], false, None)]);
  (T_IDPAT_URI,
   [([], false, None);
    ([38;117;114;110;58;101;112;99;58;105;100;112;97;116;58;103;115;114;110;112;58;54;51;46;42], false, None);
    ([117;110;58;101;112;99;58;105;100;112;97;116;58;115;103;99;110;58;42;46;42;46;42], false, None);
    ([117;114;58;101], false, None);
    ([117;114;110;58;101;112;99;58;58;100;112;97;116;58;103;114;97;49;105;58;56;50;54;55;46;48;56;46;42], false, None);
    ([117;114;110;58;101;112;99;58;100;112;97;116;58;103;115;34;114;110;112;58;54;51;46;42], false, None);
    ([117;114;110;58;101;112;99;58;105;49;112;97;116;58;103;100;116;105;58;48;51;46;53;56;46;42], false, None);
    ([117;114;110;58;101;112;99;58;105;55;100;112;97;116;58;103;105;97;105;58;53;55;56;46;95], false, None);
    ([117;114;110;58;101;112;99;58;105;100;35;112;97;116;58;103;178;115;114;110;112;58;54;51;46;42], false, None);
    ([117;114;110;58;101;112;99;58;105;100;112], false, None);
    ([117;114;110;58;101;112;99;58;105;100;112;56;116;58;117;112;117;105;58;42;46;42;46;42], false, None);
    ([117;114;110;58;101;112;99;58;105;100;112;97;116;58;57;103;99;110;58;42;46;42;46;42], false, None);
    ([117;114;110;58;101;112;99;58;105;100;112;97;116;58;99;56;105;58;1635;51;48;46;55;46;42], false, None);
    ([117;114;110;58;101;112;99;58;105;100;112;97;116;58;99;112;105;58;1635;51;48;46;42;46;42], true, Some 25%nat);
    ([117;114;110;58;101;112;99;58;105;100;112;97;116;58;99;112;105;58;1635;51;48;46;42;46;42;44], false, Some 25%nat);
    ([117;114;110;58;101;112;99;58;105;100;112;97;116;58;99;112;105;1635;51;48;46;42;46;42], false, None);
    ([117;114;110;58;101;112;99;58;105;100;112;97;116;58;103;61;100;116;105;58;49;56;49;53;46;46;42], false, None);
    ([117;114;110;58;101;112;99;58;105;100;112;97;116;58;103;100;116;35;105;58;48;51;46;53;56;46;42], false, None);
    ([117;114;110;58;101;112;99;58;105;100;112;97;116;58;103;100;116;105;58;48;51;46;53;56;46;42], true, Some 26%nat);
    ([117;114;110;58;101;112;99;58;105;100;112;97;116;58;103;100;116;105;58;49;56;49;53;46;46;42], true, Some 26%nat);
    ([117;114;110;58;101;112;99;58;105;100;112;97;116;58;103;105;97;105;58;51;52;48;46;41], true, Some 24%nat);
    ([117;114;110;58;101;112;99;58;105;100;112;97;116;58;103;105;97;105;58;51;52;48;46;42], true, Some 24%nat);
    ([117;114;110;58;101;112;99;58;105;100;112;97;116;58;103;105;97;105;58;53;55;56;46;95], true, Some 24%nat);
    ([117;114;110;58;101;112;99;58;105;100;112;97;116;58;103;105;97;105;58;57;48;50;46;88;41;39;33], true, Some 27%nat);
    ([117;114;110;58;101;112;99;58;105;100;112;97;116;58;103;114;97;105;58;56;50;54;55;46;48;56;46;42], true, Some 28%nat);
    ([117;114;110;58;101;112;99;58;105;100;112;97;116;58;103;115;114;110;58;55;53;46;55;51;57], true, Some 25%nat);
    ([117;114;110;58;101;112;99;58;105;100;112;97;116;58;103;115;114;110;58;55;53;55;51;57], false, None);
    ([117;114;110;58;101;112;99;58;105;100;112;97;116;58;103;115;114;110;112;58;54;51;46;42], true, Some 24%nat);
    ([117;114;110;58;101;112;99;58;105;100;112;97;116;58;105;116;105;112;58;55;46;55;46;65305;46;49;46;42], true, Some 28%nat);
    ([117;114;110;58;101;112;99;58;105;100;112;97;116;58;105;116;105;112;58;55;52;46;55;46;65305;46;49;46;42], true, Some 29%nat);
    ([117;114;110;58;101;112;99;58;105;100;112;97;116;58;115;103;99;110;58;42;46;42;46;42], true, Some 24%nat);
    ([117;114;110;58;101;112;99;58;105;100;112;97;116;58;115;103;99;110;58;48;52;48;46;42;46;42], true, Some 26%nat);
    ([117;114;110;58;101;112;99;58;105;100;112;97;116;58;115;103;99;110;58;52;48;46;42;46;42], true, Some 25%nat);
    ([117;114;110;58;101;112;99;58;105;100;112;97;116;58;115;103;99;110;58;121;46;42;46;42], false, None);
    ([117;114;110;58;101;112;99;58;105;100;112;97;116;58;115;103;108;110;58;50;46;42;46;42], true, Some 24%nat);
    ([117;114;110;58;101;112;99;58;105;100;112;97;116;58;115;103;108;110;58;50;46;42;46;42;41], false, Some 24%nat);
    ([117;114;110;58;101;112;99;58;105;100;112;97;116;58;115;103;116;105;110;58;56;46;50;52;46;37;69;43;39], true, Some 29%nat);
    ([117;114;110;58;101;112;99;58;105;100;112;97;116;58;115;103;116;105;110;58;56;46;50;52;46;37;69;66;43;39], true, Some 30%nat);
    ([117;114;110;58;101;112;99;58;105;100;112;97;116;58;117;112;117;105;58;42;46;42;46], false, None);
    ([117;114;110;58;101;112;99;58;105;100;112;97;116;58;117;112;117;105;58;42;46;42;46;42], true, Some 24%nat);
    ([117;114;110;58;101;112;99;58;105;100;112;97;116;58;117;112;117;105;58;53;46;48;50;55;49;46;37;102], true, Some 28%nat);
    ([117;114;110;58;101;112;99;60;105;100;112;97;116;58;115;103;108;110;58;50;46;42;46;42;48], false, None);
    ([117;114;110;58;101;112;99;120;58;105;100;112;97;116;58;103;100;116;105;58;48;51;46;53;56;46;42], false, None);
    ([117;114;110;58;112;99;58;105;100;112;97;116;58;117;112;53;105;58;53;46;48;50;55;49;46;37;102], false, None)]);
  (T_SGTIN_TAG_URI_BODY,
   [([], false, None);
    ([46;115;103;116;105;110;45;57;54;58;48;46;49;50;53;46;50;52;51;57;46;37;68], false, None);
    ([66;103;116;105;110;45;57;54;58;48;46;49;46;49;46;33], false, None);
    ([115;62;116;105;110;45;57;54;58;48;46;49;50;53;46;50;52;51;57;46;37;68], false, None);
    ([115;103;46;105;110;45;57;54;58;48;46;51;56;1635;46;57;52;49;53;46;37;70], false, None);
    ([115;103;52;105;110;45;49;57;56;58;48;46;53;46;53;57;46;37;49;59;42], false, None);
    ([115;103;65;116;105;110;45;49;57;56;58;48;46;53;46;53;57;46;37;49;59;42], false, None);
    ([115;103;105;110;45;49;57;56;58;48;46;65305;49;50;54;46;53;46;102], false, None);
    ([115;103;116;105;110;45;47;54;58;48;46;49;46;49;46;33], false, None);
    ([115;103;116;105;110;45;49;57;56;58;48;46;53;46;53;57;46;37;49;59;42], true, Some 21%nat);
    ([115;103;116;105;110;45;49;57;56;58;48;46;53;46;53;57;46;37;49;59;66], true, Some 21%nat);
    ([115;103;116;105;110;45;49;57;56;58;48;46;65305;49;50;54;46;53;46;37;102], true, Some 21%nat);
    ([115;103;116;105;110;45;49;57;56;58;48;46;65305;49;50;54;46;53;46;37;102;37], false, Some 21%nat);
    ([115;103;116;105;110;45;54;57;56;58;48;46;65305;49;50;54;46;53;46;37;102], false, None);
    ([115;103;116;105;110;45;57;54;58;48;46;49;46;49;46;33], true, Some 16%nat);
    ([115;103;116;105;110;45;57;54;58;48;46;49;50;53;46;50;52;51;57;46;37;68], true, Some 22%nat);
    ([115;103;116;105;110;45;57;54;58;48;46;49;50;53;46;50;52;65305;57;46;37;68], true, Some 22%nat);
    ([115;103;116;105;110;45;57;54;58;48;46;49;57;49;46;33], false, None);
    ([115;103;116;105;110;45;57;54;58;48;46;51;56;1635;46;57;52;49;53;46;37;70], true, Some 22%nat);
    ([115;103;116;105;110;45;57;54;58;48;46;51;56;1635;46;57;52;49;53;65;37;70], false, None);
    ([115;103;116;105;110;50;57;54;58;48;46;51;56;1635;46;57;52;49;53;46;37;70], false, None)]);
  (T_SSCC_TAG_URI_BODY,
   [([], false, None);
    ([102;115;115;99;99;45;57;54;58;48;46;54;57;51;46;53;56;53], false, None);
    ([115;40;115;99;99;45;57;54;58;48;46;53;46;55], false, None);
    ([115;52;115;99;99;45;57;54;58;48;46;53;46;51;55], false, None);
    ([115;99;99;45;57;54;58;48;46;51;57;52;57;46;53;52;48;54], false, None);
    ([115;115;48;99;99;45;57;54;58;50;46;50;46;56;49;50], false, None);
    ([115;115;99;99], false, None);
    ([115;115;99;99;45;57;10;58;50;46;50;46;56;49;50], false, None);
    ([115;115;99;99;45;57;40;54;58;48;46;54;57;51;46;53;56;53], false, None);
    ([115;115;99;99;45;57;54;58;48;46;51;57;52;57;46;53;52;48], true, Some 18%nat);
    ([115;115;99;99;45;57;54;58;48;46;51;57;52;57;46;53;52;48;54], true, Some 19%nat);
    ([115;115;99;99;45;57;54;58;48;46;53;46;55], true, Some 13%nat);
    ([115;115;99;99;45;57;54;58;48;46;54;57;46;38], false, None);
    ([115;115;99;99;45;57;54;58;48;46;54;57;46;52], true, Some 14%nat);
    ([115;115;99;99;45;57;54;58;48;46;54;57;51;46;53;56;53], true, Some 17%nat);
    ([115;115;99;99;45;57;54;58;48;65;54;57;46;50], false, None);
    ([115;115;99;99;45;57;54;58;50;46;50;46;56;49;50], true, Some 15%nat);
    ([115;115;99;99;45;57;54;101;58;48;46;54;57;46;52], false, None);
    ([115;115;99;99;45;57;58;58;48;46;54;57;51;46;53;56;53], false, None);
    ([115;115;99;99;58;57;54;58;48;46;51;57;52;57;46;53;52;48;54], false, None)]);
  (T_SGLN_TAG_URI_BODY,
   [([], false, None);
    ([44;115;103;108;110;45;49;57;53;58;55;51;54;51;46;50;49;57;46;53;46;37;68], false, None);
    ([115;103;108;110;45;49;57;53;58;48;46;51;46;50;1635;56;46;37;65;37;55], true, Some 21%nat);
    ([115;103;108;110;45;49;57;53;58;48;46;51;46;50;1635;56;46;37;65;58;37;41;55], false, Some 20%nat);
    ([115;103;108;110;45;49;57;53;58;48;46;51;46;50;1635;56;46;37;65;58;37;55], true, Some 22%nat);
    ([115;103;108;110;45;49;57;53;58;50;52;46;50;51;52;46;46;42], true, Some 18%nat);
    ([115;103;108;110;45;49;57;53;58;50;52;46;50;51;52;46;46;122;42], true, Some 19%nat);
    ([115;103;108;110;45;49;57;53;58;50;52;46;50;52;46;46;42], true, Some 17%nat);
    ([115;103;108;110;45;49;57;53;58;55;51;54;51;46;50;49;57;46;45;37;68], false, None);
    ([115;103;108;110;45;49;57;53;58;55;51;54;51;46;50;49;57;46;53;46;37;68], true, Some 22%nat);
    ([115;103;108;110;45;49;57;53;58;55;51;54;56;46;50;49;57;46;53;46;37;68], true, Some 22%nat);
    ([115;103;108;110;45;49;57;53;67;50;52;46;50;51;52;46;46;55], false, None);
    ([115;103;108;110;45;57;54;51;54;46;48;46;49;46;37;102], false, None);
    ([115;103;108;110;45;57;54;58;54;46;48;46;49;46;37;102], true, Some 16%nat);
    ([115;103;108;110;45;57;54;58;54;46;54;49;49;52;46;51;46;37;98;37;68], true, Some 21%nat);
    ([115;103;108;110;45;57;54;58;54;46;54;49;49;52;46;51;46;37;98;68], true, Some 20%nat);
    ([115;103;108;110;45;122;57;53;58;48;46;51;46;50;1635;56;46;37;65;58;37;55], false, None);
    ([115;103;108;110;52;57;54;58;54;46;48;46;49;46;37;102], false, None);
    ([115;103;108;121;45;54;58;54;46;48;46;49;46;37;102], false, None);
    ([115;103;110;45;57;54;58;54;46;54;49;95;52;46;51;46;37;98;37;68], false, None);
    ([115;122;103;108;110;45;57;54;58;54;46;54;49;49;52;46;51;46;37;98;37;68], false, None)]);
  (T_GRAI_TAG_URI_BODY,
   [([], false, None);
    ([40;114;97;105;45;57;54;58;49;51;46;49;46;57;57;48;46;37;98;39;58;37;69], false, None);
    ([55;103;114;97;105;45;57;54;58;56;49;55;46;51;46;51;55;57;46;39;37;65], false, None);
    ([103;97;105;45;49;55;48;58;48;46;48;46;49;46;37;102;43;37;66], false, None);
    ([103;114;97;66;45;49;55;48;58;48;46;48;46;120;46;37;102;43;37;66], false, None);
    ([103;114;97;105;45;49;55;48;58;48;46], false, None);
    ([103;114;97;105;45;49;55;48;58;48;46;48;46;49;46;37;102;43;37;66], true, Some 20%nat);
    ([103;114;97;105;45;49;55;48;58;48;46;48;46;49;46;37;102;43;66], true, Some 19%nat);
    ([103;114;97;105;45;49;55;48;58;48;46;49;46;49;49;46;59;43;37;101], true, Some 20%nat);
    ([103;114;97;105;45;49;55;48;58;48;46;49;46;49;49;55;46;59;43;37;32], false, Some 19%nat);
    ([103;114;97;105;45;49;55;48;58;48;46;49;46;49;49;55;46;59;43;37;101], true, Some 21%nat);
    ([103;114;97;105;45;54;58;56;49;55;46;51;46;51;55;57;46;39;37;65], false, None);
    ([103;114;97;105;45;57;54;58;49;51;46;49;46;57;48;46;37;98;39;58;37;69], true, Some 22%nat);
    ([103;114;97;105;45;57;54;58;49;51;46;49;46;57;57;48;46;37;98;39;58;37;69], true, Some 23%nat);
    ([103;114;97;105;45;57;54;58;49;51;46;49;46;57;57;48;46;37;98;39;59;37;69], true, Some 23%nat);
    ([103;114;97;105;45;57;54;58;55;51;46;52;46;53], false, None);
    ([103;114;97;105;45;57;54;58;55;51;46;52;46;53;46;53;37;65], true, Some 18%nat);
    ([103;114;97;105;45;57;54;58;56;49;55;46;51;46;51;55;57;46;39;37;65], true, Some 21%nat);
    ([103;114;97;105;45;57;54;102;56;49;55;46;51;46;47;55;57;46;39;37;65], false, None);
    ([103;114;105;45;57;54;58;55;51;46;52;46;53;46;53;37;65], false, None);
    ([114;97;105;45;57;54;58;55;51;46;52;46;53;46;53;37;65], false, None)]);
  (T_GIAI_TAG_URI_BODY,
   [([], false, None);
    ([57;105;97;105;45;57;54;58;53;52;95;52;55;46;42;61;37;98], false, None);
    ([103;105;59;105;45;50;48;50;58;53;46;49;46;37;66;42;41], false, None);
    ([103;105;97;105;44;45;57;54;58;53;52;46;52;55;46;42;61;37;98], false, None);
    ([103;105;97;105;45;40;50;48;50;58;48;46;32;51;54;51;46;59;37;100;37;56;37;66], false, None);
    ([103;105;97;105;45;50;48;50;58;48;46;51;54;51;46;59;37;100;37;56;37;42], false, Some 20%nat);
    ([103;105;97;105;45;50;48;50;58;48;46;51;54;51;46;59;37;100;37;56;37;66], true, Some 22%nat);
    ([103;105;97;105;45;50;48;50;58;48;46;54;51;46;122;59;37;100;37;56;37;66], true, Some 22%nat);
    ([103;105;97;105;45;50;48;50;58;49;51;46;51;52;46;37;101;37;52], true, Some 19%nat);
    ([103;105;97;105;45;50;48;50;58;51;46;51;52;46;37;101;37;52], true, Some 18%nat);
    ([103;105;97;105;45;50;48;50;58;51;46;51;52;46;37;101;37;52;50], true, Some 19%nat);
    ([103;105;97;105;45;50;48;50;58;51;66;46;51;52;46;37;101;37;52], false, None);
    ([103;105;97;105;45;50;48;50;58;53;46;49;46;37;66;42;41], true, Some 17%nat);
    ([103;105;97;105;45;50;48;101;50;101;58;53;46;49;46;37;66;42;41], false, None);
    ([103;105;97;105;45;50;1635;50;58;53;46;49;46;37;66;42;41], false, None);
    ([103;105;97;105;45;57;54;58;53;46;48;49;57;53;46], false, None);
    ([103;105;97;105;45;57;54;58;53;46;48;49;57;53;46;42], true, Some 16%nat);
    ([103;105;97;105;45;57;54;58;53;46;48;57;53;46;42], true, Some 15%nat);
    ([103;105;97;105;45;57;54;58;53;52;46;52;55;42;61;37;98], false, None);
    ([103;105;97;105;45;57;54;58;53;52;46;52;55;46;42;61;37;98], true, Some 18%nat);
    ([103;105;97;105;45;57;102;58;53;46;48;49;48;57;53;46;42], false, None)]);
  (T_GSRN_TAG_URI_BODY,
   [([], false, None);
    ([103;50;114;110;45;57;54;58;57;50;46;56;46;57], false, None);
    ([103;115;51;114;110;45;57;54;58;48;52;48;56;46;51;1635], false, None);
    ([103;115;59;110;45;57;54;58;55;54;46;1635;46;65305;48;54;49;52], false, None);
    ([103;115;114;45;57;54;58;57;50;46;56;46;57], false, None);
    ([103;115;114;110;45;57], false, None);
    ([103;115;114;110;45;57;33;58;48;46;48;56;46;51;1635], false, None);
    ([103;115;114;110;45;57;54;58;10;54;46;1635;46;48;54;49;52], false, None);
    ([103;115;114;110;45;57;54;58;48;46;46;52;55;55;65305], false, None);
    ([103;115;114;110;45;57;54;58;48;46;48;56;46;51;1635], true, Some 15%nat);
    ([103;115;114;110;45;57;54;58;48;46;50;46;52;55;55;65305], true, Some 16%nat);
    ([103;115;114;110;45;57;54;58;48;46;50;46;52;55;65305], true, Some 15%nat);
    ([103;115;114;110;45;57;54;58;48;46;56;46;51;1635], true, Some 14%nat);
    ([103;115;114;110;45;57;54;58;50;46;50;46;55], true, Some 13%nat);
    ([103;115;114;110;45;57;54;58;50;46;51;50;46;55], true, Some 14%nat);
    ([103;115;114;110;45;57;54;58;55;54;46;1635;46;48;54;49;52], true, Some 17%nat);
    ([103;115;114;110;45;57;54;58;57;46;56;46;57], true, Some 13%nat);
    ([103;115;114;110;45;57;54;58;57;50;46;56;46;57], true, Some 14%nat);
    ([103;115;114;110;45;57;54;62;48;46;50;46;52;55;55;65305], false, None);
    ([103;115;114;110;45;57;61;54;58;50;46;51;50;46], false, None);
    ([103;115;114;110;45;57;120;58;50;46;51;50;46;55], false, None)]);
  (T_GSRNP_TAG_URI_BODY,
   [([], false, None);
    ([103;114;110;112;45;57;54;58;48;46;48;46;52;54;49;57], false, None);
    ([103;115;114;110;46;45;57;54;58;50;57;53;65305;46;57;49;50;56;46;54;50], false, None);
    ([103;115;114;110;112;45;57], false, None);
    ([103;115;114;110;112;45;57;53;58;50;57;53;65305;46;57;49;50;56;46;54;50], false, None);
    ([103;115;114;110;112;45;57;54;58;46;1635;53;51;57;46;55;50;49], false, None);
    ([103;115;114;110;112;45;57;54;58;48;46;48;46;52;54;49;57], true, Some 17%nat);
    ([103;115;114;110;112;45;57;54;58;48;46;57;54;51;56;46;54;50;52;33;52], false, Some 19%nat);
    ([103;115;114;110;112;45;57;54;58;48;46;57;54;51;56;46;54;50;52;52], true, Some 20%nat);
    ([103;115;114;110;112;45;57;54;58;48;46;57;54;51;56;46;54;50;52;52;10], false, Some 20%nat);
    ([103;115;114;110;112;45;57;54;58;48;46;1635;53;51;57;46;55;50;49], true, Some 19%nat);
    ([103;115;114;110;112;45;57;54;58;48;46;1635;53;51;57;46;55;50;49;59;55], false, Some 19%nat);
    ([103;115;114;110;112;45;57;54;58;50;57;53;65305;46;57;49;50;56;46;54;50], true, Some 21%nat);
    ([103;115;114;110;112;45;57;54;58;53;46;56;52;56;55;48;46;54;53;56], true, Some 20%nat);
    ([103;115;114;110;112;45;57;54;58;53;46;56;56;55;48;46;54;53;56], true, Some 19%nat);
    ([103;115;114;110;112;45;57;54;58;53;46;56;58;56;55;48;46;54;53;56], false, None);
    ([103;115;114;110;112;57;54;58;48;46;57;54;51;56;46;54;50;52;52], false, None);
    ([103;115;114;110;121;45;57;54;58;50;57;65305;46;57;49;50;56;46;54;50], false, None);
    ([103;115;114;112;45;57;54;58;53;46;56;56;55;48;46;54;53;56], false, None);
    ([115;114;110;112;45;57;54;58;48;46;48;46;52;54;49;57], false, None)]);
  (T_GDTI_TAG_URI_BODY,
   [([], false, None);
    ([103;40;100;116;105;45;49;55;52;58;54;49;54;57;46;51;55;46;56;48;46;41;37;70], false, None);
    ([103;47;100;116], false, None);
    ([103;100;116;105;45;49;55;52;58;48;46;54;51;48;46;57;49;46;37;54;37;56;37;56;44], true, Some 25%nat);
    ([103;100;116;105;45;49;55;52;58;48;46;54;51;48;46;57;52;49;46;37;54;37;56;37;56;44], true, Some 26%nat);
    ([103;100;116;105;45;49;55;52;58;48;102;46;54;51;48;46;57;52;49;46;54;37;56;37;56;44], false, None);
    ([103;100;116;105;45;49;55;52;58;49;52;46;48;52;46;50;46;37;102;37;66;54], true, Some 22%nat);
    ([103;100;116;105;45;49;55;52;58;49;53;46;48;52;46;50;46;37;102;37;66;54], true, Some 22%nat);
    ([103;100;116;105;45;49;55;52;58;49;53;46;48;52;46;50;46;37;102;66;54], true, Some 21%nat);
    ([103;100;116;105;45;49;55;52;58;52;49;55;56;46;49;50;46;1635;56;46;37;101], true, Some 22%nat);
    ([103;100;116;105;45;49;55;52;58;52;49;55;56;46;49;50;46;1635;56;48;46;37;101], true, Some 23%nat);
    ([103;100;116;105;45;49;55;52;58;52;49;55;56;46;49;50;46;1635;56;48;46;37;101;44], true, Some 24%nat);
    ([103;100;116;105;45;49;55;52;58;54;49;54;57;46;51;55;46;56;48;46], false, None);
    ([103;100;116;105;45;49;55;52;58;54;49;54;57;46;51;55;46;56;48;46;41;37;70], true, Some 23%nat);
    ([103;100;116;105;45;49;55;52;66;58;54;49;54;57;46;51;55;46;56;48;46;41;37;70], false, None);
    ([103;100;116;105;45;49;55;52;121;58;49;53;46;48;52;46;50;46;37;102;37;66;54], false, None);
    ([103;100;116;105;45;49;55;61;52;58], false, None);
    ([103;100;116;105;45;56;57;54;58;48;46;55;46;46;54;37;102;37;101;37;69;62], false, None);
    ([103;100;116;105;45;57;54;58;48;46;55;42;46;46;54;37;102;37;101;37;69], false, None);
    ([103;100;116;105;45;57;54;58;48;46;55;46;46;54;37;102;37;101;37;69], true, Some 20%nat);
    ([103;116;105;45;57;54;58;48;46;55;46;46;54;37;102;37;101;37;69], false, None)]);
  (T_CPI_TAG_URI_BODY,
   [([], false, None);
    ([99;112;105;33;57;54;58;48;46;52;49;54;46;37;50;70;46;55;51], false, None);
    ([99;112;105;45;52;54;58;57;46;50;46;54;37;50;70;37;50;51;46;48], false, None);
    ([99;112;105;45;57;38;48;46;50;52;46;48;71;46;48], false, None);
    ([99;112;105;45;57;54;57;46;50;46;54;37;50;70;37;50;51;46;48], false, None);
    ([99;112;105;45;57;54;58;48;46;45;52;46;48;71;46;48], false, None);
    ([99;112;105;45;57;54;58;48;46;50;52;46;48;71;46;48], true, Some 16%nat);
    ([99;112;105;45;57;54;58;48;46;52;49;46;37], false, None);
    ([99;112;105;45;57;54;58;48;46;52;49;54;37;50;70;46;55;51], false, None);
    ([99;112;105;45;57;54;58;48;46;52;49;54;46;37;50;70;46;55;51], true, Some 19%nat);
    ([99;112;105;45;57;54;58;57;46;50;46;54;37;50;70;37;50;51;46;48], true, Some 20%nat);
    ([99;112;105;45;57;54;58;57;46;50;46;54;37;50;70;37;50;51;46;48;59], false, Some 20%nat);
    ([99;112;105;45;57;58;48;46;50;52;46;48;71;46;48], false, None);
    ([99;112;105;45;118;97;114;58;48;46;52;52;46;37;50;70;37;50;51;46;48], true, Some 21%nat);
    ([99;112;105;45;118;97;114;58;48;46;62;52;46;37;70;37;50;51;46;48], false, None);
    ([99;112;105;45;118;97;114;58;48;46;1635;52;46;37;50;70;37;50;51;46;48], true, Some 21%nat);
    ([99;112;105;45;118;97;114;58;54;54;49;46;51;46;52;46;48], true, Some 17%nat);
    ([99;112;105;45;118;97;114;58;54;54;49;46;51;46;52;120;46;48], false, None);
    ([99;112;105;45;118;97;114;58;54;54;49;51;46;52;46;48], false, None);
    ([99;112;105;45;118;121;114;58;48;46;52;52;46;37;50;70;37;50;51;46;48], false, None);
    ([112;105;45;118;97;114;58;54;54;49;46;51;46;52;46;48], false, None)]);
  (T_SGCN_TAG_URI_BODY,
   [([], false, None);
    ([38;103;99;110;45;57;54;58;55;56;50;51;46;55;49;46;54;46;56;54], false, None);
    ([115;99;110;45;57;54;58;52;46;51;50;46;46;57], false, None);
    ([115;102;103;99;110;45;57;54;58;48;46;49;53;52;46;46;57;56;65305], false, None);
    ([115;103;48;110;45;57;54;58;56;38;52;46;54;49;46;49;46;53], false, None);
    ([115;103;99;47;45;57;54;58;52;46;51;50;46;46;57], false, None);
    ([115;103;99;48;45;57;54;58;55;56;50;51;46;55;46;54;46;56;54], false, None);
    ([115;103;99;110;45;57;54;35;58;52;46;51;46;46;57], false, None);
    ([115;103;99;110;45;57;54;58;48;46;49;53;52;46;46;57;56;65305], true, Some 18%nat);
    ([115;103;99;110;45;57;54;58;48;46;49;53;52;46;46;57;65305], true, Some 17%nat);
    ([115;103;99;110;45;57;54;58;50;46;55], false, None);
    ([115;103;99;110;45;57;54;58;50;46;55;54;51;34;53;46;51;53], false, None);
    ([115;103;99;110;45;57;54;58;50;46;55;54;54;51;46;53;46;51;53], true, Some 19%nat);
    ([115;103;99;110;45;57;54;58;50;46;55;54;54;51;53;46;51;53], false, None);
    ([115;103;99;110;45;57;54;58;52;46;51;50;46;46;57], true, Some 15%nat);
    ([115;103;99;110;45;57;54;58;55;56;50;51;46;55;49;46;54;46;56;54], true, Some 20%nat);
    ([115;103;99;110;45;57;54;58;55;56;50;51;46;55;49;51;54;46;56;54;63], false, None);
    ([115;103;99;110;45;57;54;58;56;52;46;54;49;46;49;46;53], true, Some 17%nat);
    ([115;103;99;110;45;57;54;58;56;52;46;54;61;46;49;46;59], false, None);
    ([115;103;99;110;45;57;54;95;48;46;49;53;52;46;46;57;56;65305], false, None);
    ([115;103;99;110;57;57;54;58;95;52;46;54;49;46;49;46;53], false, None)]);
  (T_ITIP_TAG_URI_BODY,
   [([], false, None);
    ([105;105;112;45;50;49;50;58;52;56;46;49;46;51;54;53;53;46;48;52;46;56;55;46;37;68], false, None);
    ([105;116;105], false, None);
    ([105;116;105;42;45;50;49;50;58;48;46;48;46;51;1635;50;46;49;46;48;52;56;57;46;37;67], false, None);
    ([105;116;105;112;45;49;49;48;34;48;46;55;46;56;53;51;46;56;57;46;57;52;56;52;46;37;68;37;100], false, None);
    ([105;116;105;112;45;49;49;48;58;48;46;55;46;56;53;51;46;56;57;46;57;52;56;52;46;37;68;37;45], false, Some 27%nat);
    ([105;116;105;112;45;49;49;48;58;48;46;55;46;56;53;51;46;56;57;46;57;52;56;52;46;37;68;37;100], true, Some 29%nat);
    ([105;116;105;112;45;49;49;48;58;48;46;55;46;56;53;51;46;56;57;46;57;52;56;52;46;37;178;37;100], false, None);
    ([105;116;105;112;45;49;49;48;58;55;46;55;52;46;55;46;48;55;46;1635;46;67;37;99;61], true, Some 25%nat);
    ([105;116;105;112;45;49;49;48;58;55;46;55;52;46;55;46;60;122;55;46;1635;46;67;37;99;61], false, None);
    ([105;116;105;112;45;49;49;48;58;55;46;55;52;46;233;46;48;55;46;1635;46;37;99;61], false, None);
    ([105;116;105;112;45;49;49;48;58;55;46;55;121;46;55;46;48;55;46;1635;46;67;37;99;61], false, None);
    ([105;116;105;112;45;50], false, None);
    ([105;116;105;112;45;50;49;50;58;48;46;48;46;51;1635;50;46;49;38;48;52;56;57;46;37;67], false, None);
    ([105;116;105;112;45;50;49;50;58;48;46;48;46;51;1635;50;46;49;46;48;52;56;57;46;37;67], true, Some 26%nat);
    ([105;116;105;112;45;50;49;50;58;52;46;56;48;46;51;50;46;52;54;56;48;40;46;54;46;40;37;102], false, None);
    ([105;116;105;112;45;50;49;50;58;52;46;56;48;46;51;50;46;52;54;56;48;46;54;46;40;37;102], true, Some 27%nat);
    ([105;116;105;112;45;50;49;50;58;52;46;56;48;46;51;50;100;46;52;54;56;48;46;54;46;40;37;102], false, None);
    ([105;116;105;112;45;50;49;50;58;52;56;46;49;46;51;54;53;53;46;48;52;46;56;55;46;37;68], true, Some 27%nat);
    ([105;116;105;112;45;50;49;50;58;52;56;121;49;46;51;54;53;53;46;48;52;46;56;55;46;37;68], false, None);
    ([105;116;105;112;45;50;49;57;50;58;48;46;48;46;51;1635;50;46;49;46;48;52;56;57;46;37;67], false, None)]);
  (T_GID_TAG_URI_BODY,
   [([], false, None);
    ([103;105;44;45;57;54;58;48;46;48;46;48], false, None);
    ([103;105;45;57;54;58;48;46;53;49;51;46;48], false, None);
    ([103;105;100;32;57;54;58;48;46;51;46;53], false, None);
    ([103;105;100;42;45;57;54;58;48;46;48;46;48], false, None);
    ([103;105;100;45;57;54;58;48;46;38;46;48], false, None);
    ([103;105;100;45;57;54;58;48;46;48;46;48], true, Some 12%nat);
    ([103;105;100;45;57;54;58;48;46;48;46;48;47], false, Some 12%nat);
    ([103;105;100;45;57;54;58;48;46;51;46;53], true, Some 12%nat);
    ([103;105;100;45;57;54;58;48;46;51;46;53;62], false, Some 12%nat);
    ([103;105;100;45;57;54;58;48;46;53;49;51;46;48], true, Some 14%nat);
    ([103;105;100;45;57;54;58;48;58;53;49;51;46;48], false, None);
    ([103;105;100;45;57;54;58;48;59;51;46;53], false, None);
    ([103;105;100;45;57;54;58;48;95;46;48;48], false, None);
    ([103;105;100;45;57;54;58;57;48;54;51;46;49;56;46;48], true, Some 16%nat);
    ([103;105;100;45;57;54;58;57;48;54;51;46;52;49;56;46;48], true, Some 17%nat);
    ([103;105;100;45;57;54;58;57;48;54;51;46;52;49;56;48], false, None);
    ([103;105;100;45;57;120;54;58;48;46;53;49;51;46;48], false, None);
    ([103;121;100;45;57;54;58;48;48;46;48], false, None);
    ([122;105;100;45;57;54;58;57;48;54;51;46;52;49;56;46;48], false, None)]);
  (T_USDOD_TAG_URI_BODY,
   [([], false, None);
    ([101;117;10;115;100;111;100;45;57;54;58;48;46;78;77;85;78;76;46;56;50], false, None);
    ([117;115;100;53;111;100;45;57;54;58;54;46;69;74;71;69;61;75;46;48], false, None);
    ([117;115;100;111;40;45;57;54;58;48;46;89;57;89;83;54;46;48], false, None);
    ([117;115;100;111;45;57;54;58;48;46;89;76;57;89;83;54;46;48], false, None);
    ([117;115;100;111;100;45;57;54;58;46;53;72;52;56;49;86;46;48;55], false, None);
    ([117;115;100;111;100;45;57;54;58;48;35;78;77;85;78;76;46;56;50], false, None);
    ([117;115;100;111;100;45;57;54;58;48;46;78;77;85;78;76;46;56;50], true, Some 19%nat);
    ([117;115;100;111;100;45;57;54;58;48;46;89;76;57;89;83;54;46;48], true, Some 19%nat);
    ([117;115;100;111;100;45;57;54;58;49;46;85;57;53;77;66;86;46;48], true, Some 19%nat);
    ([117;115;100;111;100;45;57;54;58;49;46;85;57;53;77;66;86;46;48;100], false, Some 19%nat);
    ([117;115;100;111;100;45;57;54;58;49;46;85;57;53;77;66;86;60;48], false, None);
    ([117;115;100;111;100;45;57;54;58;49;46;85;57;53;77;66;86;122;48], false, None);
    ([117;115;100;111;100;45;57;54;58;54;46;69;74;71;69;67;46;48], true, Some 18%nat);
    ([117;115;100;111;100;45;57;54;58;54;46;69;74;71;69;75;46;48], true, Some 18%nat);
    ([117;115;100;111;100;45;57;54;58;56;46;53;72;52;56;49;86;46;48], true, Some 19%nat);
    ([117;115;100;111;100;45;57;54;58;56;46;53;72;52;56;49;86;46;48;120], false, Some 19%nat);
    ([117;115;100;111;100;45;57;54;58;56;46;53;72;56;49;86;46;48], true, Some 18%nat);
    ([117;115;100;111;100;45;57;54;178;54;46;69;74;71;69;75;46;48], false, None);
    ([117;115;100;111;100;45;57;58;48;46;89;76;57;89;83;54;46;48], false, None);
    ([117;233;115;100;111;100;45;57;54;58;48;46;78;77;85;78;76;46;56;50], false, None)]);
  (T_ADI_TAG_URI_BODY,
   [([], false, None);
    ([97;100;50;45;118;97;114;58;51;49;51;46;71;54;76;66;56;50;46;37;50;70;46;37;50;51;37;50;70;37;50;70], false, None);
    ([97;100;61;45;118;97;114;58;48;46;87;52;81;48;88;76;46;46;37;50;51;45;55], false, None);
    ([97;100;105;45;118;97;114;58;46;56;83;87;65;85;56;46;46;37;50;51;45], false, None);
    ([97;100;105;45;118;97;114;58;46;87;35;81;48;88;76;46;46;37;50;51;45;55], false, None);
    ([97;100;105;45;118;97;114;58;48;46;56;83;54;65;85;56;46;46;37;50;51;45], true, Some 22%nat);
    ([97;100;105;45;118;97;114;58;48;46;56;83;87;65;85;56;46;42;37;50;51;45], false, None);
    ([97;100;105;45;118;97;114;58;48;46;56;83;87;65;85;56;46;46;37;50;51;45], true, Some 22%nat);
    ([97;100;105;45;118;97;114;58;48;46;87;52;81;48;88;76;46;46;37;50;51;45;55], true, Some 23%nat);
    ([97;100;105;45;118;97;114;58;48;46;87;52;81;48;88;76;46;46;37;50;51;45;55;67], true, Some 24%nat);
    ([97;100;105;45;118;97;114;58;50;46], false, None);
    ([97;100;105;45;118;97;114;58;50;46;48;78;56;75;85;70;46;46;37;50;51;37;50;70], true, Some 24%nat);
    ([97;100;105;45;118;97;114;58;50;46;54;78;56;65;85;70;46;46;37;50;51;50;70], true, Some 23%nat);
    ([97;100;105;45;118;97;114;58;50;46;54;78;56;75;85;70;46;46;37;50;51;37;50;70], true, Some 24%nat);
    ([97;100;105;45;118;97;114;58;51;49;51;46;71;54;76;66;56;50;46;37;50;70;37;50;51;37;50;70;37;1635;70], false, None);
    ([97;100;105;45;118;97;114;58;51;49;51;46;71;54;76;66;56;50;46;37;50;70;46;37;50;51;37;50;70;37;50;70], true, Some 32%nat);
    ([97;100;105;45;118;97;114;58;51;49;51;46;71;56;76;66;56;50;46;37;50;70;46;37;50;51;37;50;70;37;50;70], true, Some 32%nat);
    ([97;100;105;45;118;97;114;58;54;46;84], false, None);
    ([97;100;105;45;118;97;114;58;54;46;84;52;88;49;76;53;46;46;37;50;70], true, Some 21%nat);
    ([97;100;105;45;118;97;114;58;54;46;84;52;88;76;76;53;46;46;37;50;70], true, Some 21%nat);
    ([97;100;105;45;118;97;114;58;54;46;84;52;88;76;76;53;46;46;37;59;50;70], false, None)]);
  (T_TAG_URI_BODY,
   [([], false, None);
    ([99;112;105;45;118;97;32;58;48;46;53;46;37;50;70;37;50;51;46;57], false, None);
    ([99;112;105;45;118;97;114;58;48;46;53;46;37;50;70;37;50;51;10;46;57], false, None);
    ([99;112;105;45;118;97;114;58;48;46;53;46;37;50;70;37;50;51;46;57], true, Some 20%nat);
    ([103;105;100;33;57;54;58;48;46;48;46;55;49], false, None);
    ([103;105;100;45;57;54;58;48;46;48;46;55;49], true, Some 13%nat);
    ([103;105;100;45;57;54;58;48;46;48;46;55;49;102], false, Some 13%nat);
    ([103;105;100;45;57;54;58;54;46;48;46;53;48], true, Some 13%nat);
    ([103;105;100;45;57;54;58;54;46;48;46;53;55], true, Some 13%nat);
    ([103;105;100;45;57;54;58;54;48;46;53;48], false, None);
    ([103;105;100;45;57;122;58;54;46;48;46;53;48], false, None);
    ([103;105;100;61;57;54;58;48;46;48;46;55;49], false, None);
    ([115;50;103;99;110;45;57;54;58;55;46;1635;57;46;55;51;49;46;57;49;53;56], false, None);
    ([115;103;45;110;45;49;57;53;58;48;46;49;56;56;50;46;54;46;37;70;40], false, None);
    ([115;103;99;45;57;54;58;55;46;1635;57;46;55;51;59;46;57;49;53;56], false, None);
    ([115;103;99;110;45;57;54;58;55;46;1635;57;46;55;51;49;46;57;49;53;56], true, Some 21%nat);
    ([115;103;99;110;45;57;54;58;55;46;1635;57;46;58;55;51;49;46;57;49;53;56], false, None);
    ([115;103;108;110;45;49;57;53;48;46;49;56;56;50;46;54;54;46;37;70;40], false, None);
    ([115;103;108;110;45;49;57;53;58;48;46;49;56;56;50;46;54;54;46;37;70;40], true, Some 22%nat);
    ([115;103;108;110;45;49;57;121;58;48;46;49;56;56;50;46;54;54;46;37;70;40], false, None);
    ([121;112;105;45;118;97;114;58;48;46;53;46;37;50;70;37;50;51;46;57], false, None)]);
  (T_TAG_URI,
   [([], false, None);
    ([117;56;110;58;101;112;99;58;116;97;103;58;103;105;100;45;57;54;58;48;46;48;46;56], false, None);
    ([117;114;110;58;101;112;62;99;58;116;97;103;58;115;103;99;110;45;57;54;58;52;56;46;57;54;56;53;46;55;46;57;52;57;48], false, None);
    ([117;114;110;58;101;112;99;32;58;116;97;103;58;105;116;105;112;45;49;49;48;58;48;46;49;56;56;46;50;46;55;49;52;51;46;54;46;40], false, None);
    ([117;114;110;58;101;112;99;58;97;103;58;97;100;105;45;118;97;114;58;48;37;46;68;81;51;89;56;46;46;37;50;51;37;50;70;37;50;70;45;37;50;70], false, None);
    ([117;114;110;58;101;112;99;58;97;103;58;105;116;105;112;45;50;49;50;58;56;53;55;46;53;46;53;48;46;51;48;51;57;46;49;46;41], false, None);
    ([117;114;110;58;101;112;99;58;116;97;103;58;97;100;105;45;118;97;114;58;48;46;68;81;51;89;56;46;46;37;50;51;37;50;70;37;50;70;45;37;50;70], true, Some 42%nat);
    ([117;114;110;58;101;112;99;58;116;97;103;58;97;100;105;45;118;97;114;58;48;46;68;81;51;89;56;46;61;37;50;51;37;50;70;37;50;70;45;37;50;70], false, None);
    ([117;114;110;58;101;112;99;58;116;97;103;58;97;100;105;45;118;97;114;58;48;46;68;81;51;89;65;46;46;37;50;51;37;50;70;37;50;70;45;37;50;70], true, Some 42%nat);
    ([117;114;110;58;101;112;99;58;116;97;103;58;97;100;105;45;118;97;114;58;48;46;89;65;76;49;75;69;46;37;50;70;46;37;50;51;88;37;50;70], true, Some 40%nat);
    ([117;114;110;58;101;112;99;58;116;97;103;58;97;100;105;45;118;97;114;58;48;46;89;65;76;49;75;69;46;60;50;70;46;37;50;51;88;37;50;70], false, None);
    ([117;114;110;58;101;112;99;58;116;97;103;58;97;100;105;45;118;97;114;58;53;56;53;48;46;74;77;54;65;80;74;46;37;50;70;37;50;70;69;46;37;50;51;37;50;70;37;50;70;84], true, Some 50%nat);
    ([117;114;110;58;101;112;99;58;116;97;103;58;97;100;105;45;118;97;114;58;53;56;53;48;46;74;77;54;65;80;74;46;37;50;70;37;50;70;69;46;37;121;51;37;50;70;37;50;70;84], false, None);
    ([117;114;110;58;101;112;99;58;116;97;103;58;97;100;105;45;118;97;114;58;53;56;53;48;46;74;77;54;65;233;74;46;37;50;70;37;50;70;69;46;37;50;51;37;50;70;37;50;70;84], false, None);
    ([117;114;110;58;101;112;99;58;116;97;103;58;97;100;105;121;45;118;97;114;58;53;56;53;48;46;74;77;54;65;80;74;46;37;50;70;37;50;70;69;46;37;50;51;37;50;70;37;50;70;84], false, None);
    ([117;114;110;58;101;112;99;58;116;97;103;58;99;112;105;45;118;97;114;58;53;46;50;46;45;46;57], true, Some 27%nat);
    ([117;114;110;58;101;112;99;58;116;97;103;58;99;112;105;45;118;97;114;58;53;48;46;50;46;45;46;57], true, Some 28%nat);
    ([117;114;110;58;101;112;99;58;116;97;103;58;103;105;38;100;45;57;58;48;46;48;46;52;55], false, None);
    ([117;114;110;58;101;112;99;58;116;97;103;58;103;105;97;105;45;50;48;50;37;54;54;53;46;113;37;52;37;102;37;49], false, None);
    ([117;114;110;58;101;112;99;58;116;97;103;58;103;105;97;105;45;50;48;50;58;54;46;54;51;53;46;37;68;37;102], true, Some 31%nat);
    ([117;114;110;58;101;112;99;58;116;97;103;58;103;105;97;105;45;50;48;50;58;54;46;54;51;53;46;61;37;68;37;102], true, Some 32%nat);
    ([117;114;110;58;101;112;99;58;116;97;103;58;103;105;97;105;45;50;48;50;58;54;46;54;53;46;113;37;52;37;102;37;49], true, Some 33%nat);
    ([117;114;110;58;101;112;99;58;116;97;103;58;103;105;97;105;45;57;54;58;55;57;51;49;46;65305;48;1635;37;70;37;53;40;37;49], false, None);
    ([117;114;110;58;101;112;99;58;116;97;103;58;103;105;97;105;45;57;54;58;55;57;51;49;46;65305;48;1635;46;37;70;37;53;40;37;49], true, Some 36%nat);
    ([117;114;110;58;101;112;99;58;116;97;103;58;103;105;100;45;57;54;58;47;48;46;48;46;52;55], false, None);
    ([117;114;110;58;101;112;99;58;116;97;103;58;103;105;100;45;57;54;58;48;46;48;46;52;55], true, Some 25%nat);
    ([117;114;110;58;101;112;99;58;116;97;103;58;103;105;100;45;57;54;58;48;46;48;46;56], true, Some 24%nat);
    ([117;114;110;58;101;112;99;58;116;97;103;58;103;105;100;45;57;54;58;48;46;48;46;58;55], false, None);
    ([117;114;110;58;101;112;99;58;116;97;103;58;103;105;100;45;57;54;58;50;52;46;52;48;51;57;46;52;52], true, Some 29%nat);
    ([117;114;110;58;101;112;99;58;116;97;103;58;103;105;100;45;57;54;58;50;52;46;52;48;51;57;46;52;52;101], false, Some 29%nat);
    ([117;114;110;58;101;112;99;58;116;97;103;58;103;115;114;110;112;45;57;54;58;46;57;1635;46;56], false, None);
    ([117;114;110;58;101;112;99;58;116;97;103;58;103;115;114;110;112;45;57;54;58;48;46;57;1635;46;56], true, Some 27%nat);
    ([117;114;110;58;101;112;99;58;116;97;103;58;105;116;105;112;45;49;49;48;58;48;46;49;56;56;46;50;46;55;49;52;51;46;54;46;40], true, Some 37%nat);
    ([117;114;110;58;101;112;99;58;116;97;103;58;105;116;105;112;45;49;49;48;58;52;46;49;46;52;56;56;56;46;52;52;52;1635;46;50;56;46;37;51], true, Some 40%nat);
    ([117;114;110;58;101;112;99;58;116;97;103;58;105;116;105;112;45;49;49;48;58;52;46;49;46;52;56;56;56;46;52;52;52;1635;46;50;56;46;37;51;33], true, Some 41%nat);
    ([117;114;110;58;101;112;99;58;116;97;103;58;105;116;105;112;45;50;49;50;58;56;53;55;46;53;46;53;48;46;51;48;51;57;46;53;49;46;41], true, Some 39%nat);
    ([117;114;110;58;101;112;99;58;116;97;103;58;115;103;99;110;45;57;54;58;52;56;46;57;54;56;53;46;55;46;57;52;57;48], true, Some 34%nat);
    ([117;114;110;58;101;112;99;58;116;97;103;58;115;103;99;110;45;57;54;58;52;56;46;57;54;56;53;46;55;46;57;52;100;48], false, Some 32%nat);
    ([117;114;110;58;101;112;99;58;116;97;103;58;115;103;99;110;45;57;54;58;52;56;46;57;54;67;56;53;46;55;46;57;52;57;48], false, None);
    ([117;114;110;58;101;112;99;58;116;97;103;58;115;103;116;105;110;45;57;54;58;48;46;56;55;46;53;54;57;46;37;54;37;67], true, Some 34%nat);
    ([117;114;110;58;101;112;99;58;116;97;103;58;115;103;116;105;110;45;57;54;58;48;46;56;55;46;53;54;57;46;37;54;37;95], false, Some 32%nat);
    ([117;114;110;58;101;112;99;58;116;97;103;58;115;115;99;99;45;57;54;58;54;50;51;46;48;56;54;46;49;53;65305;54], true, Some 32%nat);
    ([117;114;110;58;101;112;99;58;116;97;103;58;115;115;99;99;45;57;54;58;54;50;51;46;48;56;54;46;49;53;65305;54;120], false, Some 32%nat);
    ([117;114;110;58;101;112;99;100;116;97;103;58;99;112;105;45;97;114;58;53;48;46;50;46;45;46;57], false, None);
    ([117;114;110;58;101;112;99;122;116;97;103;58;99;112;105;45;118;97;114;58;53;48;46;50;46;45;46;57], false, None)]);
  (T_SGTIN_GS1_ELEMENT_STRING,
   [([], false, None);
    ([40;32;48;49;41;53;49;50;53;48;49;51;53;51;55;57;55;57;54;40;50;49;41;60;38;58;40], false, None);
    ([40;48;49;41;48;54;54;56;50;50;57;50;51;57;50;57;56;53;40;50;49;41;61;47;45;34;38;40;42;33;95;38;61;39;112;95;60;38;95;41;45;74], true, Some 42%nat);
    ([40;48;49;41;48;54;54;56;50;50;57;50;51;57;50;57;56;53;40;50;49;41;61;47;45;34;38;40;42;33;95;38;61;39;112;95;60;38;100;41;45;74], true, Some 42%nat);
    ([40;48;49;41;48;55;48;56;56;54;52;50;53;51;49;57;54;55;40;50;49;41;33], true, Some 23%nat);
    ([40;48;49;41;48;55;48;56;56;54;52;50;53;51;49;57;54;55;40;50;49;41;59], true, Some 23%nat);
    ([40;48;49;41;48;55;48;56;56;54;52;50;53;51;49;57;54;55;40;178;49;41;33], false, None);
    ([40;48;49;41;48;55;121;56;56;54;52;50;53;51;49;57;54;55;40;50;49;41;33], false, None);
    ([40;48;49;41;51;50;48;50;53;52;57;1635;54;1635;51;54;50;57;40;50;49;41;40;37;61;41;58;58;39;60;43;42;95;51;43;58;47;104;60;63;43;81], true, Some 42%nat);
    ([40;48;49;41;51;50;48;50;53;52;57;1635;54;1635;51;54;50;57;40;50;49;41;40;37;61;41;58;58;39;60;43;42;95;51;43;58;47;104;60;63;43;81;51], false, Some 42%nat);
    ([40;48;49;41;51;50;48;50;53;52;57;1635;54;1635;51;54;50;57;40;50;49;41;40;37;61;41;58;58;39;60;43;42;95;51;43;58;47;104;60;63;43;121], true, Some 42%nat);
    ([40;48;49;41;52;49;52;49;53;52;49;55;55;48;57;51;56;57;40;50;49;41;41;95;34;40;38;33;63;38;40;53;59;34;38;44;58;59;56;60;38;41;48;38], false, Some 42%nat);
    ([40;48;49;41;52;49;52;49;53;52;49;55;55;48;57;51;56;57;40;50;49;41;41;95;34;40;38;33;63;38;40;59;34;38;44;58;59;60;38;41;48;38], true, Some 42%nat);
    ([40;48;49;41;52;49;52;49;53;52;49;55;57;48;57;51;56;178;40;50;49;41;41;95;34;40;38;33;63;38;40;59;34;38;44;58;59;60;38;41;48;38], false, None);
    ([40;48;49;41;52;51;57;55;56;48;56;53;53;54;54;57;1635;50;40;50;49;41;34;52;42;41;63;112;115;59;63;48;98;41;59;59;51;38;53;69;44;42], true, Some 42%nat);
    ([40;48;49;41;52;51;57;55;56;48;56;53;53;54;54;57;1635;50;40;50;49;41;34;52;42;41;63;112;115;59;63;48;98;41;59;59;51;38;53;95;44;42], true, Some 42%nat);
    ([40;48;49;41;52;56;54;53;52;52;51;52;54;57;50;53;55;57;40;50;49;41;43], true, Some 23%nat);
    ([40;48;49;41;52;56;54;53;52;52;51;52;54;57;50;53;55;57;40;50;49;102;43], false, None);
    ([40;48;49;41;53;49;50;52;55;48;53;56;55;55;52;57;53;54;40;50;49;41;39], true, Some 23%nat);
    ([40;48;49;41;53;49;50;52;55;48;53;56;55;55;52;57;53;54;40;50;49;41;39;95], true, Some 24%nat);
    ([40;48;49;41;53;49;50;53;48;49;51;53;51;55;57;55;57;54;40;50;41;60;38;40], false, None);
    ([40;48;49;41;53;49;50;53;48;49;51;53;51;55;57;55;57;54;40;50;49;41;60;38;58;40], true, Some 26%nat);
    ([40;48;49;41;53;54;53;57;48;55;51;48;48;51;51;48;57;40;50;49;41;61;47;95;60], false, None);
    ([40;48;49;41;53;54;53;57;48;55;51;50;48;48;51;51;48;57;40;50;49;41;61;47;95;60], true, Some 26%nat);
    ([40;48;49;41;54;40;57;50;50;49;56;51;50;51;56;53;49;48;40;50;49;41;34], false, None);
    ([40;48;49;41;54;52;57;50;50;49;56;51;50;51;56;53;49;48;40;50;49;41;34], true, Some 23%nat);
    ([40;48;49;41;55;48;48;53;49;56;57;54;48;54;49;48;57;53;40;50;49;41;115;39;37;40;76;44;41;41;43;43;39;58;47;43;46;60;43;42;34;39], true, Some 42%nat);
    ([40;48;49;41;55;48;48;53;49;56;57;54;48;54;49;48;57;53;40;50;49;41;115;39;37;76;44;41;41;43;43;39;58;47;43;46;60;43;42;34;39], true, Some 41%nat);
    ([40;48;49;41;55;53;65305;52;52;51;53;55;56;53;48;49;52;52;40;50;49;41;40;62;34;41], true, Some 26%nat);
    ([40;48;49;41;55;53;65305;52;52;51;53;55;56;53;48;49;52;52;40;50;49;41;40;62;34;41;100], true, Some 27%nat);
    ([40;48;49;41;56;48;54;54;54;50;52;55;52;55;54;55;48;54;40;50;49;41;63;46;42;87;88;102;95;60;63;43;46;61;34;61;60;47;47;40;62;43], true, Some 42%nat);
    ([40;48;49;41;56;48;54;54;54;50;52;55;52;55;55;54;55;48;54;40;50;49;41;63;46;42;87;88;102;95;60;63;43;46;61;34;61;60;47;47;40;62;43], false, None);
    ([40;48;49;41;56;56;57;56;54;50;49;54;55;57;48;57;49;54;40;50;49;41;101;47;58;63;47;107;61;68;39;38;44;40;61;63;59;42;42;47;41;41], true, Some 42%nat);
    ([40;48;49;41;56;56;57;56;54;50;49;54;55;57;48;57;49;54;40;50;49;41;101;47;58;63;47;107;61;68;39;38;44;45;40;61;63;59;42;42;47;41;41], false, Some 42%nat);
    ([40;48;49;41;57;1635;50;50;51;56;50;56;54;54;50;55;40;50;49;41;60], false, None);
    ([40;48;49;41;57;1635;50;53;50;56;51;56;50;56;54;54;50;55;40;50;49;41;60], true, Some 23%nat);
    ([40;48;49;41;57;1635;50;95;50;56;51;56;50;56;54;54;50;55;34;40;50;49;41;60], false, None);
    ([40;48;49;41;1635;53;50;57;48;55;54;57;53;54;54;53;57;49;40;50;49;41;79;37], true, Some 24%nat);
    ([40;48;49;41;65305;56;52;51;50;48;45;49;49;54;56;55;56;51;52;40;50;49;41;59;60], false, None);
    ([40;48;49;41;65305;56;52;51;50;48;49;49;54;56;55;56;51;52;40;50;49;41;59;60], true, Some 24%nat);
    ([40;48;49;44;41;53;49;50;53;48;49;51;53;51;55;57;55;57;54;40;50;49;41;60;38;58;40], false, None);
    ([40;48;49;57;1635;50;53;50;56;51;56;50;56;54;54;50;55;40;50;49;41;60], false, None);
    ([40;49;41;1635;53;50;57;48;55;54;57;53;54;54;63;53;57;49;40;50;49;41;79;37], false, None);
    ([65;48;49;41;52;49;52;49;53;52;49;55;55;48;57;51;56;57;40;50;49;41;41;95;34;40;38;33;63;38;40;59;34;38;44;58;59;60;38;41;48;38], false, None);
    ([100;48;49;41;51;50;48;50;53;52;57;1635;1635;51;54;50;57;40;50;49;41;40;37;61;41;58;58;39;60;43;42;95;51;43;58;47;104;60;63;43;81], false, None)]);
  (T_SSCC_GS1_ELEMENT_STRING,
   [([], false, None);
    ([40;48;48;41], false, None);
    ([40;48;48;41;48;52;55;57;52;46;48;56;49;54;50;67;56;51;54;48;65305;54], false, None);
    ([40;48;48;41;48;52;55;57;52;53;42;48;56;49;54;50;65305;56;51;54;48;65305;54], false, None);
    ([40;48;48;41;48;52;55;57;52;53;48;56;49;54;50;65305;56;51;54;48;65305;54], true, Some 22%nat);
    ([40;48;48;41;48;52;55;57;52;53;48;56;49;54;50;65305;56;51;54;65305;54], false, None);
    ([40;48;48;41;48;55;56;53;57;51;48;65305;53;55;53;48;49;48;48;56;55;55], true, Some 22%nat);
    ([40;48;48;41;48;55;56;53;57;51;48;65305;53;55;53;48;49;48;48;56;55;55;37], false, Some 22%nat);
    ([40;48;48;41;48;56;54;49;50;48;52;56;52;49;57;51;55;48;54;50;51;53], true, Some 22%nat);
    ([40;48;48;41;48;57;49;65305;50;48;50;56;52;52;53;49;1635;53;37;54;51;50], false, None);
    ([40;48;48;41;48;57;49;65305;50;48;50;56;52;52;53;49;1635;53;57;54;51;50], true, Some 22%nat);
    ([40;48;48;41;48;57;49;65305;50;48;50;56;52;52;53;49;1635;53;57;54;51;50;48], false, Some 22%nat);
    ([40;48;48;41;49;52;55;52;57;56;52;57;51;53;50;65305;56;52;56;50;65305;52], true, Some 22%nat);
    ([40;48;48;41;49;52;55;52;57;56;52;57;51;53;50;65305;56;52;56;50;65305;95;52], false, None);
    ([40;48;48;41;50;55;55;53;48;48;55;37;55;54;54;48;54;53;48;50;53;52;49], false, None);
    ([40;48;48;41;50;55;55;53;48;48;55;55;50;48;54;53;48;50;53;52;49], false, None);
    ([40;48;48;41;50;55;55;53;48;48;55;55;54;54;48;54;53;48;50;53;52;49], true, Some 22%nat);
    ([40;48;48;41;50;55;55;53;48;48;55;55;54;54;48;54;53;48;53;52;49], false, None);
    ([40;48;48;41;50;57;51;56;51;56;48;56;56;65305;56;54;52;56;57;54;48;56], true, Some 22%nat);
    ([40;48;48;41;51;55;53;57;54;65305;51;56;53;52;49;53;52;48;48;51;57;55], true, Some 22%nat);
    ([40;48;48;41;51;55;53;57;54;65305;56;53;52;49;53;52;48;48;51;57;55], false, None);
    ([40;48;48;41;52;53;48;49;56;49;57;55;57;54;53;52;54;55;51;49;48;51], true, Some 22%nat);
    ([40;48;48;41;52;56;49;56;54;48;48;48;50;50;48], false, None);
    ([40;48;48;41;52;56;49;56;54;48;48;48;50;50;48;57;56;55;48;55;56;51], true, Some 22%nat);
    ([40;48;48;41;53;48;53;52;52;57;51;54;49;49;52;57;49;51;50;48;50;56], true, Some 22%nat);
    ([40;48;48;41;53;48;53;52;52;57;51;54;49;49;57;49;51;50;48;50;56], false, None);
    ([40;48;48;41;53;51;50;50;58;1635;50;56;54;48;48;48;52;51;50;56;48;53;50], false, None);
    ([40;48;48;41;53;51;50;50;1635;50;56;54;48;48;48;52;51;50;56;48;53;50], true, Some 22%nat);
    ([40;48;48;41;53;54;51;57;51;50;48;54;65305;57;48;48;49;1635;52;51;50], false, None);
    ([40;48;48;41;53;54;51;57;51;50;48;54;65305;57;48;48;49;1635;52;53;51;50], true, Some 22%nat);
    ([40;48;48;41;54;51;57;51;50;48;54;65305;57;48;48;49;1635;52;53;51;50], false, None);
    ([40;48;48;41;55;55;48;52;53;56;51;54;54;57;48;53;48;48;48;57;48;51], true, Some 22%nat);
    ([40;48;48;41;55;55;48;52;53;56;51;54;54;57;48;53;48;101;48;48;57;48;51], false, None);
    ([40;48;48;41;56;49;53;55;53;1635;52;57;49;52;52;56;57;52;52;1635;53;57], true, Some 22%nat);
    ([40;48;48;41;56;57;54;50;51;57;49;53;55;56;48;56;53;49;56;57;52;53], true, Some 22%nat);
    ([40;48;48;41;56;122;10;54;50;51;57;49;53;55;56;48;56;53;49;56;57;52;53], false, None);
    ([40;48;48;41;1635;1635;52;50;50;49;57;54;52;56;52;52;48;56;51;51;56;48], true, Some 22%nat);
    ([40;48;48;41;1635;1635;52;50;50;49;57;54;52;56;52;52;51;56;51;51;56;48], true, Some 22%nat);
    ([40;48;48;48;57;49;65305;50;48;50;56;52;52;53;49;1635;53;57;54;51;50;47], false, None);
    ([40;48;48;55;50;57;51;56;51;56;48;56;56;65305;56;54;52;56;57;54;48;56], false, None);
    ([40;48;48;56;49;53;55;53;1635;52;57;49;52;52;56;57;52;52;1635;53;57], false, None);
    ([40;48;48;122;53;54;51;57;51;50;48;54;65305;57;48;48;49;1635;52;53;51;50], false, None);
    ([40;48;57;41;56;57;54;50;51;57;49;53;55;56;48;56;53;49;56;57;52;53], false, None);
    ([40;65;48;48;41;56;57;54;50;51;57;49;53;55;56;48;56;53;49;56;57;52;53], false, None);
    ([57;48;48;41;48;56;54;49;50;48;52;56;52;49;57;51;55;48;54;50;51;53], false, None)]);
  (T_SGLN_GS1_ELEMENT_STRING,
   [([], false, None);
    ([32;40;52;49;52;41;57;55;51;57;49;51;57;55;49;57;1635;50;52;40;50;53;52;41;45], false, None);
    ([40;49;52;41;53;51;52;48;55;50;65305;65305;51;49;56;55;50;40;50;53;52;41;62], false, None);
    ([40;49;52;41;56;54;51;49;50;54;53;55;55;54;55;51;40;50;53;52;41;61], false, None);
    ([40;52;49;33;41;65305;55;50;49;54;48;53;49;50;52;49;53;57;40;50;53;52;41;63;41;54;61;47;105;39;34;62;34;115;62;122;42;63;43;37;61;63;85], false, None);
    ([40;52;49;52;34;41;49;57;51;48;49;53;48;55;54;41;53;50;49;40;50;53;52;41;61;59;42;39], false, None);
    ([40;52;49;52;41;48;49;50;57;56;52;56;49;55;53;57;53;52;40;50;53;52;41;61;40;55], true, Some 26%nat);
    ([40;52;49;52;41;48;55;57;48;55;55;52;48;54;53;56;55;55;40;50;53;52;41;33;51;42;62;53;40;34;40;42;63;60;37;49;38;87;62;45;38;58;47], true, Some 43%nat);
    ([40;52;49;52;41;49;57;51;48;49;53;48;55;54;54;53;49;40;50;53;52;41;61;59;42;39], false, None);
    ([40;52;49;52;41;49;57;51;48;49;53;48;55;54;54;53;50;49;40;50;53;52;41;61;59;42;39], true, Some 27%nat);
    ([40;52;49;52;41;49;57;51;48;49;53;66;48;55;54;54;53;50;49;40;50;53;52;41;61;59;42;39], false, None);
    ([40;52;49;52;41;50;49;1635;56;49;57;52;1635;52;48;65305;50;56;40;50;53;52;41;63;74;40;41;63;62;34;58;63;95;83;40;88;95;58;61;60;95;58;34], true, Some 43%nat);
    ([40;52;49;52;41;50;49;1635;56;49;57;52;1635;52;48;65305;50;56;40;50;53;52;41;63;74;40;63;62;34;58;63;95;83;40;88;95;58;61;60;95;58;34], true, Some 42%nat);
    ([40;52;49;52;41;50;50;50;48;50;49;53;53;51;51;54;65305;1635;40;50;53;52;41;60], true, Some 24%nat);
    ([40;52;49;52;41;50;53;54;57;57;50;50;57;57;54;48;48;50;55;40;50;53;52;41;62;39], false, None);
    ([40;52;49;52;41;50;55;50;55;49;48;51;56;53;49;65305;56;56;40;50;53;52;41;42;86], true, Some 25%nat);
    ([40;52;49;52;41;50;55;50;55;49;48;51;56;53;49;65305;56;56;40;50;53;52;41;233;86], false, None);
    ([40;52;49;52;41;51;57;48;51;52;1635;48;49;57;54;65305;1635;56;40;50;53;52;41;63], true, Some 24%nat);
    ([40;52;49;52;41;51;57;48;51;52;1635;48;49;57;61;54;65305;1635;56;40;50;53;52;41;63], false, None);
    ([40;52;49;52;41;52;55;48;54;55;51;57;55;53;50;46;52;56;40;50;53;52;41;63;33], false, None);
    ([40;52;49;52;41;52;55;48;54;55;51;57;55;53;50;49;52;56;40;50;53;52;41;63;33], true, Some 25%nat);
    ([40;52;49;52;41;52;55;48;54;55;51;57;55;53;50;49;52;56;40;50;53;52;41;63;33;122], true, Some 26%nat);
    ([40;52;49;52;41;52;55;48;54;55;51;57;55;53;50;51;52;40;50;53;52;41;63;33], false, None);
    ([40;52;49;52;41;52;56;51;51;53;51;55;48;52;53;49;49;55;40;50;52;41;43;37;37;89;95;37;60;58;95;48;86;38;41;63;39;41;42;34;78;63], false, None);
    ([40;52;49;52;41;52;56;51;51;53;51;55;48;52;53;49;49;55;40;50;53;52;41;43;37;37;89;95;37;60;58;95;48;86;38;41;63;39;41;42;34;78;63], true, Some 43%nat);
    ([40;52;49;52;41;52;56;51;51;53;51;55;48;52;53;49;49;55;40;50;53;52;41;43;37;89;95;37;60;58;95;48;86;38;41;63;39;41;42;34;78;63], true, Some 42%nat);
    ([40;52;49;52;41;52;56;51;51;53;51;55;48;52;53;49;49;55;40;50;53;52;43;37;37;89;95;37;60;58;95;48;86;38;41;63;39;41;42;34;78;63], false, None);
    ([40;52;49;52;41;52;57;51;49;56;53;50;56;54;52;57;56;51;40;50;53;52;41;118;33], true, Some 25%nat);
    ([40;52;49;52;41;53;51;52;48;55;50;52;65305;49;56;55;50;40;50;53;52;41;62], false, None);
    ([40;52;49;52;41;53;51;52;48;55;50;52;65305;51;49;56;55;50;40;50;53;52;41;62], true, Some 24%nat);
    ([40;52;49;52;41;53;54;57;57;50;50;57;57;54;48;48;50;55;40;50;53;52;41;62;39], true, Some 25%nat);
    ([40;52;49;52;41;56;49;1635;53;55;50;56;54;56;49;49;55;56;40;50;53;52;41;41;47;63;60], true, Some 27%nat);
    ([40;52;49;52;41;56;53;56;56;52;48;52;52;53;50;48;48;54;40;50;53;52;41;41;95], true, Some 25%nat);
    ([40;52;49;52;41;56;53;56;56;52;48;52;52;53;50;51;48;48;54;40;50;53;52;41;41;95], false, None);
    ([40;52;49;52;41;56;54;51;49;50;54;53;55;55;54;55;53;51;40;50;53;52;41;61], true, Some 24%nat);
    ([40;52;49;52;41;57;55;51;57;49;51;57;55;49;57;1635;50;52;40;50;53;52;41;45], true, Some 24%nat);
    ([40;52;49;52;41;57;55;51;122;49;51;57;55;49;57;1635;50;52;40;50;53;52;41;45], false, None);
    ([40;52;49;52;41;57;55;55;51;57;49;51;57;55;49;57;1635;50;52;40;50;53;52;41;45], false, None);
    ([40;52;49;52;41;65305;55;50;49;54;48;53;49;50;52;49;53;57;40;50;53;52;41;63;41;54;61;47;105;39;34;62;34;115;62;122;42;63;43;37;61;63;85], true, Some 43%nat);
    ([40;52;49;52;48;49;50;57;56;52;56;49;55;53;57;53;52;40;50;53;52;51;41;61;40;55], false, None);
    ([40;52;49;52;48;55;57;48;55;55;52;48;54;53;56;55;55;40;50;53;52;41;33;51;42;62;53;40;34;40;42;63;60;37;49;38;87;62;45;38;58;47], false, None);
    ([40;52;49;52;50;53;51;52;48;55;50;52;65305;51;49;56;55;50;40;53;52;41;62], false, None);
    ([40;52;49;52;53;50;50;50;48;50;49;53;53;51;51;54;65305;1635;40;50;53;52;41;60], false, None);
    ([40;52;52;41;37;49;1635;53;55;50;56;54;56;49;49;55;56;40;50;53;52;41;41;47;63;60], false, None);
    ([40;62;52;49;52;41;52;57;49;56;53;50;56;54;52;57;56;51;40;50;53;52;41;118;33], false, None)]);
  (T_GRAI_GS1_ELEMENT_STRING,
   [([], false, None);
    ([40;56], false, None);
    ([40;56;48;10;51;41;48;52;54;57;48;65305;51;57;57;50;49;53;53;49;38;61], false, None);
    ([40;56;48;48;33;51;41;48;57;49;50;56;55;54;54;49;49;52;56;50;57;59], false, None);
    ([40;56;48;48;51;40;41;48;54;57;57;55;52;56;56;56;55;48;57;51;48;71;95;44;87;45;37;40;43;42;61;85;33;34;58;41], false, None);
    ([40;56;48;48;51;41;48;48;49;52;48;52;51;54;57;54;51;56;57;57;60], true, Some 21%nat);
    ([40;56;48;48;51;41;48;49;53;57;56;48;50;52;51;51;51;53;48;38;58;39], false, None);
    ([40;56;48;48;51;41;48;49;53;57;56;48;50;52;51;51;51;55;53;48;38;58;39], true, Some 23%nat);
    ([40;56;48;48;51;41;48;50;51;52;54;55;51;56;51;48;50;52;55;49;53;42;58;34], true, Some 24%nat);
    ([40;56;48;48;51;41;48;50;51;52;54;55;233;51;56;51;48;50;52;55;49;53;42;58;34], false, None);
    ([40;56;48;48;51;41;48;50;56;52;53;55;51;55;49;51;53;57;49;54;39], true, Some 21%nat);
    ([40;56;48;48;51;41;48;50;56;52;53;55;51;55;49;51;53;57;49;54;51], true, Some 21%nat);
    ([40;56;48;48;51;41;48;51;50;57;56;53;52;53;48;57;53;52;41;55;65;40], false, None);
    ([40;56;48;48;51;41;48;51;50;57;56;53;52;53;48;57;53;57;52;55;65;40], true, Some 22%nat);
    ([40;56;48;48;51;41;48;52;48;51;1635;54;50;52;49;52;57;51;52;52;41;34], true, Some 22%nat);
    ([40;56;48;48;51;41;48;52;48;61;51;1635;54;50;52;49;52;57;51;52;52;41;34], false, None);
    ([40;56;48;48;51;41;48;52;54;57;48;65305;51;57;57;50;49;53;53;49;38;61], true, Some 22%nat);
    ([40;56;48;48;51;41;48;52;54;57;59;65305;51;57;57;50;49;53;53;49;38;61], false, None);
    ([40;56;48;48;51;41;48;53;54;50;57;57;55;50;57;50;53;55;51;54;95], true, Some 21%nat);
    ([40;56;48;48;51;41;48;53;54;50;57;57;55;50;102;50;53;55;51;54;95], false, None);
    ([40;56;48;48;51;41;48;54;53;49;57;50;52;57;56;53;51;50;49;56;61;45;95;60;60;95;41;38;44;41;45;58;40;52;58;95], true, Some 36%nat);
    ([40;56;48;48;51;41;48;54;53;54;48;49;57;54;53;52;65305;57;53;53;62;38;44;34;50;34;47;62;59;61;37;61;63;47;41;95], true, Some 36%nat);
    ([40;56;48;48;51;41;48;54;53;54;48;49;57;54;53;52;65305;57;53;53;62;38;44;34;50;34;47;62;59;61;50;37;61;63;47;41;95], false, Some 36%nat);
    ([40;56;48;48;51;41;48;54;56;55;52;55;49;56;49;57;50;51;48;56], false, None);
    ([40;56;48;48;51;41;48;54;56;55;52;55;49;56;49;57;50;51;48;56;53;76;42;61;95;40;42;101;59;33;39;45;47;46;33;59], true, Some 36%nat);
    ([40;56;48;48;51;41;48;54;57;57;55;52;56;56;56;55;48;57;51;48;55;71;95;44;87;45;37;40;43;42;61;58;85;33;34;58;41], false, Some 36%nat);
    ([40;56;48;48;51;41;48;54;57;57;55;52;56;56;56;55;48;57;51;48;71;95;44;87;45;37;40;43;42;61;58;85;33;34;58;41], true, Some 36%nat);
    ([40;56;48;48;51;41;48;54;57;57;55;52;56;56;56;62;55;48;57;51;48;71;95;44;87;45;37;40;43;42;61;58;85;33;34;58;41], false, None);
    ([40;56;48;48;51;41;48;55;56;51;56;56;49;50;55;51;50;51;50;57;101;34], true, Some 22%nat);
    ([40;56;48;48;51;41;48;55;56;51;56;56;49;50;55;51;50;51;50;57;101;34;60], true, Some 23%nat);
    ([40;56;48;48;51;41;48;55;56;51;56;56;49;50;55;51;50;122;50;57;101;34], false, None);
    ([40;56;48;48;51;41;48;56;55;51;49;51;10;57;57;48;49;55;54;49;59;61;39;63;60;43;42;58;62;58;62;95;34;39;34;39], false, None);
    ([40;56;48;48;51;41;48;56;55;51;49;51;56;57;57;48;49;55;54;49;59;61;39;63;60;43;42;58;62;58;62;95;34;39;34;39], true, Some 36%nat);
    ([40;56;48;48;51;41;48;56;55;51;49;51;56;57;57;48;49;55;54;49;59;61;39;63;60;43;42;58;62;58;62;95;34;39;34;39;37], false, Some 36%nat);
    ([40;56;48;48;51;41;48;57;49;50;56;55;54;54;49;49;52;56;50;57;59], true, Some 21%nat);
    ([40;56;48;48;51;41;48;57;50;55;57;50;51;51;52;1635;52;48;55;52;56;44;95;60;61;42;58;95;42;114;45;60;47;45;33;43], true, Some 36%nat);
    ([40;56;48;48;51;41;48;57;55;51;56;51;50;48;51;65305;54;50;50;49;47;58], true, Some 22%nat);
    ([40;56;48;48;51;41;48;57;55;51;56;51;50;48;51;65305;54;50;50;49;47;58;37], true, Some 23%nat);
    ([40;56;48;48;51;41;48;57;55;51;56;51;50;48;51;65305;54;50;50;49;47;58;95], true, Some 23%nat);
    ([40;56;48;48;51;47;48;48;49;52;48;52;51;54;57;54;51;56;57;57;60], false, None);
    ([40;56;48;51;41;48;57;50;55;57;50;51;51;52;1635;52;48;55;52;56;44;95;60;61;42;58;95;42;114;45;60;47;45;33;43], false, None);
    ([40;56;62;48;51;41;48;54;53;49;57;50;52;57;56;53;51;41;49;56;61;45;95;60;60;95;41;38;44;41;45;58;40;52;58;95], false, None);
    ([40;56;120;48;48;51;41;48;57;55;51;56;51;50;48;51;65305;54;50;50;49;47;58], false, None);
    ([40;56;1635;48;51;41;48;55;56;51;56;56;49;50;55;51;50;51;50;57;101;34], false, None)]);
  (T_GIAI_GS1_ELEMENT_STRING,
   [([], false, None);
    ([40], false, None);
    ([40;51;56;48;48;52;41;53;1635;55;57;51;54;54;59;37], false, None);
    ([40;56;38;48;52;41;50;53;52;51;54;54;41;52], false, None);
    ([40;56;44;48;48;52;41;56;51;50;55;54;51;54;56;56;57;48;52;61;60;61;61;61;109;59;33;47;102;62;60;58;101;40;37;59;100;63;63;38;38;84;95], false, None);
    ([40;56;48;44;52;41;57;53;52;57;52;50;48;53;48;65], false, None);
    ([40;56;48;48;41;178;65305;56;50;52;57;45;47], false, None);
    ([40;56;48;48;52;41;45;55;50;52;52;54;113;58;63;41;41;34;87;104;61;59;47;47;34;113;37;63;33;46;55;101;45;50;41;34], false, None);
    ([40;56;48;48;52;41;48;56;50;50;52;1635;53;54;55;65305;53;56;38;43;61;42], true, Some 22%nat);
    ([40;56;48;48;52;41;50;53;52;51;54;54;41;52], true, Some 14%nat);
    ([40;56;48;48;52;41;50;53;52;51;54;54;52], true, Some 13%nat);
    ([40;56;48;48;52;41;51;55;57;49;57;52;53;52;95;44;37], true, Some 17%nat);
    ([40;56;48;48;52;41;52;54;50;57;49;57;49;45], true, Some 14%nat);
    ([40;56;48;48;52;41;52;54;50;95;49;57;49;45], false, None);
    ([40;56;48;48;52;41;53;50;54;56;53;57;43;39;60], true, Some 15%nat);
    ([40;56;48;48;52;41;53;54;53;53;65305;51;48;48;88;41;58;76;98;33;114;58;34;37;37;67;44;46;62;42;37;59;95;95;58;45;39;110], true, Some 38%nat);
    ([40;56;48;48;52;41;53;54;53;53;65305;51;48;49;48;88;41;58;76;98;33;114;58;34;37;37;67;44;46;62;42;37;59;58;95;58;45;39;110], true, Some 39%nat);
    ([40;56;48;48;52;41;53;54;53;53;65305;51;48;49;48;88;41;58;76;98;33;114;58;34;37;37;67;44;46;62;42;37;59;95;95;58;45;39;110], true, Some 39%nat);
    ([40;56;48;48;52;41;53;1635;55;57;51;54;54;59;37], true, Some 15%nat);
    ([40;56;48;48;52;41;53;65305;56;50;52;57;45], true, Some 13%nat);
    ([40;56;48;48;52;41;53;65305;56;50;52;57;45;47], true, Some 14%nat);
    ([40;56;48;48;52;41;54;48;55;53], false, None);
    ([40;56;48;48;52;41;54;48;55;53;57;65305;52;51;54;49;53;54;42;54], true, Some 20%nat);
    ([40;56;48;48;52;41;54;53;53;65305;51;48;49;48;88;41;58;76;98;33;114;58;34;37;37;67;44;46;62;42;37;59;95;95;58;45;39;110], true, Some 38%nat);
    ([40;56;48;48;52;41;55;55;56;50;39;95], false, None);
    ([40;56;48;48;52;41;55;55;1635;56;56;50;39;95], true, Some 14%nat);
    ([40;56;48;48;52;41;56;50;50;52;1635;53;54;55;65305;53;56;38;43;61;42], true, Some 21%nat);
    ([40;56;48;48;52;41;56;51;50;55;54;51;54;56;56;57;48;52;61;60;61;61;61;109;59;33;47;102;62;60;58;101;40;37;59;34;63;63;38;38;84;95], true, Some 42%nat);
    ([40;56;48;48;52;41;56;53;49;50;55;51;38;85;42;44;37;33;33;47;95;47;39;58;59;33;122;103;47;37;61;45;46;38;43;38], true, Some 36%nat);
    ([40;56;48;48;52;41;56;53;49;50;55;51;38;85;42;44;37;33;33;47;95;47;58;59;33;122;103;47;37;61;45;38;43;38], true, Some 34%nat);
    ([40;56;48;48;52;41;56;54;56;49;52;54;55;38;47;41;34;61;108;62;99;59;43;34;41;47;39;43;44;58;39;88;69;59;45], true, Some 35%nat);
    ([40;56;48;48;52;41;56;54;56;49;52;54;55;38;47;41;34;61;108;62;99;59;43;34;41;47;39;43;44;58;39;88;80;69;59;45], true, Some 36%nat);
    ([40;56;48;48;52;41;56;55;50;52;52;54;113;58;63;41;41;34;87;104;61;59;47;47;34;113;37;63;33;46;55;101;45;50;41;34], true, Some 36%nat);
    ([40;56;48;48;52;41;56;56;51;49;49;56;80;37], true, Some 14%nat);
    ([40;56;48;48;52;41;57;48;57;50;53;55;47], true, Some 13%nat);
    ([40;56;48;48;52;41;57;48;57;50;53;95;55;47], false, None);
    ([40;56;48;48;52;41;57;53;52;57;52;50;48;53;48;65], true, Some 16%nat);
    ([40;56;48;48;52;41;122;53;50;54;56;53;57;43;39;60], false, None);
    ([40;56;48;48;52;48;41;57;53;52;57;52;50;48;53;48;65], false, None);
    ([40;56;48;48;52;51;54;48;55;53;57;65305;52;51;54;49;53;54;42;54], false, None);
    ([40;56;48;48;53;52;41;56;56;51;49;49;56;80;37], false, None);
    ([40;56;48;100;48;52;50;53;52;51;54;54;41;52], false, None);
    ([47;40;56;48;48;52;41;57;53;52;57;52;50;48;53;48;65], false, None)]);
  (T_GSRN_GS1_ELEMENT_STRING,
   [([], false, None);
    ([40], false, None);
    ([40;45;56;48;49;56;41;57;56;49], false, None);
    ([40;48;49;56;41;54;55;49;57;48;51;48;49;50;51;56;54;52;53;48;57;52;50], false, None);
    ([40;50;56;48;49;56;41;49;57;52;50;54;57;54;53;56;55;56;52;48;65305;55;52;49;51], false, None);
    ([40;51;48;49;56;41;50;51;50;50;65305;49;56;52;49;56;53;57;57;54;50;53;52;55], false, None);
    ([40;56;48;33;49;56;41;56;56;55;51;52;51;51;48;49;54;48;48;55;52;55;54;48;48], false, None);
    ([40;56;48;49;41;52;53;1635;57;51;53;54;52;49;55;55;48;54;48;51;55;48;48], false, None);
    ([40;56;48;49;56;41;48;56;52;56;55;49;51;49;56;50;57;51;53;48;56;53;65305;48], true, Some 24%nat);
    ([40;56;48;49;56;41;48;56;52;56;55;49;51;49;56;50;57;51;53;51;56;53;65305;48], true, Some 24%nat);
    ([40;56;48;49;56;41;48;56;52;56;55;49;51;49;56;65;57;121;51;53;48;56;53;65305;48], false, None);
    ([40;56;48;49;56;41;48;56;52;178;55;49;51;49;56;50;57;51;53;48;56;53;65305;48], false, None);
    ([40;56;48;49;56;41;49;54;51;53;1635;54;52;55], false, None);
    ([40;56;48;49;56;41;49;54;51;53;1635;54;52;55;37;54;53;57;50;57;50;50;48;49], false, None);
    ([40;56;48;49;56;41;49;54;51;53;1635;54;52;55;50], false, None);
    ([40;56;48;49;56;41;49;54;51;53;1635;54;52;55;50;54;53;57;50;57;50;50;48;49], true, Some 24%nat);
    ([40;56;48;49;56;41;49;57;52;50;54;57;54;53;56;55;56;52;48;65305;55;52;49;51], true, Some 24%nat);
    ([40;56;48;49;56;41;49;1635;1635;65305;51;32;55;54;50;57;57;54;52;56;48;52;52;50], false, None);
    ([40;56;48;49;56;41;49;1635;1635;65305;51;57;55;54;50;57;57;54;52;56;48;52;52;50], true, Some 24%nat);
    ([40;56;48;49;56;41;50;48;49;1635;49;57;55;120;65305;52;56;50;49;54;49;57;48;53;51], false, None);
    ([40;56;48;49;56;41;50;48;49;1635;49;57;55;65305;52;56;50;49;54;49;57;48;53;51], true, Some 24%nat);
    ([40;56;48;49;56;41;50;51;50;50;65305;49;56;52;49;56;53;57;57;54;50;53;52;55], true, Some 24%nat);
    ([40;56;48;49;56;41;50;52;53;48;33;49;48;50;56;51;50;52;53;49;56;49;49;57;56], false, None);
    ([40;56;48;49;56;41;50;52;53;48;49;48;50;56;51;50;52;53;49;56;49;49;57;56], true, Some 24%nat);
    ([40;56;48;49;56;41;52;53], false, None);
    ([40;56;48;49;56;41;52;53;48;54;49;50;54;54;65305;48;65305;53;48;56;53;53;51], false, None);
    ([40;56;48;49;56;41;52;53;48;54;49;50;54;54;65305;48;65305;53;57;48;56;53;53;51], true, Some 24%nat);
    ([40;56;48;49;56;41;52;53;48;54;49;50;54;54;65305;48;65305;54;57;48;56;53;53;51], true, Some 24%nat);
    ([40;56;48;49;56;41;52;53;52;53;51;50;1635;54;49;53;57;50;53;50;56;53;48;50], true, Some 24%nat);
    ([40;56;48;49;56;41;52;53;52;53;51;50;1635;54;49;53;67;53;50;56;53;48;50], false, None);
    ([40;56;48;49;56;41;52;53;1635;57;51;53;54;52;49;55;55;48;54;48;51;55;48;48], true, Some 24%nat);
    ([40;56;48;49;56;41;54;33;49;56;55;49;49;55;44;52;50;57;1635;48;56;56;48;56;50], false, None);
    ([40;56;48;49;56;41;54;49;56;55;49;49;55;50;52;50;57;1635;48;56;56;48;56;50], true, Some 24%nat);
    ([40;56;48;49;56;41;54;55;49;57;48;51;48;49;50;51;56;54;52;53;48;57;52;50], true, Some 24%nat);
    ([40;56;48;49;56;41;54;65305;50;48;48;49;65305;57;53;50;57;53;55;55;51;50;1635], false, None);
    ([40;56;48;49;56;41;54;65305;55;50;48;48;49;65305;57;53;50;57;53;55;55;51;50;1635], true, Some 24%nat);
    ([40;56;48;49;56;41;56;56;55;49;55;48;65305;50;54;55;49;49;55;49;49;57;51;49], true, Some 24%nat);
    ([40;56;48;49;56;41;56;56;55;51;52;51;51;48;49;54;48;48;55;52;55;54;48], false, None);
    ([40;56;48;49;56;41;56;56;55;51;52;51;51;48;49;54;48;48;55;52;55;54;48;48], true, Some 24%nat);
    ([40;56;48;49;56;41;56;56;55;51;52;51;51;48;49;54;48;48;55;52;55;54;1635;48], true, Some 24%nat);
    ([40;56;48;49;56;41;56;65305;50;51;51;65305;48;50;52;65305;1635;50;54;48;51;53;55;49], true, Some 24%nat);
    ([40;56;48;49;56;41;56;65305;50;51;51;65305;48;50;52;65305;1635;58;54;48;51;53;55;49], false, None);
    ([40;56;48;49;56;41;57;56;49;56;55;52;51;54;51;54;51;56;53;51;49;54;57;56], true, Some 24%nat);
    ([40;56;48;49;56;65305;41;56;56;55;49;55;48;65305;54;55;49;49;55;49;49;57;51;49], false, None);
    ([40;56;67;48;49;56;41;52;53;1635;57;51;53;54;52;49;55;55;48;54;48;51;55;48;48], false, None)]);
  (T_GSRNP_GS1_ELEMENT_STRING,
   [([], false, None);
    ([40;56;48;32;49;55;41;55;52;50;51;55;52;50;49;48;42;54;57;65305;48;52;65305;53;56], false, None);
    ([40;56;48;49;55;41], false, None);
    ([40;56;48;49;55;41;32;57;50;54], false, None);
    ([40;56;48;49;55;41;48;50;37;55;50;57;48;65305;53;50;51;49;49;48;55;57;50;49], false, None);
    ([40;56;48;49;55;41;48;50;54;55;48;57;48;65305;53;50;51;49;48;55;57;50;49], false, None);
    ([40;56;48;49;55;41;48;50;54;55;50;57;48;65305;53;50;51;49;49;48;55;33;50;49], false, None);
    ([40;56;48;49;55;41;48;50;54;55;50;57;48;65305;53;50;51;49;49;48;55;57;50;49], true, Some 24%nat);
    ([40;56;48;49;55;41;49;49;56;1635;53;53;53;53;52;55;57;49;56;49;52;65305], false, None);
    ([40;56;48;49;55;41;49;49;56;1635;53;53;53;53;52;55;57;49;56;49;52;65305;56;48], true, Some 24%nat);
    ([40;56;48;49;55;41;49;49;56;1635;53;53;53;53;53;55;57;49;56;49;52;65305;56;48], true, Some 24%nat);
    ([40;56;48;49;55;41;49;49;56;1635;58;53;53;53;52;55;57;49;56;49;52;65305;56;48], false, None);
    ([40;56;48;49;55;41;49;51;50;1635;56;48;53;57;48;54;53;57;51;54;54;55;54;49], true, Some 24%nat);
    ([40;56;48;49;55;41;50;49;53;51;50;56;56;56;57;54;65305;57;55;56;54;51;54;55], true, Some 24%nat);
    ([40;56;48;49;55;41;50;49;53;51;122;56;56;56;57;54;65305;57;55;56;54;51;54;55], false, None);
    ([40;56;48;49;55;41;50;49;54;54;48;50;52;1635;55;56;51;52;49;54;50;51;54;1635], true, Some 24%nat);
    ([40;56;48;49;55;41;50;52;55;49;57;51;56;53;48;56;55;49;53;55;53;48;53;37;52], false, None);
    ([40;56;48;49;55;41;50;52;55;49;57;51;56;53;48;56;55;49;53;55;53;48;53;52], true, Some 24%nat);
    ([40;56;48;49;55;41;53;52;55;53;54;53;54;57;49;48;50;49;48;48;48;49;57;65305;56], false, Some 24%nat);
    ([40;56;48;49;55;41;53;52;55;53;54;53;54;57;49;48;50;49;48;48;49;57;65305;56], true, Some 24%nat);
    ([40;56;48;49;55;41;53;52;55;53;54;53;54;57;49;48;50;49;48;49;57;65305;56], false, None);
    ([40;56;48;49;55;41;54;52;48;56;53;48;48;55;49;52;50;55;52;51;50;1635;57;57], true, Some 24%nat);
    ([40;56;48;49;55;41;54;52;48;56;53;48;55;49;52;50;55;52;51;50;1635;57;57], false, None);
    ([40;56;48;49;55;41;54;53;49;55;55;56;53;49;54;51;49;49;57;55;48;54;49;56], true, Some 24%nat);
    ([40;56;48;49;55;41;55;48;57;48;48;53;53;51;1635;49;53;53;56;56;50;51;54;57], true, Some 24%nat);
    ([40;56;48;49;55;41;55;48;57;48;48;53;53;1635;49;53;53;56;56;50;51;54;57], false, None);
    ([40;56;48;49;55;41;55;52;50;51;55;52;50;49;48;55;54;57;65305;48;52;65305;53;56], true, Some 24%nat);
    ([40;56;48;49;55;41;55;57;50;54;49;53;1635;57;52;49;54;53;56;50;50;55;48;56], true, Some 24%nat);
    ([40;56;48;49;55;41;56;57;49;53;55;54;52;51;52;48;54;52;51;52;53;51;52], false, None);
    ([40;56;48;49;55;41;56;57;49;65305;53;55;54;52;51;52;48;54;52;51;52;53;51;52], true, Some 24%nat);
    ([40;56;48;49;55;41;56;57;49;65305;53;55;54;121;51;52;48;54;52;51;52;53;51;52], false, None);
    ([40;56;48;49;55;41;56;57;49;65305;53;63;54;52;51;52;48;54;52;51;52;53;51;52], false, None);
    ([40;56;48;49;55;41;56;57;50;54;45;55;51;53;55;50;55;51;50;51;51;52;51;57;48;53], false, None);
    ([40;56;48;49;55;41;56;57;50;54;55;51;53;55;50;55;51;50;51;51;52;51;57;48], true, Some 24%nat);
    ([40;56;48;49;55;41;57;52;57;50;48;49;52;50;57;50;49;1635;55;1635;65305;49;55;48], true, Some 24%nat);
    ([40;56;48;49;55;41;57;52;57;50;48;49;52;50;65;57;50;49;1635;55;1635;65305;49;55;48], false, None);
    ([40;56;48;49;55;41;1635;48;55;52], false, None);
    ([40;56;48;49;55;41;1635;48;55;52;52;50;51;48;53;51;54;49;55;56;51;55;54;53], true, Some 24%nat);
    ([40;56;48;49;55;41;1635;50;32;65305;55;49;53;57;56;50;49;53;57;52;52;56;55;51;51], false, None);
    ([40;56;48;49;55;41;1635;50;65305;55;49;53;56;50;49;53;57;52;56;55;51;51], false, None);
    ([40;56;48;49;55;41;1635;50;65305;55;49;53;57;56;50;49;53;57;52;52;56;55;51;51], true, Some 24%nat);
    ([40;56;48;49;55;41;1635;50;65305;55;49;53;57;56;50;55;53;57;52;52;56;55;51;51], true, Some 24%nat);
    ([40;56;48;49;55;49;51;50;1635;56;48;53;57;48;54;53;57;51;54;54;55;54;49], false, None);
    ([40;56;48;49;55;1635;50;49;54;54;48;50;52;1635;55;56;51;52;49;54;50;51;54;1635], false, None);
    ([61;40;56;48;49;55;41;54;53;49;55;55;56;53;49;54;51;49;49;57;55;48;54;49;56], false, None)]);
  (T_GDTI_GS1_ELEMENT_STRING,
   [([], false, None);
    ([33;40;50;53;51;41;49;57;52;49;57;48;50;56;53;56;53;56;50;37;95;41;89;89;51;117;59;40;40;39;43;43;63;34;39;44], false, None);
    ([40;50;53;51;41], false, None);
    ([40;50;53;51;41;48;50;52;51;50;48;56;48;49;50;49;51;58;62], false, None);
    ([40;50;53;51;41;48;57;53;54;54;51;53;53;57;55;52;53;1635;59;40;39;39;42;59;58;95;63;39;42;43;58;39;41;59;58], true, Some 35%nat);
    ([40;50;53;51;41;48;57;53;54;54;51;53;53;57;55;52;53;1635;59;40;39;39;42;59;58;95;63;101;42;43;58;39;41;59;58], true, Some 35%nat);
    ([40;50;53;51;41;49;50;54;48;48;1635;10;53;48;53;51;56;54;53;95;60], false, None);
    ([40;50;53;51;41;49;50;54;48;48;1635;53;48;53;51;56;54;53;95;60], true, Some 20%nat);
    ([40;50;53;51;41;49;52;49;50;48;57;55;50;54;54;51;48;54;44], true, Some 19%nat);
    ([40;50;53;51;41;49;52;49;50;48;57;55;50;54;54;51;48;54;44;66], true, Some 20%nat);
    ([40;50;53;51;41;49;52;49;50;57;55;50;54;54;51;48;54;44], false, None);
    ([40;50;53;51;41;49;57;52;49;57;48;50;56;53;56;53;56;50;37;95;41;89;89;51;117;59;40;40;39;43;43;63;34;39;44], true, Some 35%nat);
    ([40;50;53;51;41;49;57;52;49;57;48;50;56;53;56;53;56;50;37;95;41;89;89;51;117;59;40;40;44;43;43;63;34;39;44], true, Some 35%nat);
    ([40;50;53;51;41;49;60;57;52;49;57;48;50;56;53;56;53;56;50;37;95;41;89;89;51;117;59;40;40;39;43;43;63;34;39;44], false, None);
    ([40;50;53;51;41;50;48;50;52;51;50;48;56;48;49;50;49;51;58;62], true, Some 20%nat);
    ([40;50;53;51;41;50;52;57;54;50;54;54;49;52;50;52;50;38;39], false, None);
    ([40;50;53;51;41;50;57;49;56;51;53;48;55;54;48;57;56;51;97;56;43;34;60;113;45;40;55;37;40;39;45;61;42;39;58], true, Some 35%nat);
    ([40;50;53;51;41;50;57;49;56;51;53;48;55;54;48;57;56;51;97;56;43;34;60;113;45;40;55;37;40;39;45;61;42;39;58;50], false, Some 35%nat);
    ([40;50;53;51;41;50;57;52;57;54;50;54;54;49;52;50;52;50;38;39], true, Some 20%nat);
    ([40;50;53;51;41;51;52;49;53;57;32;49;49;53;65305;54;50;52;48;40;39;95;60], false, None);
    ([40;50;53;51;41;51;52;49;53;57;49;49;53;65305;54;50;52;48;40;39;95;60], true, Some 22%nat);
    ([40;50;53;51;41;51;54;52;54;54;49;49;57;57;49;48;54;42;95], false, None);
    ([40;50;53;51;41;51;54;52;54;54;49;49;57;57;49;48;54;50;42;95], true, Some 20%nat);
    ([40;50;53;51;41;51;55;56;52;52;50;51;54;49;57;51;48;49;45;41;60], true, Some 21%nat);
    ([40;50;53;51;41;51;55;56;53;52;50;51;54;49;57;51;48;49;45;41;60], true, Some 21%nat);
    ([40;50;53;51;41;52;53;38;53;51;48;52;48;55;52;56;54;54;63;56;61;62;59;63;41;40;42;60;43;61;46;88;58;62;62], false, None);
    ([40;50;53;51;41;52;53;53;53;51;48;52;48;55;52;56;54;54;63;56;61;62;59;63;41;40;42;60;43;61;46;88;58;62;62], true, Some 35%nat);
    ([40;50;53;51;41;52;53;53;53;51;48;52;48;55;52;56;54;54;63;61;62;46;63;41;40;42;60;43;61;46;88;58;62;62], true, Some 34%nat);
    ([40;50;53;51;41;52;57;52;51;52;57;57;50;55;48;51;50;55;37;41], true, Some 20%nat);
    ([40;50;53;51;41;52;57;52;51;52;57;57;55;48;51;50;55;37;41], false, None);
    ([40;50;53;51;41;54;57;57;56;55;54;52;50;49;51;50;51;56;42;45;95;39;37;63;34;43;60;52;47;41;42;63;47], true, Some 33%nat);
    ([40;50;53;51;41;54;57;57;56;55;54;52;50;49;51;50;51;56;42;45;95;39;37;63;34;43;60;52;47;41;42;63;47;53;47], true, Some 35%nat);
    ([40;50;53;51;41;57;49;57;56;56;55;50;52;57;48;56;53;42], false, None);
    ([40;50;53;51;41;57;49;57;57;56;56;55;50;52;57;48;56;53;42], true, Some 19%nat);
    ([40;50;53;51;41;178;65305;51;54;50;51;50;53;65305;50;49;55;52;51;47;41;60;40;59;33;59;33;58;34;58;67;40;63;40;37;33], false, None);
    ([40;50;53;51;41;1635;51;52;54;52;54;52;53;54;54;51;56;52;47;42;38;59], true, Some 22%nat);
    ([40;50;53;51;41;1635;51;52;54;52;54;53;54;54;51;56;52;47;42;38;59], false, None);
    ([40;50;53;51;41;65305;51;54;50;51;50;53;65305;50;49;55;52;51;47;41;60;40;59;33;59;33;58;34;58;67;40;63;40;37;33], true, Some 35%nat);
    ([40;50;53;51;41;65305;51;54;50;51;50;53;65305;50;49;122;52;61;51;47;41;60;40;59;33;59;33;58;34;58;67;40;63;40;37;33], false, None);
    ([40;50;53;51;41;65305;65305;57;53;53;50;50;50;55;51;50;56;41;55;33], false, None);
    ([40;50;53;51;41;65305;65305;57;53;53;50;50;50;55;51;50;56;55;33], true, Some 19%nat);
    ([40;50;53;51;51;54;52;54;49;49;57;57;49;48;54;50;42;95], false, None);
    ([40;50;53;51;67;51;54;52;54], false, None);
    ([40;52;50;53;51;41;52;53;53;53;51;48;52;48;55;52;56;54;54;63;56;61;62;59;63;41;40;42;60;43;61;46;88;58;62;62;54], false, None);
    ([59;50;53;51;41;65305;51;54;50;51;50;53;65305;50;49;55;52;51;47;41;60;40;59;33;59;33;58;34;58;67;40;63;40;37;33], false, None)]);
  (T_CPI_GS1_ELEMENT_STRING,
   [([], false, None);
    ([40], false, None);
    ([40;47;48;49;48;41;52;57;56;53;55;53;89;40;56;48;49;49;41;51;50;49;48], false, None);
    ([40;56;48;49;48;41;48;49;50;1635;49;48;48;55;69;35;45;47;70;47;35;51;47;51;80;45;35;47;35;57;47;79;52;45;45;47;80;86;40;56;48;49;49;41;50;1635;1635], true, Some 47%nat);
    ([40;56;48;49;48;41;48;50;53;50;53;50;45;10;56;48;49;49;41;54], false, None);
    ([40;56;48;49;48;41;48;50;53;50;53;50;45;40;56;48;49;49;41;54], true, Some 20%nat);
    ([40;56;48;49;48;41;48;65305;50;54;52;49;54;52;48;49;51;54;35;56;67;56;76;47;50;35;35;45;75;35;35;47;47;69;72;45;47;90;77;47;47;47;40;56;48;49;49;41;55;53;56;51;57;49;52;53;65305;54;57;57], true, Some 60%nat);
    ([40;56;48;49;48;41;48;65305;50;54;52;49;54;52;48;49;51;54;35;56;67;56;76;47;50;35;35;45;75;35;35;47;47;69;72;45;47;90;77;47;47;47;40;56;48;49;49;41;55;53;56;51;57;49;52;53;65305;54;57;57;52], false, Some 60%nat);
    ([40;56;48;49;48;41;49;53;54;51;56;54;76;55;40;56;48;49;49;41;53], true, Some 21%nat);
    ([40;56;48;49;48;41;49;54;50;53;57;54;52;50;49;65305;53;51;35;45;45;35;47;76;47;56;49;45;35;89;77;45;45;51;54;35;45;82;47;35;47;69;40;56;48;49;49;41;50;53], true, Some 50%nat);
    ([40;56;48;49;48;41;49;54;50;53;57;54;52;50;49;65305;53;51;35;45;45;35;47;76;47;56;49;45;35;89;77;45;45;51;54;35;45;82;47;35;47;233;69;40;56;48;49;49;41;50;53], false, None);
    ([40;56;48;49;48;41;51;53;55;54;56;53;55;48;54;40;56;48;49;33;41;51;57;55], false, None);
    ([40;56;48;49;48;41;51;53;55;54;56;53;55;48;54;40;56;48;49;49;41;51;57;55], true, Some 24%nat);
    ([40;56;48;49;48;41;51;55;50;54;55;55;50;47;40;48;49;49;41;51;56;52;49;48;54;52;65305;51;65305;53;50;57], false, None);
    ([40;56;48;49;48;41;51;55;50;54;55;55;50;47;40;56;48;49;49;41;51;52;52;49;48;54;52;51;65305;53;50;57], true, Some 32%nat);
    ([40;56;48;49;48;41;51;55;50;54;55;55;50;47;40;56;48;49;49;41;51;56;52;49;48;54;52;51;65305;53;50;48;57], false, Some 32%nat);
    ([40;56;48;49;48;41;51;55;50;54;55;55;50;47;40;56;48;49;49;41;51;56;52;49;48;54;52;51;65305;53;50;57], true, Some 32%nat);
    ([40;56;48;49;48;41;51;65305;54;52;52;48;52;47;40;56;48;49;41;51;53], false, None);
    ([40;56;48;49;48;41;51;65305;54;52;52;48;52;47;40;56;48;49;49;41;51;53], true, Some 22%nat);
    ([40;56;48;49;48;41;51;65305;65305;54;52;52;48;52;47;40;56;48;49;49;41;51;53], true, Some 23%nat);
    ([40;56;48;49;48;41;52;52;50;53;48;52;50;40;56;48;49;49;41;1635], true, Some 20%nat);
    ([40;56;48;49;48;41;52;52;50;53;48;52;50;49;40;48;49;49;41;1635], false, None);
    ([40;56;48;49;48;41;52;52;50;53;48;52;50;49;40;56;48;49;49;41;1635], true, Some 21%nat);
    ([40;56;48;49;48;41;52;57;56;53;55;53;89;40;56;48;49;49;41;51;50;49;48], true, Some 23%nat);
    ([40;56;48;49;48;41;52;58;50;53;48;52;50;49;40;56;48;49;49;41;1635], false, None);
    ([40;56;48;49;48;41;53;53;55;53;52;54;47;45;40;56;48;49;49;41;52;52;51;49;57;56;57;55;56;51;51;57], true, Some 32%nat);
    ([40;56;48;49;48;41;53;53;55;53;52;54;47;45;40;56;48;49;49;41;52;52;51;49;57;56;57;55;56;55;51;57], true, Some 32%nat);
    ([40;56;48;49;48;41;55;52;55;1635;51;57;40;56;41;48;49;49;48], false, None);
    ([40;56;48;49;48;41;55;52;55;1635;51;57;40;56;48;49;49;41;48], true, Some 19%nat);
    ([40;56;48;49;48;41;55;56;55;50;53;50;52;53;48;57;48;57;47;40;56;48;49;49;41;54], true, Some 26%nat);
    ([40;56;48;49;48;41;56;49;48;50;53;55;53;52;50;49;48;56;67;35;35;47;35;75;45;71;88;47;87;53;45;35;89;35;72;35;35;45;45;45;35;71;40;56;48;49;49;41;53;56;55;48;53;51;53;51;53;55;50;56], true, Some 60%nat);
    ([40;56;48;49;48;41;56;49;48;50;53;55;53;52;50;49;48;56;67;35;35;47;35;75;45;71;88;47;87;53;45;35;89;35;72;56;35;45;45;45;35;71;40;56;48;49;49;41;53;56;55;48;53;51;53;51;53;55;50;56], true, Some 60%nat);
    ([40;56;48;49;48;41;56;57;65305;53;57;52;56;35;40;56;48;49;49;41;50], true, Some 21%nat);
    ([40;56;48;49;48;41;56;57;65305;53;57;52;56;35;40;56;48;49;49;41;50;60], false, Some 21%nat);
    ([40;56;48;49;48;41;56;57;65305;53;57;52;56;35;40;56;48;101;49;41;50], false, None);
    ([40;56;48;49;48;41;57;48;52;57;50;48;40;56;48;49;49;41;49;53;54;57], true, Some 22%nat);
    ([40;56;48;49;48;41;57;48;52;57;50;48;40;56;48;49;49;41;49;53;54;57;41], false, Some 22%nat);
    ([40;56;48;49;48;41;1635;55;53;53;48;49;49;54;55;54;56;48;66;40;56;48;49;49;41;57;50;55;51], true, Some 29%nat);
    ([40;56;48;49;48;41;1635;102;55;53;53;48;49;49;54;55;54;56;48;66;40;56;48;49;49;41;57;50;55;51], false, None);
    ([40;56;48;49;48;62;52;57;56;53;53;89;40;56;48;49;49;41;51;50;49;48], false, None);
    ([40;56;49;48;41;48;49;50;1635;49;48;48;55;69;35;45;47;70;47;35;51;47;51;80;45;35;47;35;57;47;79;52;45;47;80;86;40;56;48;49;49;41;50;1635;1635], false, None);
    ([40;95;48;49;48;41;52;57;56;53;55;53;89;40;56;48;49;41;51;50;49;48], false, None);
    ([40;233;56;48;49;48;41;51;65305;54;52;52;48;47;40;56;48;49;49;41;51;53], false, None);
    ([58;56;48;49;48;41;55;56;55;50;53;50;52], false, None)]);
  (T_SGCN_GS1_ELEMENT_STRING,
   [([], false, None);
    ([32;40], false, None);
    ([40;50;44;53;41;50;53;50;56;49;54;57;56;49;52;53;55;56;95;40], false, None);
    ([40;50;53;48;53;41;49;56;49;50;50;51;52;50;53;54;54;55;51;43;114;61;58], false, None);
    ([40;50;53;53;41;48;48;48;1635;52;54;52;52;53;55;48;56;1635;37;114;47;47;44;42;43;46;42;43;61;40], true, Some 30%nat);
    ([40;50;53;53;41;48;56;52;50;51;49;48;52;55;55;48;57;59;45;90;47], false, None);
    ([40;50;53;53;41;48;56;52;50;51;49;48;52;55;55;48;65305;57;59;45;90;47], true, Some 22%nat);
    ([40;50;53;53;41;49;56;49;50;50;51;52;50;53;54;54;55;51;43;114;61;58], true, Some 22%nat);
    ([40;50;53;53;41;49;56;49;51;48;52;51;57;50;51;49;56;37;59], false, None);
    ([40;50;53;53;41;49;56;49;51;48;52;51;57;55;50;51;49;56;37;59], true, Some 20%nat);
    ([40;50;53;53;41;50;53;50;56;49;54;57;56;49;52;53;55;56;95;40], true, Some 20%nat);
    ([40;50;53;53;41;51;42;49;53;56;52;54;56;61;49;51;50;50;51;57;45;53], false, None);
    ([40;50;53;53;41;51;44;53;56;52;54;56;49;51;50;50;51;57;45;53], false, None);
    ([40;50;53;53;41;51;48;48;50;56;52;55;50;50;48;57;50;52;41;39;42], true, Some 21%nat);
    ([40;50;53;53;41;51;48;48;50;56;52;55;50;50;48;57;50;52;41;122;42], true, Some 21%nat);
    ([40;50;53;53;41;51;49;53;56;52;54;56;49;51;50;50;51;57;45;53], true, Some 20%nat);
    ([40;50;53;53;41;51;56;55;49;52;55;48;48;50;49;54;54;37;101], false, None);
    ([40;50;53;53;41;51;56;55;49;52;1635;55;48;48;50;49;54;54;37;101], true, Some 20%nat);
    ([40;50;53;53;41;51;56;100;55;49;52;1635;55;48;48;50;49;54;54;37;101], false, None);
    ([40;50;53;53;41;51;57;51;48;55;54;53;48;57;65305;121;65305;53;57;37;47;40], false, None);
    ([40;50;53;53;41;51;57;51;48;55;54;53;48;57;65305;65305;53;57;37;47;40], true, Some 21%nat);
    ([40;50;53;53;41;52;53;48;52;48;49;54;51;49;49;52;57;49;38;48], true, Some 20%nat);
    ([40;50;53;53;41;52;53;48;52;48;49;54;51;49;49;52;57;49;49;38;48], true, Some 21%nat);
    ([40;50;53;53;41;53;52;52;52;57;57;52;50;1635;52;54;49;50;47;39;61;47;40;34;63], true, Some 25%nat);
    ([40;50;53;53;41;53;52;52;52;57;57;52;50;1635;52;54;49;50;47;39;61;47;40;34;63;52;37;47;46;41], true, Some 30%nat);
    ([40;50;53;53;41;54;55;51;49;48;56;54;57;56;57;48;49;65305;62], true, Some 19%nat);
    ([40;50;53;53;41;54;55;51;49;48;56;54;57;56;57;48;49;65305;62;178], false, Some 19%nat);
    ([40;50;53;53;41;54;55;51;49;48;56;54;57;56;233;48;49;65305;62], false, None);
    ([40;50;53;53;41;54;55;51;49;56;54;57;56;57;48;49;65305;62], false, None);
    ([40;50;53;53;41;54;57;51;49;52;56;53;56;49;49;48;50;65305;61], true, Some 19%nat);
    ([40;50;53;53;41;55;57;54;51;55;52;52;54;52;55;55;50;51;87;33], true, Some 20%nat);
    ([40;50;53;53;41;56;49;49;48;49;52;49;55;53;49;56;55;51;59;37;40;41;34;62;119;33;41;40;62;40], true, Some 30%nat);
    ([40;50;53;53;41;56;49;49;48;49;52;49;55;53;49;56;55;51;59;37;40;41;122;62;119;33;41;40;62;40], true, Some 30%nat);
    ([40;50;53;53;41;56;52;50;54;54;51;50;53;54;54;51;65305;41;63], false, None);
    ([40;50;53;53;41;56;52;50;54;54;53;51;50;53;54;54;51;65305;41;63], true, Some 20%nat);
    ([40;50;53;53;41;56;65305;56;52;55;54;51;51;55;54;51;50;75], false, None);
    ([40;50;53;53;41;56;65305;56;52;55;54;51;51;55;54;54;50;75], false, None);
    ([40;50;53;53;41;56;65305;56;52;55;54;51;51;55;54;54;51;50;75], true, Some 19%nat);
    ([40;50;53;53;41;56;65305;56;52;55;54;51;51;55;54;54;51;50;75;40], true, Some 20%nat);
    ([40;50;53;53;41;61;54;57;51;49;52;56;53;56;49;49;48;50;65305;61], false, None);
    ([40;50;53;53;45;51;49;53;56;52;54;49;51;50;50;51;57;45;53], false, None);
    ([40;50;53;53;95;48;56;52;50;51;49;48;52;55;55;65305;57;59;45;90;47], false, None);
    ([40;50;53;54;53;41;55;57;54;51;55;52;52;54;52;55;55;50;51;87;33], false, None);
    ([40;56;53;53;41;48;48;48;1635;52;54;52;52;53;55;48;56;1635;37;114;47;47;44;42;43;46;42;43;61;40], false, None);
    ([42;40;50;53;53;41;48;56;52;50;51;49;48;52;55;55;48;65305;57;59;45;90;47], false, None)]);
  (T_GINC_GS1_ELEMENT_STRING,
   [([], false, None);
    ([40], false, None);
    ([40;50;48;49;41;54;57;53;53;1635;48;50;53;54;56;54;52;70;37;54;40;33;59;33;34;61;95;38;63;37;62;58;33;39;54;38;42;38;47;42;42], false, None);
    ([40;52;48;49], false, None);
    ([40;52;48;49;41;48;56;51;50;51;54;50;57;55;60;38;60;61;45;37;47;39;60;62;33;58;60;38;62;39;46;60;34;39;40;47;61;58], true, Some 38%nat);
    ([40;52;48;49;41;48;56;51;50;51;54;50;57;55;60;38;60;61;45;37;47;39;60;62;33;58;60;38;62;39;52;60;34;39;40;47;61;58], true, Some 38%nat);
    ([40;52;48;49;41;49;49;52;51;51;1635;95;38], true, Some 13%nat);
    ([40;52;48;49;41;49;53;52;51;51;1635;95;38], true, Some 13%nat);
    ([40;52;48;49;41;49;55;57;52;57;57;51;56;57;74;58], true, Some 16%nat);
    ([40;52;48;49;41;49;55;57;52;57;57;51;56;57;100;58], true, Some 16%nat);
    ([40;52;48;49;41;49;57;55;57;53;53;57;57;50;105;42;38;53;40;40;41;52;34;95;43;62;59;41;43;60;59;77;38;33;62;43;40;95], true, Some 38%nat);
    ([40;52;48;49;41;49;57;55;57;53;53;57;57;50;105;42;38;53;40;40;52;34;95;43;62;59;41;43;60;57;59;77;38;33;62;43;40;95], true, Some 38%nat);
    ([40;52;48;49;41;50;48;49;48;50;57;49;53;49;41;55;56;53;62], true, Some 19%nat);
    ([40;52;48;49;41;50;48;49;48;50;57;49;53;49;55;56;53;53], true, Some 18%nat);
    ([40;52;48;49;41;50;48;49;48;50;57;49;53;49;55;56;53;62], true, Some 18%nat);
    ([40;52;48;49;41;50;55;52;57;52;50;62;37;45;63;61;61;34;62;40;106;60;33;33;59;113;42;89;37;58;38;60;62;60;34], true, Some 35%nat);
    ([40;52;48;49;41;50;55;52;57;52;50;62;37;45;63;61;61;34;62;40;106;60;33;33;59;113;42;89;37;58;38;60;62;60;34;58], false, Some 35%nat);
    ([40;52;48;49;41;50;55;52;57;52;50;62;37;54;45;63;61;61;34;62;40;106;60;33;33;59;113;42;89;37;122;38;60;62;60;34], false, Some 35%nat);
    ([40;52;48;49;41;50;121;52;57;52;50;62;37;45;63;61;61;34;62;40;106;60;33;33;59;113;42;89;37;58;38;60;62;60;34], false, None);
    ([40;52;48;49;41;51;48;53;55;53;55;50;51;49;52;50;49;41;47], true, Some 19%nat);
    ([40;52;48;49;41;51;52;50;48;52;1635;56;1635;50;48;48;52;38;47], true, Some 19%nat);
    ([40;52;48;49;41;54;46;56;57;50;48;57;49;49;57;54;52;33], false, None);
    ([40;52;48;49;41;54;48;57;1635;53;48;53;51;51;53;55;57;49], true, Some 18%nat);
    ([40;52;48;49;41;54;48;57;1635;53;48;53;51;100;53;55;57;49], true, Some 18%nat);
    ([40;52;48;49;41;54;50;52;54;57;49;41;41;33;47;60;48;58;62;47;59;59;63;39;43;59;63;34;47;95;60;48;47;42;63], true, Some 35%nat);
    ([40;52;48;49;41;54;50;52;54;57;49;41;41;33;47;60;48;58;62;102;47;59;59;63;39;43;59;63;34;47;95;60;48;47;42;63], false, Some 35%nat);
    ([40;52;48;49;41;54;54;56;57;50;48;57;49;49;57;54;52;33], true, Some 18%nat);
    ([40;52;48;49;41;54;57;53;53;48;50;53;54;56;54;52;70;37;54;40;33;59;33;34;60;95;38;63;37;62;58;33;39;54;38;42;38;47;42;42], true, Some 40%nat);
    ([40;52;48;49;41;54;57;53;53;1635;48;50;53;54;56;54;52;70;37;54;40;33;59;33;34;60;95;38;63;37;62;58;33;39;54;38;42;38;47;42;42], true, Some 41%nat);
    ([40;52;48;49;41;54;57;56;53;53;49;51;55;95], true, Some 14%nat);
    ([40;52;48;49;41;54;57;56;53;53;49;51;55;95;61], true, Some 15%nat);
    ([40;52;48;49;41;55;53;51;56;49;53;57;52;56;56;48;54;58;38;40;58], true, Some 21%nat);
    ([40;52;48;49;41;55;56;57;52;53;56;54;49;60;61], true, Some 15%nat);
    ([40;52;48;49;41;55;56;57;52;53;56;54;49;60;61;45], true, Some 16%nat);
    ([40;52;48;49;41;55;1635;57;53;56;65305;56;102;117], true, Some 14%nat);
    ([40;52;48;49;41;55;1635;57;53;56;65305;101;102;117], true, Some 14%nat);
    ([40;52;48;49;41;55;1635;57;53;56;65305;102;117], true, Some 13%nat);
    ([40;52;48;49;41;56;49;51;56;51;56;55;56;50;41;39;41;63;61;47;42;33;37;59;47;55;43;54;42;37;47;37;34;42;61;45;76;37], true, Some 38%nat);
    ([40;52;48;49;41;56;49;51;56;56;55;56;50;41;39;41;63;61;47;42;33;37;59;47;55;43;54;42;37;47;37;34;42;61;45;76], true, Some 36%nat);
    ([40;52;48;49;41;178;50;52;54;57;49;41;41;33;47;60;48;58;62;47;59;59;63;39;43;59;63;34;47;95;60;48;47;42;63], false, None);
    ([40;52;48;49;121;54;50;52;54;57;49;41;41;33;47;60;48;58;62;47;59;59;54;63;39;43;59;63;34;47;95;60;48;47;42;63], false, None);
    ([40;52;48;67;54;57;53;53;1635;48;50;53;54;56;54;52;70;37;54;40;33;59;33;34;60;95;38;63;37;62;58;33;39;54;38;42;38;47;42;42], false, None);
    ([40;58;48;49;41;51;48;53;55;53;55;50;51;49;52;50;49;41;47], false, None);
    ([52;48;49;41;51;52;50;48;52;1635;56;1635;50;48;48;52;38;47], false, None);
    ([66;52;48;49;41;55;53;51;56;49;53;57;52;56;56;48;54;58;38;40;58], false, None)]);
  (T_GSIN_GS1_ELEMENT_STRING,
   [([], false, None);
    ([40;52], false, None);
    ([40;52;48;50;41;48;52;49;51;56;56;54;50;51;56;65305;49;48;48;54;57;52], true, Some 22%nat);
    ([40;52;48;50;41;48;53;54;53;53;57;52;54;48;1635;49;55;53;50;53;102;51], false, None);
    ([40;52;48;50;41;48;53;54;53;53;57;52;56;48;1635;49;55;53;50;53;53;51], true, Some 22%nat);
    ([40;52;48;50;41;49;49;50;49;49;48;54;48;48;54;56;51;49;49;48;56;56], true, Some 22%nat);
    ([40;52;48;50;41;49;49;50;49;66;48;54;48;48;54;56;51;49;49;48;56;56], false, None);
    ([40;52;48;50;41;49;49;57;49;57;50;53;54;48;48;52;51;52;56;51;55;57], true, Some 22%nat);
    ([40;52;48;50;41;49;49;57;49;57;50;53;54;121;48;52;51;52;56;51;55;57], false, None);
    ([40;52;48;50;41;49;50;65305;48;50;50;52;54;48;1635;57;55;65305;48;54;49], false, None);
    ([40;52;48;50;41;49;50;65305;48;50;50;52;57;54;48;1635;57;55;65305;48;54;49], true, Some 22%nat);
    ([40;52;48;50;41;49;52;52;54;56;50;55;45;55;55;48;57;55;56;52;48;57;47], false, None);
    ([40;52;48;50;41;49;52;52;54;56;50;55;56;55;55;48;57;55;56;52;48;57], true, Some 22%nat);
    ([40;52;48;50;41;49;53;57;1635;55;50;56;52;51;57;57;55;50;51;53;53], false, None);
    ([40;52;48;50;41;49;53;57;1635;55;50;56;52;51;57;57;55;50;51;56;53;53], true, Some 22%nat);
    ([40;52;48;50;41;49;53;57;1635;55;50;101;52;51;57;57;55;50;51;56;53;53], false, None);
    ([40;52;48;50;41;49;55;54;57;52;50;1635;49;56;56;53;48;52;47;55;57;56;57], false, None);
    ([40;52;48;50;41;49;55;54;57;52;50;1635;49;56;56;53;48;52;55;57;56;57], true, Some 22%nat);
    ([40;52;48;50;41;49;57;57;49;49;53;53;52;55;49;48;56;41;56;55;53;61;49], false, None);
    ([40;52;48;50;41;49;57;57;49;49;53;53;52;55;49;48;56;56;55;53;49;51;49], false, Some 22%nat);
    ([40;52;48;50;41;49;57;57;49;49;53;53;52;55;49;48;56;56;55;53;51;49], true, Some 22%nat);
    ([40;52;48;50;41;49;57;57;49;49;53;53;52;55;49;48;56;56;55;53;51;49;33], false, Some 22%nat);
    ([40;52;48;50;41;50;49;55;56;52;51;55;55;56;50;50;57;48;52;56;52;49], true, Some 22%nat);
    ([40;52;48;50;41;50;49;56;52;51;55;55;56;50;50;57;48;52;56;52;49], false, None);
    ([40;52;48;50;41;51;57;52;57;48;52;52;55;56;52;53;49;55;52;65305;54;55], true, Some 22%nat);
    ([40;52;48;50;41;51;57;52;57;48;65;52;55;56;52;53;49;55;52;65305;54;55], false, None);
    ([40;52;48;50;41;51;57;52;59;57;48;52;52;55;56;52;53;49;55;52;65305;54;55], false, None);
    ([40;52;48;50;41;53;50;1635;56;55;49;53;55;56;44;52;52;51;52;55;56;57], false, None);
    ([40;52;48;50;41;53;50;1635;56;55;49;53;55;56;53;52;52;51;52;55;56;57], true, Some 22%nat);
    ([40;52;48;50;41;53;50;1635;56;55;49;53;55;56;53;52;52;51;52;55;56;57;1635], false, Some 22%nat);
    ([40;52;48;50;41;53;50;1635;56;55;49;53;56;53;52;52;51;52;55;56;57], false, None);
    ([40;52;48;50;41;53;56;52;49;54;53;53;48;50;55;53;48;57;53;50;54;56], true, Some 22%nat);
    ([40;52;48;50;41;53;56;52;49;54;53;53;48;50;55;53;48;57;53;50;54;56;62], false, Some 22%nat);
    ([40;52;48;50;41;56;48;50;48;56;49;53;50;55;51;52;54;48;48;53;55;52], true, Some 22%nat);
    ([40;52;48;50;41;56;48;50;48;56;49;53;50;55;51;52;54;48;48;53;55;52;41], false, Some 22%nat);
    ([40;52;48;50;41;56;52;53;49;49;55;49;55;49;57;51;54;52;52;52;57;57], true, Some 22%nat);
    ([40;52;48;50;41;57;56;50;54;57;48;50;56;49;49;50;57;53;56;52;49;49], true, Some 22%nat);
    ([40;52;48;50;41;57;56;50;54;57;48;50;56;49;49;50;57;53;56;52;52;49], true, Some 22%nat);
    ([40;52;48;50;41;57;56;95;54;57;48;50;56;49;49;50;57;53;56;52;52;49], false, None);
    ([40;52;48;50;41;67;52;49;51;56;56;54;50;51;56;65305;49;48;48;54;57;52], false, None);
    ([40;52;48;50;41;1635;65305;49;50;52;53;50;51;48;56;50;49;51;57;1635;53], false, None);
    ([40;52;48;50;41;1635;65305;51;49;50;52;53;50;51;48;56;50;49;51;57;1635;53], true, Some 22%nat);
    ([40;52;48;50;47;49;53;57;1635;55;50;56;52;51;57;57;55;50;51;56;53;53], false, None);
    ([48;40;52;48;50;41;56;52;53;49;49;55;49;55;49;57;51;54;52;52;52;57;57], false, None);
    ([233;40;52;48;50;41;51;57;52;57;48;52;52;55;56;52;53;49;55;52;65305;54;55], false, None)]);
  (T_ITIP_GS1_ELEMENT_STRING,
   [([], false, None);
    ([40;48;48;54;41;50;55;48;48;51;50;51;48;51;53;50;49;50;48;57;52;51;55;40;50;49;41;62;97;58;95;42;44;42;47;119;42;34;95;33;80;39;43;46;40;42;41;102], false, None);
    ([40;56;48;48;54;32;41;50;56;49;54;56;48;54;51;57;54;53;53;56;52;56;49;55;48;40;50;49;41;42;60], false, None);
    ([40;56;48;48;54;35;65305;55;52;55;49;54;53;48;48;51;52;54;50;56;56;54;57;50;40;50;49;41;58;43;61], false, None);
    ([40;56;48;48;54;41;48;48;50;51;53;56;49;48;51;57;57;53;56;50;52;50;52;44;40;50;49;41;60;34], false, None);
    ([40;56;48;48;54;41;48;48;50;51;53;56;49;48;51;57;57;53;56;50;52;50;52;52;40;50;49;41;60;34], true, Some 30%nat);
    ([40;56;48;48;54;41;48;52;55;49;49;54;55;57;54;55;49;52;57;52;55;51;51;52;40;50;49;41;47;33;39], true, Some 31%nat);
    ([40;56;48;48;54;41;48;52;55;49;52;54;55;57;54;55;49;52;57;52;55;51;51;52;40;50;49;41;47;33;39], true, Some 31%nat);
    ([40;56;48;48;54;41;48;52;55;49;52;54;55;57;54;55;49;52;57;52;55;56;51;52;40;50;49;41;47;33;39], true, Some 31%nat);
    ([40;56;48;48;54;41;49;54;54;50;57;54;50;56;56;51;51;53;57;48;55;52;48;49;50;40;50;49;41;38], false, None);
    ([40;56;48;48;54;41;49;54;54;50;57;54;50;56;56;51;51;57;48;55;52;48;49;50;40;50;49;41;38], true, Some 29%nat);
    ([40;56;48;48;54;41;50;55;48;48;51;50;51;48;51;53;50;49;50;48;57;52;51;55;40;50;49;41;62;97;58;95;42;44;42;47;119;34;95;33;80;39;43;46;40;42;41], true, Some 47%nat);
    ([40;56;48;48;54;41;50;55;48;48;51;50;51;48;51;53;50;49;50;48;57;52;51;55;40;50;49;41;62;97;58;95;42;44;42;47;119;42;34;95;33;80;39;43;46;40;42;41], true, Some 48%nat);
    ([40;56;48;48;54;41;50;55;48;48;51;50;51;48;51;53;50;49;50;48;57;52;51;55;40;66;50;49;41;62;97;58;95;42;44;42;47;119;42;34;95;33;80;39;43;46;40;42;41], false, None);
    ([40;56;48;48;54;41;50;56;49;54;56;48;54;51;57;54;53;53;56;52;56;49;55;48;40;50;49;41;42;60], true, Some 30%nat);
    ([40;56;48;48;54;41;52;51;57;54;48;48;55;49;51;48;51;51;53;49;57;49;53;54;40;50;49;41;62;37], true, Some 30%nat);
    ([40;56;48;48;54;41;52;54;57;54;48;48;55;49;51;48;51;51;53;49;57;49;53;54;40;50;49;41;62;37], true, Some 30%nat);
    ([40;56;48;48;54;41;52;55;48;48;55;54;55;49;55;51;51;51;49;48;51;54;56;53;40;50;49;41;62;56;43;73;38;118;47;33;39;60;39;54;60;62;67;33;42;38;61;39], true, Some 48%nat);
    ([40;56;48;48;54;41;52;55;48;48;55;54;55;49;55;51;51;51;49;48;51;54;56;53;40;50;49;41;62;56;43;73;38;118;47;33;39;60;39;54;60;62;67;33;42;61;39], true, Some 47%nat);
    ([40;56;48;48;54;41;52;55;48;48;55;54;55;49;55;51;51;51;49;48;51;54;56;53;40;50;49;41;62;56;43;73;38;118;47;33;39;60;39;54;60;62;67;33;66;38;61;39], true, Some 48%nat);
    ([40;56;48;48;54;41;52;55;48;48;55;54;55;49;55;51;51;51;49;48;51;54;56;53;40;50;49;41;62;56;43;73;38;118;47;33;39;60;39;54;60;62;67;42;38;61;39], true, Some 47%nat);
    ([40;56;48;48;54;41;53;56;49;50;56;56;48;54;50;49;57;51;49;50;49;50;57;56;40;50;49;41;34;39;60;33;59;63;45;42;62;32;51;120;44;47;54;59;63;71;62;98], false, Some 37%nat);
    ([40;56;48;48;54;41;53;56;49;50;56;56;48;54;50;49;57;51;49;50;49;50;57;56;40;50;49;41;34;39;60;33;59;63;45;42;62;58;51;120;44;47;54;59;63;71;62;98], true, Some 48%nat);
    ([40;56;48;48;54;41;53;57], false, None);
    ([40;56;48;48;54;41;53;57;48;52;53;56;52;48;50;53;48;55;53;65305;54;49;1635;56;40;50;49;41;47], true, Some 29%nat);
    ([40;56;48;48;54;41;54;49;53;54;57;52;57;53;52;52;53;52;57;53;49;51;54;57;40;50;49;41;49;33], true, Some 30%nat);
    ([40;56;48;48;54;41;54;49;53;54;57;52;57;53;52;54;53;52;57;53;49;51;54;57;40;50;49;41;63;33], true, Some 30%nat);
    ([40;56;48;48;54;41;55;51;51;55;54;48;53;49;49;50;53;49;56;48;53;51;48;40;50;49;41;84], false, None);
    ([40;56;48;48;54;41;55;51;51;55;54;49;48;53;49;49;50;53;49;56;48;53;51;48;40;50;49;41;84], true, Some 29%nat);
    ([40;56;48;48;54;41;55;53;48;51;53;44;51;55;54;49;52;48;55;56;53;54;52;56;40;50;49;41;84], false, None);
    ([40;56;48;48;54;41;55;53;48;51;53;48;51;55;54;49;52;48;55;56;53;54;52;56;40;50;49;41;84], true, Some 29%nat);
    ([40;56;48;48;54;41;55;53;48;122;51;53;48;51;55;54;49;52;48;101;55;56;53;54;52;56;40;50;49;41;84], false, None);
    ([40;56;48;48;54;41;55;53;48;178;51;53;48;51;55;54;49;52;48;55;56;53;54;52;56;40;50;49;41;84], false, None);
    ([40;56;48;48;54;41;55;53;1635;48;56;51;1635;48;52;52;57;55;56;48;57;55;50;40;50;49;41;61;34], false, None);
    ([40;56;48;48;54;41;55;53;1635;48;56;51;1635;48;52;52;57;55;56;48;57;55;53;50;40;50;49;41;61;34], true, Some 30%nat);
    ([40;56;48;48;54;41;56;49;52;48;53;48;65305;54;50;57;48;56;51;57;55;53;57;55;40;50;49;41;60;114;58;41;41;52;95;40;46;57;58;42;44;43;37;111;57;38;41;61], true, Some 48%nat);
    ([40;56;48;48;54;41;56;49;52;48;53;48;65305;54;50;57;48;56;51;57;55;53;57;55;40;50;49;41;60;114;58;41;41;52;95;40;46;57;58;95;44;43;37;111;57;38;41;61], true, Some 48%nat);
    ([40;56;48;48;54;41;56;55;57;54;52;57;49;48;55;50;53;49;52;53;52;50;49;53;40;50;49;41;42], true, Some 29%nat);
    ([40;56;48;48;54;41;56;55;57;54;52;57;49;48;55;53;49;52;53;52;50;49;53;40;50;49;41;42], false, None);
    ([40;56;48;48;54;41;65305;52;53;56;51;54;54;48;50;49;52;65305;49;50;52;51;54;55;40;50;49;41;47;47], true, Some 30%nat);
    ([40;56;48;48;54;41;65305;55;52;55;49;54;53;48;48;51;52;54], false, None);
    ([40;56;48;48;54;41;65305;55;52;55;49;54;53;48;48;51;52;54;50;56;56;54;57;50;40;50;49;41;58;43;61], true, Some 31%nat);
    ([40;56;48;48;54;41;65305;55;52;55;49;54;59;48;48;51;52;54;50;56;56;54;57;50;40;50;49;41;58;43;61], false, None);
    ([40;56;48;54;41;65305;52;53;56;51;54;54;48;50;49;52;65305;49;50;52;51;54;55;40;50;49;41;47;47], false, None);
    ([40;56;48;63;54;41;48;52;55;49;52;54;55;57;54;55;49;52;57;52;55;51;51;52;40;50;49;41;47;33;39], false, None)]);
  (T_UPUI_GS1_ELEMENT_STRING,
   [([], false, None);
    ([40], false, None);
    ([40;47;49;41;65305;56;54;56;54;56;49;1635;55;1635;56;51;55;57;40;50;51;53;41;37;38;58;77], false, None);
    ([40;48;49;41;48;52;53;50;1635;55;51;52;53;56;51;52;56;40;50;51;53;41;44;61], false, None);
    ([40;48;49;41;48;56;50;49;51;54;51;55;54;53;50;48;56;48;40;50;51;53;41;60;59;59], true, Some 26%nat);
    ([40;48;49;41;48;57;53;56;53;53;52;65305;53;50;54;52;51;57;40;50;51;53;41;60;33;43;38;41;38;59;46;43;43;40;63;42;50;46;40;34;62;80;33;58;41;45;38;55;62;42;84], true, Some 51%nat);
    ([40;48;49;41;49;48;52;53;50;1635;55;51;52;53;56;51;52;56;40;50;51;53;41;44;61], true, Some 25%nat);
    ([40;48;49;41;49;55;52;48], false, None);
    ([40;48;49;41;49;55;52;48;51;54;54;51;57;48;51;50;52;54;40;50;51;53;41;39;61;40;122;58;95;37;42;58;100;38;43;53;47;37;42;61;39;46;49;61;54;58;81;54;46;60;73], true, Some 51%nat);
    ([40;48;49;41;49;55;52;48;51;54;54;51;57;48;51;50;52;54;40;50;51;53;41;39;61;40;122;58;95;95;42;58;100;38;43;53;47;37;42;61;39;46;49;61;54;58;81;54;46;60;73], true, Some 51%nat);
    ([40;48;49;41;49;55;52;48;51;101;54;51;57;48;51;50;52;54;40;50;51;53;41;39;61;40;122;58;95;37;42;58;100;38;43;53;47;37;42;61;39;46;49;61;54;58;81;54;46;60;73], false, None);
    ([40;48;49;41;49;55;57;53;56;56;49;56;50;52;50;50;48;54;40;50;51;53;41;47;95], true, Some 25%nat);
    ([40;48;49;41;49;56;65305;56;48;52;47;57;50;53;57;55;50;48;40;50;51;53;41;52;50], false, None);
    ([40;48;49;41;49;56;65305;56;48;52;57;57;50;53;57;55;50;48;40;50;51;53;41;52;50], true, Some 25%nat);
    ([40;48;49;41;49;57;178;56;56;49;56;50;52;50;50;48;54;40;50;51;53;41;47;95], false, None);
    ([40;48;49;41;50;52;52;50;50;56;57;48;52;49;51;48;55;54;40;50;51;53;41;100;58], true, Some 25%nat);
    ([40;48;49;41;51;52;52;50;50;56;57;48;52;49;51;48;55;54;40;50;51;53;41;100;58], true, Some 25%nat);
    ([40;48;49;41;51;52;52;50;50;56;57;48;52;49;51;48;66;55;54;40;50;51;53;41;100;58], false, None);
    ([40;48;49;41;51;52;52;50;50;56;57;62;48;52;49;51;48;55;54;40;50;40;53;41;100;58], false, None);
    ([40;48;49;41;52;51;55;54;54;49;51;56;55;57;49;49;49;55;40;50;51;53;41;37], true, Some 24%nat);
    ([40;48;49;41;52;51;55;54;54;49;51;56;55;57;49;49;55;40;50;51;53;41;37], false, None);
    ([40;48;49;41;52;51;55;54;54;49;51;56;55;57;49;49;95;55;40;50;51;53;41;37], false, None);
    ([40;48;49;41;52;52;48;50;1635;54;54;51;53;48;55;56;51;48;40;50;51;53;41;39;39;59;62;42;48;33;38;47;62;97;32;63;63;42;63;105;59;122;59;43;95;38;62;95;62;41;55], false, Some 34%nat);
    ([40;48;49;41;52;52;48;50;1635;54;54;51;53;48;55;56;51;48;40;50;51;53;41;39;39;59;62;42;48;33;38;47;62;97;47;63;63;42;63;105;59;122;59;43;95;38;62;95;62;41;55], true, Some 51%nat);
    ([40;48;49;41;53;51;54;49;55;54;57;54;48;56;48], false, None);
    ([40;48;49;41;53;51;54;49;55;54;57;54;48;56;48;52;53;49;40;50;51;53;41;46], true, Some 24%nat);
    ([40;48;49;41;54;50;53;51;49;52;48;53;53;56;49;51;55;52;40;50;51;53;41;37;33;37;42;33;33;62;62;55;61;43;37;59;42;39;61;34;38;45;39;59;37;95;61;38;33;40;122], true, Some 51%nat);
    ([40;48;49;41;55;54;1635;33;52;51;55;48;48;65305;51;1635;52;1635;40;50;51;53;58], false, None);
    ([40;48;49;41;55;54;1635;48;52;51;55;48;48;65305;51;1635;52;1635;40;50;51;53;41;58], true, Some 24%nat);
    ([40;48;49;41;56;52;54;57;55;49;50;48;57;49;51;51;53;51;40;50;51;53;41;62], true, Some 24%nat);
    ([40;48;49;41;56;52;54;57;55;49;50;48;57;49;51;51;53;51;40;51;53;41;62], false, None);
    ([40;48;49;41;56;52;54;67;55;49;50;48;57;49;51;51;53;51;40;50;51;53;41;62], false, None);
    ([40;48;49;41;56;55;51;51;51;53;57;56;49;57;48;54;54;65305;40;50;51;53;41;60], true, Some 24%nat);
    ([40;48;49;41;56;55;51;51;51;53;57;56;49;57;48;54;54;65305;40;50;51;53;41;60;38], true, Some 25%nat);
    ([40;48;49;41;57;56;57;51;50;54;54;50;52;51;48;51;50;51;40;50;51;53;41;40], true, Some 24%nat);
    ([40;48;49;41;57;1635;48;10;53;53;57;50;51;52;52;56;51;50;49;40;50;51;53;41;71;39], false, None);
    ([40;48;49;41;57;1635;48;53;53;57;50;51;52;52;56;51;50;49;40;50;51;53;41;71;39], true, Some 25%nat);
    ([40;48;49;41;121;50;53;51;49;52;48;53;53;56;49;51;55;52;40;50;51;53;37;33;37;42;33;33;62;62;55;61;43;37;59;42;39;61;34;38;45;39;59;37;95;61;38;33;40;122], false, None);
    ([40;48;49;41;65305;56;54;56;54;56;49;1635;55;1635;56;51;55;57;40;50;51;53;41;37;38;58;77], true, Some 27%nat);
    ([40;48;49;41;65305;56;54;56;54;56;49;1635;55;1635;56;51;55;57;40;50;51;53;41;37;47;58;100;77], true, Some 28%nat);
    ([40;48;49;41;65305;56;54;56;54;56;49;1635;55;1635;56;51;55;57;40;51;53;41;37;38;58;77], false, None);
    ([40;48;53;41;48;56;50;49;51;54;51;55;54;53;46;50;48;56;48;40;50;51;53;41;60;59;59], false, None);
    ([40;55;49;52;51;55;54;54;49;51;56;55;57;49;49;49;55;40;50;51;53;41;37], false, None);
    ([101;48;49;41;48;57;53;56;53;53;52;65305;53;50;54;52;51;57;40;50;51;53;41;60;33;43;38;41;38;59;46;43;43;40;63;42;50;46;40;34;62;80;33;58;41;45;38;55;62;42;84], false, None)]);
  (T_PGLN_GS1_ELEMENT_STRING,
   [([], false, None);
    ([40;33;49;55;41;53;49;54;1635;54;57;52;48;55;53;49;56;59], false, None);
    ([40;52;49], false, None);
    ([40;52;49;55;41], false, None);
    ([40;52;49;55;41;49;49;56;53;178;65305;50;50;56;57;57;56;57;52], false, None);
    ([40;52;49;55;41;49;49;56;53;65305;50;50;56;57;57;56;57;52], true, Some 18%nat);
    ([40;52;49;55;41;50;48;48;57;53;55;50;51;48;53;51;54;57], true, Some 18%nat);
    ([40;52;49;55;41;50;48;56;56;52;54;51;1635;55;55;57;52], false, None);
    ([40;52;49;55;41;50;48;56;56;52;54;56;51;1635;55;55;57;52], true, Some 18%nat);
    ([40;52;49;55;41;50;50;54;52;55;54;52;55;65305;65305;48;51;48], true, Some 18%nat);
    ([40;52;49;55;41;50;50;54;52;55;54;57;52;55;65305;65305;48;51;48], false, Some 18%nat);
    ([40;52;49;55;41;51;54;51;65305;52;65305;52;51;57;55;32;54;50;49], false, None);
    ([40;52;49;55;41;51;54;51;65305;52;65305;52;51;57;55;54;50;51], true, Some 18%nat);
    ([40;52;49;55;41;51;54;51;65305;52;65305;52;51;57;55;54;51], false, None);
    ([40;52;49;55;41;51;54;51;65305;52;65305;52;51;57;55;54;58;50;51], false, None);
    ([40;52;49;55;41;52;48;53;56;49;54;54;1635;54;53;52;57;51], true, Some 18%nat);
    ([40;52;49;55;41;52;55;54;56;57;48;57;54;1635;50;54;37;55;50], false, None);
    ([40;52;49;55;41;52;55;54;56;57;48;57;54;1635;50;54;55;50], true, Some 18%nat);
    ([40;52;49;55;41;53;49;54;1635;54;57;52;48;55;53;49;54], false, None);
    ([40;52;49;55;41;53;49;54;1635;54;57;52;48;55;53;49;56;54], true, Some 18%nat);
    ([40;52;49;55;41;53;49;62;54;1635;54;57;52;48;55;53;49;56;54], false, None);
    ([40;52;49;55;41;53;50;54;48;49;52;48;52;57;50;51], false, None);
    ([40;52;49;55;41;53;50;54;48;49;52;48;52;57;50;51;50;53], true, Some 18%nat);
    ([40;52;49;55;41;53;51;49;48;52;52;57;51;52;60;56;49;51;55], false, None);
    ([40;52;49;55;41;53;51;49;48;52;52;57;52;52;56;49;51;55], true, Some 18%nat);
    ([40;52;49;55;41;53;51;49;48;52;57;52;52;56;49;51;55], false, None);
    ([40;52;49;55;41;55;53;53;54;54;56;57;56;49;51;54;54], false, None);
    ([40;52;49;55;41;55;53;53;54;54;56;65305;57;56;49;51;54;54], true, Some 18%nat);
    ([40;52;49;55;41;56;40;50;50;54;33;52;54;56;50;49;52;50;48], false, None);
    ([40;52;49;55;41;56;49;50;51;56;53;53;55;49;49;49;55;57], true, Some 18%nat);
    ([40;52;49;55;41;56;50;50;54;51;52;54;56;50;49;52;50;48], true, Some 18%nat);
    ([40;52;49;55;41;56;52;50;51;56;53;53;55;49;49;120;55;57], false, None);
    ([40;52;49;55;41;56;53;50;48;52;55;57;57;55;54;52;52;54], true, Some 18%nat);
    ([40;52;49;55;41;56;53;50;48;52;55;57;57;55;54;52;52;54;34], false, Some 18%nat);
    ([40;52;49;55;41;57;50;54;54;49;54;49;57;49;56;52;1635;50], true, Some 18%nat);
    ([40;52;49;55;41;57;50;55;54;54;49;54;49;57;49;56;50], false, None);
    ([40;52;49;55;41;57;50;55;54;54;49;54;49;57;49;56;52;50], true, Some 18%nat);
    ([40;52;49;55;41;57;50;55;55;1635;56;50;57;57;54;51;53;54], true, Some 18%nat);
    ([40;52;49;55;41;1635;50;49;56;65305;53;56;49;50;63;49;51;51;48], false, None);
    ([40;52;49;55;41;1635;50;49;56;65305;53;56;50;50;49;51;48], false, None);
    ([40;52;49;55;41;1635;50;49;56;65305;53;56;50;50;49;51;51;48], true, Some 18%nat);
    ([40;52;49;55;52;41;57;50;55;55;1635;56;50;57;57;54;51;53;54;67], false, None);
    ([40;52;49;55;65;41;57;52;55;54;54;49;54;49;57;49;56;52;50], false, None);
    ([40;52;49;65305;41;1635;50], false, None);
    ([67;40;52;49;55;41;50;48;48;57;53;55;50;51;48;53;51;54;57], false, None)]);
  (T_LGTIN_GS1_ELEMENT_STRING,
   [([], false, None);
    ([40;48;49;35;55;49;57;51;53;49;49;56;53;57;50;48;48;54;40;49;48;41;95], false, None);
    ([40;48;49;41;49;50;49;54;50;55;57;57;55;56;54;54;53;49;40;49;48;41;43;51], true, Some 24%nat);
    ([40;48;49;41;50;48;53;50;50;53;54;48;52;48;52;52;56;53;40;49;48;41;110;44], true, Some 24%nat);
    ([40;48;49;41;50;49;50;54;54;53;55;55;55;52;50;53;54;50;40;49;48;41;58;53;95], true, Some 25%nat);
    ([40;48;49;41;50;49;50;54;54;53;55;55;55;52;50;53;54;50;49;48;41;58;53;95], false, None);
    ([40;48;49;41;50;49;57;51;55;51;53;50;51;48;53;57;53;50;40;49;48;41;38;61], true, Some 24%nat);
    ([40;48;49;41;50;49;57;51;55;51;53;50;51;101;48;53;57;53;50;40;49;61;48;41;38;61], false, None);
    ([40;48;49;41;52;48;50;54;48;49;55;49;38;48;50;55;65305;65305;40;49;48;41;38;60;60;52], false, None);
    ([40;48;49;41;52;48;50;54;48;49;55;49;50;48;50;55;65305;65305;40;49;48;41;38;60;60;52], true, Some 26%nat);
    ([40;48;49;41;53;54;49;57;57;56;51;65305;48;48;54;56;51;51;40;49;48;41;61;73;40;63], true, Some 26%nat);
    ([40;48;49;41;53;54;49;57;57;56;51;65305;48;48;54;56;51;51;40;49;48;122;61;73;40;63], false, None);
    ([40;48;49;41;53;54;49;57;57;56;51;65305;48;48;54;56;51;51;40;49;122;41;61;73;40;63], false, None);
    ([40;48;49;41;53;54;49;57;57;56;51;65305;48;54;56;51;51;40;49;48;41;61;73;40;63], false, None);
    ([40;48;49;41;54;50;122;55;57;49;50;55;56;50;56;48;52;53;40;49;48;41;40;47], false, None);
    ([40;48;49;41;54;50;65305;55;57;49;50;55;56;50;56;48;52;53;40;49;48;41;40;47], true, Some 24%nat);
    ([40;48;49;41;54;55;49;50;50;56;49;51;51;51;56;51;48;57;53;40;49;48;41;53;50], false, None);
    ([40;48;49;41;54;55;49;50;56;49;51;51;51;56;51;48;57;53;40;49;48;41;53;50], true, Some 24%nat);
    ([40;48;49;41;54;55;49;50;56;49;51;51;51;56;51;48;57;53;40;49;48;41;100;50], true, Some 24%nat);
    ([40;48;49;41;54;55;53;50;56;49;51;51;51;56;51;48;57;53;40;49;48;41;53;50], true, Some 24%nat);
    ([40;48;49;41;55;49;57;51;53;49;49;56;53;57;50;48;48;54;40;49;48;41;95], true, Some 23%nat);
    ([40;48;49;41;56;53;48;1635;50;55;49;51;55;49;55;54;49;48;40;49;48;41;61;54;37], true, Some 25%nat);
    ([40;48;49;41;56;53;55;49;54;55;53;55;57;53;54;55;50;54;40;48;41;61;34;37], false, None);
    ([40;48;49;41;56;53;55;49;54;55;53;55;57;53;54;55;50;54;40;49;48;41;61;34;37], true, Some 25%nat);
    ([40;48;49;41;56;55;53;52;55;53;50;50;51;51;53;52;57;49;40;49;48;41;54;42;38;33;103;39;39;39;110;82;59;37;37;62;47;33;43;37;47;61], true, Some 42%nat);
    ([40;48;49;41;56;55;53;52;55;53;50;50;51;51;53;52;57;49;40;49;48;41;54;42;38;33;103;39;39;39;110;82;59;60;37;62;47;33;43;37;47;61], true, Some 42%nat);
    ([40;48;49;41;56;55;53;52;55;53;50;50;51;51;53;52;57;49;40;49;48;41;54;42;38;33;103;39;39;39;110;82;59;60;37;62;47;33;43;37;47;61;62], false, Some 42%nat);
    ([40;48;49;41;56;55;53;52;55;53;62;50;51;51;53;52;57;49;40;49;48;41;54;42;38;33;103;39;39;10;110;82;59;60;37;62;47;33;43;37;47;61], false, None);
    ([40;48;49;41;56;55;55;57;50;54;65305;51;49;55;57;53;57;40;49;48;41;49;45;43], false, None);
    ([40;48;49;41;56;55;55;57;50;54;65305;51;55;49;55;57;53;57;40;49;38;41;49;45;43], false, None);
    ([40;48;49;41;56;55;55;57;50;54;65305;51;55;49;55;57;53;57;40;49;48;41;49;45;43], true, Some 25%nat);
    ([40;48;49;41;56;55;55;57;50;54;65305;51;55;49;55;57;67;57;40;49;48;41;49;45;43], false, None);
    ([40;48;49;41;56;121;48;1635;50;55;49;51;55;49;55;54;49;48;40;49;48;41;61;54;37], false, None);
    ([40;48;49;41;57;52;56;52;51;54;53;49;52;49;55;56;56;48;40;49;48;41;69], true, Some 23%nat);
    ([40;48;49;41;57;52;56;52;51;54;53;49;52;49;56;56;56;48;40;49;48;41;69], true, Some 23%nat);
    ([40;48;49;41;57;53;57;48;49;51;51;52;52;54;53;48;1635;57;40;49;48;41;37;56], true, Some 24%nat);
    ([40;48;49;41;57;55;55;51;51;51;52;51;52;52;49;56;49;55;40;49;48;41;33], true, Some 23%nat);
    ([40;48;49;41;57;55;55;102;51;51;51;52;51;52;52;49;56;49;55;40;49;48;41;33], false, None);
    ([40;48;49;41;57;65305;57;48;49;51;51;52;52;54;53;48;1635;57;40;49;48;41;37;56], true, Some 24%nat);
    ([40;48;49;41;65305;55;49;52;52;55;55;51;54;50;53;57;56;48;40;49;48;41;56;47;38], true, Some 25%nat);
    ([40;48;49;41;65305;55;49;52;52;55;55;51;54;50;53;57;56;48;40;49;48;41;56;47;53;38], true, Some 26%nat);
    ([40;48;49;41;65305;55;49;52;52;55;55;51;54;122;50;53;57;56;48;40;49;48;41;56;47;38], false, None);
    ([48;49;41;49;50;49;54;50;55;57;57;55;56;54;54;53;49;40;49;48;41;43;51], false, None);
    ([48;49;41;53;50;48;53;50;50;53;54;48;52;48;52;52;56;53;40;49;48;41;110;44], false, None);
    ([48;49;41;65305;55;49;52;52;55;55;51;54;50;53], false, None)]);
  (T_GS1_ELEMENT_STRING,
   [([], false, None);
    ([40;48;48;41;1635;56;48;51;54;65305;51;54;57;54;57;1635;65305;53;56;57;48;52], true, Some 22%nat);
    ([40;48;48;41;1635;56;48;51;54;65305;51;54;57;54;57;1635;65305;53;56;57;48;52;1635], false, Some 22%nat);
    ([40;48;49;41;48;49;57;48;1635;53;65305;48;57;51;55;46;55;51;40;50;49;41;63;41;39], false, None);
    ([40;48;49;41;48;49;57;48;1635;53;65305;48;57;51;55;56;55;51;40;50;49;41;63;41;39], true, Some 25%nat);
    ([40;48;49;41;48;49;57;48;1635;53;65305;48;57;51;55;56;55;51;40;56;49;41;63;41;39], false, None);
    ([40;48;49;41;49;55;49;51;48;53;54;57;51;52;57;51;55;48;40;50;49;41;38], true, Some 23%nat);
    ([40;48;49;41;49;55;49;51;48;53;54;57;65;35;57;51;55;48;40;50;49;41;38], false, None);
    ([40;48;49;41;49;57;48;1635;53;65305;48;57;51;55;56;55;51;40;50;49;41;63;41;39], false, None);
    ([40;48;49;41;52;57;51;1635;49;52;56;55;56;51;54;56;57;56;40;49;48;41;47;63;57;45;60;34;58;58;38;62;40;55;34;42;58;95;40;34;33;47;40], false, Some 42%nat);
    ([40;48;49;41;52;57;51;1635;49;52;56;55;56;51;54;56;57;56;40;49;48;41;47;63;57;60;34;58;58;38;62;40;55;34;42;58;95;40;34;33;47;40], true, Some 42%nat);
    ([40;48;49;41;52;57;51;1635;49;52;56;55;56;51;54;56;57;56;40;49;48;41;47;63;57;60;34;58;58;38;62;40;55;34;42;58;95;40;34;33;47;40;102], false, Some 42%nat);
    ([40;48;49;41;52;57;51;1635;49;52;56;55;56;51;54;62;56;56;40;49;48;41;47;63;57;60;34;58;58;38;62;40;55;34;42;58;95;40;34;33;47;40], false, None);
    ([40;48;49;41;57;55;53;50;57;50;50;55;50;49;50;47;52;65305;40;49;48;41;58], false, None);
    ([40;48;49;41;57;55;53;50;57;50;50;55;50;49;50;56;52;65305;40;49;48;41;58], true, Some 23%nat);
    ([40;50;53;51;41;51;50;50;1635;55;53;57;55;56;53;49;50;53;61;70], true, Some 20%nat);
    ([40;50;53;51;65305;41;51;50;50;1635;55;53;57;55;56;53;49;50;53;61;70], false, None);
    ([40;52;48;41;54;52;49;55;57;49;52;37;99], false, None);
    ([40;52;48;49;41;53;51;56;52;55;48;40;33], true, Some 13%nat);
    ([40;52;48;49;41;53;51;56;52;95;55;48;40;33], false, None);
    ([40;52;48;49;41;54;52;49;55;57;49;52;37;99], true, Some 14%nat);
    ([40;52;48;49;41;56;55;52;55;53;57;1635;112;34;38;42;60;46;61;63;33;41;47;43;45;43;62;95;41;122;43;63;63;40;62;72], true, Some 36%nat);
    ([40;52;48;50;41;54;57;50;52;56;55;53;65305;65305;51;48;50;55;1635;53;55;55], true, Some 22%nat);
    ([40;52;48;50;41;54;57;50;52;56;55;53;65305;65305;51;48;50;102;1635;53;55;55], false, None);
    ([40;52;49;52;41;53;1635;55;55;48;50;54;57;48;48;49;51;65305;40;50;53;52;41;118], true, Some 24%nat);
    ([40;52;49;52;41;53;1635;55;55;48;50;54;57;48;48;49;51;65305;40;50;53;52;41;118;44], true, Some 25%nat);
    ([40;52;49;52;41;57;51;51;51;55;57;50;49;49;51;49;56;56;40;50;53;52;41;61;72;43], true, Some 26%nat);
    ([40;52;49;52;41;57;51;51;51;55;57;50;49;49;51;49;56;56;50;53;52;41;61;72;43], false, None);
    ([40;52;49;55;41;56;55;57;51], false, None);
    ([40;52;49;55;41;56;55;57;51;48;65305;52;52;51;1635;56;54;57], true, Some 18%nat);
    ([40;52;49;55;41;56;55;102;51;48;65305;52;52;51;1635;56;54;57], false, None);
    ([40;52;49;55;41;56;55;178;51;48;65305;52;52;51;1635;56;54;57], false, None);
    ([40;52;52;49;41;56;55;52;55;53;57;1635;112;34;38;42;60;46;61;63;33;41;47;43;45;43;62;95;41;122;43;63;63;40;62;72], false, None);
    ([40;56;48;48;51;41;48;55;57;54;57;56;56;55;49;52;56;49;54;54;39;41;41], true, Some 23%nat);
    ([40;56;48;48;52;41;52;56;49;54;65305;38;44;43;39], false, None);
    ([40;56;48;48;52;41;57;52;56;49;54;65305;38;44;43;39], true, Some 16%nat);
    ([40;56;48;48;52;41;57;52;102;49;54;65305;38;44;43;39], false, None);
    ([40;56;48;49;50;41;53;55;56;54;1635;49;50;48;55;65305;52;49;49;50;51], false, None);
    ([40;56;48;49;56;41;37;55;55;52;57;56;53;48;49;50;52;53;56;57;57;51;51;49;54], false, None);
    ([40;56;48;49;56;41;53;55;56;54;1635;49;50;48;55;65305;52;33;49;49;50;51;51;55;233], false, None);
    ([40;56;48;49;56;41;53;55;56;54;1635;49;50;48;55;65305;52;49;49;50;51;51;55;54], true, Some 24%nat);
    ([40;56;48;49;56;41;53;55;56;54;1635;49;50;48;56;55;65305;52;49;49;50;47;51;55;54], false, None);
    ([40;56;48;49;56;41;56;55;55;52;57;56;53;48;49;50;52;56;57;57;51;51;49;54], true, Some 24%nat);
    ([40;56;62;48;51;41;48;55;57;54;57;56;56;55;49;52;56;49;54;54;39;41;41], false, None);
    ([40;56;120;48;52;41;57;52;56;49;54;65305;38;44;43;39], false, None)])].

Definition same_end (a b : option nat) : bool :=
  match a, b with Some x, Some y => (x =? y)%nat | None, None => true | _, _ => false end.
Example patterns_ok : forallb (fun c => match re_compile (fst c) with
    | Some p => forallb (fun '(s, full, stop) => Bool.eqb (sre_fullmatch p s) full && same_end (match_length p s) stop) (snd c)
    | None => false
    end) pattern_cases = true.
Proof. vm_compute. reflexivity. Qed.
