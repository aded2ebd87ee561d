(** The text of the modules, in the order of [Program.modules]. *)
From Coq Require Import String List.
From Verif.Source Require Import T_regex T_common T_base_scheme T_adi T_bic T_cpi T_gdti T_giai T_gid T_ginc T_grai T_gsin T_gsrn T_gsrnp T_imovn T_itip T_lgtin T_pgln T_sgcn T_sgln T_sgtin T_sscc T_upui T_usdod T_epc_schemes T_parsers.
Import ListNotations.
Open Scope string_scope.

Definition texts : list (string * list string) :=
  [("regex", text_regex); ("common", text_common); ("base_scheme", text_base_scheme); ("adi", text_adi); ("bic", text_bic); ("cpi", text_cpi); ("gdti", text_gdti); ("giai", text_giai); ("gid", text_gid); ("ginc", text_ginc); ("grai", text_grai); ("gsin", text_gsin); ("gsrn", text_gsrn); ("gsrnp", text_gsrnp); ("imovn", text_imovn); ("itip", text_itip); ("lgtin", text_lgtin); ("pgln", text_pgln); ("sgcn", text_sgcn); ("sgln", text_sgln); ("sgtin", text_sgtin); ("sscc", text_sscc); ("upui", text_upui); ("usdod", text_usdod); ("epc_schemes", text_epc_schemes); ("parsers", text_parsers)].
