(** epcpy/epc_schemes/__init__.py, the text of the file, line by line. *)
From Coq Require Import String List.
Import ListNotations.
Open Scope string_scope.

Definition text_epc_schemes : list string := [
  "from .adi import ADI";
  "from .bic import BIC";
  "from .cpi import CPI";
  "from .gdti import GDTI";
  "from .giai import GIAI";
  "from .gid import GID";
  "from .ginc import GINC";
  "from .grai import GRAI";
  "from .gsin import GSIN";
  "from .gsrn import GSRN";
  "from .gsrnp import GSRNP";
  "from .imovn import IMOVN";
  "from .itip import ITIP";
  "from .lgtin import LGTIN";
  "from .pgln import PGLN";
  "from .sgcn import SGCN";
  "from .sgln import SGLN";
  "from .sgtin import SGTIN";
  "from .sscc import SSCC";
  "from .upui import UPUI";
  "from .usdod import USDOD"
].
