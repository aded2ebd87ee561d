(** epcpy/epc_schemes/__init__.py
    Written by a program from the syntax trees of the source text: docstrings and annotations are left out, nothing else. *)
From Coq Require Import String ZArith List.
From Verif.Model Require Import Syntax.
Import ListNotations.
Open Scope string_scope.
Open Scope Z_scope.
Open Scope list_scope.


(** epcpy/epc_schemes/__init__.py *)
Definition m_epc_schemes : list top :=
  [TFrom "adi" ["ADI"];
   TFrom "bic" ["BIC"];
   TFrom "cpi" ["CPI"];
   TFrom "gdti" ["GDTI"];
   TFrom "giai" ["GIAI"];
   TFrom "gid" ["GID"];
   TFrom "ginc" ["GINC"];
   TFrom "grai" ["GRAI"];
   TFrom "gsin" ["GSIN"];
   TFrom "gsrn" ["GSRN"];
   TFrom "gsrnp" ["GSRNP"];
   TFrom "imovn" ["IMOVN"];
   TFrom "itip" ["ITIP"];
   TFrom "lgtin" ["LGTIN"];
   TFrom "pgln" ["PGLN"];
   TFrom "sgcn" ["SGCN"];
   TFrom "sgln" ["SGLN"];
   TFrom "sgtin" ["SGTIN"];
   TFrom "sscc" ["SSCC"];
   TFrom "upui" ["UPUI"];
   TFrom "usdod" ["USDOD"]].
