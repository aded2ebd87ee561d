(** The text of the source files: C65.

    [Source/T_*.v] holds the files of epcpy line by line, [Model/Reader.v] reads such text by Python's lexical rules and grammar.  What is
    read is what [Source/Program.v] lists and the machine runs in C58 to C64. *)
From Coq Require Import String List ZArith.
From Verif.Model Require Import Syntax Reader Machine Loader.
From Verif.Source Require Import Program World T_epcpy T_bic Texts.
From Verif.Spec Require Import SpecText.
From Verif.Proofs Require Import Reading.
Import ListNotations.
Open Scope string_scope.
Open Scope list_scope.

(** the text of the 26 modules is read as the modules and functions that the machine runs *)
Theorem C65_program : read_program texts = Some (modules, codes).
Proof. exact program_read. Qed.
Print Assumptions C65_program.
(** file by file *)
Theorem C65_modules : forall name text, In (name, text) texts ->
  exists m fs, read_module name text = Some (m, fs) /\ In (name, m) modules /\ incl fs codes.
Proof. exact modules_read. Qed.
Print Assumptions C65_modules.
(** no function and no module hides another of the same name *)
Theorem C65_names_once : NoDup (map fst codes) /\ NoDup (map fst modules).
Proof. exact names_once. Qed.
Print Assumptions C65_names_once.
(** importing what is read gives the functions, namespaces, classes and default values of C58 to C64 *)
Theorem C65_loaded : exists ms fs W', read_program texts = Some (ms, fs) /\ load ms (empty_world fs) = Some W' /\
  w_code W' = w_code W /\ w_ns W' = w_ns W /\ w_cls W' = w_cls W /\ w_def W' = w_def W.
Proof. exact text_loaded. Qed.
Print Assumptions C65_loaded.
(** epcpy/__init__.py: [import epcpy] offers the eleven parsers and the exception, and nothing else *)
Theorem C65_package : exists m W' ns, read_module "epcpy" text_epcpy = Some (m, []) /\ load [("epcpy", m)] W = Some W' /\
  w_code W' = w_code W /\ w_cls W' = w_cls W /\ assoc "epcpy" (w_ns W') = Some ns /\ forall x, In x ns <-> In x public.
Proof. exact package_read. Qed.
Print Assumptions C65_package.

(** the hypothesis of C65_modules is met *)
Example C65_modules_case : In ("bic", text_bic) texts.
Proof. vm_compute. tauto. Qed.
(** how operators bind, where blocks end, what an f-string contains *)
Example C65_expression : read_module "m" ["a = not b - c - d <= -e * f and g"] =
  Some ([TAssign "a" (EAnd [ENot (ECmp (EBin OpSub (EBin OpSub (EName "b") (EName "c")) (EName "d")) [(CmpLe, EBin OpMul (ENeg (EName "e")) (EName "f"))]); EName "g"])], []).
Proof. vm_compute. reflexivity. Qed.
Example C65_function : read_module "m" ["def f(x: str, n=1):  # pad"; "    if x:"; ""; "        return f""{x:>{n}}."""; "    return n"] =
  Some ([TFun "f"],
    [("m.f", mkFun "m" None KPlain ["x"; "n"] [("n", EConst (CInt 1%Z))] None [] None
       [SIf (EName "x") [SReturn (Some (EJoined [EFormat (EName "x") (Some (EJoined [EConst (CStr ">"); EFormat (EName "n") None])); EConst (CStr ".")]))] [];
        SReturn (Some (EName "n"))])]).
Proof. vm_compute. reflexivity. Qed.
(** one level of indentation less is another program; a block that is not closed, or a word Python reserves, is none *)
Example C65_indentation : read_module "m" ["def f(x):"; "    if x:"; "        x = 1"; "        return x"] <> read_module "m" ["def f(x):"; "    if x:"; "        x = 1"; "    return x"].
Proof. vm_compute. discriminate. Qed.
Example C65_refused : read_module "m" ["def f(x):"; "return x"] = None /\ read_module "m" ["in = 1"] = None /\ read_module "m" ["a = (1"] = None.
Proof. vm_compute. auto. Qed.
