(** Programs of our own, run by CPython 3.11.10 and by the machine of [Model/Machine.v] and [Model/Loader.v]: every form of
    statement and expression the machine knows, with the answers of the interpreter.  Written by tools/machine_cases.py, which
    holds the programs as text.  No code of /repo was run.  These are tests, not proofs. *)
From Coq Require Import String ZArith List.
From Verif.Model Require Import Py Syntax Machine Loader.
Import ListNotations.
Open Scope string_scope.
Open Scope Z_scope.
Open Scope list_scope.

(** cases.py:27-29 *)
Definition f_cases_Base___init__ : fundef :=
  mkFun "cases" (Some "cases.Base") KPlain ["self"; "x"] [] None [] None
   [SAssign (TSelf "x") (EName "x");
    SAssign (TSelf "log") (EJoined [(EConst (CStr "Base(")); (EFormat (EName "x") None); (EConst (CStr ")"))])].

(** cases.py:31-32 *)
Definition f_cases_Base_show : fundef :=
  mkFun "cases" (Some "cases.Base") KPlain ["self"] [] (Some "args") [] (Some "kwargs")
   [SReturn (Some (EJoined [(EFormat (EAttr (EName "self") "KIND") None); (EConst (CStr ":")); (EFormat (EAttr (EName "self") "x") None); (EConst (CStr ":")); (EFormat (EAttr (EName "self") "log") None)]))].

(** cases.py:34-35 *)
Definition f_cases_Base_twice : fundef :=
  mkFun "cases" (Some "cases.Base") KPlain ["self"; "y"] [("y", (EName "LIMIT"))] None [] None
   [SReturn (Some (EBin OpAdd (ECall (EAttr (EName "self") "show") [] None [] None) (ECall (EName "str") [(EName "y")] None [] None)))].

(** cases.py:38-39 *)
Definition f_cases_Base_make : fundef :=
  mkFun "cases" (Some "cases.Base") KClass ["cls"; "x"] [] None [] None
   [SReturn (Some (ECall (EName "cls") [(EJoined [(EFormat (EAttr (EName "cls") "KIND") None); (EConst (CStr "-")); (EFormat (EName "x") None)])] None [] None))].

(** cases.py:42-43 *)
Definition f_cases_Base_name : fundef :=
  mkFun "cases" (Some "cases.Base") KClass ["cls"] [] None [] None
   [SReturn (Some (EAttr (EName "cls") "__name__"))].

(** cases.py:47-49 *)
Definition f_cases_Left___init__ : fundef :=
  mkFun "cases" (Some "cases.Left") KPlain ["self"; "x"] [] None [] None
   [SExpr (ECall (EAttr (ECall (EName "super") [] None [] None) "__init__") [(EBin OpAdd (EName "x") (EConst (CStr "l")))] None [] None);
    SAssign (TSelf "log") (EBin OpAdd (EAttr (EName "self") "log") (EJoined [(EConst (CStr "Left(")); (EFormat (EName "x") None); (EConst (CStr ")"))]))].

(** cases.py:55-57 *)
Definition f_cases_Right___init__ : fundef :=
  mkFun "cases" (Some "cases.Right") KPlain ["self"; "x"] [] None [] None
   [SExpr (ECall (EAttr (ECall (EName "super") [] None [] None) "__init__") [(EBin OpAdd (EName "x") (EConst (CStr "r")))] None [] None);
    SAssign (TSelf "log") (EBin OpAdd (EAttr (EName "self") "log") (EJoined [(EConst (CStr "Right(")); (EFormat (EName "x") None); (EConst (CStr ")"))]))].

(** cases.py:59-60 *)
Definition f_cases_Right_show : fundef :=
  mkFun "cases" (Some "cases.Right") KPlain ["self"; "mark"] [("mark", (EConst (CStr "!")))] None [] None
   [SReturn (Some (EBin OpAdd (EBin OpAdd (EConst (CStr "<")) (ECall (EAttr (ECall (EName "super") [] None [] None) "show") [] None [] None)) (EName "mark")))].

(** cases.py:67-69 *)
Definition f_cases_Both___init__ : fundef :=
  mkFun "cases" (Some "cases.Both") KPlain ["self"; "x"] [] None [] None
   [SExpr (ECall (EAttr (ECall (EName "super") [] None [] None) "__init__") [(EName "x")] None [] None);
    SAssign (TSelf "extra") (EAttr (EAttr (EAttr (EName "Both") "Inner") "A") "value")].

(** cases.py:71-72 *)
Definition f_cases_Both_all : fundef :=
  mkFun "cases" (Some "cases.Both") KPlain ["self"] [] None [] None
   [SReturn (Some (ECall (EAttr (EName "self") "show") [] None [("mark", (EAttr (EName "self") "extra"))] None))].

(** cases.py:75-76 *)
Definition f_cases_fresh : fundef :=
  mkFun "cases" None KPlain ["x"] [] None [] None
   [SReturn (Some (ECall (EAttr (ECall (EName "Both") [(EName "x")] None [] None) "all") [] None [] None))].

(** cases.py:79-80 *)
Definition f_cases_made : fundef :=
  mkFun "cases" None KPlain ["x"] [] None [] None
   [SReturn (Some (EListComp (ECall (EAttr (ECall (EAttr (EName "c") "make") [(EName "x")] None [] None) "twice") [] None [("y", (EConst (CStr "?")))] None) [((TName "c"), (EList [(EName "Base"); (EName "Left"); (EName "Right"); (EName "Both")]), [])]))].

(** cases.py:83-84 *)
Definition f_cases_class_names : fundef :=
  mkFun "cases" None KPlain [] [] None [] None
   [SReturn (Some (EListComp (ECall (EAttr (EName "c") "name") [] None [] None) [((TName "c"), (EList [(EName "Base"); (EName "Left"); (EName "Right"); (EName "Both")]), [])]))].

(** cases.py:87-90 *)
Definition f_cases_instance : fundef :=
  mkFun "cases" None KPlain ["x"] [] None [] None
   [SAssign (TName "b") (ECall (EName "Both") [(EName "x")] None [] None);
    SAssign (TName "r") (ECall (EName "Right") [(EName "x")] None [] None);
    SReturn (Some (EList [(ECall (EName "isinstance") [(EName "b"); (EName "Base")] None [] None); (ECall (EName "isinstance") [(EName "r"); (EName "Left")] None [] None); (ECall (EName "isinstance") [(EConst CNone); (EName "Base")] None [] None); (ECall (EName "issubclass") [(EName "Both"); (EName "Right")] None [] None); (ECall (EName "issubclass") [(EName "Right"); (EName "Both")] None [] None)]))].

(** cases.py:93-94 *)
Definition f_cases_inherited : fundef :=
  mkFun "cases" None KPlain ["x"] [] None [] None
   [SReturn (Some (ECall (EAttr (ECall (EName "Left") [(EName "x")] None [] None) "show") [(EConst (CInt 1)); (EConst (CInt 2))] None [("a", (EConst (CInt 3)))] None))].

(** cases.py:97-98 *)
Definition f_cases_missing_attribute : fundef :=
  mkFun "cases" None KPlain ["x"] [] None [] None
   [SReturn (Some (EAttr (ECall (EName "Left") [(EName "x")] None [] None) "nothing"))].

(** cases.py:101-102 *)
Definition f_cases_missing_method : fundef :=
  mkFun "cases" None KPlain ["x"] [] None [] None
   [SReturn (Some (ECall (EAttr (ECall (EName "Left") [(EName "x")] None [] None) "nothing") [(EConst (CInt 1))] None [] None))].

(** cases.py:105-108 *)
Definition f_cases_unbound : fundef :=
  mkFun "cases" None KPlain [] [] None [] None
   [SIf (ECmp (EName "LIMIT") [(CmpEq, (EConst (CInt 4)))])
     [SAssign (TName "y") (EConst (CInt 1))]
     [];
    SReturn (Some (EName "y"))].

(** cases.py:111-112 *)
Definition f_cases_no_name : fundef :=
  mkFun "cases" None KPlain [] [] None [] None
   [SReturn (Some (EName "undefined_name"))].

(** cases.py:115-116 *)
Definition f_cases_shadow : fundef :=
  mkFun "cases" None KPlain ["LIMIT"] [] None [] None
   [SReturn (Some (EName "LIMIT"))].

(** cases.py:119-121 *)
Definition f_cases_swap : fundef :=
  mkFun "cases" None KPlain ["a"; "b"] [] None [] None
   [SAssign (TTuple [(TName "a"); (TName "b")] None) (ETuple [(EName "b"); (EName "a")]);
    SReturn (Some (EJoined [(EFormat (EName "a") None); (EConst (CStr ".")); (EFormat (EName "b") None)]))].

(** cases.py:124-126 *)
Definition f_cases_star : fundef :=
  mkFun "cases" None KPlain ["s"] [] None [] None
   [SAssign (TTuple [(TName "a")] (Some (TName "rest"))) (ECall (EAttr (EName "s") "split") [(EConst (CStr "."))] None [] None);
    SReturn (Some (EList [(EName "a"); (ECall (EAttr (EConst (CStr "/")) "join") [(EName "rest")] None [] None)]))].

(** cases.py:129-131 *)
Definition f_cases_unpack : fundef :=
  mkFun "cases" None KPlain ["s"] [] None [] None
   [SAssign (TTuple [(TName "a"); (TName "b")] None) (ECall (EAttr (EName "s") "split") [(EConst (CStr "."))] None [] None);
    SReturn (Some (EBin OpAdd (EName "b") (EName "a")))].

(** cases.py:134-135 *)
Definition f_cases_defaults : fundef :=
  mkFun "cases" None KPlain ["a"; "b"] [("b", (EConst (CInt 2))); ("c", (EConst (CInt 3)))] (Some "args") ["c"] (Some "kwargs")
   [SReturn (Some (EList [(EName "a"); (EName "b"); (EName "args"); (EName "c")]))].

(** cases.py:138-139 *)
Definition f_cases_length_of : fundef :=
  mkFun "cases" None KPlain [] [] (Some "args") [] None
   [SReturn (Some (EName "args"))].

(** cases.py:142-162 *)
Definition f_cases_call_defaults : fundef :=
  mkFun "cases" None KPlain ["n"] [] None [] None
   [SIf (ECmp (EName "n") [(CmpEq, (EConst (CInt 0)))])
     [SReturn (Some (ECall (EName "defaults") [(EConst (CInt 1))] None [] None))]
     [SIf (ECmp (EName "n") [(CmpEq, (EConst (CInt 1)))])
       [SReturn (Some (ECall (EName "defaults") [(EConst (CInt 1)); (EConst (CInt 5))] None [] None))]
       [SIf (ECmp (EName "n") [(CmpEq, (EConst (CInt 2)))])
         [SReturn (Some (ECall (EName "defaults") [] None [("b", (EConst (CInt 7))); ("a", (EConst (CInt 8)))] None))]
         [SIf (ECmp (EName "n") [(CmpEq, (EConst (CInt 3)))])
           [SReturn (Some (ECall (EName "defaults") [(EConst (CInt 1))] None [("c", (EConst (CInt 9)))] None))]
           [SIf (ECmp (EName "n") [(CmpEq, (EConst (CInt 4)))])
             [SReturn (Some (ECall (EName "defaults") [(EConst (CInt 1))] None [("z", (EConst (CInt 9)))] None))]
             [SIf (ECmp (EName "n") [(CmpEq, (EConst (CInt 5)))])
               [SReturn (Some (ECall (EName "defaults") [] None [("b", (EConst (CInt 1)))] None))]
               [SIf (ECmp (EName "n") [(CmpEq, (EConst (CInt 6)))])
                 [SReturn (Some (ECall (EName "swap") [(EConst (CInt 1)); (EConst (CInt 2)); (EConst (CInt 3))] None [] None))]
                 [SIf (ECmp (EName "n") [(CmpEq, (EConst (CInt 7)))])
                   [SReturn (Some (ECall (EName "swap") [(EConst (CInt 1))] None [("a", (EConst (CInt 3)))] None))]
                   [SIf (ECmp (EName "n") [(CmpEq, (EConst (CInt 8)))])
                     [SReturn (Some (ECall (EName "swap") [(EConst (CInt 1))] None [("c", (EConst (CInt 3)))] None))]
                     [SReturn (Some (ECall (EName "swap") [] None [("b", (EConst (CInt 1))); ("a", (EConst (CStr "z")))] None))]]]]]]]]]].

(** cases.py:165-166 *)
Definition f_cases_passing : fundef :=
  mkFun "cases" None KPlain [] [] (Some "args") [] (Some "kwargs")
   [SReturn (Some (ECall (EName "swap") [] (Some (EName "args")) [] (Some (EName "kwargs"))))].

(** cases.py:169-176 *)
Definition f_cases_call_passing : fundef :=
  mkFun "cases" None KPlain ["n"] [] None [] None
   [SIf (ECmp (EName "n") [(CmpEq, (EConst (CInt 0)))])
     [SReturn (Some (ECall (EName "passing") [(EConst (CStr "x")); (EConst (CStr "y"))] None [] None))]
     [];
    SIf (ECmp (EName "n") [(CmpEq, (EConst (CInt 1)))])
     [SReturn (Some (ECall (EName "passing") [(EConst (CStr "x"))] None [("b", (EConst (CStr "y")))] None))]
     [];
    SIf (ECmp (EName "n") [(CmpEq, (EConst (CInt 2)))])
     [SReturn (Some (ECall (EName "passing") [] None [("b", (EConst (CStr "x"))); ("a", (EConst (CStr "y")))] None))]
     [];
    SReturn (Some (ECall (EName "passing") [(EConst (CStr "x"))] None [] None))].

(** cases.py:179-190 *)
Definition f_cases_order : fundef :=
  mkFun "cases" None KPlain ["s"] [] None [] None
   [SAssign (TName "res") (EConst (CStr ""));
    SFor (TName "a") (EName "s")
     [SFor (TName "b") (EConst (CStr "xy"))
       [SIf (ECmp (EName "a") [(CmpEq, (EConst (CStr "2")))])
         [SBreak]
         [];
        SIf (ECmp (EName "b") [(CmpEq, (EConst (CStr "x")))])
         [SContinue]
         [];
        SAug "res" OpAdd (EBin OpAdd (EName "a") (EName "b"))];
      SIf (ECmp (EName "a") [(CmpEq, (EConst (CStr "4")))])
       [SBreak]
       []];
    SReturn (Some (EName "res"))].

(** cases.py:193-196 *)
Definition f_cases_after_loop : fundef :=
  mkFun "cases" None KPlain ["s"] [] None [] None
   [SFor (TName "a") (ECall (EAttr (EName "s") "split") [(EConst (CStr ","))] None [] None)
     [SPass];
    SReturn (Some (EName "a"))].

(** cases.py:199-203 *)
Definition f_cases_early : fundef :=
  mkFun "cases" None KPlain ["l"] [] None [] None
   [SFor (TName "a") (EName "l")
     [SIf (ECmp (EName "a") [(CmpGt, (EConst (CInt 2)))])
       [SReturn (Some (EName "a"))]
       []];
    SReturn (Some (EConst (CStr "none")))].

(** cases.py:206-207 *)
Definition f_cases_no_return : fundef :=
  mkFun "cases" None KPlain ["a"] [] None [] None
   [SAssign (TName "a") (EConst (CInt 1))].

(** cases.py:210-215 *)
Definition f_cases_caught : fundef :=
  mkFun "cases" None KPlain ["k"] [] None [] None
   [STry [SAssign (TName "v") (EIndex (EName "TABLE") (EName "k"))] "KeyError"
     [SReturn (Some (EConst (CStr "none")))];
    SReturn (Some (EIndex (EName "v") (EConst (CStr "M"))))].

(** cases.py:218-223 *)
Definition f_cases_not_caught : fundef :=
  mkFun "cases" None KPlain ["s"] [] None [] None
   [STry [SAssign (TName "v") (ECall (EName "int") [(EName "s")] None [] None)] "KeyError"
     [SReturn (Some (EConst (CStr "none")))];
    SReturn (Some (EName "v"))].

(** cases.py:226-230 *)
Definition f_cases_value_caught : fundef :=
  mkFun "cases" None KPlain ["s"] [] None [] None
   [STry [SReturn (Some (ECall (EName "int") [(EName "s")] None [] None))] "ValueError"
     [SRaise (ECall (EName "KeyError") [(EConst (CStr "x"))] None [] None)]].

(** cases.py:233-236 *)
Definition f_cases_inner_raise : fundef :=
  mkFun "cases" None KPlain ["s"] [] None [] None
   [SIf (ECmp (ECall (EName "len") [(EName "s")] None [] None) [(CmpGt, (EConst (CInt 2)))])
     [SRaise (EName "NotImplementedError")]
     [];
    SReturn (Some (EName "s"))].

(** cases.py:239-243 *)
Definition f_cases_outer : fundef :=
  mkFun "cases" None KPlain ["s"] [] None [] None
   [STry [SReturn (Some (ECall (EName "inner_raise") [(EName "s")] None [] None))] "ValueError"
     [SReturn (Some (EConst (CStr "caught")))]].

(** cases.py:246-247 *)
Definition f_cases_chain : fundef :=
  mkFun "cases" None KPlain ["a"; "b"; "c"] [] None [] None
   [SReturn (Some (ECmp (EName "a") [(CmpLt, (EName "b")); (CmpLe, (EName "c"))]))].

(** cases.py:250-251 *)
Definition f_cases_lazy : fundef :=
  mkFun "cases" None KPlain ["x"] [] None [] None
   [SReturn (Some (EOr [(EAnd [(EName "x"); (ECmp (EIndex (EName "x") (EConst (CInt 0))) [(CmpEq, (EConst (CStr "a")))])]); (EConst (CStr "none"))]))].

(** cases.py:254-255 *)
Definition f_cases_lazy2 : fundef :=
  mkFun "cases" None KPlain ["a"; "b"] [] None [] None
   [SReturn (Some (EList [(EAnd [(EName "a"); (EName "b")]); (EOr [(EName "a"); (EName "b")]); (ENot (EName "a")); (ENot (EName "b"))]))].

(** cases.py:258-259 *)
Definition f_cases_ternary : fundef :=
  mkFun "cases" None KPlain ["x"] [] None [] None
   [SReturn (Some (EIf (EName "x") (EConst (CStr "a")) (EConst (CStr "b"))))].

(** cases.py:262-263 *)
Definition f_cases_arithmetic : fundef :=
  mkFun "cases" None KPlain ["a"; "b"] [] None [] None
   [SReturn (Some (EList [(EBin OpAdd (EName "a") (EName "b")); (EBin OpSub (EName "a") (EName "b")); (EBin OpMul (EName "a") (EName "b")); (EBin OpMod (EName "a") (EName "b")); (ENeg (EName "a"))]))].

(** cases.py:266-267 *)
Definition f_cases_text_times : fundef :=
  mkFun "cases" None KPlain ["s"; "n"] [] None [] None
   [SReturn (Some (EBin OpAdd (EBin OpMul (EName "s") (EName "n")) (EBin OpMul (EName "n") (EConst (CStr "-")))))].

(** cases.py:270-271 *)
Definition f_cases_compare : fundef :=
  mkFun "cases" None KPlain ["a"; "b"] [] None [] None
   [SReturn (Some (EList [(ECmp (EName "a") [(CmpEq, (EName "b"))]); (ECmp (EName "a") [(CmpNe, (EName "b"))]); (ECmp (EName "a") [(CmpLt, (EName "b"))]); (ECmp (EName "a") [(CmpLe, (EName "b"))]); (ECmp (EName "a") [(CmpGt, (EName "b"))]); (ECmp (EName "a") [(CmpGe, (EName "b"))])]))].

(** cases.py:274-275 *)
Definition f_cases_equal : fundef :=
  mkFun "cases" None KPlain ["a"; "b"] [] None [] None
   [SReturn (Some (EList [(ECmp (EName "a") [(CmpEq, (EName "b"))]); (ECmp (EName "a") [(CmpNe, (EName "b"))])]))].

(** cases.py:278-279 *)
Definition f_cases_member : fundef :=
  mkFun "cases" None KPlain ["k"] [] None [] None
   [SReturn (Some (EList [(ECmp (EName "k") [(CmpIn, (EName "TABLE"))]); (ECmp (EName "k") [(CmpNotIn, (EName "TABLE"))]); (ECmp (EName "k") [(CmpIn, (EList [(EConst (CInt 1)); (EConst (CInt 5))]))]); (ECmp (EName "k") [(CmpIn, (ECall (EAttr (EName "TABLE") "keys") [] None [] None))])]))].

(** cases.py:282-283 *)
Definition f_cases_items : fundef :=
  mkFun "cases" None KPlain [] [] None [] None
   [SReturn (Some (EListComp (EJoined [(EFormat (EName "k") None); (EFormat (EIndex (EName "v") (EConst (CStr "P"))) None)]) [((TTuple [(TName "k"); (TName "v")] None), (ECall (EAttr (EName "TABLE") "items") [] None [] None), [])]))].

(** cases.py:286-287 *)
Definition f_cases_nested : fundef :=
  mkFun "cases" None KPlain ["k"] [] None [] None
   [SReturn (Some (EIndex (EIndex (EName "NESTED") (EName "k")) (EConst (CStr "M"))))].

(** cases.py:290-291 *)
Definition f_cases_comprehension : fundef :=
  mkFun "cases" None KPlain ["s"] [] None [] None
   [SReturn (Some (EListComp (EJoined [(EFormat (EName "a") None); (EFormat (EName "b") None)]) [((TName "a"), (EName "s"), [(ECmp (EName "a") [(CmpNe, (EConst (CStr "x")))])]); ((TName "b"), (EConst (CStr "12")), [(ECmp (EName "b") [(CmpNe, (EName "a"))])])]))].

(** cases.py:294-297 *)
Definition f_cases_comp_scope : fundef :=
  mkFun "cases" None KPlain ["s"] [] None [] None
   [SAssign (TName "a") (EConst (CStr "outer"));
    SAssign (TName "l") (EListComp (EName "a") [((TName "a"), (EName "s"), [])]);
    SReturn (Some (EJoined [(EFormat (EName "a") None); (EFormat (ECall (EAttr (EConst (CStr "")) "join") [(EName "l")] None [] None) None)]))].

(** cases.py:300-301 *)
Definition f_cases_dict_order : fundef :=
  mkFun "cases" None KPlain ["s"] [] None [] None
   [SReturn (Some (EDictComp (EName "c") (EBin OpAdd (ECall (EName "len") [(EName "c")] None [] None) (EName "i")) [((TName "i"), (EList [(EConst (CInt 1)); (EConst (CInt 2))]), []); ((TName "c"), (ECall (EAttr (EName "s") "split") [(EConst (CStr " "))] None [] None), [])]))].

(** cases.py:304-305 *)
Definition f_cases_index : fundef :=
  mkFun "cases" None KPlain ["s"; "n"] [] None [] None
   [SReturn (Some (EIndex (EName "s") (EName "n")))].

(** cases.py:308-309 *)
Definition f_cases_index_list : fundef :=
  mkFun "cases" None KPlain ["n"] [] None [] None
   [SReturn (Some (EIndex (EList [(EConst (CInt 5)); (EConst (CInt 6)); (EConst (CInt 7))]) (EName "n")))].

(** cases.py:312-313 *)
Definition f_cases_slices : fundef :=
  mkFun "cases" None KPlain ["s"; "a"; "b"] [] None [] None
   [SReturn (Some (EList [(ESlice (EName "s") (Some (EName "a")) (Some (EName "b")) None); (ESlice (EName "s") (Some (EName "a")) None None); (ESlice (EName "s") None (Some (EName "b")) None); (ESlice (EName "s") None (Some (ENeg (EConst (CInt 1)))) None)]))].

(** cases.py:316-317 *)
Definition f_cases_slice_list : fundef :=
  mkFun "cases" None KPlain ["s"; "a"; "b"] [] None [] None
   [SReturn (Some (ESlice (ECall (EAttr (EName "s") "split") [(EConst (CStr "."))] None [] None) (Some (EName "a")) (Some (EName "b")) None))].

(** cases.py:320-321 *)
Definition f_cases_alternate : fundef :=
  mkFun "cases" None KPlain ["s"] [] None [] None
   [SReturn (Some (EIf (ECmp (EName "LIMIT") [(CmpEq, (EConst (CInt 4)))]) (ESlice (EListComp (ECall (EName "int") [(EName "c")] None [] None) [((TName "c"), (EName "s"), [])]) None None (Some (EConst (CInt 2)))) (EList [(ESlice (EListComp (ECall (EName "int") [(EName "c")] None [] None) [((TName "c"), (EName "s"), [])]) (Some (EConst (CInt 0))) None (Some (EConst (CInt 2)))); (ESlice (EListComp (ECall (EName "int") [(EName "c")] None [] None) [((TName "c"), (EName "s"), [])]) (Some (EConst (CInt 1))) None (Some (EConst (CInt 2))))])))].

(** cases.py:324-325 *)
Definition f_cases_formats : fundef :=
  mkFun "cases" None KPlain ["z"; "n"] [] None [] None
   [SReturn (Some (EList [(EJoined [(EFormat (EName "z") (Some (EJoined [(EConst (CStr "0")); (EFormat (EName "n") None); (EConst (CStr "b"))])))]); (EJoined [(EFormat (EName "z") (Some (EJoined [(EConst (CStr "x"))])))]); (EJoined [(EFormat (EName "z") (Some (EJoined [(EConst (CStr "X"))])))]); (EJoined [(EFormat (EName "z") (Some (EJoined [(EConst (CStr ">0")); (EFormat (EName "n") None)])))]); (EJoined [(EFormat (EName "z") (Some (EJoined [(EConst (CStr "04b"))])))])]))].

(** cases.py:328-329 *)
Definition f_cases_format_text : fundef :=
  mkFun "cases" None KPlain ["s"; "n"] [] None [] None
   [SReturn (Some (EList [(EJoined [(EFormat (EName "s") (Some (EJoined [(EConst (CStr "<0")); (EFormat (EName "n") None)])))]); (EJoined [(EFormat (EName "s") (Some (EJoined [(EConst (CStr ">0")); (EFormat (EName "n") None)])))]); (EJoined [(EFormat (EName "s") None)])]))].

(** cases.py:332-333 *)
Definition f_cases_format_enum : fundef :=
  mkFun "cases" None KPlain ["n"] [] None [] None
   [SReturn (Some (EJoined [(EFormat (EAttr (EName "Size") "BIG") None); (EFormat (EAttr (EAttr (EName "Size") "SMALL") "value") None); (EFormat (EName "n") None)]))].

(** cases.py:336-337 *)
Definition f_cases_numbers : fundef :=
  mkFun "cases" None KPlain ["s"] [] None [] None
   [SReturn (Some (ECall (EName "int") [(EName "s")] None [] None))].

(** cases.py:340-341 *)
Definition f_cases_base_number : fundef :=
  mkFun "cases" None KPlain ["s"; "b"] [] None [] None
   [SReturn (Some (ECall (EName "int") [(EName "s"); (EName "b")] None [] None))].

(** cases.py:344-345 *)
Definition f_cases_powers : fundef :=
  mkFun "cases" None KPlain ["a"; "b"] [] None [] None
   [SReturn (Some (ECall (EName "pow") [(EName "a"); (EName "b")] None [] None))].

(** cases.py:348-349 *)
Definition f_cases_bits : fundef :=
  mkFun "cases" None KPlain ["n"] [] None [] None
   [SReturn (Some (ECall (EName "int") [(EBin OpDiv (EBin OpMul (EName "n") (ECall (EName "log") [(EConst (CInt 2))] None [] None)) (ECall (EName "log") [(EConst (CInt 10))] None [] None))] None [] None))].

(** cases.py:352-353 *)
Definition f_cases_total : fundef :=
  mkFun "cases" None KPlain ["s"] [] None [] None
   [SReturn (Some (ECall (EName "sum") [(EListComp (ECall (EName "int") [(EName "c")] None [] None) [((TName "c"), (EName "s"), [])])] None [] None))].

(** cases.py:356-357 *)
Definition f_cases_char : fundef :=
  mkFun "cases" None KPlain ["n"] [] None [] None
   [SReturn (Some (ECall (EName "chr") [(EName "n")] None [] None))].

(** cases.py:360-361 *)
Definition f_cases_code : fundef :=
  mkFun "cases" None KPlain ["s"] [] None [] None
   [SReturn (Some (ECall (EName "ord") [(EName "s")] None [] None))].

(** cases.py:364-365 *)
Definition f_cases_mapped : fundef :=
  mkFun "cases" None KPlain ["s"] [] None [] None
   [SReturn (Some (ECall (EAttr (EConst (CStr "")) "join") [(ECall (EName "list") [(ECall (EName "map") [(EName "code_text"); (EName "s")] None [] None)] None [] None)] None [] None))].

(** cases.py:368-369 *)
Definition f_cases_code_text : fundef :=
  mkFun "cases" None KPlain ["c"] [] None [] None
   [SReturn (Some (ECall (EName "str") [(ECall (EName "ord") [(EName "c")] None [] None)] None [] None))].

(** cases.py:372-373 *)
Definition f_cases_methods : fundef :=
  mkFun "cases" None KPlain ["s"] [] None [] None
   [SReturn (Some (EList [(ECall (EAttr (EName "s") "replace") [(EConst (CStr "a")); (EConst (CStr "bb"))] None [] None); (ECall (EAttr (EName "s") "replace") [(EConst (CStr "a")); (EConst (CStr "c")); (EConst (CInt 1))] None [] None); (ECall (EAttr (EName "s") "upper") [] None [] None); (ECall (EAttr (EName "s") "zfill") [(EConst (CInt 6))] None [] None); (ECall (EAttr (EName "s") "startswith") [(EConst (CStr "ab"))] None [] None); (ECall (EAttr (EName "s") "isnumeric") [] None [] None)]))].

(** cases.py:376-377 *)
Definition f_cases_splits : fundef :=
  mkFun "cases" None KPlain ["s"] [] None [] None
   [SReturn (Some (ECall (EAttr (EName "s") "split") [(EConst (CStr "."))] None [] None))].

(** cases.py:380-381 *)
Definition f_cases_joins : fundef :=
  mkFun "cases" None KPlain ["s"] [] None [] None
   [SReturn (Some (ECall (EAttr (EConst (CStr ".")) "join") [(ESlice (ECall (EAttr (EName "s") "split") [(EConst (CStr "a"))] None [] None) (Some (EConst (CInt 1))) None None)] None [] None))].

(** cases.py:384-385 *)
Definition f_cases_full : fundef :=
  mkFun "cases" None KPlain ["s"] [] None [] None
   [SReturn (Some (EIf (ECall (EAttr (EName "PATTERN") "fullmatch") [(EName "s")] None [] None) (EConst (CStr "yes")) (EConst (CStr "no"))))].

(** cases.py:388-389 *)
Definition f_cases_prefix : fundef :=
  mkFun "cases" None KPlain ["s"] [] None [] None
   [SReturn (Some (EIf (ECall (EAttr (EName "PATTERN") "match") [(EName "s")] None [] None) (EConst (CStr "yes")) (EConst (CStr "no"))))].

(** cases.py:392-393 *)
Definition f_cases_re_split : fundef :=
  mkFun "cases" None KPlain ["s"] [] None [] None
   [SReturn (Some (ECall (EAttr (EName "re") "split") [(EConst (CStr "(%[0-9a-fA-F]{2})")); (EName "s")] None [] None))].

(** cases.py:396-397 *)
Definition f_cases_re_split2 : fundef :=
  mkFun "cases" None KPlain ["s"] [] None [] None
   [SReturn (Some (ECall (EAttr (EName "re") "split") [(EJoined [(EConst (CStr "\(.{2}\)"))]); (EName "s")] None [] None))].

(** cases.py:400-401 *)
Definition f_cases_re_find : fundef :=
  mkFun "cases" None KPlain ["s"] [] None [] None
   [SReturn (Some (ECall (EAttr (EName "re") "findall") [(EBin OpMul (EConst (CStr ".")) (EConst (CInt 3))); (EName "s")] None [] None))].

(** cases.py:404-405 *)
Definition f_cases_re_sub : fundef :=
  mkFun "cases" None KPlain ["s"] [] None [] None
   [SReturn (Some (ECall (EAttr (EName "re") "sub") [(EConst (CStr "\.\*$")); (EConst (CStr ".0")); (EName "s"); (EConst (CInt 1))] None [] None))].

(** cases.py:408-409 *)
Definition f_cases_enums : fundef :=
  mkFun "cases" None KPlain [] [] None [] None
   [SReturn (Some (EList [(EListComp (EAttr (EName "c") "value") [((TName "c"), (EName "Colour"), [])]); (EListComp (EAttr (EName "c") "name") [((TName "c"), (EName "Colour"), [])]); (EAttr (EIndex (EName "Colour") (EConst (CStr "GREEN"))) "value"); (ECmp (EIndex (EName "Colour") (EConst (CStr "GREEN"))) [(CmpEq, (EAttr (EName "Colour") "GREEN"))])]))].

(** cases.py:412-413 *)
Definition f_cases_enum_equal : fundef :=
  mkFun "cases" None KPlain ["a"] [] None [] None
   [SReturn (Some (EList [(ECmp (EName "a") [(CmpEq, (EAttr (EName "Colour") "RED"))]); (ECmp (EName "a") [(CmpNe, (EAttr (EName "Colour") "RED"))]); (ECmp (EName "a") [(CmpEq, (EAttr (EName "Size") "BIG"))])]))].

(** cases.py:416-417 *)
Definition f_cases_size : fundef :=
  mkFun "cases" None KPlain ["a"] [] None [] None
   [SReturn (Some (EList [(ECmp (EName "a") [(CmpEq, (EAttr (EName "Size") "BIG"))]); (EBin OpSub (EConst (CInt 15)) (EName "a")); (ECmp (EName "a") [(CmpLt, (EConst (CInt 14)))])]))].

(** cases.py:420-421 *)
Definition f_cases_bad_member : fundef :=
  mkFun "cases" None KPlain ["s"] [] None [] None
   [SReturn (Some (EAttr (EIndex (EName "Colour") (EName "s")) "value"))].

(** cases.py:424-425 *)
Definition f_cases_by_name : fundef :=
  mkFun "cases" None KPlain [] [] None [] None
   [SReturn (Some (EList [(EIndex (EName "NAMES") (EConst (CStr "one"))); (EIndex (EName "NAMES") (EConst (CStr "three")))]))].

(** cases.py:428-429 *)
Definition f_cases_bytes_hex : fundef :=
  mkFun "cases" None KPlain ["s"] [] None [] None
   [SReturn (Some (ECall (EAttr (ECall (EAttr (EName "base64") "b64decode") [(EJoined [(EFormat (EName "s") None); (EConst (CStr "=="))])] None [] None) "hex") [] None [] None))].

(** cases.py:432-433 *)
Definition f_cases_hex_bytes : fundef :=
  mkFun "cases" None KPlain ["s"] [] None [] None
   [SReturn (Some (ECall (EAttr (ECall (EAttr (EName "base64") "b64encode") [(ECall (EAttr (EName "bytes") "fromhex") [(EName "s")] None [] None)] None [] None) "decode") [(EConst (CStr "utf-8"))] None [] None))].

(** cases.py:436-441 *)
Definition f_cases_rebind : fundef :=
  mkFun "cases" None KPlain ["s"] [] None [] None
   [SAssign (TName "res") (EConst (CStr ""));
    SFor (TName "g") (ECall (EAttr (EName "s") "split") [(EConst (CStr "."))] None [] None)
     [SAug "res" OpAdd (EName "g");
      SAssign (TName "s") (EName "res")];
    SReturn (Some (EName "s"))].

(** cases.py:444-447 *)
Definition f_cases_augmented : fundef :=
  mkFun "cases" None KPlain ["n"] [] None [] None
   [SAug "n" OpAdd (EConst (CInt 2));
    SAug "n" OpMul (EConst (CInt 3));
    SReturn (Some (EName "n"))].

(** cases.py:450-451 *)
Definition f_cases_evaluation : fundef :=
  mkFun "cases" None KPlain ["s"] [] None [] None
   [SReturn (Some (EBin OpAdd (EIndex (EList [(ECall (EName "trace") [(EName "s"); (EConst (CStr "a"))] None [] None); (ECall (EName "trace") [(EName "s"); (EConst (CStr "b"))] None [] None)]) (EConst (CInt 1))) (ECall (EName "trace") [(EName "s"); (EConst (CStr "c"))] None [] None)))].

(** cases.py:454-457 *)
Definition f_cases_trace : fundef :=
  mkFun "cases" None KPlain ["s"; "c"] [] None [] None
   [SIf (EAnd [(ECmp (EName "c") [(CmpIn, (EDict [((EConst (CStr "b")), (EConst (CInt 1)))]))]); (ECmp (EName "s") [(CmpEq, (EConst (CStr "stop")))])])
     [SRaise (ECall (EName "KeyError") [(EName "c")] None [] None)]
     [];
    SReturn (Some (EBin OpAdd (EName "s") (EName "c")))].

(** cases.py:460-461 *)
Definition f_cases_first_error : fundef :=
  mkFun "cases" None KPlain ["s"] [] None [] None
   [SReturn (Some (EBin OpAdd (ECall (EName "int") [(EName "s")] None [] None) (EIndex (EIndex (EName "TABLE") (EName "s")) (EConst (CStr "P")))))].

(** cases.py:464-465 *)
Definition f_cases_recursive : fundef :=
  mkFun "cases" None KPlain ["n"] [] None [] None
   [SReturn (Some (EIf (ECmp (EName "n") [(CmpEq, (EConst (CInt 0)))]) (EConst (CStr "")) (EBin OpAdd (ECall (EName "recursive") [(EBin OpSub (EName "n") (EConst (CInt 1)))] None [] None) (ECall (EName "str") [(EName "n")] None [] None))))].

(** cases.py:468-469 *)
Definition f_cases_kind_sum : fundef :=
  mkFun "cases" None KPlain ["s"; "n"] [] None [] None
   [SReturn (Some (ESlice (EName "s") (Some (EConst (CInt 1))) (Some (EBin OpAdd (EConst (CInt 1)) (EName "n"))) None))].

(** cases.py:472-473 *)
Definition f_cases_kind_bound : fundef :=
  mkFun "cases" None KPlain ["s"; "n"] [] None [] None
   [SReturn (Some (ESlice (EName "s") None (Some (EName "n")) None))].

(** cases.py:476-477 *)
Definition f_cases_kind_start : fundef :=
  mkFun "cases" None KPlain ["s"; "n"] [] None [] None
   [SReturn (Some (ESlice (EName "s") (Some (EName "n")) (Some (ENeg (EConst (CInt 1)))) None))].

(** cases.py:480-481 *)
Definition f_cases_kind_parts : fundef :=
  mkFun "cases" None KPlain ["v"] [] None [] None
   [SReturn (Some (ESlice (EName "v") None (Some (EConst (CInt 2))) None))].

(** cases.py:484-488 *)
Definition f_cases_kind_key : fundef :=
  mkFun "cases" None KPlain ["v"] [] None [] None
   [STry [SReturn (Some (EIndex (EName "NAMES") (ESlice (EName "v") None (Some (EConst (CInt 3))) None)))] "KeyError"
     [SReturn (Some (EConst (CStr "none")))]].

(** cases.py:491-492 *)
Definition f_cases_kind_split : fundef :=
  mkFun "cases" None KPlain ["v"] [] None [] None
   [SReturn (Some (ECall (EAttr (EName "v") "split") [(EConst (CStr ":"))] None [] None))].

(** cases.py:495-496 *)
Definition f_cases_kind_fill : fundef :=
  mkFun "cases" None KPlain ["v"] [] None [] None
   [SReturn (Some (ECall (EAttr (EName "v") "zfill") [(EConst (CInt 4))] None [] None))].

(** cases.py:499-500 *)
Definition f_cases_kind_value : fundef :=
  mkFun "cases" None KPlain ["v"] [] None [] None
   [SReturn (Some (EAttr (EName "v") "value"))].

(** cases.py:503-504 *)
Definition f_cases_kind_name : fundef :=
  mkFun "cases" None KPlain ["v"] [] None [] None
   [SReturn (Some (EAttr (EName "v") "name"))].

(** cases.py:507-508 *)
Definition f_cases_kind_base : fundef :=
  mkFun "cases" None KPlain ["v"] [] None [] None
   [SReturn (Some (ECall (EName "int") [(EName "v"); (EConst (CInt 16))] None [] None))].

(** cases.py:511-512 *)
Definition f_cases_kind_match : fundef :=
  mkFun "cases" None KPlain ["v"] [] None [] None
   [SReturn (Some (EIf (ECall (EAttr (EName "PATTERN") "fullmatch") [(EName "v")] None [] None) (EConst (CStr "yes")) (EConst (CStr "no"))))].

(** cases.py:515-516 *)
Definition f_cases_kind_prefix : fundef :=
  mkFun "cases" None KPlain ["v"] [] None [] None
   [SReturn (Some (EIf (ECall (EAttr (EName "PATTERN") "match") [(EName "v")] None [] None) (EConst (CStr "yes")) (EConst (CStr "no"))))].

(** cases.py:519-520 *)
Definition f_cases_kind_minus : fundef :=
  mkFun "cases" None KPlain ["v"] [] None [] None
   [SReturn (Some (EBin OpSub (EConst (CInt 14)) (EName "v")))].

(** cases.py:523-524 *)
Definition f_cases_kind_zeros : fundef :=
  mkFun "cases" None KPlain ["v"] [] None [] None
   [SReturn (Some (EBin OpMul (EBin OpSub (EConst (CInt 14)) (EName "v")) (EConst (CStr "0"))))].

(** cases.py:527-528 *)
Definition f_cases_kind_true : fundef :=
  mkFun "cases" None KPlain ["v"] [] None [] None
   [SReturn (Some (EIf (EName "v") (EConst (CStr "yes")) (EConst (CStr "no"))))].

(** cases.py:531-532 *)
Definition f_cases_kind_member : fundef :=
  mkFun "cases" None KPlain ["v"] [] None [] None
   [SReturn (Some (ECmp (EName "v") [(CmpEq, (EAttr (EName "Colour") "RED"))]))].

(** cases.py:535-536 *)
Definition f_cases_kind_number : fundef :=
  mkFun "cases" None KPlain ["v"] [] None [] None
   [SReturn (Some (ECmp (EName "v") [(CmpNe, (EAttr (EName "Size") "BIG"))]))].

(** cases.py:539-540 *)
Definition f_cases_kind_text : fundef :=
  mkFun "cases" None KPlain ["v"] [] None [] None
   [SReturn (Some (EJoined [(EFormat (EName "v") None)]))].

(** the module *)
Definition m_cases : list top :=
  [TImport "base64";
   TImport "re";
   TFrom "enum" ["Enum"; "IntEnum"];
   TFrom "math" ["log"];
   TAssign "LIMIT" (EConst (CInt 3));
   TAssign "TABLE" (EDict [((EConst (CInt 1)), (EDict [((EConst (CStr "P")), (EConst (CInt 0))); ((EConst (CStr "M")), (EConst (CInt 20)))])); ((EConst (CInt 2)), (EDict [((EConst (CStr "P")), (EConst (CInt 1))); ((EConst (CStr "M")), (EConst (CInt 17)))]))]);
   TAssign "NESTED" (EDict [((EConst (CStr "a")), (EIndex (EName "TABLE") (EConst (CInt 1)))); ((EConst (CStr "b")), (EIndex (EName "TABLE") (EConst (CInt 2))))]);
   TAssign "PATTERN" (ECall (EAttr (EName "re") "compile") [(EConst (CStr "[0-9]{2}(a|b)*"))] None [] None);
   TAssign "NAMES" (EDictComp (ECall (EAttr (EName "x") "lower") [] None [] None) (ECall (EName "len") [(EName "x")] None [] None) [((TName "x"), (EList [(EConst (CStr "One")); (EConst (CStr "Three"))]), [])]);
   TClass "Colour" [(EName "Enum")]
    [TAssign "RED" (EConst (CStr "0"));
     TAssign "GREEN" (EConst (CStr "1"))];
   TClass "Size" [(EName "IntEnum")]
    [TAssign "SMALL" (ETuple [(EConst (CInt 1))]);
     TAssign "BIG" (EConst (CInt 14))];
   TClass "Base" []
    [TAssign "KIND" (EConst (CStr "base"));
     TFun "__init__";
     TFun "show";
     TFun "twice";
     TFun "make";
     TFun "name"];
   TClass "Left" [(EName "Base")]
    [TFun "__init__"];
   TClass "Right" [(EName "Base")]
    [TAssign "KIND" (EConst (CStr "right"));
     TFun "__init__";
     TFun "show"];
   TClass "Both" [(EName "Left"); (EName "Right")]
    [TClass "Inner" [(EName "Enum")]
      [TAssign "A" (EConst (CStr "in"))];
     TFun "__init__";
     TFun "all"];
   TFun "fresh";
   TFun "made";
   TFun "class_names";
   TFun "instance";
   TFun "inherited";
   TFun "missing_attribute";
   TFun "missing_method";
   TFun "unbound";
   TFun "no_name";
   TFun "shadow";
   TFun "swap";
   TFun "star";
   TFun "unpack";
   TFun "defaults";
   TFun "length_of";
   TFun "call_defaults";
   TFun "passing";
   TFun "call_passing";
   TFun "order";
   TFun "after_loop";
   TFun "early";
   TFun "no_return";
   TFun "caught";
   TFun "not_caught";
   TFun "value_caught";
   TFun "inner_raise";
   TFun "outer";
   TFun "chain";
   TFun "lazy";
   TFun "lazy2";
   TFun "ternary";
   TFun "arithmetic";
   TFun "text_times";
   TFun "compare";
   TFun "equal";
   TFun "member";
   TFun "items";
   TFun "nested";
   TFun "comprehension";
   TFun "comp_scope";
   TFun "dict_order";
   TFun "index";
   TFun "index_list";
   TFun "slices";
   TFun "slice_list";
   TFun "alternate";
   TFun "formats";
   TFun "format_text";
   TFun "format_enum";
   TFun "numbers";
   TFun "base_number";
   TFun "powers";
   TFun "bits";
   TFun "total";
   TFun "char";
   TFun "code";
   TFun "mapped";
   TFun "code_text";
   TFun "methods";
   TFun "splits";
   TFun "joins";
   TFun "full";
   TFun "prefix";
   TFun "re_split";
   TFun "re_split2";
   TFun "re_find";
   TFun "re_sub";
   TFun "enums";
   TFun "enum_equal";
   TFun "size";
   TFun "bad_member";
   TFun "by_name";
   TFun "bytes_hex";
   TFun "hex_bytes";
   TFun "rebind";
   TFun "augmented";
   TFun "evaluation";
   TFun "trace";
   TFun "first_error";
   TFun "recursive";
   TFun "kind_sum";
   TFun "kind_bound";
   TFun "kind_start";
   TFun "kind_parts";
   TFun "kind_key";
   TFun "kind_split";
   TFun "kind_fill";
   TFun "kind_value";
   TFun "kind_name";
   TFun "kind_base";
   TFun "kind_match";
   TFun "kind_prefix";
   TFun "kind_minus";
   TFun "kind_zeros";
   TFun "kind_true";
   TFun "kind_member";
   TFun "kind_number";
   TFun "kind_text"].

Definition codes : list (string * fundef) :=
  [("cases.Base.__init__", f_cases_Base___init__);
   ("cases.Base.show", f_cases_Base_show);
   ("cases.Base.twice", f_cases_Base_twice);
   ("cases.Base.make", f_cases_Base_make);
   ("cases.Base.name", f_cases_Base_name);
   ("cases.Left.__init__", f_cases_Left___init__);
   ("cases.Right.__init__", f_cases_Right___init__);
   ("cases.Right.show", f_cases_Right_show);
   ("cases.Both.__init__", f_cases_Both___init__);
   ("cases.Both.all", f_cases_Both_all);
   ("cases.fresh", f_cases_fresh);
   ("cases.made", f_cases_made);
   ("cases.class_names", f_cases_class_names);
   ("cases.instance", f_cases_instance);
   ("cases.inherited", f_cases_inherited);
   ("cases.missing_attribute", f_cases_missing_attribute);
   ("cases.missing_method", f_cases_missing_method);
   ("cases.unbound", f_cases_unbound);
   ("cases.no_name", f_cases_no_name);
   ("cases.shadow", f_cases_shadow);
   ("cases.swap", f_cases_swap);
   ("cases.star", f_cases_star);
   ("cases.unpack", f_cases_unpack);
   ("cases.defaults", f_cases_defaults);
   ("cases.length_of", f_cases_length_of);
   ("cases.call_defaults", f_cases_call_defaults);
   ("cases.passing", f_cases_passing);
   ("cases.call_passing", f_cases_call_passing);
   ("cases.order", f_cases_order);
   ("cases.after_loop", f_cases_after_loop);
   ("cases.early", f_cases_early);
   ("cases.no_return", f_cases_no_return);
   ("cases.caught", f_cases_caught);
   ("cases.not_caught", f_cases_not_caught);
   ("cases.value_caught", f_cases_value_caught);
   ("cases.inner_raise", f_cases_inner_raise);
   ("cases.outer", f_cases_outer);
   ("cases.chain", f_cases_chain);
   ("cases.lazy", f_cases_lazy);
   ("cases.lazy2", f_cases_lazy2);
   ("cases.ternary", f_cases_ternary);
   ("cases.arithmetic", f_cases_arithmetic);
   ("cases.text_times", f_cases_text_times);
   ("cases.compare", f_cases_compare);
   ("cases.equal", f_cases_equal);
   ("cases.member", f_cases_member);
   ("cases.items", f_cases_items);
   ("cases.nested", f_cases_nested);
   ("cases.comprehension", f_cases_comprehension);
   ("cases.comp_scope", f_cases_comp_scope);
   ("cases.dict_order", f_cases_dict_order);
   ("cases.index", f_cases_index);
   ("cases.index_list", f_cases_index_list);
   ("cases.slices", f_cases_slices);
   ("cases.slice_list", f_cases_slice_list);
   ("cases.alternate", f_cases_alternate);
   ("cases.formats", f_cases_formats);
   ("cases.format_text", f_cases_format_text);
   ("cases.format_enum", f_cases_format_enum);
   ("cases.numbers", f_cases_numbers);
   ("cases.base_number", f_cases_base_number);
   ("cases.powers", f_cases_powers);
   ("cases.bits", f_cases_bits);
   ("cases.total", f_cases_total);
   ("cases.char", f_cases_char);
   ("cases.code", f_cases_code);
   ("cases.mapped", f_cases_mapped);
   ("cases.code_text", f_cases_code_text);
   ("cases.methods", f_cases_methods);
   ("cases.splits", f_cases_splits);
   ("cases.joins", f_cases_joins);
   ("cases.full", f_cases_full);
   ("cases.prefix", f_cases_prefix);
   ("cases.re_split", f_cases_re_split);
   ("cases.re_split2", f_cases_re_split2);
   ("cases.re_find", f_cases_re_find);
   ("cases.re_sub", f_cases_re_sub);
   ("cases.enums", f_cases_enums);
   ("cases.enum_equal", f_cases_enum_equal);
   ("cases.size", f_cases_size);
   ("cases.bad_member", f_cases_bad_member);
   ("cases.by_name", f_cases_by_name);
   ("cases.bytes_hex", f_cases_bytes_hex);
   ("cases.hex_bytes", f_cases_hex_bytes);
   ("cases.rebind", f_cases_rebind);
   ("cases.augmented", f_cases_augmented);
   ("cases.evaluation", f_cases_evaluation);
   ("cases.trace", f_cases_trace);
   ("cases.first_error", f_cases_first_error);
   ("cases.recursive", f_cases_recursive);
   ("cases.kind_sum", f_cases_kind_sum);
   ("cases.kind_bound", f_cases_kind_bound);
   ("cases.kind_start", f_cases_kind_start);
   ("cases.kind_parts", f_cases_kind_parts);
   ("cases.kind_key", f_cases_kind_key);
   ("cases.kind_split", f_cases_kind_split);
   ("cases.kind_fill", f_cases_kind_fill);
   ("cases.kind_value", f_cases_kind_value);
   ("cases.kind_name", f_cases_kind_name);
   ("cases.kind_base", f_cases_kind_base);
   ("cases.kind_match", f_cases_kind_match);
   ("cases.kind_prefix", f_cases_kind_prefix);
   ("cases.kind_minus", f_cases_kind_minus);
   ("cases.kind_zeros", f_cases_kind_zeros);
   ("cases.kind_true", f_cases_kind_true);
   ("cases.kind_member", f_cases_kind_member);
   ("cases.kind_number", f_cases_kind_number);
   ("cases.kind_text", f_cases_kind_text)].

Definition cases_world : option world := Eval vm_compute in load [("cases", m_cases)] (empty_world codes).

(** the same value; a list of texts has two forms in the machine *)
Fixpoint all2 {X} (f : X -> X -> bool) (a b : list X) : bool :=
  match a, b with [], [] => true | x :: a', y :: b' => f x y && all2 f a' b' | _, _ => false end.
Fixpoint same (a b : value) {struct b} : bool :=
  match a, b with
  | VNone, VNone => true
  | VBool x, VBool y => Bool.eqb x y
  | VInt x, VInt y => (x =? y)%Z
  | VStr s, VStr t | VBytes s, VBytes t => str_eqb s t
  | VFloat x, VFloat y => SpecFloat.SFeqb x y
  | VEnum c n _, VEnum d m _ => (String.eqb c d && String.eqb n m)%bool
  | VStrs l, VList m =>
      (fix go (l : list str) (m : list value) {struct m} : bool :=
         match l, m with [], [] => true | x :: l', y :: m' => (same (VStr x) y && go l' m')%bool | _, _ => false end) l m
  | VList l, VList m | VTuple l, VTuple m =>
      (fix go (l m : list value) {struct m} : bool :=
         match l, m with [], [] => true | x :: l', y :: m' => (same x y && go l' m')%bool | _, _ => false end) l m
  | VDict l, VDict m =>
      (fix go (l m : list (value * value)) {struct m} : bool :=
         match l, m with
         | [], [] => true
         | x :: l', y :: m' => (same (fst x) (let (k, _) := y in k) && same (snd x) (let (_, v) := y in v) && go l' m')%bool
         | _, _ => false
         end) l m
  | _, _ => false
  end.
Definition exn_eqb (a b : exn) : bool :=
  match a, b with
  | ConvertException, ConvertException | ValueError, ValueError | IndexError, IndexError | KeyError, KeyError
  | TypeError, TypeError | OverflowError, OverflowError => true
  | _, _ => false
  end.
Definition same_outcome (a b : outcome) : bool :=
  match a, b with
  | Returned x, Returned y => same x y
  | Raised (XExn x), Raised (XExn y) => exn_eqb x y
  | Raised (XOther x), Raised (XOther y) => String.eqb x y
  | _, _ => false
  end.
Definition agrees (c : string * list value * outcome) : bool :=
  match c, cases_world with
  | (f, args, r), Some W =>
      match drive W 14 (StCall (VFun (dotted "cases" f)) args [] false []) with StDone r' [] => same_outcome r' r | _ => false end
  | _, None => false
  end.

Definition cases : list (string * list value * outcome) :=
  [("fresh", [(VStr [113%N])], Returned (VStr [60%N;114%N;105%N;103%N;104%N;116%N;58%N;113%N;108%N;114%N;58%N;66%N;97%N;115%N;101%N;40%N;113%N;108%N;114%N;41%N;82%N;105%N;103%N;104%N;116%N;40%N;113%N;108%N;41%N;76%N;101%N;102%N;116%N;40%N;113%N;41%N;105%N;110%N]));
   ("made", [(VStr [122%N])], Returned (VList [(VStr [98%N;97%N;115%N;101%N;58%N;98%N;97%N;115%N;101%N;45%N;122%N;58%N;66%N;97%N;115%N;101%N;40%N;98%N;97%N;115%N;101%N;45%N;122%N;41%N;63%N]); (VStr [98%N;97%N;115%N;101%N;58%N;98%N;97%N;115%N;101%N;45%N;122%N;108%N;58%N;66%N;97%N;115%N;101%N;40%N;98%N;97%N;115%N;101%N;45%N;122%N;108%N;41%N;76%N;101%N;102%N;116%N;40%N;98%N;97%N;115%N;101%N;45%N;122%N;41%N;63%N]); (VStr [60%N;114%N;105%N;103%N;104%N;116%N;58%N;114%N;105%N;103%N;104%N;116%N;45%N;122%N;114%N;58%N;66%N;97%N;115%N;101%N;40%N;114%N;105%N;103%N;104%N;116%N;45%N;122%N;114%N;41%N;82%N;105%N;103%N;104%N;116%N;40%N;114%N;105%N;103%N;104%N;116%N;45%N;122%N;41%N;33%N;63%N]); (VStr [60%N;114%N;105%N;103%N;104%N;116%N;58%N;114%N;105%N;103%N;104%N;116%N;45%N;122%N;108%N;114%N;58%N;66%N;97%N;115%N;101%N;40%N;114%N;105%N;103%N;104%N;116%N;45%N;122%N;108%N;114%N;41%N;82%N;105%N;103%N;104%N;116%N;40%N;114%N;105%N;103%N;104%N;116%N;45%N;122%N;108%N;41%N;76%N;101%N;102%N;116%N;40%N;114%N;105%N;103%N;104%N;116%N;45%N;122%N;41%N;33%N;63%N])]));
   ("class_names", [], Returned (VList [(VStr [66%N;97%N;115%N;101%N]); (VStr [76%N;101%N;102%N;116%N]); (VStr [82%N;105%N;103%N;104%N;116%N]); (VStr [66%N;111%N;116%N;104%N])]));
   ("instance", [(VStr [105%N])], Returned (VList [(VBool true); (VBool false); (VBool false); (VBool true); (VBool false)]));
   ("inherited", [(VStr [107%N])], Returned (VStr [98%N;97%N;115%N;101%N;58%N;107%N;108%N;58%N;66%N;97%N;115%N;101%N;40%N;107%N;108%N;41%N;76%N;101%N;102%N;116%N;40%N;107%N;41%N]));
   ("missing_attribute", [(VStr [107%N])], Raised (XOther "AttributeError"));
   ("missing_method", [(VStr [107%N])], Raised (XOther "AttributeError"));
   ("unbound", [], Raised (XOther "UnboundLocalError"));
   ("no_name", [], Raised (XOther "NameError"));
   ("shadow", [(VInt (5))], Returned (VInt (5)));
   ("swap", [(VStr [49%N]); (VStr [50%N])], Returned (VStr [50%N;46%N;49%N]));
   ("star", [(VStr [97%N;46%N;98%N;46%N;99%N])], Returned (VList [(VStr [97%N]); (VStr [98%N;47%N;99%N])]));
   ("star", [(VStr [97%N])], Returned (VList [(VStr [97%N]); (VStr [])]));
   ("star", [(VStr [])], Returned (VList [(VStr []); (VStr [])]));
   ("unpack", [(VStr [97%N;46%N;98%N])], Returned (VStr [98%N;97%N]));
   ("unpack", [(VStr [97%N])], Raised (XExn ValueError));
   ("unpack", [(VStr [97%N;46%N;98%N;46%N;99%N])], Raised (XExn ValueError));
   ("call_defaults", [(VInt (0))], Returned (VList [(VInt (1)); (VInt (2)); (VTuple []); (VInt (3))]));
   ("call_defaults", [(VInt (1))], Returned (VList [(VInt (1)); (VInt (5)); (VTuple []); (VInt (3))]));
   ("call_defaults", [(VInt (2))], Returned (VList [(VInt (8)); (VInt (7)); (VTuple []); (VInt (3))]));
   ("call_defaults", [(VInt (3))], Returned (VList [(VInt (1)); (VInt (2)); (VTuple []); (VInt (9))]));
   ("call_defaults", [(VInt (4))], Returned (VList [(VInt (1)); (VInt (2)); (VTuple []); (VInt (3))]));
   ("call_defaults", [(VInt (5))], Raised (XExn TypeError));
   ("call_defaults", [(VInt (6))], Raised (XExn TypeError));
   ("call_defaults", [(VInt (7))], Raised (XExn TypeError));
   ("call_defaults", [(VInt (8))], Raised (XExn TypeError));
   ("call_defaults", [(VInt (9))], Returned (VStr [49%N;46%N;122%N]));
   ("call_passing", [(VInt (0))], Returned (VStr [121%N;46%N;120%N]));
   ("call_passing", [(VInt (1))], Returned (VStr [121%N;46%N;120%N]));
   ("call_passing", [(VInt (2))], Returned (VStr [120%N;46%N;121%N]));
   ("call_passing", [(VInt (3))], Raised (XExn TypeError));
   ("order", [(VStr [49%N;50%N;51%N;52%N;53%N;54%N;55%N])], Returned (VStr [49%N;121%N;51%N;121%N;52%N;121%N]));
   ("order", [(VStr [])], Returned (VStr []));
   ("order", [(VStr [50%N;52%N])], Returned (VStr [52%N;121%N]));
   ("after_loop", [(VStr [97%N;44%N;98%N])], Returned (VStr [98%N]));
   ("after_loop", [(VStr [])], Returned (VStr []));
   ("early", [(VList [(VInt (1)); (VInt (3)); (VInt (5))])], Returned (VInt (3)));
   ("early", [(VList [])], Returned (VStr [110%N;111%N;110%N;101%N]));
   ("early", [(VList [(VInt (2))])], Returned (VStr [110%N;111%N;110%N;101%N]));
   ("no_return", [(VInt (3))], Returned VNone);
   ("caught", [(VInt (1))], Returned (VInt (20)));
   ("caught", [(VInt (3))], Returned (VStr [110%N;111%N;110%N;101%N]));
   ("caught", [(VStr [120%N])], Returned (VStr [110%N;111%N;110%N;101%N]));
   ("not_caught", [(VStr [49%N;50%N])], Returned (VInt (12)));
   ("not_caught", [(VStr [120%N])], Raised (XExn ValueError));
   ("value_caught", [(VStr [55%N])], Returned (VInt (7)));
   ("value_caught", [(VStr [55%N;120%N])], Raised (XExn KeyError));
   ("outer", [(VStr [97%N;98%N])], Returned (VStr [97%N;98%N]));
   ("outer", [(VStr [97%N;98%N;99%N])], Raised (XOther "NotImplementedError"));
   ("chain", [(VInt (1)); (VInt (2)); (VInt (2))], Returned (VBool true));
   ("chain", [(VInt (1)); (VInt (2)); (VInt (1))], Returned (VBool false));
   ("chain", [(VInt (2)); (VInt (2)); (VInt (5))], Returned (VBool false));
   ("chain", [(VInt (10000000000000000000000000)); (VInt (10000000000000000000000001)); (VInt (10000000000000000000000001))], Returned (VBool true));
   ("lazy", [(VStr [])], Returned (VStr [110%N;111%N;110%N;101%N]));
   ("lazy", [(VStr [97%N])], Returned (VBool true));
   ("lazy", [(VStr [98%N;97%N])], Returned (VStr [110%N;111%N;110%N;101%N]));
   ("lazy2", [(VStr []); (VStr [120%N])], Returned (VList [(VStr []); (VStr [120%N]); (VBool true); (VBool false)]));
   ("lazy2", [(VStr [121%N]); (VStr [])], Returned (VList [(VStr []); (VStr [121%N]); (VBool false); (VBool true)]));
   ("lazy2", [(VStr []); (VStr [])], Returned (VList [(VStr []); (VStr []); (VBool true); (VBool true)]));
   ("lazy2", [(VInt (0)); (VInt (5))], Returned (VList [(VInt (0)); (VInt (5)); (VBool true); (VBool false)]));
   ("lazy2", [VNone; (VInt (1))], Returned (VList [VNone; (VInt (1)); (VBool true); (VBool false)]));
   ("lazy2", [(VBool true); VNone], Returned (VList [VNone; (VBool true); (VBool false); (VBool true)]));
   ("ternary", [(VInt (0))], Returned (VStr [98%N]));
   ("ternary", [(VInt (1))], Returned (VStr [97%N]));
   ("ternary", [(VStr [])], Returned (VStr [98%N]));
   ("ternary", [(VStr [48%N])], Returned (VStr [97%N]));
   ("ternary", [VNone], Returned (VStr [98%N]));
   ("ternary", [(VInt (-1))], Returned (VStr [97%N]));
   ("ternary", [(VList [])], Returned (VStr [98%N]));
   ("ternary", [(VList [(VInt (0))])], Returned (VStr [97%N]));
   ("arithmetic", [(VInt (7)); (VInt (3))], Returned (VList [(VInt (10)); (VInt (4)); (VInt (21)); (VInt (1)); (VInt (-7))]));
   ("arithmetic", [(VInt (-7)); (VInt (3))], Returned (VList [(VInt (-4)); (VInt (-10)); (VInt (-21)); (VInt (2)); (VInt (7))]));
   ("arithmetic", [(VInt (7)); (VInt (-3))], Returned (VList [(VInt (4)); (VInt (10)); (VInt (-21)); (VInt (-2)); (VInt (-7))]));
   ("arithmetic", [(VInt (-7)); (VInt (-3))], Returned (VList [(VInt (-10)); (VInt (-4)); (VInt (21)); (VInt (-1)); (VInt (7))]));
   ("arithmetic", [(VInt (0)); (VInt (5))], Returned (VList [(VInt (5)); (VInt (-5)); (VInt (0)); (VInt (0)); (VInt (0))]));
   ("arithmetic", [(VInt (10000000000000000000000000)); (VInt (7))], Returned (VList [(VInt (10000000000000000000000007)); (VInt (9999999999999999999999993)); (VInt (70000000000000000000000000)); (VInt (3)); (VInt (-10000000000000000000000000))]));
   ("arithmetic", [(VInt (-10000000000000000000000000)); (VInt (10))], Returned (VList [(VInt (-9999999999999999999999990)); (VInt (-10000000000000000000000010)); (VInt (-100000000000000000000000000)); (VInt (0)); (VInt (10000000000000000000000000))]));
   ("text_times", [(VStr [97%N;98%N]); (VInt (3))], Returned (VStr [97%N;98%N;97%N;98%N;97%N;98%N;45%N;45%N;45%N]));
   ("text_times", [(VStr [97%N;98%N]); (VInt (0))], Returned (VStr []));
   ("text_times", [(VStr [97%N;98%N]); (VInt (-2))], Returned (VStr []));
   ("text_times", [(VStr []); (VInt (4))], Returned (VStr [45%N;45%N;45%N;45%N]));
   ("compare", [(VInt (1)); (VInt (2))], Returned (VList [(VBool false); (VBool true); (VBool true); (VBool true); (VBool false); (VBool false)]));
   ("compare", [(VInt (2)); (VInt (2))], Returned (VList [(VBool true); (VBool false); (VBool false); (VBool true); (VBool false); (VBool true)]));
   ("compare", [(VInt (3)); (VInt (2))], Returned (VList [(VBool false); (VBool true); (VBool false); (VBool false); (VBool true); (VBool true)]));
   ("compare", [(VInt (-1)); (VInt (0))], Returned (VList [(VBool false); (VBool true); (VBool true); (VBool true); (VBool false); (VBool false)]));
   ("compare", [(VInt (10000000000000000000000000)); (VInt (9999999999999999999999999))], Returned (VList [(VBool false); (VBool true); (VBool false); (VBool false); (VBool true); (VBool true)]));
   ("equal", [(VStr [97%N]); (VStr [97%N])], Returned (VList [(VBool true); (VBool false)]));
   ("equal", [(VStr [97%N]); (VStr [98%N])], Returned (VList [(VBool false); (VBool true)]));
   ("equal", [(VInt (1)); (VInt (1))], Returned (VList [(VBool true); (VBool false)]));
   ("equal", [(VInt (1)); (VInt (2))], Returned (VList [(VBool false); (VBool true)]));
   ("equal", [VNone; VNone], Returned (VList [(VBool true); (VBool false)]));
   ("equal", [VNone; (VStr [120%N])], Returned (VList [(VBool false); (VBool true)]));
   ("equal", [(VStr [49%N]); (VInt (1))], Returned (VList [(VBool false); (VBool true)]));
   ("equal", [(VInt (1)); (VStr [49%N])], Returned (VList [(VBool false); (VBool true)]));
   ("equal", [(VInt (1)); VNone], Returned (VList [(VBool false); (VBool true)]));
   ("equal", [VNone; (VInt (1))], Returned (VList [(VBool false); (VBool true)]));
   ("equal", [(VBool true); (VBool false)], Returned (VList [(VBool false); (VBool true)]));
   ("equal", [(VBool true); (VBool true)], Returned (VList [(VBool true); (VBool false)]));
   ("member", [(VInt (1))], Returned (VList [(VBool true); (VBool false); (VBool true); (VBool true)]));
   ("member", [(VInt (5))], Returned (VList [(VBool false); (VBool true); (VBool true); (VBool false)]));
   ("member", [(VInt (9))], Returned (VList [(VBool false); (VBool true); (VBool false); (VBool false)]));
   ("member", [(VStr [49%N])], Returned (VList [(VBool false); (VBool true); (VBool false); (VBool false)]));
   ("items", [], Returned (VList [(VStr [49%N;48%N]); (VStr [50%N;49%N])]));
   ("nested", [(VStr [97%N])], Returned (VInt (20)));
   ("nested", [(VStr [98%N])], Returned (VInt (17)));
   ("nested", [(VStr [99%N])], Raised (XExn KeyError));
   ("comprehension", [(VStr [49%N;120%N;50%N])], Returned (VList [(VStr [49%N;50%N]); (VStr [50%N;49%N])]));
   ("comprehension", [(VStr [])], Returned (VList []));
   ("comp_scope", [(VStr [120%N;121%N])], Returned (VStr [111%N;117%N;116%N;101%N;114%N;120%N;121%N]));
   ("comp_scope", [(VStr [])], Returned (VStr [111%N;117%N;116%N;101%N;114%N]));
   ("dict_order", [(VStr [97%N;32%N;98%N;98%N;32%N;97%N])], Returned (VDict [((VStr [97%N]), (VInt (3))); ((VStr [98%N;98%N]), (VInt (4)))]));
   ("index", [(VStr [97%N;98%N;99%N]); (VInt (0))], Returned (VStr [97%N]));
   ("index", [(VStr [97%N;98%N;99%N]); (VInt (2))], Returned (VStr [99%N]));
   ("index", [(VStr [97%N;98%N;99%N]); (VInt (3))], Raised (XExn IndexError));
   ("index", [(VStr [97%N;98%N;99%N]); (VInt (-1))], Returned (VStr [99%N]));
   ("index", [(VStr [97%N;98%N;99%N]); (VInt (-3))], Returned (VStr [97%N]));
   ("index", [(VStr [97%N;98%N;99%N]); (VInt (-4))], Raised (XExn IndexError));
   ("index", [(VStr []); (VInt (0))], Raised (XExn IndexError));
   ("index_list", [(VInt (0))], Returned (VInt (5)));
   ("index_list", [(VInt (2))], Returned (VInt (7)));
   ("index_list", [(VInt (3))], Raised (XExn IndexError));
   ("slices", [(VStr [97%N;98%N;99%N;100%N;101%N;102%N]); (VInt (0)); (VInt (3))], Returned (VList [(VStr [97%N;98%N;99%N]); (VStr [97%N;98%N;99%N;100%N;101%N;102%N]); (VStr [97%N;98%N;99%N]); (VStr [97%N;98%N;99%N;100%N;101%N])]));
   ("slices", [(VStr [97%N;98%N;99%N;100%N;101%N;102%N]); (VInt (2)); (VInt (2))], Returned (VList [(VStr []); (VStr [99%N;100%N;101%N;102%N]); (VStr [97%N;98%N]); (VStr [97%N;98%N;99%N;100%N;101%N])]));
   ("slices", [(VStr [97%N;98%N;99%N;100%N;101%N;102%N]); (VInt (4)); (VInt (2))], Returned (VList [(VStr []); (VStr [101%N;102%N]); (VStr [97%N;98%N]); (VStr [97%N;98%N;99%N;100%N;101%N])]));
   ("slices", [(VStr [97%N;98%N;99%N;100%N;101%N;102%N]); (VInt (-2)); (VInt (6))], Returned (VList [(VStr [101%N;102%N]); (VStr [101%N;102%N]); (VStr [97%N;98%N;99%N;100%N;101%N;102%N]); (VStr [97%N;98%N;99%N;100%N;101%N])]));
   ("slices", [(VStr [97%N;98%N;99%N;100%N;101%N;102%N]); (VInt (1)); (VInt (-1))], Returned (VList [(VStr [98%N;99%N;100%N;101%N]); (VStr [98%N;99%N;100%N;101%N;102%N]); (VStr [97%N;98%N;99%N;100%N;101%N]); (VStr [97%N;98%N;99%N;100%N;101%N])]));
   ("slices", [(VStr [97%N;98%N;99%N;100%N;101%N;102%N]); (VInt (-9)); (VInt (3))], Returned (VList [(VStr [97%N;98%N;99%N]); (VStr [97%N;98%N;99%N;100%N;101%N;102%N]); (VStr [97%N;98%N;99%N]); (VStr [97%N;98%N;99%N;100%N;101%N])]));
   ("slices", [(VStr [97%N;98%N;99%N;100%N;101%N;102%N]); (VInt (3)); (VInt (99))], Returned (VList [(VStr [100%N;101%N;102%N]); (VStr [100%N;101%N;102%N]); (VStr [97%N;98%N;99%N;100%N;101%N;102%N]); (VStr [97%N;98%N;99%N;100%N;101%N])]));
   ("slices", [(VStr [97%N;98%N;99%N;100%N;101%N;102%N]); (VInt (-3)); (VInt (-1))], Returned (VList [(VStr [100%N;101%N]); (VStr [100%N;101%N;102%N]); (VStr [97%N;98%N;99%N;100%N;101%N]); (VStr [97%N;98%N;99%N;100%N;101%N])]));
   ("slices", [(VStr [97%N;98%N;99%N;100%N;101%N;102%N]); (VInt (7)); (VInt (9))], Returned (VList [(VStr []); (VStr []); (VStr [97%N;98%N;99%N;100%N;101%N;102%N]); (VStr [97%N;98%N;99%N;100%N;101%N])]));
   ("slices", [(VStr [97%N;98%N;99%N;100%N;101%N;102%N]); (VInt (0)); (VInt (-9))], Returned (VList [(VStr []); (VStr [97%N;98%N;99%N;100%N;101%N;102%N]); (VStr []); (VStr [97%N;98%N;99%N;100%N;101%N])]));
   ("slices", [(VStr []); (VInt (0)); (VInt (3))], Returned (VList [(VStr []); (VStr []); (VStr []); (VStr [])]));
   ("slices", [(VStr [233%N;8364%N]); (VInt (1)); (VInt (2))], Returned (VList [(VStr [8364%N]); (VStr [8364%N]); (VStr [233%N;8364%N]); (VStr [233%N])]));
   ("slice_list", [(VStr [97%N;46%N;98%N;46%N;99%N]); (VInt (1)); (VInt (9))], Returned (VList [(VStr [98%N]); (VStr [99%N])]));
   ("slice_list", [(VStr [97%N;46%N;98%N;46%N;99%N]); (VInt (0)); (VInt (-1))], Returned (VList [(VStr [97%N]); (VStr [98%N])]));
   ("slice_list", [(VStr [97%N]); (VInt (1)); (VInt (2))], Returned (VList []));
   ("alternate", [(VStr [49%N;50%N;51%N;52%N;53%N;54%N;55%N])], Returned (VList [(VList [(VInt (1)); (VInt (3)); (VInt (5)); (VInt (7))]); (VList [(VInt (2)); (VInt (4)); (VInt (6))])]));
   ("alternate", [(VStr [49%N;50%N])], Returned (VList [(VList [(VInt (1))]); (VList [(VInt (2))])]));
   ("alternate", [(VStr [])], Returned (VList [(VList []); (VList [])]));
   ("alternate", [(VStr [49%N;120%N])], Raised (XExn ValueError));
   ("formats", [(VInt (0)); (VInt (3))], Returned (VList [(VStr [48%N;48%N;48%N]); (VStr [48%N]); (VStr [48%N]); (VStr [48%N;48%N;48%N]); (VStr [48%N;48%N;48%N;48%N])]));
   ("formats", [(VInt (5)); (VInt (3))], Returned (VList [(VStr [49%N;48%N;49%N]); (VStr [53%N]); (VStr [53%N]); (VStr [48%N;48%N;53%N]); (VStr [48%N;49%N;48%N;49%N])]));
   ("formats", [(VInt (255)); (VInt (3))], Returned (VList [(VStr [49%N;49%N;49%N;49%N;49%N;49%N;49%N;49%N]); (VStr [102%N;102%N]); (VStr [70%N;70%N]); (VStr [50%N;53%N;53%N]); (VStr [49%N;49%N;49%N;49%N;49%N;49%N;49%N;49%N])]));
   ("formats", [(VInt (-5)); (VInt (6))], Returned (VList [(VStr [45%N;48%N;48%N;49%N;48%N;49%N]); (VStr [45%N;53%N]); (VStr [45%N;53%N]); (VStr [48%N;48%N;48%N;48%N;45%N;53%N]); (VStr [45%N;49%N;48%N;49%N])]));
   ("formats", [(VInt (1023)); (VInt (12))], Returned (VList [(VStr [48%N;48%N;49%N;49%N;49%N;49%N;49%N;49%N;49%N;49%N;49%N;49%N]); (VStr [51%N;102%N;102%N]); (VStr [51%N;70%N;70%N]); (VStr [48%N;48%N;48%N;48%N;48%N;48%N;48%N;48%N;49%N;48%N;50%N;51%N]); (VStr [49%N;49%N;49%N;49%N;49%N;49%N;49%N;49%N;49%N;49%N])]));
   ("formats", [(VInt (10000000000000000000000000)); (VInt (3))], Returned (VList [(VStr [49%N;48%N;48%N;48%N;48%N;49%N;48%N;48%N;48%N;49%N;48%N;49%N;49%N;48%N;48%N;49%N;48%N;49%N;48%N;49%N;48%N;48%N;48%N;49%N;48%N;49%N;49%N;48%N;48%N;48%N;48%N;49%N;48%N;49%N;48%N;48%N;48%N;48%N;48%N;48%N;48%N;48%N;48%N;49%N;48%N;49%N;48%N;48%N;49%N;48%N;48%N;48%N;48%N;49%N;48%N;48%N;49%N;48%N;49%N;48%N;48%N;48%N;48%N;48%N;48%N;48%N;48%N;48%N;48%N;48%N;48%N;48%N;48%N;48%N;48%N;48%N;48%N;48%N;48%N;48%N;48%N;48%N;48%N;48%N]); (VStr [56%N;52%N;53%N;57%N;53%N;49%N;54%N;49%N;52%N;48%N;49%N;52%N;56%N;52%N;97%N;48%N;48%N;48%N;48%N;48%N;48%N]); (VStr [56%N;52%N;53%N;57%N;53%N;49%N;54%N;49%N;52%N;48%N;49%N;52%N;56%N;52%N;65%N;48%N;48%N;48%N;48%N;48%N;48%N]); (VStr [49%N;48%N;48%N;48%N;48%N;48%N;48%N;48%N;48%N;48%N;48%N;48%N;48%N;48%N;48%N;48%N;48%N;48%N;48%N;48%N;48%N;48%N;48%N;48%N;48%N;48%N]); (VStr [49%N;48%N;48%N;48%N;48%N;49%N;48%N;48%N;48%N;49%N;48%N;49%N;49%N;48%N;48%N;49%N;48%N;49%N;48%N;49%N;48%N;48%N;48%N;49%N;48%N;49%N;49%N;48%N;48%N;48%N;48%N;49%N;48%N;49%N;48%N;48%N;48%N;48%N;48%N;48%N;48%N;48%N;48%N;49%N;48%N;49%N;48%N;48%N;49%N;48%N;48%N;48%N;48%N;49%N;48%N;48%N;49%N;48%N;49%N;48%N;48%N;48%N;48%N;48%N;48%N;48%N;48%N;48%N;48%N;48%N;48%N;48%N;48%N;48%N;48%N;48%N;48%N;48%N;48%N;48%N;48%N;48%N;48%N;48%N])]));
   ("format_text", [(VStr [97%N;98%N]); (VInt (5))], Returned (VList [(VStr [97%N;98%N;48%N;48%N;48%N]); (VStr [48%N;48%N;48%N;97%N;98%N]); (VStr [97%N;98%N])]));
   ("format_text", [(VStr [97%N;98%N]); (VInt (1))], Returned (VList [(VStr [97%N;98%N]); (VStr [97%N;98%N]); (VStr [97%N;98%N])]));
   ("format_text", [(VStr []); (VInt (3))], Returned (VList [(VStr [48%N;48%N;48%N]); (VStr [48%N;48%N;48%N]); (VStr [])]));
   ("format_text", [(VStr [97%N;98%N]); (VInt (0))], Returned (VList [(VStr [97%N;98%N]); (VStr [97%N;98%N]); (VStr [97%N;98%N])]));
   ("format_enum", [(VInt (3))], Returned (VStr [49%N;52%N;49%N;51%N]));
   ("numbers", [(VStr [49%N;50%N])], Returned (VInt (12)));
   ("numbers", [(VStr [32%N;49%N;50%N;32%N])], Returned (VInt (12)));
   ("numbers", [(VStr [45%N;51%N])], Returned (VInt (-3)));
   ("numbers", [(VStr [43%N;51%N])], Returned (VInt (3)));
   ("numbers", [(VStr [49%N;95%N;48%N])], Returned (VInt (10)));
   ("numbers", [(VStr [])], Raised (XExn ValueError));
   ("numbers", [(VStr [49%N;120%N])], Raised (XExn ValueError));
   ("numbers", [(VStr [1635%N])], Returned (VInt (3)));
   ("numbers", [(VInt (5))], Returned (VInt (5)));
   ("base_number", [(VStr [49%N;48%N;49%N]); (VInt (2))], Returned (VInt (5)));
   ("base_number", [(VStr [49%N;48%N;50%N]); (VInt (2))], Raised (XExn ValueError));
   ("base_number", [(VStr [102%N;102%N]); (VInt (16))], Returned (VInt (255)));
   ("base_number", [(VStr [48%N;120%N;70%N;70%N]); (VInt (16))], Returned (VInt (255)));
   ("base_number", [(VStr [103%N]); (VInt (16))], Raised (XExn ValueError));
   ("base_number", [(VStr [48%N;98%N;49%N]); (VInt (2))], Returned (VInt (1)));
   ("base_number", [(VStr []); (VInt (2))], Raised (XExn ValueError));
   ("powers", [(VInt (2)); (VInt (10))], Returned (VInt (1024)));
   ("powers", [(VInt (10)); (VInt (25))], Returned (VInt (10000000000000000000000000)));
   ("powers", [(VInt (0)); (VInt (0))], Returned (VInt (1)));
   ("powers", [(VInt (-2)); (VInt (3))], Returned (VInt (-8)));
   ("bits", [(VInt (1))], Returned (VInt (0)));
   ("bits", [(VInt (3))], Returned (VInt (0)));
   ("bits", [(VInt (4))], Returned (VInt (1)));
   ("bits", [(VInt (38))], Returned (VInt (11)));
   ("bits", [(VInt (39))], Returned (VInt (11)));
   ("bits", [(VInt (41))], Returned (VInt (12)));
   ("bits", [(VInt (48))], Returned (VInt (14)));
   ("bits", [(VInt (96))], Returned (VInt (28)));
   ("bits", [(VInt (100))], Returned (VInt (30)));
   ("bits", [(VInt (1000))], Returned (VInt (301)));
   ("total", [(VStr [49%N;50%N;51%N])], Returned (VInt (6)));
   ("total", [(VStr [])], Returned (VInt (0)));
   ("total", [(VStr [49%N;97%N])], Raised (XExn ValueError));
   ("char", [(VInt (65))], Returned (VStr [65%N]));
   ("char", [(VInt (0))], Returned (VStr [0%N]));
   ("char", [(VInt (1114111))], Returned (VStr [1114111%N]));
   ("char", [(VInt (1114112))], Raised (XExn ValueError));
   ("char", [(VInt (-1))], Raised (XExn ValueError));
   ("code", [(VStr [97%N])], Returned (VInt (97)));
   ("code", [(VStr [8364%N])], Returned (VInt (8364)));
   ("code", [(VStr [97%N;98%N])], Raised (XExn TypeError));
   ("code", [(VStr [])], Raised (XExn TypeError));
   ("mapped", [(VStr [97%N;122%N])], Returned (VStr [57%N;55%N;49%N;50%N;50%N]));
   ("mapped", [(VStr [])], Returned (VStr []));
   ("methods", [(VStr [97%N;98%N;97%N;97%N])], Returned (VList [(VStr [98%N;98%N;98%N;98%N;98%N;98%N;98%N]); (VStr [99%N;98%N;97%N;97%N]); (VStr [65%N;66%N;65%N;65%N]); (VStr [48%N;48%N;97%N;98%N;97%N;97%N]); (VBool true); (VBool false)]));
   ("methods", [(VStr [])], Returned (VList [(VStr []); (VStr []); (VStr []); (VStr [48%N;48%N;48%N;48%N;48%N;48%N]); (VBool false); (VBool false)]));
   ("methods", [(VStr [45%N;49%N;50%N])], Returned (VList [(VStr [45%N;49%N;50%N]); (VStr [45%N;49%N;50%N]); (VStr [45%N;49%N;50%N]); (VStr [45%N;48%N;48%N;48%N;49%N;50%N]); (VBool false); (VBool false)]));
   ("methods", [(VStr [43%N;49%N])], Returned (VList [(VStr [43%N;49%N]); (VStr [43%N;49%N]); (VStr [43%N;49%N]); (VStr [43%N;48%N;48%N;48%N;48%N;49%N]); (VBool false); (VBool false)]));
   ("methods", [(VStr [49%N;50%N;51%N;52%N;53%N;54%N;55%N])], Returned (VList [(VStr [49%N;50%N;51%N;52%N;53%N;54%N;55%N]); (VStr [49%N;50%N;51%N;52%N;53%N;54%N;55%N]); (VStr [49%N;50%N;51%N;52%N;53%N;54%N;55%N]); (VStr [49%N;50%N;51%N;52%N;53%N;54%N;55%N]); (VBool false); (VBool true)]));
   ("methods", [(VStr [97%N;178%N])], Returned (VList [(VStr [98%N;98%N;178%N]); (VStr [99%N;178%N]); (VStr [65%N;178%N]); (VStr [48%N;48%N;48%N;48%N;97%N;178%N]); (VBool false); (VBool false)]));
   ("splits", [(VStr [97%N;46%N;98%N;46%N])], Returned (VList [(VStr [97%N]); (VStr [98%N]); (VStr [])]));
   ("splits", [(VStr [])], Returned (VList [(VStr [])]));
   ("splits", [(VStr [46%N])], Returned (VList [(VStr []); (VStr [])]));
   ("splits", [(VStr [97%N;98%N])], Returned (VList [(VStr [97%N;98%N])]));
   ("joins", [(VStr [120%N;97%N;121%N;97%N])], Returned (VStr [121%N;46%N]));
   ("joins", [(VStr [120%N;121%N;122%N])], Returned (VStr []));
   ("full", [(VStr [49%N;50%N])], Returned (VStr [121%N;101%N;115%N]));
   ("full", [(VStr [49%N;50%N;97%N;98%N])], Returned (VStr [121%N;101%N;115%N]));
   ("full", [(VStr [49%N;50%N;97%N;98%N;99%N])], Returned (VStr [110%N;111%N]));
   ("full", [(VStr [49%N])], Returned (VStr [110%N;111%N]));
   ("full", [(VStr [49%N;50%N;10%N])], Returned (VStr [110%N;111%N]));
   ("full", [(VStr [120%N;49%N;50%N])], Returned (VStr [110%N;111%N]));
   ("prefix", [(VStr [49%N;50%N])], Returned (VStr [121%N;101%N;115%N]));
   ("prefix", [(VStr [49%N;50%N;97%N;98%N;99%N])], Returned (VStr [121%N;101%N;115%N]));
   ("prefix", [(VStr [120%N;49%N;50%N])], Returned (VStr [110%N;111%N]));
   ("prefix", [(VStr [49%N;50%N;10%N])], Returned (VStr [121%N;101%N;115%N]));
   ("re_split", [(VStr [97%N;37%N;50%N;70%N;98%N;37%N;50%N;102%N])], Returned (VList [(VStr [97%N]); (VStr [37%N;50%N;70%N]); (VStr [98%N]); (VStr [37%N;50%N;102%N]); (VStr [])]));
   ("re_split", [(VStr [37%N;37%N;50%N;48%N])], Returned (VList [(VStr [37%N]); (VStr [37%N;50%N;48%N]); (VStr [])]));
   ("re_split", [(VStr [])], Returned (VList [(VStr [])]));
   ("re_split", [(VStr [37%N;50%N])], Returned (VList [(VStr [37%N;50%N])]));
   ("re_split", [(VStr [37%N;52%N;49%N;37%N;52%N;50%N])], Returned (VList [(VStr []); (VStr [37%N;52%N;49%N]); (VStr []); (VStr [37%N;52%N;50%N]); (VStr [])]));
   ("re_split2", [(VStr [40%N;48%N;49%N;41%N;49%N;50%N;51%N;40%N;50%N;49%N;41%N;52%N;53%N])], Returned (VList [(VStr []); (VStr [49%N;50%N;51%N]); (VStr [52%N;53%N])]));
   ("re_split2", [(VStr [40%N;48%N;49%N;41%N])], Returned (VList [(VStr []); (VStr [])]));
   ("re_split2", [(VStr [120%N])], Returned (VList [(VStr [120%N])]));
   ("re_split2", [(VStr [40%N;10%N;49%N;41%N;50%N])], Returned (VList [(VStr [40%N;10%N;49%N;41%N;50%N])]));
   ("re_find", [(VStr [97%N;98%N;99%N;100%N;101%N;102%N;103%N;104%N])], Returned (VList [(VStr [97%N;98%N;99%N]); (VStr [100%N;101%N;102%N])]));
   ("re_find", [(VStr [97%N;98%N])], Returned (VList []));
   ("re_find", [(VStr [97%N;98%N;10%N;99%N;100%N;101%N;102%N])], Returned (VList [(VStr [99%N;100%N;101%N])]));
   ("re_find", [(VStr [])], Returned (VList []));
   ("re_sub", [(VStr [97%N;46%N;42%N])], Returned (VStr [97%N;46%N;48%N]));
   ("re_sub", [(VStr [97%N;46%N;42%N;46%N;42%N])], Returned (VStr [97%N;46%N;42%N;46%N;48%N]));
   ("re_sub", [(VStr [46%N;42%N;10%N])], Returned (VStr [46%N;48%N;10%N]));
   ("re_sub", [(VStr [97%N;46%N;42%N;98%N])], Returned (VStr [97%N;46%N;42%N;98%N]));
   ("re_sub", [(VStr [42%N])], Returned (VStr [42%N]));
   ("enums", [], Returned (VList [(VList [(VStr [48%N]); (VStr [49%N])]); (VList [(VStr [82%N;69%N;68%N]); (VStr [71%N;82%N;69%N;69%N;78%N])]); (VStr [49%N]); (VBool true)]));
   ("enum_equal", [(VEnum "cases.Colour" "RED" (VStr [48%N]))], Returned (VList [(VBool true); (VBool false); (VBool false)]));
   ("enum_equal", [(VEnum "cases.Colour" "GREEN" (VStr [49%N]))], Returned (VList [(VBool false); (VBool true); (VBool false)]));
   ("enum_equal", [VNone], Returned (VList [(VBool false); (VBool true); (VBool false)]));
   ("enum_equal", [(VStr [120%N])], Returned (VList [(VBool false); (VBool true); (VBool false)]));
   ("enum_equal", [(VEnum "cases.Size" "BIG" (VInt (14)))], Returned (VList [(VBool false); (VBool true); (VBool true)]));
   ("size", [(VEnum "cases.Size" "SMALL" (VInt (1)))], Returned (VList [(VBool false); (VInt (14)); (VBool true)]));
   ("size", [(VEnum "cases.Size" "BIG" (VInt (14)))], Returned (VList [(VBool true); (VInt (1)); (VBool false)]));
   ("bad_member", [(VStr [82%N;69%N;68%N])], Returned (VStr [48%N]));
   ("bad_member", [(VStr [66%N;76%N;85%N;69%N])], Raised (XExn KeyError));
   ("bad_member", [(VStr [])], Raised (XExn KeyError));
   ("by_name", [], Returned (VList [(VInt (3)); (VInt (5))]));
   ("bytes_hex", [(VStr [65%N;81%N;73%N;68%N])], Returned (VStr [48%N;49%N;48%N;50%N;48%N;51%N]));
   ("bytes_hex", [(VStr [65%N;81%N;73%N])], Returned (VStr [48%N;49%N;48%N;50%N]));
   ("bytes_hex", [(VStr [65%N;81%N])], Returned (VStr [48%N;49%N]));
   ("bytes_hex", [(VStr [65%N])], Raised (XExn ValueError));
   ("bytes_hex", [(VStr [])], Returned (VStr []));
   ("bytes_hex", [(VStr [33%N;65%N;81%N;63%N;73%N;68%N])], Returned (VStr [48%N;49%N;48%N;50%N;48%N;51%N]));
   ("bytes_hex", [(VStr [65%N;81%N;61%N;61%N;73%N;68%N])], Returned (VStr [48%N;49%N]));
   ("bytes_hex", [(VStr [233%N])], Raised (XExn ValueError));
   ("hex_bytes", [(VStr [48%N;48%N;102%N;102%N;49%N;48%N])], Returned (VStr [65%N;80%N;56%N;81%N]));
   ("hex_bytes", [(VStr [48%N])], Raised (XExn ValueError));
   ("hex_bytes", [(VStr [])], Returned (VStr []));
   ("hex_bytes", [(VStr [48%N;32%N;48%N])], Raised (XExn ValueError));
   ("hex_bytes", [(VStr [48%N;48%N;32%N;102%N;102%N])], Returned (VStr [65%N;80%N;56%N;61%N]));
   ("hex_bytes", [(VStr [120%N;120%N])], Raised (XExn ValueError));
   ("hex_bytes", [(VStr [70%N;70%N])], Returned (VStr [47%N;119%N;61%N;61%N]));
   ("rebind", [(VStr [97%N;46%N;98%N;46%N;99%N])], Returned (VStr [97%N;98%N;99%N]));
   ("augmented", [(VInt (4))], Returned (VInt (18)));
   ("augmented", [(VInt (-2))], Returned (VInt (0)));
   ("evaluation", [(VStr [103%N;111%N])], Returned (VStr [103%N;111%N;98%N;103%N;111%N;99%N]));
   ("evaluation", [(VStr [115%N;116%N;111%N;112%N])], Raised (XExn KeyError));
   ("first_error", [(VStr [49%N])], Raised (XExn KeyError));
   ("first_error", [(VStr [120%N])], Raised (XExn ValueError));
   ("recursive", [(VInt (0))], Returned (VStr []));
   ("recursive", [(VInt (12))], Returned (VStr [49%N;50%N;51%N;52%N;53%N;54%N;55%N;56%N;57%N;49%N;48%N;49%N;49%N;49%N;50%N]));
   ("kind_sum", [(VStr [97%N;98%N;99%N;100%N]); VNone], Raised (XExn TypeError));
   ("kind_sum", [(VStr [97%N;98%N;99%N;100%N]); (VBool true)], Returned (VStr [98%N]));
   ("kind_sum", [(VStr [97%N;98%N;99%N;100%N]); (VBool false)], Returned (VStr []));
   ("kind_sum", [(VStr [97%N;98%N;99%N;100%N]); (VInt (0))], Returned (VStr []));
   ("kind_sum", [(VStr [97%N;98%N;99%N;100%N]); (VInt (3))], Returned (VStr [98%N;99%N;100%N]));
   ("kind_sum", [(VStr [97%N;98%N;99%N;100%N]); (VInt (-2))], Returned (VStr [98%N;99%N]));
   ("kind_sum", [(VStr [97%N;98%N;99%N;100%N]); (VFloat (SpecFloat.S754_finite false 6755399441055744 (-52)))], Raised (XExn TypeError));
   ("kind_sum", [(VStr [97%N;98%N;99%N;100%N]); (VFloat (SpecFloat.S754_zero false))], Raised (XExn TypeError));
   ("kind_sum", [(VStr [97%N;98%N;99%N;100%N]); (VFloat (SpecFloat.S754_zero true))], Raised (XExn TypeError));
   ("kind_sum", [(VStr [97%N;98%N;99%N;100%N]); (VFloat (SpecFloat.S754_finite false 6724873095247260 (944)))], Raised (XExn TypeError));
   ("kind_sum", [(VStr [97%N;98%N;99%N;100%N]); (VStr [97%N;98%N])], Raised (XExn TypeError));
   ("kind_sum", [(VStr [97%N;98%N;99%N;100%N]); (VStr [])], Raised (XExn TypeError));
   ("kind_sum", [(VStr [97%N;98%N;99%N;100%N]); (VBytes [97%N;98%N])], Raised (XExn TypeError));
   ("kind_sum", [(VStr [97%N;98%N;99%N;100%N]); (VBytes [])], Raised (XExn TypeError));
   ("kind_sum", [(VStr [97%N;98%N;99%N;100%N]); (VEnum "cases.Colour" "RED" (VStr [48%N]))], Raised (XExn TypeError));
   ("kind_sum", [(VStr [97%N;98%N;99%N;100%N]); (VEnum "cases.Size" "BIG" (VInt (14)))], Returned (VStr [98%N;99%N;100%N]));
   ("kind_sum", [(VStr [97%N;98%N;99%N;100%N]); (VEnum "cases.Size" "SMALL" (VInt (1)))], Returned (VStr [98%N]));
   ("kind_bound", [(VStr [97%N;98%N;99%N;100%N]); VNone], Returned (VStr [97%N;98%N;99%N;100%N]));
   ("kind_bound", [(VStr [97%N;98%N;99%N;100%N]); (VBool true)], Returned (VStr [97%N]));
   ("kind_bound", [(VStr [97%N;98%N;99%N;100%N]); (VBool false)], Returned (VStr []));
   ("kind_bound", [(VStr [97%N;98%N;99%N;100%N]); (VInt (0))], Returned (VStr []));
   ("kind_bound", [(VStr [97%N;98%N;99%N;100%N]); (VInt (3))], Returned (VStr [97%N;98%N;99%N]));
   ("kind_bound", [(VStr [97%N;98%N;99%N;100%N]); (VInt (-2))], Returned (VStr [97%N;98%N]));
   ("kind_bound", [(VStr [97%N;98%N;99%N;100%N]); (VFloat (SpecFloat.S754_finite false 6755399441055744 (-52)))], Raised (XExn TypeError));
   ("kind_bound", [(VStr [97%N;98%N;99%N;100%N]); (VFloat (SpecFloat.S754_zero false))], Raised (XExn TypeError));
   ("kind_bound", [(VStr [97%N;98%N;99%N;100%N]); (VFloat (SpecFloat.S754_zero true))], Raised (XExn TypeError));
   ("kind_bound", [(VStr [97%N;98%N;99%N;100%N]); (VFloat (SpecFloat.S754_finite false 6724873095247260 (944)))], Raised (XExn TypeError));
   ("kind_bound", [(VStr [97%N;98%N;99%N;100%N]); (VStr [97%N;98%N])], Raised (XExn TypeError));
   ("kind_bound", [(VStr [97%N;98%N;99%N;100%N]); (VStr [])], Raised (XExn TypeError));
   ("kind_bound", [(VStr [97%N;98%N;99%N;100%N]); (VBytes [97%N;98%N])], Raised (XExn TypeError));
   ("kind_bound", [(VStr [97%N;98%N;99%N;100%N]); (VBytes [])], Raised (XExn TypeError));
   ("kind_bound", [(VStr [97%N;98%N;99%N;100%N]); (VEnum "cases.Colour" "RED" (VStr [48%N]))], Raised (XExn TypeError));
   ("kind_bound", [(VStr [97%N;98%N;99%N;100%N]); (VEnum "cases.Size" "BIG" (VInt (14)))], Returned (VStr [97%N;98%N;99%N;100%N]));
   ("kind_bound", [(VStr [97%N;98%N;99%N;100%N]); (VEnum "cases.Size" "SMALL" (VInt (1)))], Returned (VStr [97%N]));
   ("kind_start", [(VStr [97%N;98%N;99%N;100%N]); VNone], Returned (VStr [97%N;98%N;99%N]));
   ("kind_start", [(VStr [97%N;98%N;99%N;100%N]); (VBool true)], Returned (VStr [98%N;99%N]));
   ("kind_start", [(VStr [97%N;98%N;99%N;100%N]); (VBool false)], Returned (VStr [97%N;98%N;99%N]));
   ("kind_start", [(VStr [97%N;98%N;99%N;100%N]); (VInt (0))], Returned (VStr [97%N;98%N;99%N]));
   ("kind_start", [(VStr [97%N;98%N;99%N;100%N]); (VInt (3))], Returned (VStr []));
   ("kind_start", [(VStr [97%N;98%N;99%N;100%N]); (VInt (-2))], Returned (VStr [99%N]));
   ("kind_start", [(VStr [97%N;98%N;99%N;100%N]); (VFloat (SpecFloat.S754_finite false 6755399441055744 (-52)))], Raised (XExn TypeError));
   ("kind_start", [(VStr [97%N;98%N;99%N;100%N]); (VFloat (SpecFloat.S754_zero false))], Raised (XExn TypeError));
   ("kind_start", [(VStr [97%N;98%N;99%N;100%N]); (VFloat (SpecFloat.S754_zero true))], Raised (XExn TypeError));
   ("kind_start", [(VStr [97%N;98%N;99%N;100%N]); (VFloat (SpecFloat.S754_finite false 6724873095247260 (944)))], Raised (XExn TypeError));
   ("kind_start", [(VStr [97%N;98%N;99%N;100%N]); (VStr [97%N;98%N])], Raised (XExn TypeError));
   ("kind_start", [(VStr [97%N;98%N;99%N;100%N]); (VStr [])], Raised (XExn TypeError));
   ("kind_start", [(VStr [97%N;98%N;99%N;100%N]); (VBytes [97%N;98%N])], Raised (XExn TypeError));
   ("kind_start", [(VStr [97%N;98%N;99%N;100%N]); (VBytes [])], Raised (XExn TypeError));
   ("kind_start", [(VStr [97%N;98%N;99%N;100%N]); (VEnum "cases.Colour" "RED" (VStr [48%N]))], Raised (XExn TypeError));
   ("kind_start", [(VStr [97%N;98%N;99%N;100%N]); (VEnum "cases.Size" "BIG" (VInt (14)))], Returned (VStr []));
   ("kind_start", [(VStr [97%N;98%N;99%N;100%N]); (VEnum "cases.Size" "SMALL" (VInt (1)))], Returned (VStr [98%N;99%N]));
   ("kind_parts", [VNone], Raised (XExn TypeError));
   ("kind_parts", [(VBool true)], Raised (XExn TypeError));
   ("kind_parts", [(VBool false)], Raised (XExn TypeError));
   ("kind_parts", [(VInt (0))], Raised (XExn TypeError));
   ("kind_parts", [(VInt (3))], Raised (XExn TypeError));
   ("kind_parts", [(VInt (-2))], Raised (XExn TypeError));
   ("kind_parts", [(VFloat (SpecFloat.S754_finite false 6755399441055744 (-52)))], Raised (XExn TypeError));
   ("kind_parts", [(VFloat (SpecFloat.S754_zero false))], Raised (XExn TypeError));
   ("kind_parts", [(VFloat (SpecFloat.S754_zero true))], Raised (XExn TypeError));
   ("kind_parts", [(VFloat (SpecFloat.S754_finite false 6724873095247260 (944)))], Raised (XExn TypeError));
   ("kind_parts", [(VStr [97%N;98%N])], Returned (VStr [97%N;98%N]));
   ("kind_parts", [(VStr [])], Returned (VStr []));
   ("kind_parts", [(VBytes [97%N;98%N])], Returned (VBytes [97%N;98%N]));
   ("kind_parts", [(VBytes [])], Returned (VBytes []));
   ("kind_parts", [(VEnum "cases.Colour" "RED" (VStr [48%N]))], Raised (XExn TypeError));
   ("kind_parts", [(VEnum "cases.Size" "BIG" (VInt (14)))], Raised (XExn TypeError));
   ("kind_parts", [(VEnum "cases.Size" "SMALL" (VInt (1)))], Raised (XExn TypeError));
   ("kind_key", [VNone], Raised (XExn TypeError));
   ("kind_key", [(VBool true)], Raised (XExn TypeError));
   ("kind_key", [(VBool false)], Raised (XExn TypeError));
   ("kind_key", [(VInt (0))], Raised (XExn TypeError));
   ("kind_key", [(VInt (3))], Raised (XExn TypeError));
   ("kind_key", [(VInt (-2))], Raised (XExn TypeError));
   ("kind_key", [(VFloat (SpecFloat.S754_finite false 6755399441055744 (-52)))], Raised (XExn TypeError));
   ("kind_key", [(VFloat (SpecFloat.S754_zero false))], Raised (XExn TypeError));
   ("kind_key", [(VFloat (SpecFloat.S754_zero true))], Raised (XExn TypeError));
   ("kind_key", [(VFloat (SpecFloat.S754_finite false 6724873095247260 (944)))], Raised (XExn TypeError));
   ("kind_key", [(VStr [97%N;98%N])], Returned (VStr [110%N;111%N;110%N;101%N]));
   ("kind_key", [(VStr [])], Returned (VStr [110%N;111%N;110%N;101%N]));
   ("kind_key", [(VBytes [97%N;98%N])], Returned (VStr [110%N;111%N;110%N;101%N]));
   ("kind_key", [(VBytes [])], Returned (VStr [110%N;111%N;110%N;101%N]));
   ("kind_key", [(VEnum "cases.Colour" "RED" (VStr [48%N]))], Raised (XExn TypeError));
   ("kind_key", [(VEnum "cases.Size" "BIG" (VInt (14)))], Raised (XExn TypeError));
   ("kind_key", [(VEnum "cases.Size" "SMALL" (VInt (1)))], Raised (XExn TypeError));
   ("kind_key", [(VStr [111%N;110%N;101%N;110%N;101%N;115%N;115%N])], Returned (VInt (3)));
   ("kind_key", [(VBytes [111%N;110%N;101%N;110%N;101%N;115%N;115%N])], Returned (VStr [110%N;111%N;110%N;101%N]));
   ("kind_split", [VNone], Raised (XOther "AttributeError"));
   ("kind_split", [(VBool true)], Raised (XOther "AttributeError"));
   ("kind_split", [(VBool false)], Raised (XOther "AttributeError"));
   ("kind_split", [(VInt (0))], Raised (XOther "AttributeError"));
   ("kind_split", [(VInt (3))], Raised (XOther "AttributeError"));
   ("kind_split", [(VInt (-2))], Raised (XOther "AttributeError"));
   ("kind_split", [(VFloat (SpecFloat.S754_finite false 6755399441055744 (-52)))], Raised (XOther "AttributeError"));
   ("kind_split", [(VFloat (SpecFloat.S754_zero false))], Raised (XOther "AttributeError"));
   ("kind_split", [(VFloat (SpecFloat.S754_zero true))], Raised (XOther "AttributeError"));
   ("kind_split", [(VFloat (SpecFloat.S754_finite false 6724873095247260 (944)))], Raised (XOther "AttributeError"));
   ("kind_split", [(VStr [97%N;98%N])], Returned (VList [(VStr [97%N;98%N])]));
   ("kind_split", [(VStr [])], Returned (VList [(VStr [])]));
   ("kind_split", [(VBytes [97%N;98%N])], Raised (XExn TypeError));
   ("kind_split", [(VBytes [])], Raised (XExn TypeError));
   ("kind_split", [(VEnum "cases.Colour" "RED" (VStr [48%N]))], Raised (XOther "AttributeError"));
   ("kind_split", [(VEnum "cases.Size" "BIG" (VInt (14)))], Raised (XOther "AttributeError"));
   ("kind_split", [(VEnum "cases.Size" "SMALL" (VInt (1)))], Raised (XOther "AttributeError"));
   ("kind_fill", [VNone], Raised (XOther "AttributeError"));
   ("kind_fill", [(VBool true)], Raised (XOther "AttributeError"));
   ("kind_fill", [(VBool false)], Raised (XOther "AttributeError"));
   ("kind_fill", [(VInt (0))], Raised (XOther "AttributeError"));
   ("kind_fill", [(VInt (3))], Raised (XOther "AttributeError"));
   ("kind_fill", [(VInt (-2))], Raised (XOther "AttributeError"));
   ("kind_fill", [(VFloat (SpecFloat.S754_finite false 6755399441055744 (-52)))], Raised (XOther "AttributeError"));
   ("kind_fill", [(VFloat (SpecFloat.S754_zero false))], Raised (XOther "AttributeError"));
   ("kind_fill", [(VFloat (SpecFloat.S754_zero true))], Raised (XOther "AttributeError"));
   ("kind_fill", [(VFloat (SpecFloat.S754_finite false 6724873095247260 (944)))], Raised (XOther "AttributeError"));
   ("kind_fill", [(VStr [97%N;98%N])], Returned (VStr [48%N;48%N;97%N;98%N]));
   ("kind_fill", [(VStr [])], Returned (VStr [48%N;48%N;48%N;48%N]));
   ("kind_fill", [(VEnum "cases.Colour" "RED" (VStr [48%N]))], Raised (XOther "AttributeError"));
   ("kind_fill", [(VEnum "cases.Size" "BIG" (VInt (14)))], Raised (XOther "AttributeError"));
   ("kind_fill", [(VEnum "cases.Size" "SMALL" (VInt (1)))], Raised (XOther "AttributeError"));
   ("kind_value", [VNone], Raised (XOther "AttributeError"));
   ("kind_value", [(VBool true)], Raised (XOther "AttributeError"));
   ("kind_value", [(VBool false)], Raised (XOther "AttributeError"));
   ("kind_value", [(VInt (0))], Raised (XOther "AttributeError"));
   ("kind_value", [(VInt (3))], Raised (XOther "AttributeError"));
   ("kind_value", [(VInt (-2))], Raised (XOther "AttributeError"));
   ("kind_value", [(VFloat (SpecFloat.S754_finite false 6755399441055744 (-52)))], Raised (XOther "AttributeError"));
   ("kind_value", [(VFloat (SpecFloat.S754_zero false))], Raised (XOther "AttributeError"));
   ("kind_value", [(VFloat (SpecFloat.S754_zero true))], Raised (XOther "AttributeError"));
   ("kind_value", [(VFloat (SpecFloat.S754_finite false 6724873095247260 (944)))], Raised (XOther "AttributeError"));
   ("kind_value", [(VStr [97%N;98%N])], Raised (XOther "AttributeError"));
   ("kind_value", [(VStr [])], Raised (XOther "AttributeError"));
   ("kind_value", [(VBytes [97%N;98%N])], Raised (XOther "AttributeError"));
   ("kind_value", [(VBytes [])], Raised (XOther "AttributeError"));
   ("kind_value", [(VEnum "cases.Colour" "RED" (VStr [48%N]))], Returned (VStr [48%N]));
   ("kind_value", [(VEnum "cases.Size" "BIG" (VInt (14)))], Returned (VInt (14)));
   ("kind_value", [(VEnum "cases.Size" "SMALL" (VInt (1)))], Returned (VInt (1)));
   ("kind_name", [VNone], Raised (XOther "AttributeError"));
   ("kind_name", [(VBool true)], Raised (XOther "AttributeError"));
   ("kind_name", [(VBool false)], Raised (XOther "AttributeError"));
   ("kind_name", [(VInt (0))], Raised (XOther "AttributeError"));
   ("kind_name", [(VInt (3))], Raised (XOther "AttributeError"));
   ("kind_name", [(VInt (-2))], Raised (XOther "AttributeError"));
   ("kind_name", [(VFloat (SpecFloat.S754_finite false 6755399441055744 (-52)))], Raised (XOther "AttributeError"));
   ("kind_name", [(VFloat (SpecFloat.S754_zero false))], Raised (XOther "AttributeError"));
   ("kind_name", [(VFloat (SpecFloat.S754_zero true))], Raised (XOther "AttributeError"));
   ("kind_name", [(VFloat (SpecFloat.S754_finite false 6724873095247260 (944)))], Raised (XOther "AttributeError"));
   ("kind_name", [(VStr [97%N;98%N])], Raised (XOther "AttributeError"));
   ("kind_name", [(VStr [])], Raised (XOther "AttributeError"));
   ("kind_name", [(VBytes [97%N;98%N])], Raised (XOther "AttributeError"));
   ("kind_name", [(VBytes [])], Raised (XOther "AttributeError"));
   ("kind_name", [(VEnum "cases.Colour" "RED" (VStr [48%N]))], Returned (VStr [82%N;69%N;68%N]));
   ("kind_name", [(VEnum "cases.Size" "BIG" (VInt (14)))], Returned (VStr [66%N;73%N;71%N]));
   ("kind_name", [(VEnum "cases.Size" "SMALL" (VInt (1)))], Returned (VStr [83%N;77%N;65%N;76%N;76%N]));
   ("kind_base", [VNone], Raised (XExn TypeError));
   ("kind_base", [(VBool true)], Raised (XExn TypeError));
   ("kind_base", [(VBool false)], Raised (XExn TypeError));
   ("kind_base", [(VInt (0))], Raised (XExn TypeError));
   ("kind_base", [(VInt (3))], Raised (XExn TypeError));
   ("kind_base", [(VInt (-2))], Raised (XExn TypeError));
   ("kind_base", [(VFloat (SpecFloat.S754_finite false 6755399441055744 (-52)))], Raised (XExn TypeError));
   ("kind_base", [(VFloat (SpecFloat.S754_zero false))], Raised (XExn TypeError));
   ("kind_base", [(VFloat (SpecFloat.S754_zero true))], Raised (XExn TypeError));
   ("kind_base", [(VFloat (SpecFloat.S754_finite false 6724873095247260 (944)))], Raised (XExn TypeError));
   ("kind_base", [(VStr [97%N;98%N])], Returned (VInt (171)));
   ("kind_base", [(VStr [])], Raised (XExn ValueError));
   ("kind_base", [(VEnum "cases.Colour" "RED" (VStr [48%N]))], Raised (XExn TypeError));
   ("kind_base", [(VEnum "cases.Size" "BIG" (VInt (14)))], Raised (XExn TypeError));
   ("kind_base", [(VEnum "cases.Size" "SMALL" (VInt (1)))], Raised (XExn TypeError));
   ("kind_match", [VNone], Raised (XExn TypeError));
   ("kind_match", [(VBool true)], Raised (XExn TypeError));
   ("kind_match", [(VBool false)], Raised (XExn TypeError));
   ("kind_match", [(VInt (0))], Raised (XExn TypeError));
   ("kind_match", [(VInt (3))], Raised (XExn TypeError));
   ("kind_match", [(VInt (-2))], Raised (XExn TypeError));
   ("kind_match", [(VFloat (SpecFloat.S754_finite false 6755399441055744 (-52)))], Raised (XExn TypeError));
   ("kind_match", [(VFloat (SpecFloat.S754_zero false))], Raised (XExn TypeError));
   ("kind_match", [(VFloat (SpecFloat.S754_zero true))], Raised (XExn TypeError));
   ("kind_match", [(VFloat (SpecFloat.S754_finite false 6724873095247260 (944)))], Raised (XExn TypeError));
   ("kind_match", [(VStr [97%N;98%N])], Returned (VStr [110%N;111%N]));
   ("kind_match", [(VStr [])], Returned (VStr [110%N;111%N]));
   ("kind_match", [(VBytes [97%N;98%N])], Raised (XExn TypeError));
   ("kind_match", [(VBytes [])], Raised (XExn TypeError));
   ("kind_match", [(VEnum "cases.Colour" "RED" (VStr [48%N]))], Raised (XExn TypeError));
   ("kind_match", [(VEnum "cases.Size" "BIG" (VInt (14)))], Raised (XExn TypeError));
   ("kind_match", [(VEnum "cases.Size" "SMALL" (VInt (1)))], Raised (XExn TypeError));
   ("kind_prefix", [VNone], Raised (XExn TypeError));
   ("kind_prefix", [(VBool true)], Raised (XExn TypeError));
   ("kind_prefix", [(VBool false)], Raised (XExn TypeError));
   ("kind_prefix", [(VInt (0))], Raised (XExn TypeError));
   ("kind_prefix", [(VInt (3))], Raised (XExn TypeError));
   ("kind_prefix", [(VInt (-2))], Raised (XExn TypeError));
   ("kind_prefix", [(VFloat (SpecFloat.S754_finite false 6755399441055744 (-52)))], Raised (XExn TypeError));
   ("kind_prefix", [(VFloat (SpecFloat.S754_zero false))], Raised (XExn TypeError));
   ("kind_prefix", [(VFloat (SpecFloat.S754_zero true))], Raised (XExn TypeError));
   ("kind_prefix", [(VFloat (SpecFloat.S754_finite false 6724873095247260 (944)))], Raised (XExn TypeError));
   ("kind_prefix", [(VStr [97%N;98%N])], Returned (VStr [110%N;111%N]));
   ("kind_prefix", [(VStr [])], Returned (VStr [110%N;111%N]));
   ("kind_prefix", [(VBytes [97%N;98%N])], Raised (XExn TypeError));
   ("kind_prefix", [(VBytes [])], Raised (XExn TypeError));
   ("kind_prefix", [(VEnum "cases.Colour" "RED" (VStr [48%N]))], Raised (XExn TypeError));
   ("kind_prefix", [(VEnum "cases.Size" "BIG" (VInt (14)))], Raised (XExn TypeError));
   ("kind_prefix", [(VEnum "cases.Size" "SMALL" (VInt (1)))], Raised (XExn TypeError));
   ("kind_minus", [VNone], Raised (XExn TypeError));
   ("kind_minus", [(VBool true)], Returned (VInt (13)));
   ("kind_minus", [(VBool false)], Returned (VInt (14)));
   ("kind_minus", [(VInt (0))], Returned (VInt (14)));
   ("kind_minus", [(VInt (3))], Returned (VInt (11)));
   ("kind_minus", [(VInt (-2))], Returned (VInt (16)));
   ("kind_minus", [(VFloat (SpecFloat.S754_finite false 6755399441055744 (-52)))], Returned (VFloat (SpecFloat.S754_finite false 7036874417766400 (-49))));
   ("kind_minus", [(VFloat (SpecFloat.S754_zero false))], Returned (VFloat (SpecFloat.S754_finite false 7881299347898368 (-49))));
   ("kind_minus", [(VFloat (SpecFloat.S754_zero true))], Returned (VFloat (SpecFloat.S754_finite false 7881299347898368 (-49))));
   ("kind_minus", [(VStr [97%N;98%N])], Raised (XExn TypeError));
   ("kind_minus", [(VStr [])], Raised (XExn TypeError));
   ("kind_minus", [(VBytes [97%N;98%N])], Raised (XExn TypeError));
   ("kind_minus", [(VBytes [])], Raised (XExn TypeError));
   ("kind_minus", [(VEnum "cases.Colour" "RED" (VStr [48%N]))], Raised (XExn TypeError));
   ("kind_minus", [(VEnum "cases.Size" "BIG" (VInt (14)))], Returned (VInt (0)));
   ("kind_minus", [(VEnum "cases.Size" "SMALL" (VInt (1)))], Returned (VInt (13)));
   ("kind_zeros", [VNone], Raised (XExn TypeError));
   ("kind_zeros", [(VBool true)], Returned (VStr [48%N;48%N;48%N;48%N;48%N;48%N;48%N;48%N;48%N;48%N;48%N;48%N;48%N]));
   ("kind_zeros", [(VBool false)], Returned (VStr [48%N;48%N;48%N;48%N;48%N;48%N;48%N;48%N;48%N;48%N;48%N;48%N;48%N;48%N]));
   ("kind_zeros", [(VInt (0))], Returned (VStr [48%N;48%N;48%N;48%N;48%N;48%N;48%N;48%N;48%N;48%N;48%N;48%N;48%N;48%N]));
   ("kind_zeros", [(VInt (3))], Returned (VStr [48%N;48%N;48%N;48%N;48%N;48%N;48%N;48%N;48%N;48%N;48%N]));
   ("kind_zeros", [(VInt (-2))], Returned (VStr [48%N;48%N;48%N;48%N;48%N;48%N;48%N;48%N;48%N;48%N;48%N;48%N;48%N;48%N;48%N;48%N]));
   ("kind_zeros", [(VStr [97%N;98%N])], Raised (XExn TypeError));
   ("kind_zeros", [(VStr [])], Raised (XExn TypeError));
   ("kind_zeros", [(VBytes [97%N;98%N])], Raised (XExn TypeError));
   ("kind_zeros", [(VBytes [])], Raised (XExn TypeError));
   ("kind_zeros", [(VEnum "cases.Colour" "RED" (VStr [48%N]))], Raised (XExn TypeError));
   ("kind_zeros", [(VEnum "cases.Size" "BIG" (VInt (14)))], Returned (VStr []));
   ("kind_zeros", [(VEnum "cases.Size" "SMALL" (VInt (1)))], Returned (VStr [48%N;48%N;48%N;48%N;48%N;48%N;48%N;48%N;48%N;48%N;48%N;48%N;48%N]));
   ("kind_true", [VNone], Returned (VStr [110%N;111%N]));
   ("kind_true", [(VBool true)], Returned (VStr [121%N;101%N;115%N]));
   ("kind_true", [(VBool false)], Returned (VStr [110%N;111%N]));
   ("kind_true", [(VInt (0))], Returned (VStr [110%N;111%N]));
   ("kind_true", [(VInt (3))], Returned (VStr [121%N;101%N;115%N]));
   ("kind_true", [(VInt (-2))], Returned (VStr [121%N;101%N;115%N]));
   ("kind_true", [(VFloat (SpecFloat.S754_finite false 6755399441055744 (-52)))], Returned (VStr [121%N;101%N;115%N]));
   ("kind_true", [(VFloat (SpecFloat.S754_zero false))], Returned (VStr [110%N;111%N]));
   ("kind_true", [(VFloat (SpecFloat.S754_zero true))], Returned (VStr [110%N;111%N]));
   ("kind_true", [(VFloat (SpecFloat.S754_finite false 6724873095247260 (944)))], Returned (VStr [121%N;101%N;115%N]));
   ("kind_true", [(VStr [97%N;98%N])], Returned (VStr [121%N;101%N;115%N]));
   ("kind_true", [(VStr [])], Returned (VStr [110%N;111%N]));
   ("kind_true", [(VBytes [97%N;98%N])], Returned (VStr [121%N;101%N;115%N]));
   ("kind_true", [(VBytes [])], Returned (VStr [110%N;111%N]));
   ("kind_true", [(VEnum "cases.Colour" "RED" (VStr [48%N]))], Returned (VStr [121%N;101%N;115%N]));
   ("kind_true", [(VEnum "cases.Size" "BIG" (VInt (14)))], Returned (VStr [121%N;101%N;115%N]));
   ("kind_true", [(VEnum "cases.Size" "SMALL" (VInt (1)))], Returned (VStr [121%N;101%N;115%N]));
   ("kind_member", [VNone], Returned (VBool false));
   ("kind_member", [(VBool true)], Returned (VBool false));
   ("kind_member", [(VBool false)], Returned (VBool false));
   ("kind_member", [(VInt (0))], Returned (VBool false));
   ("kind_member", [(VInt (3))], Returned (VBool false));
   ("kind_member", [(VInt (-2))], Returned (VBool false));
   ("kind_member", [(VFloat (SpecFloat.S754_finite false 6755399441055744 (-52)))], Returned (VBool false));
   ("kind_member", [(VFloat (SpecFloat.S754_zero false))], Returned (VBool false));
   ("kind_member", [(VFloat (SpecFloat.S754_zero true))], Returned (VBool false));
   ("kind_member", [(VFloat (SpecFloat.S754_finite false 6724873095247260 (944)))], Returned (VBool false));
   ("kind_member", [(VStr [97%N;98%N])], Returned (VBool false));
   ("kind_member", [(VStr [])], Returned (VBool false));
   ("kind_member", [(VBytes [97%N;98%N])], Returned (VBool false));
   ("kind_member", [(VBytes [])], Returned (VBool false));
   ("kind_member", [(VEnum "cases.Colour" "RED" (VStr [48%N]))], Returned (VBool true));
   ("kind_member", [(VEnum "cases.Size" "BIG" (VInt (14)))], Returned (VBool false));
   ("kind_member", [(VEnum "cases.Size" "SMALL" (VInt (1)))], Returned (VBool false));
   ("kind_number", [VNone], Returned (VBool true));
   ("kind_number", [(VBool true)], Returned (VBool true));
   ("kind_number", [(VBool false)], Returned (VBool true));
   ("kind_number", [(VInt (0))], Returned (VBool true));
   ("kind_number", [(VInt (3))], Returned (VBool true));
   ("kind_number", [(VInt (-2))], Returned (VBool true));
   ("kind_number", [(VStr [97%N;98%N])], Returned (VBool true));
   ("kind_number", [(VStr [])], Returned (VBool true));
   ("kind_number", [(VBytes [97%N;98%N])], Returned (VBool true));
   ("kind_number", [(VBytes [])], Returned (VBool true));
   ("kind_number", [(VEnum "cases.Colour" "RED" (VStr [48%N]))], Returned (VBool true));
   ("kind_number", [(VEnum "cases.Size" "BIG" (VInt (14)))], Returned (VBool false));
   ("kind_number", [(VEnum "cases.Size" "SMALL" (VInt (1)))], Returned (VBool true));
   ("kind_text", [VNone], Returned (VStr [78%N;111%N;110%N;101%N]));
   ("kind_text", [(VBool true)], Returned (VStr [84%N;114%N;117%N;101%N]));
   ("kind_text", [(VBool false)], Returned (VStr [70%N;97%N;108%N;115%N;101%N]));
   ("kind_text", [(VInt (0))], Returned (VStr [48%N]));
   ("kind_text", [(VInt (-7))], Returned (VStr [45%N;55%N]));
   ("kind_text", [(VStr [97%N;98%N])], Returned (VStr [97%N;98%N]));
   ("kind_text", [(VStr [])], Returned (VStr []))].

Example machine_as_cpython : filter (fun c => negb (agrees c)) cases = [].
Proof. vm_compute. reflexivity. Qed.
