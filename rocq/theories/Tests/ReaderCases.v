(** Python's own syntax trees of small programs, and what [Model/Reader.v] reads.  Written by tools/reader_cases.py with CPython 3.11.
    [None]: Python refuses the program, or it uses what [Model/Syntax.v] has no tree for. *)
From Coq Require Import String ZArith List.
From Verif.Model Require Import Syntax Reader.
Import ListNotations.
Open Scope string_scope.
Open Scope Z_scope.
Open Scope list_scope.

Definition cases : list (list string * option (list top * functions)) := [
  (["a = 1"],
   Some ([TAssign "a" (EConst (CInt 1))], []));
  (["a = (1)"],
   Some ([TAssign "a" (EConst (CInt 1))], []));
  (["a = 1,"],
   Some ([TAssign "a" (ETuple [(EConst (CInt 1))])], []));
  (["a = 1, 2"],
   Some ([TAssign "a" (ETuple [(EConst (CInt 1)); (EConst (CInt 2))])], []));
  (["a = ()"],
   Some ([TAssign "a" (ETuple [])], []));
  (["a = (1,)"],
   Some ([TAssign "a" (ETuple [(EConst (CInt 1))])], []));
  (["a = [1, 2,]"],
   Some ([TAssign "a" (EList [(EConst (CInt 1)); (EConst (CInt 2))])], []));
  (["a = ["; "    1,"; "    2,  # two"; "]"],
   Some ([TAssign "a" (EList [(EConst (CInt 1)); (EConst (CInt 2))])], []));
  (["a = {}"],
   Some ([TAssign "a" (EDict [])], []));
  (["a = {""k"": 1, ""l"": [2]}"],
   Some ([TAssign "a" (EDict [((EConst (CStr "k")), (EConst (CInt 1))); ((EConst (CStr "l")), (EList [(EConst (CInt 2))]))])], []));
  (["a = {""k"": 1,}"],
   Some ([TAssign "a" (EDict [((EConst (CStr "k")), (EConst (CInt 1)))])], []));
  (["a = - 1 + 2 - 3"],
   Some ([TAssign "a" (EBin OpSub (EBin OpAdd (ENeg (EConst (CInt 1))) (EConst (CInt 2))) (EConst (CInt 3)))], []));
  (["a = b - (c - d)"],
   Some ([TAssign "a" (EBin OpSub (EName "b") (EBin OpSub (EName "c") (EName "d")))], []));
  (["a = -b * c"],
   Some ([TAssign "a" (EBin OpMul (ENeg (EName "b")) (EName "c"))], []));
  (["a = -(b * c)"],
   Some ([TAssign "a" (ENeg (EBin OpMul (EName "b") (EName "c")))], []));
  (["a = b * -c / d % e"],
   Some ([TAssign "a" (EBin OpMod (EBin OpDiv (EBin OpMul (EName "b") (ENeg (EName "c"))) (EName "d")) (EName "e"))], []));
  (["a = not b == c"],
   Some ([TAssign "a" (ENot (ECmp (EName "b") [(CmpEq, (EName "c"))]))], []));
  (["a = not b and not c or d and e"],
   Some ([TAssign "a" (EOr [(EAnd [(ENot (EName "b")); (ENot (EName "c"))]); (EAnd [(EName "d"); (EName "e")])])], []));
  (["a = b or (c or d)"],
   Some ([TAssign "a" (EOr [(EName "b"); (EOr [(EName "c"); (EName "d")])])], []));
  (["a = b and (c and d) and e"],
   Some ([TAssign "a" (EAnd [(EName "b"); (EAnd [(EName "c"); (EName "d")]); (EName "e")])], []));
  (["a = b < c <= d != e"],
   Some ([TAssign "a" (ECmp (EName "b") [(CmpLt, (EName "c")); (CmpLe, (EName "d")); (CmpNe, (EName "e"))])], []));
  (["a = (b < c) < d"],
   Some ([TAssign "a" (ECmp (ECmp (EName "b") [(CmpLt, (EName "c"))]) [(CmpLt, (EName "d"))])], []));
  (["a = b in c"],
   Some ([TAssign "a" (ECmp (EName "b") [(CmpIn, (EName "c"))])], []));
  (["a = b not in c"],
   Some ([TAssign "a" (ECmp (EName "b") [(CmpNotIn, (EName "c"))])], []));
  (["a = not b in c"],
   Some ([TAssign "a" (ENot (ECmp (EName "b") [(CmpIn, (EName "c"))]))], []));
  (["a = b if c else d if e else f"],
   Some ([TAssign "a" (EIf (EName "c") (EName "b") (EIf (EName "e") (EName "d") (EName "f")))], []));
  (["a = (b if c else d) if e else f"],
   Some ([TAssign "a" (EIf (EName "e") (EIf (EName "c") (EName "b") (EName "d")) (EName "f"))], []));
  (["a = b.c.d(e)(f)[g].h"],
   Some ([TAssign "a" (EAttr (EIndex (ECall (ECall (EAttr (EAttr (EName "b") "c") "d") [(EName "e")] None [] None) [(EName "f")] None [] None) (EName "g")) "h")], []));
  (["a = b[1:2]"],
   Some ([TAssign "a" (ESlice (EName "b") (Some (EConst (CInt 1))) (Some (EConst (CInt 2))) None)], []));
  (["a = b[:]"],
   Some ([TAssign "a" (ESlice (EName "b") None None None)], []));
  (["a = b[1:]"],
   Some ([TAssign "a" (ESlice (EName "b") (Some (EConst (CInt 1))) None None)], []));
  (["a = b[:-1]"],
   Some ([TAssign "a" (ESlice (EName "b") None (Some (ENeg (EConst (CInt 1)))) None)], []));
  (["a = b[::2]"],
   Some ([TAssign "a" (ESlice (EName "b") None None (Some (EConst (CInt 2))))], []));
  (["a = b[1:2:3]"],
   Some ([TAssign "a" (ESlice (EName "b") (Some (EConst (CInt 1))) (Some (EConst (CInt 2))) (Some (EConst (CInt 3))))], []));
  (["a = b[1, 2]"],
   Some ([TAssign "a" (EIndex (EName "b") (ETuple [(EConst (CInt 1)); (EConst (CInt 2))]))], []));
  (["a = b(c, *d, e=f, **h)"],
   Some ([TAssign "a" (ECall (EName "b") [(EName "c")] (Some (EName "d")) [("e", (EName "f"))] (Some (EName "h")))], []));
  (["a = b(c=d,)"],
   Some ([TAssign "a" (ECall (EName "b") [] None [("c", (EName "d"))] None)], []));
  (["a = b()"],
   Some ([TAssign "a" (ECall (EName "b") [] None [] None)], []));
  (["a = b(**c)"],
   Some ([TAssign "a" (ECall (EName "b") [] None [] (Some (EName "c")))], []));
  (["a = b(c == d)"],
   Some ([TAssign "a" (ECall (EName "b") [(ECmp (EName "c") [(CmpEq, (EName "d"))])] None [] None)], []));
  (["a = [b for c in d]"],
   Some ([TAssign "a" (EListComp (EName "b") [((TName "c"), (EName "d"), [])])], []));
  (["a = [b for c in d if e if f]"],
   Some ([TAssign "a" (EListComp (EName "b") [((TName "c"), (EName "d"), [(EName "e"); (EName "f")])])], []));
  (["a = [b for c, f in d for e in c]"],
   Some ([TAssign "a" (EListComp (EName "b") [((TTuple [(TName "c"); (TName "f")] None), (EName "d"), []); ((TName "e"), (EName "c"), [])])], []));
  (["a = [b if c else d for e in f or g]"],
   Some ([TAssign "a" (EListComp (EIf (EName "c") (EName "b") (EName "d")) [((TName "e"), (EOr [(EName "f"); (EName "g")]), [])])], []));
  (["a = {b: c for d, e in f}"],
   Some ([TAssign "a" (EDictComp (EName "b") (EName "c") [((TTuple [(TName "d"); (TName "e")] None), (EName "f"), [])])], []));
  (["a = ""b"" ""c"""],
   Some ([TAssign "a" (EConst (CStr "bc"))], []));
  (["a = ""b"" f""c{d}"" ""e"""],
   Some ([TAssign "a" (EJoined [(EConst (CStr "bc")); (EFormat (EName "d") None); (EConst (CStr "e"))])], []));
  (["a = f""b"" f""c"""],
   Some ([TAssign "a" (EJoined [(EConst (CStr "bc"))])], []));
  (["a = f""{a}"""],
   Some ([TAssign "a" (EJoined [(EFormat (EName "a") None)])], []));
  (["a = f""{{{a}}}"""],
   Some ([TAssign "a" (EJoined [(EConst (CStr "{")); (EFormat (EName "a") None); (EConst (CStr "}"))])], []));
  (["a = f""{a}{b}c"""],
   Some ([TAssign "a" (EJoined [(EFormat (EName "a") None); (EFormat (EName "b") None); (EConst (CStr "c"))])], []));
  (["a = f""{a:>3}"""],
   Some ([TAssign "a" (EJoined [(EFormat (EName "a") (Some (EJoined [(EConst (CStr ">3"))])))])], []));
  (["a = f""{a:0{b}d}"""],
   Some ([TAssign "a" (EJoined [(EFormat (EName "a") (Some (EJoined [(EConst (CStr "0")); (EFormat (EName "b") None); (EConst (CStr "d"))])))])], []));
  (["a = f""{a[1:2]:b}"""],
   Some ([TAssign "a" (EJoined [(EFormat (ESlice (EName "a") (Some (EConst (CInt 1))) (Some (EConst (CInt 2))) None) (Some (EJoined [(EConst (CStr "b"))])))])], []));
  (["a = f""{a['x:y']}"""],
   Some ([TAssign "a" (EJoined [(EFormat (EIndex (EName "a") (EConst (CStr "x:y"))) None)])], []));
  (["a = f""{int(a, 16):0{len(a * 4)}b}"""],
   Some ([TAssign "a" (EJoined [(EFormat (ECall (EName "int") [(EName "a"); (EConst (CInt 16))] None [] None) (Some (EJoined [(EConst (CStr "0")); (EFormat (ECall (EName "len") [(EBin OpMul (EName "a") (EConst (CInt 4)))] None [] None) None); (EConst (CStr "b"))])))])], []));
  (["a = f""{a if b else c}"""],
   Some ([TAssign "a" (EJoined [(EFormat (EIf (EName "b") (EName "a") (EName "c")) None)])], []));
  (["a = f""{(a, b)}"""],
   Some ([TAssign "a" (EJoined [(EFormat (ETuple [(EName "a"); (EName "b")]) None)])], []));
  (["a = f""{ {'a': 1}['a'] }"""],
   Some ([TAssign "a" (EJoined [(EFormat (EIndex (EDict [((EConst (CStr "a")), (EConst (CInt 1)))]) (EConst (CStr "a"))) None)])], []));
  (["a = 'it is ""so""'"],
   Some ([TAssign "a" (EConst (CStr "it is ""so"""))], []));
  (["a = ""it is \""so\"""""],
   Some ([TAssign "a" (EConst (CStr "it is ""so"""))], []));
  (["a = ""back \\ slash"""],
   Some ([TAssign "a" (EConst (CStr "back \ slash"))], []));
  (["a = ""\d\.\-"""],
   Some ([TAssign "a" (EConst (CStr "\d\.\-"))], []));
  (["a = """""],
   Some ([TAssign "a" (EConst (CStr ""))], []));
  (["a = """" """""],
   Some ([TAssign "a" (EConst (CStr ""))], []));
  (["a = f"""""],
   Some ([TAssign "a" (EJoined [])], []));
  (["a = """"""three ""quotes"" here"""""""],
   Some ([TAssign "a" (EConst (CStr "three ""quotes"" here"))], []));
  (["a: int = 1"],
   Some ([TAssign "a" (EConst (CInt 1))], []));
  (["a: Dict[str, List[int]]"],
   Some ([], []));
  (["a = None"],
   Some ([TAssign "a" (EConst CNone)], []));
  (["a = True == False"],
   Some ([TAssign "a" (ECmp (EConst CTrue) [(CmpEq, (EConst CFalse))])], []));
  (["a = 1 if b else(2)"],
   Some ([TAssign "a" (EIf (EName "b") (EConst (CInt 1)) (EConst (CInt 2)))], []));
  (["import x"],
   Some ([TImport "x"], []));
  (["import x, y"],
   Some ([TImport "x"; TImport "y"], []));
  (["from x import y"],
   Some ([TFrom "x" ["y"]], []));
  (["from x.y import z"],
   Some ([TFrom "y" ["z"]], []));
  (["from .x import y"],
   Some ([TFrom "x" ["y"]], []));
  (["from x import (y, z)"],
   Some ([TFrom "x" ["y"; "z"]], []));
  (["from x import ("; "    y,"; "    z,"; ")"],
   Some ([TFrom "x" ["y"; "z"]], []));
  (["from __future__ import annotations"],
   Some ([], []));
  (["class A:"; "    pass"],
   Some ([TClass "A" []
    []], []));
  (["class A(B, c.D):"; "    x = 1"; "    y: int = 2"; "    z: str"; ""; "    def f(self): # here"; "        return"; ""; "    @classmethod"; "    def g(cls, x: int = 1, *args, k: int, l=2, **kw) -> ""A"":"; "        """"""text"""""""; "        return cls(x)"; ""; "    class I(E):"; "        p = ""1"""; "        def h(self):"; "            pass"],
   Some ([TClass "A" [(EName "B"); (EAttr (EName "c") "D")]
    [TAssign "x" (EConst (CInt 1));
     TAssign "y" (EConst (CInt 2));
     TFun "f";
     TFun "g";
     TClass "I" [(EName "E")]
      [TAssign "p" (EConst (CStr "1"));
       TFun "h"]]], [("m.A.f", mkFun "m" (Some "m.A") KPlain ["self"] [] None [] None
   [SReturn None]); ("m.A.g", mkFun "m" (Some "m.A") KClass ["cls"; "x"] [("x", (EConst (CInt 1))); ("l", (EConst (CInt 2)))] (Some "args") ["k"; "l"] (Some "kw")
   [SReturn (Some (ECall (EName "cls") [(EName "x")] None [] None))]); ("m.A.I.h", mkFun "m" (Some "m.A.I") KPlain ["self"] [] None [] None
   [SPass])]));
  (["def f(a, b=(1, 2), *, c=3):"; "    x = a"; "    x += 1"; "    x, y = y, x"; "    x, *y = a"; "    (x, *y) = a"; "    ("; "        self.x,"; "        self.y,"; "        *z,"; "    ) = a"; "    self.q = 1"; "    x: int = 2"; "    if a:"; "        pass"; "    elif b:"; "        x = 1"; "    else:"; "        x = 2"; "    if a:"; "        if b:"; "            x = 1"; "    else:"; "        x = 2"; "    for i in a:"; "        continue"; "    for i, j in b, c:"; "        if i:"; "            break"; "    try:"; "        x = int(a)"; "    except ValueError:"; "        raise E(f""no {a}"")"; "    ""text"""; "    f(a)"; "    return a, b"; ""; "# a comment"; "   # another one"; ""],
   Some ([TFun "f"], [("m.f", mkFun "m" None KPlain ["a"; "b"] [("b", (ETuple [(EConst (CInt 1)); (EConst (CInt 2))])); ("c", (EConst (CInt 3)))] None ["c"] None
   [SAssign (TName "x") (EName "a");
    SAug "x" OpAdd (EConst (CInt 1));
    SAssign (TTuple [(TName "x"); (TName "y")] None) (ETuple [(EName "y"); (EName "x")]);
    SAssign (TTuple [(TName "x")] (Some (TName "y"))) (EName "a");
    SAssign (TTuple [(TName "x")] (Some (TName "y"))) (EName "a");
    SAssign (TTuple [(TSelf "x"); (TSelf "y")] (Some (TName "z"))) (EName "a");
    SAssign (TSelf "q") (EConst (CInt 1));
    SAssign (TName "x") (EConst (CInt 2));
    SIf (EName "a")
     [SPass]
     [SIf (EName "b")
       [SAssign (TName "x") (EConst (CInt 1))]
       [SAssign (TName "x") (EConst (CInt 2))]];
    SIf (EName "a")
     [SIf (EName "b")
       [SAssign (TName "x") (EConst (CInt 1))]
       []]
     [SAssign (TName "x") (EConst (CInt 2))];
    SFor (TName "i") (EName "a")
     [SContinue];
    SFor (TTuple [(TName "i"); (TName "j")] None) (ETuple [(EName "b"); (EName "c")])
     [SIf (EName "i")
       [SBreak]
       []];
    STry [SAssign (TName "x") (ECall (EName "int") [(EName "a")] None [] None)] "ValueError"
     [SRaise (ECall (EName "E") [(EJoined [(EConst (CStr "no ")); (EFormat (EName "a") None)])] None [] None)];
    SExpr (ECall (EName "f") [(EName "a")] None [] None);
    SReturn (Some (ETuple [(EName "a"); (EName "b")]))])]));
  (["def f():"; "    (a, b)"; "    return (a"; " + b"; "      )"],
   Some ([TFun "f"], [("m.f", mkFun "m" None KPlain [] [] None [] None
   [SExpr (ETuple [(EName "a"); (EName "b")]);
    SReturn (Some (EBin OpAdd (EName "a") (EName "b")))])]));
  (["def f("; "    a,"; "    b: int"; "):"; ""; "    return a"; ""; "    # end"],
   Some ([TFun "f"], [("m.f", mkFun "m" None KPlain ["a"; "b"] [] None [] None
   [SReturn (Some (EName "a"))])]));
  (["a = 1"],
   Some ([TAssign "a" (EConst (CInt 1))], []));
  (["def f():"; "    return -a ** b"],
   None);
  (["a = lambda: 1"],
   None);
  (["a = b is c"],
   None);
  (["a = b // c"],
   None);
  (["a = {b}"],
   None);
  (["a = (b for c in d)"],
   None);
  (["a = b""c"""],
   None);
  (["a = ""\n"""],
   None);
  (["a = 1.5"],
   None);
  (["a = b = c"],
   None);
  (["a = f""{b!r}"""],
   None);
  (["def f():"; "    while a:"; "        pass"],
   None);
  (["def f():"; "    with a:"; "        pass"],
   None);
  (["def f():"; "    del a"; " a = 1"],
   None);
  (["def f():"; "    a"; "  b"],
   None);
  (["def f():"],
   None);
  (["a = (1"],
   None);
  (["a = 1)"],
   None);
  (["a = ""b"],
   None);
  (["if = 1"],
   None);
  (["class A(B, c.D):"; " def f():"; "   """"""text"""""""; "   (b in """" if 15  >None else None %  True)  # note"; "   self.If =[{},  in_[7]]"],
   Some ([TClass "A" [(EName "B"); (EAttr (EName "c") "D")]
    [TFun "f"]], [("m.A.f", mkFun "m" (Some "m.A") KPlain [] [] None [] None
   [SExpr (EIf (ECmp (EConst (CInt 15)) [(CmpGt, (EConst CNone))]) (ECmp (EName "b") [(CmpIn, (EConst (CStr "")))]) (EBin OpMod (EConst CNone) (EConst CTrue)));
    SAssign (TSelf "If") (EList [(EDict []); (EIndex (EName "in_") (EConst (CInt 7)))])])]));
  (["def f(self, a=cd.b(If=  in_,), x_1=(in_), **kw) -> int:"; "  """"""text"""""""; "  return (None,)  # note"; "  try:"; "    Not, x = ""0-( "", []"; "    if (None)()+{None: True for self, in_ in (10) if (cd)}:"; "        self.If=""c""  # note"; "        self.If = _y.If"; "  except ValueError:"; "    if [a/True]:"; "      b = a.b([None if None else _y for b, self in (27 and self) if ((  None)) for cd, _y in ({""b("": 7 for self in (If) for self in (None)})])"; "    elif ""*"" if """" else True if ""0:-"" and """" else ( 8):"; "      "; "      pass  # note"; "      self, *x = (Not %""-.c*"").If, ""-:)"""; "    try:"; "      -  ""b""- cd(None , ""(a."" , *True,)  # note"; "      return [[None for Not in (None) if (True) for Not, x_1 in (6) if (19)], -in_,]"; "    except E:"; "      cd, x = a, (If, 3, None,)"; "      x_1 += [(_y if None else 12),  ""0""]  # note"],
   Some ([TFun "f"], [("m.f", mkFun "m" None KPlain ["self"; "a"; "x_1"] [("a", (ECall (EAttr (EName "cd") "b") [] None [("If", (EName "in_"))] None)); ("x_1", (EName "in_"))] None [] (Some "kw")
   [SReturn (Some (ETuple [(EConst CNone)]));
    STry [SAssign (TTuple [(TName "Not"); (TName "x")] None) (ETuple [(EConst (CStr "0-( ")); (EList [])]);
      SIf (EBin OpAdd (ECall (EConst CNone) [] None [] None) (EDictComp (EConst CNone) (EConst CTrue) [((TTuple [(TName "self"); (TName "in_")] None), (EConst (CInt 10)), [(EName "cd")])]))
       [SAssign (TSelf "If") (EConst (CStr "c"));
        SAssign (TSelf "If") (EAttr (EName "_y") "If")]
       []] "ValueError"
     [SIf (EList [(EBin OpDiv (EName "a") (EConst CTrue))])
       [SAssign (TName "b") (ECall (EAttr (EName "a") "b") [(EListComp (EIf (EConst CNone) (EConst CNone) (EName "_y")) [((TTuple [(TName "b"); (TName "self")] None), (EAnd [(EConst (CInt 27)); (EName "self")]), [(EConst CNone)]); ((TTuple [(TName "cd"); (TName "_y")] None), (EDictComp (EConst (CStr "b(")) (EConst (CInt 7)) [((TName "self"), (EName "If"), []); ((TName "self"), (EConst CNone), [])]), [])])] None [] None)]
       [SIf (EIf (EConst (CStr "")) (EConst (CStr "*")) (EIf (EAnd [(EConst (CStr "0:-")); (EConst (CStr ""))]) (EConst CTrue) (EConst (CInt 8))))
         [SPass;
          SAssign (TTuple [(TName "self")] (Some (TName "x"))) (ETuple [(EAttr (EBin OpMod (EName "Not") (EConst (CStr "-.c*"))) "If"); (EConst (CStr "-:)"))])]
         []];
      STry [SExpr (EBin OpSub (ENeg (EConst (CStr "b"))) (ECall (EName "cd") [(EConst CNone); (EConst (CStr "(a."))] (Some (EConst CTrue)) [] None));
        SReturn (Some (EList [(EListComp (EConst CNone) [((TName "Not"), (EConst CNone), [(EConst CTrue)]); ((TTuple [(TName "Not"); (TName "x_1")] None), (EConst (CInt 6)), [(EConst (CInt 19))])]); (ENeg (EName "in_"))]))] "E"
       [SAssign (TTuple [(TName "cd"); (TName "x")] None) (ETuple [(EName "a"); (ETuple [(EName "If"); (EConst (CInt 3)); (EConst CNone)])]);
        SAug "x_1" OpAdd (EList [(EIf (EConst CNone) (EName "_y") (EConst (CInt 12))); (EConst (CStr "0"))])]]])]));
  (["class A:"; " def f(*,k,m):"; "   """"""text"""""""; "   for _y, self in (""""-  ""a:(-"" if None and 5 else x_1):  # note"; "    return"; "    a = ((Not.x_1.If if ""(-"" or ""(()"" else [None for b, Not in (""ba.0"") if (None) for If in (""::"")]))[:(20 if True else True) and (a)(_y , x_1=  ""b-)"")]"; "   return Not.a(*not None,  If =  (True if 2 else x_1))"; "   b = ((not 25 if None  -""-"" else None or None) if (True,) else True- ""0)a("" if {} else (22 if ""* :c"" else ""*(ca""))  # note"; " def f(cd: int ,x_1: int ,If ,self=-"""" ,* ,k ,m={21: x_1 for x_1, b in ("".)"") if (a)},):"; "   """"""text"""""""; "   _y += b"; "   return"],
   Some ([TClass "A" []
    [TFun "f";
     TFun "f"]], [("m.A.f", mkFun "m" (Some "m.A") KPlain [] [] None ["k"; "m"] None
   [SFor (TTuple [(TName "_y"); (TName "self")] None) (EIf (EAnd [(EConst CNone); (EConst (CInt 5))]) (EBin OpSub (EConst (CStr "")) (EConst (CStr "a:(-"))) (EName "x_1"))
     [SReturn None;
      SAssign (TName "a") (ESlice (EIf (EOr [(EConst (CStr "(-")); (EConst (CStr "(()"))]) (EAttr (EAttr (EName "Not") "x_1") "If") (EListComp (EConst CNone) [((TTuple [(TName "b"); (TName "Not")] None), (EConst (CStr "ba.0")), [(EConst CNone)]); ((TName "If"), (EConst (CStr "::")), [])])) None (Some (EAnd [(EIf (EConst CTrue) (EConst (CInt 20)) (EConst CTrue)); (ECall (EName "a") [(EName "_y")] None [("x_1", (EConst (CStr "b-)")))] None)])) None)];
    SReturn (Some (ECall (EAttr (EName "Not") "a") [] (Some (ENot (EConst CNone))) [("If", (EIf (EConst (CInt 2)) (EConst CTrue) (EName "x_1")))] None));
    SAssign (TName "b") (EIf (ETuple [(EConst CTrue)]) (EIf (EBin OpSub (EConst CNone) (EConst (CStr "-"))) (ENot (EConst (CInt 25))) (EOr [(EConst CNone); (EConst CNone)])) (EIf (EDict []) (EBin OpSub (EConst CTrue) (EConst (CStr "0)a("))) (EIf (EConst (CStr "* :c")) (EConst (CInt 22)) (EConst (CStr "*(ca")))))]); ("m.A.f", mkFun "m" (Some "m.A") KPlain ["cd"; "x_1"; "If"; "self"] [("self", (ENeg (EConst (CStr "")))); ("m", (EDictComp (EConst (CInt 21)) (EName "x_1") [((TTuple [(TName "x_1"); (TName "b")] None), (EConst (CStr ".)")), [(EName "a")])]))] None ["k"; "m"] None
   [SAug "_y" OpAdd (EName "b");
    SReturn None])]));
  (["def g_2():"; "  x_1 = cd([8 for _y in ("":((("") for in_, cd in (None) if (True)],) and {None: 26 for cd, b in (None)}  /  self[""""]"; "  if in_.Not.If:  # note"; "   self.self=  ([0 for b in (If) for x_1, a in (""("")])[""""/If:[True]:]"; "   return ({None: """" for x_1, cd in (If)} if 23 else {21: None for in_, self in (b) if (""*."")})  # note"; "  else:  # note"; "   for Not in {""("": ""-"" for a, b in (""-0*("")} +[True for b, cd in (True) for x_1, Not in (If)]:"; "    If = {{x_1 :in_,}  : ("""")[""c)""::None],} or (  16)+  _y.a.b"; "    Not = [{True: None for b in (23)} if [_y for a, If in (_y) if (cd) for If in (b) if (in_)] else (""aa b"",) for If in (""*"" or 12 and self or """") if ({("" (*"").in_: f"""" f"":x y"" """" for in_, _y in (None in   None)})]"; "  if a[:""(""] if cd(*True) else a(""*:)b"",None,*True,**None,):"; "    ["".)"" or x_1 for a, _y in (Not.self)]"; "    return"],
   Some ([TFun "g_2"], [("m.g_2", mkFun "m" None KPlain [] [] None [] None
   [SAssign (TName "x_1") (EAnd [(ECall (EName "cd") [(EListComp (EConst (CInt 8)) [((TName "_y"), (EConst (CStr ":(((")), []); ((TTuple [(TName "in_"); (TName "cd")] None), (EConst CNone), [(EConst CTrue)])])] None [] None); (EBin OpDiv (EDictComp (EConst CNone) (EConst (CInt 26)) [((TTuple [(TName "cd"); (TName "b")] None), (EConst CNone), [])]) (EIndex (EName "self") (EConst (CStr ""))))]);
    SIf (EAttr (EAttr (EName "in_") "Not") "If")
     [SAssign (TSelf "self") (ESlice (EListComp (EConst (CInt 0)) [((TName "b"), (EName "If"), []); ((TTuple [(TName "x_1"); (TName "a")] None), (EConst (CStr "(")), [])]) (Some (EBin OpDiv (EConst (CStr "")) (EName "If"))) (Some (EList [(EConst CTrue)])) None);
      SReturn (Some (EIf (EConst (CInt 23)) (EDictComp (EConst CNone) (EConst (CStr "")) [((TTuple [(TName "x_1"); (TName "cd")] None), (EName "If"), [])]) (EDictComp (EConst (CInt 21)) (EConst CNone) [((TTuple [(TName "in_"); (TName "self")] None), (EName "b"), [(EConst (CStr "*."))])])))]
     [SFor (TName "Not") (EBin OpAdd (EDictComp (EConst (CStr "(")) (EConst (CStr "-")) [((TTuple [(TName "a"); (TName "b")] None), (EConst (CStr "-0*(")), [])]) (EListComp (EConst CTrue) [((TTuple [(TName "b"); (TName "cd")] None), (EConst CTrue), []); ((TTuple [(TName "x_1"); (TName "Not")] None), (EName "If"), [])]))
       [SAssign (TName "If") (EOr [(EDict [((EDict [((EName "x_1"), (EName "in_"))]), (ESlice (EConst (CStr "")) (Some (EConst (CStr "c)"))) None (Some (EConst CNone))))]); (EBin OpAdd (EConst (CInt 16)) (EAttr (EAttr (EName "_y") "a") "b"))]);
        SAssign (TName "Not") (EListComp (EIf (EListComp (EName "_y") [((TTuple [(TName "a"); (TName "If")] None), (EName "_y"), [(EName "cd")]); ((TName "If"), (EName "b"), [(EName "in_")])]) (EDictComp (EConst CTrue) (EConst CNone) [((TName "b"), (EConst (CInt 23)), [])]) (ETuple [(EConst (CStr "aa b"))])) [((TName "If"), (EOr [(EConst (CStr "*")); (EAnd [(EConst (CInt 12)); (EName "self")]); (EConst (CStr ""))]), [(EDictComp (EAttr (EConst (CStr " (*")) "in_") (EJoined [(EConst (CStr ":x y"))]) [((TTuple [(TName "in_"); (TName "_y")] None), (ECmp (EConst CNone) [(CmpIn, (EConst CNone))]), [])])])])]];
    SIf (EIf (ECall (EName "cd") [] (Some (EConst CTrue)) [] None) (ESlice (EName "a") None (Some (EConst (CStr "("))) None) (ECall (EName "a") [(EConst (CStr "*:)b")); (EConst CNone)] (Some (EConst CTrue)) [] (Some (EConst CNone))))
     [SExpr (EListComp (EOr [(EConst (CStr ".)")); (EName "x_1")]) [((TTuple [(TName "a"); (TName "_y")] None), (EAttr (EName "Not") "self"), [])]);
      SReturn None]
     []])]));
  (["def g_2():"; "  If = cd[:]"],
   Some ([TFun "g_2"], [("m.g_2", mkFun "m" None KPlain [] [] None [] None
   [SAssign (TName "If") (ESlice (EName "cd") None None None)])]));
  (["def f(x_1 ,self: int ,a ,**kw) -> int:"; "  """"""text"""""""; "  try:"; "      self.If=[None  ,  0,]-  {None: 12 for a in (self)}"; "  except E:"; "      If = ((True if 13 else b), 14==  None, ("""")(""c(:"",*_y,**_y),)  +  (in_._y, 3*  a, f""\.{('**'):{self[1:2]}}"",)  # note"; "      try:  # note"; "          _y += {Not[None:25]:(None if """" else None) ,f"""" f"":{('')}}}"":None and ""b"",}"; "          in_ += Not.Not((True  )  ,If=None not in  True  ,**(15, True, 27,))"; "      except E:  # note"; "          (None-"".00a"")[(True if True else in_)::]"; "          True"; "  return"; "  x_1, x = ( (5)[:]  ), a.x_1(6,None,a=None)"],
   Some ([TFun "f"], [("m.f", mkFun "m" None KPlain ["x_1"; "self"; "a"] [] None [] (Some "kw")
   [STry [SAssign (TSelf "If") (EBin OpSub (EList [(EConst CNone); (EConst (CInt 0))]) (EDictComp (EConst CNone) (EConst (CInt 12)) [((TName "a"), (EName "self"), [])]))] "E"
     [SAssign (TName "If") (EBin OpAdd (ETuple [(EIf (EConst (CInt 13)) (EConst CTrue) (EName "b")); (ECmp (EConst (CInt 14)) [(CmpEq, (EConst CNone))]); (ECall (EConst (CStr "")) [(EConst (CStr "c(:"))] (Some (EName "_y")) [] (Some (EName "_y")))]) (ETuple [(EAttr (EName "in_") "_y"); (EBin OpMul (EConst (CInt 3)) (EName "a")); (EJoined [(EConst (CStr "\.")); (EFormat (EConst (CStr "**")) (Some (EJoined [(EFormat (ESlice (EName "self") (Some (EConst (CInt 1))) (Some (EConst (CInt 2))) None) None)])))])]));
      STry [SAug "_y" OpAdd (EDict [((ESlice (EName "Not") (Some (EConst CNone)) (Some (EConst (CInt 25))) None), (EIf (EConst (CStr "")) (EConst CNone) (EConst CNone))); ((EJoined [(EConst (CStr ":")); (EFormat (EConst (CStr "")) None); (EConst (CStr "}"))]), (EAnd [(EConst CNone); (EConst (CStr "b"))]))]);
        SAug "in_" OpAdd (ECall (EAttr (EName "Not") "Not") [(EConst CTrue)] None [("If", (ECmp (EConst CNone) [(CmpNotIn, (EConst CTrue))]))] (Some (ETuple [(EConst (CInt 15)); (EConst CTrue); (EConst (CInt 27))])))] "E"
       [SExpr (ESlice (EBin OpSub (EConst CNone) (EConst (CStr ".00a"))) (Some (EIf (EConst CTrue) (EConst CTrue) (EName "in_"))) None None);
        SExpr (EConst CTrue)]];
    SReturn None;
    SAssign (TTuple [(TName "x_1"); (TName "x")] None) (ETuple [(ESlice (EConst (CInt 5)) None None None); (ECall (EAttr (EName "a") "x_1") [(EConst (CInt 6)); (EConst CNone)] None [("a", (EConst CNone))] None)])])]));
  (["cd = [Not.self(x_1.self[:]  ,{"" "": True for cd in (None) if (True)}  ,b= (28  )) for If in ((""""*9 if [Not,] else None)) if (not [None for _y in (0)]) for b in (a[(""a"" if True else _y):self._y()])]"],
   Some ([TAssign "cd" (EListComp (ECall (EAttr (EName "Not") "self") [(ESlice (EAttr (EName "x_1") "self") None None None); (EDictComp (EConst (CStr " ")) (EConst CTrue) [((TName "cd"), (EConst CNone), [(EConst CTrue)])])] None [("b", (EConst (CInt 28)))] None) [((TName "If"), (EIf (EList [(EName "Not")]) (EBin OpMul (EConst (CStr "")) (EConst (CInt 9))) (EConst CNone)), [(ENot (EListComp (EConst CNone) [((TName "_y"), (EConst (CInt 0)), [])]))]); ((TName "b"), (ESlice (EName "a") (Some (EIf (EConst CTrue) (EConst (CStr "a")) (EName "_y"))) (Some (ECall (EAttr (EName "self") "_y") [] None [] None)) None), [])])], []));
  (["Not = True"],
   Some ([TAssign "Not" (EConst CTrue)], []));
  (["def g_2(* ,  k ,  m ,  **kw,) -> int:"; "  for in_ in (24)[""""]== None  >=  True:"; "      True"],
   Some ([TFun "g_2"], [("m.g_2", mkFun "m" None KPlain [] [] None ["k"; "m"] (Some "kw")
   [SFor (TName "in_") (ECmp (EIndex (EConst (CInt 24)) (EConst (CStr ""))) [(CmpEq, (EConst CNone)); (CmpGe, (EConst CTrue))])
     [SExpr (EConst CTrue)]])]));
  (["def f(in_: int,Not,cd,self,*rest: int):"; "  if ([21 for a, self in (True) if (11)])[:26]:  # note"; "      b = a(a._y.self)"; "  elif {15: 28 for x_1 in (in_)} + None*26:  # note"; "      for Not in (22, (16, 15, b,), ""***"" or None,):"; "        x: int = [None for Not in ("""") if ("":-*"")]"; "      If, x = x_1.self[:-  a:], (self)[:None:None]"; "  else:  # note"; "      try:  # note"; "       return ((None if True else True))((True, cd, True,),self if None else 16,Not= -  25,b=x_1.a[True:in_:a])"; "       self.x_1=  ([None,] if (in_)[""(b*""::] else ["""" for b in (True)])"; "      except ValueError:  # note"; "       return  # note"; "       {""."":4}   not in  (True, "".)a"", "" -.c"",)"; "  if (None  %  12 if 11  +14 else self -  None):"; "    cd, *x = ( not Not ), f""{('*'):0{cd}b}"" f""x y"" """""; "    x_1, x = a, (True)"; "  else:"; "    if {True: 7 for self, b in (a) if (cd) for x_1, a in (self)} if not None else - ""-*:"":"; "     x_1 = ( {(None ):self.If()}  )"; "    elif self.self[::(""-:."")]:"; "     cd, x = f"""" f""{(True):}\.x y"" ""-"", -19  # note"; "     _y += not """" % _y"; "    self._y=  {(b)[:25:_y]:  [None for a in (True) for self in (None) if (True)],}"],
   Some ([TFun "f"], [("m.f", mkFun "m" None KPlain ["in_"; "Not"; "cd"; "self"] [] (Some "rest") [] None
   [SIf (ESlice (EListComp (EConst (CInt 21)) [((TTuple [(TName "a"); (TName "self")] None), (EConst CTrue), [(EConst (CInt 11))])]) None (Some (EConst (CInt 26))) None)
     [SAssign (TName "b") (ECall (EName "a") [(EAttr (EAttr (EName "a") "_y") "self")] None [] None)]
     [SIf (EBin OpAdd (EDictComp (EConst (CInt 15)) (EConst (CInt 28)) [((TName "x_1"), (EName "in_"), [])]) (EBin OpMul (EConst CNone) (EConst (CInt 26))))
       [SFor (TName "Not") (ETuple [(EConst (CInt 22)); (ETuple [(EConst (CInt 16)); (EConst (CInt 15)); (EName "b")]); (EOr [(EConst (CStr "***")); (EConst CNone)])])
         [SAssign (TName "x") (EListComp (EConst CNone) [((TName "Not"), (EConst (CStr "")), [(EConst (CStr ":-*"))])])];
        SAssign (TTuple [(TName "If"); (TName "x")] None) (ETuple [(ESlice (EAttr (EName "x_1") "self") None (Some (ENeg (EName "a"))) None); (ESlice (EName "self") None (Some (EConst CNone)) (Some (EConst CNone)))])]
       [STry [SReturn (Some (ECall (EIf (EConst CTrue) (EConst CNone) (EConst CTrue)) [(ETuple [(EConst CTrue); (EName "cd"); (EConst CTrue)]); (EIf (EConst CNone) (EName "self") (EConst (CInt 16)))] None [("Not", (ENeg (EConst (CInt 25)))); ("b", (ESlice (EAttr (EName "x_1") "a") (Some (EConst CTrue)) (Some (EName "in_")) (Some (EName "a"))))] None));
          SAssign (TSelf "x_1") (EIf (ESlice (EName "in_") (Some (EConst (CStr "(b*"))) None None) (EList [(EConst CNone)]) (EListComp (EConst (CStr "")) [((TName "b"), (EConst CTrue), [])]))] "ValueError"
         [SReturn None;
          SExpr (ECmp (EDict [((EConst (CStr ".")), (EConst (CInt 4)))]) [(CmpNotIn, (ETuple [(EConst CTrue); (EConst (CStr ".)a")); (EConst (CStr " -.c"))]))])]]];
    SIf (EIf (EBin OpAdd (EConst (CInt 11)) (EConst (CInt 14))) (EBin OpMod (EConst CNone) (EConst (CInt 12))) (EBin OpSub (EName "self") (EConst CNone)))
     [SAssign (TTuple [(TName "cd")] (Some (TName "x"))) (ETuple [(ENot (EName "Not")); (EJoined [(EFormat (EConst (CStr "*")) (Some (EJoined [(EConst (CStr "0")); (EFormat (EName "cd") None); (EConst (CStr "b"))]))); (EConst (CStr "x y"))])]);
      SAssign (TTuple [(TName "x_1"); (TName "x")] None) (ETuple [(EName "a"); (EConst CTrue)])]
     [SIf (EIf (ENot (EConst CNone)) (EDictComp (EConst CTrue) (EConst (CInt 7)) [((TTuple [(TName "self"); (TName "b")] None), (EName "a"), [(EName "cd")]); ((TTuple [(TName "x_1"); (TName "a")] None), (EName "self"), [])]) (ENeg (EConst (CStr "-*:"))))
       [SAssign (TName "x_1") (EDict [((EConst CNone), (ECall (EAttr (EName "self") "If") [] None [] None))])]
       [SIf (ESlice (EAttr (EName "self") "self") None None (Some (EConst (CStr "-:."))))
         [SAssign (TTuple [(TName "cd"); (TName "x")] None) (ETuple [(EJoined [(EFormat (EConst CTrue) (Some (EJoined []))); (EConst (CStr "\.x y-"))]); (ENeg (EConst (CInt 19)))]);
          SAug "_y" OpAdd (ENot (EBin OpMod (EConst (CStr "")) (EName "_y")))]
         []];
      SAssign (TSelf "_y") (EDict [((ESlice (EName "b") None (Some (EConst (CInt 25))) (Some (EName "_y"))), (EListComp (EConst CNone) [((TName "a"), (EConst CTrue), []); ((TName "self"), (EConst CNone), [(EConst CTrue)])]))])]])]));
  (["b = x_1.in_"],
   Some ([TAssign "b" (EAttr (EName "x_1") "in_")], []));
  (["a = -  -  a("".(0b""  ,  *"":a ("",)"],
   Some ([TAssign "a" (ENeg (ENeg (ECall (EName "a") [(EConst (CStr ".(0b"))] (Some (EConst (CStr ":a ("))) [] None)))], []));
  (["def g_2(a,b={Not: None for in_ in (in_)},*,k,m,):"; "  """"""text"""""""; "  If, x = {}, None+  None"],
   Some ([TFun "g_2"], [("m.g_2", mkFun "m" None KPlain ["a"; "b"] [("b", (EDictComp (EName "Not") (EConst CNone) [((TName "in_"), (EName "in_"), [])]))] None ["k"; "m"] None
   [SAssign (TTuple [(TName "If"); (TName "x")] None) (ETuple [(EDict []); (EBin OpAdd (EConst CNone) (EConst CNone))])])]));
  (["def f(Not=Not==True):"; "  """"""text"""""""; "  in_ += {23: True for in_ in ("":a  "") for b, If in (True)}==  ""-"" or True"],
   Some ([TFun "f"], [("m.f", mkFun "m" None KPlain ["Not"] [("Not", (ECmp (EName "Not") [(CmpEq, (EConst CTrue))]))] None [] None
   [SAug "in_" OpAdd (EOr [(ECmp (EDictComp (EConst (CInt 23)) (EConst CTrue) [((TName "in_"), (EConst (CStr ":a  ")), []); ((TTuple [(TName "b"); (TName "If")] None), (EConst CTrue), [])]) [(CmpEq, (EConst (CStr "-")))]); (EConst CTrue)])])]));
  (["def g_2(_y  ,  If  ,  Not  ,  b=None in  None  ,  *rest) -> int:"; "  """"""text"""""""; "  if ({25: True for a, Not in (_y) for x_1, Not in (True)}).b:  # note"; "   if [[None for cd, in_ in (Not) if (True)]]:"; "       "; "       pass"; "   elif ((None if True else If))(**self in  True):"; "       "; "       pass"; "       Not = ([None for in_ in (True) for If, self in (x_1) if (None)])[b(a  , **cd)] %[]"; "   self.self=(  (""*0)"" if 18 else 7))  # note"; "  elif Not[::"":*a0""]:  # note"; "   if (cd.a[Not] if If.cd[self] else {True: 24 for b, self in (None) if (18) for If, b in (Not) if (None)}):"; "     in_ = in_.in_"; "     b += If.b  - "" -c"""; "   elif []:"; "     x: int = {"""":  cd,}"; "     self.a  =not True-6"; "   elif (""*)""  +  12):"; "     If, x = f"":{('b'):}\."" f""{(self):}{(24):>3}{(True)}"", [None for If, _y in (None)]"; "     [a if """" else 14 for If in (-  14) if (-None) for a in (f"""")]"; "   else:"; "     cd, *x = b.x_1[-"":((a""], {}"; "  elif not Not -cd.self(""0)"" ,None ,cd  = If ,If =  True,):  # note"; "   self, x = (-  a, ""*"" if """" else 3, not ""0("",), cd.If[True]"; "   in_ += {("""")[Not]: None for a in (If(4 ,  *_y)) if (( True))}"; "  else:  # note"; "   if [None - True,24 and _y]:"; "     return"; "   elif cd[(x_1)[:]]:"; "     If += [not Not  ,  ["""" for If, a in (None) if (26) for If, b in (True) if (2)]]"; "     "; "     pass  # note"; "  cd += ({}  )"],
   Some ([TFun "g_2"], [("m.g_2", mkFun "m" None KPlain ["_y"; "If"; "Not"; "b"] [("b", (ECmp (EConst CNone) [(CmpIn, (EConst CNone))]))] (Some "rest") [] None
   [SIf (EAttr (EDictComp (EConst (CInt 25)) (EConst CTrue) [((TTuple [(TName "a"); (TName "Not")] None), (EName "_y"), []); ((TTuple [(TName "x_1"); (TName "Not")] None), (EConst CTrue), [])]) "b")
     [SIf (EList [(EListComp (EConst CNone) [((TTuple [(TName "cd"); (TName "in_")] None), (EName "Not"), [(EConst CTrue)])])])
       [SPass]
       [SIf (ECall (EIf (EConst CTrue) (EConst CNone) (EName "If")) [] None [] (Some (ECmp (EName "self") [(CmpIn, (EConst CTrue))])))
         [SPass;
          SAssign (TName "Not") (EBin OpMod (EIndex (EListComp (EConst CNone) [((TName "in_"), (EConst CTrue), []); ((TTuple [(TName "If"); (TName "self")] None), (EName "x_1"), [(EConst CNone)])]) (ECall (EName "b") [(EName "a")] None [] (Some (EName "cd")))) (EList []))]
         []];
      SAssign (TSelf "self") (EIf (EConst (CInt 18)) (EConst (CStr "*0)")) (EConst (CInt 7)))]
     [SIf (ESlice (EName "Not") None None (Some (EConst (CStr ":*a0"))))
       [SIf (EIf (EIndex (EAttr (EName "If") "cd") (EName "self")) (EIndex (EAttr (EName "cd") "a") (EName "Not")) (EDictComp (EConst CTrue) (EConst (CInt 24)) [((TTuple [(TName "b"); (TName "self")] None), (EConst CNone), [(EConst (CInt 18))]); ((TTuple [(TName "If"); (TName "b")] None), (EName "Not"), [(EConst CNone)])]))
         [SAssign (TName "in_") (EAttr (EName "in_") "in_");
          SAug "b" OpAdd (EBin OpSub (EAttr (EName "If") "b") (EConst (CStr " -c")))]
         [SIf (EList [])
           [SAssign (TName "x") (EDict [((EConst (CStr "")), (EName "cd"))]);
            SAssign (TSelf "a") (ENot (EBin OpSub (EConst CTrue) (EConst (CInt 6))))]
           [SIf (EBin OpAdd (EConst (CStr "*)")) (EConst (CInt 12)))
             [SAssign (TTuple [(TName "If"); (TName "x")] None) (ETuple [(EJoined [(EConst (CStr ":")); (EFormat (EConst (CStr "b")) (Some (EJoined []))); (EConst (CStr "\.")); (EFormat (EName "self") (Some (EJoined []))); (EFormat (EConst (CInt 24)) (Some (EJoined [(EConst (CStr ">3"))]))); (EFormat (EConst CTrue) None)]); (EListComp (EConst CNone) [((TTuple [(TName "If"); (TName "_y")] None), (EConst CNone), [])])]);
              SExpr (EListComp (EIf (EConst (CStr "")) (EName "a") (EConst (CInt 14))) [((TName "If"), (ENeg (EConst (CInt 14))), [(ENeg (EConst CNone))]); ((TName "a"), (EJoined []), [])])]
             [SAssign (TTuple [(TName "cd")] (Some (TName "x"))) (ETuple [(EIndex (EAttr (EName "b") "x_1") (ENeg (EConst (CStr ":((a")))); (EDict [])])]]]]
       [SIf (ENot (EBin OpSub (EName "Not") (ECall (EAttr (EName "cd") "self") [(EConst (CStr "0)")); (EConst CNone)] None [("cd", (EName "If")); ("If", (EConst CTrue))] None)))
         [SAssign (TTuple [(TName "self"); (TName "x")] None) (ETuple [(ETuple [(ENeg (EName "a")); (EIf (EConst (CStr "")) (EConst (CStr "*")) (EConst (CInt 3))); (ENot (EConst (CStr "0(")))]); (EIndex (EAttr (EName "cd") "If") (EConst CTrue))]);
          SAug "in_" OpAdd (EDictComp (EIndex (EConst (CStr "")) (EName "Not")) (EConst CNone) [((TName "a"), (ECall (EName "If") [(EConst (CInt 4))] (Some (EName "_y")) [] None), [(EConst CTrue)])])]
         [SIf (EList [(EBin OpSub (EConst CNone) (EConst CTrue)); (EAnd [(EConst (CInt 24)); (EName "_y")])])
           [SReturn None]
           [SIf (EIndex (EName "cd") (ESlice (EName "x_1") None None None))
             [SAug "If" OpAdd (EList [(ENot (EName "Not")); (EListComp (EConst (CStr "")) [((TTuple [(TName "If"); (TName "a")] None), (EConst CNone), [(EConst (CInt 26))]); ((TTuple [(TName "If"); (TName "b")] None), (EConst CTrue), [(EConst (CInt 2))])])]);
              SPass]
             []]]]];
    SAug "cd" OpAdd (EDict [])])]));
  (["class A:"; " def g_2(cd: int,  x_1=5,  *,  k,  m):"; "   return (8 if True else ""(0b"")   in None or None"; "   in_ += (_y -26 if [7 for x_1 in (a) if ("""")] else b)  # note"; "   if _y.a.a:"; "     return [""-("" <True for If, _y in (True if """" else b) for in_, _y in (8 if None else 1) if ([If,  0])]"; "   else:"; "     []  # note"; " @classmethod"; " def f(self=not ""(b"", a=cd if None else None, in_={in_: 23 for self, cd in (None) if (in_)}, *rest) -> int:"; "   """"""text"""""""; "   {(_y if True else True): 16 and None for self, Not in (3<=13) if ((  """"  ))}  # note"],
   Some ([TClass "A" []
    [TFun "g_2";
     TFun "f"]], [("m.A.g_2", mkFun "m" (Some "m.A") KPlain ["cd"; "x_1"] [("x_1", (EConst (CInt 5)))] None ["k"; "m"] None
   [SReturn (Some (EOr [(ECmp (EIf (EConst CTrue) (EConst (CInt 8)) (EConst (CStr "(0b"))) [(CmpIn, (EConst CNone))]); (EConst CNone)]));
    SAug "in_" OpAdd (EIf (EListComp (EConst (CInt 7)) [((TName "x_1"), (EName "a"), [(EConst (CStr ""))])]) (EBin OpSub (EName "_y") (EConst (CInt 26))) (EName "b"));
    SIf (EAttr (EAttr (EName "_y") "a") "a")
     [SReturn (Some (EListComp (ECmp (EConst (CStr "-(")) [(CmpLt, (EConst CTrue))]) [((TTuple [(TName "If"); (TName "_y")] None), (EIf (EConst (CStr "")) (EConst CTrue) (EName "b")), []); ((TTuple [(TName "in_"); (TName "_y")] None), (EIf (EConst CNone) (EConst (CInt 8)) (EConst (CInt 1))), [(EList [(EName "If"); (EConst (CInt 0))])])]))]
     [SExpr (EList [])]]); ("m.A.f", mkFun "m" (Some "m.A") KClass ["self"; "a"; "in_"] [("self", (ENot (EConst (CStr "(b")))); ("a", (EIf (EConst CNone) (EName "cd") (EConst CNone))); ("in_", (EDictComp (EName "in_") (EConst (CInt 23)) [((TTuple [(TName "self"); (TName "cd")] None), (EConst CNone), [(EName "in_")])]))] (Some "rest") [] None
   [SExpr (EDictComp (EIf (EConst CTrue) (EName "_y") (EConst CTrue)) (EAnd [(EConst (CInt 16)); (EConst CNone)]) [((TTuple [(TName "self"); (TName "Not")] None), (ECmp (EConst (CInt 3)) [(CmpLe, (EConst (CInt 13)))]), [(EConst (CStr ""))])])])]));
  (["def f(If=(True if None else None),Not=-True,in_=""""/""ac a"",self=If,):"; "  x_1 = -[x_1[None]]"; "  if _y[None  +None]:"; "   If = ((a, "".("",),)>=(None)"; "  if not None>= None:"; "    self.Not= []"; "  else:"; "    _y = a.If"],
   Some ([TFun "f"], [("m.f", mkFun "m" None KPlain ["If"; "Not"; "in_"; "self"] [("If", (EIf (EConst CNone) (EConst CTrue) (EConst CNone))); ("Not", (ENeg (EConst CTrue))); ("in_", (EBin OpDiv (EConst (CStr "")) (EConst (CStr "ac a")))); ("self", (EName "If"))] None [] None
   [SAssign (TName "x_1") (ENeg (EList [(EIndex (EName "x_1") (EConst CNone))]));
    SIf (EIndex (EName "_y") (EBin OpAdd (EConst CNone) (EConst CNone)))
     [SAssign (TName "If") (ECmp (ETuple [(ETuple [(EName "a"); (EConst (CStr ".("))])]) [(CmpGe, (EConst CNone))])]
     [];
    SIf (ENot (ECmp (EConst CNone) [(CmpGe, (EConst CNone))]))
     [SAssign (TSelf "Not") (EList [])]
     [SAssign (TName "_y") (EAttr (EName "a") "If")]])]));
  (["class A:"; " x = cd.If(Not =[x_1 for x_1 in (19)] ,**22 if None else ""c"")"; " @classmethod"; " def f(b  ,  If  ,  **kw,):"; "   ""text"""],
   Some ([TClass "A" []
    [TAssign "x" (ECall (EAttr (EName "cd") "If") [] None [("Not", (EListComp (EName "x_1") [((TName "x_1"), (EConst (CInt 19)), [])]))] (Some (EIf (EConst CNone) (EConst (CInt 22)) (EConst (CStr "c")))));
     TFun "f"]], [("m.A.f", mkFun "m" (Some "m.A") KClass ["b"; "If"] [] None [] (Some "kw")
   [])]));
  (["class A(B):"; " def f(b=(self )):"; "   """"""text"""""""; "   try:"; "       cd = in_[:(18 and True ):]"; "       -  True if (True, ""(a.*"", 20,) else (1, True,)"; "   except ValueError:"; "       self.cd=  (not "":):c"")[[x_1 for in_, a in (True)]]"; "   self.x_1 =not in_ if 17  -None else [None]  # note"; " y: int"],
   Some ([TClass "A" [(EName "B")]
    [TFun "f"]], [("m.A.f", mkFun "m" (Some "m.A") KPlain ["b"] [("b", (EName "self"))] None [] None
   [STry [SAssign (TName "cd") (ESlice (EName "in_") None (Some (EAnd [(EConst (CInt 18)); (EConst CTrue)])) None);
      SExpr (EIf (ETuple [(EConst CTrue); (EConst (CStr "(a.*")); (EConst (CInt 20))]) (ENeg (EConst CTrue)) (ETuple [(EConst (CInt 1)); (EConst CTrue)]))] "ValueError"
     [SAssign (TSelf "cd") (EIndex (ENot (EConst (CStr ":):c"))) (EListComp (EName "x_1") [((TTuple [(TName "in_"); (TName "a")] None), (EConst CTrue), [])]))];
    SAssign (TSelf "x_1") (EIf (EBin OpSub (EConst (CInt 17)) (EConst CNone)) (ENot (EName "in_")) (EList [(EConst CNone)]))])]));
  (["b = (((20, """",))[("")"" if "" b"" else None)])[{}]"],
   Some ([TAssign "b" (EIndex (EIndex (ETuple [(EConst (CInt 20)); (EConst (CStr ""))]) (EIf (EConst (CStr " b")) (EConst (CStr ")")) (EConst CNone))) (EDict []))], []));
  (["def f(If=_y.a[""0(."":]  ,*rest: int) -> int:"; "  self += ((True, None, ""0"",), [_y ,in_,],)  # note"],
   Some ([TFun "f"], [("m.f", mkFun "m" None KPlain ["If"] [("If", (ESlice (EAttr (EName "_y") "a") (Some (EConst (CStr "0(."))) None None))] (Some "rest") [] None
   [SAug "self" OpAdd (ETuple [(ETuple [(EConst CTrue); (EConst CNone); (EConst (CStr "0"))]); (EList [(EName "_y"); (EName "in_")])])])]));
  (["def g_2(a: int ,cd: int ,x_1={True: 15 for b in (14) if (""-cc"") for If in (None) if (None)},) -> int:"; "  for in_ in (_y._y[""cc0 ""], """" or None, not ""(*c"",):"; "      if """":"; "       return"; "      else:"; "       True"; "  for _y, x_1 in [in_.a for in_ in (2 if 10 else 6) for x_1 in ({29: True for If in (17) if (None)})]:"; "   if {(29)[Not:]:  {20: self for a, self in (6) for Not in (18)},True-cd:  not in_}:"; "    _y, *x = {(x_1)[:2]: (12, True,) for x_1, a in (( 18)) for self in (""""+  1)}, 0 or a"; "   else:"; "    return (not ""ba"" if {Not:20,True:4} else b.a.x_1)  # note"; "    cd = []"; "   self.a= ([""""], [None for x_1, Not in (cd) if (x_1) for a, _y in ("" "") if (True)], not 11,)"],
   Some ([TFun "g_2"], [("m.g_2", mkFun "m" None KPlain ["a"; "cd"; "x_1"] [("x_1", (EDictComp (EConst CTrue) (EConst (CInt 15)) [((TName "b"), (EConst (CInt 14)), [(EConst (CStr "-cc"))]); ((TName "If"), (EConst CNone), [(EConst CNone)])]))] None [] None
   [SFor (TName "in_") (ETuple [(EIndex (EAttr (EName "_y") "_y") (EConst (CStr "cc0 "))); (EOr [(EConst (CStr "")); (EConst CNone)]); (ENot (EConst (CStr "(*c")))])
     [SIf (EConst (CStr ""))
       [SReturn None]
       [SExpr (EConst CTrue)]];
    SFor (TTuple [(TName "_y"); (TName "x_1")] None) (EListComp (EAttr (EName "in_") "a") [((TName "in_"), (EIf (EConst (CInt 10)) (EConst (CInt 2)) (EConst (CInt 6))), []); ((TName "x_1"), (EDictComp (EConst (CInt 29)) (EConst CTrue) [((TName "If"), (EConst (CInt 17)), [(EConst CNone)])]), [])])
     [SIf (EDict [((ESlice (EConst (CInt 29)) (Some (EName "Not")) None None), (EDictComp (EConst (CInt 20)) (EName "self") [((TTuple [(TName "a"); (TName "self")] None), (EConst (CInt 6)), []); ((TName "Not"), (EConst (CInt 18)), [])])); ((EBin OpSub (EConst CTrue) (EName "cd")), (ENot (EName "in_")))])
       [SAssign (TTuple [(TName "_y")] (Some (TName "x"))) (ETuple [(EDictComp (ESlice (EName "x_1") None (Some (EConst (CInt 2))) None) (ETuple [(EConst (CInt 12)); (EConst CTrue)]) [((TTuple [(TName "x_1"); (TName "a")] None), (EConst (CInt 18)), []); ((TName "self"), (EBin OpAdd (EConst (CStr "")) (EConst (CInt 1))), [])]); (EOr [(EConst (CInt 0)); (EName "a")])])]
       [SReturn (Some (EIf (EDict [((EName "Not"), (EConst (CInt 20))); ((EConst CTrue), (EConst (CInt 4)))]) (ENot (EConst (CStr "ba"))) (EAttr (EAttr (EName "b") "a") "x_1")));
        SAssign (TName "cd") (EList [])];
      SAssign (TSelf "a") (ETuple [(EList [(EConst (CStr ""))]); (EListComp (EConst CNone) [((TTuple [(TName "x_1"); (TName "Not")] None), (EName "cd"), [(EName "x_1")]); ((TTuple [(TName "a"); (TName "_y")] None), (EConst (CStr " ")), [(EConst CTrue)])]); (ENot (EConst (CInt 11)))])]])]));
  (["def g_2():"; "  self, *x = b.b.b, None  / """""; "  try:"; "      if ( {None: ""c :"" for cd, _y in (5)}  ):  # note"; "          ""text""  # note"; "          a += _y(**If) if True   in 15 else (12)"; "      elif {}:  # note"; "          x: int = (True).x_1"; "      else:  # note"; "          ((None, a,)).Not"; "          self.b  =(  -If)"; "      return cd.self[None::] or If.If[None]  # note"; "  except ValueError:"; "      for a, self in If:  # note"; "        in_ = (self[::[True]] if [(""ba("", True, None,)  , True  in "" ""] else [a[a],  (True)(""  **"", a= None),])"; "        in_, x = not 18 if None else 27, cd and None"; "      self.Not  ={-x_1:True and None ,  {None:  11  , ""b "": Not,} :[b for a, If in (True) if (a) for b, Not in (None) if (27)]}"; "  if [(3, "":c "",) for Not in (["" ""]) if (b and 16) for x_1, Not in ((  ""0(-"")) if (If)]:  # note"; "    return"; "    If[- 23]  # note"; "  elif _y.cd.x_1:  # note"; "    x: int = ("")c"")[True]"; "  else:  # note"; "    return If.x_1[None]  +26 and True"; "    if Not._y[not in_]:"; "     self.x_1  =  b.b(a or None, [])"; "     return  # note"; "    elif [None  -  ""*ac0"" for a, Not in ((  None)) for If in ({None:a  ,  """" :True})]:"; "     {""  *0"" not in None: [] for a in ({None: x_1 for b in (cd) for in_, cd in (in_) if (True)}) if (a[9])}"; "     self._y=( {If: ""a- "" for _y in (True) if (6) for x_1 in (10)})"],
   Some ([TFun "g_2"], [("m.g_2", mkFun "m" None KPlain [] [] None [] None
   [SAssign (TTuple [(TName "self")] (Some (TName "x"))) (ETuple [(EAttr (EAttr (EName "b") "b") "b"); (EBin OpDiv (EConst CNone) (EConst (CStr "")))]);
    STry [SIf (EDictComp (EConst CNone) (EConst (CStr "c :")) [((TTuple [(TName "cd"); (TName "_y")] None), (EConst (CInt 5)), [])])
       [SAug "a" OpAdd (EIf (ECmp (EConst CTrue) [(CmpIn, (EConst (CInt 15)))]) (ECall (EName "_y") [] None [] (Some (EName "If"))) (EConst (CInt 12)))]
       [SIf (EDict [])
         [SAssign (TName "x") (EAttr (EConst CTrue) "x_1")]
         [SExpr (EAttr (ETuple [(EConst CNone); (EName "a")]) "Not");
          SAssign (TSelf "b") (ENeg (EName "If"))]];
      SReturn (Some (EOr [(ESlice (EAttr (EName "cd") "self") (Some (EConst CNone)) None None); (EIndex (EAttr (EName "If") "If") (EConst CNone))]))] "ValueError"
     [SFor (TTuple [(TName "a"); (TName "self")] None) (EName "If")
       [SAssign (TName "in_") (EIf (EList [(ETuple [(EConst (CStr "ba(")); (EConst CTrue); (EConst CNone)]); (ECmp (EConst CTrue) [(CmpIn, (EConst (CStr " ")))])]) (ESlice (EName "self") None None (Some (EList [(EConst CTrue)]))) (EList [(EIndex (EName "a") (EName "a")); (ECall (EConst CTrue) [(EConst (CStr "  **"))] None [("a", (EConst CNone))] None)]));
        SAssign (TTuple [(TName "in_"); (TName "x")] None) (ETuple [(EIf (EConst CNone) (ENot (EConst (CInt 18))) (EConst (CInt 27))); (EAnd [(EName "cd"); (EConst CNone)])])];
      SAssign (TSelf "Not") (EDict [((ENeg (EName "x_1")), (EAnd [(EConst CTrue); (EConst CNone)])); ((EDict [((EConst CNone), (EConst (CInt 11))); ((EConst (CStr "b ")), (EName "Not"))]), (EListComp (EName "b") [((TTuple [(TName "a"); (TName "If")] None), (EConst CTrue), [(EName "a")]); ((TTuple [(TName "b"); (TName "Not")] None), (EConst CNone), [(EConst (CInt 27))])]))])];
    SIf (EListComp (ETuple [(EConst (CInt 3)); (EConst (CStr ":c "))]) [((TName "Not"), (EList [(EConst (CStr " "))]), [(EAnd [(EName "b"); (EConst (CInt 16))])]); ((TTuple [(TName "x_1"); (TName "Not")] None), (EConst (CStr "0(-")), [(EName "If")])])
     [SReturn None;
      SExpr (EIndex (EName "If") (ENeg (EConst (CInt 23))))]
     [SIf (EAttr (EAttr (EName "_y") "cd") "x_1")
       [SAssign (TName "x") (EIndex (EConst (CStr ")c")) (EConst CTrue))]
       [SReturn (Some (EAnd [(EBin OpAdd (EIndex (EAttr (EName "If") "x_1") (EConst CNone)) (EConst (CInt 26))); (EConst CTrue)]));
        SIf (EIndex (EAttr (EName "Not") "_y") (ENot (EName "in_")))
         [SAssign (TSelf "x_1") (ECall (EAttr (EName "b") "b") [(EOr [(EName "a"); (EConst CNone)]); (EList [])] None [] None);
          SReturn None]
         [SIf (EListComp (EBin OpSub (EConst CNone) (EConst (CStr "*ac0"))) [((TTuple [(TName "a"); (TName "Not")] None), (EConst CNone), []); ((TName "If"), (EDict [((EConst CNone), (EName "a")); ((EConst (CStr "")), (EConst CTrue))]), [])])
           [SExpr (EDictComp (ECmp (EConst (CStr "  *0")) [(CmpNotIn, (EConst CNone))]) (EList []) [((TName "a"), (EDictComp (EConst CNone) (EName "x_1") [((TName "b"), (EName "cd"), []); ((TTuple [(TName "in_"); (TName "cd")] None), (EName "in_"), [(EConst CTrue)])]), [(EIndex (EName "a") (EConst (CInt 9)))])]);
            SAssign (TSelf "_y") (EDictComp (EName "If") (EConst (CStr "a- ")) [((TName "_y"), (EConst CTrue), [(EConst (CInt 6))]); ((TName "x_1"), (EConst (CInt 10)), [])])]
           []]]]])]));
  (["self = ((self.If if {12: None for cd in (22) if (None)} else True),)"],
   Some ([TAssign "self" (ETuple [(EIf (EDictComp (EConst (CInt 12)) (EConst CNone) [((TName "cd"), (EConst (CInt 22)), [(EConst CNone)])]) (EAttr (EName "self") "If") (EConst CTrue))])], []));
  (["self = not (( ""0:""))[(29 if True else True)]"],
   Some ([TAssign "self" (ENot (EIndex (EConst (CStr "0:")) (EIf (EConst CTrue) (EConst (CInt 29)) (EConst CTrue))))], []));
  (["def f(* , k , m=9 +21):"; "  for in_, cd in a.a.self:  # note"; "      if If.in_:"; "       in_ = f"""" f""{('caa' or 'a'):>3}{((None if None else 14)):0{cd}b}}}"""; "      elif [29 + a for If, Not in (cd[None])]:"; "       (None or If)((True, None,), x_1 = True, **26)"; "      else:"; "       -Not  # note"; "  for a in {(12,): cd.Not[10] for b, in_ in (None if None else ""("") if (-_y) for self in (b.cd.self)}:"; "      (None or None,)  # note"; "  -x_1+13"],
   Some ([TFun "f"], [("m.f", mkFun "m" None KPlain [] [("m", (EBin OpAdd (EConst (CInt 9)) (EConst (CInt 21))))] None ["k"; "m"] None
   [SFor (TTuple [(TName "in_"); (TName "cd")] None) (EAttr (EAttr (EName "a") "a") "self")
     [SIf (EAttr (EName "If") "in_")
       [SAssign (TName "in_") (EJoined [(EFormat (EOr [(EConst (CStr "caa")); (EConst (CStr "a"))]) (Some (EJoined [(EConst (CStr ">3"))]))); (EFormat (EIf (EConst CNone) (EConst CNone) (EConst (CInt 14))) (Some (EJoined [(EConst (CStr "0")); (EFormat (EName "cd") None); (EConst (CStr "b"))]))); (EConst (CStr "}"))])]
       [SIf (EListComp (EBin OpAdd (EConst (CInt 29)) (EName "a")) [((TTuple [(TName "If"); (TName "Not")] None), (EIndex (EName "cd") (EConst CNone)), [])])
         [SExpr (ECall (EOr [(EConst CNone); (EName "If")]) [(ETuple [(EConst CTrue); (EConst CNone)])] None [("x_1", (EConst CTrue))] (Some (EConst (CInt 26))))]
         [SExpr (ENeg (EName "Not"))]]];
    SFor (TName "a") (EDictComp (ETuple [(EConst (CInt 12))]) (EIndex (EAttr (EName "cd") "Not") (EConst (CInt 10))) [((TTuple [(TName "b"); (TName "in_")] None), (EIf (EConst CNone) (EConst CNone) (EConst (CStr "("))), [(ENeg (EName "_y"))]); ((TName "self"), (EAttr (EAttr (EName "b") "cd") "self"), [])])
     [SExpr (ETuple [(EOr [(EConst CNone); (EConst CNone)])])];
    SExpr (EBin OpAdd (ENeg (EName "x_1")) (EConst (CInt 13)))])]));
  (["def f(x_1=(Not)(20,*""--""),):"; "  if (not True if -  10 else None  %""""):"; "      Not, x = not not ""bca"", b"; "      if (Not.cd[:"":"":5])[If.b[:""0 *""]]:"; "        b"; "  elif -  6:"; "      if 5  <None -x_1:"; "        b = a"; "      elif None:"; "        _y += -  ( True)"; "      elif a-  If if True else self:"; "        return {-  """":  _y[:27:10]  ,True%  None:  {None: "")""  , ""--""  :  Not}}"; "  elif self.Not[:(None)[None]:]:"; "      if ((True,)).a:"; "          in_ += {}+  [""a"" for b in (15)]  # note"; "      x_1 = 10   in   (None)[::] and f""{(True):0{a}b}"""; "  else:"; "      if (in_.b, True and None,):"; "        pass"; "        cd = (not -True,)"; "      elif ([True for If in (29) for _y in (14)]).x_1:"; "        [None]"; "        self.If  = ((None, cd, True,) )"; "      try:"; "       ""text"""; "      except ValueError:"; "       return"; "       f""{(True)}{(None):}{(5):{self[1:2]}}"" if f""\."" else {""* bc"": """"  ,""0."": ""*c0"",}"; "  in_, x = (self(cd=  None  , If= True))[True], 4 if None else _y"; "  if not {26: """" for If in (True)}:"; "      pass"; "  else:"; "      self.Not = (self(*3,a  =True,b  ="":"",**28,) if not in_ else Not if x_1 else "".:*)"")"; "      self.If=[f"":{(None):0{b}b}"" f""::"" "" (:"" for cd in (-_y)]"],
   Some ([TFun "f"], [("m.f", mkFun "m" None KPlain ["x_1"] [("x_1", (ECall (EName "Not") [(EConst (CInt 20))] (Some (EConst (CStr "--"))) [] None))] None [] None
   [SIf (EIf (ENeg (EConst (CInt 10))) (ENot (EConst CTrue)) (EBin OpMod (EConst CNone) (EConst (CStr ""))))
     [SAssign (TTuple [(TName "Not"); (TName "x")] None) (ETuple [(ENot (ENot (EConst (CStr "bca")))); (EName "b")]);
      SIf (EIndex (ESlice (EAttr (EName "Not") "cd") None (Some (EConst (CStr ":"))) (Some (EConst (CInt 5)))) (ESlice (EAttr (EName "If") "b") None (Some (EConst (CStr "0 *"))) None))
       [SExpr (EName "b")]
       []]
     [SIf (ENeg (EConst (CInt 6)))
       [SIf (ECmp (EConst (CInt 5)) [(CmpLt, (EBin OpSub (EConst CNone) (EName "x_1")))])
         [SAssign (TName "b") (EName "a")]
         [SIf (EConst CNone)
           [SAug "_y" OpAdd (ENeg (EConst CTrue))]
           [SIf (EIf (EConst CTrue) (EBin OpSub (EName "a") (EName "If")) (EName "self"))
             [SReturn (Some (EDict [((ENeg (EConst (CStr ""))), (ESlice (EName "_y") None (Some (EConst (CInt 27))) (Some (EConst (CInt 10))))); ((EBin OpMod (EConst CTrue) (EConst CNone)), (EDict [((EConst CNone), (EConst (CStr ")"))); ((EConst (CStr "--")), (EName "Not"))]))]))]
             []]]]
       [SIf (ESlice (EAttr (EName "self") "Not") None (Some (EIndex (EConst CNone) (EConst CNone))) None)
         [SIf (EAttr (ETuple [(EConst CTrue)]) "a")
           [SAug "in_" OpAdd (EBin OpAdd (EDict []) (EListComp (EConst (CStr "a")) [((TName "b"), (EConst (CInt 15)), [])]))]
           [];
          SAssign (TName "x_1") (EAnd [(ECmp (EConst (CInt 10)) [(CmpIn, (ESlice (EConst CNone) None None None))]); (EJoined [(EFormat (EConst CTrue) (Some (EJoined [(EConst (CStr "0")); (EFormat (EName "a") None); (EConst (CStr "b"))])))])])]
         [SIf (ETuple [(EAttr (EName "in_") "b"); (EAnd [(EConst CTrue); (EConst CNone)])])
           [SPass;
            SAssign (TName "cd") (ETuple [(ENot (ENeg (EConst CTrue)))])]
           [SIf (EAttr (EListComp (EConst CTrue) [((TName "If"), (EConst (CInt 29)), []); ((TName "_y"), (EConst (CInt 14)), [])]) "x_1")
             [SExpr (EList [(EConst CNone)]);
              SAssign (TSelf "If") (ETuple [(EConst CNone); (EName "cd"); (EConst CTrue)])]
             []];
          STry [] "ValueError"
           [SReturn None;
            SExpr (EIf (EJoined [(EConst (CStr "\."))]) (EJoined [(EFormat (EConst CTrue) None); (EFormat (EConst CNone) (Some (EJoined []))); (EFormat (EConst (CInt 5)) (Some (EJoined [(EFormat (ESlice (EName "self") (Some (EConst (CInt 1))) (Some (EConst (CInt 2))) None) None)])))]) (EDict [((EConst (CStr "* bc")), (EConst (CStr ""))); ((EConst (CStr "0.")), (EConst (CStr "*c0")))]))]]]];
    SAssign (TTuple [(TName "in_"); (TName "x")] None) (ETuple [(EIndex (ECall (EName "self") [] None [("cd", (EConst CNone)); ("If", (EConst CTrue))] None) (EConst CTrue)); (EIf (EConst CNone) (EConst (CInt 4)) (EName "_y"))]);
    SIf (ENot (EDictComp (EConst (CInt 26)) (EConst (CStr "")) [((TName "If"), (EConst CTrue), [])]))
     [SPass]
     [SAssign (TSelf "Not") (EIf (ENot (EName "in_")) (ECall (EName "self") [] (Some (EConst (CInt 3))) [("a", (EConst CTrue)); ("b", (EConst (CStr ":")))] (Some (EConst (CInt 28)))) (EIf (EName "x_1") (EName "Not") (EConst (CStr ".:*)"))));
      SAssign (TSelf "If") (EListComp (EJoined [(EConst (CStr ":")); (EFormat (EConst CNone) (Some (EJoined [(EConst (CStr "0")); (EFormat (EName "b") None); (EConst (CStr "b"))]))); (EConst (CStr ":: (:"))]) [((TName "cd"), (ENeg (EName "_y")), [])])]])]));
  (["def f(in_: int,  *rest: int,):"; "  """"""text"""""""; "  cd = {}  # note"; "  try:"; "   If += - self.self"; "  except E:"; "   self.If  =[None if cd else Not for x_1 in (True) if (If[None:""00"":]) for a in (""cbb(""  <  "" 0"") if ([b])]"],
   Some ([TFun "f"], [("m.f", mkFun "m" None KPlain ["in_"] [] (Some "rest") [] None
   [SAssign (TName "cd") (EDict []);
    STry [SAug "If" OpAdd (ENeg (EAttr (EName "self") "self"))] "E"
     [SAssign (TSelf "If") (EListComp (EIf (EName "cd") (EConst CNone) (EName "Not")) [((TName "x_1"), (EConst CTrue), [(ESlice (EName "If") (Some (EConst CNone)) (Some (EConst (CStr "00"))) None)]); ((TName "a"), (ECmp (EConst (CStr "cbb(")) [(CmpLt, (EConst (CStr " 0")))]), [(EList [(EName "b")])])])]])]));
  (["def f(_y ,  x_1: int ,  self: int ,  * ,  k ,  m=a.cd) -> int:"; "  try:"; "      try:"; "          return"; "          - 11 or (True).x_1"; "      except E:"; "          return"; "          return f""{('a:c'):{x_1[1:2]}}"""; "  except ValueError:"; "      If += f"""" f""\."" "":)bc""  # note"; "  if {not True: b(self,x_1,*24,cd  =""b(: "",self=  in_) for a in ({})}:"; "   if {None: None for If, self in (True) for cd in (True) if (""c"")}>=b[:"")a"":]:  # note"; "       x: int = ("""" )  # note"; "       self, *x = Not.If(a= 12,self="" "")  /(None), (17, True, None,)"; "   elif [14 - 17 for a in (self.b(None  ,  _y  =  True)) if ((11, None,))]:  # note"; "       return  # note"; "       cd = [self.in_[in_.in_.x_1:] , b.a]  # note"; "   else:  # note"; "       Not = (_y(""b: "" if True else 15, If  =(  self )),)  # note"; "   cd, *x = _y[(""0"",):f""{(a)}:"" f""x y"" ""*aa"":Not], self(""b0b""  ,self= True)"; "  elif -  ""c"" if True else ""-)"":"; "   return"; "   for b in ( (17, """", None,)  ):  # note"; "    self.cd= {}"; "  elif [None if in_ else True for If, cd in (in_  -5) if ((True if True else True))]:"; "   if {in_.cd: (""c):("",) for If, Not in (None) if (f"""" f"""")}:  # note"; "     self.If= -  {cd:""ac""  ,17 :  True}  # note"; "     cd = self.cd.x_1"; "   elif {in_.cd[x_1:"""":b]:x_1(self ,  a ,  cd = 23,),[None,14,]:_y.If[9]}:  # note"; "     a += {None if None else True  :(None if b else 7),True:  - 19,}"; "     {None:{},  {cd: None for a in (""a)"")} : ""c."" if None else None}"; "   elif {x_1  : self}- Not.b:  # note"; "     b = (b.x_1[24::] if cd.b[3] else (self)[6::]) if _y.cd else (in_>  12).a  # note"; "   (in_.cd[x_1])[:]"],
   Some ([TFun "f"], [("m.f", mkFun "m" None KPlain ["_y"; "x_1"; "self"] [("m", (EAttr (EName "a") "cd"))] None ["k"; "m"] None
   [STry [STry [SReturn None;
        SExpr (EOr [(ENeg (EConst (CInt 11))); (EAttr (EConst CTrue) "x_1")])] "E"
       [SReturn None;
        SReturn (Some (EJoined [(EFormat (EConst (CStr "a:c")) (Some (EJoined [(EFormat (ESlice (EName "x_1") (Some (EConst (CInt 1))) (Some (EConst (CInt 2))) None) None)])))]))]] "ValueError"
     [SAug "If" OpAdd (EJoined [(EConst (CStr "\.:)bc"))])];
    SIf (EDictComp (ENot (EConst CTrue)) (ECall (EName "b") [(EName "self"); (EName "x_1")] (Some (EConst (CInt 24))) [("cd", (EConst (CStr "b(: "))); ("self", (EName "in_"))] None) [((TName "a"), (EDict []), [])])
     [SIf (ECmp (EDictComp (EConst CNone) (EConst CNone) [((TTuple [(TName "If"); (TName "self")] None), (EConst CTrue), []); ((TName "cd"), (EConst CTrue), [(EConst (CStr "c"))])]) [(CmpGe, (ESlice (EName "b") None (Some (EConst (CStr ")a"))) None))])
       [SAssign (TName "x") (EConst (CStr ""));
        SAssign (TTuple [(TName "self")] (Some (TName "x"))) (ETuple [(EBin OpDiv (ECall (EAttr (EName "Not") "If") [] None [("a", (EConst (CInt 12))); ("self", (EConst (CStr " ")))] None) (EConst CNone)); (ETuple [(EConst (CInt 17)); (EConst CTrue); (EConst CNone)])])]
       [SIf (EListComp (EBin OpSub (EConst (CInt 14)) (EConst (CInt 17))) [((TName "a"), (ECall (EAttr (EName "self") "b") [(EConst CNone)] None [("_y", (EConst CTrue))] None), [(ETuple [(EConst (CInt 11)); (EConst CNone)])])])
         [SReturn None;
          SAssign (TName "cd") (EList [(ESlice (EAttr (EName "self") "in_") (Some (EAttr (EAttr (EName "in_") "in_") "x_1")) None None); (EAttr (EName "b") "a")])]
         [SAssign (TName "Not") (ETuple [(ECall (EName "_y") [(EIf (EConst CTrue) (EConst (CStr "b: ")) (EConst (CInt 15)))] None [("If", (EName "self"))] None)])]];
      SAssign (TTuple [(TName "cd")] (Some (TName "x"))) (ETuple [(ESlice (EName "_y") (Some (ETuple [(EConst (CStr "0"))])) (Some (EJoined [(EFormat (EName "a") None); (EConst (CStr ":x y*aa"))])) (Some (EName "Not"))); (ECall (EName "self") [(EConst (CStr "b0b"))] None [("self", (EConst CTrue))] None)])]
     [SIf (EIf (EConst CTrue) (ENeg (EConst (CStr "c"))) (EConst (CStr "-)")))
       [SReturn None;
        SFor (TName "b") (ETuple [(EConst (CInt 17)); (EConst (CStr "")); (EConst CNone)])
         [SAssign (TSelf "cd") (EDict [])]]
       [SIf (EListComp (EIf (EName "in_") (EConst CNone) (EConst CTrue)) [((TTuple [(TName "If"); (TName "cd")] None), (EBin OpSub (EName "in_") (EConst (CInt 5))), [(EIf (EConst CTrue) (EConst CTrue) (EConst CTrue))])])
         [SIf (EDictComp (EAttr (EName "in_") "cd") (ETuple [(EConst (CStr "c):("))]) [((TTuple [(TName "If"); (TName "Not")] None), (EConst CNone), [(EJoined [])])])
           [SAssign (TSelf "If") (ENeg (EDict [((EName "cd"), (EConst (CStr "ac"))); ((EConst (CInt 17)), (EConst CTrue))]));
            SAssign (TName "cd") (EAttr (EAttr (EName "self") "cd") "x_1")]
           [SIf (EDict [((ESlice (EAttr (EName "in_") "cd") (Some (EName "x_1")) (Some (EConst (CStr ""))) (Some (EName "b"))), (ECall (EName "x_1") [(EName "self"); (EName "a")] None [("cd", (EConst (CInt 23)))] None)); ((EList [(EConst CNone); (EConst (CInt 14))]), (EIndex (EAttr (EName "_y") "If") (EConst (CInt 9))))])
             [SAug "a" OpAdd (EDict [((EIf (EConst CNone) (EConst CNone) (EConst CTrue)), (EIf (EName "b") (EConst CNone) (EConst (CInt 7)))); ((EConst CTrue), (ENeg (EConst (CInt 19))))]);
              SExpr (EDict [((EConst CNone), (EDict [])); ((EDictComp (EName "cd") (EConst CNone) [((TName "a"), (EConst (CStr "a)")), [])]), (EIf (EConst CNone) (EConst (CStr "c.")) (EConst CNone)))])]
             [SIf (EBin OpSub (EDict [((EName "x_1"), (EName "self"))]) (EAttr (EName "Not") "b"))
               [SAssign (TName "b") (EIf (EAttr (EName "_y") "cd") (EIf (EIndex (EAttr (EName "cd") "b") (EConst (CInt 3))) (ESlice (EAttr (EName "b") "x_1") (Some (EConst (CInt 24))) None None) (ESlice (EName "self") (Some (EConst (CInt 6))) None None)) (EAttr (ECmp (EName "in_") [(CmpGt, (EConst (CInt 12)))]) "a"))]
               []]];
          SExpr (ESlice (EIndex (EAttr (EName "in_") "cd") (EName "x_1")) None None None)]
         []]]])]));
  (["def f(a=- True,  cd=10  - True,  **kw,) -> int:"; "  self._y =not "".a b""  -  (None)._y"; "  for Not, a in None- f""{(2):0{Not}b}"" f""{(b):}{{x y"":  # note"; "    if ([8] if True*9 else [None for _y, Not in (None) if (b)]):"; "     self += self.b"; "    elif [f""{(4):0{b}b}"" f""}}{{{(28):>3}"" for _y in (-a) if (cd.in_) for x_1, a in (x_1.self[::a]) if ({None  :""("",})]:"; "     in_ += ("""" if Not.a[0] else - True)"],
   Some ([TFun "f"], [("m.f", mkFun "m" None KPlain ["a"; "cd"] [("a", (ENeg (EConst CTrue))); ("cd", (EBin OpSub (EConst (CInt 10)) (EConst CTrue)))] None [] (Some "kw")
   [SAssign (TSelf "_y") (ENot (EBin OpSub (EConst (CStr ".a b")) (EAttr (EConst CNone) "_y")));
    SFor (TTuple [(TName "Not"); (TName "a")] None) (EBin OpSub (EConst CNone) (EJoined [(EFormat (EConst (CInt 2)) (Some (EJoined [(EConst (CStr "0")); (EFormat (EName "Not") None); (EConst (CStr "b"))]))); (EFormat (EName "b") (Some (EJoined []))); (EConst (CStr "{x y"))]))
     [SIf (EIf (EBin OpMul (EConst CTrue) (EConst (CInt 9))) (EList [(EConst (CInt 8))]) (EListComp (EConst CNone) [((TTuple [(TName "_y"); (TName "Not")] None), (EConst CNone), [(EName "b")])]))
       [SAug "self" OpAdd (EAttr (EName "self") "b")]
       [SIf (EListComp (EJoined [(EFormat (EConst (CInt 4)) (Some (EJoined [(EConst (CStr "0")); (EFormat (EName "b") None); (EConst (CStr "b"))]))); (EConst (CStr "}{")); (EFormat (EConst (CInt 28)) (Some (EJoined [(EConst (CStr ">3"))])))]) [((TName "_y"), (ENeg (EName "a")), [(EAttr (EName "cd") "in_")]); ((TTuple [(TName "x_1"); (TName "a")] None), (ESlice (EAttr (EName "x_1") "self") None None (Some (EName "a"))), [(EDict [((EConst CNone), (EConst (CStr "(")))])])])
         [SAug "in_" OpAdd (EIf (EIndex (EAttr (EName "Not") "a") (EConst (CInt 0))) (EConst (CStr "")) (ENeg (EConst CTrue)))]
         []]]])]));
  (["a = f""{(1):>3}"" f"""" if []-(""b "")[:True] else True"],
   Some ([TAssign "a" (EIf (EBin OpSub (EList []) (ESlice (EConst (CStr "b ")) None (Some (EConst CTrue)) None)) (EJoined [(EFormat (EConst (CInt 1)) (Some (EJoined [(EConst (CStr ">3"))])))]) (EConst CTrue))], []));
  (["def g_2(b: int, Not, cd: int, *rest: int):"; "  self.self  = "": a"" + (b)[None]"; "  ""text"""; "  try:"; "    raise f""{(_y):>3}""  # note"; "  except ValueError:"; "    x_1 = [{[None for _y, a in (28) for b in (True)]  :[If ,None]}]"; "    If = not (f""{(True)}x y}}"" f"""" "":"" if b.x_1 else True if None else 8)  # note"],
   Some ([TFun "g_2"], [("m.g_2", mkFun "m" None KPlain ["b"; "Not"; "cd"] [] (Some "rest") [] None
   [SAssign (TSelf "self") (EBin OpAdd (EConst (CStr ": a")) (EIndex (EName "b") (EConst CNone)));
    STry [SRaise (EJoined [(EFormat (EName "_y") (Some (EJoined [(EConst (CStr ">3"))])))])] "ValueError"
     [SAssign (TName "x_1") (EList [(EDict [((EListComp (EConst CNone) [((TTuple [(TName "_y"); (TName "a")] None), (EConst (CInt 28)), []); ((TName "b"), (EConst CTrue), [])]), (EList [(EName "If"); (EConst CNone)]))])]);
      SAssign (TName "If") (ENot (EIf (EAttr (EName "b") "x_1") (EJoined [(EFormat (EConst CTrue) None); (EConst (CStr "x y}:"))]) (EIf (EConst CNone) (EConst CTrue) (EConst (CInt 8)))))]])]));
  (["class A(B, c.D):"; " def f(cd=a,*,k,m):"; "   in_, x = f"""" f""{(2):{b[1:2]}}"", f""\."" ""00"""; "   if []:"; "       cd += not ""ab"" +If  # note"; "       self.self=  (["" c"" for If, x_1 in (self) if (True) for b, self in (None)]  )"; "   elif (True if True else True,):"; "       cd += (True if True else ""ab "")   not in  {14:""""}"; "       b = (_y.x_1[::[True for in_ in (None) if (self)]] if (None  /None if cd._y else [True for cd in (None)]) else {17:True  >=  True, (True)[self]: None if 16 else ""-: )""})"; "   else:"; "       "; "       pass"; "       if - """"   in  2+ """":"; "           a += ((""b"", cd,) )"; "           return"; "       elif 3 if _y else b  +(cd if True else in_):"; "           Not, *x = {}, []"; "           _y = cd[(2 ):] or ((1 ), (17,), [2,in_],)"; "       else:"; "           self.a= self[If.cd(None ,*""0)"" ,_y=""*"")]"; "           raise (True)[(True).in_]"],
   Some ([TClass "A" [(EName "B"); (EAttr (EName "c") "D")]
    [TFun "f"]], [("m.A.f", mkFun "m" (Some "m.A") KPlain ["cd"] [("cd", (EName "a"))] None ["k"; "m"] None
   [SAssign (TTuple [(TName "in_"); (TName "x")] None) (ETuple [(EJoined [(EFormat (EConst (CInt 2)) (Some (EJoined [(EFormat (ESlice (EName "b") (Some (EConst (CInt 1))) (Some (EConst (CInt 2))) None) None)])))]); (EJoined [(EConst (CStr "\.00"))])]);
    SIf (EList [])
     [SAug "cd" OpAdd (ENot (EBin OpAdd (EConst (CStr "ab")) (EName "If")));
      SAssign (TSelf "self") (EListComp (EConst (CStr " c")) [((TTuple [(TName "If"); (TName "x_1")] None), (EName "self"), [(EConst CTrue)]); ((TTuple [(TName "b"); (TName "self")] None), (EConst CNone), [])])]
     [SIf (ETuple [(EIf (EConst CTrue) (EConst CTrue) (EConst CTrue))])
       [SAug "cd" OpAdd (ECmp (EIf (EConst CTrue) (EConst CTrue) (EConst (CStr "ab "))) [(CmpNotIn, (EDict [((EConst (CInt 14)), (EConst (CStr "")))]))]);
        SAssign (TName "b") (EIf (EIf (EAttr (EName "cd") "_y") (EBin OpDiv (EConst CNone) (EConst CNone)) (EListComp (EConst CTrue) [((TName "cd"), (EConst CNone), [])])) (ESlice (EAttr (EName "_y") "x_1") None None (Some (EListComp (EConst CTrue) [((TName "in_"), (EConst CNone), [(EName "self")])]))) (EDict [((EConst (CInt 17)), (ECmp (EConst CTrue) [(CmpGe, (EConst CTrue))])); ((EIndex (EConst CTrue) (EName "self")), (EIf (EConst (CInt 16)) (EConst CNone) (EConst (CStr "-: )"))))]))]
       [SPass;
        SIf (ECmp (ENeg (EConst (CStr ""))) [(CmpIn, (EBin OpAdd (EConst (CInt 2)) (EConst (CStr ""))))])
         [SAug "a" OpAdd (ETuple [(EConst (CStr "b")); (EName "cd")]);
          SReturn None]
         [SIf (EIf (EName "_y") (EConst (CInt 3)) (EBin OpAdd (EName "b") (EIf (EConst CTrue) (EName "cd") (EName "in_"))))
           [SAssign (TTuple [(TName "Not")] (Some (TName "x"))) (ETuple [(EDict []); (EList [])]);
            SAssign (TName "_y") (EOr [(ESlice (EName "cd") (Some (EConst (CInt 2))) None None); (ETuple [(EConst (CInt 1)); (ETuple [(EConst (CInt 17))]); (EList [(EConst (CInt 2)); (EName "in_")])])])]
           [SAssign (TSelf "a") (EIndex (EName "self") (ECall (EAttr (EName "If") "cd") [(EConst CNone)] (Some (EConst (CStr "0)"))) [("_y", (EConst (CStr "*")))] None));
            SRaise (EIndex (EConst CTrue) (EAttr (EConst CTrue) "in_"))]]]]])]));
  (["def f(b  ,_y: int  ,x_1=f"""" "".).b"") -> int:"; "  cd = If< f"""" ""0):0"""],
   Some ([TFun "f"], [("m.f", mkFun "m" None KPlain ["b"; "_y"; "x_1"] [("x_1", (EJoined [(EConst (CStr ".).b"))]))] None [] None
   [SAssign (TName "cd") (ECmp (EName "If") [(CmpLt, (EJoined [(EConst (CStr "0):0"))]))])])]));
  (["def g_2(in_=""c "" or True , self=Not if "" "" else True , *rest: int,) -> int:"; "  """"""text"""""""; "  []  -None-True  # note"; "  Not, x = ({b: 15 for b, If in (True) for b, _y in (None)})[f""\."" f""{(12)}\.}}""], (True,)"; "  if (True).in_ or 12 +  Not:"; "   if {} if (True, 23, None,) else Not   not in  None:  # note"; "       cd, x = ([]).cd, not ""*a-"""; "   elif If.Not(a[:28]  , in_=""ba"" if True else None  , x_1=a(None,  a=  """")):  # note"; "       {(self if True else True): [None  ,  ""b"",] for a in (not 4)}"; "       If = {""(bc"": self.cd for _y in ((in_ if True else True) or {True :_y,2 :"".00""}) if ("" *"" and ""*""!=""b.b "")}"; "   else:  # note"; "       self.b =  cd._y(b  =None- None)"; "       _y, x = True, f""""  # note"; "   (21 if None else b)[not True:"""":not Not]"; "  elif {(True if _y else ""(""): [17 for Not in (True) for Not, cd in (18) if (Not)] for x_1, self in (f""}}{(True):}"" f"""") if (True == x_1) for self in (["""" for cd, b in (True)]) if ((True))}:"; "   self.a  =None and ""(0(*"""; "  elif ( {""00"": "")-"" for If in (Not) if (True) for a in (None)}  ):"; "   pass"; "   21  # note"; "  else:"; "   return"; "   if None:"; "    return None  +Not if If._y(2 , *None , a=15) else True  # note"; "    self = (  ("". c""< True, {22 :If},) )"; "   elif {21: If for in_, Not in (""*)"") if ("""")} if (True if None else None) else x_1+"""":"; "    Not += in_"; "    _y += [""("" for self, b in (""0()b"")]*None"; "   elif f"":{(20):>3}"" f""\.{(If)}"":"; "    pass  # note"; "    b = cd.b([f"""" f"""" for _y, cd in ((x_1)[If]) if ({cd:True,  0 :None})]  ,  f""{(a)}:{(If):0{_y}b}"",)  # note"; "   else:"; "    return cd._y[:(True):]"],
   Some ([TFun "g_2"], [("m.g_2", mkFun "m" None KPlain ["in_"; "self"] [("in_", (EOr [(EConst (CStr "c ")); (EConst CTrue)])); ("self", (EIf (EConst (CStr " ")) (EName "Not") (EConst CTrue)))] (Some "rest") [] None
   [SExpr (EBin OpSub (EBin OpSub (EList []) (EConst CNone)) (EConst CTrue));
    SAssign (TTuple [(TName "Not"); (TName "x")] None) (ETuple [(EIndex (EDictComp (EName "b") (EConst (CInt 15)) [((TTuple [(TName "b"); (TName "If")] None), (EConst CTrue), []); ((TTuple [(TName "b"); (TName "_y")] None), (EConst CNone), [])]) (EJoined [(EConst (CStr "\.")); (EFormat (EConst (CInt 12)) None); (EConst (CStr "\.}"))])); (ETuple [(EConst CTrue)])]);
    SIf (EOr [(EAttr (EConst CTrue) "in_"); (EBin OpAdd (EConst (CInt 12)) (EName "Not"))])
     [SIf (EIf (ETuple [(EConst CTrue); (EConst (CInt 23)); (EConst CNone)]) (EDict []) (ECmp (EName "Not") [(CmpNotIn, (EConst CNone))]))
       [SAssign (TTuple [(TName "cd"); (TName "x")] None) (ETuple [(EAttr (EList []) "cd"); (ENot (EConst (CStr "*a-")))])]
       [SIf (ECall (EAttr (EName "If") "Not") [(ESlice (EName "a") None (Some (EConst (CInt 28))) None)] None [("in_", (EIf (EConst CTrue) (EConst (CStr "ba")) (EConst CNone))); ("x_1", (ECall (EName "a") [(EConst CNone)] None [("a", (EConst (CStr "")))] None))] None)
         [SExpr (EDictComp (EIf (EConst CTrue) (EName "self") (EConst CTrue)) (EList [(EConst CNone); (EConst (CStr "b"))]) [((TName "a"), (ENot (EConst (CInt 4))), [])]);
          SAssign (TName "If") (EDictComp (EConst (CStr "(bc")) (EAttr (EName "self") "cd") [((TName "_y"), (EOr [(EIf (EConst CTrue) (EName "in_") (EConst CTrue)); (EDict [((EConst CTrue), (EName "_y")); ((EConst (CInt 2)), (EConst (CStr ".00")))])]), [(EAnd [(EConst (CStr " *")); (ECmp (EConst (CStr "*")) [(CmpNe, (EConst (CStr "b.b ")))])])])])]
         [SAssign (TSelf "b") (ECall (EAttr (EName "cd") "_y") [] None [("b", (EBin OpSub (EConst CNone) (EConst CNone)))] None);
          SAssign (TTuple [(TName "_y"); (TName "x")] None) (ETuple [(EConst CTrue); (EJoined [])])]];
      SExpr (ESlice (EIf (EConst CNone) (EConst (CInt 21)) (EName "b")) (Some (ENot (EConst CTrue))) (Some (EConst (CStr ""))) (Some (ENot (EName "Not"))))]
     [SIf (EDictComp (EIf (EName "_y") (EConst CTrue) (EConst (CStr "("))) (EListComp (EConst (CInt 17)) [((TName "Not"), (EConst CTrue), []); ((TTuple [(TName "Not"); (TName "cd")] None), (EConst (CInt 18)), [(EName "Not")])]) [((TTuple [(TName "x_1"); (TName "self")] None), (EJoined [(EConst (CStr "}")); (EFormat (EConst CTrue) (Some (EJoined [])))]), [(ECmp (EConst CTrue) [(CmpEq, (EName "x_1"))])]); ((TName "self"), (EListComp (EConst (CStr "")) [((TTuple [(TName "cd"); (TName "b")] None), (EConst CTrue), [])]), [(EConst CTrue)])])
       [SAssign (TSelf "a") (EAnd [(EConst CNone); (EConst (CStr "(0(*"))])]
       [SIf (EDictComp (EConst (CStr "00")) (EConst (CStr ")-")) [((TName "If"), (EName "Not"), [(EConst CTrue)]); ((TName "a"), (EConst CNone), [])])
         [SPass;
          SExpr (EConst (CInt 21))]
         [SReturn None;
          SIf (EConst CNone)
           [SReturn (Some (EIf (ECall (EAttr (EName "If") "_y") [(EConst (CInt 2))] (Some (EConst CNone)) [("a", (EConst (CInt 15)))] None) (EBin OpAdd (EConst CNone) (EName "Not")) (EConst CTrue)));
            SAssign (TName "self") (ETuple [(ECmp (EConst (CStr ". c")) [(CmpLt, (EConst CTrue))]); (EDict [((EConst (CInt 22)), (EName "If"))])])]
           [SIf (EIf (EIf (EConst CNone) (EConst CTrue) (EConst CNone)) (EDictComp (EConst (CInt 21)) (EName "If") [((TTuple [(TName "in_"); (TName "Not")] None), (EConst (CStr "*)")), [(EConst (CStr ""))])]) (EBin OpAdd (EName "x_1") (EConst (CStr ""))))
             [SAug "Not" OpAdd (EName "in_");
              SAug "_y" OpAdd (EBin OpMul (EListComp (EConst (CStr "(")) [((TTuple [(TName "self"); (TName "b")] None), (EConst (CStr "0()b")), [])]) (EConst CNone))]
             [SIf (EJoined [(EConst (CStr ":")); (EFormat (EConst (CInt 20)) (Some (EJoined [(EConst (CStr ">3"))]))); (EConst (CStr "\.")); (EFormat (EName "If") None)])
               [SPass;
                SAssign (TName "b") (ECall (EAttr (EName "cd") "b") [(EListComp (EJoined []) [((TTuple [(TName "_y"); (TName "cd")] None), (EIndex (EName "x_1") (EName "If")), [(EDict [((EName "cd"), (EConst CTrue)); ((EConst (CInt 0)), (EConst CNone))])])]); (EJoined [(EFormat (EName "a") None); (EConst (CStr ":")); (EFormat (EName "If") (Some (EJoined [(EConst (CStr "0")); (EFormat (EName "_y") None); (EConst (CStr "b"))])))])] None [] None)]
               [SReturn (Some (ESlice (EAttr (EName "cd") "_y") None (Some (EConst CTrue)) None))]]]]]]])]));
  (["def g_2(b,*,k,m=cd.self[None]):"; "  b, x = self(not _y), True  +True"; "  x_1, *x = f""{(b):{Not[1:2]}}"" f""::"", self/ True  # note"],
   Some ([TFun "g_2"], [("m.g_2", mkFun "m" None KPlain ["b"] [("m", (EIndex (EAttr (EName "cd") "self") (EConst CNone)))] None ["k"; "m"] None
   [SAssign (TTuple [(TName "b"); (TName "x")] None) (ETuple [(ECall (EName "self") [(ENot (EName "_y"))] None [] None); (EBin OpAdd (EConst CTrue) (EConst CTrue))]);
    SAssign (TTuple [(TName "x_1")] (Some (TName "x"))) (ETuple [(EJoined [(EFormat (EName "b") (Some (EJoined [(EFormat (ESlice (EName "Not") (Some (EConst (CInt 1))) (Some (EConst (CInt 2))) None) None)]))); (EConst (CStr "::"))]); (EBin OpDiv (EName "self") (EConst CTrue))])])]));
  (["class A(B):"; " @classmethod"; " def f(_y,a=(True),cd=not 26,b="""",*rest,k,m) -> int:"; "   if f""{(28):}{('c:')}{(None):}"" f"""" if None+"")))"" else x_1 if b else ""0("":"; "     (Not.b(self, *"")"", self  =None))[::If if True else """"]"; "     if b.If(*[20 for a in (29) if (""("") for If, in_ in (True) if (_y)]):"; "       Not, *x = ""."", (None, _y, cd,)"; "       return in_.x_1(True, None, cd=True,)  not in (True).If"; "   else:"; "     if f""{{{{"" f""{{"" or 24-16:  # note"; "       If = None  +{[None ,None]: None if True else ""c"" for self, in_ in (""a 0"") if ((If)[""ca""])}"; "       _y.self[None::]-(None)[::]"; "     elif []:  # note"; "       self, *x = {[29 for _y in (self) for in_, If in (True) if (None)]: in_ or 11 for Not in (self._y(None ,b = 11,)) if (b + ""0-**"")}, in_.Not[:True:6]"; "       x_1, x = f""{('-a'):}"" f""{{"" "")bcb"" or ""*b"">= b, (x_1 if True else a)"; "     elif True !=  b.b[x_1]:  # note"; "       -  f""x y{(True):>3}"" ""0c0 """; "     else:  # note"; "       return"; "   b += not None/  {None: ""a"" for self in (29) if (True)}"; "   pass  # note"],
   Some ([TClass "A" [(EName "B")]
    [TFun "f"]], [("m.A.f", mkFun "m" (Some "m.A") KClass ["_y"; "a"; "cd"; "b"] [("a", (EConst CTrue)); ("cd", (ENot (EConst (CInt 26)))); ("b", (EConst (CStr "")))] (Some "rest") ["k"; "m"] None
   [SIf (EIf (EBin OpAdd (EConst CNone) (EConst (CStr ")))"))) (EJoined [(EFormat (EConst (CInt 28)) (Some (EJoined []))); (EFormat (EConst (CStr "c:")) None); (EFormat (EConst CNone) (Some (EJoined [])))]) (EIf (EName "b") (EName "x_1") (EConst (CStr "0("))))
     [SExpr (ESlice (ECall (EAttr (EName "Not") "b") [(EName "self")] (Some (EConst (CStr ")"))) [("self", (EConst CNone))] None) None None (Some (EIf (EConst CTrue) (EName "If") (EConst (CStr "")))));
      SIf (ECall (EAttr (EName "b") "If") [] (Some (EListComp (EConst (CInt 20)) [((TName "a"), (EConst (CInt 29)), [(EConst (CStr "("))]); ((TTuple [(TName "If"); (TName "in_")] None), (EConst CTrue), [(EName "_y")])])) [] None)
       [SAssign (TTuple [(TName "Not")] (Some (TName "x"))) (ETuple [(EConst (CStr ".")); (ETuple [(EConst CNone); (EName "_y"); (EName "cd")])]);
        SReturn (Some (ECmp (ECall (EAttr (EName "in_") "x_1") [(EConst CTrue); (EConst CNone)] None [("cd", (EConst CTrue))] None) [(CmpNotIn, (EAttr (EConst CTrue) "If"))]))]
       []]
     [SIf (EOr [(EJoined [(EConst (CStr "{{{"))]); (EBin OpSub (EConst (CInt 24)) (EConst (CInt 16)))])
       [SAssign (TName "If") (EBin OpAdd (EConst CNone) (EDictComp (EList [(EConst CNone); (EConst CNone)]) (EIf (EConst CTrue) (EConst CNone) (EConst (CStr "c"))) [((TTuple [(TName "self"); (TName "in_")] None), (EConst (CStr "a 0")), [(EIndex (EName "If") (EConst (CStr "ca")))])]));
        SExpr (EBin OpSub (ESlice (EAttr (EName "_y") "self") (Some (EConst CNone)) None None) (ESlice (EConst CNone) None None None))]
       [SIf (EList [])
         [SAssign (TTuple [(TName "self")] (Some (TName "x"))) (ETuple [(EDictComp (EListComp (EConst (CInt 29)) [((TName "_y"), (EName "self"), []); ((TTuple [(TName "in_"); (TName "If")] None), (EConst CTrue), [(EConst CNone)])]) (EOr [(EName "in_"); (EConst (CInt 11))]) [((TName "Not"), (ECall (EAttr (EName "self") "_y") [(EConst CNone)] None [("b", (EConst (CInt 11)))] None), [(EBin OpAdd (EName "b") (EConst (CStr "0-**")))])]); (ESlice (EAttr (EName "in_") "Not") None (Some (EConst CTrue)) (Some (EConst (CInt 6))))]);
          SAssign (TTuple [(TName "x_1"); (TName "x")] None) (ETuple [(EOr [(EJoined [(EFormat (EConst (CStr "-a")) (Some (EJoined []))); (EConst (CStr "{)bcb"))]); (ECmp (EConst (CStr "*b")) [(CmpGe, (EName "b"))])]); (EIf (EConst CTrue) (EName "x_1") (EName "a"))])]
         [SIf (ECmp (EConst CTrue) [(CmpNe, (EIndex (EAttr (EName "b") "b") (EName "x_1")))])
           [SExpr (ENeg (EJoined [(EConst (CStr "x y")); (EFormat (EConst CTrue) (Some (EJoined [(EConst (CStr ">3"))]))); (EConst (CStr "0c0 "))]))]
           [SReturn None]]]];
    SAug "b" OpAdd (ENot (EBin OpDiv (EConst CNone) (EDictComp (EConst CNone) (EConst (CStr "a")) [((TName "self"), (EConst (CInt 29)), [(EConst CTrue)])])));
    SPass])]));
  (["def g_2(in_: int,  If: int,  b,  self: int,  *rest,  k,  m) -> int:"; "  if _y:"; "    x_1 = (  (None)[cd.self[:None:]:- True:])"; "  elif f""{(None):>3}"" ""*c"":"; "    if {f""\.{(True):>3}x y"" "" "" : ("""" )}:  # note"; "        If, x = - None  +None, (20  )"; "        self = ({(a)["").)c""]: """"  -None for in_ in ((18).Not) for Not in (None) if ((19))})(""*0a)"",in_  = (""::0a"" if 14 else True)  % {None: 6 for cd in (None) for b in (7)},If  = in_(True if _y else 21,None,*-If,cd= None,in_ =  b if """" else True),)"; "    else:  # note"; "        If = {}"; "  else:"; "    self.self={}"; "  try:"; "   _y = self.in_"; "  except E:"; "   Not += {self: x_1 for x_1 in (None) if (a) for self in (True)}==self"; "  if cd.If(*[cd for a in (None)],):  # note"; "      return (None, If.in_[None::True],)"; "      if in_%  True  >Not+None:"; "          _y.in_[{}::If.b[""ca""]]  # note"; "          x_1.in_.If"],
   Some ([TFun "g_2"], [("m.g_2", mkFun "m" None KPlain ["in_"; "If"; "b"; "self"] [] (Some "rest") ["k"; "m"] None
   [SIf (EName "_y")
     [SAssign (TName "x_1") (ESlice (EConst CNone) (Some (ESlice (EAttr (EName "cd") "self") None (Some (EConst CNone)) None)) (Some (ENeg (EConst CTrue))) None)]
     [SIf (EJoined [(EFormat (EConst CNone) (Some (EJoined [(EConst (CStr ">3"))]))); (EConst (CStr "*c"))])
       [SIf (EDict [((EJoined [(EConst (CStr "\.")); (EFormat (EConst CTrue) (Some (EJoined [(EConst (CStr ">3"))]))); (EConst (CStr "x y "))]), (EConst (CStr "")))])
         [SAssign (TTuple [(TName "If"); (TName "x")] None) (ETuple [(EBin OpAdd (ENeg (EConst CNone)) (EConst CNone)); (EConst (CInt 20))]);
          SAssign (TName "self") (ECall (EDictComp (EIndex (EName "a") (EConst (CStr ").)c"))) (EBin OpSub (EConst (CStr "")) (EConst CNone)) [((TName "in_"), (EAttr (EConst (CInt 18)) "Not"), []); ((TName "Not"), (EConst CNone), [(EConst (CInt 19))])]) [(EConst (CStr "*0a)"))] None [("in_", (EBin OpMod (EIf (EConst (CInt 14)) (EConst (CStr "::0a")) (EConst CTrue)) (EDictComp (EConst CNone) (EConst (CInt 6)) [((TName "cd"), (EConst CNone), []); ((TName "b"), (EConst (CInt 7)), [])]))); ("If", (ECall (EName "in_") [(EIf (EName "_y") (EConst CTrue) (EConst (CInt 21))); (EConst CNone)] (Some (ENeg (EName "If"))) [("cd", (EConst CNone)); ("in_", (EIf (EConst (CStr "")) (EName "b") (EConst CTrue)))] None))] None)]
         [SAssign (TName "If") (EDict [])]]
       [SAssign (TSelf "self") (EDict [])]];
    STry [SAssign (TName "_y") (EAttr (EName "self") "in_")] "E"
     [SAug "Not" OpAdd (ECmp (EDictComp (EName "self") (EName "x_1") [((TName "x_1"), (EConst CNone), [(EName "a")]); ((TName "self"), (EConst CTrue), [])]) [(CmpEq, (EName "self"))])];
    SIf (ECall (EAttr (EName "cd") "If") [] (Some (EListComp (EName "cd") [((TName "a"), (EConst CNone), [])])) [] None)
     [SReturn (Some (ETuple [(EConst CNone); (ESlice (EAttr (EName "If") "in_") (Some (EConst CNone)) None (Some (EConst CTrue)))]));
      SIf (ECmp (EBin OpMod (EName "in_") (EConst CTrue)) [(CmpGt, (EBin OpAdd (EName "Not") (EConst CNone)))])
       [SExpr (ESlice (EAttr (EName "_y") "in_") (Some (EDict [])) None (Some (EIndex (EAttr (EName "If") "b") (EConst (CStr "ca")))));
        SExpr (EAttr (EAttr (EName "x_1") "in_") "If")]
       []]
     []])]));
  (["def g_2(b: int  ,  *rest  ,  **kw,):"; "  "; "  pass"],
   Some ([TFun "g_2"], [("m.g_2", mkFun "m" None KPlain ["b"] [] (Some "rest") [] (Some "kw")
   [SPass])]));
  (["a = (None <= b if x_1.If else _y[True]) and cd"],
   Some ([TAssign "a" (EAnd [(EIf (EAttr (EName "x_1") "If") (ECmp (EConst CNone) [(CmpLe, (EName "b"))]) (EIndex (EName "_y") (EConst CTrue))); (EName "cd")])], []));
  (["class A:"; " def f(self: int ,_y: int ,x_1=(21 ) ,cd=True or True ,* ,k ,m=17 or ""b"",):"; "   ({self: 5 for in_, x_1 in (None) for self, _y in (True)})[:not ""-""]"; "   for x_1 in (self[:in_])[{14: True for a in (0) if (True)}::None and 3]:"; "     10"; "     self._y= f"":{{"" f"""""; "   x: int = ("""")[None]  # note"; " y: int"; " @classmethod"; " def g_2(If,_y=None,):"; "   """"""text"""""""; "   if -If:  # note"; "       in_ = (not "" "" -11, - self if not ""a("" else True  in _y,)"; "       for Not in cd[:""(-"":]  +  (14,):"; "        Not += f""}}"" f""x y"" """""; "        b += ({None: 18 for _y, cd in (None) for cd in (None) if (None)})[(10,)]"; "   elif (  If  %cd ):  # note"; "       b = {a.x_1[- ""aa.0""]: (self.If.b  ) for x_1 in ((3) or (  b)) if ([f""{{{(True):}{(None)}""]) for Not, in_ in (cd and {"" . b"": None for _y, x_1 in (None) if (""a"") for a in (cd)}) if (self)}  # note"; "       Not = (  []  )"; "   else:  # note"; "       self, x = -True or ""0-:("" and cd, None  # note"; "   If += -_y"; "   (_y[a] if cd+None else True if True else True)"],
   Some ([TClass "A" []
    [TFun "f";
     TFun "g_2"]], [("m.A.f", mkFun "m" (Some "m.A") KPlain ["self"; "_y"; "x_1"; "cd"] [("x_1", (EConst (CInt 21))); ("cd", (EOr [(EConst CTrue); (EConst CTrue)])); ("m", (EOr [(EConst (CInt 17)); (EConst (CStr "b"))]))] None ["k"; "m"] None
   [SExpr (ESlice (EDictComp (EName "self") (EConst (CInt 5)) [((TTuple [(TName "in_"); (TName "x_1")] None), (EConst CNone), []); ((TTuple [(TName "self"); (TName "_y")] None), (EConst CTrue), [])]) None (Some (ENot (EConst (CStr "-")))) None);
    SFor (TName "x_1") (ESlice (ESlice (EName "self") None (Some (EName "in_")) None) (Some (EDictComp (EConst (CInt 14)) (EConst CTrue) [((TName "a"), (EConst (CInt 0)), [(EConst CTrue)])])) None (Some (EAnd [(EConst CNone); (EConst (CInt 3))])))
     [SExpr (EConst (CInt 10));
      SAssign (TSelf "_y") (EJoined [(EConst (CStr ":{"))])];
    SAssign (TName "x") (EIndex (EConst (CStr "")) (EConst CNone))]); ("m.A.g_2", mkFun "m" (Some "m.A") KClass ["If"; "_y"] [("_y", (EConst CNone))] None [] None
   [SIf (ENeg (EName "If"))
     [SAssign (TName "in_") (ETuple [(ENot (EBin OpSub (EConst (CStr " ")) (EConst (CInt 11)))); (EIf (ENot (EConst (CStr "a("))) (ENeg (EName "self")) (ECmp (EConst CTrue) [(CmpIn, (EName "_y"))]))]);
      SFor (TName "Not") (EBin OpAdd (ESlice (EName "cd") None (Some (EConst (CStr "(-"))) None) (ETuple [(EConst (CInt 14))]))
       [SAug "Not" OpAdd (EJoined [(EConst (CStr "}x y"))]);
        SAug "b" OpAdd (EIndex (EDictComp (EConst CNone) (EConst (CInt 18)) [((TTuple [(TName "_y"); (TName "cd")] None), (EConst CNone), []); ((TName "cd"), (EConst CNone), [(EConst CNone)])]) (ETuple [(EConst (CInt 10))]))]]
     [SIf (EBin OpMod (EName "If") (EName "cd"))
       [SAssign (TName "b") (EDictComp (EIndex (EAttr (EName "a") "x_1") (ENeg (EConst (CStr "aa.0")))) (EAttr (EAttr (EName "self") "If") "b") [((TName "x_1"), (EOr [(EConst (CInt 3)); (EName "b")]), [(EList [(EJoined [(EConst (CStr "{")); (EFormat (EConst CTrue) (Some (EJoined []))); (EFormat (EConst CNone) None)])])]); ((TTuple [(TName "Not"); (TName "in_")] None), (EAnd [(EName "cd"); (EDictComp (EConst (CStr " . b")) (EConst CNone) [((TTuple [(TName "_y"); (TName "x_1")] None), (EConst CNone), [(EConst (CStr "a"))]); ((TName "a"), (EName "cd"), [])])]), [(EName "self")])]);
        SAssign (TName "Not") (EList [])]
       [SAssign (TTuple [(TName "self"); (TName "x")] None) (ETuple [(EOr [(ENeg (EConst CTrue)); (EAnd [(EConst (CStr "0-:(")); (EName "cd")])]); (EConst CNone)])]];
    SAug "If" OpAdd (ENeg (EName "_y"));
    SExpr (EIf (EBin OpAdd (EName "cd") (EConst CNone)) (EIndex (EName "_y") (EName "a")) (EIf (EConst CTrue) (EConst CTrue) (EConst CTrue)))])]));
  (["Not = self[4 +""(a*""::] or If.self(4  >in_ ,  a =in_[:""*)"":],)"],
   Some ([TAssign "Not" (EOr [(ESlice (EName "self") (Some (EBin OpAdd (EConst (CInt 4)) (EConst (CStr "(a*")))) None None); (ECall (EAttr (EName "If") "self") [(ECmp (EConst (CInt 4)) [(CmpGt, (EName "in_"))])] None [("a", (ESlice (EName "in_") None (Some (EConst (CStr "*)"))) None))] None)])], []));
  (["class A(B):"; " y: int"],
   Some ([TClass "A" [(EName "B")]
    []], []));
  (["def g_2():"; "  """"""text"""""""; "  if [""a c0"" for x_1, self in (_y) for Not in (True) if ("""")] or (""(b"",):  # note"; "    if (None if ""(.)."" else 24 ):"; "     in_ += (3+11 if Not.x_1 else [self for If in (True) for _y in (True)])"; "    elif {x_1(self =None,  If =cd,) :  -  17}:"; "     _y, *x = {[None for in_ in (3) if (4) for a in (22) if (4)]: 14  > 7 for in_, cd in ((""c(:."")) if ([""*"" for x_1 in (True) for in_ in (None) if (None)])}, cd.cd[True::""0""]"; "     pass  # note"; "    else:"; "     Not, *x = [cd+ If,  ""ab(("" or True,], (  _y  )"; "     self += ([None for If in (""0bc"") if (""."") for b in (None) if (True)] if (None)[""bb-""] else {""(b."": ""c"" for cd in (in_) if (None) for in_ in ("""") if (True)})"; "    self.Not=(None+  11)[None  !=""c-.""]  # note"; "  elif ( True+None  ):  # note"; "    cd += not x_1(in_,  "".0"",  *in_,  a= ""0-"",  If = 2,)  # note"; "  else:  # note"; "    x: int = ("""" if True else """")"; "    "; "    pass"; "  Not, x = -24 -in_.Not[None:"" "":], (27, ""a0"",)"],
   Some ([TFun "g_2"], [("m.g_2", mkFun "m" None KPlain [] [] None [] None
   [SIf (EOr [(EListComp (EConst (CStr "a c0")) [((TTuple [(TName "x_1"); (TName "self")] None), (EName "_y"), []); ((TName "Not"), (EConst CTrue), [(EConst (CStr ""))])]); (ETuple [(EConst (CStr "(b"))])])
     [SIf (EIf (EConst (CStr "(.).")) (EConst CNone) (EConst (CInt 24)))
       [SAug "in_" OpAdd (EIf (EAttr (EName "Not") "x_1") (EBin OpAdd (EConst (CInt 3)) (EConst (CInt 11))) (EListComp (EName "self") [((TName "If"), (EConst CTrue), []); ((TName "_y"), (EConst CTrue), [])]))]
       [SIf (EDict [((ECall (EName "x_1") [] None [("self", (EConst CNone)); ("If", (EName "cd"))] None), (ENeg (EConst (CInt 17))))])
         [SAssign (TTuple [(TName "_y")] (Some (TName "x"))) (ETuple [(EDictComp (EListComp (EConst CNone) [((TName "in_"), (EConst (CInt 3)), [(EConst (CInt 4))]); ((TName "a"), (EConst (CInt 22)), [(EConst (CInt 4))])]) (ECmp (EConst (CInt 14)) [(CmpGt, (EConst (CInt 7)))]) [((TTuple [(TName "in_"); (TName "cd")] None), (EConst (CStr "c(:.")), [(EListComp (EConst (CStr "*")) [((TName "x_1"), (EConst CTrue), []); ((TName "in_"), (EConst CNone), [(EConst CNone)])])])]); (ESlice (EAttr (EName "cd") "cd") (Some (EConst CTrue)) None (Some (EConst (CStr "0"))))]);
          SPass]
         [SAssign (TTuple [(TName "Not")] (Some (TName "x"))) (ETuple [(EList [(EBin OpAdd (EName "cd") (EName "If")); (EOr [(EConst (CStr "ab((")); (EConst CTrue)])]); (EName "_y")]);
          SAug "self" OpAdd (EIf (EIndex (EConst CNone) (EConst (CStr "bb-"))) (EListComp (EConst CNone) [((TName "If"), (EConst (CStr "0bc")), [(EConst (CStr "."))]); ((TName "b"), (EConst CNone), [(EConst CTrue)])]) (EDictComp (EConst (CStr "(b.")) (EConst (CStr "c")) [((TName "cd"), (EName "in_"), [(EConst CNone)]); ((TName "in_"), (EConst (CStr "")), [(EConst CTrue)])]))]];
      SAssign (TSelf "Not") (EIndex (EBin OpAdd (EConst CNone) (EConst (CInt 11))) (ECmp (EConst CNone) [(CmpNe, (EConst (CStr "c-.")))]))]
     [SIf (EBin OpAdd (EConst CTrue) (EConst CNone))
       [SAug "cd" OpAdd (ENot (ECall (EName "x_1") [(EName "in_"); (EConst (CStr ".0"))] (Some (EName "in_")) [("a", (EConst (CStr "0-"))); ("If", (EConst (CInt 2)))] None))]
       [SAssign (TName "x") (EIf (EConst CTrue) (EConst (CStr "")) (EConst (CStr "")));
        SPass]];
    SAssign (TTuple [(TName "Not"); (TName "x")] None) (ETuple [(EBin OpSub (ENeg (EConst (CInt 24))) (ESlice (EAttr (EName "in_") "Not") (Some (EConst CNone)) (Some (EConst (CStr " "))) None)); (ETuple [(EConst (CInt 27)); (EConst (CStr "a0"))])])])]));
  (["def f(_y=self(None , *cd , a =  ""0"" , If=  None) ,a=True   in   None ,b=""*"" /  ""*(("" ,cd=f""{(''):0{b}b}{(22):0{cd}b}:"" ""c"" ,*rest ,k ,m,):"; "  "; "  pass  # note"; "  in_, x = ([None,])[True  +cd], f"""" f""{{{('b*'):{_y[1:2]}}"""],
   Some ([TFun "f"], [("m.f", mkFun "m" None KPlain ["_y"; "a"; "b"; "cd"] [("_y", (ECall (EName "self") [(EConst CNone)] (Some (EName "cd")) [("a", (EConst (CStr "0"))); ("If", (EConst CNone))] None)); ("a", (ECmp (EConst CTrue) [(CmpIn, (EConst CNone))])); ("b", (EBin OpDiv (EConst (CStr "*")) (EConst (CStr "*((")))); ("cd", (EJoined [(EFormat (EConst (CStr "")) (Some (EJoined [(EConst (CStr "0")); (EFormat (EName "b") None); (EConst (CStr "b"))]))); (EFormat (EConst (CInt 22)) (Some (EJoined [(EConst (CStr "0")); (EFormat (EName "cd") None); (EConst (CStr "b"))]))); (EConst (CStr ":c"))]))] (Some "rest") ["k"; "m"] None
   [SPass;
    SAssign (TTuple [(TName "in_"); (TName "x")] None) (ETuple [(EIndex (EList [(EConst CNone)]) (EBin OpAdd (EConst CTrue) (EName "cd"))); (EJoined [(EConst (CStr "{")); (EFormat (EConst (CStr "b*")) (Some (EJoined [(EFormat (ESlice (EName "_y") (Some (EConst (CInt 1))) (Some (EConst (CInt 2))) None) None)])))])])])]));
  (["def g_2(in_,a: int,cd,**kw) -> int:"; "  """"""text"""""""; "  10+(b if None else None)"; "  try:"; "   (None if cd else None) !=x_1+None  # note"; "   for _y in "":(*0"" if (""0c**"")[27] else {self :Not,27:  True,}:"; "    return"; "    break"; "  except ValueError:"; "   if None or True if True<1 else x_1 *True:"; "    self.x_1  =not cd[None]  # note"; "   else:"; "    self.cd= (Not.Not[None] if [True for If in (self) for self in (12) if (None)] else (""a("")[_y])"; "  if f""{(''):>3}""-  [x_1 for cd, b in (4) if (True)]:"; "    If, x = [], in_._y(""ab "",)"; "  elif ""a:(*"":"; "    pass  # note"; "    if (- True).If:"; "      raise (None+ 3, If[17], True,)"; "    elif in_.in_[::in_ % None]:"; "      return"; "    else:"; "      self += "")b"""; "      return (not """" if {a: 23 for cd, in_ in (True) if (in_) for in_, If in (""--)"") if (a)} else - self)"; "  elif -{in_: ""*:"" for _y, a in (True) for b in (""-a(:"") if ("""")}:"; "    [cd[None::""(-""]]"; "    in_ += If >= None /  f""{(6):{a[1:2]}}"""; "  else:"; "    for _y in True:"; "      x_1, *x = ([True for a in (True) if (16) for a in (None) if (14)])[:-  Not:], ""-c*("" or None"; "      self.b= not True"; "    _y += ("""" ) if -None else (Not)"],
   Some ([TFun "g_2"], [("m.g_2", mkFun "m" None KPlain ["in_"; "a"; "cd"] [] None [] (Some "kw")
   [SExpr (EBin OpAdd (EConst (CInt 10)) (EIf (EConst CNone) (EName "b") (EConst CNone)));
    STry [SExpr (ECmp (EIf (EName "cd") (EConst CNone) (EConst CNone)) [(CmpNe, (EBin OpAdd (EName "x_1") (EConst CNone)))]);
      SFor (TName "_y") (EIf (EIndex (EConst (CStr "0c**")) (EConst (CInt 27))) (EConst (CStr ":(*0")) (EDict [((EName "self"), (EName "Not")); ((EConst (CInt 27)), (EConst CTrue))]))
       [SReturn None;
        SBreak]] "ValueError"
     [SIf (EIf (ECmp (EConst CTrue) [(CmpLt, (EConst (CInt 1)))]) (EOr [(EConst CNone); (EConst CTrue)]) (EBin OpMul (EName "x_1") (EConst CTrue)))
       [SAssign (TSelf "x_1") (ENot (EIndex (EName "cd") (EConst CNone)))]
       [SAssign (TSelf "cd") (EIf (EListComp (EConst CTrue) [((TName "If"), (EName "self"), []); ((TName "self"), (EConst (CInt 12)), [(EConst CNone)])]) (EIndex (EAttr (EName "Not") "Not") (EConst CNone)) (EIndex (EConst (CStr "a(")) (EName "_y")))]];
    SIf (EBin OpSub (EJoined [(EFormat (EConst (CStr "")) (Some (EJoined [(EConst (CStr ">3"))])))]) (EListComp (EName "x_1") [((TTuple [(TName "cd"); (TName "b")] None), (EConst (CInt 4)), [(EConst CTrue)])]))
     [SAssign (TTuple [(TName "If"); (TName "x")] None) (ETuple [(EList []); (ECall (EAttr (EName "in_") "_y") [(EConst (CStr "ab "))] None [] None)])]
     [SIf (EConst (CStr "a:(*"))
       [SPass;
        SIf (EAttr (ENeg (EConst CTrue)) "If")
         [SRaise (ETuple [(EBin OpAdd (EConst CNone) (EConst (CInt 3))); (EIndex (EName "If") (EConst (CInt 17))); (EConst CTrue)])]
         [SIf (ESlice (EAttr (EName "in_") "in_") None None (Some (EBin OpMod (EName "in_") (EConst CNone))))
           [SReturn None]
           [SAug "self" OpAdd (EConst (CStr ")b"));
            SReturn (Some (EIf (EDictComp (EName "a") (EConst (CInt 23)) [((TTuple [(TName "cd"); (TName "in_")] None), (EConst CTrue), [(EName "in_")]); ((TTuple [(TName "in_"); (TName "If")] None), (EConst (CStr "--)")), [(EName "a")])]) (ENot (EConst (CStr ""))) (ENeg (EName "self"))))]]]
       [SIf (ENeg (EDictComp (EName "in_") (EConst (CStr "*:")) [((TTuple [(TName "_y"); (TName "a")] None), (EConst CTrue), []); ((TName "b"), (EConst (CStr "-a(:")), [(EConst (CStr ""))])]))
         [SExpr (EList [(ESlice (EName "cd") (Some (EConst CNone)) None (Some (EConst (CStr "(-"))))]);
          SAug "in_" OpAdd (ECmp (EName "If") [(CmpGe, (EBin OpDiv (EConst CNone) (EJoined [(EFormat (EConst (CInt 6)) (Some (EJoined [(EFormat (ESlice (EName "a") (Some (EConst (CInt 1))) (Some (EConst (CInt 2))) None) None)])))])))])]
         [SFor (TName "_y") (EConst CTrue)
           [SAssign (TTuple [(TName "x_1")] (Some (TName "x"))) (ETuple [(ESlice (EListComp (EConst CTrue) [((TName "a"), (EConst CTrue), [(EConst (CInt 16))]); ((TName "a"), (EConst CNone), [(EConst (CInt 14))])]) None (Some (ENeg (EName "Not"))) None); (EOr [(EConst (CStr "-c*(")); (EConst CNone)])]);
            SAssign (TSelf "b") (ENot (EConst CTrue))];
          SAug "_y" OpAdd (EIf (ENeg (EConst CNone)) (EConst (CStr "")) (EName "Not"))]]]])]));
  (["If = not cd.in_(3,  True,  cd= If,  If=True,  **""**"") or (( True) if (""a-*("", 12, 9,) else (None, 14, True,))"],
   Some ([TAssign "If" (EOr [(ENot (ECall (EAttr (EName "cd") "in_") [(EConst (CInt 3)); (EConst CTrue)] None [("cd", (EName "If")); ("If", (EConst CTrue))] (Some (EConst (CStr "**"))))); (EIf (ETuple [(EConst (CStr "a-*(")); (EConst (CInt 12)); (EConst (CInt 9))]) (EConst CTrue) (ETuple [(EConst CNone); (EConst (CInt 14)); (EConst CTrue)]))])], []));
  (["def g_2(_y: int,x_1: int,*rest: int,) -> int:"; "  if [None*x_1 for _y, x_1 in (f""}}{(x_1)}{{"" "" b(-"") if (b[14]) for If in (Not) if (None in   "")*"")]:"; "      None"; "  elif {not 1: not True for _y in ((True, "":)(."", _y,)) if ([]) for If in (not True)}:"; "      for cd in f"""" f""{('*.b:'):}{(None):>3}}}"":"; "          break"; "          [["":-"" for _y in (None)], self.Not["" c(""::None],]"; "      for a in ("""" if ""()("" else True, 29 or None, Not if 14 else True,):"; "        ( (""ba:"" if True else None)  )"; "  self.in_= None or True+{True :_y, ""ba"":  ""*(""}"],
   Some ([TFun "g_2"], [("m.g_2", mkFun "m" None KPlain ["_y"; "x_1"] [] (Some "rest") [] None
   [SIf (EListComp (EBin OpMul (EConst CNone) (EName "x_1")) [((TTuple [(TName "_y"); (TName "x_1")] None), (EJoined [(EConst (CStr "}")); (EFormat (EName "x_1") None); (EConst (CStr "{ b(-"))]), [(EIndex (EName "b") (EConst (CInt 14)))]); ((TName "If"), (EName "Not"), [(ECmp (EConst CNone) [(CmpIn, (EConst (CStr ")*")))])])])
     [SExpr (EConst CNone)]
     [SIf (EDictComp (ENot (EConst (CInt 1))) (ENot (EConst CTrue)) [((TName "_y"), (ETuple [(EConst CTrue); (EConst (CStr ":)(.")); (EName "_y")]), [(EList [])]); ((TName "If"), (ENot (EConst CTrue)), [])])
       [SFor (TName "cd") (EJoined [(EFormat (EConst (CStr "*.b:")) (Some (EJoined []))); (EFormat (EConst CNone) (Some (EJoined [(EConst (CStr ">3"))]))); (EConst (CStr "}"))])
         [SBreak;
          SExpr (EList [(EListComp (EConst (CStr ":-")) [((TName "_y"), (EConst CNone), [])]); (ESlice (EAttr (EName "self") "Not") (Some (EConst (CStr " c("))) None (Some (EConst CNone)))])];
        SFor (TName "a") (ETuple [(EIf (EConst (CStr "()(")) (EConst (CStr "")) (EConst CTrue)); (EOr [(EConst (CInt 29)); (EConst CNone)]); (EIf (EConst (CInt 14)) (EName "Not") (EConst CTrue))])
         [SExpr (EIf (EConst CTrue) (EConst (CStr "ba:")) (EConst CNone))]]
       []];
    SAssign (TSelf "in_") (EOr [(EConst CNone); (EBin OpAdd (EConst CTrue) (EDict [((EConst CTrue), (EName "_y")); ((EConst (CStr "ba")), (EConst (CStr "*(")))]))])])]));
  (["def f(Not, in_: int, If=not 10, *, k, m=""a(""  / 6) -> int:"; "  try:  # note"; "    if "":*"" +f""{(None):>3}"" f""{(20):>3}}}"" "".."":  # note"; "     return"; "     x: int = -None"; "    for If in [[] for self in (not None)]:"; "     "; "     pass"; "  except E:  # note"; "    return"],
   Some ([TFun "f"], [("m.f", mkFun "m" None KPlain ["Not"; "in_"; "If"] [("If", (ENot (EConst (CInt 10)))); ("m", (EBin OpDiv (EConst (CStr "a(")) (EConst (CInt 6))))] None ["k"; "m"] None
   [STry [SIf (EBin OpAdd (EConst (CStr ":*")) (EJoined [(EFormat (EConst CNone) (Some (EJoined [(EConst (CStr ">3"))]))); (EFormat (EConst (CInt 20)) (Some (EJoined [(EConst (CStr ">3"))]))); (EConst (CStr "}.."))]))
       [SReturn None;
        SAssign (TName "x") (ENeg (EConst CNone))]
       [];
      SFor (TName "If") (EListComp (EList []) [((TName "self"), (ENot (EConst CNone)), [])])
       [SPass]] "E"
     [SReturn None]])]));
  (["def g_2() -> int:"; "  try:  # note"; "      try:  # note"; "        return"; "      except E:  # note"; "        Not = a.cd((a ),  *("" "").cd,  self = [True,26],  **_y.cd,) or not not True  # note"; "      if Not.If.If:"; "        in_ = f""\.}}{([cd for Not, x_1 in ('c.')]):}"""; "        self += (f"""" f""x y"" ""- "" if not "":0*0"" else [])"; "      elif x_1.b.If+ (_y if ""aa "" else "".""):"; "        return  # note"; "        (True if 2 else None) and ""(0"""; "      elif (None if ""a*(-"" else "".b"")[(7)(18,"""",**in_)]:"; "        b = {{26 :True if cd else True}: -""c(-"" for a in (True) for a in (-  6) if (-  f""{(11):>3}"")}  # note"; "        x_1, x = (self)["":""] and {""*a)"":""b(b"",""c"" :in_}, {""( "": True for in_, If in (b) if (Not) for Not in (None)}"; "  except ValueError:  # note"; "      if -  True:"; "        a, x = None and 25 if (True if True else "" )"") else [], 24  # note"; "      if self[""(-0"":None] in   Not[None]:"; "       Not += 29  # note"; "      elif x_1[not None]:"; "       _y = ({x_1  !=True:{self: None for Not, b in (x_1) for b, x_1 in (None)},(True  ): {None: 19 for b in (None) for b in (None) if (None)},}, (26).x_1  %""ab0b""*0,)"; "       self.b= f""\.""%("")c"" if True else True)"; "      elif True and None and True:"; "       return  # note"; "       _y += {6 or None: (26 if ""-"" else a) for in_ in (""ca(""  not in  True) if (f""x y{(self):>3}"")}"; "      else:"; "       cd = ( f""x y{(True):>3}{(None):}"" f""x y:{(b):}"") or [23 for cd, a in (Not)]+[]"; "  if ( cd):"; "    for in_, a in [[13 for self in ("")("") if (True)] ,(10 if True else in_),]:  # note"; "     in_ += If.If(**[self],)"; "    cd = [(22)(*""0.:"" ,  x_1=None,) if True else True * None,not f""""]  # note"; "  elif {True: 4 for b in ("" )"")} in  [None for b, a in (""*a"")]:"; "    x: int = -True"; "    Not += (  [None for cd, x_1 in (True) if (True) for Not, _y in (None)]  )  # note"; "  elif -True:"; "    x_1 += (True if True else 27) if (20)(""c)a0"", b=9, a=""aa(b"") else None"; "    cd = - (True -"""",)"],
   Some ([TFun "g_2"], [("m.g_2", mkFun "m" None KPlain [] [] None [] None
   [STry [STry [SReturn None] "E"
       [SAssign (TName "Not") (EOr [(ECall (EAttr (EName "a") "cd") [(EName "a")] (Some (EAttr (EConst (CStr " ")) "cd")) [("self", (EList [(EConst CTrue); (EConst (CInt 26))]))] (Some (EAttr (EName "_y") "cd"))); (ENot (ENot (EConst CTrue)))])];
      SIf (EAttr (EAttr (EName "Not") "If") "If")
       [SAssign (TName "in_") (EJoined [(EConst (CStr "\.}")); (EFormat (EListComp (EName "cd") [((TTuple [(TName "Not"); (TName "x_1")] None), (EConst (CStr "c.")), [])]) (Some (EJoined [])))]);
        SAug "self" OpAdd (EIf (ENot (EConst (CStr ":0*0"))) (EJoined [(EConst (CStr "x y- "))]) (EList []))]
       [SIf (EBin OpAdd (EAttr (EAttr (EName "x_1") "b") "If") (EIf (EConst (CStr "aa ")) (EName "_y") (EConst (CStr "."))))
         [SReturn None;
          SExpr (EAnd [(EIf (EConst (CInt 2)) (EConst CTrue) (EConst CNone)); (EConst (CStr "(0"))])]
         [SIf (EIndex (EIf (EConst (CStr "a*(-")) (EConst CNone) (EConst (CStr ".b"))) (ECall (EConst (CInt 7)) [(EConst (CInt 18)); (EConst (CStr ""))] None [] (Some (EName "in_"))))
           [SAssign (TName "b") (EDictComp (EDict [((EConst (CInt 26)), (EIf (EName "cd") (EConst CTrue) (EConst CTrue)))]) (ENeg (EConst (CStr "c(-"))) [((TName "a"), (EConst CTrue), []); ((TName "a"), (ENeg (EConst (CInt 6))), [(ENeg (EJoined [(EFormat (EConst (CInt 11)) (Some (EJoined [(EConst (CStr ">3"))])))]))])]);
            SAssign (TTuple [(TName "x_1"); (TName "x")] None) (ETuple [(EAnd [(EIndex (EName "self") (EConst (CStr ":"))); (EDict [((EConst (CStr "*a)")), (EConst (CStr "b(b"))); ((EConst (CStr "c")), (EName "in_"))])]); (EDictComp (EConst (CStr "( ")) (EConst CTrue) [((TTuple [(TName "in_"); (TName "If")] None), (EName "b"), [(EName "Not")]); ((TName "Not"), (EConst CNone), [])])])]
           []]]] "ValueError"
     [SIf (ENeg (EConst CTrue))
       [SAssign (TTuple [(TName "a"); (TName "x")] None) (ETuple [(EIf (EIf (EConst CTrue) (EConst CTrue) (EConst (CStr " )"))) (EAnd [(EConst CNone); (EConst (CInt 25))]) (EList [])); (EConst (CInt 24))])]
       [];
      SIf (ECmp (ESlice (EName "self") (Some (EConst (CStr "(-0"))) (Some (EConst CNone)) None) [(CmpIn, (EIndex (EName "Not") (EConst CNone)))])
       [SAug "Not" OpAdd (EConst (CInt 29))]
       [SIf (EIndex (EName "x_1") (ENot (EConst CNone)))
         [SAssign (TName "_y") (ETuple [(EDict [((ECmp (EName "x_1") [(CmpNe, (EConst CTrue))]), (EDictComp (EName "self") (EConst CNone) [((TTuple [(TName "Not"); (TName "b")] None), (EName "x_1"), []); ((TTuple [(TName "b"); (TName "x_1")] None), (EConst CNone), [])])); ((EConst CTrue), (EDictComp (EConst CNone) (EConst (CInt 19)) [((TName "b"), (EConst CNone), []); ((TName "b"), (EConst CNone), [(EConst CNone)])]))]); (EBin OpMul (EBin OpMod (EAttr (EConst (CInt 26)) "x_1") (EConst (CStr "ab0b"))) (EConst (CInt 0)))]);
          SAssign (TSelf "b") (EBin OpMod (EJoined [(EConst (CStr "\."))]) (EIf (EConst CTrue) (EConst (CStr ")c")) (EConst CTrue)))]
         [SIf (EAnd [(EConst CTrue); (EConst CNone); (EConst CTrue)])
           [SReturn None;
            SAug "_y" OpAdd (EDictComp (EOr [(EConst (CInt 6)); (EConst CNone)]) (EIf (EConst (CStr "-")) (EConst (CInt 26)) (EName "a")) [((TName "in_"), (ECmp (EConst (CStr "ca(")) [(CmpNotIn, (EConst CTrue))]), [(EJoined [(EConst (CStr "x y")); (EFormat (EName "self") (Some (EJoined [(EConst (CStr ">3"))])))])])])]
           [SAssign (TName "cd") (EOr [(EJoined [(EConst (CStr "x y")); (EFormat (EConst CTrue) (Some (EJoined [(EConst (CStr ">3"))]))); (EFormat (EConst CNone) (Some (EJoined []))); (EConst (CStr "x y:")); (EFormat (EName "b") (Some (EJoined [])))]); (EBin OpAdd (EListComp (EConst (CInt 23)) [((TTuple [(TName "cd"); (TName "a")] None), (EName "Not"), [])]) (EList []))])]]]];
    SIf (EName "cd")
     [SFor (TTuple [(TName "in_"); (TName "a")] None) (EList [(EListComp (EConst (CInt 13)) [((TName "self"), (EConst (CStr ")(")), [(EConst CTrue)])]); (EIf (EConst CTrue) (EConst (CInt 10)) (EName "in_"))])
       [SAug "in_" OpAdd (ECall (EAttr (EName "If") "If") [] None [] (Some (EList [(EName "self")])))];
      SAssign (TName "cd") (EList [(EIf (EConst CTrue) (ECall (EConst (CInt 22)) [] (Some (EConst (CStr "0.:"))) [("x_1", (EConst CNone))] None) (EBin OpMul (EConst CTrue) (EConst CNone))); (ENot (EJoined []))])]
     [SIf (ECmp (EDictComp (EConst CTrue) (EConst (CInt 4)) [((TName "b"), (EConst (CStr " )")), [])]) [(CmpIn, (EListComp (EConst CNone) [((TTuple [(TName "b"); (TName "a")] None), (EConst (CStr "*a")), [])]))])
       [SAssign (TName "x") (ENeg (EConst CTrue));
        SAug "Not" OpAdd (EListComp (EConst CNone) [((TTuple [(TName "cd"); (TName "x_1")] None), (EConst CTrue), [(EConst CTrue)]); ((TTuple [(TName "Not"); (TName "_y")] None), (EConst CNone), [])])]
       [SIf (ENeg (EConst CTrue))
         [SAug "x_1" OpAdd (EIf (ECall (EConst (CInt 20)) [(EConst (CStr "c)a0"))] None [("b", (EConst (CInt 9))); ("a", (EConst (CStr "aa(b")))] None) (EIf (EConst CTrue) (EConst CTrue) (EConst (CInt 27))) (EConst CNone));
          SAssign (TName "cd") (ENeg (ETuple [(EBin OpSub (EConst CTrue) (EConst (CStr "")))]))]
         []]]])]));
  (["def g_2(If  ,a=None or None  ,self=If[:cd]  ,cd=f""{(11)}{(4)}"" f""{{{{""  ,*rest):"; "  """"""text"""""""; "  [[17 for in_, _y in (True) if (8)] for a, Not in (cd if ""*"" else self) if (- """")]"],
   Some ([TFun "g_2"], [("m.g_2", mkFun "m" None KPlain ["If"; "a"; "self"; "cd"] [("a", (EOr [(EConst CNone); (EConst CNone)])); ("self", (ESlice (EName "If") None (Some (EName "cd")) None)); ("cd", (EJoined [(EFormat (EConst (CInt 11)) None); (EFormat (EConst (CInt 4)) None); (EConst (CStr "{{"))]))] (Some "rest") [] None
   [SExpr (EListComp (EListComp (EConst (CInt 17)) [((TTuple [(TName "in_"); (TName "_y")] None), (EConst CTrue), [(EConst (CInt 8))])]) [((TTuple [(TName "a"); (TName "Not")] None), (EIf (EConst (CStr "*")) (EName "cd") (EName "self")), [(ENeg (EConst (CStr "")))])])])]));
  (["def g_2(b ,*rest ,k ,m=True+True ,**kw) -> int:"; "  if {10: True  != b for a in (True* None) for in_, cd in (""b) ""- _y) if ((If if ""*b"" else ""*""))}:  # note"; "    try:"; "        _y, x = f""{(None):0{b}b}"" f""}}x y"" """" > 26 and 6, (""()"" )"; "        return {-Not:(29 if b else ""-""),}"; "    except ValueError:"; "        b += [If  - 11 for If, Not in (None <= 12)]"; "  else:  # note"; "    try:"; "      b += -  self - 11  # note"; "    except ValueError:"; "      return (None - ""b*b*"")(True-None ,  [cd,True] ,  Not =b(""""  ,_y =True  ,in_ =None))"; "      raise not not True"],
   Some ([TFun "g_2"], [("m.g_2", mkFun "m" None KPlain ["b"] [("m", (EBin OpAdd (EConst CTrue) (EConst CTrue)))] (Some "rest") ["k"; "m"] (Some "kw")
   [SIf (EDictComp (EConst (CInt 10)) (ECmp (EConst CTrue) [(CmpNe, (EName "b"))]) [((TName "a"), (EBin OpMul (EConst CTrue) (EConst CNone)), []); ((TTuple [(TName "in_"); (TName "cd")] None), (EBin OpSub (EConst (CStr "b) ")) (EName "_y")), [(EIf (EConst (CStr "*b")) (EName "If") (EConst (CStr "*")))])])
     [STry [SAssign (TTuple [(TName "_y"); (TName "x")] None) (ETuple [(EAnd [(ECmp (EJoined [(EFormat (EConst CNone) (Some (EJoined [(EConst (CStr "0")); (EFormat (EName "b") None); (EConst (CStr "b"))]))); (EConst (CStr "}x y"))]) [(CmpGt, (EConst (CInt 26)))]); (EConst (CInt 6))]); (EConst (CStr "()"))]);
        SReturn (Some (EDict [((ENeg (EName "Not")), (EIf (EName "b") (EConst (CInt 29)) (EConst (CStr "-"))))]))] "ValueError"
       [SAug "b" OpAdd (EListComp (EBin OpSub (EName "If") (EConst (CInt 11))) [((TTuple [(TName "If"); (TName "Not")] None), (ECmp (EConst CNone) [(CmpLe, (EConst (CInt 12)))]), [])])]]
     [STry [SAug "b" OpAdd (EBin OpSub (ENeg (EName "self")) (EConst (CInt 11)))] "ValueError"
       [SReturn (Some (ECall (EBin OpSub (EConst CNone) (EConst (CStr "b*b*"))) [(EBin OpSub (EConst CTrue) (EConst CNone)); (EList [(EName "cd"); (EConst CTrue)])] None [("Not", (ECall (EName "b") [(EConst (CStr ""))] None [("_y", (EConst CTrue)); ("in_", (EConst CNone))] None))] None));
        SRaise (ENot (ENot (EConst CTrue)))]]])]));
  (["def f(*,  k,  m,  **kw):"; "  self = 25 if b- None else ""-((""+  17  !=  True + (  None)"; "  If, *x = 3, Not._y[True::]"; "  if (_y[:b:])(If=""*-(c""  +If):"; "   for If, a in {(None if Not else b): True  /If,_y +a:True  >=""b(b*""}:"; "       cd += {"").b"" if in_ else "".-*("": [None for self in ("""")] for _y in (True)}"; "       raise (None)[""a-* ""::]  %  {True: _y for self in (True) for self, _y in (""-.*a"")}"; "  elif (None- None).Not:"; "   cd += {""""  +  None:(18 if ""-b0c"" else 20)}"; "   if [{None:cd} for x_1, cd in (True)]:"; "       return"; "   else:"; "       cd, x = not (True, True, True,), 28*in_"; "  else:"; "   try:  # note"; "    {If[Not:]: True+  None for b, in_ in ((28,)) if ({None: in_ for x_1 in (5) if (28)})}"; "   except ValueError:  # note"; "    self.self= (not None, None, If  -  None,)"; "   try:  # note"; "     self.in_={If.cd.x_1: Not.a(""-)."" , *"" a("") for b in (-If)}  # note"; "     return {}"; "   except ValueError:  # note"; "     "; "     pass"],
   Some ([TFun "f"], [("m.f", mkFun "m" None KPlain [] [] None ["k"; "m"] (Some "kw")
   [SAssign (TName "self") (EIf (EBin OpSub (EName "b") (EConst CNone)) (EConst (CInt 25)) (ECmp (EBin OpAdd (EConst (CStr "-((")) (EConst (CInt 17))) [(CmpNe, (EBin OpAdd (EConst CTrue) (EConst CNone)))]));
    SAssign (TTuple [(TName "If")] (Some (TName "x"))) (ETuple [(EConst (CInt 3)); (ESlice (EAttr (EName "Not") "_y") (Some (EConst CTrue)) None None)]);
    SIf (ECall (ESlice (EName "_y") None (Some (EName "b")) None) [] None [("If", (EBin OpAdd (EConst (CStr "*-(c")) (EName "If")))] None)
     [SFor (TTuple [(TName "If"); (TName "a")] None) (EDict [((EIf (EName "Not") (EConst CNone) (EName "b")), (EBin OpDiv (EConst CTrue) (EName "If"))); ((EBin OpAdd (EName "_y") (EName "a")), (ECmp (EConst CTrue) [(CmpGe, (EConst (CStr "b(b*")))]))])
       [SAug "cd" OpAdd (EDictComp (EIf (EName "in_") (EConst (CStr ").b")) (EConst (CStr ".-*("))) (EListComp (EConst CNone) [((TName "self"), (EConst (CStr "")), [])]) [((TName "_y"), (EConst CTrue), [])]);
        SRaise (EBin OpMod (ESlice (EConst CNone) (Some (EConst (CStr "a-* "))) None None) (EDictComp (EConst CTrue) (EName "_y") [((TName "self"), (EConst CTrue), []); ((TTuple [(TName "self"); (TName "_y")] None), (EConst (CStr "-.*a")), [])]))]]
     [SIf (EAttr (EBin OpSub (EConst CNone) (EConst CNone)) "Not")
       [SAug "cd" OpAdd (EDict [((EBin OpAdd (EConst (CStr "")) (EConst CNone)), (EIf (EConst (CStr "-b0c")) (EConst (CInt 18)) (EConst (CInt 20))))]);
        SIf (EListComp (EDict [((EConst CNone), (EName "cd"))]) [((TTuple [(TName "x_1"); (TName "cd")] None), (EConst CTrue), [])])
         [SReturn None]
         [SAssign (TTuple [(TName "cd"); (TName "x")] None) (ETuple [(ENot (ETuple [(EConst CTrue); (EConst CTrue); (EConst CTrue)])); (EBin OpMul (EConst (CInt 28)) (EName "in_"))])]]
       [STry [SExpr (EDictComp (ESlice (EName "If") (Some (EName "Not")) None None) (EBin OpAdd (EConst CTrue) (EConst CNone)) [((TTuple [(TName "b"); (TName "in_")] None), (ETuple [(EConst (CInt 28))]), [(EDictComp (EConst CNone) (EName "in_") [((TName "x_1"), (EConst (CInt 5)), [(EConst (CInt 28))])])])])] "ValueError"
         [SAssign (TSelf "self") (ETuple [(ENot (EConst CNone)); (EConst CNone); (EBin OpSub (EName "If") (EConst CNone))])];
        STry [SAssign (TSelf "in_") (EDictComp (EAttr (EAttr (EName "If") "cd") "x_1") (ECall (EAttr (EName "Not") "a") [(EConst (CStr "-)."))] (Some (EConst (CStr " a("))) [] None) [((TName "b"), (ENeg (EName "If")), [])]);
          SReturn (Some (EDict []))] "ValueError"
         [SPass]]]])]));
  (["in_ = (None if """" else None)"],
   Some ([TAssign "in_" (EIf (EConst (CStr "")) (EConst CNone) (EConst CNone))], []));
  (["def g_2(If  ,**kw) -> int:"; "  """"""text"""""""; "  for in_ in -f""{('b'):0{_y}b}"" f""x yx y{{"" """":"; "    a = -f""{{"""; "    return"; "  Not, *x = True, (25, 17, 23,)  # note"; "  try:"; "      x_1, x = (not None, self%self, {None  :  None ,True: True},), None/ x_1"; "  except E:"; "      if True:"; "          self += {}"; "      elif ("":a -"" if ""*"" else None, ""(*-."" +None,):"; "          []"; "          a, *x = not not ""a(c"", in_[5]  # note"; "      elif ([] if True - """" else self):"; "          pass"; "      else:"; "          self.cd  =  {(19,): -_y for Not, cd in (_y.x_1[:]) if ((20,))}"; "          return [{True  :True}]"; "      return not {True: True for b, cd in (None) if (True) for If, in_ in (None)}"],
   Some ([TFun "g_2"], [("m.g_2", mkFun "m" None KPlain ["If"] [] None [] (Some "kw")
   [SFor (TName "in_") (ENeg (EJoined [(EFormat (EConst (CStr "b")) (Some (EJoined [(EConst (CStr "0")); (EFormat (EName "_y") None); (EConst (CStr "b"))]))); (EConst (CStr "x yx y{"))]))
     [SAssign (TName "a") (ENeg (EJoined [(EConst (CStr "{"))]));
      SReturn None];
    SAssign (TTuple [(TName "Not")] (Some (TName "x"))) (ETuple [(EConst CTrue); (ETuple [(EConst (CInt 25)); (EConst (CInt 17)); (EConst (CInt 23))])]);
    STry [SAssign (TTuple [(TName "x_1"); (TName "x")] None) (ETuple [(ETuple [(ENot (EConst CNone)); (EBin OpMod (EName "self") (EName "self")); (EDict [((EConst CNone), (EConst CNone)); ((EConst CTrue), (EConst CTrue))])]); (EBin OpDiv (EConst CNone) (EName "x_1"))])] "E"
     [SIf (EConst CTrue)
       [SAug "self" OpAdd (EDict [])]
       [SIf (ETuple [(EIf (EConst (CStr "*")) (EConst (CStr ":a -")) (EConst CNone)); (EBin OpAdd (EConst (CStr "(*-.")) (EConst CNone))])
         [SExpr (EList []);
          SAssign (TTuple [(TName "a")] (Some (TName "x"))) (ETuple [(ENot (ENot (EConst (CStr "a(c")))); (EIndex (EName "in_") (EConst (CInt 5)))])]
         [SIf (EIf (EBin OpSub (EConst CTrue) (EConst (CStr ""))) (EList []) (EName "self"))
           [SPass]
           [SAssign (TSelf "cd") (EDictComp (ETuple [(EConst (CInt 19))]) (ENeg (EName "_y")) [((TTuple [(TName "Not"); (TName "cd")] None), (ESlice (EAttr (EName "_y") "x_1") None None None), [(ETuple [(EConst (CInt 20))])])]);
            SReturn (Some (EList [(EDict [((EConst CTrue), (EConst CTrue))])]))]]];
      SReturn (Some (ENot (EDictComp (EConst CTrue) (EConst CTrue) [((TTuple [(TName "b"); (TName "cd")] None), (EConst CNone), [(EConst CTrue)]); ((TTuple [(TName "If"); (TName "in_")] None), (EConst CNone), [])])))]])]));
  (["def f(in_=[None , True,]) -> int:"; "  self.cd= f"""" f"""""; "  return"; "  a = ("")b."" / None if None else Not, not Not / ""(-"",)"],
   Some ([TFun "f"], [("m.f", mkFun "m" None KPlain ["in_"] [("in_", (EList [(EConst CNone); (EConst CTrue)]))] None [] None
   [SAssign (TSelf "cd") (EJoined []);
    SReturn None;
    SAssign (TName "a") (ETuple [(EIf (EConst CNone) (EBin OpDiv (EConst (CStr ")b.")) (EConst CNone)) (EName "Not")); (ENot (EBin OpDiv (EName "Not") (EConst (CStr "(-"))))])])]));
  (["def g_2(*rest: int ,**kw):"; "  x: int = ""-a0"""],
   Some ([TFun "g_2"], [("m.g_2", mkFun "m" None KPlain [] [] (Some "rest") [] (Some "kw")
   [SAssign (TName "x") (EConst (CStr "-a0"))])]));
  (["Not = [{None and None: (None) for in_, cd in ((""* -:"" if 10 else None))} for Not, b in (not (cd)) if (a not in  8   not in   ("".(:"",)) for a, self in (Not.If._y) if ({} or (2 if None else True))]"],
   Some ([TAssign "Not" (EListComp (EDictComp (EAnd [(EConst CNone); (EConst CNone)]) (EConst CNone) [((TTuple [(TName "in_"); (TName "cd")] None), (EIf (EConst (CInt 10)) (EConst (CStr "* -:")) (EConst CNone)), [])]) [((TTuple [(TName "Not"); (TName "b")] None), (ENot (EName "cd")), [(ECmp (EName "a") [(CmpNotIn, (EConst (CInt 8))); (CmpNotIn, (ETuple [(EConst (CStr ".(:"))]))])]); ((TTuple [(TName "a"); (TName "self")] None), (EAttr (EAttr (EName "Not") "If") "_y"), [(EOr [(EDict []); (EIf (EConst CNone) (EConst (CInt 2)) (EConst CTrue))])])])], []));
  (["def g_2(*rest: int):"; "  """"""text"""""""; "  if not True if None else None:  # note"; "   raise [(None).If for x_1 in ({1: x_1 for Not, cd in (""."") for self, _y in (""0:)"")}) if ((If, None,))]"; "  elif cd[(""("" if True else True):]:  # note"; "   raise not True   not in True"; "   self.x_1=If.self.cd"; "  else:  # note"; "   for x_1, in_ in [( "" .:0"" ) for cd, a in ([True for a in (5) for _y, cd in (True)]) for x_1, cd in (27 or self)]:"; "     b += (- None)((True).a,*_y[""b):b""],in_  = -""("",)"; "     self, x = (12 and Not if self(*"":"" ,x_1=x_1 ,in_  =  True) else f""{(26):>3}"" f""{(None):0{x_1}b}"" """"), cd  > a  # note"; "   pass  # note"; "  if {True  -True: f""{(x_1):>3}"" ""*."" for self, If in (not None) if (None)}:  # note"; "      if True or (None if None else None):"; "          self.Not= cd.If(not self)"; "          self.in_  =  [True]"; "      for If in {[True]:-""a--"",f""x y"" f""}}{(None):{in_[1:2]}}"" "":""  : 15}:"; "       continue  # note"; "  elif Not(*b(None,),**""a b""):  # note"; "      if None:  # note"; "       cd, *x = (not self,), 27 and True  # note"; "       _y, x = (cd.a.Not if True >=14 else True and True), {x_1: 22 for b, cd in (True) if (""(:a"")}  # note"; "      if self.a[None] or 27:"; "        b = [7 for If, x_1 in ((19).x_1) if ([Not.Not["""":None:x_1] ,True]) for a, b in ({in_.If(None,): True if 5 else None for cd, self in ([None for Not in (True) for If in (self)]) if ({})})]  # note"; "      elif (Not.x_1.b)[a <""ab.""]:"; "        return _y.Not if "")"" else 13"; "        cd = {f""{(Not)}"": (26 *  True, -  ""*"", 9,) for self, a in (- ""c""-  (True, True, cd,))}  # note"; "      elif (None if (21)[None] else self.in_(17,in_  =x_1,b =  Not)):"; "        a = self.cd[not If.b._y]"; "        self.a  =((True if True else None), If.Not[True:""*:0"":22], Not.a(*None,_y=  None),)  # note"; "  elif (-True if [26] else not Not):  # note"; "      self.in_={None*None:{True:"""",  27: cd,}  ,f""{(26)}{(11)}""  :  """"}"; "  else:  # note"; "      a = [[4  ,  b,],  2,]<[]"; "  Not+  f""{(24):>3}"" f""\.{(None):}"""],
   Some ([TFun "g_2"], [("m.g_2", mkFun "m" None KPlain [] [] (Some "rest") [] None
   [SIf (EIf (EConst CNone) (ENot (EConst CTrue)) (EConst CNone))
     [SRaise (EListComp (EAttr (EConst CNone) "If") [((TName "x_1"), (EDictComp (EConst (CInt 1)) (EName "x_1") [((TTuple [(TName "Not"); (TName "cd")] None), (EConst (CStr ".")), []); ((TTuple [(TName "self"); (TName "_y")] None), (EConst (CStr "0:)")), [])]), [(ETuple [(EName "If"); (EConst CNone)])])])]
     [SIf (ESlice (EName "cd") (Some (EIf (EConst CTrue) (EConst (CStr "(")) (EConst CTrue))) None None)
       [SRaise (ENot (ECmp (EConst CTrue) [(CmpNotIn, (EConst CTrue))]));
        SAssign (TSelf "x_1") (EAttr (EAttr (EName "If") "self") "cd")]
       [SFor (TTuple [(TName "x_1"); (TName "in_")] None) (EListComp (EConst (CStr " .:0")) [((TTuple [(TName "cd"); (TName "a")] None), (EListComp (EConst CTrue) [((TName "a"), (EConst (CInt 5)), []); ((TTuple [(TName "_y"); (TName "cd")] None), (EConst CTrue), [])]), []); ((TTuple [(TName "x_1"); (TName "cd")] None), (EOr [(EConst (CInt 27)); (EName "self")]), [])])
         [SAug "b" OpAdd (ECall (ENeg (EConst CNone)) [(EAttr (EConst CTrue) "a")] (Some (EIndex (EName "_y") (EConst (CStr "b):b")))) [("in_", (ENeg (EConst (CStr "("))))] None);
          SAssign (TTuple [(TName "self"); (TName "x")] None) (ETuple [(EIf (ECall (EName "self") [] (Some (EConst (CStr ":"))) [("x_1", (EName "x_1")); ("in_", (EConst CTrue))] None) (EAnd [(EConst (CInt 12)); (EName "Not")]) (EJoined [(EFormat (EConst (CInt 26)) (Some (EJoined [(EConst (CStr ">3"))]))); (EFormat (EConst CNone) (Some (EJoined [(EConst (CStr "0")); (EFormat (EName "x_1") None); (EConst (CStr "b"))])))])); (ECmp (EName "cd") [(CmpGt, (EName "a"))])])];
        SPass]];
    SIf (EDictComp (EBin OpSub (EConst CTrue) (EConst CTrue)) (EJoined [(EFormat (EName "x_1") (Some (EJoined [(EConst (CStr ">3"))]))); (EConst (CStr "*."))]) [((TTuple [(TName "self"); (TName "If")] None), (ENot (EConst CNone)), [(EConst CNone)])])
     [SIf (EOr [(EConst CTrue); (EIf (EConst CNone) (EConst CNone) (EConst CNone))])
       [SAssign (TSelf "Not") (ECall (EAttr (EName "cd") "If") [(ENot (EName "self"))] None [] None);
        SAssign (TSelf "in_") (EList [(EConst CTrue)])]
       [];
      SFor (TName "If") (EDict [((EList [(EConst CTrue)]), (ENeg (EConst (CStr "a--")))); ((EJoined [(EConst (CStr "x y}")); (EFormat (EConst CNone) (Some (EJoined [(EFormat (ESlice (EName "in_") (Some (EConst (CInt 1))) (Some (EConst (CInt 2))) None) None)]))); (EConst (CStr ":"))]), (EConst (CInt 15)))])
       [SContinue]]
     [SIf (ECall (EName "Not") [] (Some (ECall (EName "b") [(EConst CNone)] None [] None)) [] (Some (EConst (CStr "a b"))))
       [SIf (EConst CNone)
         [SAssign (TTuple [(TName "cd")] (Some (TName "x"))) (ETuple [(ETuple [(ENot (EName "self"))]); (EAnd [(EConst (CInt 27)); (EConst CTrue)])]);
          SAssign (TTuple [(TName "_y"); (TName "x")] None) (ETuple [(EIf (ECmp (EConst CTrue) [(CmpGe, (EConst (CInt 14)))]) (EAttr (EAttr (EName "cd") "a") "Not") (EAnd [(EConst CTrue); (EConst CTrue)])); (EDictComp (EName "x_1") (EConst (CInt 22)) [((TTuple [(TName "b"); (TName "cd")] None), (EConst CTrue), [(EConst (CStr "(:a"))])])])]
         [];
        SIf (EOr [(EIndex (EAttr (EName "self") "a") (EConst CNone)); (EConst (CInt 27))])
         [SAssign (TName "b") (EListComp (EConst (CInt 7)) [((TTuple [(TName "If"); (TName "x_1")] None), (EAttr (EConst (CInt 19)) "x_1"), [(EList [(ESlice (EAttr (EName "Not") "Not") (Some (EConst (CStr ""))) (Some (EConst CNone)) (Some (EName "x_1"))); (EConst CTrue)])]); ((TTuple [(TName "a"); (TName "b")] None), (EDictComp (ECall (EAttr (EName "in_") "If") [(EConst CNone)] None [] None) (EIf (EConst (CInt 5)) (EConst CTrue) (EConst CNone)) [((TTuple [(TName "cd"); (TName "self")] None), (EListComp (EConst CNone) [((TName "Not"), (EConst CTrue), []); ((TName "If"), (EName "self"), [])]), [(EDict [])])]), [])])]
         [SIf (EIndex (EAttr (EAttr (EName "Not") "x_1") "b") (ECmp (EName "a") [(CmpLt, (EConst (CStr "ab.")))]))
           [SReturn (Some (EIf (EConst (CStr ")")) (EAttr (EName "_y") "Not") (EConst (CInt 13))));
            SAssign (TName "cd") (EDictComp (EJoined [(EFormat (EName "Not") None)]) (ETuple [(EBin OpMul (EConst (CInt 26)) (EConst CTrue)); (ENeg (EConst (CStr "*"))); (EConst (CInt 9))]) [((TTuple [(TName "self"); (TName "a")] None), (EBin OpSub (ENeg (EConst (CStr "c"))) (ETuple [(EConst CTrue); (EConst CTrue); (EName "cd")])), [])])]
           [SIf (EIf (EIndex (EConst (CInt 21)) (EConst CNone)) (EConst CNone) (ECall (EAttr (EName "self") "in_") [(EConst (CInt 17))] None [("in_", (EName "x_1")); ("b", (EName "Not"))] None))
             [SAssign (TName "a") (EIndex (EAttr (EName "self") "cd") (ENot (EAttr (EAttr (EName "If") "b") "_y")));
              SAssign (TSelf "a") (ETuple [(EIf (EConst CTrue) (EConst CTrue) (EConst CNone)); (ESlice (EAttr (EName "If") "Not") (Some (EConst CTrue)) (Some (EConst (CStr "*:0"))) (Some (EConst (CInt 22)))); (ECall (EAttr (EName "Not") "a") [] (Some (EConst CNone)) [("_y", (EConst CNone))] None)])]
             []]]]
       [SIf (EIf (EList [(EConst (CInt 26))]) (ENeg (EConst CTrue)) (ENot (EName "Not")))
         [SAssign (TSelf "in_") (EDict [((EBin OpMul (EConst CNone) (EConst CNone)), (EDict [((EConst CTrue), (EConst (CStr ""))); ((EConst (CInt 27)), (EName "cd"))])); ((EJoined [(EFormat (EConst (CInt 26)) None); (EFormat (EConst (CInt 11)) None)]), (EConst (CStr "")))])]
         [SAssign (TName "a") (ECmp (EList [(EList [(EConst (CInt 4)); (EName "b")]); (EConst (CInt 2))]) [(CmpLt, (EList []))])]]];
    SExpr (EBin OpAdd (EName "Not") (EJoined [(EFormat (EConst (CInt 24)) (Some (EJoined [(EConst (CStr ">3"))]))); (EConst (CStr "\.")); (EFormat (EConst CNone) (Some (EJoined [])))]))])]));
  (["class A(B):"; " @classmethod"; " def f(a: int  ,If: int  ,x_1=(None, 18,)  ,**kw,) -> int:"; "   self = [not a for If in ((not 8)[True if "" **-"" else b:in_*True])]  # note"; "   try:"; "       if {""c0(""  : None} if in_-  b else in_ if b else True:"; "         return"; "         raise b and 13  -  True"; "       elif [(a)(None,  14,  _y  =in_) for cd, x_1 in ((None)) if (- _y)]:"; "         self[Not or None:]"; "         ((self)[::] if [22] else "":c-*"")"; "       elif True:"; "         b = not ( self or 28)"; "         []"; "       else:"; "         b, *x = ((a ))[::], f""{(None)}"""; "   except E:"; "       _y.Not"; "   None  # note"; " @classmethod"; " def f(a: int, b: int, Not, cd=Not[""0"":], *rest) -> int:"; "   """"""text"""""""; "   try:"; "     for a, Not in {None / a:(cd, a, ""0 0."",) ,x_1.x_1[:] : a[26]}:"; "      cd += b.a[:]"; "      return If.Not.b  # note"; "   except ValueError:"; "     _y = ([True+25 for in_, If in (16 +""-"") if ([True for b in (b)]) for cd in (x_1(in_=  ""a"", Not  =  True)) if ((28, 10, """",))])[::(19  +x_1, (True, 28, in_,), [""*0)b"" for b in (""c"")],)]"; "   for _y, cd in (a if None else None) or (""c"" if True else 12):"; "    in_ = True  # note"; " y: int"],
   Some ([TClass "A" [(EName "B")]
    [TFun "f";
     TFun "f"]], [("m.A.f", mkFun "m" (Some "m.A") KClass ["a"; "If"; "x_1"] [("x_1", (ETuple [(EConst CNone); (EConst (CInt 18))]))] None [] (Some "kw")
   [SAssign (TName "self") (EListComp (ENot (EName "a")) [((TName "If"), (ESlice (ENot (EConst (CInt 8))) (Some (EIf (EConst (CStr " **-")) (EConst CTrue) (EName "b"))) (Some (EBin OpMul (EName "in_") (EConst CTrue))) None), [])]);
    STry [SIf (EIf (EBin OpSub (EName "in_") (EName "b")) (EDict [((EConst (CStr "c0(")), (EConst CNone))]) (EIf (EName "b") (EName "in_") (EConst CTrue)))
       [SReturn None;
        SRaise (EAnd [(EName "b"); (EBin OpSub (EConst (CInt 13)) (EConst CTrue))])]
       [SIf (EListComp (ECall (EName "a") [(EConst CNone); (EConst (CInt 14))] None [("_y", (EName "in_"))] None) [((TTuple [(TName "cd"); (TName "x_1")] None), (EConst CNone), [(ENeg (EName "_y"))])])
         [SExpr (ESlice (EName "self") (Some (EOr [(EName "Not"); (EConst CNone)])) None None);
          SExpr (EIf (EList [(EConst (CInt 22))]) (ESlice (EName "self") None None None) (EConst (CStr ":c-*")))]
         [SIf (EConst CTrue)
           [SAssign (TName "b") (ENot (EOr [(EName "self"); (EConst (CInt 28))]));
            SExpr (EList [])]
           [SAssign (TTuple [(TName "b")] (Some (TName "x"))) (ETuple [(ESlice (EName "a") None None None); (EJoined [(EFormat (EConst CNone) None)])])]]]] "E"
     [SExpr (EAttr (EName "_y") "Not")];
    SExpr (EConst CNone)]); ("m.A.f", mkFun "m" (Some "m.A") KClass ["a"; "b"; "Not"; "cd"] [("cd", (ESlice (EName "Not") (Some (EConst (CStr "0"))) None None))] (Some "rest") [] None
   [STry [SFor (TTuple [(TName "a"); (TName "Not")] None) (EDict [((EBin OpDiv (EConst CNone) (EName "a")), (ETuple [(EName "cd"); (EName "a"); (EConst (CStr "0 0."))])); ((ESlice (EAttr (EName "x_1") "x_1") None None None), (EIndex (EName "a") (EConst (CInt 26))))])
       [SAug "cd" OpAdd (ESlice (EAttr (EName "b") "a") None None None);
        SReturn (Some (EAttr (EAttr (EName "If") "Not") "b"))]] "ValueError"
     [SAssign (TName "_y") (ESlice (EListComp (EBin OpAdd (EConst CTrue) (EConst (CInt 25))) [((TTuple [(TName "in_"); (TName "If")] None), (EBin OpAdd (EConst (CInt 16)) (EConst (CStr "-"))), [(EListComp (EConst CTrue) [((TName "b"), (EName "b"), [])])]); ((TName "cd"), (ECall (EName "x_1") [] None [("in_", (EConst (CStr "a"))); ("Not", (EConst CTrue))] None), [(ETuple [(EConst (CInt 28)); (EConst (CInt 10)); (EConst (CStr ""))])])]) None None (Some (ETuple [(EBin OpAdd (EConst (CInt 19)) (EName "x_1")); (ETuple [(EConst CTrue); (EConst (CInt 28)); (EName "in_")]); (EListComp (EConst (CStr "*0)b")) [((TName "b"), (EConst (CStr "c")), [])])])))];
    SFor (TTuple [(TName "_y"); (TName "cd")] None) (EOr [(EIf (EConst CNone) (EName "a") (EConst CNone)); (EIf (EConst CTrue) (EConst (CStr "c")) (EConst (CInt 12)))])
     [SAssign (TName "in_") (EConst CTrue)]])]));
  (["def g_2(self  ,_y  ,cd  ,*  ,k  ,m  ,**kw,):"; "  return  # note"; "  if (True, 12,) <=  _y:"; "    in_(b=  ("":)*:"", None, a,),)"; "    in_, x = ([""b"" for Not in (19) for _y, in_ in (True)] if in_(None  ,  19  ,  self  =None) else not "":)c*""), ""::b-""-11"; "  else:"; "    ""text"""; "    self, x = {} /x_1.cd[""b)""], (""-"").b"; "  Not, x = (""c *""  - ""- .c"")[self if None else If], None   in None"],
   Some ([TFun "g_2"], [("m.g_2", mkFun "m" None KPlain ["self"; "_y"; "cd"] [] None ["k"; "m"] (Some "kw")
   [SReturn None;
    SIf (ECmp (ETuple [(EConst CTrue); (EConst (CInt 12))]) [(CmpLe, (EName "_y"))])
     [SExpr (ECall (EName "in_") [] None [("b", (ETuple [(EConst (CStr ":)*:")); (EConst CNone); (EName "a")]))] None);
      SAssign (TTuple [(TName "in_"); (TName "x")] None) (ETuple [(EIf (ECall (EName "in_") [(EConst CNone); (EConst (CInt 19))] None [("self", (EConst CNone))] None) (EListComp (EConst (CStr "b")) [((TName "Not"), (EConst (CInt 19)), []); ((TTuple [(TName "_y"); (TName "in_")] None), (EConst CTrue), [])]) (ENot (EConst (CStr ":)c*")))); (EBin OpSub (EConst (CStr "::b-")) (EConst (CInt 11)))])]
     [SAssign (TTuple [(TName "self"); (TName "x")] None) (ETuple [(EBin OpDiv (EDict []) (EIndex (EAttr (EName "x_1") "cd") (EConst (CStr "b)")))); (EAttr (EConst (CStr "-")) "b")])];
    SAssign (TTuple [(TName "Not"); (TName "x")] None) (ETuple [(EIndex (EBin OpSub (EConst (CStr "c *")) (EConst (CStr "- .c"))) (EIf (EConst CNone) (EName "self") (EName "If"))); (ECmp (EConst CNone) [(CmpIn, (EConst CNone))])])])]));
  (["x_1 = f""{{{(10 if '0:' else True)}{(('' )):>3}"""],
   Some ([TAssign "x_1" (EJoined [(EConst (CStr "{")); (EFormat (EIf (EConst (CStr "0:")) (EConst (CInt 10)) (EConst CTrue)) None); (EFormat (EConst (CStr "")) (Some (EJoined [(EConst (CStr ">3"))])))])], []));
  (["def f(in_,cd: int,Not=(None, self,),_y=a-"" )c*"",*rest: int):"; "  """"""text"""""""; "  if in_.a.self:"; "   self.Not  = (- ""0b*b"")[::]"; "   if f""{(20):}{(22):{a[1:2]}}"":  # note"; "       return (True)[7::True] if - 16 else a.b[::]"; "       return [cd] >  x_1.If"; "   elif (_y if Not else None) if ""0:("" +  True else 29 -in_:  # note"; "       a = ([] if f""{(True):{_y[1:2]}}"" else {None: 12 for a in (None)} - (None if ""a.ac"" else a))"; "   else:  # note"; "       Not.cd[True or b:b.cd.If:]"; "       Not += x_1.cd({True: _y for self in (None) if ("":("") for x_1, cd in (22) if (None)} ,b =  Not,)  # note"; "  elif ((18), (  self), _y +True,):"; "   self.cd=(  f""{(19)}{(True):>3}{(a):{cd[1:2]}}"")  # note"; "   a += {(""ccb"", Not, in_,): {None: None for x_1 in (True) for self, _y in (""a-a"") if (None)} for in_, a in (f""\."" """") if (x_1.x_1) for a in (_y.cd.a) if (in_-10)}"; "  elif (24 in "")c:"",):"; "   return"],
   Some ([TFun "f"], [("m.f", mkFun "m" None KPlain ["in_"; "cd"; "Not"; "_y"] [("Not", (ETuple [(EConst CNone); (EName "self")])); ("_y", (EBin OpSub (EName "a") (EConst (CStr " )c*"))))] (Some "rest") [] None
   [SIf (EAttr (EAttr (EName "in_") "a") "self")
     [SAssign (TSelf "Not") (ESlice (ENeg (EConst (CStr "0b*b"))) None None None);
      SIf (EJoined [(EFormat (EConst (CInt 20)) (Some (EJoined []))); (EFormat (EConst (CInt 22)) (Some (EJoined [(EFormat (ESlice (EName "a") (Some (EConst (CInt 1))) (Some (EConst (CInt 2))) None) None)])))])
       [SReturn (Some (EIf (ENeg (EConst (CInt 16))) (ESlice (EConst CTrue) (Some (EConst (CInt 7))) None (Some (EConst CTrue))) (ESlice (EAttr (EName "a") "b") None None None)));
        SReturn (Some (ECmp (EList [(EName "cd")]) [(CmpGt, (EAttr (EName "x_1") "If"))]))]
       [SIf (EIf (EBin OpAdd (EConst (CStr "0:(")) (EConst CTrue)) (EIf (EName "Not") (EName "_y") (EConst CNone)) (EBin OpSub (EConst (CInt 29)) (EName "in_")))
         [SAssign (TName "a") (EIf (EJoined [(EFormat (EConst CTrue) (Some (EJoined [(EFormat (ESlice (EName "_y") (Some (EConst (CInt 1))) (Some (EConst (CInt 2))) None) None)])))]) (EList []) (EBin OpSub (EDictComp (EConst CNone) (EConst (CInt 12)) [((TName "a"), (EConst CNone), [])]) (EIf (EConst (CStr "a.ac")) (EConst CNone) (EName "a"))))]
         [SExpr (ESlice (EAttr (EName "Not") "cd") (Some (EOr [(EConst CTrue); (EName "b")])) (Some (EAttr (EAttr (EName "b") "cd") "If")) None);
          SAug "Not" OpAdd (ECall (EAttr (EName "x_1") "cd") [(EDictComp (EConst CTrue) (EName "_y") [((TName "self"), (EConst CNone), [(EConst (CStr ":("))]); ((TTuple [(TName "x_1"); (TName "cd")] None), (EConst (CInt 22)), [(EConst CNone)])])] None [("b", (EName "Not"))] None)]]]
     [SIf (ETuple [(EConst (CInt 18)); (EName "self"); (EBin OpAdd (EName "_y") (EConst CTrue))])
       [SAssign (TSelf "cd") (EJoined [(EFormat (EConst (CInt 19)) None); (EFormat (EConst CTrue) (Some (EJoined [(EConst (CStr ">3"))]))); (EFormat (EName "a") (Some (EJoined [(EFormat (ESlice (EName "cd") (Some (EConst (CInt 1))) (Some (EConst (CInt 2))) None) None)])))]);
        SAug "a" OpAdd (EDictComp (ETuple [(EConst (CStr "ccb")); (EName "Not"); (EName "in_")]) (EDictComp (EConst CNone) (EConst CNone) [((TName "x_1"), (EConst CTrue), []); ((TTuple [(TName "self"); (TName "_y")] None), (EConst (CStr "a-a")), [(EConst CNone)])]) [((TTuple [(TName "in_"); (TName "a")] None), (EJoined [(EConst (CStr "\."))]), [(EAttr (EName "x_1") "x_1")]); ((TName "a"), (EAttr (EAttr (EName "_y") "cd") "a"), [(EBin OpSub (EName "in_") (EConst (CInt 10)))])])]
       [SIf (ETuple [(ECmp (EConst (CInt 24)) [(CmpIn, (EConst (CStr ")c:")))])])
         [SReturn None]
         []]]])]));
  (["x_1 = ((None if True else True) if {""-:**"": None,""ac""  :None} else {9:None}) or self[- 23:19 !=""0b."":[27 for Not, x_1 in (True) for cd in (True) if (""b.("")]]"],
   Some ([TAssign "x_1" (EOr [(EIf (EDict [((EConst (CStr "-:**")), (EConst CNone)); ((EConst (CStr "ac")), (EConst CNone))]) (EIf (EConst CTrue) (EConst CNone) (EConst CTrue)) (EDict [((EConst (CInt 9)), (EConst CNone))])); (ESlice (EName "self") (Some (ENeg (EConst (CInt 23)))) (Some (ECmp (EConst (CInt 19)) [(CmpNe, (EConst (CStr "0b.")))])) (Some (EListComp (EConst (CInt 27)) [((TTuple [(TName "Not"); (TName "x_1")] None), (EConst CTrue), []); ((TName "cd"), (EConst CTrue), [(EConst (CStr "b.("))])])))])], []));
  (["def g_2(Not=[_y for a, in_ in (self) if (None)]  ,b=[]  ,**kw,) -> int:"; "  a.cd[["")"" for x_1 in (2) for _y, If in ("""")]:22 *  _y]  # note"; "  try:  # note"; "   try:"; "     _y += [self for b, a in (True) for x_1, in_ in (""0:ca"") if (True)] if (If, Not, 9,) else True if None else ""a*"""; "     ""text"""; "   except ValueError:"; "     cd += [x_1 for x_1, in_ in (If[15]) if (1<= 4) for Not, x_1 in (-  1) if (Not.b)]"; "  except E:  # note"; "   x_1, x = not If(True ,None), [x_1 for x_1 in (True) if (""c*("")]"; "  if ((8)[29], (""  )c""),):  # note"; "    if Not.b[not "" ca""]:"; "     pass  # note"; "     Not, x = [[],], (in_ )"; "    elif []:"; "     a += [{True: cd for cd in ("" .c"") if (If)} for in_ in ((None).If) if ({True: True for b, If in (True) if (3)})]"; "    else:"; "     return cd.self[[None,None]]  # note"; "  elif (9, x_1, ""b*"",) or 3  != ""ba0"":  # note"; "    x_1 += (  True )>self[:True]"; "    _y += [b._y for cd in (""a""%in_)]  # note"; "  elif (  ""0c."")  + f""{{:"" f""{{x y"" """":  # note"; "    try:"; "        return"; "        _y += b(True + True,[True],*f""{(None):0{a}b}{{"" f""{(None):>3}"",a=self-""ab:-"",Not= (self if True else ""*a*""))"; "    except E:"; "        return  # note"; "        in_ += x_1*""*00""<= Not.cd(a =  True ,cd= True)"; "  else:  # note"; "    if ({}):"; "     return  # note"; "     a = [(15==  None if None else True  %True) for Not, _y in ({cd.x_1[Not]: (""-"", cd, None,),If(True ,"""" ,x_1= True ,a  =True):{}})]"; "    elif 27:"; "     Not += (None  + """", (_y,),)"; "    elif """" /  If- a:"; "     _y._y(a(None, 1, x_1  = True, _y= ""0: "", **b) , [] , _y={29: self for b in (True) for b in ("".0)"") if (None)} , Not =None  + None,)  # note"],
   Some ([TFun "g_2"], [("m.g_2", mkFun "m" None KPlain ["Not"; "b"] [("Not", (EListComp (EName "_y") [((TTuple [(TName "a"); (TName "in_")] None), (EName "self"), [(EConst CNone)])])); ("b", (EList []))] None [] (Some "kw")
   [SExpr (ESlice (EAttr (EName "a") "cd") (Some (EListComp (EConst (CStr ")")) [((TName "x_1"), (EConst (CInt 2)), []); ((TTuple [(TName "_y"); (TName "If")] None), (EConst (CStr "")), [])])) (Some (EBin OpMul (EConst (CInt 22)) (EName "_y"))) None);
    STry [STry [SAug "_y" OpAdd (EIf (ETuple [(EName "If"); (EName "Not"); (EConst (CInt 9))]) (EListComp (EName "self") [((TTuple [(TName "b"); (TName "a")] None), (EConst CTrue), []); ((TTuple [(TName "x_1"); (TName "in_")] None), (EConst (CStr "0:ca")), [(EConst CTrue)])]) (EIf (EConst CNone) (EConst CTrue) (EConst (CStr "a*"))))] "ValueError"
       [SAug "cd" OpAdd (EListComp (EName "x_1") [((TTuple [(TName "x_1"); (TName "in_")] None), (EIndex (EName "If") (EConst (CInt 15))), [(ECmp (EConst (CInt 1)) [(CmpLe, (EConst (CInt 4)))])]); ((TTuple [(TName "Not"); (TName "x_1")] None), (ENeg (EConst (CInt 1))), [(EAttr (EName "Not") "b")])])]] "E"
     [SAssign (TTuple [(TName "x_1"); (TName "x")] None) (ETuple [(ENot (ECall (EName "If") [(EConst CTrue); (EConst CNone)] None [] None)); (EListComp (EName "x_1") [((TName "x_1"), (EConst CTrue), [(EConst (CStr "c*("))])])])];
    SIf (ETuple [(EIndex (EConst (CInt 8)) (EConst (CInt 29))); (EConst (CStr "  )c"))])
     [SIf (EIndex (EAttr (EName "Not") "b") (ENot (EConst (CStr " ca"))))
       [SPass;
        SAssign (TTuple [(TName "Not"); (TName "x")] None) (ETuple [(EList [(EList [])]); (EName "in_")])]
       [SIf (EList [])
         [SAug "a" OpAdd (EListComp (EDictComp (EConst CTrue) (EName "cd") [((TName "cd"), (EConst (CStr " .c")), [(EName "If")])]) [((TName "in_"), (EAttr (EConst CNone) "If"), [(EDictComp (EConst CTrue) (EConst CTrue) [((TTuple [(TName "b"); (TName "If")] None), (EConst CTrue), [(EConst (CInt 3))])])])])]
         [SReturn (Some (EIndex (EAttr (EName "cd") "self") (EList [(EConst CNone); (EConst CNone)])))]]]
     [SIf (EOr [(ETuple [(EConst (CInt 9)); (EName "x_1"); (EConst (CStr "b*"))]); (ECmp (EConst (CInt 3)) [(CmpNe, (EConst (CStr "ba0")))])])
       [SAug "x_1" OpAdd (ECmp (EConst CTrue) [(CmpGt, (ESlice (EName "self") None (Some (EConst CTrue)) None))]);
        SAug "_y" OpAdd (EListComp (EAttr (EName "b") "_y") [((TName "cd"), (EBin OpMod (EConst (CStr "a")) (EName "in_")), [])])]
       [SIf (EBin OpAdd (EConst (CStr "0c.")) (EJoined [(EConst (CStr "{:{x y"))]))
         [STry [SReturn None;
            SAug "_y" OpAdd (ECall (EName "b") [(EBin OpAdd (EConst CTrue) (EConst CTrue)); (EList [(EConst CTrue)])] (Some (EJoined [(EFormat (EConst CNone) (Some (EJoined [(EConst (CStr "0")); (EFormat (EName "a") None); (EConst (CStr "b"))]))); (EConst (CStr "{")); (EFormat (EConst CNone) (Some (EJoined [(EConst (CStr ">3"))])))])) [("a", (EBin OpSub (EName "self") (EConst (CStr "ab:-")))); ("Not", (EIf (EConst CTrue) (EName "self") (EConst (CStr "*a*"))))] None)] "E"
           [SReturn None;
            SAug "in_" OpAdd (ECmp (EBin OpMul (EName "x_1") (EConst (CStr "*00"))) [(CmpLe, (ECall (EAttr (EName "Not") "cd") [] None [("a", (EConst CTrue)); ("cd", (EConst CTrue))] None))])]]
         [SIf (EDict [])
           [SReturn None;
            SAssign (TName "a") (EListComp (EIf (EConst CNone) (ECmp (EConst (CInt 15)) [(CmpEq, (EConst CNone))]) (EBin OpMod (EConst CTrue) (EConst CTrue))) [((TTuple [(TName "Not"); (TName "_y")] None), (EDict [((EIndex (EAttr (EName "cd") "x_1") (EName "Not")), (ETuple [(EConst (CStr "-")); (EName "cd"); (EConst CNone)])); ((ECall (EName "If") [(EConst CTrue); (EConst (CStr ""))] None [("x_1", (EConst CTrue)); ("a", (EConst CTrue))] None), (EDict []))]), [])])]
           [SIf (EConst (CInt 27))
             [SAug "Not" OpAdd (ETuple [(EBin OpAdd (EConst CNone) (EConst (CStr ""))); (ETuple [(EName "_y")])])]
             [SIf (EBin OpSub (EBin OpDiv (EConst (CStr "")) (EName "If")) (EName "a"))
               [SExpr (ECall (EAttr (EName "_y") "_y") [(ECall (EName "a") [(EConst CNone); (EConst (CInt 1))] None [("x_1", (EConst CTrue)); ("_y", (EConst (CStr "0: ")))] (Some (EName "b"))); (EList [])] None [("_y", (EDictComp (EConst (CInt 29)) (EName "self") [((TName "b"), (EConst CTrue), []); ((TName "b"), (EConst (CStr ".0)")), [(EConst CNone)])])); ("Not", (EBin OpAdd (EConst CNone) (EConst CNone)))] None)]
               []]]]]]])]));
  (["self = {{} :_y.cd}"],
   Some ([TAssign "self" (EDict [((EDict []), (EAttr (EName "_y") "cd"))])], []));
  (["class A(B):"; " x = (("""" if x_1 else None)).in_"; " x = not [Not]"],
   Some ([TClass "A" [(EName "B")]
    [TAssign "x" (EAttr (EIf (EName "x_1") (EConst (CStr "")) (EConst CNone)) "in_");
     TAssign "x" (ENot (EList [(EName "Not")]))]], []));
  (["class A(B, c.D):"; " x = {}"; " def f(b,**kw):"; "   self.x_1  =((""c-)."")(a= 8)  )"; "   Not, *x = ({})(**(None)._y), True if True else a"; " x = []"],
   Some ([TClass "A" [(EName "B"); (EAttr (EName "c") "D")]
    [TAssign "x" (EDict []);
     TFun "f";
     TAssign "x" (EList [])]], [("m.A.f", mkFun "m" (Some "m.A") KPlain ["b"] [] None [] (Some "kw")
   [SAssign (TSelf "x_1") (ECall (EConst (CStr "c-).")) [] None [("a", (EConst (CInt 8)))] None);
    SAssign (TTuple [(TName "Not")] (Some (TName "x"))) (ETuple [(ECall (EDict []) [] None [] (Some (EAttr (EConst CNone) "_y"))); (EIf (EConst CTrue) (EConst CTrue) (EName "a"))])])]));
  (["a = Not._y"],
   Some ([TAssign "a" (EAttr (EName "Not") "_y")], []));
  (["def f(x_1: int  , Not=(17)[::b]  , _y=""*""+True  , self=""(: :""+True  , *rest: int  , k  , m  , **kw):"; "  self.a= --  True"],
   Some ([TFun "f"], [("m.f", mkFun "m" None KPlain ["x_1"; "Not"; "_y"; "self"] [("Not", (ESlice (EConst (CInt 17)) None None (Some (EName "b")))); ("_y", (EBin OpAdd (EConst (CStr "*")) (EConst CTrue))); ("self", (EBin OpAdd (EConst (CStr "(: :")) (EConst CTrue)))] (Some "rest") ["k"; "m"] (Some "kw")
   [SAssign (TSelf "a") (ENeg (ENeg (EConst CTrue)))])]));
  (["class A(B, c.D):"; " @classmethod"; " def f() -> int:"; "   if {(8 if ""c0"" else True): 1<=18 for b in (x_1 or _y) if ((None)[True]) for a, cd in (cd.a["".(""])}:"; "     try:"; "      self = in_.If.x_1"; "      pass"; "     except ValueError:"; "      self.x_1=(( True  )).If  # note"; "   elif -{None: in_ for _y, in_ in (True)}:"; "     try:"; "       b, *x = ({None:True}).Not, [True,]"; "     except E:"; "       self.Not=True if 15 else True -self  + None"; "       return"; " @classmethod"; " def f(a=18 +15,_y=(None if None else ""a*0.""),x_1=[True for b, If in (27) if (22)],Not=If.cd(28  ,  If=  If  ,  _y = True)) -> int:"; "   _y = cd.in_(_y[::Not] if cd[:None:29] else ""("">=If, **( None),)"; "   (True) or _y[:None]"; " x = [""""  ,[a for Not in (True)]]"],
   Some ([TClass "A" [(EName "B"); (EAttr (EName "c") "D")]
    [TFun "f";
     TFun "f";
     TAssign "x" (EList [(EConst (CStr "")); (EListComp (EName "a") [((TName "Not"), (EConst CTrue), [])])])]], [("m.A.f", mkFun "m" (Some "m.A") KClass [] [] None [] None
   [SIf (EDictComp (EIf (EConst (CStr "c0")) (EConst (CInt 8)) (EConst CTrue)) (ECmp (EConst (CInt 1)) [(CmpLe, (EConst (CInt 18)))]) [((TName "b"), (EOr [(EName "x_1"); (EName "_y")]), [(EIndex (EConst CNone) (EConst CTrue))]); ((TTuple [(TName "a"); (TName "cd")] None), (EIndex (EAttr (EName "cd") "a") (EConst (CStr ".("))), [])])
     [STry [SAssign (TName "self") (EAttr (EAttr (EName "in_") "If") "x_1");
        SPass] "ValueError"
       [SAssign (TSelf "x_1") (EAttr (EConst CTrue) "If")]]
     [SIf (ENeg (EDictComp (EConst CNone) (EName "in_") [((TTuple [(TName "_y"); (TName "in_")] None), (EConst CTrue), [])]))
       [STry [SAssign (TTuple [(TName "b")] (Some (TName "x"))) (ETuple [(EAttr (EDict [((EConst CNone), (EConst CTrue))]) "Not"); (EList [(EConst CTrue)])])] "E"
         [SAssign (TSelf "Not") (EIf (EConst (CInt 15)) (EConst CTrue) (EBin OpAdd (EBin OpSub (EConst CTrue) (EName "self")) (EConst CNone)));
          SReturn None]]
       []]]); ("m.A.f", mkFun "m" (Some "m.A") KClass ["a"; "_y"; "x_1"; "Not"] [("a", (EBin OpAdd (EConst (CInt 18)) (EConst (CInt 15)))); ("_y", (EIf (EConst CNone) (EConst CNone) (EConst (CStr "a*0.")))); ("x_1", (EListComp (EConst CTrue) [((TTuple [(TName "b"); (TName "If")] None), (EConst (CInt 27)), [(EConst (CInt 22))])])); ("Not", (ECall (EAttr (EName "If") "cd") [(EConst (CInt 28))] None [("If", (EName "If")); ("_y", (EConst CTrue))] None))] None [] None
   [SAssign (TName "_y") (ECall (EAttr (EName "cd") "in_") [(EIf (ESlice (EName "cd") None (Some (EConst CNone)) (Some (EConst (CInt 29)))) (ESlice (EName "_y") None None (Some (EName "Not"))) (ECmp (EConst (CStr "(")) [(CmpGe, (EName "If"))]))] None [] (Some (EConst CNone)));
    SExpr (EOr [(EConst CTrue); (ESlice (EName "_y") None (Some (EConst CNone)) None)])])]));
  (["def f(cd=not self,a=None-  ""b"",*rest):"; "  ""b* """],
   Some ([TFun "f"], [("m.f", mkFun "m" None KPlain ["cd"; "a"] [("cd", (ENot (EName "self"))); ("a", (EBin OpSub (EConst CNone) (EConst (CStr "b"))))] (Some "rest") [] None
   [])]));
  (["class A(B):"; " @classmethod"; " def g_2(*,  k,  m="""" + True,):"; "   """"""text"""""""; "   pass"; "   if 11 and 18 % (None if None else None):"; "       return"; "   if f""\.x y{('(ab-'):}"" f"""":"; "       if (20)[(If)::self[None:1]]:"; "         (in_ or """" if True else [None for in_ in (True) for _y in (True) if (True)])"; "       self.If  =  27"; "   elif ({},):"; "       try:  # note"; "         b = [{Not and 15: a(in_ ,  13 ,  self=  True ,  b  = b ,  **None,) for cd, in_ in ([True for x_1 in (True) if (None)]) if (If.b[16:])} for in_ in ({})]"; "         return"; "       except E:  # note"; "         raise (b._y.If if {None: 1 for Not, self in (True) for b in (True) if (None)} else None-b)  # note"; "       return [""b-a(""   not in  13 for in_, x_1 in ([True for If, cd in (b) for _y in (None)]) for If in ({If:  True,True :  11})]  # note"; " x = Not[""a0c:"":(None):None and """"]"],
   Some ([TClass "A" [(EName "B")]
    [TFun "g_2";
     TAssign "x" (ESlice (EName "Not") (Some (EConst (CStr "a0c:"))) (Some (EConst CNone)) (Some (EAnd [(EConst CNone); (EConst (CStr ""))])))]], [("m.A.g_2", mkFun "m" (Some "m.A") KClass [] [("m", (EBin OpAdd (EConst (CStr "")) (EConst CTrue)))] None ["k"; "m"] None
   [SPass;
    SIf (EAnd [(EConst (CInt 11)); (EBin OpMod (EConst (CInt 18)) (EIf (EConst CNone) (EConst CNone) (EConst CNone)))])
     [SReturn None]
     [];
    SIf (EJoined [(EConst (CStr "\.x y")); (EFormat (EConst (CStr "(ab-")) (Some (EJoined [])))])
     [SIf (ESlice (EConst (CInt 20)) (Some (EName "If")) None (Some (ESlice (EName "self") (Some (EConst CNone)) (Some (EConst (CInt 1))) None)))
       [SExpr (EIf (EConst CTrue) (EOr [(EName "in_"); (EConst (CStr ""))]) (EListComp (EConst CNone) [((TName "in_"), (EConst CTrue), []); ((TName "_y"), (EConst CTrue), [(EConst CTrue)])]))]
       [];
      SAssign (TSelf "If") (EConst (CInt 27))]
     [SIf (ETuple [(EDict [])])
       [STry [SAssign (TName "b") (EListComp (EDictComp (EAnd [(EName "Not"); (EConst (CInt 15))]) (ECall (EName "a") [(EName "in_"); (EConst (CInt 13))] None [("self", (EConst CTrue)); ("b", (EName "b"))] (Some (EConst CNone))) [((TTuple [(TName "cd"); (TName "in_")] None), (EListComp (EConst CTrue) [((TName "x_1"), (EConst CTrue), [(EConst CNone)])]), [(ESlice (EAttr (EName "If") "b") (Some (EConst (CInt 16))) None None)])]) [((TName "in_"), (EDict []), [])]);
          SReturn None] "E"
         [SRaise (EIf (EDictComp (EConst CNone) (EConst (CInt 1)) [((TTuple [(TName "Not"); (TName "self")] None), (EConst CTrue), []); ((TName "b"), (EConst CTrue), [(EConst CNone)])]) (EAttr (EAttr (EName "b") "_y") "If") (EBin OpSub (EConst CNone) (EName "b")))];
        SReturn (Some (EListComp (ECmp (EConst (CStr "b-a(")) [(CmpNotIn, (EConst (CInt 13)))]) [((TTuple [(TName "in_"); (TName "x_1")] None), (EListComp (EConst CTrue) [((TTuple [(TName "If"); (TName "cd")] None), (EName "b"), []); ((TName "_y"), (EConst CNone), [])]), []); ((TName "If"), (EDict [((EName "If"), (EConst CTrue)); ((EConst CTrue), (EConst (CInt 11)))]), [])]))]
       []]])]));
  (["class A(B, c.D):"; " @classmethod"; " def f(x_1=(True)(),b=f""{{"" f"""" ""a"",in_=[True],self=True):"; "   """"""text"""""""; "   for b, x_1 in {(True, _y,):  {7:"""",10: None,}}:"; "    Not(in_/in_  ,  x_1=  None and """")"],
   Some ([TClass "A" [(EName "B"); (EAttr (EName "c") "D")]
    [TFun "f"]], [("m.A.f", mkFun "m" (Some "m.A") KClass ["x_1"; "b"; "in_"; "self"] [("x_1", (ECall (EConst CTrue) [] None [] None)); ("b", (EJoined [(EConst (CStr "{a"))])); ("in_", (EList [(EConst CTrue)])); ("self", (EConst CTrue))] None [] None
   [SFor (TTuple [(TName "b"); (TName "x_1")] None) (EDict [((ETuple [(EConst CTrue); (EName "_y")]), (EDict [((EConst (CInt 7)), (EConst (CStr ""))); ((EConst (CInt 10)), (EConst CNone))]))])
     [SExpr (ECall (EName "Not") [(EBin OpDiv (EName "in_") (EName "in_"))] None [("x_1", (EAnd [(EConst CNone); (EConst (CStr ""))]))] None)]])]));
  (["class A(B):"; " x = f"""""],
   Some ([TClass "A" [(EName "B")]
    [TAssign "x" (EJoined [])]], []));
  (["class A(B, c.D):"; " x = x_1(*None, self =None, b= ""a )"")%  None"; " def g_2(b=True +True ,_y=None if None else _y ,x_1=[True ,cd] ,**kw) -> int:"; "   x_1, x = f""{(17):{_y[1:2]}}""  >{25 :None ,  27 :cd}, self if 9 else 10"; "   self.If  = 29"; "   b = (True  +"")""+  ""c:"" if b else True if (""-.ab"" if ""(*"" else True)/""bcc""  > None else f""\.\."" "":"")"; " y: int"],
   Some ([TClass "A" [(EName "B"); (EAttr (EName "c") "D")]
    [TAssign "x" (EBin OpMod (ECall (EName "x_1") [] (Some (EConst CNone)) [("self", (EConst CNone)); ("b", (EConst (CStr "a )")))] None) (EConst CNone));
     TFun "g_2"]], [("m.A.g_2", mkFun "m" (Some "m.A") KPlain ["b"; "_y"; "x_1"] [("b", (EBin OpAdd (EConst CTrue) (EConst CTrue))); ("_y", (EIf (EConst CNone) (EConst CNone) (EName "_y"))); ("x_1", (EList [(EConst CTrue); (EName "cd")]))] None [] (Some "kw")
   [SAssign (TTuple [(TName "x_1"); (TName "x")] None) (ETuple [(ECmp (EJoined [(EFormat (EConst (CInt 17)) (Some (EJoined [(EFormat (ESlice (EName "_y") (Some (EConst (CInt 1))) (Some (EConst (CInt 2))) None) None)])))]) [(CmpGt, (EDict [((EConst (CInt 25)), (EConst CNone)); ((EConst (CInt 27)), (EName "cd"))]))]); (EIf (EConst (CInt 9)) (EName "self") (EConst (CInt 10)))]);
    SAssign (TSelf "If") (EConst (CInt 29));
    SAssign (TName "b") (EIf (EName "b") (EBin OpAdd (EBin OpAdd (EConst CTrue) (EConst (CStr ")"))) (EConst (CStr "c:"))) (EIf (ECmp (EBin OpDiv (EIf (EConst (CStr "(*")) (EConst (CStr "-.ab")) (EConst CTrue)) (EConst (CStr "bcc"))) [(CmpGt, (EConst CNone))]) (EConst CTrue) (EJoined [(EConst (CStr "\.\.:"))])))])]));
  (["class A(B):"; " y: int"],
   Some ([TClass "A" [(EName "B")]
    []], []));
  (["class A(B):"; " x = a.x_1._y"; " y: int"; " y: int"],
   Some ([TClass "A" [(EName "B")]
    [TAssign "x" (EAttr (EAttr (EName "a") "x_1") "_y")]], []));
  (["class A:"; " y: int"],
   Some ([TClass "A" []
    []], []));
  (["class A:"; " @classmethod"; " def f(b: int,  If=- 20,  Not=-  24) -> int:"; "   """"""text"""""""; "   return f""{('bb a'):{x_1[1:2]}}\."" ""a"""; "   if (_y.If[True])[:( 4 )]:"; "    return"; "   elif (-  ""ca"",):"; "    try:"; "        pass"; "        return"; "    except ValueError:"; "        self.cd =  [[None for self in (13) if (True) for in_ in (""-"") if (None)] for in_, self in ((18 if True else True)) for self, a in ((self)) if (_y[23])]"; "   elif Not:"; "    if -{Not:True  ,  True :  _y}:"; "      self.in_  =True"; "    else:"; "      raise [_y[""-""] ,cd.in_(True,*28,b=  True,**True)]"; "      12"; "    Not, *x = _y.cd(("""").x_1), cd.If(13, x_1)"; "   else:"; "    self.x_1  =  [(15 if 12 else x_1)  ,  {b:True  ,True:  16}]"; "    self.a=x_1._y.If"; "   a, *x = b(self + True,cd.a,x_1= {8: None for Not in (""a"") if (a) for in_ in (24)}), (a)[:in_:None]"; " def g_2(b: int,Not,x_1={None: None for Not, _y in (None) if (None) for a in ("""")},*,k,m=f""{(3):{self[1:2]}}"" ""a"",) -> int:"; "   try:"; "     self, x = None if a else 16 or (20), (4 if 8 else 5)"; "   except ValueError:"; "     try:"; "         raise Not"; "         If = {(in_, If, "":)"",)- 23 or 22: (""a*"" not in   True, (_y if If else 24), [b for in_ in ("" b*"") for Not, _y in (cd)],) for _y, a in ([b.If]) if (None)}"; "     except ValueError:"; "         x_1, *x = ([in_ for in_, self in (b)] ), []"; "     return  # note"; " @classmethod"; " def f(b=""-a"" if None else None  ,If=f""{('a'):}"" f"""" """"  ,in_=True  >True  ,cd=[None]):"; "   """"""text"""""""; "   for in_ in not True or (True if 7 else 18):"; "     if _y  -None/ -""0)*)"":  # note"; "      If += None"; "      x: int = (  None )"; "     else:  # note"; "      self.b=If.If[cd or None:]  # note"; "      return [(self)[""c""::None] for a, b in (- None) if ((""(c""  )) for If, a in (-If)]"; "     _y, x = (- None)[:(None if 25 else 23):], f""}}{{"" f""{(''):{Not[1:2]}}"" """""; "   in_ += [f"""" for cd, b in (None if True else "" c"") if (f""{(If):0{self}b}{{"") for Not in ((10 if ""cbb"" else "" c""))]  # note"],
   Some ([TClass "A" []
    [TFun "f";
     TFun "g_2";
     TFun "f"]], [("m.A.f", mkFun "m" (Some "m.A") KClass ["b"; "If"; "Not"] [("If", (ENeg (EConst (CInt 20)))); ("Not", (ENeg (EConst (CInt 24))))] None [] None
   [SReturn (Some (EJoined [(EFormat (EConst (CStr "bb a")) (Some (EJoined [(EFormat (ESlice (EName "x_1") (Some (EConst (CInt 1))) (Some (EConst (CInt 2))) None) None)]))); (EConst (CStr "\.a"))]));
    SIf (ESlice (EIndex (EAttr (EName "_y") "If") (EConst CTrue)) None (Some (EConst (CInt 4))) None)
     [SReturn None]
     [SIf (ETuple [(ENeg (EConst (CStr "ca")))])
       [STry [SPass;
          SReturn None] "ValueError"
         [SAssign (TSelf "cd") (EListComp (EListComp (EConst CNone) [((TName "self"), (EConst (CInt 13)), [(EConst CTrue)]); ((TName "in_"), (EConst (CStr "-")), [(EConst CNone)])]) [((TTuple [(TName "in_"); (TName "self")] None), (EIf (EConst CTrue) (EConst (CInt 18)) (EConst CTrue)), []); ((TTuple [(TName "self"); (TName "a")] None), (EName "self"), [(EIndex (EName "_y") (EConst (CInt 23)))])])]]
       [SIf (EName "Not")
         [SIf (ENeg (EDict [((EName "Not"), (EConst CTrue)); ((EConst CTrue), (EName "_y"))]))
           [SAssign (TSelf "in_") (EConst CTrue)]
           [SRaise (EList [(EIndex (EName "_y") (EConst (CStr "-"))); (ECall (EAttr (EName "cd") "in_") [(EConst CTrue)] (Some (EConst (CInt 28))) [("b", (EConst CTrue))] (Some (EConst CTrue)))]);
            SExpr (EConst (CInt 12))];
          SAssign (TTuple [(TName "Not")] (Some (TName "x"))) (ETuple [(ECall (EAttr (EName "_y") "cd") [(EAttr (EConst (CStr "")) "x_1")] None [] None); (ECall (EAttr (EName "cd") "If") [(EConst (CInt 13)); (EName "x_1")] None [] None)])]
         [SAssign (TSelf "x_1") (EList [(EIf (EConst (CInt 12)) (EConst (CInt 15)) (EName "x_1")); (EDict [((EName "b"), (EConst CTrue)); ((EConst CTrue), (EConst (CInt 16)))])]);
          SAssign (TSelf "a") (EAttr (EAttr (EName "x_1") "_y") "If")]]];
    SAssign (TTuple [(TName "a")] (Some (TName "x"))) (ETuple [(ECall (EName "b") [(EBin OpAdd (EName "self") (EConst CTrue)); (EAttr (EName "cd") "a")] None [("x_1", (EDictComp (EConst (CInt 8)) (EConst CNone) [((TName "Not"), (EConst (CStr "a")), [(EName "a")]); ((TName "in_"), (EConst (CInt 24)), [])]))] None); (ESlice (EName "a") None (Some (EName "in_")) (Some (EConst CNone)))])]); ("m.A.g_2", mkFun "m" (Some "m.A") KPlain ["b"; "Not"; "x_1"] [("x_1", (EDictComp (EConst CNone) (EConst CNone) [((TTuple [(TName "Not"); (TName "_y")] None), (EConst CNone), [(EConst CNone)]); ((TName "a"), (EConst (CStr "")), [])])); ("m", (EJoined [(EFormat (EConst (CInt 3)) (Some (EJoined [(EFormat (ESlice (EName "self") (Some (EConst (CInt 1))) (Some (EConst (CInt 2))) None) None)]))); (EConst (CStr "a"))]))] None ["k"; "m"] None
   [STry [SAssign (TTuple [(TName "self"); (TName "x")] None) (ETuple [(EIf (EName "a") (EConst CNone) (EOr [(EConst (CInt 16)); (EConst (CInt 20))])); (EIf (EConst (CInt 8)) (EConst (CInt 4)) (EConst (CInt 5)))])] "ValueError"
     [STry [SRaise (EName "Not");
        SAssign (TName "If") (EDictComp (EOr [(EBin OpSub (ETuple [(EName "in_"); (EName "If"); (EConst (CStr ":)"))]) (EConst (CInt 23))); (EConst (CInt 22))]) (ETuple [(ECmp (EConst (CStr "a*")) [(CmpNotIn, (EConst CTrue))]); (EIf (EName "If") (EName "_y") (EConst (CInt 24))); (EListComp (EName "b") [((TName "in_"), (EConst (CStr " b*")), []); ((TTuple [(TName "Not"); (TName "_y")] None), (EName "cd"), [])])]) [((TTuple [(TName "_y"); (TName "a")] None), (EList [(EAttr (EName "b") "If")]), [(EConst CNone)])])] "ValueError"
       [SAssign (TTuple [(TName "x_1")] (Some (TName "x"))) (ETuple [(EListComp (EName "in_") [((TTuple [(TName "in_"); (TName "self")] None), (EName "b"), [])]); (EList [])])];
      SReturn None]]); ("m.A.f", mkFun "m" (Some "m.A") KClass ["b"; "If"; "in_"; "cd"] [("b", (EIf (EConst CNone) (EConst (CStr "-a")) (EConst CNone))); ("If", (EJoined [(EFormat (EConst (CStr "a")) (Some (EJoined [])))])); ("in_", (ECmp (EConst CTrue) [(CmpGt, (EConst CTrue))])); ("cd", (EList [(EConst CNone)]))] None [] None
   [SFor (TName "in_") (EOr [(ENot (EConst CTrue)); (EIf (EConst (CInt 7)) (EConst CTrue) (EConst (CInt 18)))])
     [SIf (EBin OpSub (EName "_y") (EBin OpDiv (EConst CNone) (ENeg (EConst (CStr "0)*)")))))
       [SAug "If" OpAdd (EConst CNone);
        SAssign (TName "x") (EConst CNone)]
       [SAssign (TSelf "b") (ESlice (EAttr (EName "If") "If") (Some (EOr [(EName "cd"); (EConst CNone)])) None None);
        SReturn (Some (EListComp (ESlice (EName "self") (Some (EConst (CStr "c"))) None (Some (EConst CNone))) [((TTuple [(TName "a"); (TName "b")] None), (ENeg (EConst CNone)), [(EConst (CStr "(c"))]); ((TTuple [(TName "If"); (TName "a")] None), (ENeg (EName "If")), [])]))];
      SAssign (TTuple [(TName "_y"); (TName "x")] None) (ETuple [(ESlice (ENeg (EConst CNone)) None (Some (EIf (EConst (CInt 25)) (EConst CNone) (EConst (CInt 23)))) None); (EJoined [(EConst (CStr "}{")); (EFormat (EConst (CStr "")) (Some (EJoined [(EFormat (ESlice (EName "Not") (Some (EConst (CInt 1))) (Some (EConst (CInt 2))) None) None)])))])])];
    SAug "in_" OpAdd (EListComp (EJoined []) [((TTuple [(TName "cd"); (TName "b")] None), (EIf (EConst CTrue) (EConst CNone) (EConst (CStr " c"))), [(EJoined [(EFormat (EName "If") (Some (EJoined [(EConst (CStr "0")); (EFormat (EName "self") None); (EConst (CStr "b"))]))); (EConst (CStr "{"))])]); ((TName "Not"), (EIf (EConst (CStr "cbb")) (EConst (CInt 10)) (EConst (CStr " c"))), [])])])]));
  (["Not = cd.in_.self<[(True,),]"],
   Some ([TAssign "Not" (ECmp (EAttr (EAttr (EName "cd") "in_") "self") [(CmpLt, (EList [(ETuple [(EConst CTrue)])]))])], []));
  (["def f():"; "  """"""text"""""""; "  return (self,) or """"  # note"; "  self = not Not  - in_ if [b.self[26]] else a== None *( True)"; "  Not += [f"""" f""{('.:'):>3}x y"" ""*)a"" for a, Not in ("" ""  -  """") for _y, a in (self+  True)]"],
   Some ([TFun "f"], [("m.f", mkFun "m" None KPlain [] [] None [] None
   [SReturn (Some (EOr [(ETuple [(EName "self")]); (EConst (CStr ""))]));
    SAssign (TName "self") (EIf (EList [(EIndex (EAttr (EName "b") "self") (EConst (CInt 26)))]) (ENot (EBin OpSub (EName "Not") (EName "in_"))) (ECmp (EName "a") [(CmpEq, (EBin OpMul (EConst CNone) (EConst CTrue)))]));
    SAug "Not" OpAdd (EListComp (EJoined [(EFormat (EConst (CStr ".:")) (Some (EJoined [(EConst (CStr ">3"))]))); (EConst (CStr "x y*)a"))]) [((TTuple [(TName "a"); (TName "Not")] None), (EBin OpSub (EConst (CStr " ")) (EConst (CStr ""))), []); ((TTuple [(TName "_y"); (TName "a")] None), (EBin OpAdd (EName "self") (EConst CTrue)), [])])])]));
  (["def g_2(If: int,):"; "  if self.x_1[x_1[:]:]:  # note"; "    b += (  (  True  ) )"; "  elif None:  # note"; "    for Not, cd in []:"; "     continue"; "  else:  # note"; "    try:"; "        _y, *x = ((None if None else ""-( "")  ), {True :True,9:"".b"",}"; "    except ValueError:"; "        return cd.x_1"; "    return (0   not in None if (None if 15 else 14) else (""0)"")(None,self  =  True,in_=  Not,**"").ab""))  # note"; "  if not {True: True  ,  28 :  "")c:(""}:"; "    if (("""")).x_1:"; "      return"; "    elif [""ac"" for a, Not in (""caaa"") if (None)] if -self else a.a.If:"; "      x_1, *x = (b)._y  ==True and None, True or in_"; "    if {If.a[Not]:(True if None else True) ,  True if True else True :{"".cb"":If,}}:"; "        return ""a0(b""  # note"; "    else:"; "        _y = (f""{(None):0{in_}b}"" ""*bc*"")({-_y  :  2+""a.."",} ,[a() , -""""] ,a=18  - b or ""..""  - 5 ,cd={f""\.{(19):0{cd}b}"" f""{(11)}"": -  None for x_1 in (None +  9) if (not None) for If in (8 ==  x_1)})"; "        ""text"""; "  elif _y:"; "    if not {"" *-("": ""b "" for cd in (14)}:"; "     "; "     pass"; "     a = []"; "    elif - None+{"".-"":If}:"; "     return"; "  elif not Not+True:"; "    return [in_.x_1(None  ,in_  =  ""*(.""  ,a= 28),  b(cd ,True ,*None ,in_ = """")]  # note"; "    _y, *x = (in_.in_.in_ if self.If.self else None or Not), If[:None:]"; "  for in_, If in cd.a:"; "   try:  # note"; "    return  # note"; "    self += a(True  ,  26  ,  x_1=b  ,  Not=  None) if 2 else {Not :cd}"; "   except ValueError:  # note"; "    self.b  = _y.If(15  ,  *True  ,  in_=x_1)-  True-9"; "   self.a=True *None if ["".0*"" for a in (None) for in_ in (21) if (Not)] else cd.x_1[None]"],
   Some ([TFun "g_2"], [("m.g_2", mkFun "m" None KPlain ["If"] [] None [] None
   [SIf (ESlice (EAttr (EName "self") "x_1") (Some (ESlice (EName "x_1") None None None)) None None)
     [SAug "b" OpAdd (EConst CTrue)]
     [SIf (EConst CNone)
       [SFor (TTuple [(TName "Not"); (TName "cd")] None) (EList [])
         [SContinue]]
       [STry [SAssign (TTuple [(TName "_y")] (Some (TName "x"))) (ETuple [(EIf (EConst CNone) (EConst CNone) (EConst (CStr "-( "))); (EDict [((EConst CTrue), (EConst CTrue)); ((EConst (CInt 9)), (EConst (CStr ".b")))])])] "ValueError"
         [SReturn (Some (EAttr (EName "cd") "x_1"))];
        SReturn (Some (EIf (EIf (EConst (CInt 15)) (EConst CNone) (EConst (CInt 14))) (ECmp (EConst (CInt 0)) [(CmpNotIn, (EConst CNone))]) (ECall (EConst (CStr "0)")) [(EConst CNone)] None [("self", (EConst CTrue)); ("in_", (EName "Not"))] (Some (EConst (CStr ").ab"))))))]];
    SIf (ENot (EDict [((EConst CTrue), (EConst CTrue)); ((EConst (CInt 28)), (EConst (CStr ")c:(")))]))
     [SIf (EAttr (EConst (CStr "")) "x_1")
       [SReturn None]
       [SIf (EIf (ENeg (EName "self")) (EListComp (EConst (CStr "ac")) [((TTuple [(TName "a"); (TName "Not")] None), (EConst (CStr "caaa")), [(EConst CNone)])]) (EAttr (EAttr (EName "a") "a") "If"))
         [SAssign (TTuple [(TName "x_1")] (Some (TName "x"))) (ETuple [(EAnd [(ECmp (EAttr (EName "b") "_y") [(CmpEq, (EConst CTrue))]); (EConst CNone)]); (EOr [(EConst CTrue); (EName "in_")])])]
         []];
      SIf (EDict [((EIndex (EAttr (EName "If") "a") (EName "Not")), (EIf (EConst CNone) (EConst CTrue) (EConst CTrue))); ((EIf (EConst CTrue) (EConst CTrue) (EConst CTrue)), (EDict [((EConst (CStr ".cb")), (EName "If"))]))])
       [SReturn (Some (EConst (CStr "a0(b")))]
       [SAssign (TName "_y") (ECall (EJoined [(EFormat (EConst CNone) (Some (EJoined [(EConst (CStr "0")); (EFormat (EName "in_") None); (EConst (CStr "b"))]))); (EConst (CStr "*bc*"))]) [(EDict [((ENeg (EName "_y")), (EBin OpAdd (EConst (CInt 2)) (EConst (CStr "a.."))))]); (EList [(ECall (EName "a") [] None [] None); (ENeg (EConst (CStr "")))])] None [("a", (EOr [(EBin OpSub (EConst (CInt 18)) (EName "b")); (EBin OpSub (EConst (CStr "..")) (EConst (CInt 5)))])); ("cd", (EDictComp (EJoined [(EConst (CStr "\.")); (EFormat (EConst (CInt 19)) (Some (EJoined [(EConst (CStr "0")); (EFormat (EName "cd") None); (EConst (CStr "b"))]))); (EFormat (EConst (CInt 11)) None)]) (ENeg (EConst CNone)) [((TName "x_1"), (EBin OpAdd (EConst CNone) (EConst (CInt 9))), [(ENot (EConst CNone))]); ((TName "If"), (ECmp (EConst (CInt 8)) [(CmpEq, (EName "x_1"))]), [])]))] None)]]
     [SIf (EName "_y")
       [SIf (ENot (EDictComp (EConst (CStr " *-(")) (EConst (CStr "b ")) [((TName "cd"), (EConst (CInt 14)), [])]))
         [SPass;
          SAssign (TName "a") (EList [])]
         [SIf (EBin OpAdd (ENeg (EConst CNone)) (EDict [((EConst (CStr ".-")), (EName "If"))]))
           [SReturn None]
           []]]
       [SIf (ENot (EBin OpAdd (EName "Not") (EConst CTrue)))
         [SReturn (Some (EList [(ECall (EAttr (EName "in_") "x_1") [(EConst CNone)] None [("in_", (EConst (CStr "*(."))); ("a", (EConst (CInt 28)))] None); (ECall (EName "b") [(EName "cd"); (EConst CTrue)] (Some (EConst CNone)) [("in_", (EConst (CStr "")))] None)]));
          SAssign (TTuple [(TName "_y")] (Some (TName "x"))) (ETuple [(EIf (EAttr (EAttr (EName "self") "If") "self") (EAttr (EAttr (EName "in_") "in_") "in_") (EOr [(EConst CNone); (EName "Not")])); (ESlice (EName "If") None (Some (EConst CNone)) None)])]
         []]];
    SFor (TTuple [(TName "in_"); (TName "If")] None) (EAttr (EName "cd") "a")
     [STry [SReturn None;
        SAug "self" OpAdd (EIf (EConst (CInt 2)) (ECall (EName "a") [(EConst CTrue); (EConst (CInt 26))] None [("x_1", (EName "b")); ("Not", (EConst CNone))] None) (EDict [((EName "Not"), (EName "cd"))]))] "ValueError"
       [SAssign (TSelf "b") (EBin OpSub (EBin OpSub (ECall (EAttr (EName "_y") "If") [(EConst (CInt 15))] (Some (EConst CTrue)) [("in_", (EName "x_1"))] None) (EConst CTrue)) (EConst (CInt 9)))];
      SAssign (TSelf "a") (EIf (EListComp (EConst (CStr ".0*")) [((TName "a"), (EConst CNone), []); ((TName "in_"), (EConst (CInt 21)), [(EName "Not")])]) (EBin OpMul (EConst CTrue) (EConst CNone)) (EIndex (EAttr (EName "cd") "x_1") (EConst CNone)))]])]));
  (["self = ("":0"", 5, ""("",) if [14 for _y, in_ in (12) if (_y)] else cd.If[x_1] if -{None: None for a in ("" "")} else ((""*(:."")[True] if 17 *  None else None or None)"],
   Some ([TAssign "self" (EIf (EListComp (EConst (CInt 14)) [((TTuple [(TName "_y"); (TName "in_")] None), (EConst (CInt 12)), [(EName "_y")])]) (ETuple [(EConst (CStr ":0")); (EConst (CInt 5)); (EConst (CStr "("))]) (EIf (ENeg (EDictComp (EConst CNone) (EConst CNone) [((TName "a"), (EConst (CStr " ")), [])])) (EIndex (EAttr (EName "cd") "If") (EName "x_1")) (EIf (EBin OpMul (EConst (CInt 17)) (EConst CNone)) (EIndex (EConst (CStr "*(:.")) (EConst CTrue)) (EOr [(EConst CNone); (EConst CNone)]))))], []));
  (["class A(B):"; " y: int"],
   Some ([TClass "A" [(EName "B")]
    []], []));
  (["def g_2(*rest):"; "  return"; "  if (True  ):"; "    if a[[True,  True]:]:  # note"; "        None"; "    elif 27  -(True ):  # note"; "        _y += True"; "        b = b.in_[:- True if ( None ) else (8  ):(-  15, {None:0,}, (cd)[True],)]"; "    elif If.Not or (True ):  # note"; "        _y, x = {-26 :  a in  25}, f""{{"" f""""  # note"; "  elif {}:"; "    return cd((True,))"; "    ""text"""; "  f""{(True):{cd[1:2]}}"" f""{(True):0{_y}b}"""],
   Some ([TFun "g_2"], [("m.g_2", mkFun "m" None KPlain [] [] (Some "rest") [] None
   [SReturn None;
    SIf (EConst CTrue)
     [SIf (ESlice (EName "a") (Some (EList [(EConst CTrue); (EConst CTrue)])) None None)
       [SExpr (EConst CNone)]
       [SIf (EBin OpSub (EConst (CInt 27)) (EConst CTrue))
         [SAug "_y" OpAdd (EConst CTrue);
          SAssign (TName "b") (ESlice (EAttr (EName "b") "in_") None (Some (EIf (EConst CNone) (ENeg (EConst CTrue)) (EConst (CInt 8)))) (Some (ETuple [(ENeg (EConst (CInt 15))); (EDict [((EConst CNone), (EConst (CInt 0)))]); (EIndex (EName "cd") (EConst CTrue))])))]
         [SIf (EOr [(EAttr (EName "If") "Not"); (EConst CTrue)])
           [SAssign (TTuple [(TName "_y"); (TName "x")] None) (ETuple [(EDict [((ENeg (EConst (CInt 26))), (ECmp (EName "a") [(CmpIn, (EConst (CInt 25)))]))]); (EJoined [(EConst (CStr "{"))])])]
           []]]]
     [SIf (EDict [])
       [SReturn (Some (ECall (EName "cd") [(ETuple [(EConst CTrue)])] None [] None))]
       []];
    SExpr (EJoined [(EFormat (EConst CTrue) (Some (EJoined [(EFormat (ESlice (EName "cd") (Some (EConst (CInt 1))) (Some (EConst (CInt 2))) None) None)]))); (EFormat (EConst CTrue) (Some (EJoined [(EConst (CStr "0")); (EFormat (EName "_y") None); (EConst (CStr "b"))])))])])]));
  (["class A(B, c.D):"; " @classmethod"; " def f(x_1: int,  *rest: int):"; "   f""{{"" f""""  # note"; "   x: int = "". ))"" if True else self"; " y: int"; " x = (f""{{{(22):{b[1:2]}}"")[-  8]"],
   Some ([TClass "A" [(EName "B"); (EAttr (EName "c") "D")]
    [TFun "f";
     TAssign "x" (EIndex (EJoined [(EConst (CStr "{")); (EFormat (EConst (CInt 22)) (Some (EJoined [(EFormat (ESlice (EName "b") (Some (EConst (CInt 1))) (Some (EConst (CInt 2))) None) None)])))]) (ENeg (EConst (CInt 8))))]], [("m.A.f", mkFun "m" (Some "m.A") KClass ["x_1"] [] (Some "rest") [] None
   [SExpr (EJoined [(EConst (CStr "{"))]);
    SAssign (TName "x") (EIf (EConst CTrue) (EConst (CStr ". ))")) (EName "self"))])]));
  (["def g_2(Not=-"":0 "",cd=25 and None,x_1=cd,*,k,m,):"; "  """"""text"""""""; "  Not = (x_1[None]+  {""()ca"": _y for a, in_ in (True) if ("" a"")} if f""x y"" "" 0:"" else {self[True]: f""{(11):}"" "".(:"" for _y, self in ({28: 22 for x_1, b in ("":b."")}) for in_, b in ((""a)"", None, "": *-"",)) if ({})})"],
   Some ([TFun "g_2"], [("m.g_2", mkFun "m" None KPlain ["Not"; "cd"; "x_1"] [("Not", (ENeg (EConst (CStr ":0 ")))); ("cd", (EAnd [(EConst (CInt 25)); (EConst CNone)])); ("x_1", (EName "cd"))] None ["k"; "m"] None
   [SAssign (TName "Not") (EIf (EJoined [(EConst (CStr "x y 0:"))]) (EBin OpAdd (EIndex (EName "x_1") (EConst CNone)) (EDictComp (EConst (CStr "()ca")) (EName "_y") [((TTuple [(TName "a"); (TName "in_")] None), (EConst CTrue), [(EConst (CStr " a"))])])) (EDictComp (EIndex (EName "self") (EConst CTrue)) (EJoined [(EFormat (EConst (CInt 11)) (Some (EJoined []))); (EConst (CStr ".(:"))]) [((TTuple [(TName "_y"); (TName "self")] None), (EDictComp (EConst (CInt 28)) (EConst (CInt 22)) [((TTuple [(TName "x_1"); (TName "b")] None), (EConst (CStr ":b.")), [])]), []); ((TTuple [(TName "in_"); (TName "b")] None), (ETuple [(EConst (CStr "a)")); (EConst CNone); (EConst (CStr ": *-"))]), [(EDict [])])]))])]));
  (["def f(self  ,in_: int  ,cd="")c"" or 6  ,b=True and _y  ,**kw):"; "  try:  # note"; "   try:"; "       self, x = a.a, {9  : 2,True :"" )a""}"; "   except E:"; "       Not = {([])[a:(True, """",):]:  (f""{(a)}:{(True):0{b}b}"" ""**:c""  )}"; "       _y += -14+True"; "  except ValueError:  # note"; "   _y = If.Not"; "   return 25 or None if [12 for self in (None) if (None) for x_1, self in (21)] else True  != Not"; "  cd = [[18 for x_1, b in (None) if (Not)],None]  /{{"""": 22 for self in (self)} :None-a}  # note"],
   Some ([TFun "f"], [("m.f", mkFun "m" None KPlain ["self"; "in_"; "cd"; "b"] [("cd", (EOr [(EConst (CStr ")c")); (EConst (CInt 6))])); ("b", (EAnd [(EConst CTrue); (EName "_y")]))] None [] (Some "kw")
   [STry [STry [SAssign (TTuple [(TName "self"); (TName "x")] None) (ETuple [(EAttr (EName "a") "a"); (EDict [((EConst (CInt 9)), (EConst (CInt 2))); ((EConst CTrue), (EConst (CStr " )a")))])])] "E"
       [SAssign (TName "Not") (EDict [((ESlice (EList []) (Some (EName "a")) (Some (ETuple [(EConst CTrue); (EConst (CStr ""))])) None), (EJoined [(EFormat (EName "a") None); (EConst (CStr ":")); (EFormat (EConst CTrue) (Some (EJoined [(EConst (CStr "0")); (EFormat (EName "b") None); (EConst (CStr "b"))]))); (EConst (CStr "**:c"))]))]);
        SAug "_y" OpAdd (EBin OpAdd (ENeg (EConst (CInt 14))) (EConst CTrue))]] "ValueError"
     [SAssign (TName "_y") (EAttr (EName "If") "Not");
      SReturn (Some (EIf (EListComp (EConst (CInt 12)) [((TName "self"), (EConst CNone), [(EConst CNone)]); ((TTuple [(TName "x_1"); (TName "self")] None), (EConst (CInt 21)), [])]) (EOr [(EConst (CInt 25)); (EConst CNone)]) (ECmp (EConst CTrue) [(CmpNe, (EName "Not"))])))];
    SAssign (TName "cd") (EBin OpDiv (EList [(EListComp (EConst (CInt 18)) [((TTuple [(TName "x_1"); (TName "b")] None), (EConst CNone), [(EName "Not")])]); (EConst CNone)]) (EDict [((EDictComp (EConst (CStr "")) (EConst (CInt 22)) [((TName "self"), (EName "self"), [])]), (EBin OpSub (EConst CNone) (EName "a")))]))])]));
  (["If = True"],
   Some ([TAssign "If" (EConst CTrue)], []));
  (["class A(B, c.D):"; " x = ( """" )"],
   Some ([TClass "A" [(EName "B"); (EAttr (EName "c") "D")]
    [TAssign "x" (EConst (CStr ""))]], []));
  (["def g_2(cd  ,_y=[True]):"; "  """"""text"""""""; "  x: int = a._y[:9]"; "  try:"; "   raise 29  # note"; "  except E:"; "   self.x_1 =(_y <  True if ( ""00c""  ) else [])"],
   Some ([TFun "g_2"], [("m.g_2", mkFun "m" None KPlain ["cd"; "_y"] [("_y", (EList [(EConst CTrue)]))] None [] None
   [SAssign (TName "x") (ESlice (EAttr (EName "a") "_y") None (Some (EConst (CInt 9))) None);
    STry [SRaise (EConst (CInt 29))] "E"
     [SAssign (TSelf "x_1") (EIf (EConst (CStr "00c")) (ECmp (EName "_y") [(CmpLt, (EConst CTrue))]) (EList []))]])]));
  (["class A(B, c.D):"; " y: int"],
   Some ([TClass "A" [(EName "B"); (EAttr (EName "c") "D")]
    []], []));
  (["def f(a, If=not _y, *rest):"; "  """"""text"""""""; "  self, *x = -  True, True  <b"; "  a.If and True  >= None"],
   Some ([TFun "f"], [("m.f", mkFun "m" None KPlain ["a"; "If"] [("If", (ENot (EName "_y")))] (Some "rest") [] None
   [SAssign (TTuple [(TName "self")] (Some (TName "x"))) (ETuple [(ENeg (EConst CTrue)); (ECmp (EConst CTrue) [(CmpLt, (EName "b"))])]);
    SExpr (EAnd [(EAttr (EName "a") "If"); (ECmp (EConst CTrue) [(CmpGe, (EConst CNone))])])])]));
  (["class A:"; " x = f""x y:"" f""{(True):0{a}b}"""],
   Some ([TClass "A" []
    [TAssign "x" (EJoined [(EConst (CStr "x y:")); (EFormat (EConst CTrue) (Some (EJoined [(EConst (CStr "0")); (EFormat (EName "a") None); (EConst (CStr "b"))])))])]], []));
  (["def f(Not=b._y[True],  **kw):"; "  Not, x = (""c"" >= None,), (True)"; "  try:  # note"; "    if {f""{(''):0{If}b}{(''):{x_1[1:2]}}"": [cd ,20] for b, a in (f""\.{(None)}{(True):}"") if ((_y)[:10:x_1])}:"; "      x_1 += ({x_1  : 8  ,12 : None})(True%If  ,_y  =not True)"; "  except ValueError:  # note"; "    if (cd).If  % (True).Not:"; "        self.self=6"; "        {Not or True: """"+""* :"" for If, b in ({True: None for b in (None) if (1)}) if (True- True)}"; "    elif [True,] if -"".)"" else {9: True for If in (True) for b, _y in ("""") if ("")-."")}:"; "        -f""{('0 a)'):0{cd}b}"" f""x y"" ""b."""; "        b, x = [None>=True for _y, cd in (15)], (None,)"; "    elif f"""":"; "        cd, *x = [(x_1 if 13 else None),], not Not"; "    else:"; "        return x_1.cd[(None,):{11:25}]  # note"; "        pass  # note"],
   Some ([TFun "f"], [("m.f", mkFun "m" None KPlain ["Not"] [("Not", (EIndex (EAttr (EName "b") "_y") (EConst CTrue)))] None [] (Some "kw")
   [SAssign (TTuple [(TName "Not"); (TName "x")] None) (ETuple [(ETuple [(ECmp (EConst (CStr "c")) [(CmpGe, (EConst CNone))])]); (EConst CTrue)]);
    STry [SIf (EDictComp (EJoined [(EFormat (EConst (CStr "")) (Some (EJoined [(EConst (CStr "0")); (EFormat (EName "If") None); (EConst (CStr "b"))]))); (EFormat (EConst (CStr "")) (Some (EJoined [(EFormat (ESlice (EName "x_1") (Some (EConst (CInt 1))) (Some (EConst (CInt 2))) None) None)])))]) (EList [(EName "cd"); (EConst (CInt 20))]) [((TTuple [(TName "b"); (TName "a")] None), (EJoined [(EConst (CStr "\.")); (EFormat (EConst CNone) None); (EFormat (EConst CTrue) (Some (EJoined [])))]), [(ESlice (EName "_y") None (Some (EConst (CInt 10))) (Some (EName "x_1")))])])
       [SAug "x_1" OpAdd (ECall (EDict [((EName "x_1"), (EConst (CInt 8))); ((EConst (CInt 12)), (EConst CNone))]) [(EBin OpMod (EConst CTrue) (EName "If"))] None [("_y", (ENot (EConst CTrue)))] None)]
       []] "ValueError"
     [SIf (EBin OpMod (EAttr (EName "cd") "If") (EAttr (EConst CTrue) "Not"))
       [SAssign (TSelf "self") (EConst (CInt 6));
        SExpr (EDictComp (EOr [(EName "Not"); (EConst CTrue)]) (EBin OpAdd (EConst (CStr "")) (EConst (CStr "* :"))) [((TTuple [(TName "If"); (TName "b")] None), (EDictComp (EConst CTrue) (EConst CNone) [((TName "b"), (EConst CNone), [(EConst (CInt 1))])]), [(EBin OpSub (EConst CTrue) (EConst CTrue))])])]
       [SIf (EIf (ENeg (EConst (CStr ".)"))) (EList [(EConst CTrue)]) (EDictComp (EConst (CInt 9)) (EConst CTrue) [((TName "If"), (EConst CTrue), []); ((TTuple [(TName "b"); (TName "_y")] None), (EConst (CStr "")), [(EConst (CStr ")-."))])]))
         [SExpr (ENeg (EJoined [(EFormat (EConst (CStr "0 a)")) (Some (EJoined [(EConst (CStr "0")); (EFormat (EName "cd") None); (EConst (CStr "b"))]))); (EConst (CStr "x yb."))]));
          SAssign (TTuple [(TName "b"); (TName "x")] None) (ETuple [(EListComp (ECmp (EConst CNone) [(CmpGe, (EConst CTrue))]) [((TTuple [(TName "_y"); (TName "cd")] None), (EConst (CInt 15)), [])]); (ETuple [(EConst CNone)])])]
         [SIf (EJoined [])
           [SAssign (TTuple [(TName "cd")] (Some (TName "x"))) (ETuple [(EList [(EIf (EConst (CInt 13)) (EName "x_1") (EConst CNone))]); (ENot (EName "Not"))])]
           [SReturn (Some (ESlice (EAttr (EName "x_1") "cd") (Some (ETuple [(EConst CNone)])) (Some (EDict [((EConst (CInt 11)), (EConst (CInt 25)))])) None));
            SPass]]]]])]));
  (["def f(cd=True,*,k,m={4: True for a, x_1 in (True) for _y, If in (True) if (True)}):"; "  self._y=((28 )).self  # note"],
   Some ([TFun "f"], [("m.f", mkFun "m" None KPlain ["cd"] [("cd", (EConst CTrue)); ("m", (EDictComp (EConst (CInt 4)) (EConst CTrue) [((TTuple [(TName "a"); (TName "x_1")] None), (EConst CTrue), []); ((TTuple [(TName "_y"); (TName "If")] None), (EConst CTrue), [(EConst CTrue)])]))] None ["k"; "m"] None
   [SAssign (TSelf "_y") (EAttr (EConst (CInt 28)) "self")])]));
  (["def g_2(Not: int,  in_: int,  _y=(True,)) -> int:"; "  self = (  ({cd:  7} if f""\."" """" else self) )  # note"],
   Some ([TFun "g_2"], [("m.g_2", mkFun "m" None KPlain ["Not"; "in_"; "_y"] [("_y", (ETuple [(EConst CTrue)]))] None [] None
   [SAssign (TName "self") (EIf (EJoined [(EConst (CStr "\."))]) (EDict [((EName "cd"), (EConst (CInt 7)))]) (EName "self"))])]));
  (["class A(B, c.D):"; " y: int"],
   Some ([TClass "A" [(EName "B"); (EAttr (EName "c") "D")]
    []], []));
  (["Not = (a(Not =  18  -in_ , cd  =[4,],))[_y[{in_:  None ,29:  in_,}]]"],
   Some ([TAssign "Not" (EIndex (ECall (EName "a") [] None [("Not", (EBin OpSub (EConst (CInt 18)) (EName "in_"))); ("cd", (EList [(EConst (CInt 4))]))] None) (EIndex (EName "_y") (EDict [((EName "in_"), (EConst CNone)); ((EConst (CInt 29)), (EName "in_"))])))], []));
  (["b = If"],
   Some ([TAssign "b" (EName "If")], []));
  (["def g_2(self=Not.Not.Not  , *rest: int):"; "  b = {Not.b[True-  25:not 26:]:3+f""{(True)}\."" ""-"",("")c "",)-  (None if 22 else None): {}}"; "  in_ = If"],
   Some ([TFun "g_2"], [("m.g_2", mkFun "m" None KPlain ["self"] [("self", (EAttr (EAttr (EName "Not") "Not") "Not"))] (Some "rest") [] None
   [SAssign (TName "b") (EDict [((ESlice (EAttr (EName "Not") "b") (Some (EBin OpSub (EConst CTrue) (EConst (CInt 25)))) (Some (ENot (EConst (CInt 26)))) None), (EBin OpAdd (EConst (CInt 3)) (EJoined [(EFormat (EConst CTrue) None); (EConst (CStr "\.-"))]))); ((EBin OpSub (ETuple [(EConst (CStr ")c "))]) (EIf (EConst (CInt 22)) (EConst CNone) (EConst CNone))), (EDict []))]);
    SAssign (TName "in_") (EName "If")])]));
  (["self = ("":c"",)"],
   Some ([TAssign "self" (ETuple [(EConst (CStr ":c"))])], []));
  (["def f(self: int):"; "  if b.x_1[None::""""] >=(6)(_y  ,  True):"; "    in_ = ( x_1)  # note"; "  elif not 20 and in_:"; "    raise None"; "  else:"; "    if ((""(0"")[""bcb)""::])[b.self[:]]:  # note"; "        a, x = -("":*"" if cd else 3), -  True"; "        b = (--  True).in_"],
   Some ([TFun "f"], [("m.f", mkFun "m" None KPlain ["self"] [] None [] None
   [SIf (ECmp (ESlice (EAttr (EName "b") "x_1") (Some (EConst CNone)) None (Some (EConst (CStr "")))) [(CmpGe, (ECall (EConst (CInt 6)) [(EName "_y"); (EConst CTrue)] None [] None))])
     [SAssign (TName "in_") (EName "x_1")]
     [SIf (EAnd [(ENot (EConst (CInt 20))); (EName "in_")])
       [SRaise (EConst CNone)]
       [SIf (EIndex (ESlice (EConst (CStr "(0")) (Some (EConst (CStr "bcb)"))) None None) (ESlice (EAttr (EName "b") "self") None None None))
         [SAssign (TTuple [(TName "a"); (TName "x")] None) (ETuple [(ENeg (EIf (EName "cd") (EConst (CStr ":*")) (EConst (CInt 3)))); (ENeg (EConst CTrue))]);
          SAssign (TName "b") (EAttr (ENeg (ENeg (EConst CTrue))) "in_")]
         []]]])]));
  (["If = Not[True:]+4 if {(19 if True else True): ("") "" if 5 else True) for If, cd in (in_.Not)} else a[:]"],
   Some ([TAssign "If" (EIf (EDictComp (EIf (EConst CTrue) (EConst (CInt 19)) (EConst CTrue)) (EIf (EConst (CInt 5)) (EConst (CStr ") ")) (EConst CTrue)) [((TTuple [(TName "If"); (TName "cd")] None), (EAttr (EName "in_") "Not"), [])]) (EBin OpAdd (ESlice (EName "Not") (Some (EConst CTrue)) None None) (EConst (CInt 4))) (ESlice (EName "a") None None None))], []));
  (["def g_2(_y: int ,b: int ,cd=(""cb))"")[:None:] ,If=(None if True else True) ,* ,k ,m=(None ) ,**kw,) -> int:"; "  if cd._y[""""] if -  None else in_:"; "      self.If = [not If]"; "  else:"; "      if _y[:cd.If[True]]:"; "        return cd[If._y.a]"; "      elif - b.b[16]:"; "        return {(""("", None, None,): ("")."").in_ for Not in ((True)[::a]) for b, a in ((None)) if (""-a"" *  self)}"; "      elif (Not if True else ""b"") if 26 else b[""""]:"; "        in_.cd[[""c-c"",]]"; "        return {}"; "      ""text"""; "  if """":"; "    in_ = ({None: None for in_, x_1 in (True)} if {""-c"":  True} else -"")"", {True -13: (26)(b =28  , x_1= None,) for Not in (If) for self, If in ((a if True else 19)) if ([])}, 20,)"; "    try:"; "     self.in_=not True -  f""{{}}{(True):}""  # note"; "    except ValueError:"; "     in_ = - {_y  :  11}- -self"; "  elif {self if None else None: a.Not.Not for cd in ([None,])}:"; "    if {f"""" f"""":19 !=  None}:  # note"; "      a += []%Not.x_1[:]"; "    elif not ""(aa)"" *True:  # note"; "      return"; "      Not = {x_1: True for in_, x_1 in (27)}-x_1.self.self!=(-15 if self.cd(**Not,) else x_1(True , b=True , If =0))"; "    else:  # note"; "      self.Not  =(None or None)[:]"; "    ( (Not).Not  )"; "  elif True if 3 else ""(0""% True:"; "    Not += ((True)).a"; "  if ((x_1 if 10 else a),):"; "   self.cd =  Not.x_1(not None,11,)  # note"; "   If += (None).in_  # note"; "  elif ([18 for _y in ("":.c."") if (None)]).in_:"; "   if If.x_1.If:"; "    Not += True  +None if ( x_1) else [6 for Not, in_ in (None) if (True)]"; "    b = cd"; "   elif f""{{"" f""x y"":"; "    self.in_=  Not(True  ,  in_  ,  self=  None) if b else in_.If.a"; "    x_1 = ""00"""; "   elif {(None)[_y]: ""a""== ""b0"" for b in (""aba "") if (f"""" f""{(None):{_y[1:2]}}\."") for _y, cd in ((Not if Not else True))}:"; "    [{""-"":""-.""}]"; "    Not, x = {{""*0cc"": b for cd, _y in (self) for in_, b in (22)}: [_y for a, b in ("" )c"") for b in (""0cc-"")] for in_ in ((None)(None,  _y="")a "")) if (True and b) for _y in ([""  -"" for cd in (None) if ("":)"")]) if ((16 ))}, -  ""cb*a"""; "   else:"; "    self = ( [(True) for Not in (11 if """" else 19) if (- 12) for _y in (None) if (True if ""-a:b"" else """")] )  # note"; "   b += not (in_, True, 20,)"; "  else:"; "   in_, x = [""b"" for If, in_ in (True  <=None)], 26  -  True"; "   _y = (If(True, True, _y  =8, a = 5))[If.b[""b""]] *(15).b /  None and True"],
   Some ([TFun "g_2"], [("m.g_2", mkFun "m" None KPlain ["_y"; "b"; "cd"; "If"] [("cd", (ESlice (EConst (CStr "cb))")) None (Some (EConst CNone)) None)); ("If", (EIf (EConst CTrue) (EConst CNone) (EConst CTrue))); ("m", (EConst CNone))] None ["k"; "m"] (Some "kw")
   [SIf (EIf (ENeg (EConst CNone)) (EIndex (EAttr (EName "cd") "_y") (EConst (CStr ""))) (EName "in_"))
     [SAssign (TSelf "If") (EList [(ENot (EName "If"))])]
     [SIf (ESlice (EName "_y") None (Some (EIndex (EAttr (EName "cd") "If") (EConst CTrue))) None)
       [SReturn (Some (EIndex (EName "cd") (EAttr (EAttr (EName "If") "_y") "a")))]
       [SIf (ENeg (EIndex (EAttr (EName "b") "b") (EConst (CInt 16))))
         [SReturn (Some (EDictComp (ETuple [(EConst (CStr "(")); (EConst CNone); (EConst CNone)]) (EAttr (EConst (CStr ").")) "in_") [((TName "Not"), (ESlice (EConst CTrue) None None (Some (EName "a"))), []); ((TTuple [(TName "b"); (TName "a")] None), (EConst CNone), [(EBin OpMul (EConst (CStr "-a")) (EName "self"))])]))]
         [SIf (EIf (EConst (CInt 26)) (EIf (EConst CTrue) (EName "Not") (EConst (CStr "b"))) (EIndex (EName "b") (EConst (CStr ""))))
           [SExpr (EIndex (EAttr (EName "in_") "cd") (EList [(EConst (CStr "c-c"))]));
            SReturn (Some (EDict []))]
           []]]];
    SIf (EConst (CStr ""))
     [SAssign (TName "in_") (ETuple [(EIf (EDict [((EConst (CStr "-c")), (EConst CTrue))]) (EDictComp (EConst CNone) (EConst CNone) [((TTuple [(TName "in_"); (TName "x_1")] None), (EConst CTrue), [])]) (ENeg (EConst (CStr ")")))); (EDictComp (EBin OpSub (EConst CTrue) (EConst (CInt 13))) (ECall (EConst (CInt 26)) [] None [("b", (EConst (CInt 28))); ("x_1", (EConst CNone))] None) [((TName "Not"), (EName "If"), []); ((TTuple [(TName "self"); (TName "If")] None), (EIf (EConst CTrue) (EName "a") (EConst (CInt 19))), [(EList [])])]); (EConst (CInt 20))]);
      STry [SAssign (TSelf "in_") (ENot (EBin OpSub (EConst CTrue) (EJoined [(EConst (CStr "{}")); (EFormat (EConst CTrue) (Some (EJoined [])))])))] "ValueError"
       [SAssign (TName "in_") (EBin OpSub (ENeg (EDict [((EName "_y"), (EConst (CInt 11)))])) (ENeg (EName "self")))]]
     [SIf (EDictComp (EIf (EConst CNone) (EName "self") (EConst CNone)) (EAttr (EAttr (EName "a") "Not") "Not") [((TName "cd"), (EList [(EConst CNone)]), [])])
       [SIf (EDict [((EJoined []), (ECmp (EConst (CInt 19)) [(CmpNe, (EConst CNone))]))])
         [SAug "a" OpAdd (EBin OpMod (EList []) (ESlice (EAttr (EName "Not") "x_1") None None None))]
         [SIf (ENot (EBin OpMul (EConst (CStr "(aa)")) (EConst CTrue)))
           [SReturn None;
            SAssign (TName "Not") (ECmp (EBin OpSub (EDictComp (EName "x_1") (EConst CTrue) [((TTuple [(TName "in_"); (TName "x_1")] None), (EConst (CInt 27)), [])]) (EAttr (EAttr (EName "x_1") "self") "self")) [(CmpNe, (EIf (ECall (EAttr (EName "self") "cd") [] None [] (Some (EName "Not"))) (ENeg (EConst (CInt 15))) (ECall (EName "x_1") [(EConst CTrue)] None [("b", (EConst CTrue)); ("If", (EConst (CInt 0)))] None)))])]
           [SAssign (TSelf "Not") (ESlice (EOr [(EConst CNone); (EConst CNone)]) None None None)]];
        SExpr (EAttr (EName "Not") "Not")]
       [SIf (EIf (EConst (CInt 3)) (EConst CTrue) (EBin OpMod (EConst (CStr "(0")) (EConst CTrue)))
         [SAug "Not" OpAdd (EAttr (EConst CTrue) "a")]
         []]];
    SIf (ETuple [(EIf (EConst (CInt 10)) (EName "x_1") (EName "a"))])
     [SAssign (TSelf "cd") (ECall (EAttr (EName "Not") "x_1") [(ENot (EConst CNone)); (EConst (CInt 11))] None [] None);
      SAug "If" OpAdd (EAttr (EConst CNone) "in_")]
     [SIf (EAttr (EListComp (EConst (CInt 18)) [((TName "_y"), (EConst (CStr ":.c.")), [(EConst CNone)])]) "in_")
       [SIf (EAttr (EAttr (EName "If") "x_1") "If")
         [SAug "Not" OpAdd (EIf (EName "x_1") (EBin OpAdd (EConst CTrue) (EConst CNone)) (EListComp (EConst (CInt 6)) [((TTuple [(TName "Not"); (TName "in_")] None), (EConst CNone), [(EConst CTrue)])]));
          SAssign (TName "b") (EName "cd")]
         [SIf (EJoined [(EConst (CStr "{x y"))])
           [SAssign (TSelf "in_") (EIf (EName "b") (ECall (EName "Not") [(EConst CTrue); (EName "in_")] None [("self", (EConst CNone))] None) (EAttr (EAttr (EName "in_") "If") "a"));
            SAssign (TName "x_1") (EConst (CStr "00"))]
           [SIf (EDictComp (EIndex (EConst CNone) (EName "_y")) (ECmp (EConst (CStr "a")) [(CmpEq, (EConst (CStr "b0")))]) [((TName "b"), (EConst (CStr "aba ")), [(EJoined [(EFormat (EConst CNone) (Some (EJoined [(EFormat (ESlice (EName "_y") (Some (EConst (CInt 1))) (Some (EConst (CInt 2))) None) None)]))); (EConst (CStr "\."))])]); ((TTuple [(TName "_y"); (TName "cd")] None), (EIf (EName "Not") (EName "Not") (EConst CTrue)), [])])
             [SExpr (EList [(EDict [((EConst (CStr "-")), (EConst (CStr "-.")))])]);
              SAssign (TTuple [(TName "Not"); (TName "x")] None) (ETuple [(EDictComp (EDictComp (EConst (CStr "*0cc")) (EName "b") [((TTuple [(TName "cd"); (TName "_y")] None), (EName "self"), []); ((TTuple [(TName "in_"); (TName "b")] None), (EConst (CInt 22)), [])]) (EListComp (EName "_y") [((TTuple [(TName "a"); (TName "b")] None), (EConst (CStr " )c")), []); ((TName "b"), (EConst (CStr "0cc-")), [])]) [((TName "in_"), (ECall (EConst CNone) [(EConst CNone)] None [("_y", (EConst (CStr ")a ")))] None), [(EAnd [(EConst CTrue); (EName "b")])]); ((TName "_y"), (EListComp (EConst (CStr "  -")) [((TName "cd"), (EConst CNone), [(EConst (CStr ":)"))])]), [(EConst (CInt 16))])]); (ENeg (EConst (CStr "cb*a")))])]
             [SAssign (TName "self") (EListComp (EConst CTrue) [((TName "Not"), (EIf (EConst (CStr "")) (EConst (CInt 11)) (EConst (CInt 19))), [(ENeg (EConst (CInt 12)))]); ((TName "_y"), (EConst CNone), [(EIf (EConst (CStr "-a:b")) (EConst CTrue) (EConst (CStr "")))])])]]];
        SAug "b" OpAdd (ENot (ETuple [(EName "in_"); (EConst CTrue); (EConst (CInt 20))]))]
       [SAssign (TTuple [(TName "in_"); (TName "x")] None) (ETuple [(EListComp (EConst (CStr "b")) [((TTuple [(TName "If"); (TName "in_")] None), (ECmp (EConst CTrue) [(CmpLe, (EConst CNone))]), [])]); (EBin OpSub (EConst (CInt 26)) (EConst CTrue))]);
        SAssign (TName "_y") (EAnd [(EBin OpDiv (EBin OpMul (EIndex (ECall (EName "If") [(EConst CTrue); (EConst CTrue)] None [("_y", (EConst (CInt 8))); ("a", (EConst (CInt 5)))] None) (EIndex (EAttr (EName "If") "b") (EConst (CStr "b")))) (EAttr (EConst (CInt 15)) "b")) (EConst CNone)); (EConst CTrue)])]]])]));
  (["in_ = (x_1.x_1(11  , 6) if self.a else f""x y{(10):{b[1:2]}}"" f""{(None):>3}"" ""bc:"") and None"],
   Some ([TAssign "in_" (EAnd [(EIf (EAttr (EName "self") "a") (ECall (EAttr (EName "x_1") "x_1") [(EConst (CInt 11)); (EConst (CInt 6))] None [] None) (EJoined [(EConst (CStr "x y")); (EFormat (EConst (CInt 10)) (Some (EJoined [(EFormat (ESlice (EName "b") (Some (EConst (CInt 1))) (Some (EConst (CInt 2))) None) None)]))); (EFormat (EConst CNone) (Some (EJoined [(EConst (CStr ">3"))]))); (EConst (CStr "bc:"))])); (EConst CNone)])], []));
  (["cd = ((_y, a, ""a ("",)  )>{self.b[::]: Not.If[cd:None] for in_ in ((14)("" .."", 8,)) if (not 16)}"],
   Some ([TAssign "cd" (ECmp (ETuple [(EName "_y"); (EName "a"); (EConst (CStr "a ("))]) [(CmpGt, (EDictComp (ESlice (EAttr (EName "self") "b") None None None) (ESlice (EAttr (EName "Not") "If") (Some (EName "cd")) (Some (EConst CNone)) None) [((TName "in_"), (ECall (EConst (CInt 14)) [(EConst (CStr " ..")); (EConst (CInt 8))] None [] None), [(ENot (EConst (CInt 16)))])]))])], []));
  (["def f():"; "  """"""text"""""""; "  try:"; "    try:"; "     Not, x = f""{(2):{Not[1:2]}}{(None):>3}"" f"""" """", _y[True:"".""]  # note"; "     in_ = If"; "    except ValueError:"; "     f""{(None)}x y{(3):}"" f"""""; "  except E:"; "    try:"; "        b, *x = {True <  True  : 4>= "" ) b"" ,If.x_1[""b""] :( "" "")}, x_1[:None:None]  # note"; "        _y += ""b""-8 and (29,)"; "    except ValueError:"; "        "; "        pass"; "        cd = (in_[[]:Not(True ,  None ,  *22 ,  **a):])(Not  =  (19 if True else _y) and -  None  ,  **True  -True  <=  {None :True , None  :  None})"; "    If += ((""b.c"", None,),)"; "  If += ""*-c""/ in_[:""*-"":"":""]"; "  {-20: ( True  ) for Not in (True if True else ""-"") if (True if None else 26) for cd in (not None) if (- "" a-."")}"],
   Some ([TFun "f"], [("m.f", mkFun "m" None KPlain [] [] None [] None
   [STry [STry [SAssign (TTuple [(TName "Not"); (TName "x")] None) (ETuple [(EJoined [(EFormat (EConst (CInt 2)) (Some (EJoined [(EFormat (ESlice (EName "Not") (Some (EConst (CInt 1))) (Some (EConst (CInt 2))) None) None)]))); (EFormat (EConst CNone) (Some (EJoined [(EConst (CStr ">3"))])))]); (ESlice (EName "_y") (Some (EConst CTrue)) (Some (EConst (CStr "."))) None)]);
        SAssign (TName "in_") (EName "If")] "ValueError"
       [SExpr (EJoined [(EFormat (EConst CNone) None); (EConst (CStr "x y")); (EFormat (EConst (CInt 3)) (Some (EJoined [])))])]] "E"
     [STry [SAssign (TTuple [(TName "b")] (Some (TName "x"))) (ETuple [(EDict [((ECmp (EConst CTrue) [(CmpLt, (EConst CTrue))]), (ECmp (EConst (CInt 4)) [(CmpGe, (EConst (CStr " ) b")))])); ((EIndex (EAttr (EName "If") "x_1") (EConst (CStr "b"))), (EConst (CStr " ")))]); (ESlice (EName "x_1") None (Some (EConst CNone)) (Some (EConst CNone)))]);
        SAug "_y" OpAdd (EAnd [(EBin OpSub (EConst (CStr "b")) (EConst (CInt 8))); (ETuple [(EConst (CInt 29))])])] "ValueError"
       [SPass;
        SAssign (TName "cd") (ECall (ESlice (EName "in_") (Some (EList [])) (Some (ECall (EName "Not") [(EConst CTrue); (EConst CNone)] (Some (EConst (CInt 22))) [] (Some (EName "a")))) None) [] None [("Not", (EAnd [(EIf (EConst CTrue) (EConst (CInt 19)) (EName "_y")); (ENeg (EConst CNone))]))] (Some (ECmp (EBin OpSub (EConst CTrue) (EConst CTrue)) [(CmpLe, (EDict [((EConst CNone), (EConst CTrue)); ((EConst CNone), (EConst CNone))]))])))];
      SAug "If" OpAdd (ETuple [(ETuple [(EConst (CStr "b.c")); (EConst CNone)])])];
    SAug "If" OpAdd (EBin OpDiv (EConst (CStr "*-c")) (ESlice (EName "in_") None (Some (EConst (CStr "*-"))) (Some (EConst (CStr ":")))));
    SExpr (EDictComp (ENeg (EConst (CInt 20))) (EConst CTrue) [((TName "Not"), (EIf (EConst CTrue) (EConst CTrue) (EConst (CStr "-"))), [(EIf (EConst CNone) (EConst CTrue) (EConst (CInt 26)))]); ((TName "cd"), (ENot (EConst CNone)), [(ENeg (EConst (CStr " a-.")))])])])]));
  (["def f(*rest: int,**kw) -> int:"; "  for x_1 in (""""   in  None)(x_1[""(""],  cd=  (cd if in_ else 0),  self  = True and 1):"; "    if None if """" else True and self and """":"; "        self.x_1=  (in_,)  # note"; "        x: int = (""b)"")._y"; "    elif ((  If ), 0  - 28, not True,):"; "        "; "        pass"],
   Some ([TFun "f"], [("m.f", mkFun "m" None KPlain [] [] (Some "rest") [] (Some "kw")
   [SFor (TName "x_1") (ECall (ECmp (EConst (CStr "")) [(CmpIn, (EConst CNone))]) [(EIndex (EName "x_1") (EConst (CStr "(")))] None [("cd", (EIf (EName "in_") (EName "cd") (EConst (CInt 0)))); ("self", (EAnd [(EConst CTrue); (EConst (CInt 1))]))] None)
     [SIf (EIf (EConst (CStr "")) (EConst CNone) (EAnd [(EConst CTrue); (EName "self"); (EConst (CStr ""))]))
       [SAssign (TSelf "x_1") (ETuple [(EName "in_")]);
        SAssign (TName "x") (EAttr (EConst (CStr "b)")) "_y")]
       [SIf (ETuple [(EName "If"); (EBin OpSub (EConst (CInt 0)) (EConst (CInt 28))); (ENot (EConst CTrue))])
         [SPass]
         []]]])]));
  (["def g_2(If: int,  Not={None :None},  x_1=(None if None else None)):"; "  """"""text"""""""; "  if not (8 if ""(:)*"" else x_1):"; "    pass  # note"; "  elif {"""":""""} and "")0"" and True:"; "    pass"; "  else:"; "    b += (( 18 ) if None-  None else -True)"; "  cd = not f""x y"" f"""" """""; "  try:"; "      not """" -  12"; "      for self in not {"""": 0 ,Not:  None}:"; "       Not += If(-7 ,not True ,in_  = (4)[True::],)"; "  except ValueError:"; "      _y += ((None).Not)(_y=""a(-""*None, cd=(x_1, self,))"],
   Some ([TFun "g_2"], [("m.g_2", mkFun "m" None KPlain ["If"; "Not"; "x_1"] [("Not", (EDict [((EConst CNone), (EConst CNone))])); ("x_1", (EIf (EConst CNone) (EConst CNone) (EConst CNone)))] None [] None
   [SIf (ENot (EIf (EConst (CStr "(:)*")) (EConst (CInt 8)) (EName "x_1")))
     [SPass]
     [SIf (EAnd [(EDict [((EConst (CStr "")), (EConst (CStr "")))]); (EConst (CStr ")0")); (EConst CTrue)])
       [SPass]
       [SAug "b" OpAdd (EIf (EBin OpSub (EConst CNone) (EConst CNone)) (EConst (CInt 18)) (ENeg (EConst CTrue)))]];
    SAssign (TName "cd") (ENot (EJoined [(EConst (CStr "x y"))]));
    STry [SExpr (ENot (EBin OpSub (EConst (CStr "")) (EConst (CInt 12))));
      SFor (TName "self") (ENot (EDict [((EConst (CStr "")), (EConst (CInt 0))); ((EName "Not"), (EConst CNone))]))
       [SAug "Not" OpAdd (ECall (EName "If") [(ENeg (EConst (CInt 7))); (ENot (EConst CTrue))] None [("in_", (ESlice (EConst (CInt 4)) (Some (EConst CTrue)) None None))] None)]] "ValueError"
     [SAug "_y" OpAdd (ECall (EAttr (EConst CNone) "Not") [] None [("_y", (EBin OpMul (EConst (CStr "a(-")) (EConst CNone))); ("cd", (ETuple [(EName "x_1"); (EName "self")]))] None)]])]));
  (["x_1 = (((x_1, """",)).b,)"],
   Some ([TAssign "x_1" (ETuple [(EAttr (ETuple [(EName "x_1"); (EConst (CStr ""))]) "b")])], []));
  (["class A(B, c.D):"; " def f(Not: int,a: int,x_1: int) -> int:"; "   """"""text"""""""; "   If, x = f""\."" f""x y"" "":"", True - True  # note"],
   Some ([TClass "A" [(EName "B"); (EAttr (EName "c") "D")]
    [TFun "f"]], [("m.A.f", mkFun "m" (Some "m.A") KPlain ["Not"; "a"; "x_1"] [] None [] None
   [SAssign (TTuple [(TName "If"); (TName "x")] None) (ETuple [(EJoined [(EConst (CStr "\.x y:"))]); (EBin OpSub (EConst CTrue) (EConst CTrue))])])]));
  (["Not = ((None / "")c*"")[:(in_  )],)"],
   Some ([TAssign "Not" (ETuple [(ESlice (EBin OpDiv (EConst CNone) (EConst (CStr ")c*"))) None (Some (EName "in_")) None)])], []))].

Example cases_read : map (fun c => read_module "m" (fst c)) cases = map snd cases.
Proof. vm_compute. reflexivity. Qed.
