(** epcpy/utils/common.py
    Written by a program from the syntax trees of the source text: docstrings and annotations are left out, nothing else. *)
From Coq Require Import String ZArith List.
From Verif.Model Require Import Syntax.
Import ListNotations.
Open Scope string_scope.
Open Scope Z_scope.
Open Scope list_scope.

(** common.py:26-28 *)
Definition f_common_ConvertException___init__ : fundef :=
  mkFun "common" (Some "common.ConvertException") KPlain ["self"] [("message", (EConst (CStr "")))] (Some "args") ["message"] None
   [SAssign (TSelf "message") (EName "message");
    SExpr (ECall (EAttr (ECall (EName "super") [] None [] None) "__init__") [(EAttr (EName "self") "message")] (Some (EName "args")) [] None)].

(** common.py:31-48 *)
Definition f_common_replace_uri_escapes : fundef :=
  mkFun "common" None KPlain ["uri"] [] None [] None
   [SReturn (Some (ECall (EAttr (ECall (EAttr (ECall (EAttr (ECall (EAttr (ECall (EAttr (ECall (EAttr (ECall (EAttr (EName "uri") "replace") [(EConst (CStr "%22")); (EConst (CStr """"))] None [] None) "replace") [(EConst (CStr "%26")); (EConst (CStr "&"))] None [] None) "replace") [(EConst (CStr "%2F")); (EConst (CStr "/"))] None [] None) "replace") [(EConst (CStr "%3C")); (EConst (CStr "<"))] None [] None) "replace") [(EConst (CStr "%3E")); (EConst (CStr ">"))] None [] None) "replace") [(EConst (CStr "%3F")); (EConst (CStr "?"))] None [] None) "replace") [(EConst (CStr "%25")); (EConst (CStr "%"))] None [] None))].

(** common.py:51-68 *)
Definition f_common_revert_uri_escapes : fundef :=
  mkFun "common" None KPlain ["uri"] [] None [] None
   [SReturn (Some (ECall (EAttr (ECall (EAttr (ECall (EAttr (ECall (EAttr (ECall (EAttr (ECall (EAttr (ECall (EAttr (EName "uri") "replace") [(EConst (CStr "%")); (EConst (CStr "%25"))] None [] None) "replace") [(EConst (CStr """")); (EConst (CStr "%22"))] None [] None) "replace") [(EConst (CStr "&")); (EConst (CStr "%26"))] None [] None) "replace") [(EConst (CStr "/")); (EConst (CStr "%2F"))] None [] None) "replace") [(EConst (CStr "<")); (EConst (CStr "%3C"))] None [] None) "replace") [(EConst (CStr ">")); (EConst (CStr "%3E"))] None [] None) "replace") [(EConst (CStr "?")); (EConst (CStr "%3F"))] None [] None))].

(** common.py:71-81 *)
Definition f_common_int_to_binary : fundef :=
  mkFun "common" None KPlain ["integer"; "num_bits"] [] None [] None
   [SReturn (Some (EJoined [(EFormat (EName "integer") (Some (EJoined [(EConst (CStr "0")); (EFormat (EName "num_bits") None); (EConst (CStr "b"))])))]))].

(** common.py:84-93 *)
Definition f_common_binary_to_int : fundef :=
  mkFun "common" None KPlain ["binary"] [] None [] None
   [SReturn (Some (ECall (EName "int") [(EName "binary"); (EConst (CInt 2))] None [] None))].

(** common.py:96-106 *)
Definition f_common_str_to_binary : fundef :=
  mkFun "common" None KPlain ["string"; "num_bits"] [] None [] None
   [SReturn (Some (ECall (EName "int_to_binary") [(ECall (EName "int") [(EName "string")] None [] None); (EName "num_bits")] None [] None))].

(** common.py:109-119 *)
Definition f_common_base64_to_hex : fundef :=
  mkFun "common" None KPlain ["base64_string"] [] None [] None
   [SReturn (Some (ECall (EAttr (ECall (EAttr (EName "base64") "b64decode") [(EJoined [(EFormat (EName "base64_string") None); (EConst (CStr "=="))])] None [] None) "hex") [] None [] None))].

(** common.py:122-131 *)
Definition f_common_hex_to_base64 : fundef :=
  mkFun "common" None KPlain ["hex_string"] [] None [] None
   [SReturn (Some (ECall (EAttr (ECall (EAttr (EName "base64") "b64encode") [(ECall (EAttr (EName "bytes") "fromhex") [(EName "hex_string")] None [] None)] None [] None) "decode") [(EConst (CStr "utf-8"))] None [] None))].

(** common.py:134-143 *)
Definition f_common_hex_to_binary : fundef :=
  mkFun "common" None KPlain ["hex_string"] [] None [] None
   [SReturn (Some (EJoined [(EFormat (ECall (EName "int") [(EName "hex_string"); (EConst (CInt 16))] None [] None) (Some (EJoined [(EConst (CStr "0")); (EFormat (ECall (EName "len") [(EBin OpMul (EName "hex_string") (EConst (CInt 4)))] None [] None) None); (EConst (CStr "b"))])))]))].

(** common.py:146-156 *)
Definition f_common_binary_to_hex : fundef :=
  mkFun "common" None KPlain ["binary_string"] [] None [] None
   [SReturn (Some (ECall (EAttr (EJoined [(EFormat (ECall (EName "int") [(EName "binary_string"); (EConst (CInt 2))] None [] None) (Some (EJoined [(EConst (CStr "x"))])))]) "upper") [] None [] None))].

(** common.py:159-177 *)
Definition f_common_encode_string : fundef :=
  mkFun "common" None KPlain ["string"; "num_bits"] [] None [] None
   [SAssign (TName "res") (EConst (CStr ""));
    SFor (TName "g") (ECall (EAttr (EName "re") "split") [(EConst (CStr "(%[0-9a-fA-F]{2})")); (EName "string")] None [] None)
     [SIf (ECmp (ECall (EName "len") [(EName "g")] None [] None) [(CmpEq, (EConst (CInt 0)))])
       [SContinue]
       [SIf (ECmp (EIndex (EName "g") (EConst (CInt 0))) [(CmpNe, (EConst (CStr "%")))])
         [SAug "res" OpAdd (ECall (EAttr (EConst (CStr "")) "join") [(EListComp (ECall (EName "str_to_binary") [(ECall (EName "str") [(ECall (EName "ord") [(EName "s")] None [] None)] None [] None); (EConst (CInt 7))] None [] None) [((TName "s"), (EName "g"), [])])] None [] None)]
         [SAug "res" OpAdd (ECall (EName "str_to_binary") [(ECall (EName "str") [(ECall (EName "int") [(ESlice (EName "g") (Some (EConst (CInt 1))) None None); (EConst (CInt 16))] None [] None)] None [] None); (EConst (CInt 7))] None [] None)]]];
    SReturn (Some (EJoined [(EFormat (EName "res") (Some (EJoined [(EConst (CStr "<0")); (EFormat (EName "num_bits") None)])))]))].

(** common.py:180-207 *)
Definition f_common_decode_string_six_bits : fundef :=
  mkFun "common" None KPlain ["binary"; "max_chars"] [] None [] None
   [SAssign (TName "res") (EConst (CStr ""));
    SFor (TName "g") (ECall (EAttr (EName "re") "split") [(EConst (CStr "([0-1]{6})")); (EName "binary")] None [] None)
     [SIf (ECmp (EName "g") [(CmpEq, (EConst (CStr "000000")))])
       [SBreak]
       [];
      SIf (ECmp (ECall (EName "len") [(EName "g")] None [] None) [(CmpLt, (EConst (CInt 6)))])
       [SContinue]
       [SIf (EOr [(ECall (EAttr (EName "g") "startswith") [(EConst (CStr "10"))] None [] None); (ECall (EAttr (EName "g") "startswith") [(EConst (CStr "11"))] None [] None)])
         [SAug "res" OpAdd (ECall (EName "chr") [(ECall (EName "int") [(EName "g"); (EConst (CInt 2))] None [] None)] None [] None)]
         [SAug "res" OpAdd (ECall (EName "chr") [(EBin OpAdd (EConst (CInt 64)) (ECall (EName "int") [(EName "g"); (EConst (CInt 2))] None [] None))] None [] None)]]];
    SIf (ECmp (ECall (EName "len") [(EName "res")] None [] None) [(CmpGt, (EName "max_chars"))])
     [SRaise (ECall (EName "ConvertException") [] None [("message", (EConst (CStr "Too many characters decoded!")))] None)]
     [];
    SReturn (Some (ECall (EAttr (ECall (EAttr (EName "res") "replace") [(EConst (CStr "#")); (EConst (CStr "%23"))] None [] None) "replace") [(EConst (CStr "/")); (EConst (CStr "%2F"))] None [] None))].

(** common.py:210-234 *)
Definition f_common_encode_string_six_bits : fundef :=
  mkFun "common" None KPlain ["string"] [] None [] None
   [SAssign (TName "res") (EConst (CStr ""));
    SFor (TName "g") (ECall (EAttr (EName "re") "split") [(EConst (CStr "(%[0-9a-fA-F]{2}|-)")); (EName "string")] None [] None)
     [SIf (ECmp (ECall (EName "len") [(EName "g")] None [] None) [(CmpEq, (EConst (CInt 0)))])
       [SContinue]
       [SIf (ECmp (EName "g") [(CmpEq, (EConst (CStr "-")))])
         [SAug "res" OpAdd (EConst (CStr "101101"))]
         [SIf (ECmp (EIndex (EName "g") (EConst (CInt 0))) [(CmpNe, (EConst (CStr "%")))])
           [SAug "res" OpAdd (ECall (EAttr (EConst (CStr "")) "join") [(EListComp (EIf (ECall (EAttr (EName "s") "isnumeric") [] None [] None) (EJoined [(EConst (CStr "11")); (EFormat (ECall (EName "int") [(EName "s")] None [] None) (Some (EJoined [(EConst (CStr "04b"))])))]) (EJoined [(EFormat (ECall (EName "int") [(EBin OpSub (ECall (EName "ord") [(EName "s")] None [] None) (EConst (CInt 64)))] None [] None) (Some (EJoined [(EConst (CStr "06b"))])))])) [((TName "s"), (EName "g"), [])])] None [] None)]
           [SAug "res" OpAdd (ECall (EName "str_to_binary") [(ECall (EName "str") [(ECall (EName "int") [(ESlice (EName "g") (Some (EConst (CInt 1))) None None); (EConst (CInt 16))] None [] None)] None [] None); (EConst (CInt 6))] None [] None)]]]];
    SReturn (Some (EJoined [(EFormat (EName "res") None); (EConst (CStr "000000"))]))].

(** common.py:237-251 *)
Definition f_common_decode_binary_char : fundef :=
  mkFun "common" None KPlain ["binary"] [] None [] None
   [SIf (ECmp (EName "binary") [(CmpEq, (EConst (CStr "0000000")))])
     [SReturn (Some (EConst (CStr "")))]
     [SIf (ECmp (EName "binary") [(CmpIn, (EName "ESCAPE_CHARACTERS"))])
       [SReturn (Some (EIndex (EName "ESCAPE_CHARACTERS") (EName "binary")))]
       [SReturn (Some (ECall (EName "chr") [(ECall (EName "int") [(EName "binary"); (EConst (CInt 2))] None [] None)] None [] None))]]].

(** common.py:254-270 *)
Definition f_common_decode_string : fundef :=
  mkFun "common" None KPlain ["binary"] [] None [] None
   [SReturn (Some (ECall (EAttr (EConst (CStr "")) "join") [(ECall (EName "list") [(ECall (EName "map") [(EName "decode_binary_char"); (ECall (EAttr (EName "re") "findall") [(EBin OpMul (EConst (CStr ".")) (EConst (CInt 7))); (EName "binary")] None [] None)] None [] None)] None [] None)] None [] None))].

(** common.py:273-311 *)
Definition f_common_encode_partition_table : fundef :=
  mkFun "common" None KPlain ["parts"; "partition_table"; "string_partition"; "six_bit_variable_partition"] [("string_partition", (EConst CFalse)); ("six_bit_variable_partition", (EConst CFalse))] None [] None
   [SAssign (TName "C") (EIndex (EName "parts") (EConst (CInt 0)));
    SAssign (TName "D") (EIndex (EName "parts") (EConst (CInt 1)));
    SAssign (TName "partition") (EIndex (EName "partition_table") (ECall (EName "len") [(EName "C")] None [] None));
    SAssign (TName "P_bin") (ECall (EName "int_to_binary") [(EIndex (EName "partition") (EConst (CStr "P"))); (EConst (CInt 3))] None [] None);
    SAssign (TName "C_bin") (ECall (EName "str_to_binary") [(EName "C"); (EIndex (EName "partition") (EConst (CStr "M")))] None [] None);
    SIf (EName "string_partition")
     [SAssign (TName "D_bin") (ECall (EName "encode_string") [(EName "D"); (EIndex (EName "partition") (EConst (CStr "N")))] None [] None)]
     [SIf (EName "six_bit_variable_partition")
       [SAssign (TName "D_bin") (ECall (EName "encode_string_six_bits") [(EName "D")] None [] None)]
       [SAssign (TName "D_bin") (EIf (ECmp (EIndex (EName "partition") (EConst (CStr "K"))) [(CmpNe, (EConst (CInt 0)))]) (ECall (EName "str_to_binary") [(EName "D"); (EIndex (EName "partition") (EConst (CStr "N")))] None [] None) (EBin OpMul (EConst (CStr "0")) (EIndex (EName "partition") (EConst (CStr "N")))))]];
    SReturn (Some (EBin OpAdd (EBin OpAdd (EName "P_bin") (EName "C_bin")) (EName "D_bin")))].

(** common.py:314-363 *)
Definition f_common_decode_partition_table : fundef :=
  mkFun "common" None KPlain ["binary_string"; "partition_table"; "unpadded_partition"; "string_partition"; "six_bit_variable_partition"] [("unpadded_partition", (EConst CFalse)); ("string_partition", (EConst CFalse)); ("six_bit_variable_partition", (EConst CFalse))] None [] None
   [STry [SAssign (TName "partition") (EIndex (EName "partition_table") (ECall (EName "binary_to_int") [(ESlice (EName "binary_string") None (Some (EConst (CInt 3))) None)] None [] None))] "KeyError"
     [SRaise (ECall (EName "ConvertException") [] None [("message", (EJoined [(EConst (CStr "Invalid partition header ")); (EFormat (ESlice (EName "binary_string") None (Some (EConst (CInt 3))) None) None)]))] None)];
    SAssign (TName "C") (ECall (EName "binary_to_int") [(ESlice (EName "binary_string") (Some (EConst (CInt 3))) (Some (EBin OpAdd (EConst (CInt 3)) (EIndex (EName "partition") (EConst (CStr "M"))))) None)] None [] None);
    SAssign (TName "D_bin") (ESlice (EName "binary_string") (Some (EBin OpAdd (EConst (CInt 3)) (EIndex (EName "partition") (EConst (CStr "M"))))) (Some (EBin OpAdd (EBin OpAdd (EConst (CInt 3)) (EIndex (EName "partition") (EConst (CStr "M")))) (EIndex (EName "partition") (EConst (CStr "N"))))) None);
    SIf (EName "string_partition")
     [SAssign (TName "D") (ECall (EName "decode_string") [(EName "D_bin")] None [] None)]
     [SIf (EName "six_bit_variable_partition")
       [SAssign (TName "D") (ECall (EName "decode_string_six_bits") [(EName "D_bin"); (EIndex (EName "partition") (EConst (CStr "K")))] None [] None)]
       [SAssign (TName "D") (EIf (ECmp (EIndex (EName "partition") (EConst (CStr "K"))) [(CmpNe, (EConst (CInt 0)))]) (ECall (EName "str") [(ECall (EName "binary_to_int") [(EName "D_bin")] None [] None)] None [] None) (EConst (CStr "")))]];
    SAssign (TName "compare_D") (ENot (EOr [(EName "unpadded_partition"); (EName "string_partition"); (EName "six_bit_variable_partition")]));
    SIf (ENot (ECmp (EName "C") [(CmpLt, (ECall (EName "pow") [(EConst (CInt 10)); (EIndex (EName "partition") (EConst (CStr "L")))] None [] None))]))
     [SRaise (ECall (EName "ConvertException") [] None [("message", (EJoined [(EConst (CStr "Company prefix length too large"))]))] None)]
     [];
    SIf (EAnd [(ECmp (EName "D") [(CmpNe, (EConst (CStr "")))]); (EName "compare_D"); (ENot (ECmp (ECall (EName "int") [(EName "D")] None [] None) [(CmpLt, (ECall (EName "pow") [(EConst (CInt 10)); (EIndex (EName "partition") (EConst (CStr "K")))] None [] None))]))])
     [SRaise (ECall (EName "ConvertException") [] None [("message", (EJoined [(EConst (CStr "Item reference length too large"))]))] None)]
     [];
    SReturn (Some (EJoined [(EFormat (EName "C") (Some (EJoined [(EConst (CStr ">0")); (EFormat (EIndex (EName "partition") (EConst (CStr "L"))) None)]))); (EConst (CStr ".")); (EFormat (EName "D") (Some (EJoined [(EConst (CStr ">0")); (EFormat (EIf (EName "compare_D") (EIndex (EName "partition") (EConst (CStr "K"))) (EConst (CInt 0))) None)])))]))].

(** common.py:366-382 *)
Definition f_common_encode_numeric_string : fundef :=
  mkFun "common" None KPlain ["string"; "bit_count"] [] None [] None
   [SIf (ECmp (EBin OpMul (EConst (CInt 2)) (ECall (EName "pow") [(EConst (CInt 10)); (ECall (EName "len") [(EName "string")] None [] None)] None [] None)) [(CmpGe, (ECall (EName "pow") [(EConst (CInt 2)); (EName "bit_count")] None [] None))])
     [SRaise (ECall (EName "ConvertException") [] None [("message", (EConst (CStr "Invalid character string")))] None)]
     [];
    SReturn (Some (ECall (EName "str_to_binary") [(EJoined [(EConst (CStr "1")); (EFormat (EName "string") None)]); (EName "bit_count")] None [] None))].

(** common.py:385-402 *)
Definition f_common_decode_numeric_string : fundef :=
  mkFun "common" None KPlain ["binary"] [] None [] None
   [SAssign (TName "string") (EJoined [(EFormat (ECall (EName "int") [(EName "binary"); (EConst (CInt 2))] None [] None) None)]);
    SIf (EOr [(ECmp (ECall (EName "len") [(EName "string")] None [] None) [(CmpLe, (EConst (CInt 1)))]); (ECmp (EIndex (EName "string") (EConst (CInt 0))) [(CmpNe, (EConst (CStr "1")))])])
     [SRaise (ECall (EName "ConvertException") [] None [("message", (EConst (CStr "Invalid numeric string")))] None)]
     [];
    SReturn (Some (ESlice (EName "string") (Some (EConst (CInt 1))) None None))].

(** common.py:405-421 *)
Definition f_common_encode_fixed_width_integer : fundef :=
  mkFun "common" None KPlain ["string"; "bit_count"] [] None [] None
   [SIf (ECmp (ECall (EName "int") [(EName "string")] None [] None) [(CmpGe, (EBin OpSub (ECall (EName "pow") [(EConst (CInt 10)); (ECall (EName "int") [(EBin OpDiv (EBin OpMul (EName "bit_count") (ECall (EName "log") [(EConst (CInt 2))] None [] None)) (ECall (EName "log") [(EConst (CInt 10))] None [] None))] None [] None)] None [] None) (EConst (CInt 1))))])
     [SRaise (ECall (EName "ConvertException") [] None [("message", (EConst (CStr "Fixed width numeric integer too large")))] None)]
     [];
    SReturn (Some (ECall (EName "str_to_binary") [(EName "string"); (EName "bit_count")] None [] None))].

(** common.py:424-440 *)
Definition f_common_decode_fixed_width_integer : fundef :=
  mkFun "common" None KPlain ["binary"] [] None [] None
   [SAssign (TName "D") (ECall (EName "int") [(EBin OpDiv (EBin OpMul (ECall (EName "len") [(EName "binary")] None [] None) (ECall (EName "log") [(EConst (CInt 2))] None [] None)) (ECall (EName "log") [(EConst (CInt 10))] None [] None))] None [] None);
    SIf (ECmp (ECall (EName "int") [(EName "binary"); (EConst (CInt 2))] None [] None) [(CmpGt, (EBin OpSub (ECall (EName "pow") [(EConst (CInt 10)); (EName "D")] None [] None) (EConst (CInt 1))))])
     [SRaise (ECall (EName "ConvertException") [] None [("message", (EJoined [(EConst (CStr "Bits cannot be converted to ")); (EFormat (EName "D") None); (EConst (CStr " digits"))]))] None)]
     [];
    SReturn (Some (EJoined [(EFormat (ECall (EName "int") [(EName "binary"); (EConst (CInt 2))] None [] None) (Some (EJoined [(EConst (CStr "0>")); (EFormat (EName "D") None)])))]))].

(** common.py:443-454 *)
Definition f_common_decode_cage_code : fundef :=
  mkFun "common" None KPlain ["binary"] [] None [] None
   [SReturn (Some (ECall (EAttr (ECall (EAttr (EConst (CStr "")) "join") [(EListComp (EIf (ECmp (EName "g") [(CmpNe, (EConst (CStr "")))]) (ECall (EName "chr") [(ECall (EName "int") [(EName "g"); (EConst (CInt 2))] None [] None)] None [] None) (EConst (CStr ""))) [((TName "g"), (ECall (EAttr (EName "re") "split") [(EConst (CStr "([0-1]{8})")); (EName "binary")] None [] None), [])])] None [] None) "replace") [(EConst (CStr " ")); (EConst (CStr ""))] None [] None))].

(** common.py:457-466 *)
Definition f_common_encode_cage_code : fundef :=
  mkFun "common" None KPlain ["chars"] [] None [] None
   [SReturn (Some (ECall (EAttr (EConst (CStr "")) "join") [(EListComp (EJoined [(EFormat (ECall (EName "ord") [(EName "char")] None [] None) (Some (EJoined [(EConst (CStr "0>8b"))])))]) [((TName "char"), (EName "chars"), [])])] None [] None))].

(** common.py:469-481 *)
Definition f_common_decode_cage_code_six_bits : fundef :=
  mkFun "common" None KPlain ["binary"] [] None [] None
   [SIf (ECall (EAttr (EName "binary") "startswith") [(EConst (CStr "100000"))] None [] None)
     [SAssign (TName "binary") (ESlice (EName "binary") (Some (EConst (CInt 6))) None None)]
     [];
    SReturn (Some (ECall (EName "decode_string_six_bits") [(EName "binary"); (EConst (CInt 6))] None [] None))].

(** common.py:484-496 *)
Definition f_common_encode_cage_code_six_bits : fundef :=
  mkFun "common" None KPlain ["chars"] [] None [] None
   [SAssign (TName "binary") (EJoined [(EFormat (ESlice (ECall (EName "encode_string_six_bits") [(EName "chars")] None [] None) None (Some (ENeg (EConst (CInt 6)))) None) None)]);
    SIf (ECmp (ECall (EName "len") [(EName "binary")] None [] None) [(CmpEq, (EConst (CInt 30)))])
     [SAssign (TName "binary") (EBin OpAdd (EConst (CStr "100000")) (EName "binary"))]
     [];
    SReturn (Some (EName "binary"))].

(** common.py:499-518 *)
Definition f_common_verify_gs3a3_component : fundef :=
  mkFun "common" None KPlain ["gs3a3_component"] [] None [] None
   [SAssign (TName "res") (EConst (CStr ""));
    SFor (TName "g") (ECall (EAttr (EName "re") "split") [(EConst (CStr "(%\d\d)")); (EName "gs3a3_component")] None [] None)
     [SIf (ECmp (ECall (EName "len") [(EName "g")] None [] None) [(CmpEq, (EConst (CInt 0)))])
       [SContinue]
       [SIf (ECmp (EIndex (EName "g") (EConst (CInt 0))) [(CmpNe, (EConst (CStr "%")))])
         [SAug "res" OpAdd (EName "g")]
         [SAug "res" OpAdd (ECall (EName "chr") [(ECall (EName "int") [(ESlice (EName "g") (Some (EConst (CInt 1))) None None); (EConst (CInt 16))] None [] None)] None [] None)]]];
    SIf (ENot (ECall (EAttr (EName "VERIFY_GS3A3_CHARS_REGEX") "fullmatch") [(EName "res")] None [] None))
     [SRaise (ECall (EName "ConvertException") [] None [] None)]
     []].

(** common.py:521-542 *)
Definition f_common_calculate_checksum : fundef :=
  mkFun "common" None KPlain ["digits"] [] None [] None
   [SAssign (TName "digit_list") (EListComp (ECall (EName "int") [(EName "d")] None [] None) [((TName "d"), (EName "digits"), [])]);
    SAssign (TTuple [(TName "odd"); (TName "even")] None) (ETuple [(ESlice (EName "digit_list") (Some (EConst (CInt 1))) None (Some (EConst (CInt 2)))); (ESlice (EName "digit_list") (Some (EConst (CInt 0))) None (Some (EConst (CInt 2))))]);
    SIf (ECmp (EBin OpMod (ECall (EName "len") [(EName "digits")] None [] None) (EConst (CInt 2))) [(CmpEq, (EConst (CInt 0)))])
     [SAssign (TName "val1") (ECall (EName "sum") [(EName "odd")] None [] None);
      SAssign (TName "val2") (ECall (EName "sum") [(EName "even")] None [] None)]
     [SAssign (TName "val1") (ECall (EName "sum") [(EName "even")] None [] None);
      SAssign (TName "val2") (ECall (EName "sum") [(EName "odd")] None [] None)];
    SAssign (TName "checksum") (EBin OpMod (EBin OpSub (EConst (CInt 10)) (EBin OpMod (EBin OpAdd (EBin OpMul (EConst (CInt 3)) (EName "val1")) (EName "val2")) (EConst (CInt 10)))) (EConst (CInt 10)));
    SReturn (Some (EName "checksum"))].

(** common.py:545-578 *)
Definition f_common_parse_header_and_truncate_binary : fundef :=
  mkFun "common" None KPlain ["binary_string"; "header_to_schemes"] [] None [] None
   [SAssign (TName "header") (ESlice (EName "binary_string") None (Some (EConst (CInt 8))) None);
    STry [SAssign (TName "scheme") (EIndex (EName "header_to_schemes") (EName "header"))] "ValueError"
     [SRaise (ECall (EName "ConvertException") [] None [("message", (EJoined [(EFormat (EName "header") None); (EConst (CStr " is not a valid header"))]))] None)];
    SAssign (TTuple [(TName "_"); (TName "size")] None) (ECall (EAttr (EAttr (EName "scheme") "value") "split") [(EConst (CStr "-"))] None [] None);
    SAssign (TName "size") (EIf (ECall (EAttr (EName "size") "isnumeric") [] None [] None) (ECall (EName "int") [(EName "size")] None [] None) (EConst CNone));
    SIf (EAnd [(EName "size"); (ECmp (EName "size") [(CmpGt, (ECall (EName "len") [(EName "binary_string")] None [] None))])])
     [SRaise (ECall (EName "ConvertException") [] None [("message", (EJoined [(EConst (CStr "Invalid binary size, expected (>=): ")); (EFormat (EName "size") None); (EConst (CStr " actual: ")); (EFormat (ECall (EName "len") [(EName "binary_string")] None [] None) None)]))] None)]
     [];
    SAssign (TName "truncated_binary") (ESlice (EName "binary_string") None (Some (EName "size")) None);
    SReturn (Some (ETuple [(EName "scheme"); (EName "truncated_binary")]))].

(** epcpy/utils/common.py *)
Definition m_common : list top :=
  [TImport "base64";
   TImport "re";
   TFrom "enum" ["Enum"];
   TFrom "math" ["log"];
   TFrom "typing" ["Dict"; "List"; "Tuple"];
   TFrom "regex" ["VERIFY_GS3A3_CHARS"];
   TAssign "ESCAPE_CHARACTERS" (EDict [((EConst (CStr "0100010")), (EConst (CStr "%22"))); ((EConst (CStr "0100101")), (EConst (CStr "%25"))); ((EConst (CStr "0100110")), (EConst (CStr "%26"))); ((EConst (CStr "0101111")), (EConst (CStr "%2F"))); ((EConst (CStr "0111100")), (EConst (CStr "%3C"))); ((EConst (CStr "0111110")), (EConst (CStr "%3E"))); ((EConst (CStr "0111111")), (EConst (CStr "%3F")))]);
   TAssign "VERIFY_GS3A3_CHARS_REGEX" (ECall (EAttr (EName "re") "compile") [(EName "VERIFY_GS3A3_CHARS")] None [] None);
   TClass "ConvertException" [(EName "Exception")]
    [TFun "__init__"];
   TFun "replace_uri_escapes";
   TFun "revert_uri_escapes";
   TFun "int_to_binary";
   TFun "binary_to_int";
   TFun "str_to_binary";
   TFun "base64_to_hex";
   TFun "hex_to_base64";
   TFun "hex_to_binary";
   TFun "binary_to_hex";
   TFun "encode_string";
   TFun "decode_string_six_bits";
   TFun "encode_string_six_bits";
   TFun "decode_binary_char";
   TFun "decode_string";
   TFun "encode_partition_table";
   TFun "decode_partition_table";
   TFun "encode_numeric_string";
   TFun "decode_numeric_string";
   TFun "encode_fixed_width_integer";
   TFun "decode_fixed_width_integer";
   TFun "decode_cage_code";
   TFun "encode_cage_code";
   TFun "decode_cage_code_six_bits";
   TFun "encode_cage_code_six_bits";
   TFun "verify_gs3a3_component";
   TFun "calculate_checksum";
   TFun "parse_header_and_truncate_binary"].
