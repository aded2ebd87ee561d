(** The runtime of [Py.v], [Re.v] and [PyFloat.v] against CPython 3.11.10: the answers were computed by the interpreter's own
    [int], [str], [bytes], [re], [base64] and [math], on chosen and on random arguments.  No code of /repo was run.  These
    are tests, not proofs. *)
From Coq Require Import String.
From Verif.Model Require Import Py PyFloat Re Common Adi Cpi Sgln Sgtin Parsers Dynamic.

Fixpoint strs_eqb (a b : list str) : bool :=
  match a, b with [], [] => true | x :: a', y :: b' => str_eqb x y && strs_eqb a' b' | _, _ => false end.
Definition same_opt {A} (f : A -> A -> bool) (a b : option A) : bool :=
  match a, b with Some x, Some y => f x y | None, None => true | _, _ => false end.
Definition exn_eqb (a b : exn) : bool :=
  match a, b with
  | ConvertException, ConvertException | ValueError, ValueError | IndexError, IndexError | KeyError, KeyError
  | TypeError, TypeError | OverflowError, OverflowError => true
  | _, _ => false
  end.
Definition same_res {A} (f : A -> A -> bool) (a b : res A) : bool :=
  match a, b with Ok x, Ok y => f x y | Raise x, Raise y => exn_eqb x y | _, _ => false end.

Definition int2_cases : list (str * option Z) :=
  [([], None);
   ([0;13], None);
   ([0;49], None);
   ([9;11;49;49;49;49;49;49], (Some (63)%Z));
   ([9;48;10;48;11;48], None);
   ([9;48;48;49], (Some (1)%Z));
   ([9;49;48;133;49;49], None);
   ([9;49;48;120782;49;1641;8232], None);
   ([9;8195], None);
   ([9;8232;128;49;49;48], None);
   ([9;65305;48;1641;48], None);
   ([9;65305;95], None);
   ([10;12;49;45;5760], None);
   ([10;43;48;98;95;48;48;48], (Some (0)%Z));
   ([10;45;95;48;48], None);
   ([10;45;95;49;49;48;8232], None);
   ([10;48;48;5760], (Some (0)%Z));
   ([10;48;111;95;49;48;5760], None);
   ([10;8203;49], None);
   ([10;55296;49;49;48;178;48;49;49], None);
   ([11;43;48;111;48;49;49;133], None);
   ([11;43;48;120;49;49;31], None);
   ([11;48;0;48], None);
   ([11;48;66;48;13], (Some (0)%Z));
   ([11;49;49;48;48;49;48], (Some (50)%Z));
   ([11;49;49;49;49;49;49;5760], (Some (63)%Z));
   ([11;8195;55296;48;48;178;48], None);
   ([11;8203], None);
   ([11;120831;12;8551;49;8232], None);
   ([12;45;48;98;48;49;48;49;48;48], (Some (-20)%Z));
   ([12;48;48;48;49;49;28;31], None);
   ([12;48;48;65305;1114111;0;49;48;48], None);
   ([12;48;111;95;48;49;48;12288], None);
   ([12;48;8232], (Some (0)%Z));
   ([12;48;8232;48;48;48;49;0;19968;49], None);
   ([12;128;49;13], None);
   ([12;133;49;11;10], (Some (1)%Z));
   ([13;48;48;48;48;13], (Some (0)%Z));
   ([13;48;48;49;48;49;49], (Some (11)%Z));
   ([13;49;55296;49;49;133], None);
   ([13;128;49], None);
   ([13;160;48;49;49;28;48;49], None);
   ([13;130037;57;48;48;128;12], None);
   ([28], None);
   ([28;43;48;66;48;49;49;49;49;49], None);
   ([28;48;49;48;49;49;49;8232], None);
   ([28;48;49;125273;48], None);
   ([28;49], None);
   ([28;49;48;49;12;49;28], None);
   ([28;65279;125273;11], None);
   ([31;45;48;120;95;48;49;48;48;12288], None);
   ([31;48;48;48;49;48;48], None);
   ([31;48;49;48;49;49;49], None);
   ([31;49], None);
   ([31;49;48;48;8551;48;49;10], None);
   ([32;1632;49;43;49], None);
   ([32;65279;28], None);
   ([43], None);
   ([43;28;103;49;49;11], None);
   ([43;45;49], None);
   ([43;48], (Some (0)%Z));
   ([43;48;66;48;49;49;49], (Some (7)%Z));
   ([43;48;66;49;48;48;48;49], (Some (17)%Z));
   ([43;48;66;49;49;48;48;49], (Some (25)%Z));
   ([43;48;66;95;49;48;48;49;49;48], (Some (38)%Z));
   ([43;48;66;95;49;49;49;49;48;49], (Some (61)%Z));
   ([43;48;88;48;9], None);
   ([43;48;88;48;48;48], None);
   ([43;48;88;49], None);
   ([43;48;88;95], None);
   ([43;48;88;95;48;49;49;48], None);
   ([43;48;98;49;48;49;48], (Some (10)%Z));
   ([43;48;98;95;48;13], (Some (0)%Z));
   ([43;48;111;95;48], None);
   ([43;48;111;95;49;48], None);
   ([43;48;111;95;8195], None);
   ([43;48;120;31], None);
   ([43;49;48;120831;10], None);
   ([43;95;95;49;49;49;48], None);
   ([43;65305;49;49;49], None);
   ([45], None);
   ([45;31;120782;48], None);
   ([45;32;49], None);
   ([45;48], (Some (0)%Z));
   ([45;48;48;49], (Some (-1)%Z));
   ([45;48;49;178;49;8203;49;49;49], None);
   ([45;48;88;95;49;49;48;48], None);
   ([45;48;98;48;48;49;49;49;133], (Some (-7)%Z));
   ([45;48;98;48;5760], (Some (0)%Z));
   ([45;48;98;49], (Some (-1)%Z));
   ([45;48;98;95;10], None);
   ([45;48;98;95;49;48], (Some (-2)%Z));
   ([45;48;111;48;48;48;49;48], None);
   ([45;48;120;48;48;48;48;48;48], None);
   ([45;48;120;95;48;49;48;49;65279], None);
   ([45;48;120;95;49;49;48], None);
   ([45;49;48;49;31], None);
   ([45;95;48;8195], None);
   ([45;95;95;49;49], None);
   ([45;1635], None);
   ([48], (Some (0)%Z));
   ([48;9], (Some (0)%Z));
   ([48;9;43;49;65305;49], None);
   ([48;12;48;49;48;8203], None);
   ([48;13], (Some (0)%Z));
   ([48;48], (Some (0)%Z));
   ([48;48;28;48], None);
   ([48;48;48], (Some (0)%Z));
   ([48;48;48;48;49;48], (Some (2)%Z));
   ([48;48;48;48;49;49], (Some (3)%Z));
   ([48;48;48;49], (Some (1)%Z));
   ([48;48;49;49;31], None);
   ([48;48;57;48;49], None);
   ([48;49;32;127], None);
   ([48;49;48], (Some (2)%Z));
   ([48;49;48;48;48], (Some (8)%Z));
   ([48;49;48;49;12], (Some (5)%Z));
   ([48;49;48;49;48;48], (Some (20)%Z));
   ([48;49;48;8232], (Some (2)%Z));
   ([48;49;49;45;130037;48;49;49;12], None);
   ([48;49;49;48;45;49], None);
   ([48;49;49;48;8551], None);
   ([48;49;49;65279], None);
   ([48;57;95;120782;48], None);
   ([48;66;49;49], (Some (3)%Z));
   ([48;66;95], None);
   ([48;88;48;49;48;49;49;49;28], None);
   ([48;88;49], None);
   ([48;88;49;70], None);
   ([48;88;95;48;48;12], None);
   ([48;88;95;49;48;49;49], None);
   ([48;95], None);
   ([48;95;48;48;50], None);
   ([48;95;49], (Some (1)%Z));
   ([48;95;95;48], None);
   ([48;95;120;49], None);
   ([48;98], None);
   ([48;98;48;48;49;48;49;9], (Some (5)%Z));
   ([48;98;49], (Some (1)%Z));
   ([48;98;95;49], (Some (1)%Z));
   ([48;98;95;49;48;49;48;48;48], (Some (40)%Z));
   ([48;111;48;49;49;133], None);
   ([48;111;48;49;49;8195], None);
   ([48;111;49;48;49;49;48], None);
   ([48;120], None);
   ([48;120;45;49], None);
   ([48;120;95], None);
   ([48;120;95;48], None);
   ([48;120;95;48;48;49;48;49;48], None);
   ([48;120;95;95;102], None);
   ([48;120;95;102], None);
   ([48;120;103], None);
   ([48;128;95;49], None);
   ([48;128;189;95;11], None);
   ([48;133;49;49;28;48;9], None);
   ([48;178;49;49;49;49;48;10], None);
   ([48;1641;48;49;49;8203;49], None);
   ([48;8203;120831;103;48;133], None);
   ([48;12288;48;48;133;48;48], None);
   ([48;65279], None);
   ([48;120782;48], (Some (0)%Z));
   ([48;1114111], None);
   ([49], (Some (1)%Z));
   ([49;0], None);
   ([49;11;48;48;48;49], None);
   ([49;28], None);
   ([49;32], (Some (1)%Z));
   ([49;32;49], None);
   ([49;48], (Some (2)%Z));
   ([49;48;45;49;9], None);
   ([49;48;48;48;49], (Some (17)%Z));
   ([49;48;48;48;49;8232], (Some (17)%Z));
   ([49;48;48;49], (Some (9)%Z));
   ([49;48;48;49;49;11], (Some (19)%Z));
   ([49;48;49], (Some (5)%Z));
   ([49;48;49;160;48;49], None);
   ([49;48;49;130037;48], None);
   ([49;48;50;48;48;12;12], None);
   ([49;48;55296;48;48;13], None);
   ([49;48;65296], (Some (4)%Z));
   ([49;49;48;48], (Some (12)%Z));
   ([49;49;48;48;49], (Some (25)%Z));
   ([49;49;48;48;178;125273;178;49], None);
   ([49;49;48;49;48;13], (Some (26)%Z));
   ([49;49;48;49;49;48], (Some (54)%Z));
   ([49;49;48;49;49;65279], None);
   ([49;49;48;189;49;48;48], None);
   ([49;49;48;120831;28;48], None);
   ([49;49;49], (Some (7)%Z));
   ([49;49;49;48;8203], None);
   ([49;49;49;49], (Some (15)%Z));
   ([49;49;49;49;48], (Some (30)%Z));
   ([49;49;49;49;48;49;1114111;189;95], None);
   ([49;49;49;49;55296;49;49], None);
   ([49;49;95;13;48;48], None);
   ([49;49;2406;48;28;49;12], None);
   ([49;49;120831;49], None);
   ([49;49;1114111], None);
   ([49;95], None);
   ([49;133], (Some (1)%Z));
   ([49;160;48;160;49;65296], None);
   ([49;233], None);
   ([49;1641;48;49;49;49;48], None);
   ([49;8195], (Some (1)%Z));
   ([49;8203;103;32;49;8232], None);
   ([49;12288;48;49;48;10;125273;48;49], None);
   ([49;19968;8195;31], None);
   ([49;55296], None);
   ([49;65296], (Some (2)%Z));
   ([57;8232;13], None);
   ([95], None);
   ([95;28], None);
   ([95;48], None);
   ([95;49;48;48;31], None);
   ([95;49;48;160;49;48;48], None);
   ([95;95], None);
   ([103;11;48;48], None);
   ([103;48;49;48;50], None);
   ([103;48;8203;0], None);
   ([103;50], None);
   ([127;48;48], None);
   ([127;48;48;31], None);
   ([127;133], None);
   ([127;178;48;49;48;48;8203;160], None);
   ([133;43;48;98;49;49;49], (Some (7)%Z));
   ([133;43;49;49;48;48], (Some (12)%Z));
   ([133;45;48;88;49;48;48], None);
   ([133;45;2406;48;49;8203], None);
   ([133;48;49;48], (Some (2)%Z));
   ([133;49;11;125273;49;49;49;160], None);
   ([133;49;12288], (Some (1)%Z));
   ([160], None);
   ([160;45;48;66;48], (Some (0)%Z));
   ([160;49;10], (Some (1)%Z));
   ([160;49;48;48;49;48;1632], (Some (36)%Z));
   ([160;49;125273;49;48;125273;48;13], None);
   ([160;128;49], None);
   ([160;160], None);
   ([160;1632;189;130037;8195], None);
   ([178;48;48;48;48;48;49], None);
   ([178;49;49;48], None);
   ([233], None);
   ([233;5760;8551], None);
   ([1635], None);
   ([1641;50;48;130037;8203], None);
   ([5760;45;95;95;48;49;49;13], None);
   ([5760;48;48;65296;48;48;49;49;10], (Some (3)%Z));
   ([5760;48;120;95;48], None);
   ([5760;49;233;49;1114111;48;49], None);
   ([5760;8195;48;12288], (Some (0)%Z));
   ([5760;120782;12], (Some (0)%Z));
   ([8195;43;48;98;95;48;49], (Some (1)%Z));
   ([8195;43;48;120;95;48;48;48;49], None);
   ([8195;45;49;49;49;49;48], (Some (-30)%Z));
   ([8195;45;95;48;48;49], None);
   ([8195;48;66;95;48;48], (Some (0)%Z));
   ([8195;49], (Some (1)%Z));
   ([8195;49;48;48;48], (Some (8)%Z));
   ([8195;49;48;127;1641;12;28], None);
   ([8195;49;49], (Some (3)%Z));
   ([8195;5760;49], (Some (1)%Z));
   ([8195;65305;12288;189;65279], None);
   ([8203;48;48;48], None);
   ([8203;1632;48;8551;8203], None);
   ([8203;19968;160], None);
   ([8232;43;48;88;95;48;48;49;48], None);
   ([8232;48;48;48;48;49], (Some (1)%Z));
   ([8232;48;88;65279], None);
   ([8232;50;1641], None);
   ([12288;43;48;111;95;48;49;48;48;48], None);
   ([12288;43;49;11], (Some (1)%Z));
   ([12288;43;95;95;48;49;8195], None);
   ([55296], None);
   ([65279;9;11], None);
   ([65279;45;48;88;95;48;49;49], None);
   ([65279;45;48;111;48;49;49], None);
   ([65279;48], None);
   ([65279;48;49;233;49;48], None);
   ([65279;48;65296;48;65279], None);
   ([65279;49;48;49;48;48;48;8195], None);
   ([65279;49;48;49;49], None);
   ([65279;49;49;95], None);
   ([65296;48;49;8195;48;49], None);
   ([65297;65298], None);
   ([65305;120831], None);
   ([120831;127;49;49;12288;48;48;49], None);
   ([125273;43;48;48;48;48;160;49;48;9], None);
   ([130037;49;8551;48;49;48;48], None);
   ([1114111;55296;95;48;5760], None)].
Example int2_ok : forallb (fun c => match py_int 2 (fst c), snd c with Some a, Some b => (a =? b)%Z | None, None => true | _, _ => false end) int2_cases = true.
Proof. vm_compute. reflexivity. Qed.

Definition int10_cases : list (str * option Z) :=
  [([], None);
   ([0;49], None);
   ([0;56;53;50;103;49;28], None);
   ([9], None);
   ([9;43;48;111;55;56;49;56;57;52;10], None);
   ([9;43;95;53;48;54], None);
   ([9;48;98;95;51;52;55;57], None);
   ([9;51;51;12;125273;52], None);
   ([9;52;56;53;65279], None);
   ([9;52;103;51;52;54;65305;57;95;9], None);
   ([9;54;133;55296], None);
   ([9;55;12288;49;54;51;48], None);
   ([10;43;48;120;57], None);
   ([10;43;48;120;5760], None);
   ([10;48;8195;130037], None);
   ([10;49;48;48;49;55;55;8203], None);
   ([10;55;49;52;56;160], (Some (7148)%Z));
   ([10;56;28;53;1632], None);
   ([10;56;51;49], (Some (831)%Z));
   ([10;95;57;48;53;57;49;65279], None);
   ([10;233;13;31;53;65279], None);
   ([10;233;57;9], None);
   ([10;12288;55;54;12;8195], (Some (76)%Z));
   ([11;9;56;103;65296], None);
   ([11;10;8551;50], None);
   ([11;45;48;66;95;51;51;53], None);
   ([11;45;48;111;95], None);
   ([11;53;55296;125273;0], None);
   ([11;53;1114111;10;160;50;55], None);
   ([11;233;2406;65296], None);
   ([12;45;48;98;56;48;53], None);
   ([12;49;57;53;55;49;51], (Some (195713)%Z));
   ([12;55;130037;57;54;65305], (Some (75969)%Z));
   ([13;49;57;50;1114111;57;103;53;48], None);
   ([13;50;0;52;160;56;55;49;11], None);
   ([13;52;53;45;49;55;51;50;8203], None);
   ([13;57;50;54;53;48;50;12;133], (Some (926502)%Z));
   ([13;178;51;48;43;43], None);
   ([13;178;95], None);
   ([13;125273], (Some (9)%Z));
   ([28;49], None);
   ([28;50;57;45;51;189;56], None);
   ([28;50;1641;49;57;53;57;55], None);
   ([28;50;5760;52;125273;49;2406;56;8195], None);
   ([28;51;1641;57;57;55;53;57], None);
   ([28;52;57;50;55;51;128], None);
   ([28;65296;50;1632], None);
   ([31;48;51;50;45], None);
   ([31;51;57;1114111], None);
   ([31;54;48;53;8195;52;57;52], None);
   ([31;55;54;56;120831], None);
   ([31;5760;8195;53;54], None);
   ([31;1114111], None);
   ([32;45;95;53;56;51;57;32], None);
   ([32;48;111;95;57], None);
   ([32;50;13;48;0;189;10], None);
   ([32;55;48;54;52], (Some (7064)%Z));
   ([32;8232;127;45;65279], None);
   ([32;125273;125273;48;51], (Some (9903)%Z));
   ([43], None);
   ([43;45;49], None);
   ([43;48;66;49;53;56;56;54;56;133], None);
   ([43;48;66;95;51;50;55;54;51], None);
   ([43;48;66;95;57], None);
   ([43;48;66;12288], None);
   ([43;48;88;49;55], None);
   ([43;48;88;95;57;48;56;54;55;48], None);
   ([43;48;98;48;54;48;53;53;50], None);
   ([43;48;98;52;54;51;48;55;160], None);
   ([43;48;98;54;52], None);
   ([43;48;98;54;57;54], None);
   ([43;48;98;95;48;53;54;49;50], None);
   ([43;48;98;95;48;53;57;56], None);
   ([43;48;98;95;57;55], None);
   ([43;48;111;52;55], None);
   ([43;48;111;53;49;49;54], None);
   ([43;48;111;56;48;51;50], None);
   ([43;48;111;95], None);
   ([43;48;111;95;48;52;54;51;49;51;9], None);
   ([43;48;120], None);
   ([43;55;53;55;189], None);
   ([43;95;31], None);
   ([43;95;51;56;8195], None);
   ([43;95;95;49;48;53;49;55], None);
   ([45], None);
   ([45;32;49], None);
   ([45;48], (Some (0)%Z));
   ([45;48;66;56;55;52;55;51;48], None);
   ([45;48;66;95;49], None);
   ([45;48;88;55;49;48;49], None);
   ([45;48;88;95;54;56;55], None);
   ([45;48;98;49], None);
   ([45;48;98;54;49;51;57;54;56;28], None);
   ([45;48;98;95;51], None);
   ([45;48;98;95;56], None);
   ([45;48;111;95], None);
   ([45;48;111;95;52;55;49;55;55], None);
   ([45;48;111;95;54;52], None);
   ([45;48;120;48;52;52;56;54;56;5760], None);
   ([45;48;120;51;55], None);
   ([45;48;120;53], None);
   ([45;48;120;54;54;50;32], None);
   ([45;48;120;95;51;57;48;51], None);
   ([45;95], None);
   ([45;95;48;55;54;49;10], None);
   ([45;95;48;56;51;54;56;51], None);
   ([45;95;49], None);
   ([45;95;49;52;50;51], None);
   ([45;95;49;56;54], None);
   ([45;1635], (Some (-3)%Z));
   ([48], (Some (0)%Z));
   ([48;48], (Some (0)%Z));
   ([48;49;53;48;48;8195], (Some (1500)%Z));
   ([48;49;56;56], (Some (188)%Z));
   ([48;49;120831;51], (Some (193)%Z));
   ([48;51;49;57;53;52;11], (Some (31954)%Z));
   ([48;53;8551], None);
   ([48;55;56;55;28;120782;95;48;56], None);
   ([48;66;48;52;55;50], None);
   ([48;66;49;49], None);
   ([48;66;49;8232], None);
   ([48;88;49;70], None);
   ([48;88;53;54;51;50;8232], None);
   ([48;88;95;10], None);
   ([48;95], None);
   ([48;95;95;48], None);
   ([48;95;120;49], None);
   ([48;98], None);
   ([48;98;49], None);
   ([48;98;95;49], None);
   ([48;98;95;55;50], None);
   ([48;120], None);
   ([48;120;45;49], None);
   ([48;120;50;57;50;57;56], None);
   ([48;120;95], None);
   ([48;120;95;52;54;51;54;51], None);
   ([48;120;95;95;102], None);
   ([48;120;95;102], None);
   ([48;120;103], None);
   ([48;55296], None);
   ([49], (Some (1)%Z));
   ([49;0], None);
   ([49;28], None);
   ([49;32], (Some (1)%Z));
   ([49;32;49], None);
   ([49;48;55296;178;50;128;32], None);
   ([49;49], (Some (11)%Z));
   ([49;49;51;53;51;57], (Some (113539)%Z));
   ([49;50;54;53;55;54;11;50;57], None);
   ([49;51], (Some (13)%Z));
   ([49;53;52;53], (Some (1545)%Z));
   ([49;54;53], (Some (165)%Z));
   ([49;95], None);
   ([49;133], (Some (1)%Z));
   ([49;233], None);
   ([49;233;50;11;31;57], None);
   ([49;8195], (Some (1)%Z));
   ([49;55296], None);
   ([50;31;55;57;50;50;55], None);
   ([50;48;128], None);
   ([50;48;233;57;52;52;48], None);
   ([50;50;50;48;57;57], (Some (222099)%Z));
   ([50;50;53;48;48;51], (Some (225003)%Z));
   ([50;52;128;49;55296], None);
   ([50;52;12288;52;49;56], None);
   ([50;53;2406;19968;49;48;50;19968], None);
   ([50;56], (Some (28)%Z));
   ([50;56;52;50;48], (Some (28420)%Z));
   ([50;57;48;53], (Some (2905)%Z));
   ([50;57;56;51;133;52], None);
   ([50;178;57], None);
   ([51;0;48;50;12], None);
   ([51;50], (Some (32)%Z));
   ([51;51;48], (Some (330)%Z));
   ([51;53;0;103;52], None);
   ([51;54;51;51;12288], (Some (3633)%Z));
   ([51;55;13;49;48;55;52], None);
   ([51;95;130037;11], (Some (35)%Z));
   ([52;48], (Some (40)%Z));
   ([52;50;1632;43], None);
   ([52;51;54;54;54;52], (Some (436664)%Z));
   ([52;54;45;50;49;52], None);
   ([52;57;1114111;50;55;54;8232], None);
   ([52;127;65279;50], None);
   ([52;120831;54;50;49], (Some (49621)%Z));
   ([53;49;53;8551;50], None);
   ([53;52;1632;56;9;54;65296], None);
   ([53;54], (Some (56)%Z));
   ([53;55;160;95;51;48], None);
   ([53;56;50;13], (Some (582)%Z));
   ([53;8551;57;51;103;9;56;57;56], None);
   ([53;120782;11], (Some (50)%Z));
   ([54;49;127;51], None);
   ([54;51;55;50], (Some (6372)%Z));
   ([54;53;56;53;120782;54;56], (Some (6585068)%Z));
   ([54;53;160], (Some (65)%Z));
   ([54;54;32], (Some (66)%Z));
   ([54;54;51], (Some (663)%Z));
   ([54;54;133;53;54;128;178;52;51], None);
   ([54;56;52;51;49;51], (Some (684313)%Z));
   ([54;56;57;55;160;55], None);
   ([54;95;8203;54;233;48;50;50], None);
   ([54;233;55;5760;51;53], None);
   ([54;65279;178;48;65279;49;55;49;55], None);
   ([54;65296;65279;8195], None);
   ([54;1114111;32], None);
   ([55;49;56;53;54;56], (Some (718568)%Z));
   ([55;49;57;49;52;56], (Some (719148)%Z));
   ([55;50], (Some (72)%Z));
   ([55;53;49;128], None);
   ([55;53;52;125273;56;52], (Some (754984)%Z));
   ([55;53;120782;56], (Some (7508)%Z));
   ([56;49;8203], None);
   ([56;52;57;54;50;51;50;55], (Some (84962327)%Z));
   ([56;55], (Some (87)%Z));
   ([56;56;49;53;28], None);
   ([56;57;51;52;12288], (Some (8934)%Z));
   ([56;1641;53], (Some (895)%Z));
   ([56;8203;49;55;49;53;13], None);
   ([56;65305;10;54;54;50;133], None);
   ([57;43;48;1641;52;57;56;55], None);
   ([57;48;53;95;49], (Some (9051)%Z));
   ([57;48;57;51;5760;52;127;56], None);
   ([57;56;52;53;11;53], None);
   ([57;57;65279;128;51;48;55;54], None);
   ([95], None);
   ([95;48], None);
   ([95;49], None);
   ([95;49;50], None);
   ([95;53;56;50;55;49], None);
   ([103;189;133], None);
   ([103;1632;54;53;50;65279], None);
   ([127;43], None);
   ([128;51], None);
   ([128;51;8551;48], None);
   ([128;56;9], None);
   ([133], None);
   ([133;13;12288;12], None);
   ([133;43;48;120;95;48;55;57;48;55], None);
   ([133;51;8203;57;48;55], None);
   ([133;52;178;55;95;49;53;5760;48], None);
   ([133;56;56;53], (Some (885)%Z));
   ([133;127;57;54], None);
   ([160;45;48;111;54;53;53;50;53;56], None);
   ([160;49;43;49;48;54;19968], None);
   ([178;50;8195], None);
   ([189;52;50;56;52], None);
   ([233], None);
   ([233;50;9], None);
   ([233;55;52;233;54;57], None);
   ([1635], (Some (3)%Z));
   ([2406;48;2406;160], (Some (0)%Z));
   ([2406;51;130037;8232;57], None);
   ([5760;43;48;98;55], None);
   ([5760;57;48;53;55;160;65305;0;52], None);
   ([5760;103;52;49;130037;57], None);
   ([5760;133], None);
   ([5760;8232], None);
   ([8195;0], None);
   ([8195;9;11;8203;10], None);
   ([8195;45;95;57;52], None);
   ([8195;49], (Some (1)%Z));
   ([8195;52;65279;128;120782], None);
   ([8203;45;95;51;54], None);
   ([8203;57;52;51;48], None);
   ([8203;1114111;8551;160], None);
   ([8232;12;12288;55;57], (Some (79)%Z));
   ([8232;43;48;88;95;55;31], None);
   ([8232;48;50;54], (Some (26)%Z));
   ([8232;48;98;56], None);
   ([8232;54;32;125273], None);
   ([8232;8203], None);
   ([12288], None);
   ([12288;45;48;120], None);
   ([12288;49;57;56;48;178;65305;11], None);
   ([12288;52;50;56;51;50;55;65296], (Some (4283270)%Z));
   ([12288;54;54;50;5760;130037;53;56;55], None);
   ([12288;55;56], (Some (78)%Z));
   ([12288;57;49;53;65305;56;56;57;8195], (Some (9159889)%Z));
   ([12288;1632;12288], (Some (0)%Z));
   ([19968;54;9;130037], None);
   ([55296], None);
   ([65279;43;95;12], None);
   ([65279;45;48;111;48;49], None);
   ([65279;50], None);
   ([65279;50;54;49;57;13;52;53], None);
   ([65279;51;48;56;49;54;10], None);
   ([65279;52], None);
   ([65297;65298], (Some (12)%Z));
   ([65305;12288;125273], None);
   ([65305;1114111;103], None);
   ([120782], (Some (0)%Z));
   ([120831;51;50;50;55296;189;54;51;9], None);
   ([120831;125273;54;1632], (Some (9960)%Z));
   ([125273;57;57], (Some (999)%Z));
   ([130037;48;48;12288;19968;57;55;54;52], None);
   ([130037;54;57;55], (Some (5697)%Z));
   ([1114111], None)].
Example int10_ok : forallb (fun c => match py_int 10 (fst c), snd c with Some a, Some b => (a =? b)%Z | None, None => true | _, _ => false end) int10_cases = true.
Proof. vm_compute. reflexivity. Qed.

Definition int16_cases : list (str * option Z) :=
  [([], None);
   ([0;49], None);
   ([0;70;101], None);
   ([9;43;48;66;95;52;54;66;54;133], (Some (738998)%Z));
   ([9;48;48;95;65;69;31;69;127;9], None);
   ([9;48;66;67;65;56;69;48], (Some (12364000)%Z));
   ([9;52;53;43;65;68;43], None);
   ([9;57;120782;97;28], None);
   ([9;65;50;67], (Some (2604)%Z));
   ([10;32;13;13;32], None);
   ([10;43;101;53;55;55;50;102], (Some (15038255)%Z));
   ([10;52;8232;98;67;97;2406;8203], None);
   ([10;54;99;48;57;45;56;8203], None);
   ([10;67;68], (Some (205)%Z));
   ([10;101;100;102;55;100;67], (Some (15595484)%Z));
   ([10;178;52;53;133], None);
   ([10;233;53;50;8232;101;51;13;54;48], None);
   ([10;1632;43;8203], None);
   ([10;2406;52;13;133;57], None);
   ([11;56;67;11;1114111], None);
   ([11;98;66;57;1114111], None);
   ([11;102;178;1641;133], None);
   ([11;127;32;48;120831;70], None);
   ([11;8232], None);
   ([12;43;48;98;97;52;67;100], (Some (763085)%Z));
   ([12;55;54;51;70;53;69;127;5760], None);
   ([12;66;127;66;12288;54;32], None);
   ([12;102;52;67;49;12288;67;98;28], None);
   ([13;0;49;130037;10], None);
   ([13;48], (Some (0)%Z));
   ([13;53;56;70;127;65;66], None);
   ([13;54;65296;102;66], (Some (24827)%Z));
   ([13;103;102;65279;69;12288], None);
   ([28;45;48;66;95;52;54;56], None);
   ([28;49], None);
   ([28;69;101], None);
   ([31;43;48;66;95;57;48;53;68], None);
   ([31;98;2406;70;54;8203;98;49;1114111], None);
   ([31;127;8195], None);
   ([31;1114111;55;65;52;57;69;57;1641], None);
   ([32;48;111;67;99], None);
   ([32;99;49;51;10;65279;54], None);
   ([43], None);
   ([43;45;49], None);
   ([43;48;66;66;102;98;69], (Some (769982)%Z));
   ([43;48;66;95;48;101;98;8203], None);
   ([43;48;66;95;70;57;68;10], (Some (49053)%Z));
   ([43;48;66;95;99;57], (Some (3017)%Z));
   ([43;48;66;100], (Some (189)%Z));
   ([43;48;66;102;100;50;98;97], (Some (12571322)%Z));
   ([43;48;88;67;55;99], (Some (3196)%Z));
   ([43;48;98;102;52;102;68;70;98], (Some (200605179)%Z));
   ([43;48;111;53;99;55;56;67], None);
   ([43;48;111;53;101;66;101;67;51], None);
   ([43;48;111;54;49;51], None);
   ([43;48;111;57;66;56], None);
   ([43;48;111;69;101;52;68;56;70], None);
   ([43;48;111;95;67;98;52], None);
   ([43;48;120;95;55], (Some (7)%Z));
   ([43;95], None);
   ([43;95;68], None);
   ([43;95;95;65;49;99;70;57;98;12], None);
   ([43;95;95;100;99;53;52;53], None);
   ([43;102;56;65279], None);
   ([45], None);
   ([45;32;49], None);
   ([45;48], (Some (0)%Z));
   ([45;48;66;51], (Some (-179)%Z));
   ([45;48;66;65], (Some (-186)%Z));
   ([45;48;66;95;51;70], (Some (-2879)%Z));
   ([45;48;66;97;70;65;57;100;54], (Some (-196061654)%Z));
   ([45;48;88;95;48], (Some (0)%Z));
   ([45;48;98], (Some (-11)%Z));
   ([45;48;98;49], (Some (-177)%Z));
   ([45;48;98;69;13], (Some (-190)%Z));
   ([45;48;111;52;52;57], None);
   ([45;48;111;54;51], None);
   ([45;48;111;69;101;51], None);
   ([45;48;111;70;11], None);
   ([45;48;111;95;97;57;100;67;55], None);
   ([45;48;111;95;97;102;56;50;12288], None);
   ([45;48;120;65;102;66;56;54], (Some (-719750)%Z));
   ([45;48;120;69;52;51;65;69;52], (Some (-14957284)%Z));
   ([45;48;120;95;102], (Some (-15)%Z));
   ([45;54;95;69;56;67;53], (Some (-452805)%Z));
   ([45;95], None);
   ([45;95;56;51;48;48;102;5760], None);
   ([45;95;57;65], None);
   ([45;95;95;52;101;56], None);
   ([45;1635], (Some (-3)%Z));
   ([48], (Some (0)%Z));
   ([48;48], (Some (0)%Z));
   ([48;66;49;49], (Some (2833)%Z));
   ([48;66;65;97;49], (Some (47777)%Z));
   ([48;66;95;65;53;100;100], (Some (763357)%Z));
   ([48;66;97;101;70;56;10], (Some (765688)%Z));
   ([48;88;49;70], (Some (31)%Z));
   ([48;88;95;69;67;68;98;66;51], (Some (15522739)%Z));
   ([48;95], None);
   ([48;95;95;48], None);
   ([48;95;120;49], None);
   ([48;98], (Some (11)%Z));
   ([48;98;49], (Some (177)%Z));
   ([48;98;95], None);
   ([48;98;95;49], (Some (177)%Z));
   ([48;98;95;55], (Some (183)%Z));
   ([48;111;52;48], None);
   ([48;111;95;101;69;48;97;102;100], None);
   ([48;120], None);
   ([48;120;45;49], None);
   ([48;120;54;102], (Some (111)%Z));
   ([48;120;95], None);
   ([48;120;95;69;98;55;57], (Some (60281)%Z));
   ([48;120;95;95;102], None);
   ([48;120;95;98;98], (Some (187)%Z));
   ([48;120;95;102], (Some (15)%Z));
   ([48;120;100;55;50;56;102;32], (Some (881295)%Z));
   ([48;120;103], None);
   ([49], (Some (1)%Z));
   ([49;0], None);
   ([49;28], None);
   ([49;32], (Some (1)%Z));
   ([49;32;49], None);
   ([49;50;51;69;51], (Some (74723)%Z));
   ([49;50;99;43], None);
   ([49;51;54;98;97;65279], None);
   ([49;53;97], (Some (346)%Z));
   ([49;53;100], (Some (349)%Z));
   ([49;68;68;65279;65;68;55;65279], None);
   ([49;95], None);
   ([49;133], (Some (1)%Z));
   ([49;233], None);
   ([49;8195], (Some (1)%Z));
   ([49;55296], None);
   ([50;11], (Some (2)%Z));
   ([50;50;8195], (Some (34)%Z));
   ([50;65;120782;49;65;101;55], (Some (44047079)%Z));
   ([50;65;120831;57;1114111], None);
   ([50;100;67;54;102;8551], None);
   ([51;55;101;1641;70;65;53;31], None);
   ([51;55296;0;100;57;102;65296], None);
   ([52;56;65;8551;55;99;50;28;160], None);
   ([52;102;66], (Some (1275)%Z));
   ([53], (Some (5)%Z));
   ([53;56;100;56;55], (Some (363911)%Z));
   ([53;68;8232;128;8195;133], None);
   ([53;98;50;56;70], (Some (373391)%Z));
   ([53;99;70;98;8195;102;54;32], None);
   ([54;52;57;45;52;55296], None);
   ([54;56;52;56;98;67;9], (Some (6834364)%Z));
   ([54;56;8203;11;57;53;12288], None);
   ([54;98;98;57;9], (Some (27577)%Z));
   ([54;102;57;55;160], (Some (28567)%Z));
   ([54;128;2406], None);
   ([55], (Some (7)%Z));
   ([55;54;57;8195;99;56;99;65279], None);
   ([55;57;100;97;97;70;189], None);
   ([55;65;53;66;0;45;57], None);
   ([55;70;100;160], (Some (2045)%Z));
   ([56;98;70;100;52;13], (Some (573396)%Z));
   ([56;12288;48], None);
   ([57;10;5760;45;54], None);
   ([57;53;8551;9;52;95;53], None);
   ([57;69;65;102;66;55], (Some (10399671)%Z));
   ([57;70;101;56;57;56], (Some (10479768)%Z));
   ([57;100;52;100;56;65305;51], (Some (164944019)%Z));
   ([65;12;11;12288], (Some (10)%Z));
   ([65;65;50;56;54], (Some (696966)%Z));
   ([65;67;97;127;101;53], None);
   ([65;97;48;57;128;66;55], None);
   ([65;100;49;100], (Some (44317)%Z));
   ([66;12;50;102;67;99;50;1114111], None);
   ([66;53;48], (Some (2896)%Z));
   ([66;53;49;95;98;51;120782;11], (Some (11868976)%Z));
   ([66;54], (Some (182)%Z));
   ([66;57;50], (Some (2962)%Z));
   ([66;8232;68;69;1632], None);
   ([66;1114111;31;69;50;55;13], None);
   ([67;53;57;1641;54;130037;68;48], (Some (3315164624)%Z));
   ([67;53;66], (Some (3163)%Z));
   ([67;68;11;130037;65279;56;69;52;5760], None);
   ([67;12288;2406], None);
   ([68;55;1632;127;51;8203;12], None);
   ([68;67;69;67;100;43;95;68], None);
   ([69;50;65279;57;8551;10], None);
   ([69;100;8203;50;66;32], None);
   ([69;133;8203;68], None);
   ([69;55296;54;95], None);
   ([70;48;51;53;189;102;50;160], None);
   ([70;53;66;56], (Some (62904)%Z));
   ([95], None);
   ([95;9;69;11], None);
   ([95;28], None);
   ([95;48], None);
   ([95;67;68;54], None);
   ([95;99;103], None);
   ([97;55;99;51;69;97], (Some (10994666)%Z));
   ([97;101;49;48;65;99;1641;0], None);
   ([97;55296;31], None);
   ([98;65;66;68;55;8203], None);
   ([98;67;98;50;49;11;160], (Some (772897)%Z));
   ([99;43;67;67;12], None);
   ([99;48;127], None);
   ([99;65;52;57;57;51;5760], (Some (13257107)%Z));
   ([99;98;9], (Some (203)%Z));
   ([100], (Some (13)%Z));
   ([100;57;54;53;2406], (Some (890448)%Z));
   ([100;66;9;57;99;65;102;160], None);
   ([100;67;95;55;53;55296], None);
   ([100;97;69;66;120782;8195], (Some (896688)%Z));
   ([100;98;8232], (Some (219)%Z));
   ([100;233;99;49;54;5760;120782], None);
   ([101], (Some (14)%Z));
   ([101;53;66;69;65;51;31], None);
   ([101;97], (Some (234)%Z));
   ([101;98;102;67;50;125273], (Some (15465513)%Z));
   ([101;127], None);
   ([102;9;125273;11], None);
   ([102;70;98;160], (Some (4091)%Z));
   ([102;95;55;65296;178;12288], None);
   ([102;99;65305;1114111], None);
   ([102;19968;56;97;65305;55;70;32], None);
   ([103;53;48;8195], None);
   ([103;70;53;100], None);
   ([103;8232;99;48], None);
   ([127;65;189], None);
   ([133], None);
   ([133;0;2406;8203], None);
   ([133;48;111;95;66;69;55;66;55;97], None);
   ([133;69;52;11;10], (Some (228)%Z));
   ([133;98;70;50;102;65279], None);
   ([160;43;95;95;68;28], None);
   ([160;48;66;95;57;68;52;69], (Some (761166)%Z));
   ([160;128;8551], None);
   ([178;45], None);
   ([178;52;102;70;45;53;1641;101], None);
   ([178;125273;65279], None);
   ([189], None);
   ([233], None);
   ([233;13;133;49], None);
   ([1635], (Some (3)%Z));
   ([1641;5760;8203], None);
   ([5760;32], None);
   ([5760;43;95], None);
   ([5760;50;8232], (Some (2)%Z));
   ([5760;52;65279;52;70;68;57;65296;127], None);
   ([5760;65;67;95;66;65279;2406;50;31], None);
   ([8195], None);
   ([8195;45;48;111;95;51;97;68;51;50;97], None);
   ([8195;49], (Some (1)%Z));
   ([8195;52;48;68], (Some (1037)%Z));
   ([8195;69;102;66;100;69;54], (Some (15711718)%Z));
   ([8195;101;67;56;1114111;50;55296;101;32], None);
   ([8195;12288], None);
   ([8203], None);
   ([8203;50;67;65;65;97;51], None);
   ([8203;98;102;9;102;101;68], None);
   ([8203;99;51;100;70;54;100;133], None);
   ([8203;102;55;53;69;97;51], None);
   ([8232;43;48;111;95;54;54;50], None);
   ([8232;66;68;66;50;8203], None);
   ([8232;68;100;54;101;102;99], (Some (14511868)%Z));
   ([8232;97;56;95;69;65;1641;9;9], (Some (691881)%Z));
   ([8232;160;68;120782;12], (Some (208)%Z));
   ([8551;31], None);
   ([12288;12;69;2406;57;70;97;57;69;28], None);
   ([12288;48;111;95;97;55;49;55;51], None);
   ([12288;49;68;48;55], (Some (7431)%Z));
   ([12288;102;28;53;120831;28], None);
   ([12288;8195;55;101;55], (Some (2023)%Z));
   ([55296], None);
   ([55296;70;101;53;120831;101;54;5760], None);
   ([55296;97;51], None);
   ([65279;9], None);
   ([65279;43;48;88;66;65;55;99;50], None);
   ([65279;45;48;88;95;57;67;48;50], None);
   ([65279;51;102;127;68;67;10], None);
   ([65279;56;57;120782], None);
   ([65279;68;56;100;50;53;68;5760], None);
   ([65279;69], None);
   ([65279;97;97;70;66;102;48], None);
   ([65279;99;57;95;11;8195], None);
   ([65297;65298], (Some (18)%Z));
   ([120782], (Some (0)%Z));
   ([120782;98;43;68;10;49;101;51;133], None);
   ([120831;69;102;49;100;55;56], (Some (166665592)%Z));
   ([125273;65296;0], None);
   ([130037;49;101;52;65;54;128;10], None);
   ([1114111;54;95;57;28;65;50;13], None);
   ([1114111;120831;65279;54;54;57], None)].
Example int16_ok : forallb (fun c => match py_int 16 (fst c), snd c with Some a, Some b => (a =? b)%Z | None, None => true | _, _ => false end) int16_cases = true.
Proof. vm_compute. reflexivity. Qed.

Definition int_limit_cases : list (str * N * str * bool) :=
  [([], 4300, [], true);
   ([], 4301, [], false);
   ([45], 4300, [], true);
   ([32], 4300, [32], true);
   ([48], 4300, [], false);
   ([49;95], 4299, [], true);
   ([49;95], 4300, [], false);
   ([49;95;48;95], 4298, [], true);
   ([120], 4301, [], false);
   ([1635], 4299, [], true);
   ([1635], 4300, [], false)].
Example int_limit_ok : forallb (fun c => let '(p, n, s, e) := c in Bool.eqb e (match int10 (p ++ repeat 48 (N.to_nat n) ++ s) with Ok _ => true | _ => false end)) int_limit_cases = true.
Proof. vm_compute. reflexivity. Qed.

Definition split_cases : list (str * list str) :=
  [([], [[]]);
   ([37], [[37]]);
   ([37;37], [[37;37]]);
   ([37;37;46;97;45;45;45;45], [[37;37;46;97;45;45;45;45]]);
   ([37;46;37;46;46;45;45;98;45;45], [[37;46;37;46;46;45;45;98;45;45]]);
   ([37;46;37;98;45;46;98;97], [[37;46;37;98;45;46;98;97]]);
   ([37;46;58], [[37;46];[]]);
   ([37;58;45;58;58;58], [[37];[45];[];[];[]]);
   ([37;97;97;58;46;46;58], [[37;97;97];[46;46];[]]);
   ([37;98;45], [[37;98;45]]);
   ([37;98;46], [[37;98;46]]);
   ([37;98;97], [[37;98;97]]);
   ([45], [[45]]);
   ([45;37], [[45;37]]);
   ([45;37;46;97;98;45;46;37;46], [[45;37;46;97;98;45;46;37;46]]);
   ([45;37;46;98;97;97;98;97], [[45;37;46;98;97;97;98;97]]);
   ([45;37;97;45;37;58;97;37], [[45;37;97;45;37];[97;37]]);
   ([45;45;37;58;45;98], [[45;45;37];[45;98]]);
   ([45;58;45;58], [[45];[45];[]]);
   ([45;58;98], [[45];[98]]);
   ([45;97], [[45;97]]);
   ([45;98;98;46;37;45;98;46], [[45;98;98;46;37;45;98;46]]);
   ([46;37;46;58;37], [[46;37;46];[37]]);
   ([46;45;46;45;45;58;45;98;45;46], [[46;45;46;45;45];[45;98;45;46]]);
   ([46;45;98], [[46;45;98]]);
   ([46;58;98], [[46];[98]]);
   ([46;97;58;97;46;37;45;45;46], [[46;97];[97;46;37;45;45;46]]);
   ([46;97;97;98;98], [[46;97;97;98;98]]);
   ([46;98;97;45;46;37;46;98;37;58], [[46;98;97;45;46;37;46;98;37];[]]);
   ([58;37;46;97;46;45;46;98], [[];[37;46;97;46;45;46;98]]);
   ([58;58;97;45;98;58;37;46;46], [[];[];[97;45;98];[37;46;46]]);
   ([58;97], [[];[97]]);
   ([58;97;58;37], [[];[97];[37]]);
   ([58;97;97;58;45;98;37;98;46;98], [[];[97;97];[45;98;37;98;46;98]]);
   ([58;98;37;97;45;37;58;98], [[];[98;37;97;45;37];[98]]);
   ([97;37;58;97;98;98;37;98;98], [[97;37];[97;98;98;37;98;98]]);
   ([97;45;46;97;58], [[97;45;46;97];[]]);
   ([97;45;97;37], [[97;45;97;37]]);
   ([97;46;98;46;98;46;45;46], [[97;46;98;46;98;46;45;46]]);
   ([97;97;98;98], [[97;97;98;98]]);
   ([97;98;46;45;58;58;58;98;98], [[97;98;46;45];[];[];[98;98]]);
   ([98], [[98]]);
   ([98;37;98], [[98;37;98]]);
   ([98;45], [[98;45]]);
   ([98;46], [[98;46]]);
   ([98;46;37;46;45;98;98], [[98;46;37;46;45;98;98]]);
   ([98;46;58;97;37;98], [[98;46];[97;37;98]]);
   ([98;58;37;58], [[98];[37];[]]);
   ([98;58;37;98;37;58;45;37;37], [[98];[37;98;37];[45;37;37]]);
   ([98;58;46;46;46], [[98];[46;46;46]]);
   ([98;58;58;45;58;45;45;98;37;58], [[98];[];[45];[45;45;98;37];[]]);
   ([98;58;98], [[98];[98]]);
   ([98;97;46;98;45;58;98], [[98;97;46;98;45];[98]]);
   ([98;98;97;98;37], [[98;98;97;98;37]]);
   ([98;98;98;37;45], [[98;98;98;37;45]])].
Example split_ok : forallb (fun c => strs_eqb (split 58 (fst c)) (snd c)) split_cases = true.
Proof. vm_compute. reflexivity. Qed.

Definition replace_cases : list (str * str * str * str) :=
  [([97], [97], [97;50;53], [97;50;53]);
   ([97], [47], [97;98;97;98;97], [47;98;47;98;47]);
   ([37], [37;50;53], [], []);
   ([97;98;97], [37;50;53], [97;53;53;97;53], [97;53;53;97;53]);
   ([97;97], [37;50;53], [37;53;50;37;50;37;97;98;53;37;53;37], [37;53;50;37;50;37;97;98;53;37;53;37]);
   ([97;97], [97;97], [53;98;50;50;37;37;70;98;53], [53;98;50;50;37;37;70;98;53]);
   ([37;50;53], [97;97], [97;97;50;53;98;97;53;50;50], [97;97;50;53;98;97;53;50;50]);
   ([97], [97], [98], [98]);
   ([97;98;97], [37;50;53], [97;98;97;53], [37;50;53;53]);
   ([97], [97;97], [70;98;53], [70;98;53]);
   ([97;98;97], [98], [37;97;70;97;37;37;70;97;97;97;50;97], [37;97;70;97;37;37;70;97;97;97;50;97]);
   ([97], [97], [97;53;97;37;97;98;50;98;97;50;97;70;97;50], [97;53;97;37;97;98;50;98;97;50;97;70;97;50]);
   ([37;50;70], [98], [70;97;50;98;53;97;70;50;37;98;53;50;53], [70;97;50;98;53;97;70;50;37;98;53;50;53]);
   ([97;98;97], [37;50;53], [70;53;98;70;97;97;37;53;97;37;70;37], [70;53;98;70;97;97;37;53;97;37;70;37]);
   ([97;98;97], [47], [97;50;70;50;53;70;53], [97;50;70;50;53;70;53]);
   ([37], [97;97], [], []);
   ([37;50;70], [], [37;53;50;37;70;97;98;50;53;98;37], [37;53;50;37;70;97;98;50;53;98;37]);
   ([37], [], [98;37;70;50;53;97;37;37;50;97;97], [98;70;50;53;97;50;97;97]);
   ([37;50], [97], [37;97;97;50;97;98;97;37;53;98], [37;97;97;50;97;98;97;37;53;98]);
   ([37;50;53], [97], [98;53;97;97;53;97;37;37], [98;53;97;97;53;97;37;37]);
   ([37], [47], [53], [53]);
   ([37;50;70], [37;50;53], [97;37;98;37;53;98], [97;37;98;37;53;98]);
   ([37;50;70], [47], [70;53;50;70;37;98;53;53;50;70;70;97;37;97], [70;53;50;70;37;98;53;53;50;70;70;97;37;97]);
   ([37], [37;50;53], [70;53;70;53;98], [70;53;70;53;98]);
   ([37;50;53], [], [98;50;98;97], [98;50;98;97]);
   ([37], [], [98;97;97;53], [98;97;97;53]);
   ([97;97], [47], [50;50;37;37;98;98;70;97;98;97;98;70;70;50], [50;50;37;37;98;98;70;97;98;97;98;70;70;50]);
   ([37], [37;50;53], [], []);
   ([97], [37;50;53], [98;70;53;70;50;97;97;97;37;97;37], [98;70;53;70;50;37;50;53;37;50;53;37;50;53;37;37;50;53;37]);
   ([37], [37;50;53], [97;98;53;70;37;70], [97;98;53;70;37;50;53;70]);
   ([97], [97], [97;97], [97;97]);
   ([37;50;53], [97;97], [98;37;37;53;53;53], [98;37;37;53;53;53]);
   ([37], [97], [], []);
   ([97;98;97], [97], [70;37;97;50;97], [70;37;97;50;97]);
   ([97], [97;97], [], []);
   ([37], [97], [98;98;53;97;97;53;37;37], [98;98;53;97;97;53;97;97]);
   ([37;50], [], [53;53;97;97;70], [53;53;97;97;70]);
   ([37;50], [47], [37;70], [37;70]);
   ([37;50], [37;50;53], [], []);
   ([37], [97;97], [53;97], [53;97]);
   ([97;98;97], [98], [97;97], [97;97]);
   ([37;50;53], [37;50;53], [97;97;50;97;53;98;50;37;53;53;37;53], [97;97;50;97;53;98;50;37;53;53;37;53]);
   ([97], [97;97], [97;53;50;37;53;97;98;37], [97;97;53;50;37;53;97;97;98;37]);
   ([37;50], [47], [50;53;53;50;97;50;37;37;70;97;50;98], [50;53;53;50;97;50;37;37;70;97;50;98]);
   ([97;98;97], [], [50;37;97;97;50;53], [50;37;97;97;50;53]);
   ([37;50], [97;97], [37;97;70;97], [37;97;70;97]);
   ([37;50;53], [], [50;70;97;53;97;37;53;98;37;97;97;97;98;98], [50;70;97;53;97;37;53;98;37;97;97;97;98;98]);
   ([37;50], [98], [70;53;50;70;97;53;70;70;70;97], [70;53;50;70;97;53;70;70;70;97]);
   ([97], [], [97;97;70;53], [70;53]);
   ([37], [37;50;53], [97], [97]);
   ([37;50], [97;97], [98;98;97;97;50;37;97;70], [98;98;97;97;50;37;97;70]);
   ([37;50;70], [97], [97;98;53;70;50;98;37], [97;98;53;70;50;98;37]);
   ([37;50], [], [70;97;97;98;50;70;98;53;70], [70;97;97;98;50;70;98;53;70]);
   ([37;50], [97], [97;97;50;98;97;70], [97;97;50;98;97;70]);
   ([97], [98], [97;97;70;97;97;50;97;97;37;97;70;97;97], [98;98;70;98;98;50;98;98;37;98;70;98;98]);
   ([97;97], [], [37;53;37;97;97;37], [37;53;37;37]);
   ([97], [97;97], [70;53;50;98;97;70;97;97;97;98;50], [70;53;50;98;97;97;70;97;97;97;97;97;97;98;50]);
   ([97], [37;50;53], [50;50;37;97;97;50;98;37;50;98], [50;50;37;37;50;53;37;50;53;50;98;37;50;98]);
   ([97;98;97], [97], [37;53;98;98;97;50;97;97;37;50;53;98;37], [37;53;98;98;97;50;97;97;37;50;53;98;37]);
   ([37], [98], [37;37;97;98;97;50;97;98;37], [98;98;97;98;97;50;97;98;98]);
   ([37;50;70], [47], [70;98;97;97;97;98;50;53;53;50;70;37;50], [70;98;97;97;97;98;50;53;53;50;70;37;50]);
   ([97;97], [97], [97;98;98;50;37;98;70;98;98;50;53;50;37;37], [97;98;98;50;37;98;70;98;98;50;53;50;37;37]);
   ([97;98;97], [97], [70;50], [70;50]);
   ([37], [97;97], [97;53;97;98;50;50;97;98;53], [97;53;97;98;50;50;97;98;53]);
   ([97], [98], [97], [98]);
   ([37;50;53], [97], [97;37;97;97;98], [97;37;97;97;98]);
   ([37;50;53], [98], [50;37;50;37;37;50;98], [50;37;50;37;37;50;98]);
   ([37;50;53], [37;50;53], [97;50;98;98;97;50;50;70;37;70;70;97;97], [97;50;98;98;97;50;50;70;37;70;70;97;97]);
   ([97], [97], [37;97;50;70;97;37;97;53;70;97;50], [37;97;50;70;97;37;97;53;70;97;50]);
   ([97;97], [37;50;53], [97;70;50;53;70], [97;70;50;53;70]);
   ([97], [98], [97], [98]);
   ([37;50;70], [37;50;53], [50;97;98;97], [50;97;98;97]);
   ([37;50], [97], [98;37;50;70], [98;97;70]);
   ([37;50;70], [47], [50;50], [50;50]);
   ([37;50;70], [97], [98;97;98;70;97], [98;97;98;70;97]);
   ([97;97], [97;97], [97;50;97;97], [97;50;97;97]);
   ([97;97], [98], [97;53;37], [97;53;37]);
   ([37;50], [97], [53;70;97;50;50], [53;70;97;50;50]);
   ([37;50;53], [97;97], [37;70;37;53;50;97;97;53;37;37;37;98], [37;70;37;53;50;97;97;53;37;37;37;98]);
   ([97], [37;50;53], [97;98;37], [37;50;53;98;37]);
   ([97;98;97], [37;50;53], [97;98;97;50;98;37;97;37;98], [37;50;53;50;98;37;97;37;98]);
   ([97], [], [97;70;97;98;98;98;70;70;70;53;50], [70;98;98;98;70;70;70;53;50]);
   ([37;50], [97], [37;97;50], [37;97;50]);
   ([37;50;70], [97;97], [53;70;70;97;53;53;97;70;53;97;37;97;70], [53;70;70;97;53;53;97;70;53;97;37;97;70]);
   ([37], [98], [53;97;70;97], [53;97;70;97]);
   ([37;50], [98], [53;97;97], [53;97;97]);
   ([37;50;53], [98], [50;97;70;53;53;98;97;97], [50;97;70;53;53;98;97;97]);
   ([37;50;53], [], [70;37;53;97;98], [70;37;53;97;98]);
   ([37;50;70], [98], [98;37], [98;37]);
   ([97], [98], [98;50;53], [98;50;53])].
Example replace_ok : forallb (fun c => let '(o, n, s, r) := c in str_eqb (replace o n s) r) replace_cases = true.
Proof. vm_compute. reflexivity. Qed.

Definition replace_first_cases : list (str * str * str * str) :=
  [([97;98;97], [97;97], [98;53;98;50;53;97;37;37;50;53;97;98], [98;53;98;50;53;97;37;37;50;53;97;98]);
   ([37;50;53], [98], [53;97;97;37;50;53;98;70;70;98], [53;97;97;98;98;70;70;98]);
   ([37;50;53], [97], [98;53;53;50;98;53;97;97;53;98;97;97;98;70], [98;53;53;50;98;53;97;97;53;98;97;97;98;70]);
   ([97;98;97], [], [53;50;70;98;97;97;97;50;37;53;70;97;97], [53;50;70;98;97;97;97;50;37;53;70;97;97]);
   ([97;97], [97], [98], [98]);
   ([37;50;53], [97], [98;37;70;37;37;37], [98;37;70;37;37;37]);
   ([97;98;97], [97], [50;97;97;98;70;37;37;50;37;97;98;50;50], [50;97;97;98;70;37;37;50;37;97;98;50;50]);
   ([37;50;70], [47], [37;97;37;97;70;50;97;98;97;37;53], [37;97;37;97;70;50;97;98;97;37;53]);
   ([97], [], [70;50;37;50;70;53;50;97;53;53;53], [70;50;37;50;70;53;50;53;53;53]);
   ([97;98;97], [], [50;53], [50;53]);
   ([97;97], [47], [], []);
   ([97;98;97], [97;97], [70;53;37;97], [70;53;37;97]);
   ([97;98;97], [97], [98;70;70;97], [98;70;70;97]);
   ([37;50;53], [97;97], [53;97;70;70;50;50;98;97;50;53;98;70;97], [53;97;70;70;50;50;98;97;50;53;98;70;97]);
   ([97], [97;97], [98;37;50;97], [98;37;50;97;97]);
   ([37;50], [98], [98;70;37;70;53;98;50], [98;70;37;70;53;98;50]);
   ([97], [37;50;53], [97;53;97;70;97;70], [37;50;53;53;97;70;97;70]);
   ([37;50;70], [], [98;97;50], [98;97;50]);
   ([37;50;70], [47], [97], [97]);
   ([37;50;70], [], [97;70;37;98;53;97;98;50;98;98;98;70], [97;70;37;98;53;97;98;50;98;98;98;70]);
   ([97], [98], [53;97;98;98;37;53;53;50;97;97;53;98], [53;98;98;98;37;53;53;50;97;97;53;98]);
   ([37], [98], [70;97;53;37;70], [70;97;53;98;70]);
   ([37;50], [], [98;50;98], [98;50;98]);
   ([97;97], [], [50;50;37;70;70;37], [50;50;37;70;70;37]);
   ([37;50], [47], [70;37;98;53;97;98;37;97;53;37;70;97;53;97], [70;37;98;53;97;98;37;97;53;37;70;97;53;97]);
   ([97;98;97], [98], [50;98;97;70;70;50], [50;98;97;70;70;50]);
   ([37], [97], [53;98;97], [53;98;97]);
   ([97;97], [], [37;97;97;70;37;37;37;37], [37;70;37;37;37;37]);
   ([97], [98], [98;50;53], [98;50;53]);
   ([97], [], [97;97], [97]);
   ([37;50;53], [97;97], [53;97;70;97;50;97;97;50;53;97;97;98;97;50], [53;97;70;97;50;97;97;50;53;97;97;98;97;50]);
   ([37;50], [47], [50;53;70;98;37], [50;53;70;98;37]);
   ([37], [47], [], []);
   ([37;50;53], [97], [53;97;70;97;97;70;97;53;50;70;37;98;98;37], [53;97;70;97;97;70;97;53;50;70;37;98;98;37]);
   ([37], [97;97], [70;50;97;50;50;98;50;53;97;70;50;98;37], [70;50;97;50;50;98;50;53;97;70;50;98;97;97]);
   ([97;97], [97;97], [98;98;70;98;70;37], [98;98;70;98;70;37]);
   ([37;50;53], [97], [53;98;53;37;37;70], [53;98;53;37;37;70]);
   ([97;98;97], [47], [37;97;98;97], [37;47]);
   ([97;98;97], [97;97], [37], [37]);
   ([37;50], [37;50;53], [53;37;53;50;50;53;70;70;50;70;50;37;37;37], [53;37;53;50;50;53;70;70;50;70;50;37;37;37]);
   ([97;98;97], [97;97], [70;98;37;37;70;97], [70;98;37;37;70;97]);
   ([37;50;70], [97;97], [37;50;97;53;98;50;37;97;97;70;97;97;53;97], [37;50;97;53;98;50;37;97;97;70;97;97;53;97]);
   ([97;97], [37;50;53], [37;98;37;97;53;97;97;70], [37;98;37;97;53;37;50;53;70]);
   ([97;97], [37;50;53], [70;98;70], [70;98;70]);
   ([97;97], [97;97], [97;97;53;37], [97;97;53;37]);
   ([37], [], [], []);
   ([97], [], [98;53;97;97;53;53;97;97;70;98], [98;53;97;53;53;97;97;70;98]);
   ([37;50;70], [], [97;98], [97;98]);
   ([97], [97], [37;50], [37;50]);
   ([37;50;53], [97], [97;97;37;98;70;70;98;53;97;98;37;98], [97;97;37;98;70;70;98;53;97;98;37;98]);
   ([97], [37;50;53], [37], [37]);
   ([97;98;97], [97;97], [37;50;50;98;97;97], [37;50;50;98;97;97]);
   ([97;97], [98], [97;97;98;97;97], [98;98;97;97]);
   ([37;50;53], [], [], []);
   ([97;98;97], [97;97], [70;98;97;37;97;37;97;53;70;97], [70;98;97;37;97;37;97;53;70;97]);
   ([37;50], [97;97], [70;50;98], [70;50;98]);
   ([97;98;97], [98], [97;37;53], [97;37;53]);
   ([37;50;70], [47], [98;53;98;70;50], [98;53;98;70;50]);
   ([37;50;70], [37;50;53], [98;98;98;70;97;98;97;98], [98;98;98;70;97;98;97;98]);
   ([97;97], [47], [50;98;53;53;98;97;37;98;98;97;50], [50;98;53;53;98;97;37;98;98;97;50]);
   ([97], [], [37;37], [37;37]);
   ([97], [], [70], [70]);
   ([37;50;70], [98], [50;37;50;50;97;53;37;97;70;70], [50;37;50;50;97;53;37;97;70;70]);
   ([37;50;70], [], [37;98;97;70;70;37], [37;98;97;70;70;37]);
   ([97;97], [98], [98;97;97;70;50;53;98;98;50;97;97], [98;98;70;50;53;98;98;50;97;97]);
   ([37;50], [97;97], [98;97;98;37;50;98;98;97;70;97], [98;97;98;97;97;98;98;97;70;97]);
   ([97;97], [97], [97;97;70;98;98;98;37;97;98;97;50;97;97], [97;70;98;98;98;37;97;98;97;50;97;97]);
   ([37], [98], [98;53;98;70;53;70;70;53;50;50;97;53;70;70], [98;53;98;70;53;70;70;53;50;50;97;53;70;70]);
   ([37;50;53], [37;50;53], [97;97;97;50;53;97;97;70;53;50;97;70;37;98], [97;97;97;50;53;97;97;70;53;50;97;70;37;98]);
   ([97], [97;97], [53;97;98;97;97;37;53;37;97;97;37;97;50;50], [53;97;97;98;97;97;37;53;37;97;97;37;97;50;50]);
   ([97;98;97], [47], [97;97], [97;97]);
   ([37;50;70], [97;97], [97], [97]);
   ([37], [], [98;53;97;98;53;98;53;97;50;97;37], [98;53;97;98;53;98;53;97;50;97]);
   ([37;50;53], [37;50;53], [37;53;37;50;50;70], [37;53;37;50;50;70]);
   ([37;50;53], [47], [98;98;50;98;70;97;98;70;53;53;97;50;37;53], [98;98;50;98;70;97;98;70;53;53;97;50;37;53]);
   ([37;50;70], [97], [70;98;53;70;97;53;53], [70;98;53;70;97;53;53]);
   ([97;98;97], [], [53;97;37;50;98;37;70;97;50;70], [53;97;37;50;98;37;70;97;50;70]);
   ([37;50], [47], [70;53;50;37;50], [70;53;50;47]);
   ([97], [97], [98;98;70;97], [98;98;70;97]);
   ([37;50], [37;50;53], [98;97;70;98;70;97], [98;97;70;98;70;97]);
   ([37;50;70], [98], [97;37], [97;37]);
   ([37;50;70], [47], [98;97;50;50;53], [98;97;50;50;53]);
   ([37;50;53], [47], [37;53;37;53;70;70;53;97;37;53], [37;53;37;53;70;70;53;97;37;53]);
   ([37;50;70], [47], [], []);
   ([37;50;70], [47], [97;97;97], [97;97;97]);
   ([37], [], [50;97;97;37;70;70;53;37;98;37;53;53;37], [50;97;97;70;70;53;37;98;37;53;53;37]);
   ([37;50;53], [], [70;53;98;50;70;50;97;97;37;98;97;50;97], [70;53;98;50;70;50;97;97;37;98;97;50;97]);
   ([97;97], [97], [53;37;37;50;98;97;50;97;70;98;97;53], [53;37;37;50;98;97;50;97;70;98;97;53]);
   ([37;50;53], [47], [53;70;97], [53;70;97]);
   ([37;50;70], [47], [70;70;97;53;37;97;97], [70;70;97;53;37;97;97])].
Example replace_first_ok : forallb (fun c => let '(o, n, s, r) := c in str_eqb (replace_first o n s) r) replace_first_cases = true.
Proof. vm_compute. reflexivity. Qed.

Definition zfill_cases : list (str * nat * str) :=
  [([51;49;97;43;48;43;50], 0%nat, [51;49;97;43;48;43;50]);
   ([49;50;50;50;48;48;50], 13%nat, [48;48;48;48;48;48;49;50;50;50;48;48;50]);
   ([48], 0%nat, [48]);
   ([49;97;49;43;49;97;45], 8%nat, [48;49;97;49;43;49;97;45]);
   ([45;49;51;97;48;43;97], 5%nat, [45;49;51;97;48;43;97]);
   ([49;97;50;51], 2%nat, [49;97;50;51]);
   ([50;51;45;48;97;43;50;97], 2%nat, [50;51;45;48;97;43;50;97]);
   ([48;49], 13%nat, [48;48;48;48;48;48;48;48;48;48;48;48;49]);
   ([43;45;50], 12%nat, [43;48;48;48;48;48;48;48;48;48;45;50]);
   ([48;48;97], 0%nat, [48;48;97]);
   ([43;48;50;43], 1%nat, [43;48;50;43]);
   ([45;45;51;48;50;45;45;45;51], 11%nat, [45;48;48;45;51;48;50;45;45;45;51]);
   ([50;50;51;48;43], 9%nat, [48;48;48;48;50;50;51;48;43]);
   ([45;48;51;97;45;51;97], 13%nat, [45;48;48;48;48;48;48;48;51;97;45;51;97]);
   ([51;97;48], 12%nat, [48;48;48;48;48;48;48;48;48;51;97;48]);
   ([50;45;51;48;43;50], 4%nat, [50;45;51;48;43;50]);
   ([50;43;43;51;48;50], 3%nat, [50;43;43;51;48;50]);
   ([48;97;97], 9%nat, [48;48;48;48;48;48;48;97;97]);
   ([45;50;43;48;43;51], 0%nat, [45;50;43;48;43;51]);
   ([48;50], 2%nat, [48;50]);
   ([45;49;51;43;97], 3%nat, [45;49;51;43;97]);
   ([43;49;51;51;50;45;97], 10%nat, [43;48;48;48;49;51;51;50;45;97]);
   ([51;43;50;97], 7%nat, [48;48;48;51;43;50;97]);
   ([48], 1%nat, [48]);
   ([49;49;43;97;97;97;43;51], 12%nat, [48;48;48;48;49;49;43;97;97;97;43;51]);
   ([97;50;97;45;51;45;48;43;51], 14%nat, [48;48;48;48;48;97;50;97;45;51;45;48;43;51]);
   ([], 4%nat, [48;48;48;48]);
   ([], 12%nat, [48;48;48;48;48;48;48;48;48;48;48;48]);
   ([], 12%nat, [48;48;48;48;48;48;48;48;48;48;48;48]);
   ([], 14%nat, [48;48;48;48;48;48;48;48;48;48;48;48;48;48]);
   ([49;43;51], 6%nat, [48;48;48;49;43;51]);
   ([], 3%nat, [48;48;48]);
   ([43;45;48;97;51;51;51;49;43], 8%nat, [43;45;48;97;51;51;51;49;43]);
   ([50], 9%nat, [48;48;48;48;48;48;48;48;50]);
   ([45], 11%nat, [45;48;48;48;48;48;48;48;48;48;48]);
   ([49;45;43], 3%nat, [49;45;43]);
   ([50;45;49;97;43;45;97], 14%nat, [48;48;48;48;48;48;48;50;45;49;97;43;45;97]);
   ([43;49;97;45], 2%nat, [43;49;97;45]);
   ([45;48;49;49;51;43;50;45;51], 13%nat, [45;48;48;48;48;48;49;49;51;43;50;45;51]);
   ([50;45;51;43;48], 4%nat, [50;45;51;43;48]);
   ([51;48;45;43;49], 3%nat, [51;48;45;43;49]);
   ([51;51;43;51], 1%nat, [51;51;43;51]);
   ([48;45;49;45;43;49;49;50;45], 8%nat, [48;45;49;45;43;49;49;50;45]);
   ([43;45;50;97;48;51;51], 12%nat, [43;48;48;48;48;48;45;50;97;48;51;51]);
   ([49;43;51;50;51], 0%nat, [49;43;51;50;51]);
   ([45;45;97], 12%nat, [45;48;48;48;48;48;48;48;48;48;45;97]);
   ([], 0%nat, []);
   ([], 1%nat, [48]);
   ([43;97;97], 7%nat, [43;48;48;48;48;97;97]);
   ([43;45;49;97;50;51;43;50;49], 10%nat, [43;48;45;49;97;50;51;43;50;49]);
   ([45;97;49;45;48;50;48;45], 9%nat, [45;48;97;49;45;48;50;48;45]);
   ([43;43;45;45;43], 1%nat, [43;43;45;45;43]);
   ([43;43;43;50;50;49], 10%nat, [43;48;48;48;48;43;43;50;50;49]);
   ([51;49;50;49;51;51], 5%nat, [51;49;50;49;51;51]);
   ([97;45;49;49;97;48;49], 0%nat, [97;45;49;49;97;48;49]);
   ([97], 9%nat, [48;48;48;48;48;48;48;48;97]);
   ([97;49;50;45;51;43;45;43], 4%nat, [97;49;50;45;51;43;45;43]);
   ([], 8%nat, [48;48;48;48;48;48;48;48]);
   ([48;45;48;48;97;45;43;50;49], 0%nat, [48;45;48;48;97;45;43;50;49]);
   ([49;48;97;43], 8%nat, [48;48;48;48;49;48;97;43])].
Example zfill_ok : forallb (fun c => let '(s, w, r) := c in str_eqb (zfill w s) r) zfill_cases = true.
Proof. vm_compute. reflexivity. Qed.

Definition just_cases : list (str * nat * str * str) :=
  [([], 13%nat, [48;48;48;48;48;48;48;48;48;48;48;48;48], [48;48;48;48;48;48;48;48;48;48;48;48;48]);
   ([45;45;49;43], 13%nat, [48;48;48;48;48;48;48;48;48;45;45;49;43], [45;45;49;43;48;48;48;48;48;48;48;48;48]);
   ([], 7%nat, [48;48;48;48;48;48;48], [48;48;48;48;48;48;48]);
   ([48;49;43;97;49;43], 13%nat, [48;48;48;48;48;48;48;48;49;43;97;49;43], [48;49;43;97;49;43;48;48;48;48;48;48;48]);
   ([50;43;48;50;50;45;49], 2%nat, [50;43;48;50;50;45;49], [50;43;48;50;50;45;49]);
   ([97;48;50;49;51], 0%nat, [97;48;50;49;51], [97;48;50;49;51]);
   ([48;51;48;50;48], 10%nat, [48;48;48;48;48;48;51;48;50;48], [48;51;48;50;48;48;48;48;48;48]);
   ([], 11%nat, [48;48;48;48;48;48;48;48;48;48;48], [48;48;48;48;48;48;48;48;48;48;48]);
   ([50;50;45;50;51], 7%nat, [48;48;50;50;45;50;51], [50;50;45;50;51;48;48]);
   ([], 12%nat, [48;48;48;48;48;48;48;48;48;48;48;48], [48;48;48;48;48;48;48;48;48;48;48;48]);
   ([43;50;50;43;51;43;45;48], 2%nat, [43;50;50;43;51;43;45;48], [43;50;50;43;51;43;45;48]);
   ([48], 10%nat, [48;48;48;48;48;48;48;48;48;48], [48;48;48;48;48;48;48;48;48;48]);
   ([43;49;48], 13%nat, [48;48;48;48;48;48;48;48;48;48;43;49;48], [43;49;48;48;48;48;48;48;48;48;48;48;48]);
   ([97;45;51;51;49;51], 14%nat, [48;48;48;48;48;48;48;48;97;45;51;51;49;51], [97;45;51;51;49;51;48;48;48;48;48;48;48;48]);
   ([97;51;48;51;97;51;97;51], 0%nat, [97;51;48;51;97;51;97;51], [97;51;48;51;97;51;97;51]);
   ([97;45;48;48], 11%nat, [48;48;48;48;48;48;48;97;45;48;48], [97;45;48;48;48;48;48;48;48;48;48]);
   ([51;45;45;50], 8%nat, [48;48;48;48;51;45;45;50], [51;45;45;50;48;48;48;48]);
   ([51;50;48;51;45], 0%nat, [51;50;48;51;45], [51;50;48;51;45]);
   ([49;48;43;45;45;49;45;97], 1%nat, [49;48;43;45;45;49;45;97], [49;48;43;45;45;49;45;97]);
   ([45;49;50;51], 5%nat, [48;45;49;50;51], [45;49;50;51;48]);
   ([43], 9%nat, [48;48;48;48;48;48;48;48;43], [43;48;48;48;48;48;48;48;48]);
   ([], 13%nat, [48;48;48;48;48;48;48;48;48;48;48;48;48], [48;48;48;48;48;48;48;48;48;48;48;48;48]);
   ([48;50;49;45;50;49], 2%nat, [48;50;49;45;50;49], [48;50;49;45;50;49]);
   ([51], 8%nat, [48;48;48;48;48;48;48;51], [51;48;48;48;48;48;48;48]);
   ([50;45;45], 7%nat, [48;48;48;48;50;45;45], [50;45;45;48;48;48;48]);
   ([43], 0%nat, [43], [43]);
   ([97;45;43;49;48;48;43], 1%nat, [97;45;43;49;48;48;43], [97;45;43;49;48;48;43]);
   ([49;50], 3%nat, [48;49;50], [49;50;48]);
   ([49;51;43], 10%nat, [48;48;48;48;48;48;48;49;51;43], [49;51;43;48;48;48;48;48;48;48]);
   ([45;51;45;50;43;48;49], 3%nat, [45;51;45;50;43;48;49], [45;51;45;50;43;48;49]);
   ([49;49;50;48;48;97], 8%nat, [48;48;49;49;50;48;48;97], [49;49;50;48;48;97;48;48]);
   ([50;51;50;48;48], 2%nat, [50;51;50;48;48], [50;51;50;48;48]);
   ([48], 1%nat, [48], [48]);
   ([50;50;45;43], 13%nat, [48;48;48;48;48;48;48;48;48;50;50;45;43], [50;50;45;43;48;48;48;48;48;48;48;48;48]);
   ([], 9%nat, [48;48;48;48;48;48;48;48;48], [48;48;48;48;48;48;48;48;48]);
   ([49;48;49;48], 10%nat, [48;48;48;48;48;48;49;48;49;48], [49;48;49;48;48;48;48;48;48;48]);
   ([43;97], 11%nat, [48;48;48;48;48;48;48;48;48;43;97], [43;97;48;48;48;48;48;48;48;48;48]);
   ([45;49;45;48;50], 5%nat, [45;49;45;48;50], [45;49;45;48;50]);
   ([97;48;43;45;97], 14%nat, [48;48;48;48;48;48;48;48;48;97;48;43;45;97], [97;48;43;45;97;48;48;48;48;48;48;48;48;48]);
   ([49;51;45;48], 14%nat, [48;48;48;48;48;48;48;48;48;48;49;51;45;48], [49;51;45;48;48;48;48;48;48;48;48;48;48;48]);
   ([50;50;97;97;51], 11%nat, [48;48;48;48;48;48;50;50;97;97;51], [50;50;97;97;51;48;48;48;48;48;48]);
   ([], 11%nat, [48;48;48;48;48;48;48;48;48;48;48], [48;48;48;48;48;48;48;48;48;48;48]);
   ([48;51;45;45], 9%nat, [48;48;48;48;48;48;51;45;45], [48;51;45;45;48;48;48;48;48]);
   ([43], 14%nat, [48;48;48;48;48;48;48;48;48;48;48;48;48;43], [43;48;48;48;48;48;48;48;48;48;48;48;48;48]);
   ([45;51], 0%nat, [45;51], [45;51]);
   ([], 4%nat, [48;48;48;48], [48;48;48;48]);
   ([45;49;43;48;49;49], 5%nat, [45;49;43;48;49;49], [45;49;43;48;49;49]);
   ([51;48;43], 4%nat, [48;51;48;43], [51;48;43;48]);
   ([48;49;43;49;49;50;45], 0%nat, [48;49;43;49;49;50;45], [48;49;43;49;49;50;45]);
   ([48;45;97;97;45;45;48], 7%nat, [48;45;97;97;45;45;48], [48;45;97;97;45;45;48]);
   ([51;43;97;50;51;48], 5%nat, [51;43;97;50;51;48], [51;43;97;50;51;48]);
   ([50;45;51;45;43], 8%nat, [48;48;48;50;45;51;45;43], [50;45;51;45;43;48;48;48]);
   ([50;45;50;48;51;48], 4%nat, [50;45;50;48;51;48], [50;45;50;48;51;48]);
   ([97], 3%nat, [48;48;97], [97;48;48]);
   ([50;43;97;97;50;45], 5%nat, [50;43;97;97;50;45], [50;43;97;97;50;45]);
   ([48;51;50;97;49;45], 9%nat, [48;48;48;48;51;50;97;49;45], [48;51;50;97;49;45;48;48;48]);
   ([48;51;48;97;50;50], 2%nat, [48;51;48;97;50;50], [48;51;48;97;50;50]);
   ([51;50;50;48;49;43;49;97;50], 13%nat, [48;48;48;48;51;50;50;48;49;43;49;97;50], [51;50;50;48;49;43;49;97;50;48;48;48;48]);
   ([49;97;45;51;43;50;45;43], 14%nat, [48;48;48;48;48;48;49;97;45;51;43;50;45;43], [49;97;45;51;43;50;45;43;48;48;48;48;48;48]);
   ([], 10%nat, [48;48;48;48;48;48;48;48;48;48], [48;48;48;48;48;48;48;48;48;48])].
Example just_ok : forallb (fun c => let '(s, w, l, r) := c in str_eqb (padl 48 w s) l && str_eqb (padr 48 w s) r) just_cases = true.
Proof. vm_compute. reflexivity. Qed.

Definition slice_cases : list (option Z * option Z * str * str) :=
  [((Some (5)%Z), (Some (-14)%Z), [97;98;99], []);
   ((Some (4)%Z), (Some (14)%Z), [97;98;99;100;101], [101]);
   ((Some (13)%Z), (Some (-9)%Z), [97;98;99;100;101;102], []);
   ((Some (12)%Z), (Some (6)%Z), [97;98;99;100], []);
   ((Some (7)%Z), (Some (8)%Z), [97;98;99;100;101;102;103;104;105], [104]);
   ((Some (-5)%Z), (Some (-5)%Z), [97;98;99;100;101;102;103;104;105;106], []);
   ((Some (8)%Z), (Some (-8)%Z), [97;98;99;100;101;102;103], []);
   ((Some (7)%Z), (Some (2)%Z), [97;98;99;100], []);
   ((Some (7)%Z), (Some (11)%Z), [97;98;99;100;101;102;103;104], [104]);
   ((Some (3)%Z), (Some (-14)%Z), [97;98;99;100;101;102], []);
   ((Some (13)%Z), (Some (-2)%Z), [97;98], []);
   ((Some (6)%Z), (Some (-7)%Z), [97;98;99;100;101;102], []);
   ((Some (-13)%Z), (Some (0)%Z), [97;98;99;100;101;102;103;104;105], []);
   ((Some (-13)%Z), (Some (4)%Z), [97], [97]);
   ((Some (-8)%Z), None, [97;98;99;100;101;102;103;104], [97;98;99;100;101;102;103;104]);
   ((Some (3)%Z), (Some (-6)%Z), [], []);
   ((Some (-1)%Z), (Some (6)%Z), [97;98;99;100;101;102;103;104;105;106], []);
   ((Some (-12)%Z), (Some (-11)%Z), [97;98;99;100;101;102;103;104;105], []);
   ((Some (11)%Z), (Some (11)%Z), [97;98;99], []);
   ((Some (11)%Z), (Some (9)%Z), [97;98;99;100], []);
   ((Some (1)%Z), (Some (11)%Z), [97;98;99;100;101;102], [98;99;100;101;102]);
   ((Some (0)%Z), (Some (13)%Z), [97], [97]);
   ((Some (8)%Z), (Some (-11)%Z), [], []);
   ((Some (-9)%Z), (Some (5)%Z), [97], [97]);
   ((Some (14)%Z), (Some (-1)%Z), [], []);
   ((Some (-13)%Z), (Some (-13)%Z), [97;98;99;100;101;102;103;104], []);
   ((Some (8)%Z), (Some (-13)%Z), [97], []);
   ((Some (-9)%Z), (Some (7)%Z), [97;98;99;100], [97;98;99;100]);
   ((Some (-4)%Z), None, [97;98;99;100;101;102;103;104], [101;102;103;104]);
   ((Some (13)%Z), (Some (-8)%Z), [97;98], []);
   ((Some (13)%Z), (Some (4)%Z), [], []);
   ((Some (0)%Z), (Some (11)%Z), [97;98;99;100], [97;98;99;100]);
   ((Some (-14)%Z), (Some (1)%Z), [97;98;99;100;101;102;103], [97]);
   ((Some (14)%Z), (Some (12)%Z), [97;98;99;100;101;102;103], []);
   ((Some (8)%Z), (Some (-10)%Z), [97], []);
   ((Some (-13)%Z), (Some (6)%Z), [97;98;99;100], [97;98;99;100]);
   ((Some (1)%Z), (Some (-1)%Z), [], []);
   ((Some (-1)%Z), (Some (-4)%Z), [97], []);
   ((Some (-13)%Z), (Some (6)%Z), [97;98;99;100;101;102;103;104;105], [97;98;99;100;101;102]);
   ((Some (-10)%Z), (Some (-8)%Z), [97;98;99;100;101;102], []);
   ((Some (9)%Z), (Some (9)%Z), [97], []);
   ((Some (4)%Z), (Some (9)%Z), [97;98;99;100;101;102;103;104], [101;102;103;104]);
   ((Some (5)%Z), (Some (2)%Z), [97;98;99;100], []);
   ((Some (3)%Z), (Some (8)%Z), [97;98;99], []);
   ((Some (10)%Z), (Some (14)%Z), [97;98;99;100], []);
   ((Some (-6)%Z), (Some (-6)%Z), [97;98;99;100;101;102], []);
   ((Some (1)%Z), (Some (7)%Z), [97;98], [98]);
   ((Some (-12)%Z), (Some (9)%Z), [97;98;99;100;101;102;103;104;105;106], [97;98;99;100;101;102;103;104;105]);
   ((Some (13)%Z), (Some (13)%Z), [97;98;99;100;101], []);
   ((Some (2)%Z), (Some (-8)%Z), [97;98;99;100;101;102;103;104;105], []);
   ((Some (8)%Z), (Some (2)%Z), [97;98;99;100;101;102;103;104;105;106], []);
   ((Some (5)%Z), (Some (-8)%Z), [97;98;99], []);
   ((Some (-14)%Z), (Some (-6)%Z), [97;98;99;100;101;102;103;104;105;106], [97;98;99;100]);
   ((Some (-14)%Z), (Some (2)%Z), [97;98;99;100;101;102;103], [97;98]);
   ((Some (7)%Z), (Some (1)%Z), [97;98;99;100;101;102;103], []);
   ((Some (-14)%Z), (Some (9)%Z), [], []);
   ((Some (-10)%Z), (Some (12)%Z), [97;98;99;100;101;102;103;104;105], [97;98;99;100;101;102;103;104;105]);
   ((Some (10)%Z), (Some (-12)%Z), [97;98;99;100;101], []);
   ((Some (-1)%Z), (Some (-8)%Z), [97;98;99;100;101;102;103;104;105], []);
   ((Some (2)%Z), (Some (-14)%Z), [97;98;99;100;101;102;103], []);
   ((Some (-6)%Z), (Some (-10)%Z), [97;98;99;100], []);
   ((Some (9)%Z), (Some (-14)%Z), [97;98;99;100], []);
   ((Some (-8)%Z), (Some (-6)%Z), [97;98;99;100;101], []);
   ((Some (-4)%Z), (Some (12)%Z), [97], [97]);
   ((Some (7)%Z), (Some (-7)%Z), [97;98;99;100;101;102;103;104], []);
   ((Some (13)%Z), (Some (14)%Z), [97], []);
   ((Some (11)%Z), (Some (12)%Z), [97;98;99;100;101;102;103], []);
   ((Some (-1)%Z), (Some (0)%Z), [97;98;99;100;101;102;103;104], []);
   ((Some (3)%Z), (Some (10)%Z), [97;98;99;100;101;102], [100;101;102]);
   ((Some (-11)%Z), (Some (12)%Z), [97;98;99;100;101;102;103;104], [97;98;99;100;101;102;103;104]);
   ((Some (-14)%Z), (Some (3)%Z), [97;98;99;100;101;102;103;104;105], [97;98;99]);
   ((Some (8)%Z), (Some (2)%Z), [], []);
   ((Some (-3)%Z), (Some (-11)%Z), [97;98;99;100;101;102;103], []);
   ((Some (-3)%Z), (Some (-3)%Z), [97;98;99;100;101;102;103;104;105], []);
   ((Some (-4)%Z), (Some (1)%Z), [97;98;99;100;101], []);
   ((Some (-11)%Z), (Some (14)%Z), [97;98;99;100;101;102;103;104], [97;98;99;100;101;102;103;104]);
   ((Some (-4)%Z), (Some (8)%Z), [97;98;99], [97;98;99]);
   ((Some (5)%Z), (Some (3)%Z), [97;98;99], []);
   ((Some (-14)%Z), (Some (-9)%Z), [], []);
   ((Some (10)%Z), (Some (-3)%Z), [97;98;99;100], []);
   ((Some (9)%Z), (Some (-8)%Z), [97], []);
   ((Some (-14)%Z), (Some (-5)%Z), [97;98;99], []);
   ((Some (-1)%Z), (Some (-9)%Z), [97;98;99;100;101], []);
   ((Some (9)%Z), (Some (-13)%Z), [97;98;99;100;101;102;103;104;105;106], []);
   ((Some (3)%Z), (Some (8)%Z), [97;98;99;100;101;102;103], [100;101;102;103]);
   ((Some (-3)%Z), (Some (-12)%Z), [97;98;99], []);
   ((Some (1)%Z), (Some (12)%Z), [97;98;99;100;101;102;103;104;105;106], [98;99;100;101;102;103;104;105;106]);
   ((Some (0)%Z), (Some (1)%Z), [97;98;99;100], [97]);
   ((Some (13)%Z), (Some (2)%Z), [97], []);
   ((Some (1)%Z), (Some (10)%Z), [97;98;99;100], [98;99;100]);
   ((Some (2)%Z), (Some (12)%Z), [97], []);
   ((Some (-3)%Z), (Some (11)%Z), [97;98;99], [97;98;99]);
   ((Some (13)%Z), (Some (-5)%Z), [97;98;99;100;101;102;103;104;105;106], []);
   ((Some (-1)%Z), (Some (10)%Z), [97;98;99;100;101;102;103;104;105;106], [106]);
   ((Some (9)%Z), (Some (12)%Z), [97;98;99;100;101;102;103], []);
   ((Some (13)%Z), (Some (9)%Z), [97;98;99;100;101;102], []);
   ((Some (-5)%Z), (Some (6)%Z), [97;98;99;100;101;102;103;104;105], [101;102]);
   ((Some (11)%Z), (Some (6)%Z), [97;98;99;100;101], []);
   ((Some (-8)%Z), (Some (-14)%Z), [97], []);
   ((Some (10)%Z), (Some (-1)%Z), [97;98;99;100], []);
   ((Some (0)%Z), (Some (8)%Z), [97;98], [97;98]);
   ((Some (14)%Z), (Some (14)%Z), [97;98;99;100;101;102;103;104], []);
   ((Some (7)%Z), (Some (0)%Z), [97;98;99;100;101;102;103;104;105], []);
   ((Some (-1)%Z), (Some (-13)%Z), [97], []);
   ((Some (8)%Z), (Some (-5)%Z), [97;98;99;100;101;102;103;104;105], []);
   ((Some (1)%Z), (Some (7)%Z), [97], []);
   ((Some (12)%Z), (Some (-14)%Z), [], []);
   ((Some (-10)%Z), (Some (-10)%Z), [97;98], []);
   (None, (Some (-5)%Z), [97;98;99;100;101;102;103;104;105;106], [97;98;99;100;101]);
   ((Some (10)%Z), (Some (-7)%Z), [97;98;99;100;101;102;103;104], []);
   ((Some (-11)%Z), (Some (-6)%Z), [97;98;99;100;101;102;103], [97]);
   ((Some (8)%Z), (Some (-4)%Z), [97;98;99;100;101], []);
   ((Some (-8)%Z), (Some (-7)%Z), [], []);
   ((Some (5)%Z), (Some (-3)%Z), [97;98], []);
   ((Some (8)%Z), (Some (-5)%Z), [97;98;99;100;101;102;103;104;105], []);
   ((Some (-6)%Z), (Some (-13)%Z), [97;98;99;100;101;102], []);
   ((Some (0)%Z), (Some (-5)%Z), [97], []);
   ((Some (-4)%Z), (Some (1)%Z), [97;98;99;100;101], []);
   ((Some (-9)%Z), (Some (-12)%Z), [97;98;99;100;101], []);
   ((Some (-3)%Z), (Some (2)%Z), [97;98], [97;98]);
   ((Some (-6)%Z), (Some (-6)%Z), [], []);
   ((Some (-1)%Z), (Some (-6)%Z), [97;98;99;100;101;102], []);
   ((Some (5)%Z), (Some (5)%Z), [97;98], []);
   ((Some (-4)%Z), (Some (14)%Z), [97;98;99;100;101], [98;99;100;101]);
   ((Some (10)%Z), (Some (3)%Z), [97;98;99;100;101;102;103], []);
   ((Some (5)%Z), (Some (-1)%Z), [97;98], []);
   ((Some (3)%Z), (Some (-11)%Z), [97;98;99;100;101;102;103], []);
   ((Some (11)%Z), (Some (-5)%Z), [], []);
   ((Some (-2)%Z), (Some (0)%Z), [97;98;99;100;101], []);
   ((Some (-8)%Z), (Some (11)%Z), [97;98;99;100;101;102;103], [97;98;99;100;101;102;103]);
   ((Some (-13)%Z), (Some (-6)%Z), [97;98], []);
   ((Some (-9)%Z), (Some (2)%Z), [], []);
   ((Some (-5)%Z), (Some (13)%Z), [97;98;99;100;101;102;103], [99;100;101;102;103]);
   ((Some (-1)%Z), (Some (-3)%Z), [97;98;99;100;101;102;103], []);
   ((Some (-12)%Z), (Some (-9)%Z), [97;98;99], []);
   ((Some (12)%Z), (Some (-5)%Z), [97;98;99;100;101;102;103;104;105;106], []);
   ((Some (3)%Z), (Some (-6)%Z), [97;98;99;100;101;102;103;104;105], []);
   ((Some (-11)%Z), (Some (-10)%Z), [97;98;99;100;101], []);
   ((Some (1)%Z), (Some (4)%Z), [97;98;99;100;101;102;103], [98;99;100]);
   ((Some (10)%Z), (Some (1)%Z), [97;98;99;100], []);
   ((Some (-13)%Z), (Some (-1)%Z), [97;98;99;100;101;102;103;104], [97;98;99;100;101;102;103]);
   ((Some (7)%Z), (Some (8)%Z), [97;98;99;100;101;102], []);
   ((Some (10)%Z), (Some (-9)%Z), [97;98;99], []);
   ((Some (10)%Z), (Some (-10)%Z), [97;98;99], []);
   ((Some (8)%Z), (Some (12)%Z), [97;98;99], []);
   ((Some (-7)%Z), (Some (-9)%Z), [97;98;99;100;101;102;103;104;105;106], []);
   ((Some (9)%Z), (Some (8)%Z), [97;98;99;100;101;102;103], []);
   ((Some (13)%Z), (Some (5)%Z), [97;98;99;100;101], []);
   ((Some (10)%Z), (Some (14)%Z), [97;98], []);
   ((Some (13)%Z), (Some (-10)%Z), [97;98;99], []);
   ((Some (6)%Z), (Some (-8)%Z), [], []);
   ((Some (2)%Z), (Some (10)%Z), [97;98;99;100;101;102;103;104;105], [99;100;101;102;103;104;105]);
   ((Some (-1)%Z), (Some (-12)%Z), [], []);
   ((Some (9)%Z), (Some (3)%Z), [], []);
   ((Some (-11)%Z), (Some (-10)%Z), [97;98;99;100;101;102;103], []);
   ((Some (8)%Z), (Some (-7)%Z), [97], []);
   ((Some (1)%Z), (Some (12)%Z), [97;98;99;100;101;102], [98;99;100;101;102]);
   ((Some (-12)%Z), (Some (13)%Z), [97;98;99;100;101], [97;98;99;100;101]);
   ((Some (-2)%Z), (Some (7)%Z), [97;98;99;100;101], [100;101]);
   ((Some (-10)%Z), (Some (3)%Z), [97], [97]);
   ((Some (1)%Z), (Some (5)%Z), [97], []);
   ((Some (-7)%Z), (Some (0)%Z), [97;98;99;100;101], []);
   ((Some (1)%Z), (Some (5)%Z), [97;98;99;100;101;102;103;104;105;106], [98;99;100;101]);
   ((Some (12)%Z), (Some (12)%Z), [97;98;99], []);
   ((Some (12)%Z), (Some (-3)%Z), [97;98;99;100], []);
   ((Some (-9)%Z), None, [97;98;99;100;101], [97;98;99;100;101]);
   ((Some (-14)%Z), (Some (-6)%Z), [97;98;99;100;101;102], []);
   ((Some (-9)%Z), (Some (11)%Z), [97;98], [97;98]);
   ((Some (13)%Z), (Some (-1)%Z), [97;98;99;100;101;102;103;104;105], []);
   ((Some (-3)%Z), (Some (-12)%Z), [97;98;99], []);
   ((Some (-9)%Z), (Some (-2)%Z), [97], []);
   ((Some (-5)%Z), (Some (-6)%Z), [97;98;99;100], []);
   ((Some (-11)%Z), (Some (-4)%Z), [97;98;99;100;101;102], [97;98]);
   ((Some (-8)%Z), (Some (5)%Z), [], []);
   ((Some (-11)%Z), None, [97;98;99;100;101;102;103;104;105], [97;98;99;100;101;102;103;104;105]);
   ((Some (3)%Z), (Some (-12)%Z), [97;98;99;100;101;102;103], []);
   ((Some (1)%Z), (Some (13)%Z), [97;98], [98]);
   ((Some (6)%Z), (Some (10)%Z), [97;98;99;100;101], []);
   ((Some (11)%Z), (Some (-10)%Z), [97;98;99;100], []);
   ((Some (0)%Z), (Some (7)%Z), [97;98;99], [97;98;99]);
   ((Some (-4)%Z), (Some (-3)%Z), [97;98;99;100;101;102;103;104], [101]);
   ((Some (-12)%Z), (Some (4)%Z), [97;98;99;100;101], [97;98;99;100]);
   ((Some (9)%Z), (Some (-1)%Z), [97;98;99;100], []);
   ((Some (-2)%Z), (Some (-11)%Z), [97;98;99;100;101;102;103;104;105;106], []);
   ((Some (-5)%Z), (Some (5)%Z), [97;98;99;100;101;102;103;104;105], [101]);
   ((Some (0)%Z), (Some (-14)%Z), [97], []);
   ((Some (-14)%Z), (Some (10)%Z), [97;98], [97;98]);
   ((Some (-7)%Z), (Some (-12)%Z), [97;98;99;100;101], []);
   ((Some (2)%Z), (Some (-9)%Z), [97;98;99;100;101;102;103;104;105;106], []);
   ((Some (13)%Z), (Some (0)%Z), [97;98;99;100;101;102;103;104], []);
   ((Some (-3)%Z), (Some (-4)%Z), [97;98;99;100], []);
   ((Some (14)%Z), (Some (6)%Z), [97;98;99], []);
   ((Some (-9)%Z), (Some (6)%Z), [97;98], [97;98]);
   ((Some (13)%Z), None, [97;98;99;100;101;102], []);
   ((Some (0)%Z), (Some (10)%Z), [97;98;99;100;101;102;103], [97;98;99;100;101;102;103]);
   ((Some (-1)%Z), (Some (2)%Z), [97], [97]);
   ((Some (-10)%Z), None, [97;98;99;100;101;102;103;104], [97;98;99;100;101;102;103;104]);
   ((Some (-7)%Z), (Some (1)%Z), [97;98;99;100;101;102;103], [97]);
   (None, (Some (-6)%Z), [97;98;99], []);
   ((Some (10)%Z), (Some (12)%Z), [97;98], []);
   ((Some (9)%Z), (Some (3)%Z), [97;98], []);
   ((Some (-4)%Z), (Some (-11)%Z), [97;98;99;100;101], []);
   ((Some (7)%Z), (Some (-6)%Z), [97;98], []);
   ((Some (-3)%Z), (Some (7)%Z), [97;98;99;100;101;102;103;104], [102;103]);
   ((Some (3)%Z), (Some (-6)%Z), [97;98;99;100;101;102;103], []);
   ((Some (8)%Z), (Some (5)%Z), [97;98;99;100;101;102;103;104;105;106], []);
   ((Some (12)%Z), (Some (6)%Z), [97;98;99;100;101], []);
   ((Some (9)%Z), (Some (11)%Z), [97;98;99;100;101;102;103], []);
   ((Some (14)%Z), (Some (-13)%Z), [97;98;99;100;101;102;103;104;105;106], []);
   ((Some (-6)%Z), (Some (0)%Z), [97;98;99], []);
   ((Some (-14)%Z), (Some (10)%Z), [97;98;99;100;101;102;103;104;105;106], [97;98;99;100;101;102;103;104;105;106]);
   ((Some (-5)%Z), (Some (-9)%Z), [97;98;99;100;101;102;103;104;105], []);
   ((Some (-1)%Z), (Some (-10)%Z), [97;98;99], []);
   ((Some (-14)%Z), None, [], []);
   ((Some (-8)%Z), (Some (11)%Z), [97;98;99;100], [97;98;99;100]);
   ((Some (6)%Z), (Some (5)%Z), [97], []);
   ((Some (10)%Z), (Some (-2)%Z), [97;98;99;100;101;102;103;104], []);
   (None, (Some (-2)%Z), [97], []);
   ((Some (11)%Z), (Some (-3)%Z), [97;98;99;100;101;102;103;104], []);
   ((Some (2)%Z), (Some (-1)%Z), [97;98;99;100;101;102;103;104;105;106], [99;100;101;102;103;104;105])].
Example slice_ok : forallb (fun c => let '(a, b, s, r) := c in str_eqb (slz a b s) r) slice_cases = true.
Proof. vm_compute. reflexivity. Qed.

Definition stride_cases : list (str * str * str) :=
  [([], [], []);
   ([97], [97], []);
   ([97;98], [97], [98]);
   ([97;98;99], [97;99], [98]);
   ([97;98;99;100], [97;99], [98;100]);
   ([97;98;99;100;101], [97;99;101], [98;100]);
   ([97;98;99;100;101;102], [97;99;101], [98;100;102]);
   ([97;98;99;100;101;102;103], [97;99;101;103], [98;100;102])].
Example stride_ok : forallb (fun c => let '(s, a, b) := c in str_eqb (evens s) a && str_eqb (odds s) b) stride_cases = true.
Proof. vm_compute. reflexivity. Qed.

Definition format_cases : list (Z * nat * str * str * str) :=
  [((12)%Z, 0%nat, [49;49;48;48], [67], [49;50]);
   ((1)%Z, 8%nat, [48;48;48;48;48;48;48;49], [49], [49]);
   ((-1)%Z, 19%nat, [45;48;48;48;48;48;48;48;48;48;48;48;48;48;48;48;48;48;49], [45;49], [45;49]);
   ((1)%Z, 4%nat, [48;48;48;49], [49], [49]);
   ((227277994036)%Z, 14%nat, [49;49;48;49;48;48;49;49;49;48;49;48;49;48;49;49;48;49;48;48;49;48;49;49;49;49;49;48;48;48;48;48;49;49;48;49;48;48], [51;52;69;65;68;50;70;56;51;52], [50;50;55;50;55;55;57;57;52;48;51;54]);
   ((147)%Z, 1%nat, [49;48;48;49;48;48;49;49], [57;51], [49;52;55]);
   ((596721676216)%Z, 14%nat, [49;48;48;48;49;48;49;48;49;49;49;48;49;49;49;49;48;49;49;48;48;48;49;48;48;48;49;48;49;49;49;49;49;48;49;49;49;48;48;48], [56;65;69;70;54;50;50;70;66;56], [53;57;54;55;50;49;54;55;54;50;49;54]);
   ((-123)%Z, 3%nat, [45;49;49;49;49;48;49;49], [45;55;66], [45;49;50;51]);
   ((1)%Z, 1%nat, [49], [49], [49]);
   ((402018723719)%Z, 19%nat, [49;48;49;49;49;48;49;49;48;48;49;49;48;49;48;48;48;49;48;49;49;49;48;49;49;49;48;48;49;49;49;49;48;48;48;48;49;49;49], [53;68;57;65;50;69;69;55;56;55], [52;48;50;48;49;56;55;50;51;55;49;57]);
   ((1)%Z, 1%nat, [49], [49], [49]);
   ((-1)%Z, 18%nat, [45;48;48;48;48;48;48;48;48;48;48;48;48;48;48;48;48;49], [45;49], [45;49]);
   ((0)%Z, 1%nat, [48], [48], [48]);
   ((0)%Z, 9%nat, [48;48;48;48;48;48;48;48;48], [48], [48]);
   ((347921363285)%Z, 13%nat, [49;48;49;48;48;48;49;48;48;48;48;48;48;48;49;49;48;49;49;49;48;49;48;49;48;49;49;48;48;48;49;48;49;48;49;48;49;48;49], [53;49;48;49;66;65;66;49;53;53], [51;52;55;57;50;49;51;54;51;50;56;53]);
   ((-1)%Z, 2%nat, [45;49], [45;49], [45;49]);
   ((-1)%Z, 14%nat, [45;48;48;48;48;48;48;48;48;48;48;48;48;49], [45;49], [45;49]);
   ((-27)%Z, 10%nat, [45;48;48;48;48;49;49;48;49;49], [45;49;66], [45;50;55]);
   ((0)%Z, 10%nat, [48;48;48;48;48;48;48;48;48;48], [48], [48]);
   ((837154288325)%Z, 6%nat, [49;49;48;48;48;48;49;48;49;49;49;48;49;48;49;48;48;49;48;48;49;48;48;48;49;48;49;49;48;48;49;48;49;49;48;48;48;49;48;49], [67;50;69;65;52;56;66;50;67;53], [56;51;55;49;53;52;50;56;56;51;50;53]);
   ((569773620004)%Z, 11%nat, [49;48;48;48;48;49;48;48;49;48;49;48;49;48;48;49;48;48;49;48;48;49;49;49;48;49;49;49;49;48;49;49;48;48;49;48;48;49;48;48], [56;52;65;57;50;55;55;66;50;52], [53;54;57;55;55;51;54;50;48;48;48;52]);
   ((20)%Z, 8%nat, [48;48;48;49;48;49;48;48], [49;52], [50;48]);
   ((-1)%Z, 3%nat, [45;48;49], [45;49], [45;49]);
   ((1)%Z, 6%nat, [48;48;48;48;48;49], [49], [49]);
   ((-1)%Z, 5%nat, [45;48;48;48;49], [45;49], [45;49]);
   ((-58)%Z, 16%nat, [45;48;48;48;48;48;48;48;48;48;49;49;49;48;49;48], [45;51;65], [45;53;56]);
   ((0)%Z, 5%nat, [48;48;48;48;48], [48], [48]);
   ((0)%Z, 4%nat, [48;48;48;48], [48], [48]);
   ((750972988067)%Z, 20%nat, [49;48;49;48;49;49;49;48;49;49;48;49;49;48;48;49;48;49;49;49;49;48;49;48;48;49;49;48;49;48;49;48;49;48;49;48;48;48;49;49], [65;69;68;57;55;65;54;65;65;51], [55;53;48;57;55;50;57;56;56;48;54;55]);
   ((0)%Z, 19%nat, [48;48;48;48;48;48;48;48;48;48;48;48;48;48;48;48;48;48;48], [48], [48]);
   ((0)%Z, 3%nat, [48;48;48], [48], [48]);
   ((7)%Z, 20%nat, [48;48;48;48;48;48;48;48;48;48;48;48;48;48;48;48;48;49;49;49], [55], [55]);
   ((201815599154)%Z, 9%nat, [49;48;49;49;49;48;49;49;49;49;49;49;48;49;48;48;49;48;48;49;48;49;49;48;49;48;49;48;48;48;48;48;49;49;48;48;49;48], [50;69;70;68;50;53;65;56;51;50], [50;48;49;56;49;53;53;57;57;49;53;52]);
   ((109)%Z, 0%nat, [49;49;48;49;49;48;49], [54;68], [49;48;57]);
   ((-1)%Z, 17%nat, [45;48;48;48;48;48;48;48;48;48;48;48;48;48;48;48;49], [45;49], [45;49]);
   ((0)%Z, 13%nat, [48;48;48;48;48;48;48;48;48;48;48;48;48], [48], [48]);
   ((190487926555)%Z, 6%nat, [49;48;49;49;48;48;48;49;48;49;49;48;48;49;49;49;49;49;48;49;49;49;48;48;48;49;48;49;49;49;48;48;48;49;49;48;49;49], [50;67;53;57;70;55;49;55;49;66], [49;57;48;52;56;55;57;50;54;53;53;53]);
   ((1)%Z, 5%nat, [48;48;48;48;49], [49], [49]);
   ((1)%Z, 4%nat, [48;48;48;49], [49], [49]);
   ((0)%Z, 14%nat, [48;48;48;48;48;48;48;48;48;48;48;48;48;48], [48], [48]);
   ((1052933774280)%Z, 4%nat, [49;49;49;49;48;49;48;49;48;48;49;48;48;49;49;49;49;48;49;49;49;49;49;48;48;49;48;49;49;48;49;49;49;49;48;48;49;48;48;48], [70;53;50;55;66;69;53;66;67;56], [49;48;53;50;57;51;51;55;55;52;50;56;48]);
   ((-1)%Z, 5%nat, [45;48;48;48;49], [45;49], [45;49]);
   ((-200)%Z, 20%nat, [45;48;48;48;48;48;48;48;48;48;48;48;49;49;48;48;49;48;48;48], [45;67;56], [45;50;48;48]);
   ((207781561915)%Z, 7%nat, [49;49;48;48;48;48;48;49;49;48;48;48;48;48;49;48;49;49;49;49;49;49;48;48;48;48;48;49;49;48;48;48;49;49;49;48;49;49], [51;48;54;48;66;70;48;54;51;66], [50;48;55;55;56;49;53;54;49;57;49;53]);
   ((-1)%Z, 5%nat, [45;48;48;48;49], [45;49], [45;49]);
   ((317918454856)%Z, 7%nat, [49;48;48;49;48;49;48;48;48;48;48;48;49;48;49;48;49;49;48;49;48;49;48;49;48;49;48;48;49;48;48;48;49;48;48;49;48;48;48], [52;65;48;53;54;65;65;52;52;56], [51;49;55;57;49;56;52;53;52;56;53;54]);
   ((0)%Z, 6%nat, [48;48;48;48;48;48], [48], [48]);
   ((227)%Z, 5%nat, [49;49;49;48;48;48;49;49], [69;51], [50;50;55]);
   ((-1)%Z, 17%nat, [45;48;48;48;48;48;48;48;48;48;48;48;48;48;48;48;49], [45;49], [45;49]);
   ((-1)%Z, 9%nat, [45;48;48;48;48;48;48;48;49], [45;49], [45;49]);
   ((0)%Z, 4%nat, [48;48;48;48], [48], [48]);
   ((-1)%Z, 8%nat, [45;48;48;48;48;48;48;49], [45;49], [45;49]);
   ((-1)%Z, 3%nat, [45;48;49], [45;49], [45;49]);
   ((-131)%Z, 6%nat, [45;49;48;48;48;48;48;49;49], [45;56;51], [45;49;51;49]);
   ((175246001550)%Z, 16%nat, [49;48;49;48;48;48;49;49;48;48;49;49;48;49;48;49;49;49;49;48;48;49;49;49;48;48;48;49;48;49;49;48;48;48;49;49;49;48], [50;56;67;68;55;57;67;53;56;69], [49;55;53;50;52;54;48;48;49;53;53;48]);
   ((1)%Z, 19%nat, [48;48;48;48;48;48;48;48;48;48;48;48;48;48;48;48;48;48;49], [49], [49]);
   ((-155)%Z, 15%nat, [45;48;48;48;48;48;48;49;48;48;49;49;48;49;49], [45;57;66], [45;49;53;53]);
   ((-120)%Z, 5%nat, [45;49;49;49;49;48;48;48], [45;55;56], [45;49;50;48]);
   ((358630846141)%Z, 17%nat, [49;48;49;48;48;49;49;49;48;48;48;48;48;48;48;48;48;48;49;48;48;48;48;48;49;49;48;49;49;49;48;49;48;49;49;49;49;48;49], [53;51;56;48;49;48;54;69;66;68], [51;53;56;54;51;48;56;52;54;49;52;49]);
   ((1)%Z, 12%nat, [48;48;48;48;48;48;48;48;48;48;48;49], [49], [49]);
   ((522896115334)%Z, 0%nat, [49;49;49;49;48;48;49;49;48;49;49;49;49;49;49;48;48;48;48;49;48;48;49;49;48;48;48;48;49;49;48;49;48;48;48;48;49;49;48], [55;57;66;70;48;57;56;54;56;54], [53;50;50;56;57;54;49;49;53;51;51;52]);
   ((303048316610)%Z, 11%nat, [49;48;48;48;49;49;48;49;48;48;48;49;49;49;49;48;48;48;49;48;49;49;48;48;49;48;49;48;49;49;48;49;49;48;48;48;48;49;48], [52;54;56;70;49;54;53;54;67;50], [51;48;51;48;52;56;51;49;54;54;49;48]);
   ((257)%Z, 2%nat, [49;48;48;48;48;48;48;48;49], [49;48;49], [50;53;55]);
   ((-131)%Z, 20%nat, [45;48;48;48;48;48;48;48;48;48;48;48;49;48;48;48;48;48;49;49], [45;56;51], [45;49;51;49]);
   ((374960393113)%Z, 8%nat, [49;48;49;48;49;49;49;48;49;48;48;49;49;48;49;48;49;49;48;48;48;48;49;49;48;48;48;49;48;49;49;49;48;48;49;49;48;48;49], [53;55;52;68;54;49;56;66;57;57], [51;55;52;57;54;48;51;57;51;49;49;51]);
   ((1)%Z, 11%nat, [48;48;48;48;48;48;48;48;48;48;49], [49], [49]);
   ((-1)%Z, 12%nat, [45;48;48;48;48;48;48;48;48;48;48;49], [45;49], [45;49]);
   ((215)%Z, 20%nat, [48;48;48;48;48;48;48;48;48;48;48;48;49;49;48;49;48;49;49;49], [68;55], [50;49;53]);
   ((-1)%Z, 3%nat, [45;48;49], [45;49], [45;49]);
   ((526919398992)%Z, 4%nat, [49;49;49;49;48;49;48;49;48;49;48;49;49;49;48;49;49;48;49;48;49;49;49;49;49;49;49;48;49;49;48;48;49;48;49;48;48;48;48], [55;65;65;69;68;55;70;54;53;48], [53;50;54;57;49;57;51;57;56;57;57;50]);
   ((812319183753)%Z, 16%nat, [49;48;49;49;49;49;48;49;48;48;49;48;48;48;48;49;49;49;49;49;49;49;49;49;48;48;48;49;48;48;49;49;49;48;48;48;49;48;48;49], [66;68;50;49;70;70;49;51;56;57], [56;49;50;51;49;57;49;56;51;55;53;51]);
   ((-1)%Z, 1%nat, [45;49], [45;49], [45;49]);
   ((776231492194)%Z, 5%nat, [49;48;49;49;48;49;48;48;49;48;49;49;49;48;49;49;48;48;48;48;48;48;48;48;49;48;48;49;49;48;49;48;48;49;49;48;48;48;49;48], [66;52;66;66;48;48;57;65;54;50], [55;55;54;50;51;49;52;57;50;49;57;52]);
   ((737115948067)%Z, 18%nat, [49;48;49;48;49;48;49;49;49;48;48;49;49;49;49;49;49;48;48;48;49;48;48;48;49;49;48;48;48;49;48;48;48;48;49;48;48;48;49;49], [65;66;57;70;56;56;67;52;50;51], [55;51;55;49;49;53;57;52;56;48;54;55]);
   ((55)%Z, 20%nat, [48;48;48;48;48;48;48;48;48;48;48;48;48;48;49;49;48;49;49;49], [51;55], [53;53]);
   ((1)%Z, 15%nat, [48;48;48;48;48;48;48;48;48;48;48;48;48;48;49], [49], [49]);
   ((0)%Z, 11%nat, [48;48;48;48;48;48;48;48;48;48;48], [48], [48]);
   ((0)%Z, 18%nat, [48;48;48;48;48;48;48;48;48;48;48;48;48;48;48;48;48;48], [48], [48]);
   ((-1)%Z, 9%nat, [45;48;48;48;48;48;48;48;49], [45;49], [45;49]);
   ((0)%Z, 11%nat, [48;48;48;48;48;48;48;48;48;48;48], [48], [48]);
   ((0)%Z, 19%nat, [48;48;48;48;48;48;48;48;48;48;48;48;48;48;48;48;48;48;48], [48], [48]);
   ((1)%Z, 20%nat, [48;48;48;48;48;48;48;48;48;48;48;48;48;48;48;48;48;48;48;49], [49], [49]);
   ((1)%Z, 19%nat, [48;48;48;48;48;48;48;48;48;48;48;48;48;48;48;48;48;48;49], [49], [49]);
   ((1)%Z, 20%nat, [48;48;48;48;48;48;48;48;48;48;48;48;48;48;48;48;48;48;48;49], [49], [49]);
   ((-1)%Z, 9%nat, [45;48;48;48;48;48;48;48;49], [45;49], [45;49]);
   ((-1)%Z, 4%nat, [45;48;48;49], [45;49], [45;49]);
   ((0)%Z, 15%nat, [48;48;48;48;48;48;48;48;48;48;48;48;48;48;48], [48], [48]);
   ((56)%Z, 7%nat, [48;49;49;49;48;48;48], [51;56], [53;54]);
   ((835159267401)%Z, 15%nat, [49;49;48;48;48;48;49;48;48;49;49;49;48;48;49;49;48;49;48;49;49;49;49;49;48;48;48;49;49;48;48;48;48;49;48;48;49;48;48;49], [67;50;55;51;53;70;49;56;52;57], [56;51;53;49;53;57;50;54;55;52;48;49]);
   ((-73)%Z, 18%nat, [45;48;48;48;48;48;48;48;48;48;48;49;48;48;49;48;48;49], [45;52;57], [45;55;51])].
Example format_ok : forallb (fun c => let '(n, w, b, x, d) := c in str_eqb (fmt_bin w n) b && str_eqb (fmt_hex_up n) x && str_eqb (dec n) d) format_cases = true.
Proof. vm_compute. reflexivity. Qed.

Definition chr_cases : list (Z * res N) :=
  [((0)%Z, Ok 0);
   ((1)%Z, Ok 1);
   ((65)%Z, Ok 65);
   ((-1)%Z, Raise ValueError);
   ((1114111)%Z, Ok 1114111);
   ((1114112)%Z, Raise ValueError);
   ((2147483647)%Z, Raise ValueError);
   ((2147483648)%Z, Raise OverflowError);
   ((-2147483648)%Z, Raise ValueError);
   ((-2147483649)%Z, Raise OverflowError);
   ((55296)%Z, Ok 55296);
   ((1000000000000)%Z, Raise OverflowError)].
Example chr_ok : forallb (fun c => same_res N.eqb (chr (fst c)) (snd c)) chr_cases = true.
Proof. vm_compute. reflexivity. Qed.

Definition fromhex_cases : list (str * option str) :=
  [([], (Some []));
   ([9], (Some []));
   ([9;57;52;56], None);
   ([9;97;53;51;68;69], None);
   ([10], (Some []));
   ([10;48;48;9;49;49], (Some [0;17]));
   ([10;52;48], (Some [64]));
   ([11;48;52;98;100;70;53;70], None);
   ([12], (Some []));
   ([12;55;67;67;98;55;102;69], None);
   ([32;48;48], (Some [0]));
   ([48], None);
   ([48;32;48], None);
   ([48;48;28;49;49], None);
   ([48;48;32;32;49;49;32], (Some [0;17]));
   ([48;48;32;49;49], (Some [0;17]));
   ([48;48;160;49;49], None);
   ([48;49;97], None);
   ([48;52;51;67], (Some [4;60]));
   ([48;54;50], None);
   ([48;56;8551], None);
   ([48;100;55], None);
   ([48;8195], None);
   ([49], None);
   ([49;9;48;97;101], None);
   ([49;52;51], None);
   ([49;69;65;98], (Some [30;171]));
   ([49;101;48], None);
   ([50;48;50], None);
   ([50;50], (Some [34]));
   ([50;56;50;98;57;99;69], None);
   ([50;65;70;69;51], None);
   ([50;95], None);
   ([50;98;98;133;102;98;48;57;50], None);
   ([50;102;98;70;101;100;11], (Some [47;191;237]));
   ([50;102;102;70;99;54;65], None);
   ([51], None);
   ([51;11;69], None);
   ([51;50;101;55296;53;52], None);
   ([51;51;56;98], (Some [51;139]));
   ([51;65;69;53;67;102;56], None);
   ([51;69;67], None);
   ([51;99;99;68;5760;55;99;100;57], None);
   ([51;101;56], None);
   ([52;50;43;99], None);
   ([52;55;56;55], (Some [71;135]));
   ([52;69;28;98;99], None);
   ([52;101;57], None);
   ([52;102], (Some [79]));
   ([53], None);
   ([53;65;49;51;97;95;54], None);
   ([53;69;70], None);
   ([53;70;70;10;51;102], None);
   ([53;97;13], (Some [90]));
   ([53;100;98;48;67;57;12288], None);
   ([53;101;52;52], (Some [94;68]));
   ([54;55;52;97;97;66;68;48], (Some [103;74;171;208]));
   ([54;68;100;99;12;57;52], (Some [109;220;148]));
   ([54;100;53;68], (Some [109;93]));
   ([54;12288], None);
   ([55;51;98], None);
   ([55;57], (Some [121]));
   ([55;67;68;98;101;56], (Some [124;219;232]));
   ([56], None);
   ([56;52;102;70;49;48;19968;69;67], None);
   ([56;56;11], (Some [136]));
   ([56;70;56;65;65;65;65], None);
   ([56;97;97;70;98;67], (Some [138;175;188]));
   ([56;97;98;55;10;68;48], (Some [138;183;208]));
   ([56;97;98;66;56;68], (Some [138;187;141]));
   ([57], None);
   ([57;49;55;101;67;8551;65;51;57], None);
   ([57;50;55;55;48;97;52;65;178], None);
   ([57;53;97;12288;66;100;55;52;51], None);
   ([57;69;52;48;95;52;68;102;97], None);
   ([65;49;101;102;56], None);
   ([65;53;55;48;102;52;50;101], (Some [165;112;244;46]));
   ([65;97;54;127;57;51;69], None);
   ([66], None);
   ([66;66;49;69;48;68;67], None);
   ([66;100;65], None);
   ([67], None);
   ([67;102;100;97;68;48;52;70], (Some [207;218;208;79]));
   ([68], None);
   ([68;56;178;48], None);
   ([68;101;70;102;49;68;102], None);
   ([68;65279;55;52], None);
   ([69;99;127;56;97;70;54;66;67], None);
   ([69;100;48;48], (Some [237;0]));
   ([70;9;97;50;55], None);
   ([70;50;55;133;56;70;67;51;52], None);
   ([70;52;97;67;53], None);
   ([70;57], (Some [249]));
   ([70;66;67;68], (Some [251;205]));
   ([70;67], (Some [252]));
   ([70;69;55;100;100;102;48], None);
   ([70;102;55;65], (Some [255;122]));
   ([70;5760;57], None);
   ([70;8232;66;50], None);
   ([95;49;100;99;57;70], None);
   ([97], None);
   ([97;49;50;101;66;68;66;102], (Some [161;46;189;191]));
   ([97;54;70;99], (Some [166;252]));
   ([97;55;48;50;70;102;99], None);
   ([97;66;56;8232;101;66;54;101;51], None);
   ([97;67;66;48;5760;50], None);
   ([97;97], (Some [170]));
   ([97;99;67;50;52;69;50;8232;50], None);
   ([97;100;98;54;55;66], (Some [173;182;123]));
   ([98], None);
   ([98;48;100;66;54;68;68;101], (Some [176;219;109;222]));
   ([98;57;66], None);
   ([98;66;189;66], None);
   ([98;70;51;99;70], None);
   ([98;99;68;68;52;97;102], None);
   ([99;54;100;102;68;69;12288;51;101], None);
   ([99;99;8195;69], None);
   ([99;12288;102;69;50], None);
   ([100;43;97;49;53;101;65;56;50], None);
   ([100;51;66;98;69;53;100;12], None);
   ([100;56;55;12;49;50], None);
   ([100;65;53;66;51], None);
   ([100;66;19968;48;102;48;51], None);
   ([100;70;102;48;50], None);
   ([100;98;101;54;100;100], (Some [219;230;221]));
   ([100;189], None);
   ([101;48;101;98;189], None);
   ([101;50;50;65;49;67;98;48], (Some [226;42;28;176]));
   ([101;54;48;68;97;52;101], None);
   ([101;56;52;54;99;233], None);
   ([101;56;189;65;51;54;67], None);
   ([102], None);
   ([102;50;52;65279;102;68;100], None);
   ([102;55;70;67;67;52;99;65], (Some [247;252;196;202]));
   ([102;55;98;49;56;11;98], None);
   ([102;68], (Some [253]));
   ([103;67;55;70;99;53;48], None);
   ([127], None);
   ([128], None);
   ([133], None);
   ([133;49;97;54], None);
   ([133;66], None);
   ([1635;1635], None);
   ([8203], None);
   ([8232], None);
   ([8551;65], None);
   ([12288], None);
   ([12288;66;102;69;55;68;67;65;98], None);
   ([19968;102;56;50;57;70;100;57], None);
   ([55296], None);
   ([65279;65;101;57;54], None);
   ([1114111;48;100;101;57;55;53;101;101], None)].
Example fromhex_ok : forallb (fun c => same_opt str_eqb (fromhex_aux (fst c) None) (snd c)) fromhex_cases = true.
Proof. vm_compute. reflexivity. Qed.

Definition b64encode_cases : list (str * str * str) :=
  [([], [], []);
   ([], [], []);
   ([], [], []);
   ([], [], []);
   ([0], [65;65;61;61], [48;48]);
   ([236], [55;65;61;61], [101;99]);
   ([201], [121;81;61;61], [99;57]);
   ([130], [103;103;61;61], [56;50]);
   ([250;193], [43;115;69;61], [102;97;99;49]);
   ([145;164], [107;97;81;61], [57;49;97;52]);
   ([78;55], [84;106;99;61], [52;101;51;55]);
   ([31;146], [72;53;73;61], [49;102;57;50]);
   ([67;202;77], [81;56;112;78], [52;51;99;97;52;100]);
   ([199;45;197], [120;121;51;70], [99;55;50;100;99;53]);
   ([132;252;183], [104;80;121;51], [56;52;102;99;98;55]);
   ([10;125;210], [67;110;51;83], [48;97;55;100;100;50]);
   ([2;234;198;145], [65;117;114;71;107;81;61;61], [48;50;101;97;99;54;57;49]);
   ([158;233;175;148], [110;117;109;118;108;65;61;61], [57;101;101;57;97;102;57;52]);
   ([59;180;41;43], [79;55;81;112;75;119;61;61], [51;98;98;52;50;57;50;98]);
   ([143;131;253;192], [106;52;80;57;119;65;61;61], [56;102;56;51;102;100;99;48]);
   ([243;75;89;80;24], [56;48;116;90;85;66;103;61], [102;51;52;98;53;57;53;48;49;56]);
   ([235;129;93;25;89], [54;52;70;100;71;86;107;61], [101;98;56;49;53;100;49;57;53;57]);
   ([23;112;126;83;224], [70;51;66;43;85;43;65;61], [49;55;55;48;55;101;53;51;101;48]);
   ([144;5;102;191;225], [107;65;86;109;118;43;69;61], [57;48;48;53;54;54;98;102;101;49]);
   ([98;199;247;135;188;81], [89;115;102;51;104;55;120;82], [54;50;99;55;102;55;56;55;98;99;53;49]);
   ([45;129;168;30;161;148], [76;89;71;111;72;113;71;85], [50;100;56;49;97;56;49;101;97;49;57;52]);
   ([85;94;164;22;133;197], [86;86;54;107;70;111;88;70], [53;53;53;101;97;52;49;54;56;53;99;53]);
   ([187;197;157;136;111;177], [117;56;87;100;105;71;43;120], [98;98;99;53;57;100;56;56;54;102;98;49]);
   ([91;150;111;201;8;109;83], [87;53;90;118;121;81;104;116;85;119;61;61], [53;98;57;54;54;102;99;57;48;56;54;100;53;51]);
   ([98;11;35;88;91;29;230], [89;103;115;106;87;70;115;100;53;103;61;61], [54;50;48;98;50;51;53;56;53;98;49;100;101;54]);
   ([70;56;182;131;168;171;114], [82;106;105;50;103;54;105;114;99;103;61;61], [52;54;51;56;98;54;56;51;97;56;97;98;55;50]);
   ([242;138;48;162;28;90;26], [56;111;111;119;111;104;120;97;71;103;61;61], [102;50;56;97;51;48;97;50;49;99;53;97;49;97]);
   ([245;177;242;38;249;147;40;42;115;207;241;95], [57;98;72;121;74;118;109;84;75;67;112;122;122;47;70;102], [102;53;98;49;102;50;50;54;102;57;57;51;50;56;50;97;55;51;99;102;102;49;53;102]);
   ([139;134;155;200;250;155;35;109;120;182;101;69], [105;52;97;98;121;80;113;98;73;50;49;52;116;109;86;70], [56;98;56;54;57;98;99;56;102;97;57;98;50;51;54;100;55;56;98;54;54;53;52;53]);
   ([205;71;166;112;22;150;223;34;203;138;179;26], [122;85;101;109;99;66;97;87;51;121;76;76;105;114;77;97], [99;100;52;55;97;54;55;48;49;54;57;54;100;102;50;50;99;98;56;97;98;51;49;97]);
   ([1;151;208;137;242;254;113;201;15;193;247;36], [65;90;102;81;105;102;76;43;99;99;107;80;119;102;99;107], [48;49;57;55;100;48;56;57;102;50;102;101;55;49;99;57;48;102;99;49;102;55;50;52]);
   ([191;226;123;213;32;172;207;93;168;239;129;43;250], [118;43;74;55;49;83;67;115;122;49;50;111;55;52;69;114;43;103;61;61], [98;102;101;50;55;98;100;53;50;48;97;99;99;102;53;100;97;56;101;102;56;49;50;98;102;97]);
   ([86;228;132;254;101;85;9;237;236;239;226;114;8], [86;117;83;69;47;109;86;86;67;101;51;115;55;43;74;121;67;65;61;61], [53;54;101;52;56;52;102;101;54;53;53;53;48;57;101;100;101;99;101;102;101;50;55;50;48;56]);
   ([185;88;237;138;192;170;156;191;13;129;227;104;12], [117;86;106;116;105;115;67;113;110;76;56;78;103;101;78;111;68;65;61;61], [98;57;53;56;101;100;56;97;99;48;97;97;57;99;98;102;48;100;56;49;101;51;54;56;48;99]);
   ([64;161;18;54;6;193;17;139;19;64;139;246;233], [81;75;69;83;78;103;98;66;69;89;115;84;81;73;118;50;54;81;61;61], [52;48;97;49;49;50;51;54;48;54;99;49;49;49;56;98;49;51;52;48;56;98;102;54;101;57]);
   ([148;236;184;73;203;204;189;23;19;239;235;159;99;173], [108;79;121;52;83;99;118;77;118;82;99;84;55;43;117;102;89;54;48;61], [57;52;101;99;98;56;52;57;99;98;99;99;98;100;49;55;49;51;101;102;101;98;57;102;54;51;97;100]);
   ([148;36;143;95;207;162;129;131;145;82;3;166;93;213], [108;67;83;80;88;56;43;105;103;89;79;82;85;103;79;109;88;100;85;61], [57;52;50;52;56;102;53;102;99;102;97;50;56;49;56;51;57;49;53;50;48;51;97;54;53;100;100;53]);
   ([239;113;238;190;19;127;235;56;71;216;44;46;235;184], [55;51;72;117;118;104;78;47;54;122;104;72;50;67;119;117;54;55;103;61], [101;102;55;49;101;101;98;101;49;51;55;102;101;98;51;56;52;55;100;56;50;99;50;101;101;98;98;56]);
   ([112;44;173;20;68;135;155;220;144;61;96;176;162;142], [99;67;121;116;70;69;83;72;109;57;121;81;80;87;67;119;111;111;52;61], [55;48;50;99;97;100;49;52;52;52;56;55;57;98;100;99;57;48;51;100;54;48;98;48;97;50;56;101])].
Example b64encode_ok : forallb (fun c => let '(b, t, h) := c in str_eqb (b64encode b) t && str_eqb (bytes_hex b) h) b64encode_cases = true.
Proof. vm_compute. reflexivity. Qed.

Definition b64decode_cases : list (str * option str) :=
  [([], (Some []));
   ([0;43;57;55296;65], None);
   ([0;43;97;47;43;47;48;122;45;90;95;43;61;61], None);
   ([0;45;95;48;47;48;61;61], (Some [211;253]));
   ([0;46;43;97;48;65;61;97;90;48], None);
   ([0;46;122;57;32], None);
   ([0;61], (Some []));
   ([0;61;61], (Some []));
   ([0;122;90;97;65;48;43;90;61;61], (Some [205;150;128;211;230]));
   ([0;233;43], None);
   ([10;0;90;95;61;61], None);
   ([10;10;43;61;61], None);
   ([10;47;32;65;47;57;47;97;43;90;47;61;61], None);
   ([10;47;97;122;122;122;57;95;97;61;61], (Some [253;172;243;207;214]));
   ([10;47;122;43;61;61], (Some [255;63]));
   ([10;57;48;57;43;47], None);
   ([10;57;90;61;61;48;65;90;61;61], (Some [245]));
   ([10;61;61], (Some []));
   ([10;65;48;10;57;61;48;61;61], (Some [3;79]));
   ([10;97;48;47;47;122;61;0;61;61], None);
   ([32;0], (Some []));
   ([32;0;43;122;57], None);
   ([32;47;90;61;61], (Some [253]));
   ([32;48;90;43;43;90;10;122;48;47;65], None);
   ([32;61;61], (Some []));
   ([32;122;97;65;61;48;65;61;65;43], (Some [205;160]));
   ([32;233;0], None);
   ([43], None);
   ([43;43;0;43;122;122;65;61;61], (Some [251;239;179;204]));
   ([43;43;61;61;95;122;90;43;97;57], (Some [251]));
   ([43;43;97;233;47;57;32;122;65;61;61], None);
   ([43;47;57;122;57;122;47;122;57;61;61], None);
   ([43;47;61;57;61;61], (Some [251;255]));
   ([43;47;65;65;48;43;61;61], (Some [251;240;0;211]));
   ([43;47;90], None);
   ([43;47;95;97;95;90;61;61], (Some [251;246;153]));
   ([43;47;97;57;43;47], None);
   ([43;47;122;48;122;61;61], None);
   ([43;47;122;90;122;43;43;122;61;61], (Some [251;252;217;207;239;179]));
   ([43;48;0;65;43;10;97;97;10;61;61], (Some [251;64;62;105]));
   ([43;48;43;61;61], (Some [251;79]));
   ([43;48;43;122], (Some [251;79;179]));
   ([43;48;47;122;47;43;48;46;95], None);
   ([43;48;48;97;65;48;48;233;10], None);
   ([43;48;122;46;97;61;61], (Some [251;76;218]));
   ([43;48;122;97;47;47;48;47;46;48], None);
   ([43;57;65;43;97;97], None);
   ([43;57;97;48;97;48;57;65;47], None);
   ([43;61;0;32;61;61], None);
   ([43;61;48;65;47;48;61;61], None);
   ([43;61;61], None);
   ([43;65;65;57;45], (Some [248;0;61]));
   ([43;65;65;97;90;61;43;0], None);
   ([43;65;90;97;97;48;61;61], (Some [248;6;90;107]));
   ([43;90;61;61;90;48;65;48], (Some [249]));
   ([43;90;90;122;10;97;57], None);
   ([43;90;97;65;57;43;90;57], (Some [249;150;128;247;230;125]));
   ([43;97;65;97;61;61], (Some [249;160;26]));
   ([43;97;122;48;90], None);
   ([43;122;47;48;48;61;61], None);
   ([43;122;65;47;65;57;43;43;90;61], None);
   ([43;122;55296;43], None);
   ([43;55296], None);
   ([43;55296;57;122;97;43;47;47;48;47], None);
   ([43;55296;65;61;43;43;90;97;47;61;61], None);
   ([45], (Some []));
   ([45;10;45;61;61], (Some []));
   ([45;47;43;47;90;57;10;122;57;61;61], (Some [255;239;217;247;63]));
   ([45;57;0], None);
   ([45;65;233;65;65], None);
   ([46;43;61;61;61], None);
   ([46;47;122;90;61;61;55296;61;61], None);
   ([46;61;61], (Some []));
   ([46;61;61;61], (Some []));
   ([46;61;122;122], None);
   ([46;97;122;90;122;43], None);
   ([46;122;0;61;61;61;61], None);
   ([46;55296], None);
   ([46;55296;55296], None);
   ([47], None);
   ([47;0;43;65;90;43], None);
   ([47;0;48;97;48;97], None);
   ([47;10;43;97;46;43;65;122], None);
   ([47;10;97;57;65;61;32;61;61], (Some [253;175;64]));
   ([47;43;10;43;43;48;97;57;90;122;61;61], None);
   ([47;43;65;61;97;43;57;65;90;97;61;61], (Some [255;224]));
   ([47;43;90;47;65;122;122;61;61], (Some [255;230;127;3;60]));
   ([47;43;90;97;57;46;65;122;65;90;61;61], None);
   ([47;43;122;122;97;65;95;65;97;122;95], None);
   ([47;47;122;32;43;43;61;61], None);
   ([47;48;122;48;47;43;61;61], (Some [255;76;244;255]));
   ([47;57;0;48;47;65;122], None);
   ([47;57;61;48;55296;61;61;61], None);
   ([47;57;61;57;65;43], None);
   ([47;57;65;90;65;43;57;47;43;61;61], None);
   ([47;57;97;233;48;61;61], None);
   ([47;61;61;32;10;57;61;61], (Some [255]));
   ([47;65], None);
   ([47;65;43;97;48;61;61], None);
   ([47;65;47;0;45;97;57;61], None);
   ([47;65;47;47;90;90;65;61;61], (Some [252;15;255;101;144]));
   ([47;65;47;65;57;48;65;47;97;61;61], None);
   ([47;90;43;43;65;61;61], None);
   ([47;90;47;57;65;90;61;61], (Some [253;159;253;1]));
   ([47;90;65;47;65;61;61;47;47;61;61], (Some [253;144;63;3;255]));
   ([47;90;90;48;0;57;65;48;61;97;90;61;61], (Some [253;150;116;244;13]));
   ([47;90;90;122;55296;61;61], None);
   ([47;90;97;122], (Some [253;150;179]));
   ([47;90;122;61;61], (Some [253;156]));
   ([47;95;45], None);
   ([47;97;43;57], (Some [253;175;189]));
   ([47;97;65;122;97;65;45], None);
   ([47;97;90;47;61;61;95;57;47;57;32;43], (Some [253;166;127;247;255;126]));
   ([47;122], None);
   ([47;122;43;57], (Some [255;63;189]));
   ([47;122;46;47;61;61], (Some [255;63]));
   ([47;122;122;122;61;61], (Some [255;60;243]));
   ([48;0;46], None);
   ([48;43], None);
   ([48;43;43], None);
   ([48;43;45;61;61], (Some [211]));
   ([48;43;90;43;43;65;122;61;61], (Some [211;230;126;248;12]));
   ([48;46;122;90;43;122;90;61;97], None);
   ([48;47;48;65;122;122;90;97], (Some [211;253;0;207;54;90]));
   ([48;48;47;47;57;122;90;57;61;61], (Some [211;79;255;247;54;125]));
   ([48;48;57;43;57;61;47;57], None);
   ([48;48;57;65;65;43;233;97;233;61;61], None);
   ([48;57], None);
   ([48;57;45;65;57;61;97;90;47;61;61], (Some [211;208;61;105;159]));
   ([48;57;97;65;47;61;61], None);
   ([48;57;122;48;48], None);
   ([48;61;32;45;61;61], None);
   ([48;61;61], None);
   ([48;61;65;55296;233;61;61], None);
   ([48;61;122;47;48;122;57;43;122], (Some [211;63;244;207;223;179]));
   ([48;65;48;43;43;47;47], None);
   ([48;65;57;43;47;43;47;61;61], (Some [208;15;126;255;239]));
   ([48;65;61;61], (Some [208]));
   ([48;65;122;65;55296;57;48], None);
   ([48;90;48;122;47;65;122;43;47;61;61], None);
   ([48;90;90;122;97;48], None);
   ([48;90;122;95;90;43;61;32;122;90;61;61], (Some [209;156;217;251;54]));
   ([48;97;43;48;65;97;122;122;61;61], (Some [209;175;180;1;172;243]));
   ([48;97;43;122;97], None);
   ([48;97;122;47;97;57;122;57;61;61], (Some [209;172;255;107;220;253]));
   ([48;97;122;65;122;65;57;65;43;61;61], None);
   ([48;122;43;61;46;47;61;61], (Some [211;63]));
   ([48;122;48;43;97;57;65;48;46;61], (Some [211;61;62;107;208;52]));
   ([48;122;48;47;10;47;122;43;65;61;61], (Some [211;61;63;255;63;128]));
   ([48;122;61;61], (Some [211]));
   ([48;122;90;57;47;90;122;0;90], (Some [211;54;125;253;156;217]));
   ([48;122;97;57;57;65], None);
   ([57], None);
   ([57;43;43;43], (Some [247;239;190]));
   ([57;43;43;57;122], None);
   ([57;43;46;90;61;61], (Some [247;230]));
   ([57;43;61;61], (Some [247]));
   ([57;43;65;61;61], (Some [247;224]));
   ([57;43;90;43;65;61;61], None);
   ([57;43;90;61;233;32;47;47;90;97;61;61], None);
   ([57;45;61;61], None);
   ([57;47;0;122;46;47;47;61;61;122;47;61;61], (Some [247;252;255;255;63]));
   ([57;47;47;57;90;48;90;43], (Some [247;255;253;103;70;126]));
   ([57;47;97;10;61;65;97;10;122;47;122;122], (Some [247;246]));
   ([57;47;233;61;47;43;47;61], None);
   ([57;48;43;43;61;61], (Some [247;79;190]));
   ([57;48;97;90;48;47], None);
   ([57;57;43;46;90;122;43;48;48], (Some [247;223;153;207;237;52]));
   ([57;57;65;48;45;61;61;57], None);
   ([57;57;122;55296;65;47;90;57;48;61;61], None);
   ([57;61;43;43;97;46;55296;47;97;48;61;61], None);
   ([57;61;61;48;43;233;48;97;57;47;47;61;61], None);
   ([57;61;61;97;57;47;65;95;90;61;65;90], (Some [245;175;127;1;144;25]));
   ([57;65], None);
   ([57;65;57;97;90;61;61], None);
   ([57;65;61;57;61;95;48;57;61;61], (Some [244;15]));
   ([57;90;57;90;48;97;95], None);
   ([57;90;122;65;90;65;61;61], (Some [245;156;192;100]));
   ([57;97;55296;233], None);
   ([57;122;46;55296;48;47;43;48;47;61;61], None);
   ([57;122;47;45;47;48;55296;48;233], None);
   ([57;122;48;61;47;65;65;47;61;61], (Some [247;61]));
   ([57;122;57;65;122;122;48;57;47], None);
   ([57;122;97;32;48;61;61], (Some [247;54;180]));
   ([57;55296;97;45], None);
   ([61], (Some []));
   ([61;0], (Some []));
   ([61;0;46;61;61], (Some []));
   ([61;0;55296;61;61], None);
   ([61;32;122;43], None);
   ([61;43;10;48;65;57;122;47;90;45;57], (Some [251;64;61;207;246;125]));
   ([61;43;47;47], None);
   ([61;43;55296;97;47;122;61;61], None);
   ([61;46;65;122;61;61], (Some [3]));
   ([61;47], None);
   ([61;47;61;61], None);
   ([61;48;97;61;48;46;97;47;97;57;122;61;61], (Some [209;173;26;253;175;115]));
   ([61;57;48;90;48;65;48;65], None);
   ([61;61], (Some []));
   ([61;61;0;0], (Some []));
   ([61;61;32;57;61;61;61], None);
   ([61;61;46;90;43;122;55296;43;90;57;90;57;90], None);
   ([61;61;57;57;48;61;90], (Some [247;221]));
   ([61;61;61;57;65;122;43;61;61], (Some [244;12;254]));
   ([61;61;65;65;46;90;65;43;122;55296;43;43], None);
   ([61;61;55296], None);
   ([61;61;55296;122;48;43;57;61;61], None);
   ([61;65;48;48;57;97;61;61], None);
   ([61;65;65;65;61], (Some [0;0]));
   ([61;65;90;55296], None);
   ([61;95;43;61;61;97], None);
   ([61;97;61;0;57], None);
   ([61;97;61;90;43;122;122;90;90;90;61;61], (Some [105;159;179;205;150;89]));
   ([61;122;57;61;65;61;61], (Some [207;208]));
   ([61;122;65;10;43;122;57;43;97;95;48], (Some [204;15;179;247;230;180]));
   ([61;233;48;97;65;45;61;61], None);
   ([61;55296;48;122;0], None);
   ([65], None);
   ([65;0;48;61], None);
   ([65;0;48;90;65;61;61], (Some [3;70;64]));
   ([65;32;48;47;61], (Some [3;79]));
   ([65;32;48;65;43], (Some [3;64;62]));
   ([65;43;43;65;97;97;48;48;90], None);
   ([65;43;90;47], (Some [3;230;127]));
   ([65;43;97;47;57;48;65;97;61;61], (Some [3;230;191;247;64;26]));
   ([65;43;97;97;48;90;61;61], (Some [3;230;154;209]));
   ([65;43;122;61;61], (Some [3;236]));
   ([65;47;43;65;48;90;48;47;57], None);
   ([65;47;47;122;233;43;47;48;61;61;90], None);
   ([65;47;57;95;0;90;65;0;61;61], None);
   ([65;47;57;97;61;0;90;61;61;61;61], None);
   ([65;47;90], None);
   ([65;47;90;65;61;97;47;90;47;61;61], (Some [3;246;64;107;246;127]));
   ([65;47;90;122;57;0], None);
   ([65;48;47;122;47;122;43;65;122], None);
   ([65;48;48;97;65;122;65], None);
   ([65;48;48;233;122;61;61], None);
   ([65;48;90;65;122;65;43;97;43], None);
   ([65;48;90;122;57;97;47], None);
   ([65;57;47;65;43;43;46;61;61], (Some [3;223;192;251]));
   ([65;57;57;61;61], (Some [3;223]));
   ([65;57;97;48;48], None);
   ([65;61], None);
   ([65;61;61], None);
   ([65;61;61;61], None);
   ([65;61;65;61], None);
   ([65;61;65;61;61], (Some [0]));
   ([65;61;65;65], None);
   ([65;65], None);
   ([65;65;32;65;43;61;0;43;65], None);
   ([65;65;47;65], (Some [0;15;192]));
   ([65;65;61], None);
   ([65;65;61;61], (Some [0]));
   ([65;65;61;61;65;61;61], (Some [0]));
   ([65;65;61;61;65;65;61;61], (Some [0]));
   ([65;65;61;61;122;61;61], (Some [0]));
   ([65;65;61;65], None);
   ([65;65;61;65;61], (Some [0;0]));
   ([65;65;61;65;61;61], (Some [0;0]));
   ([65;65;61;65;65;65;61;61], None);
   ([65;65;65], None);
   ([65;65;65;61], (Some [0;0]));
   ([65;65;65;61;61], (Some [0;0]));
   ([65;65;65;61;65;65;65;65], (Some [0;0]));
   ([65;65;65;65;61;61], (Some [0;0;0]));
   ([65;65;122;43;47;57;122;65;61;61], (Some [0;12;254;255;220;192]));
   ([65;65;55296;90;61;47;97;47;45;43;65;65], None);
   ([65;90;43;95;10;122], (Some [1;159;179]));
   ([65;90;48;97;122;48;61;61], (Some [1;157;26;207]));
   ([65;90;57;57;48;61;61], None);
   ([65;90;61;61;61;122;0;122;47;122;48;57;61;61], (Some [1]));
   ([65;90;65;65;122;48;55296;97;61;61], None);
   ([65;90;90;97;48;61;61], None);
   ([65;90;122;48], (Some [1;156;244]));
   ([65;95;43;57;47;122;122], None);
   ([65;97], None);
   ([65;97;61;61], (Some [1]));
   ([65;97;65;48;55296;65;122;46], None);
   ([65;122;43;90;43;47;43;48;47;61;61], None);
   ([65;122;65;46;122;47], None);
   ([65;122;97;45;47;32;48;97;57;48;90;95], None);
   ([65;122;97;122;122;61;61;90;97], None);
   ([90], None);
   ([90;43;43;48;90;61;61], None);
   ([90;43;47;43;122;45;48;95;43;90], (Some [103;239;254;207;79;153]));
   ([90;43;65;55296;61;61], None);
   ([90;46;97;90;47], (Some [101;166;127]));
   ([90;47;57;61;61;61], (Some [103;255]));
   ([90;47;61;61], (Some [103]));
   ([90;47;90;61;61], (Some [103;246]));
   ([90;47;122;97;90;61;32;61;61], None);
   ([90;47;122;122;43;61;61], None);
   ([90;48;61;61], (Some [103]));
   ([90;48;90;90;122;61;61], None);
   ([90;48;233;43;43;45;47;90], None);
   ([90;57;46;47], None);
   ([90;57;46;90;65;10;97;43;61;61], (Some [103;214;64;107]));
   ([90;57;47;43;43;95;97;55296;57;47;48;61;61], None);
   ([90;61;61], None);
   ([90;61;61;32], None);
   ([90;90], None);
   ([90;90;48;43;122;61;61], None);
   ([90;90;65;65;61;61], (Some [101;144;0]));
   ([90;90;122;48;32;90;57;57;61;57;46;122;61;61], (Some [101;156;244;103;223]));
   ([90;90;122;61;65;90;90;122;43;61;61], (Some [101;156]));
   ([90;97;61;61], (Some [101]));
   ([90;97;61;97;46;48;65], None);
   ([90;97;65;97;48;97;97;57], (Some [101;160;26;209;166;189]));
   ([90;122;47;65], (Some [103;63;192]));
   ([90;55296;61;47;61;48;57;57], None);
   ([95;43;47;47;65;43;122;90;122;43;61;61], None);
   ([95;45;65;32;61;61], None);
   ([95;48;47;47;97;61;65;90;61;61], (Some [211;255;218;1]));
   ([95;48;65;57;122;95;65;122;57;48;57;61;61], None);
   ([95;57;97;47;61;61;122;65;90;48;57;122;61;61], (Some [245;175]));
   ([95;61;61], (Some []));
   ([95;90;32], None);
   ([95;97;97;55296;65;61;61;61], None);
   ([95;122;45;61;61], None);
   ([97], None);
   ([97;0;10;61;43], None);
   ([97;0;61;95;90;61;61], (Some [105]));
   ([97;0;97;61;61], (Some [105]));
   ([97;10;48;90;47;0], (Some [107;70;127]));
   ([97;10;233;61;47;90;57], None);
   ([97;43;10], None);
   ([97;43;43;90;43;48;57;57;90;61;61], None);
   ([97;43;48;43;43;57], None);
   ([97;43;61;61], (Some [107]));
   ([97;46;45;61;61;122], None);
   ([97;47;47;97;32;122;45;45;90;97;65], (Some [107;255;218;205;150;128]));
   ([97;47;57;48;65;47;47;43;122;61;61], None);
   ([97;47;90;0;65;47;97;43], None);
   ([97;47;233;43;61;61], None);
   ([97;48;43;61;61], (Some [107;79]));
   ([97;48;65;61;61], (Some [107;64]));
   ([97;57], None);
   ([97;57;46;47;65;97;61;61], None);
   ([97;57;90;48;43;65;65;65], (Some [107;214;116;248;0;0]));
   ([97;57;97;65;97;48;47;90;61;61], (Some [107;214;128;107;79;217]));
   ([97;61;45;47;97;97;48;57;61;43], None);
   ([97;61;61], None);
   ([97;61;61;47;90], None);
   ([97;65], None);
   ([97;65;46;65;61;61;61], (Some [104;0]));
   ([97;65;48;57], (Some [104;13;61]));
   ([97;65;90;47;90;90;90;61;61], (Some [104;6;127;101;150]));
   ([97;65;97;48;47;65;61;61], (Some [104;6;180;252]));
   ([97;90], None);
   ([97;90;43;90;61;233], None);
   ([97;90;47;57;47], None);
   ([97;90;48;90;122;97;61;61], (Some [105;157;25;205]));
   ([97;90;57;57;43;97;48;57;48], None);
   ([97;90;61;61], (Some [105]));
   ([97;97], None);
   ([97;97;57;57;10;47;48;65;57;47;46], None);
   ([97;97;57;97;57], None);
   ([97;97;90;65;55296;65;48;47;43;57], None);
   ([97;122], None);
   ([97;122;48;97;65;48;61;61], (Some [107;61;26;3]));
   ([97;122;57;122;90;57;61;61], (Some [107;63;115;103]));
   ([97;122;122;122;48;43;90;57;97;61;61], None);
   ([97;55296;122;47;122;57;57;65;57;61;61], None);
   ([122], None);
   ([122;0;10;97;47;233;48;122;122;43;61;61], None);
   ([122;0;61;43], None);
   ([122;10], None);
   ([122;43;48;61;61], (Some [207;237]));
   ([122;46;10;57;90;61;61], (Some [207;214]));
   ([122;46;48;43;46;65;122;65;48;65;90], None);
   ([122;47;43;48;48;61;61], None);
   ([122;47;43;233;61;61], None);
   ([122;47;61;48;61;43;61;61;61], (Some [207;253]));
   ([122;47;55296;47;43;47;57], None);
   ([122;48;61;43;48;97;97;47;61;61], (Some [207;79;180;105;175]));
   ([122;48;90;233;47;122;57;57;43;61;61], None);
   ([122;57;46;122;97;55296;233;90;48], None);
   ([122;57;48;97;65;48;122;46;122], (Some [207;221;26;3;76;243]));
   ([122;57;57;43;43;90;61;61], (Some [207;223;126;249]));
   ([122;57;57;97;0], (Some [207;223;90]));
   ([122;61;61], None);
   ([122;65;43;47;122;97;61;61], (Some [204;15;191;205]));
   ([122;90;47;57;48;122;61;61], (Some [205;159;253;211]));
   ([122;90;48;90;48;122;57;43;48;61;61], None);
   ([122;90;97;48;97;46;57;47;90;61;61], (Some [205;150;180;107;223;217]));
   ([122;90;122;57;90;65;122;61;61], (Some [205;156;253;100;12]));
   ([122;97;43;122;43;90;90;61;90;47;61;61], (Some [205;175;179;249;150]));
   ([122;97;48;48;65;43;122;90;47], None);
   ([122;233;0;61;61], None);
   ([122;233;122;48;122;122;57;10;43;65;48;61;61], None);
   ([122;55296;43;43], None);
   ([233;32;46], None);
   ([233;43;90;61;61;47;61;97;48;65;90;61;61], None);
   ([233;47;48], None);
   ([233;61], None);
   ([233;61;61], None);
   ([233;61;61;61], None);
   ([233;61;65;45;57], None);
   ([233;61;90;97;90;45], None);
   ([233;122;61;61;61], None);
   ([233;122;65;95;61;61], None);
   ([233;233;0;43;47;47;57;61;61], None);
   ([233;233;48;122;43;65;48;233;97;65], None);
   ([55296;61], None);
   ([55296;61;61], None);
   ([55296;61;233;65], None);
   ([55296;65;61;122;61;61], None);
   ([55296;90;122;43;47;57;47;48;43], None)].
Example b64decode_ok : forallb (fun c => same_opt str_eqb (match b64decode (fst c) with Ok b => Some b | Raise _ => None end) (snd c)) b64decode_cases = true.
Proof. vm_compute. reflexivity. Qed.

Definition bytes_repr_cases : list (str * str) :=
  [([0;1;2;3;4;5;6;7;8;9;10;11;12;13;14;15;16;17;18;19;20;21;22;23;24;25;26;27;28;29;30;31;32;33;34;35;36;37;38;39;40;41;42;43;44;45;46;47;48;49;50;51;52;53;54;55;56;57;58;59;60;61;62;63;64;65;66;67;68;69;70;71;72;73;74;75;76;77;78;79;80;81;82;83;84;85;86;87;88;89;90;91;92;93;94;95;96;97;98;99;100;101;102;103;104;105;106;107;108;109;110;111;112;113;114;115;116;117;118;119;120;121;122;123;124;125;126;127;128;129;130;131;132;133;134;135;136;137;138;139;140;141;142;143;144;145;146;147;148;149;150;151;152;153;154;155;156;157;158;159;160;161;162;163;164;165;166;167;168;169;170;171;172;173;174;175;176;177;178;179;180;181;182;183;184;185;186;187;188;189;190;191;192;193;194;195;196;197;198;199;200;201;202;203;204;205;206;207;208;209;210;211;212;213;214;215;216;217;218;219;220;221;222;223;224;225;226;227;228;229;230;231;232;233;234;235;236;237;238;239;240;241;242;243;244;245;246;247;248;249;250;251;252;253;254;255], [98;39;92;120;48;48;92;120;48;49;92;120;48;50;92;120;48;51;92;120;48;52;92;120;48;53;92;120;48;54;92;120;48;55;92;120;48;56;92;116;92;110;92;120;48;98;92;120;48;99;92;114;92;120;48;101;92;120;48;102;92;120;49;48;92;120;49;49;92;120;49;50;92;120;49;51;92;120;49;52;92;120;49;53;92;120;49;54;92;120;49;55;92;120;49;56;92;120;49;57;92;120;49;97;92;120;49;98;92;120;49;99;92;120;49;100;92;120;49;101;92;120;49;102;32;33;34;35;36;37;38;92;39;40;41;42;43;44;45;46;47;48;49;50;51;52;53;54;55;56;57;58;59;60;61;62;63;64;65;66;67;68;69;70;71;72;73;74;75;76;77;78;79;80;81;82;83;84;85;86;87;88;89;90;91;92;92;93;94;95;96;97;98;99;100;101;102;103;104;105;106;107;108;109;110;111;112;113;114;115;116;117;118;119;120;121;122;123;124;125;126;92;120;55;102;92;120;56;48;92;120;56;49;92;120;56;50;92;120;56;51;92;120;56;52;92;120;56;53;92;120;56;54;92;120;56;55;92;120;56;56;92;120;56;57;92;120;56;97;92;120;56;98;92;120;56;99;92;120;56;100;92;120;56;101;92;120;56;102;92;120;57;48;92;120;57;49;92;120;57;50;92;120;57;51;92;120;57;52;92;120;57;53;92;120;57;54;92;120;57;55;92;120;57;56;92;120;57;57;92;120;57;97;92;120;57;98;92;120;57;99;92;120;57;100;92;120;57;101;92;120;57;102;92;120;97;48;92;120;97;49;92;120;97;50;92;120;97;51;92;120;97;52;92;120;97;53;92;120;97;54;92;120;97;55;92;120;97;56;92;120;97;57;92;120;97;97;92;120;97;98;92;120;97;99;92;120;97;100;92;120;97;101;92;120;97;102;92;120;98;48;92;120;98;49;92;120;98;50;92;120;98;51;92;120;98;52;92;120;98;53;92;120;98;54;92;120;98;55;92;120;98;56;92;120;98;57;92;120;98;97;92;120;98;98;92;120;98;99;92;120;98;100;92;120;98;101;92;120;98;102;92;120;99;48;92;120;99;49;92;120;99;50;92;120;99;51;92;120;99;52;92;120;99;53;92;120;99;54;92;120;99;55;92;120;99;56;92;120;99;57;92;120;99;97;92;120;99;98;92;120;99;99;92;120;99;100;92;120;99;101;92;120;99;102;92;120;100;48;92;120;100;49;92;120;100;50;92;120;100;51;92;120;100;52;92;120;100;53;92;120;100;54;92;120;100;55;92;120;100;56;92;120;100;57;92;120;100;97;92;120;100;98;92;120;100;99;92;120;100;100;92;120;100;101;92;120;100;102;92;120;101;48;92;120;101;49;92;120;101;50;92;120;101;51;92;120;101;52;92;120;101;53;92;120;101;54;92;120;101;55;92;120;101;56;92;120;101;57;92;120;101;97;92;120;101;98;92;120;101;99;92;120;101;100;92;120;101;101;92;120;101;102;92;120;102;48;92;120;102;49;92;120;102;50;92;120;102;51;92;120;102;52;92;120;102;53;92;120;102;54;92;120;102;55;92;120;102;56;92;120;102;57;92;120;102;97;92;120;102;98;92;120;102;99;92;120;102;100;92;120;102;101;92;120;102;102;39]);
   ([0;1;2;3;4;5;6;7;8;9;10;11;12;13;14;15;16;17;18;19;20;21;22;23;24;25;26;27;28;29;30;31;32;33;34;35;36;37;38;39;40;41;42;43;44;45;46;47;48;49;50;51;52;53;54;55;56;57;58;59;60;61;62;63;64;65;66;67;68;69;70;71;72;73;74;75;76;77;78;79;80;81;82;83;84;85;86;87;88;89;90;91;92;93;94;95;96;97;98;99;100;101;102;103;104;105;106;107;108;109;110;111;112;113;114;115;116;117;118;119;120;121;122;123;124;125;126;127], [98;39;92;120;48;48;92;120;48;49;92;120;48;50;92;120;48;51;92;120;48;52;92;120;48;53;92;120;48;54;92;120;48;55;92;120;48;56;92;116;92;110;92;120;48;98;92;120;48;99;92;114;92;120;48;101;92;120;48;102;92;120;49;48;92;120;49;49;92;120;49;50;92;120;49;51;92;120;49;52;92;120;49;53;92;120;49;54;92;120;49;55;92;120;49;56;92;120;49;57;92;120;49;97;92;120;49;98;92;120;49;99;92;120;49;100;92;120;49;101;92;120;49;102;32;33;34;35;36;37;38;92;39;40;41;42;43;44;45;46;47;48;49;50;51;52;53;54;55;56;57;58;59;60;61;62;63;64;65;66;67;68;69;70;71;72;73;74;75;76;77;78;79;80;81;82;83;84;85;86;87;88;89;90;91;92;92;93;94;95;96;97;98;99;100;101;102;103;104;105;106;107;108;109;110;111;112;113;114;115;116;117;118;119;120;121;122;123;124;125;126;92;120;55;102;39]);
   ([39], [98;34;39;34]);
   ([34], [98;39;34;39]);
   ([39;34], [98;39;92;39;34;39]);
   ([], [98;39;39]);
   ([97;98;99], [98;39;97;98;99;39]);
   ([92], [98;39;92;92;39]);
   ([105;116;39;115;10], [98;34;105;116;39;115;92;110;34]);
   ([127;128;255;0;9;11], [98;39;92;120;55;102;92;120;56;48;92;120;102;102;92;120;48;48;92;116;92;120;48;98;39]);
   ([98;92;97;98], [98;39;98;92;92;97;98;39]);
   ([10;10;34;122;92;122;92;255], [98;39;92;110;92;110;34;122;92;92;122;92;92;92;120;102;102;39]);
   ([34;39;92;39;34], [98;39;34;92;39;92;92;92;39;34;39]);
   ([92;39;92;0;34], [98;39;92;92;92;39;92;92;92;120;48;48;34;39]);
   ([], [98;39;39]);
   ([39;39;34;10;0;0], [98;39;92;39;92;39;34;92;110;92;120;48;48;92;120;48;48;39]);
   ([127;92;92;34;127;39], [98;39;92;120;55;102;92;92;92;92;34;92;120;55;102;92;39;39]);
   ([98;10;39;39;0;39], [98;34;98;92;110;39;39;92;120;48;48;39;34]);
   ([10], [98;39;92;110;39]);
   ([92;0;92;255], [98;39;92;92;92;120;48;48;92;92;92;120;102;102;39]);
   ([255;92], [98;39;92;120;102;102;92;92;39]);
   ([], [98;39;39]);
   ([34;127;127;97;34;34;255;39], [98;39;34;92;120;55;102;92;120;55;102;97;34;34;92;120;102;102;92;39;39]);
   ([92;122;39;34;97;10;255], [98;39;92;92;122;92;39;34;97;92;110;92;120;102;102;39]);
   ([97;39;34;97], [98;39;97;92;39;34;97;39]);
   ([34;92;98;255;10;10;0], [98;39;34;92;92;98;92;120;102;102;92;110;92;110;92;120;48;48;39]);
   ([122], [98;39;122;39]);
   ([98;122;34], [98;39;98;122;34;39]);
   ([0;97;0;0;10;255;34;255], [98;39;92;120;48;48;97;92;120;48;48;92;120;48;48;92;110;92;120;102;102;34;92;120;102;102;39]);
   ([255;127], [98;39;92;120;102;102;92;120;55;102;39]);
   ([98;98;0;255;0;34;34], [98;39;98;98;92;120;48;48;92;120;102;102;92;120;48;48;34;34;39]);
   ([255;255;98;97], [98;39;92;120;102;102;92;120;102;102;98;97;39]);
   ([34;122;39;255;122;10;97], [98;39;34;122;92;39;92;120;102;102;122;92;110;97;39]);
   ([127;92;0;127], [98;39;92;120;55;102;92;92;92;120;48;48;92;120;55;102;39]);
   ([98;127], [98;39;98;92;120;55;102;39]);
   ([92], [98;39;92;92;39]);
   ([0;92;92;255;127], [98;39;92;120;48;48;92;92;92;92;92;120;102;102;92;120;55;102;39]);
   ([], [98;39;39]);
   ([127;97], [98;39;92;120;55;102;97;39]);
   ([255;10;98;0;92;34;34;98], [98;39;92;120;102;102;92;110;98;92;120;48;48;92;92;34;34;98;39])].
Example bytes_repr_ok : forallb (fun c => str_eqb (bytes_repr (fst c)) (snd c)) bytes_repr_cases = true.
Proof. vm_compute. reflexivity. Qed.

Example decades_ok : nd_zeros = [48;1632;1776;1984;2406;2534;2662;2790;2918;3046;3174;3302;3430;3558;3664;3792;3872;4160;4240;6112;6160;6470;6608;6784;6800;6992;7088;7232;7248;42528;43216;43264;43472;43504;43600;44016;65296;66720;68912;69734;69872;69942;70096;70384;70736;70864;71248;71360;71472;71904;72016;72784;73040;73120;92768;92864;93008;120782;120792;120802;120812;120822;123200;123632;125264;130032].
Proof. vm_compute. reflexivity. Qed.

(** the characters [int] skips in front of a number *)
Definition int_spaces : list N := [9;10;11;12;13;32;133;160;5760;8192;8193;8194;8195;8196;8197;8198;8199;8200;8201;8202;8232;8233;8239;8287;12288].
Example int_spaces_ok : forallb (fun c => match py_int 10 [c; 49] with Some z => (z =? 1)%Z | None => false end) int_spaces = true /\
  filter (fun c => match py_int 10 [c; 49] with Some z => negb (mem c [43; 45; 48]) && match udigit c with Some _ => false | None => true end | None => false end) (map N.of_nat (seq 0 (N.to_nat 12400))) = int_spaces.
Proof. split; vm_compute; reflexivity. Qed.

Example upper_ok : upper (map N.of_nat (seq 0 128)) = [0;1;2;3;4;5;6;7;8;9;10;11;12;13;14;15;16;17;18;19;20;21;22;23;24;25;26;27;28;29;30;31;32;33;34;35;36;37;38;39;40;41;42;43;44;45;46;47;48;49;50;51;52;53;54;55;56;57;58;59;60;61;62;63;64;65;66;67;68;69;70;71;72;73;74;75;76;77;78;79;80;81;82;83;84;85;86;87;88;89;90;91;92;93;94;95;96;65;66;67;68;69;70;71;72;73;74;75;76;77;78;79;80;81;82;83;84;85;86;87;88;89;90;123;124;125;126;127].
Proof. vm_compute. reflexivity. Qed.

Example digits_ok : map (fun n => Z.to_N (int_n_log2_log10 n)) (seq 0 1200) = [0;0;0;0;1;1;1;2;2;2;3;3;3;3;4;4;4;5;5;5;6;6;6;6;7;7;7;8;8;8;9;9;9;9;10;10;10;11;11;11;12;12;12;12;13;13;13;14;14;14;15;15;15;15;16;16;16;17;17;17;18;18;18;18;19;19;19;20;20;20;21;21;21;21;22;22;22;23;23;23;24;24;24;24;25;25;25;26;26;26;27;27;27;27;28;28;28;29;29;29;30;30;30;31;31;31;31;32;32;32;33;33;33;34;34;34;34;35;35;35;36;36;36;37;37;37;37;38;38;38;39;39;39;40;40;40;40;41;41;41;42;42;42;43;43;43;43;44;44;44;45;45;45;46;46;46;46;47;47;47;48;48;48;49;49;49;49;50;50;50;51;51;51;52;52;52;52;53;53;53;54;54;54;55;55;55;55;56;56;56;57;57;57;58;58;58;59;59;59;59;60;60;60;61;61;61;62;62;62;62;63;63;63;64;64;64;65;65;65;65;66;66;66;67;67;67;68;68;68;68;69;69;69;70;70;70;71;71;71;71;72;72;72;73;73;73;74;74;74;74;75;75;75;76;76;76;77;77;77;77;78;78;78;79;79;79;80;80;80;80;81;81;81;82;82;82;83;83;83;83;84;84;84;85;85;85;86;86;86;86;87;87;87;88;88;88;89;89;89;90;90;90;90;91;91;91;92;92;92;93;93;93;93;94;94;94;95;95;95;96;96;96;96;97;97;97;98;98;98;99;99;99;99;100;100;100;101;101;101;102;102;102;102;103;103;103;104;104;104;105;105;105;105;106;106;106;107;107;107;108;108;108;108;109;109;109;110;110;110;111;111;111;111;112;112;112;113;113;113;114;114;114;114;115;115;115;116;116;116;117;117;117;118;118;118;118;119;119;119;120;120;120;121;121;121;121;122;122;122;123;123;123;124;124;124;124;125;125;125;126;126;126;127;127;127;127;128;128;128;129;129;129;130;130;130;130;131;131;131;132;132;132;133;133;133;133;134;134;134;135;135;135;136;136;136;136;137;137;137;138;138;138;139;139;139;139;140;140;140;141;141;141;142;142;142;142;143;143;143;144;144;144;145;145;145;145;146;146;146;147;147;147;148;148;148;149;149;149;149;150;150;150;151;151;151;152;152;152;152;153;153;153;154;154;154;155;155;155;155;156;156;156;157;157;157;158;158;158;158;159;159;159;160;160;160;161;161;161;161;162;162;162;163;163;163;164;164;164;164;165;165;165;166;166;166;167;167;167;167;168;168;168;169;169;169;170;170;170;170;171;171;171;172;172;172;173;173;173;173;174;174;174;175;175;175;176;176;176;177;177;177;177;178;178;178;179;179;179;180;180;180;180;181;181;181;182;182;182;183;183;183;183;184;184;184;185;185;185;186;186;186;186;187;187;187;188;188;188;189;189;189;189;190;190;190;191;191;191;192;192;192;192;193;193;193;194;194;194;195;195;195;195;196;196;196;197;197;197;198;198;198;198;199;199;199;200;200;200;201;201;201;201;202;202;202;203;203;203;204;204;204;205;205;205;205;206;206;206;207;207;207;208;208;208;208;209;209;209;210;210;210;211;211;211;211;212;212;212;213;213;213;214;214;214;214;215;215;215;216;216;216;217;217;217;217;218;218;218;219;219;219;220;220;220;220;221;221;221;222;222;222;223;223;223;223;224;224;224;225;225;225;226;226;226;226;227;227;227;228;228;228;229;229;229;229;230;230;230;231;231;231;232;232;232;232;233;233;233;234;234;234;235;235;235;236;236;236;236;237;237;237;238;238;238;239;239;239;239;240;240;240;241;241;241;242;242;242;242;243;243;243;244;244;244;245;245;245;245;246;246;246;247;247;247;248;248;248;248;249;249;249;250;250;250;251;251;251;251;252;252;252;253;253;253;254;254;254;254;255;255;255;256;256;256;257;257;257;257;258;258;258;259;259;259;260;260;260;260;261;261;261;262;262;262;263;263;263;264;264;264;264;265;265;265;266;266;266;267;267;267;267;268;268;268;269;269;269;270;270;270;270;271;271;271;272;272;272;273;273;273;273;274;274;274;275;275;275;276;276;276;276;277;277;277;278;278;278;279;279;279;279;280;280;280;281;281;281;282;282;282;282;283;283;283;284;284;284;285;285;285;285;286;286;286;287;287;287;288;288;288;288;289;289;289;290;290;290;291;291;291;291;292;292;292;293;293;293;294;294;294;295;295;295;295;296;296;296;297;297;297;298;298;298;298;299;299;299;300;300;300;301;301;301;301;302;302;302;303;303;303;304;304;304;304;305;305;305;306;306;306;307;307;307;307;308;308;308;309;309;309;310;310;310;310;311;311;311;312;312;312;313;313;313;313;314;314;314;315;315;315;316;316;316;316;317;317;317;318;318;318;319;319;319;319;320;320;320;321;321;321;322;322;322;323;323;323;323;324;324;324;325;325;325;326;326;326;326;327;327;327;328;328;328;329;329;329;329;330;330;330;331;331;331;332;332;332;332;333;333;333;334;334;334;335;335;335;335;336;336;336;337;337;337;338;338;338;338;339;339;339;340;340;340;341;341;341;341;342;342;342;343;343;343;344;344;344;344;345;345;345;346;346;346;347;347;347;347;348;348;348;349;349;349;350;350;350;351;351;351;351;352;352;352;353;353;353;354;354;354;354;355;355;355;356;356;356;357;357;357;357;358;358;358;359;359;359;360;360;360;360].
Proof. vm_compute. reflexivity. Qed.

Definition split_esc_cases : list (str * list str) :=
  [([], [[]]);
   ([37;48;70;70;98;98;57;48;70;70;102], [[];[37;48;70];[70;98;98;57;48;70;70;102]]);
   ([37;48;98;37;70;48;71;37;70;102;50;37;102;71;97;70;37;71;48;70;102;97;98], [[];[37;48;98];[];[37;70;48];[71];[37;70;102];[50;37;102;71;97;70;37;71;48;70;102;97;98]]);
   ([37;57;48;71;50;97;71;48;71;37;98;102;102;71;57;57;102;98;37;98], [[];[37;57;48];[71;50;97;71;48;71];[37;98;102];[102;71;57;57;102;98;37;98]]);
   ([37;70;50;98;50;71;102;37;97;57;57;70;57;98;50;50;70;50;97;97;37;97], [[];[37;70;50];[98;50;71;102];[37;97;57];[57;70;57;98;50;50;70;50;97;97;37;97]]);
   ([37;70;98;102;98;37;70;57;57;37;48;102;57;50;37;37;57;37;70;102;102;102;50;50;98], [[];[37;70;98];[102;98];[37;70;57];[57];[37;48;102];[57;50;37;37;57];[37;70;102];[102;102;50;50;98]]);
   ([37;102;98], [[];[37;102;98];[]]);
   ([48], [[48]]);
   ([48;37;48;97;70;97;71;102;70;37;37;57;50;50;57;70;70;98;98;50], [[48];[37;48;97];[70;97;71;102;70;37];[37;57;50];[50;57;70;70;98;98;50]]);
   ([48;48;71;57;98;71;50], [[48;48;71;57;98;71;50]]);
   ([48;48;102;50;70;37;70;70;37;102;37;71;48;37;70;97;98;71;98], [[48;48;102;50;70];[37;70;70];[37;102;37;71;48];[37;70;97];[98;71;98]]);
   ([48;70;50;71;48;71;50;102;97;50;57;48;70;97;37], [[48;70;50;71;48;71;50;102;97;50;57;48;70;97;37]]);
   ([48;70;102;50;98;71;102;71;97;48;102;37;98;48;57;71], [[48;70;102;50;98;71;102;71;97;48;102];[37;98;48];[57;71]]);
   ([48;71;70;48;57;57;48;97;70;70;50;50;97;97;37;37;37;102;70;71;50;57;97;70;50], [[48;71;70;48;57;57;48;97;70;70;50;50;97;97;37;37];[37;102;70];[71;50;57;97;70;50]]);
   ([48;71;97;97;48;48;37;102;98;48;97;37;50;37;71;50;50], [[48;71;97;97;48;48];[37;102;98];[48;97;37;50;37;71;50;50]]);
   ([48;97;71;98;102;37;57;98;98;98;70;98;97;57;70;97;71;50;71;48;98;37;71;71], [[48;97;71;98;102];[37;57;98];[98;98;70;98;97;57;70;97;71;50;71;48;98;37;71;71]]);
   ([48;98;102;50;97;37;37], [[48;98;102;50;97;37;37]]);
   ([48;102;70;50;97;71;98;37;57;48;57;98;57;57;50;37;71;50;70;71], [[48;102;70;50;97;71;98];[37;57;48];[57;98;57;57;50;37;71;50;70;71]]);
   ([48;102;71;98;102;70;97;48;98;70;70;71;37;48;98;37;98;57;50;48;98;98;57;71], [[48;102;71;98;102;70;97;48;98;70;70;71];[37;48;98];[];[37;98;57];[50;48;98;98;57;71]]);
   ([50;37;50;48;37;57;102;70;97;50;70;48;57;71;98;57;97;70;97;71;37;70], [[50];[37;50;48];[];[37;57;102];[70;97;50;70;48;57;71;98;57;97;70;97;71;37;70]]);
   ([50;37;102;71], [[50;37;102;71]]);
   ([50;48], [[50;48]]);
   ([50;50;37;70;97;71;50;97;37;97;70;102;97;37;37;98;57;98;48;102], [[50;50];[37;70;97];[71;50;97];[37;97;70];[102;97;37];[37;98;57];[98;48;102]]);
   ([50;50;57;37;98;102;48;37;48;70;70;97;37;48;98;50;70;102], [[50;50;57];[37;98;102];[48];[37;48;70];[70;97];[37;48;98];[50;70;102]]);
   ([50;57;57;37;57;50;37;102;71;70;102;71;71;50;57;70;98;48;57;57], [[50;57;57];[37;57;50];[37;102;71;70;102;71;71;50;57;70;98;48;57;57]]);
   ([50;97;102;37;50;37;50;50;97;97;57;50;71;102;97;98;57;71;37;50;57;57;70;98;57], [[50;97;102;37;50];[37;50;50];[97;97;57;50;71;102;97;98;57;71];[37;50;57];[57;70;98;57]]);
   ([50;98;97;50;71;70;50;37;98;71;102;102;50;70;37;71;48;70;70;37;37;50;71;98], [[50;98;97;50;71;70;50;37;98;71;102;102;50;70;37;71;48;70;70;37;37;50;71;98]]);
   ([57;37;57;71;70;48;37;57;98;98;48;97;50;97;97;71;37;37;97;57;98;70;98], [[57;37;57;71;70;48];[37;57;98];[98;48;97;50;97;97;71;37];[37;97;57];[98;70;98]]);
   ([57;98;50;37], [[57;98;50;37]]);
   ([57;102;37;97;57], [[57;102];[37;97;57];[]]);
   ([70;48;102;50;98;98;97;50;98;37;97;48;48;97;70;102], [[70;48;102;50;98;98;97;50;98];[37;97;48];[48;97;70;102]]);
   ([70;98;48;50;37;102;50;70;97;71;71], [[70;98;48;50];[37;102;50];[70;97;71;71]]);
   ([71], [[71]]);
   ([71;37;48;98;98;71;98;98;97;50;37;70;97;102;57;70;37;57;48;98;71], [[71];[37;48;98];[98;71;98;98;97;50];[37;70;97];[102;57;70];[37;57;48];[98;71]]);
   ([71;57;50;97;102;50;50;71;97;71;50;57;57;98;70;50;50;37;48;37;70;70], [[71;57;50;97;102;50;50;71;97;71;50;57;57;98;70;50;50;37;48];[37;70;70];[]]);
   ([71;70;102;48;57;71;98;50;71;57;70], [[71;70;102;48;57;71;98;50;71;57;70]]);
   ([71;97;97;48;37;50;71;102;102;50;70;98;57;97;98;37;71;48;97;102], [[71;97;97;48;37;50;71;102;102;50;70;98;57;97;98;37;71;48;97;102]]);
   ([97;37;57;70], [[97];[37;57;70];[]]);
   ([97;37;70;48;71;102], [[97];[37;70;48];[71;102]]);
   ([97;50;102;48;57;98;102;102;48], [[97;50;102;48;57;98;102;102;48]]);
   ([97;97;98;71;57;97;37;97;98;50;37;102;48;71;97;70;97;70;37;57;37;97;37], [[97;97;98;71;57;97];[37;97;98];[50];[37;102;48];[71;97;70;97;70;37;57;37;97;37]]);
   ([98;57;57;71;70;97;70;71;102;102;37;70;98;70;57;102;57;98;98;98;48;97;50;48;48;57], [[98;57;57;71;70;97;70;71;102;102];[37;70;98];[70;57;102;57;98;98;98;48;97;50;48;48;57]]);
   ([98;97;98;102;48;37;48;70;50;57;71;37;71;37;50;98;57], [[98;97;98;102;48];[37;48;70];[50;57;71;37;71];[37;50;98];[57]]);
   ([98;102;97;98;97;97;57], [[98;102;97;98;97;97;57]]);
   ([102], [[102]]);
   ([102;48;70;71;102], [[102;48;70;71;102]]);
   ([102;48;71;102;37;102;71;50;57;37;48;37;102;71;37;71;48;57;97;98;37;57], [[102;48;71;102;37;102;71;50;57;37;48;37;102;71;37;71;48;57;97;98;37;57]]);
   ([102;57;37;37;102;98;37;48;50;97;102;70;97;57;50;97;48;48;57;57;48;71;97;71], [[102;57;37];[37;102;98];[];[37;48;50];[97;102;70;97;57;50;97;48;48;57;57;48;71;97;71]]);
   ([102;57;70;57;71;98;57;102], [[102;57;70;57;71;98;57;102]]);
   ([102;97;37;98;71;98], [[102;97;37;98;71;98]]);
   ([102;97;71], [[102;97;71]]);
   ([102;97;98;50;102;50;98;97;37;70;70;97;98;70;57;57;71;98;71;37;97;70;50;97;50;37], [[102;97;98;50;102;50;98;97];[37;70;70];[97;98;70;57;57;71;98;71];[37;97;70];[50;97;50;37]]);
   ([102;98;48;50;48;70;48;37;37;37;71;70;98;71;98;57;70;57;71;98;71;98;57], [[102;98;48;50;48;70;48;37;37;37;71;70;98;71;98;57;70;57;71;98;71;98;57]]);
   ([102;98;102;48;102;50;50;57;102;102;97;70;71], [[102;98;102;48;102;50;50;57;102;102;97;70;71]])].
Example split_esc_ok : forallb (fun c => strs_eqb (re_split_cap m_escape (fst c)) (snd c)) split_esc_cases = true.
Proof. vm_compute. reflexivity. Qed.

Definition split_escdash_cases : list (str * list str) :=
  [([], [[]]);
   ([37;45;97;98;98;70;48;37;98;45;70;57;48;45;48;50;50;98;98;48;57], [[37];[45];[97;98;98;70;48;37;98];[45];[70;57;48];[45];[48;50;50;98;98;48;57]]);
   ([37;57;37;48], [[37;57;37;48]]);
   ([37;57;97], [[];[37;57;97];[]]);
   ([37;97;98;98;97;45;48;70;98;57;57;97;97], [[];[37;97;98];[98;97];[45];[48;70;98;57;57;97;97]]);
   ([37;98;57;57;45;45;48;70;48;37;45;45;70;48;37;48;37;37;50;37;57;98;57], [[];[37;98;57];[57];[45];[];[45];[48;70;48;37];[45];[];[45];[70;48;37;48;37;37;50];[37;57;98];[57]]);
   ([45;48;57;37;70;57;45;50;37;45;70;70;70;97;98;97;48;50;37;45;97;97;48;37], [[];[45];[48;57];[37;70;57];[];[45];[50;37];[45];[70;70;70;97;98;97;48;50;37];[45];[97;97;48;37]]);
   ([45;57;37;97;98;37;48;70;50;98;37;98;70;48;98;98], [[];[45];[57];[37;97;98];[];[37;48;70];[50;98];[37;98;70];[48;98;98]]);
   ([48], [[48]]);
   ([48;37;45;70;48;45;98;48;50;37;70;57;57], [[48;37];[45];[70;48];[45];[98;48;50];[37;70;57];[57]]);
   ([48;37;50;45;50;48;97], [[48;37;50];[45];[50;48;97]]);
   ([48;48;98;70;45;48;50;57;45;70;98;45;37;98;70;98;57;97;57], [[48;48;98;70];[45];[48;50;57];[45];[70;98];[45];[];[37;98;70];[98;57;97;57]]);
   ([48;50;48;98;50;70;57;57;37;98], [[48;50;48;98;50;70;57;57;37;98]]);
   ([48;50;57;37], [[48;50;57;37]]);
   ([48;70;50;37;37;70;50], [[48;70;50;37];[37;70;50];[]]);
   ([48;70;70;70;37;48;57;50;97;48;70;97;70;97;37;57;45;70;45;45;57], [[48;70;70;70];[37;48;57];[50;97;48;70;97;70;97;37;57];[45];[70];[45];[];[45];[57]]);
   ([50;37], [[50;37]]);
   ([50;37;70;70;98;70;70;97;97;97;98;37;48;97;97;45;45;97;70;70;97;97;70;37;98], [[50];[37;70;70];[98;70;70;97;97;97;98];[37;48;97];[97];[45];[];[45];[97;70;70;97;97;70;37;98]]);
   ([50;37;97;98;70;97;98;70;45;70;98;48;70;70;97;70;48;57;98], [[50];[37;97;98];[70;97;98;70];[45];[70;98;48;70;70;97;70;48;57;98]]);
   ([50;45;45;98;37;48;98;50;37;45;48;50;37;48;57;37;45;50;57;70;98;50;97;70;48;57], [[50];[45];[];[45];[98];[37;48;98];[50;37];[45];[48;50];[37;48;57];[37];[45];[50;57;70;98;50;97;70;48;57]]);
   ([50;48;98;48], [[50;48;98;48]]);
   ([50;57;70;48;50;57;98;37;57;70;70;48;70;50;45;70;50;50;48;37;98;37;45;50], [[50;57;70;48;50;57;98];[37;57;70];[70;48;70;50];[45];[70;50;50;48;37;98;37];[45];[50]]);
   ([50;70;97;45;97], [[50;70;97];[45];[97]]);
   ([50;97;98;57;45;50;50;57;45;97;98;57;57;50;48;98;98;97;70;57;48;98;97;45;70], [[50;97;98;57];[45];[50;50;57];[45];[97;98;57;57;50;48;98;98;97;70;57;48;98;97];[45];[70]]);
   ([50;98;45;97;97;37;97;57;98;45], [[50;98];[45];[97;97];[37;97;57];[98];[45];[]]);
   ([57;37;97;45;45;48;48;45;37;48;45;98;50;97;57;57;37;48;50;50;37;45;48;37], [[57;37;97];[45];[];[45];[48;48];[45];[37;48];[45];[98;50;97;57;57];[37;48;50];[50;37];[45];[48;37]]);
   ([57;45;70;37;57;37], [[57];[45];[70;37;57;37]]);
   ([57;70;57;97;37;70;45;98;45;70;45;48;48;70;37;45;45;50;50;50;48;45;50;98], [[57;70;57;97;37;70];[45];[98];[45];[70];[45];[48;48;70;37];[45];[];[45];[50;50;50;48];[45];[50;98]]);
   ([70;37;57;45;70;57;45;97;45;97;70;57;50;37;70;50;50;48;70], [[70;37;57];[45];[70;57];[45];[97];[45];[97;70;57;50];[37;70;50];[50;48;70]]);
   ([70;37;98;70;50;97;57;97;57;37;97;48;57;70;45;57;50;70], [[70];[37;98;70];[50;97;57;97;57];[37;97;48];[57;70];[45];[57;50;70]]);
   ([70;45;50;50;37;57;70;50;98;45;50;48;57;48;37;70], [[70];[45];[50;50];[37;57;70];[50;98];[45];[50;48;57;48;37;70]]);
   ([70;57;45;48;70;98;48;48;98;97;57;45;70;45;70;97;97;37;98], [[70;57];[45];[48;70;98;48;48;98;97;57];[45];[70];[45];[70;97;97;37;98]]);
   ([70;57;45;57;57], [[70;57];[45];[57;57]]);
   ([70;57;48;97;57;57;97;50;97;37;37;57;50;57;45;50;37], [[70;57;48;97;57;57;97;50;97;37];[37;57;50];[57];[45];[50;37]]);
   ([70;70;57;50;70;50;98;50;70;50;57;45;97;50;48;45;45;57;50;57], [[70;70;57;50;70;50;98;50;70;50;57];[45];[97;50;48];[45];[];[45];[57;50;57]]);
   ([70;70;57;98;37;37], [[70;70;57;98;37;37]]);
   ([70;98;48;97;57;98;57;97;50], [[70;98;48;97;57;98;57;97;50]]);
   ([97;37;70;57;98;50;50;98;70;70;57;57;98;98;57;98;98;97;37;45;70;98;70;70;37], [[97];[37;70;57];[98;50;50;98;70;70;57;57;98;98;57;98;98;97;37];[45];[70;98;70;70;37]]);
   ([97;37;97;97;48;45;70;50;57;97;45;48;70;48;98;70;45], [[97];[37;97;97];[48];[45];[70;50;57;97];[45];[48;70;48;98;70];[45];[]]);
   ([97;45;57;70;37;97;50;37;50;70;50;48;97;70;50;70;70;70;50;37;70;57;70;37;45], [[97];[45];[57;70];[37;97;50];[];[37;50;70];[50;48;97;70;50;70;70;70;50];[37;70;57];[70;37];[45];[]]);
   ([97;48], [[97;48]]);
   ([97;50;98;37;45;37;48;57], [[97;50;98;37];[45];[];[37;48;57];[]]);
   ([97;57], [[97;57]]);
   ([97;57;57;48;70;70;70;97;37;98;50;70;48;98;37], [[97;57;57;48;70;70;70;97];[37;98;50];[70;48;98;37]]);
   ([97;97;45;45;37;37;50;57;98;48;50;45;45], [[97;97];[45];[];[45];[37];[37;50;57];[98;48;50];[45];[];[45];[]]);
   ([97;97;48;70;97;70;98;97;50;98;57;37;98;57;45;45;48;98;57;45;48;50;45;37;70;45], [[97;97;48;70;97;70;98;97;50;98;57];[37;98;57];[];[45];[];[45];[48;98;57];[45];[48;50];[45];[37;70];[45];[]]);
   ([97;97;48;97;98;48;57;70;37;57;70;70;45;37;37;98;57], [[97;97;48;97;98;48;57;70];[37;57;70];[70];[45];[37];[37;98;57];[]]);
   ([97;98;70;37;50;48;97;57;97;50;45], [[97;98;70];[37;50;48];[97;57;97;50];[45];[]]);
   ([98;45;45;70;97;45;57;97;70;98;70;97;97;48;48;70;50;57;37;48;98;50;48;48;37;37], [[98];[45];[];[45];[70;97];[45];[57;97;70;98;70;97;97;48;48;70;50;57];[37;48;98];[50;48;48;37;37]]);
   ([98;48;37;97;57;48;70;45;37;50;97;45;45;50;57;98;57;57;50], [[98;48];[37;97;57];[48;70];[45];[];[37;50;97];[];[45];[];[45];[50;57;98;57;57;50]]);
   ([98;48;45;98;45;48;70;70;50;57;37;97;57;50;97;48;97;98;70], [[98;48];[45];[98];[45];[48;70;70;50;57];[37;97;57];[50;97;48;97;98;70]]);
   ([98;48;48;37], [[98;48;48;37]]);
   ([98;48;57], [[98;48;57]]);
   ([98;57;57;50;98;70;37;70;57;70;48;57;70;48], [[98;57;57;50;98;70];[37;70;57];[70;48;57;70;48]]);
   ([98;57;70], [[98;57;70]]);
   ([98;70;97;50;45], [[98;70;97;50];[45];[]]);
   ([98;70;97;57;70;50;48;37;37;57], [[98;70;97;57;70;50;48;37;37;57]]);
   ([98;98;98;50;50;97;70;57], [[98;98;98;50;50;97;70;57]])].
Example split_escdash_ok : forallb (fun c => strs_eqb (re_split_cap m_escape_or_dash (fst c)) (snd c)) split_escdash_cases = true.
Proof. vm_compute. reflexivity. Qed.

Definition split_bits6_cases : list (str * list str) :=
  [([10], [[10]]);
   ([10;48], [[10;48]]);
   ([10;49;48;49;48;48;49;49;49;49;48;48;48], [[10];[49;48;49;48;48;49];[];[49;49;49;48;48;48];[]]);
   ([10;49;48;49;49;49;48;48;49;49;49;49], [[10];[49;48;49;49;49;48];[48;49;49;49;49]]);
   ([48], [[48]]);
   ([48;10;48;48;48;48;49;49;48;49], [[48;10];[48;48;48;48;49;49];[48;49]]);
   ([48;48;48;48;10;49;48;48;48;49;48;48;49;49;49], [[48;48;48;48;10];[49;48;48;48;49;48];[48;49;49;49]]);
   ([48;48;48;48;49;48;49;49;48;48;49;48;48;49;49;49;49;49;49;49;49;49;49;48;48;48], [[];[48;48;48;48;49;48];[];[49;49;48;48;49;48];[];[48;49;49;49;49;49];[];[49;49;49;49;49;48];[48;48]]);
   ([48;48;48;49;48;48;48;49;49;48;97;48;48], [[];[48;48;48;49;48;48];[48;49;49;48;97;48;48]]);
   ([48;48;48;49;49;49], [[];[48;48;48;49;49;49];[]]);
   ([48;48;49;48;48;48;48;48;48;48;48;48], [[];[48;48;49;48;48;48];[];[48;48;48;48;48;48];[]]);
   ([48;48;49;48;49;48;48;48;48;48;49;49;49;49;48;48;48;49;48;49;49;48], [[];[48;48;49;48;49;48];[];[48;48;48;48;49;49];[];[49;49;48;48;48;49];[48;49;49;48]]);
   ([48;48;49;49;48;48;48], [[];[48;48;49;49;48;48];[48]]);
   ([48;48;49;49;48;49;49;48;48;49;48;48;48;49;48;49], [[];[48;48;49;49;48;49];[];[49;48;48;49;48;48];[48;49;48;49]]);
   ([48;48;49;49;49;49], [[];[48;48;49;49;49;49];[]]);
   ([48;48;49;49;97;48;48;49;48;49;48;48;49;48;49;49], [[48;48;49;49;97];[48;48;49;48;49;48];[48;49;48;49;49]]);
   ([48;48;97;48;49], [[48;48;97;48;49]]);
   ([48;49;48;48;48;48;49;48;48;48;49;48;49;49;49], [[];[48;49;48;48;48;48];[];[49;48;48;48;49;48];[49;49;49]]);
   ([48;49;48;48;48;49;10;49;48;48], [[];[48;49;48;48;48;49];[10;49;48;48]]);
   ([48;49;48;48;48;49;48;49;49;48;49;48;49;49;48;49;49;49;49;48;49;97;48;48;49;48], [[];[48;49;48;48;48;49];[];[48;49;49;48;49;48];[];[49;49;48;49;49;49];[49;48;49;97;48;48;49;48]]);
   ([48;49;48;48;49;50;48], [[48;49;48;48;49;50;48]]);
   ([48;49;48;49;49;48;49;48;48;49;48;48], [[];[48;49;48;49;49;48];[];[49;48;48;49;48;48];[]]);
   ([48;49;49], [[48;49;49]]);
   ([48;49;49;48;48;49;49;49;49;49;49;48;49;48;49;49;49;49;48;49;49], [[];[48;49;49;48;48;49];[];[49;49;49;49;49;48];[];[49;48;49;49;49;49];[48;49;49]]);
   ([48;49;49;48;49;48;49;48;48;49;10;48;48;49;48;49;49;48;49;48;48;48;48;49], [[];[48;49;49;48;49;48];[49;48;48;49;10];[48;48;49;48;49;49];[];[48;49;48;48;48;48];[49]]);
   ([48;49;49;49;48;48;49], [[];[48;49;49;49;48;48];[49]]);
   ([48;49;49;49;48;49;48;48;49;48;49;48;49;48;49;48;48;48;49;48;48;48;48;48;49], [[];[48;49;49;49;48;49];[];[48;48;49;48;49;48];[];[49;48;49;48;48;48];[];[49;48;48;48;48;48];[49]]);
   ([48;97;48;49;48;48;48;49;49;49;49;49;48;48;48;49;48;49], [[48;97];[48;49;48;48;48;49];[];[49;49;49;49;48;48];[48;49;48;49]]);
   ([48;97;48;49;48;49;48;48;49;49], [[48;97];[48;49;48;49;48;48];[49;49]]);
   ([49;48], [[49;48]]);
   ([49;48;10;49;49;48;48;48;49;49;48;49;49;48;49], [[49;48;10];[49;49;48;48;48;49];[];[49;48;49;49;48;49];[]]);
   ([49;48;48;48;48;48;48;49;49], [[];[49;48;48;48;48;48];[48;49;49]]);
   ([49;48;48;48;49;48;49;48;49;48;49;49;48;10;49;48;48;49;48;48], [[];[49;48;48;48;49;48];[];[49;48;49;48;49;49];[48;10];[49;48;48;49;48;48];[]]);
   ([49;48;48;48;49;49;48;49;48;48;49;48;49], [[];[49;48;48;48;49;49];[];[48;49;48;48;49;48];[49]]);
   ([49;48;48;49;49;48;49;48;48;49;49], [[];[49;48;48;49;49;48];[49;48;48;49;49]]);
   ([49;48;49;48;49;49;48;48;49;48;49;48;49;49;48], [[];[49;48;49;48;49;49];[];[48;48;49;48;49;48];[49;49;48]]);
   ([49;48;49;49;49;48], [[];[49;48;49;49;49;48];[]]);
   ([49;48;97;48;49;48;49;49;48;49;48;48;48;48;48;48;49;48;49;48;49], [[49;48;97];[48;49;48;49;49;48];[];[49;48;48;48;48;48];[];[48;49;48;49;48;49];[]]);
   ([49;49;48;48;48;49;48;48;48;49], [[];[49;49;48;48;48;49];[48;48;48;49]]);
   ([49;49;48;48;49], [[49;49;48;48;49]]);
   ([49;49;48;48;49;49;49;49;48;48;48;48;49;48;48;49;48;49;49;49;49;48], [[];[49;49;48;48;49;49];[];[49;49;48;48;48;48];[];[49;48;48;49;48;49];[49;49;49;48]]);
   ([49;49;48;49;48;48;48;48;48;48;48;48;49;49;48;49;49;49;49;49;48;49;49], [[];[49;49;48;49;48;48];[];[48;48;48;48;48;48];[];[49;49;48;49;49;49];[49;49;48;49;49]]);
   ([49;49;48;49;48;48;49;48;49], [[];[49;49;48;49;48;48];[49;48;49]]);
   ([49;49;48;49;48;48;49;48;49;49;49;49;48;49;48;48;48;49;48;48;48;48;48], [[];[49;49;48;49;48;48];[];[49;48;49;49;49;49];[];[48;49;48;48;48;49];[48;48;48;48;48]]);
   ([49;49;48;49;49], [[49;49;48;49;49]]);
   ([49;49;48;49;49;49;49], [[];[49;49;48;49;49;49];[49]]);
   ([49;49;49;10;48;49;48;49;48;49;48], [[49;49;49;10];[48;49;48;49;48;49];[48]]);
   ([49;49;49;48;48;48;48;49], [[];[49;49;49;48;48;48];[48;49]]);
   ([49;49;49;48;48;49], [[];[49;49;49;48;48;49];[]]);
   ([49;49;49;48;49;48;48;49;48;48;48;49;49], [[];[49;49;49;48;49;48];[];[48;49;48;48;48;49];[49]]);
   ([49;49;49;49;48;50;48;48], [[49;49;49;49;48;50;48;48]]);
   ([49;49;49;49;49;48;49;48;48;48;49;48;48;48;48;49;48;49;49;48;49], [[];[49;49;49;49;49;48];[];[49;48;48;48;49;48];[];[48;48;48;49;48;49];[49;48;49]]);
   ([49;49;49;49;97;49;49;48;48;48;48;49;49;49;49;48], [[49;49;49;49;97];[49;49;48;48;48;48];[49;49;49;49;48]]);
   ([50], [[50]]);
   ([50;48;48;48;49;49;49], [[50];[48;48;48;49;49;49];[]]);
   ([50;48;49], [[50;48;49]]);
   ([97;48;49], [[97;48;49]]);
   ([97;49;48;49;49;48;49;49;49;49;49;48;49;49;48;49], [[97];[49;48;49;49;48;49];[];[49;49;49;49;48;49];[49;48;49]])].
Example split_bits6_ok : forallb (fun c => strs_eqb (re_split_cap (m_bits 6) (fst c)) (snd c)) split_bits6_cases = true.
Proof. vm_compute. reflexivity. Qed.

Definition split_bits8_cases : list (str * list str) :=
  [([], [[]]);
   ([10], [[10]]);
   ([48], [[48]]);
   ([48;48;48;48;48;48;49;49;48;49;48;48;48], [[];[48;48;48;48;48;48;49;49];[48;49;48;48;48]]);
   ([48;48;48;48;49;48;49;48;49;49;48;48;49], [[];[48;48;48;48;49;48;49;48];[49;49;48;48;49]]);
   ([48;48;48;49;48;49;48;48;48;48;48;49;49;49;49;48], [[];[48;48;48;49;48;49;48;48];[];[48;48;48;49;49;49;49;48];[]]);
   ([48;48;48;49;48;49;48;48;49;48;49;48;48;49], [[];[48;48;48;49;48;49;48;48];[49;48;49;48;48;49]]);
   ([48;48;48;49;48;49;49], [[48;48;48;49;48;49;49]]);
   ([48;48;48;49;49;48;48;49;49;49;10;48], [[];[48;48;48;49;49;48;48;49];[49;49;10;48]]);
   ([48;48;49;48;49;49;48;49;49;48;48;48;49;49;48;49], [[];[48;48;49;48;49;49;48;49];[];[49;48;48;48;49;49;48;49];[]]);
   ([48;48;49;49;48;48;48;48;49;97;49], [[];[48;48;49;49;48;48;48;48];[49;97;49]]);
   ([48;48;49;49;48;48;49;49;49;49;49;48;48;48;49;49;49;49;49;48;49], [[];[48;48;49;49;48;48;49;49];[];[49;49;49;48;48;48;49;49];[49;49;49;48;49]]);
   ([48;48;49;49;48;49], [[48;48;49;49;48;49]]);
   ([48;48;49;49;49;48;49], [[48;48;49;49;49;48;49]]);
   ([48;48;49;49;49;49;48;48;49;48;49], [[];[48;48;49;49;49;49;48;48];[49;48;49]]);
   ([48;49], [[48;49]]);
   ([48;49;48;10;49;48;48;48;49], [[48;49;48;10;49;48;48;48;49]]);
   ([48;49;48;48;48;48;48;48;49;49;48;48;49;49;48;49;48], [[];[48;49;48;48;48;48;48;48];[];[49;49;48;48;49;49;48;49];[48]]);
   ([48;49;48;48;48;49;49;48;49;49;48;49;49;48;48;48;48;48;48;48], [[];[48;49;48;48;48;49;49;48];[];[49;49;48;49;49;48;48;48];[48;48;48;48]]);
   ([48;49;48;48;49;48;48;50;48;49;49;48;48;49;48;48;48;49;49;49;48;48;48;49;48], [[48;49;48;48;49;48;48;50];[48;49;49;48;48;49;48;48];[];[48;49;49;49;48;48;48;49];[48]]);
   ([48;49;48;48;49;49;48;48;49;97;49;49;49;48;49;48;48;48;49;49;48], [[];[48;49;48;48;49;49;48;48];[49;97];[49;49;49;48;49;48;48;48];[49;49;48]]);
   ([48;49;48;48;49;49;48;49;48;49;49;48;49;49;49;48;49;49], [[];[48;49;48;48;49;49;48;49];[];[48;49;49;48;49;49;49;48];[49;49]]);
   ([48;49;48;48;49;49;49;49;48;49;49;49;48;49;48], [[];[48;49;48;48;49;49;49;49];[48;49;49;49;48;49;48]]);
   ([48;49;48;49;49;48], [[48;49;48;49;49;48]]);
   ([48;49;49;10;48;48], [[48;49;49;10;48;48]]);
   ([48;49;49;48;10;49;49;48;49;48;49;49;48], [[48;49;49;48;10];[49;49;48;49;48;49;49;48];[]]);
   ([48;49;49;48;48;48;49;48;48;49;48;48;48;49;48;48;49;49;49;10], [[];[48;49;49;48;48;48;49;48];[];[48;49;48;48;48;49;48;48];[49;49;49;10]]);
   ([48;49;49;48;49;48;49;49;49;49;49;48;49;48;48;49;49;49;49;48;48;48;48;48;48], [[];[48;49;49;48;49;48;49;49];[];[49;49;49;48;49;48;48;49];[];[49;49;49;48;48;48;48;48];[48]]);
   ([48;49;49;48;49;49;49;48;49;48;49;48;49;97;48;49;48;49;48;48;49;48;48;49;49;48], [[];[48;49;49;48;49;49;49;48];[49;48;49;48;49;97];[48;49;48;49;48;48;49;48];[48;49;49;48]]);
   ([48;49;49;48;49;49;50;49;49;48;49;48;49;49], [[48;49;49;48;49;49;50;49;49;48;49;48;49;49]]);
   ([48;49;49;49;48;49;49;48;48;49;49;48;49;49;48;48;48;49;48;49;48;48;48;49;49;10;49], [[];[48;49;49;49;48;49;49;48];[];[48;49;49;48;49;49;48;48];[];[48;49;48;49;48;48;48;49];[49;10;49]]);
   ([48;49;49;49;49;48;48;49;48;48;49;48;48;48], [[];[48;49;49;49;49;48;48;49];[48;48;49;48;48;48]]);
   ([48;49;49;49;49;49;49;49], [[];[48;49;49;49;49;49;49;49];[]]);
   ([48;50;48;49;48;48], [[48;50;48;49;48;48]]);
   ([48;97;48;48;49;48;48], [[48;97;48;48;49;48;48]]);
   ([49;48], [[49;48]]);
   ([49;48;48;48;48;49;48;48;48;48;48;48;48;49;49;49;48;49;48;48;49;49;49;49;49], [[];[49;48;48;48;48;49;48;48];[];[48;48;48;48;48;49;49;49];[];[48;49;48;48;49;49;49;49];[49]]);
   ([49;48;48;48;48;49;49;48;48;49;48;48], [[];[49;48;48;48;48;49;49;48];[48;49;48;48]]);
   ([49;48;48;48;48;97;49;49;48;48;48;48;49;48;48;48;48;49;49], [[49;48;48;48;48;97];[49;49;48;48;48;48;49;48];[48;48;48;49;49]]);
   ([49;48;48;49;48;48;49;49;49;49;49;48;48], [[];[49;48;48;49;48;48;49;49];[49;49;49;48;48]]);
   ([49;48;48;49;49;48;48;50;48;49], [[49;48;48;49;49;48;48;50;48;49]]);
   ([49;48;48;49;49;49;49;49;49;48;49;48;48;49;48;48;49;10;48;48;49;49;49], [[];[49;48;48;49;49;49;49;49];[];[49;48;49;48;48;49;48;48];[49;10;48;48;49;49;49]]);
   ([49;48;48;97;48;49;49;49;49;49;48;49;49], [[49;48;48;97];[48;49;49;49;49;49;48;49];[49]]);
   ([49;48;49;49;48;48;49;49;49;49;49;48;48;49;49;49;48;48;49;48;48;49;49;48;48;49;50], [[];[49;48;49;49;48;48;49;49];[];[49;49;49;48;48;49;49;49];[];[48;48;49;48;48;49;49;48];[48;49;50]]);
   ([49;48;49;49;49], [[49;48;49;49;49]]);
   ([49;48;49;50;49;48;48], [[49;48;49;50;49;48;48]]);
   ([49;49], [[49;49]]);
   ([49;49;10;48;48;49;49;49;49;49;48;49;49;48;48], [[49;49;10];[48;48;49;49;49;49;49;48];[49;49;48;48]]);
   ([49;49;10;49;49;49;48;49;48;49;48;48;48;48;48;49;49;49;48;48;49;49], [[49;49;10];[49;49;49;48;49;48;49;48];[];[48;48;48;48;49;49;49;48];[48;49;49]]);
   ([49;49;48;48;49;48;49;48;48;49;48;49;48;48;97;48;49;48;49], [[];[49;49;48;48;49;48;49;48];[48;49;48;49;48;48;97;48;49;48;49]]);
   ([49;49;48;48;49;49;48;49;49;49;48], [[];[49;49;48;48;49;49;48;49];[49;49;48]]);
   ([49;49;48;49;48;49;48;48;97;48;49;49;48;48;49;48;48;49;48;48;49;49;49], [[];[49;49;48;49;48;49;48;48];[97];[48;49;49;48;48;49;48;48];[49;48;48;49;49;49]]);
   ([49;49;48;49;48;49;48;49;49;49;48;48;49;49;48;49;49], [[];[49;49;48;49;48;49;48;49];[];[49;49;48;48;49;49;48;49];[49]]);
   ([49;49;48;49;49;48;49;49;49;49;48;50;49;49], [[];[49;49;48;49;49;48;49;49];[49;49;48;50;49;49]]);
   ([49;49;48;49;49;49;48;49;48;48;49;49;48;48;48;48;49;49;49;48;48], [[];[49;49;48;49;49;49;48;49];[];[48;48;49;49;48;48;48;48];[49;49;49;48;48]]);
   ([49;49;49;48;48;48;48;49;48;48;49;49;49;49;48], [[];[49;49;49;48;48;48;48;49];[48;48;49;49;49;49;48]]);
   ([49;49;49;48;48;48;97;49;48;48;48;48;49;48;48;48;48;49;49;48;49], [[49;49;49;48;48;48;97];[49;48;48;48;48;49;48;48];[48;48;49;49;48;49]]);
   ([49;49;49;48;48;49;97;49;49;49], [[49;49;49;48;48;49;97;49;49;49]]);
   ([49;49;49;48;49;49;48;48;49;49;48;48;49;48], [[];[49;49;49;48;49;49;48;48];[49;49;48;48;49;48]]);
   ([97;49], [[97;49]])].
Example split_bits8_ok : forallb (fun c => strs_eqb (re_split_cap (m_bits 8) (fst c)) (snd c)) split_bits8_cases = true.
Proof. vm_compute. reflexivity. Qed.

Definition split_dd_cases : list (str * list str) :=
  [([], [[]]);
   ([37;37;48;50;57;97;102;97;48], [[37];[37;48;50];[57;97;102;97;48]]);
   ([37;50;37;98;57;50;102;102;50;48;1635;50;102;102;48;97;1635;1635;48], [[37;50;37;98;57;50;102;102;50;48;1635;50;102;102;48;97;1635;1635;48]]);
   ([37;50;97;48;37;57;48;50;37;37;1635;98;50;98;97;48;102;37;97;50;50;48;102;102], [[37;50;97;48];[37;57;48];[50;37;37;1635;98;50;98;97;48;102;37;97;50;50;48;102;102]]);
   ([37;50;102;102;50;102;102;57;48;97], [[37;50;102;102;50;102;102;57;48;97]]);
   ([37;57;102;37], [[37;57;102;37]]);
   ([37;98;50;50;50;1635;1635;57;57;50;37;37;1635;98], [[37;98;50;50;50;1635;1635;57;57;50;37;37;1635;98]]);
   ([37;102;98;1635;48;98], [[37;102;98;1635;48;98]]);
   ([48;48;37;1635;50;98;98], [[48;48];[37;1635;50];[98;98]]);
   ([48;48;48;48;102;37;37;37;48], [[48;48;48;48;102;37;37;37;48]]);
   ([48;48;57;57;57;48;97], [[48;48;57;57;57;48;97]]);
   ([48;97;37;1635;50;37;50;57;102;1635], [[48;97];[37;1635;50];[];[37;50;57];[102;1635]]);
   ([48;97;102;97;50;98;37;102;50;97;57;1635;1635;37], [[48;97;102;97;50;98;37;102;50;97;57;1635;1635;37]]);
   ([48;98], [[48;98]]);
   ([48;102;37;98;50;50;1635;1635;57;102;98;97;57], [[48;102;37;98;50;50;1635;1635;57;102;98;97;57]]);
   ([48;1635;50], [[48;1635;50]]);
   ([48;1635;102;50;102;102;50;37;97;37;97;97;57;50;1635;48;98;50;57;102;102;97;57], [[48;1635;102;50;102;102;50;37;97;37;97;97;57;50;1635;48;98;50;57;102;102;97;57]]);
   ([50;57;37;97;102;97;37;1635;50;50;50;50;37;48;97], [[50;57;37;97;102;97];[37;1635;50];[50;50;50;37;48;97]]);
   ([50;57;1635;50;97], [[50;57;1635;50;97]]);
   ([50;97;37], [[50;97;37]]);
   ([50;97;97;98], [[50;97;97;98]]);
   ([50;98;98;1635;37;102;1635;48;48;50;50;48;1635;1635;48;37;50;50;50;37;50], [[50;98;98;1635;37;102;1635;48;48;50;50;48;1635;1635;48];[37;50;50];[50;37;50]]);
   ([50;98;1635;57;48;1635;37;37], [[50;98;1635;57;48;1635;37;37]]);
   ([50;102;57], [[50;102;57]]);
   ([57;37;98;50;37;97], [[57;37;98;50;37;97]]);
   ([57;37;98;57;98;102;1635;50;98;50;50;98;37;102;1635;102;57], [[57;37;98;57;98;102;1635;50;98;50;50;98;37;102;1635;102;57]]);
   ([57;48;97;98;98;1635;102;98;37;48;98;37;98;97;98;48;102;1635;57;102;97], [[57;48;97;98;98;1635;102;98;37;48;98;37;98;97;98;48;102;1635;57;102;97]]);
   ([57;48;102;37;98;97;102;102;97;102;97;37;98;97;57;48;102;48;37;97;37;1635;48;97;97], [[57;48;102;37;98;97;102;102;97;102;97;37;98;97;57;48;102;48;37;97];[37;1635;48];[97;97]]);
   ([57;57;37;102;57;37;48;1635;37], [[57;57;37;102;57];[37;48;1635];[37]]);
   ([57;57;50;57;37;48;48;50;1635;102;37;37;50;98;102;48;48], [[57;57;50;57];[37;48;48];[50;1635;102;37;37;50;98;102;48;48]]);
   ([57;57;98;97;98;1635;37;98;57;48;57;37;1635;98;97;97;57;50], [[57;57;98;97;98;1635;37;98;57;48;57;37;1635;98;97;97;57;50]]);
   ([57;57;102;97;37;98;50;102;97;50;37;50;37;57;102;102;1635;50;102;50;37;102;48;37;48;1635], [[57;57;102;97;37;98;50;102;97;50;37;50;37;57;102;102;1635;50;102;50;37;102;48];[37;48;1635];[]]);
   ([57;97;48;102;98;37;1635;50;1635;48;50;102;37;98;57;48;97;57;48;97;48;97;48;57;37;97], [[57;97;48;102;98];[37;1635;50];[1635;48;50;102;37;98;57;48;97;57;48;97;48;97;48;57;37;97]]);
   ([57;102;37;48;97;57;37;102;98;48;102;98;102;1635;102;37;48;102;48;37;37;102;50;57;98], [[57;102;37;48;97;57;37;102;98;48;102;98;102;1635;102;37;48;102;48;37;37;102;50;57;98]]);
   ([57;1635;50;50;98;37;48;98;57;48], [[57;1635;50;50;98;37;48;98;57;48]]);
   ([57;1635;50;57;102;48;1635;97;57;37;102;98;98;57;37;50;102;48;50;102], [[57;1635;50;57;102;48;1635;97;57;37;102;98;98;57;37;50;102;48;50;102]]);
   ([97], [[97]]);
   ([97;50;57;48;50;102;102;57;97;98;97;37;1635;102], [[97;50;57;48;50;102;102;57;97;98;97;37;1635;102]]);
   ([97;57;48;1635;37;57], [[97;57;48;1635;37;57]]);
   ([97;57;1635;37;50;50;50;102;98;98;37;1635;1635;37;50;48;98;97;50;48;97;97;37;48;50;37], [[97;57;1635];[37;50;50];[50;102;98;98];[37;1635;1635];[];[37;50;48];[98;97;50;48;97;97];[37;48;50];[37]]);
   ([97;102;48;37;1635;48;102;1635;48;57;97;37;50;48;1635;97;102;102], [[97;102;48];[37;1635;48];[102;1635;48;57;97];[37;50;48];[1635;97;102;102]]);
   ([97;102;102;102;48;98;37;50;57;48;1635;57;102;102;1635;37;97;48;1635;98;98;48;57;98;98], [[97;102;102;102;48;98];[37;50;57];[48;1635;57;102;102;1635;37;97;48;1635;98;98;48;57;98;98]]);
   ([98;48;37;57;57;50;48;50;1635;97;97], [[98;48];[37;57;57];[50;48;50;1635;97;97]]);
   ([98;50;57;1635;97;50;97;97;102;57;1635;98;50;50;50;1635;48;97;50;48;1635], [[98;50;57;1635;97;50;97;97;102;57;1635;98;50;50;50;1635;48;97;50;48;1635]]);
   ([98;97;98;37;98;48;37], [[98;97;98;37;98;48;37]]);
   ([98;98;98;102;1635;97;1635;50;1635;1635;50;48;37;98;1635;102;102;48;57;98;97], [[98;98;98;102;1635;97;1635;50;1635;1635;50;48;37;98;1635;102;102;48;57;98;97]]);
   ([98;1635;37;37;97;37;97;57;97;50], [[98;1635;37;37;97;37;97;57;97;50]]);
   ([102;37;57;57;50;48;102;37;48;37;48;57;57;1635], [[102];[37;57;57];[50;48;102;37;48];[37;48;57];[57;1635]]);
   ([102;48;97;1635;102;57;57;102], [[102;48;97;1635;102;57;57;102]]);
   ([102;97;50;98;97;98;1635;97;48;1635;1635;57;48;50;57;37;50], [[102;97;50;98;97;98;1635;97;48;1635;1635;57;48;50;57;37;50]]);
   ([102;102;37;102;97], [[102;102;37;102;97]]);
   ([102;102;50;50;57;102;97;37;1635;102;102;48;57;98;1635;48;97;37;50;50;48;1635], [[102;102;50;50;57;102;97;37;1635;102;102;48;57;98;1635;48;97];[37;50;50];[48;1635]]);
   ([102;1635;1635;50;98;57], [[102;1635;1635;50;98;57]]);
   ([1635;37;48;50;102;102;57;48;37;97;48;37;1635;102;97;37;1635;37;97;48;50;50;1635;102;98;37], [[1635];[37;48;50];[102;102;57;48;37;97;48;37;1635;102;97;37;1635;37;97;48;50;50;1635;102;98;37]]);
   ([1635;50;1635;57;1635;102;98;37;98;37;1635;102;57;97;97;102;98;98;97;102;48], [[1635;50;1635;57;1635;102;98;37;98;37;1635;102;57;97;97;102;98;98;97;102;48]]);
   ([1635;98;37;57;1635;37;57;102;37;97;57;57;1635;97;97;1635;50;50;50;50], [[1635;98];[37;57;1635];[37;57;102;37;97;57;57;1635;97;97;1635;50;50;50;50]]);
   ([1635;1635;37;97;57;97;97;97;50;98;102;97;37;37;97;1635;102;1635;50;57;48;50;37], [[1635;1635;37;97;57;97;97;97;50;98;102;97;37;37;97;1635;102;1635;50;57;48;50;37]])].
Example split_dd_ok : forallb (fun c => strs_eqb (re_split_cap m_escape_dd (fst c)) (snd c)) split_dd_cases = true.
Proof. vm_compute. reflexivity. Qed.

Definition findall7_cases : list (str * list str) :=
  [([], []);
   ([48], []);
   ([48;10;49;48;48], []);
   ([48;48;48;49;48], []);
   ([48;48;48;49;48;48], []);
   ([48;48;48;49;48;49;48;48;49;48;48;49;48;49], [[48;48;48;49;48;49;48];[48;49;48;48;49;48;49]]);
   ([48;48;49;48;48;48;48;49;48;48;49;48;48;48;48;48;49;49;49;49;49;48;49;48;49;48;49;49;48], [[48;48;49;48;48;48;48];[49;48;48;49;48;48;48];[48;48;49;49;49;49;49];[48;49;48;49;48;49;49]]);
   ([48;48;49;49;48;48;49;48;48;49;48;49;48;48;49;48;49;49;49;48;48;48;48;48;48;48;48;48;49;49;48;49;48;48;48;49;48;48;49], [[48;48;49;49;48;48;49];[48;48;49;48;49;48;48];[49;48;49;49;49;48;48];[48;48;48;48;48;48;48];[49;49;48;49;48;48;48]]);
   ([48;49;10], []);
   ([48;49;10;48;49], []);
   ([48;49;10;49;49;48;49;48;48;48;48;49;49;48;48;48;49;48;48;49;48;49], [[49;49;48;49;48;48;48];[48;49;49;48;48;48;49]]);
   ([48;49;48;48], []);
   ([48;49;48;49;48;49;49;48;10;49;48;48;49], [[48;49;48;49;48;49;49]]);
   ([48;49;49;48;49], []);
   ([48;49;49;48;49;48;48;48;48;49;49;48;48], [[48;49;49;48;49;48;48]]);
   ([48;49;49;49;48;48;48;48;49;49;48;49;49], [[48;49;49;49;48;48;48]]);
   ([48;49;49;49;49;48;48;48;49;49;49;49;49;48;49;49;49;49;49;49], [[48;49;49;49;49;48;48];[48;49;49;49;49;49;48]]);
   ([49;10;48], []);
   ([49;48], []);
   ([49;48;10;48], []);
   ([49;48;48;48;48;48;49;49;48;48;49;49;49;49;49;48;48;48;49;48;48;48;48;49], [[49;48;48;48;48;48;49];[49;48;48;49;49;49;49];[49;48;48;48;49;48;48]]);
   ([49;48;48;48;49;48;48;49;49;48], [[49;48;48;48;49;48;48]]);
   ([49;48;48;48;49;49;49;49;49;48;48;48;49;49;48;49;48;49;49;49;48;49;48;48;48;48;49;48;48;49;48;10;49], [[49;48;48;48;49;49;49];[49;49;48;48;48;49;49];[48;49;48;49;49;49;48];[49;48;48;48;48;49;48]]);
   ([49;48;48;49;48;49;48;10;48;49;48;49;48;49;49;48;49;48;49;49;49;48;49;48;49;49;48;49;48;49], [[49;48;48;49;48;49;48];[48;49;48;49;48;49;49];[48;49;48;49;49;49;48];[49;48;49;49;48;49;48]]);
   ([49;48;48;49;49;49;48;49;10;49;48;48;49;48;48;48;48;48;49;49;49;49;48;49;49;48;48;48;48;48;48;49;49;48], [[49;48;48;49;49;49;48];[49;48;48;49;48;48;48];[48;48;49;49;49;49;48];[49;49;48;48;48;48;48]]);
   ([49;48;48;49;49;49;49], [[49;48;48;49;49;49;49]]);
   ([49;48;49;10;48;48;49;48;49;48;48;48;48], [[48;48;49;48;49;48;48]]);
   ([49;48;49;48;48;48;49;48;48;49;48;48;48;48;49;49;49], [[49;48;49;48;48;48;49];[48;48;49;48;48;48;48]]);
   ([49;48;49;48;48;49;48;49;48;49;48;48;49;48;48;48;48;48;49], [[49;48;49;48;48;49;48];[49;48;49;48;48;49;48]]);
   ([49;48;49;49;48;48;48;48;49;49;49;48;49], [[49;48;49;49;48;48;48]]);
   ([49;48;49;49;48;49;49;49;48;48;48;48;48;48], [[49;48;49;49;48;49;49];[49;48;48;48;48;48;48]]);
   ([49;48;49;49;48;49;49;49;48;49;49;48;48;49;10;49;48;48;48;49;48;48;48;49;48;49;49;49;49;48;48;48;48;48;49;48;49;48;48], [[49;48;49;49;48;49;49];[49;48;49;49;48;48;49];[49;48;48;48;49;48;48];[48;49;48;49;49;49;49];[48;48;48;48;48;49;48]]);
   ([49;48;49;49;49;48;48;48;49;49;49;49;49;48;49;48;48;49;49;48;48;49;48;48;49;49;48;48;48], [[49;48;49;49;49;48;48];[48;49;49;49;49;49;48];[49;48;48;49;49;48;48];[49;48;48;49;49;48;48]]);
   ([49;48;49;49;49;49;49;49;48;49;49;10;49;48;48], [[49;48;49;49;49;49;49]]);
   ([49;49;10;48;48;48], []);
   ([49;49;48;48;49;49;48;48;10;48;49;49;48;48;48;49;49;48;49;49;48;48;49;49;48;49], [[49;49;48;48;49;49;48];[48;49;49;48;48;48;49];[49;48;49;49;48;48;49]]);
   ([49;49;49;10;49], []);
   ([49;49;49;49;48;49;48;48;48;48;48;48;48;49;49;48;49;48;49;48;48;48;48;49;49;48;48;49;48;49;48;49;48;49;48;48;49;49;49], [[49;49;49;49;48;49;48];[48;48;48;48;48;48;49];[49;48;49;48;49;48;48];[48;48;49;49;48;48;49];[48;49;48;49;48;49;48]]);
   ([49;49;49;49;48;49;48;48;49;49;48;48;10;49;49;48;48], [[49;49;49;49;48;49;48]]);
   ([49;49;49;49;49;49;49;49;49;48;49;49;48;49], [[49;49;49;49;49;49;49];[49;49;48;49;49;48;49]])].
Example findall7_ok : forallb (fun c => strs_eqb (re_findall (m_seq (repeat dotc 7)) (fst c)) (snd c)) findall7_cases = true.
Proof. vm_compute. reflexivity. Qed.

Definition split_paren2_cases : list (str * list str) :=
  [([], [[]]);
   ([10;10;49;40;52;49;52;41;40;41;41;40;56;48;49;48;41;49], [[10;10;49;40;52;49;52;41;40;41;41;40;56;48;49;48;41;49]]);
   ([10;40;10;41;50;41;40;56;48;49;48;41;40], [[10;40;10;41;50;41;40;56;48;49;48;41;40]]);
   ([10;40;48;49;41;50;41;40;48;49;41;40;52;49;52;41;40;52;49;52;41;41], [[10];[50;41];[40;52;49;52;41;40;52;49;52;41;41]]);
   ([10;41;40;40;48;49;41;41;40;40], [[10;41;40];[41;40;40]]);
   ([10;41;50;40;48;49;41;10;40], [[10;41;50];[10;40]]);
   ([40], [[40]]);
   ([40;10], [[40;10]]);
   ([40;10;49], [[40;10;49]]);
   ([40;40;40;56;48;49;48;41;40;50;50;41;10], [[40;40;40;56;48;49;48;41];[10]]);
   ([40;40;41;40;52;49;52;41;40;40;48;49;41;40;56;48;49;48;41;40;48;49;41], [[40;40;41;40;52;49;52;41;40];[40;56;48;49;48;41];[]]);
   ([40;40;52;49;52;41;41;40;56;48;49;48;41], [[40;40;52;49;52;41;41;40;56;48;49;48;41]]);
   ([40;40;56;48;49;48;41], [[40;40;56;48;49;48;41]]);
   ([40;41;41;41;40;48;49;41;40;48;49;41], [[];[];[];[]]);
   ([40;48;49;41;41;50;40;41;41;41;40;52;49;52;41], [[];[41;50];[40;52;49;52;41]]);
   ([40;48;49;41;49;40;50;10;50;49;10], [[];[49;40;50;10;50;49;10]]);
   ([40;49;40;48;49;41], [[40;49];[]]);
   ([40;49;40;48;49;41;41;40;40;48;49;41;49], [[40;49];[41;40];[49]]);
   ([40;52;49;52;41;40;50], [[40;52;49;52;41;40;50]]);
   ([40;52;49;52;41;49;40;10], [[40;52;49;52;41;49;40;10]]);
   ([40;56;48;49;48;41], [[40;56;48;49;48;41]]);
   ([40;56;48;49;48;41;41], [[40;56;48;49;48;41;41]]);
   ([40;56;48;49;48;41;41;40;48;49;41;40;10], [[40;56;48;49;48;41;41];[40;10]]);
   ([41], [[41]]);
   ([41;40;40;56;48;49;48;41;40;56;48;49;48;41;40;50;40;56;48;49;48;41], [[41;40;40;56;48;49;48;41;40;56;48;49;48;41;40;50;40;56;48;49;48;41]]);
   ([41;40;48;49;41;50;40;40;52;49;52;41], [[41];[50;40;40;52;49;52;41]]);
   ([41;40;48;49;41;50;40;56;48;49;48;41;40;52;49;52;41;40;52;49;52;41], [[41];[50;40;56;48;49;48;41;40;52;49;52;41;40;52;49;52;41]]);
   ([41;40;52;49;52;41;40], [[41;40;52;49;52;41;40]]);
   ([41;40;56;48;49;48;41;49;41;40;56;48;49;48;41;40;56;48;49;48;41;10], [[41;40;56;48;49;48;41;49;41;40;56;48;49;48;41;40;56;48;49;48;41;10]]);
   ([41;41;41;41], [[41;41;41;41]]);
   ([41;49], [[41;49]]);
   ([41;49;40;56;48;49;48;41;40], [[41;49;40;56;48;49;48;41;40]]);
   ([41;49;49;40;56;48;49;48;41], [[41;49;49;40;56;48;49;48;41]]);
   ([41;50;40;10;10;41;40;48;49;41;40;48;49;41], [[41;50;40;10;10;41];[];[]]);
   ([49;40;40;52;49;52;41;40;40;52;49;52;41;40], [[49;40;40;52;49;52;41;40;40;52;49;52;41;40]]);
   ([49;40;48;49;41], [[49];[]]);
   ([49;40;48;49;41;41;40;49;10;40;52;49;52;41;10;41], [[49];[41;40;49;10;40;52;49;52;41;10;41]]);
   ([49;41;41], [[49;41;41]]);
   ([49;49;40;48;49;41;50;40;40;10;40;48;49;41], [[49;49];[50;40;40;10];[]]);
   ([50], [[50]]);
   ([50;10;40;52;49;52;41;40;48;49;41;50], [[50;10;40;52;49;52;41];[50]]);
   ([50;10;49;40;40;48;49;41;50;40;10;41], [[50;10;49;40];[50;40;10;41]]);
   ([50;40;10;41;40;40;49;49;41], [[50;40;10;41;40];[]]);
   ([50;40;48;49;41;40;10;41], [[50];[40;10;41]]);
   ([50;40;48;49;41;40;48;49;41;41], [[50];[];[41]]);
   ([50;40;52;49;52;41;40;56;48;49;48;41], [[50;40;52;49;52;41;40;56;48;49;48;41]]);
   ([50;40;56;48;49;48;41;40;41;40;56;48;49;48;41;10], [[50;40;56;48;49;48;41;40;41;40;56;48;49;48;41;10]]);
   ([50;49;10;49;40;48;49;41;40], [[50;49;10;49];[40]])].
Example split_paren2_ok : forallb (fun c => strs_eqb (re_split m_paren2 (fst c)) (snd c)) split_paren2_cases = true.
Proof. vm_compute. reflexivity. Qed.

Definition split_paren3_cases : list (str * list str) :=
  [([], [[]]);
   ([10], [[10]]);
   ([10;10;49;49;49;40;40;56;48;49;48;41], [[10;10;49;49;49;40;40;56;48;49;48;41]]);
   ([10;40;52;49;52;41;40;40;40;56;48;49;48;41;50;40;52;49;52;41;40;52;49;52;41;41], [[10];[40;40;40;56;48;49;48;41;50];[];[41]]);
   ([10;41;41;40;10], [[10;41;41;40;10]]);
   ([40], [[40]]);
   ([40;40;40;50;50;41;40;52;49;52;41;41;40;56;48;49;48;41], [[40];[];[41;40;56;48;49;48;41]]);
   ([40;40;40;56;48;49;48;41], [[40;40;40;56;48;49;48;41]]);
   ([40;40;52;49;52;41], [[40];[]]);
   ([40;40;52;49;52;41;10;49;49;40;40;56;48;49;48;41;40;56;48;49;48;41], [[40];[10;49;49;40;40;56;48;49;48;41;40;56;48;49;48;41]]);
   ([40;40;52;49;52;41;40;10;40;40;48;49;41;40], [[40];[40;10];[40]]);
   ([40;40;52;49;52;41;49;41;40;56;48;49;48;41;41], [[40];[49;41;40;56;48;49;48;41;41]]);
   ([40;40;52;49;52;41;49;41;50;40;40;56;48;49;48;41], [[40];[49;41;50;40;40;56;48;49;48;41]]);
   ([40;40;56;48;49;48;41;40;49;40;49], [[40;40;56;48;49;48;41;40;49;40;49]]);
   ([40;41;40;52;49;52;41;49], [[40;41];[49]]);
   ([40;41;41;41;49], [[40;41;41;41;49]]);
   ([40;48;49;41;10;40;52;49;52;41;40], [[40;48;49;41;10];[40]]);
   ([40;48;49;41;40;10;40;56;48;49;48;41;49;40;52;49;52;41], [[40;48;49;41;40;10;40;56;48;49;48;41;49];[]]);
   ([40;48;49;41;40;48;49;41;10;50;50;41;40;48;49;41], [[40;48;49;41;40;48;49;41;10;50;50;41;40;48;49;41]]);
   ([40;48;49;41;40;48;49;41;41;50], [[40;48;49;41];[50]]);
   ([40;48;49;41;41;40;56;48;49;48;41;40;48;49;41;41;41;10;40;41], [[];[40;56;48;49;48;41];[41;10;40;41]]);
   ([40;50;40;41;40;40;48;49;41;40;56;48;49;48;41;41;40;52;49;52;41], [[40;50;40;41];[40;56;48;49;48;41;41];[]]);
   ([40;50;40;56;48;49;48;41;41;40;40;52;49;52;41;10], [[40;50;40;56;48;49;48;41;41;40];[10]]);
   ([40;52;49;52;41;10;49], [[];[10;49]]);
   ([40;52;49;52;41;40], [[];[40]]);
   ([40;52;49;52;41;40;50;40;48;49;41;40;52;49;52;41], [[];[40;50;40;48;49;41];[]]);
   ([40;52;49;52;41;40;50;41], [[];[40;50;41]]);
   ([40;52;49;52;41;50], [[];[50]]);
   ([40;56;48;49;48;41;40;40;56;48;49;48;41;49;40], [[40;56;48;49;48;41;40;40;56;48;49;48;41;49;40]]);
   ([40;56;48;49;48;41;40;48;49;41;40;41;49;40;56;48;49;48;41;40;41;40], [[40;56;48;49;48;41;40;48;49;41;40;41;49;40;56;48;49;48;41;40;41;40]]);
   ([40;56;48;49;48;41;41;49;41;10], [[40;56;48;49;48;41;41;49;41;10]]);
   ([40;56;48;49;48;41;49;40;48;49;41;40;56;48;49;48;41;40;48;49;41;50;10;41;49], [[40;56;48;49;48;41;49;40;48;49;41;40;56;48;49;48;41;40;48;49;41;50;10;41;49]]);
   ([41], [[41]]);
   ([41;10], [[41;10]]);
   ([41;10;40;52;49;52;41;50;40;40], [[41;10];[50;40;40]]);
   ([41;10;40;56;48;49;48;41;10;40;48;49;41], [[41;10;40;56;48;49;48;41;10;40;48;49;41]]);
   ([41;10;40;56;48;49;48;41;40], [[41;10;40;56;48;49;48;41;40]]);
   ([41;10;50;49;50;50], [[41;10;50;49;50;50]]);
   ([41;40], [[41;40]]);
   ([41;40;40;56;48;49;48;41;40;48;49;41;40;49;40;52;49;52;41;49], [[41;40;40;56;48;49;48;41;40;48;49;41;40;49];[49]]);
   ([41;40;56;48;49;48;41], [[41;40;56;48;49;48;41]]);
   ([41;49;49], [[41;49;49]]);
   ([49;10;10;40;52;49;52;41;10;40;48;49;41;40;56;48;49;48;41], [[49;10;10];[10;40;48;49;41;40;56;48;49;48;41]]);
   ([49;10;50;41;40;48;49;41;40], [[49;10;50;41;40;48;49;41;40]]);
   ([49;40;49;40;48;49;41;10;41;41;49], [[49;40;49;40;48;49;41;10;41;41;49]]);
   ([49;40;52;49;52;41;40;40;48;49;41;41;40;40;40;52;49;52;41], [[49];[];[41;40;40];[]]);
   ([49;50;41;50;41], [[49;50;41;50;41]]);
   ([50;40;56;48;49;48;41;40;52;49;52;41], [[50;40;56;48;49;48;41];[]]);
   ([50;40;56;48;49;48;41;40;56;48;49;48;41;50;50;40;48;49;41], [[50;40;56;48;49;48;41;40;56;48;49;48;41;50;50;40;48;49;41]]);
   ([50;41;10;41], [[50;41;10;41]]);
   ([50;41;40], [[50;41;40]]);
   ([50;49;40;56;48;49;48;41;50;40;50], [[50;49;40;56;48;49;48;41;50;40;50]]);
   ([50;50;49;41;40;48;49;41;40;50], [[50;50;49;41;40;48;49;41;40;50]])].
Example split_paren3_ok : forallb (fun c => strs_eqb (re_split m_paren3 (fst c)) (snd c)) split_paren3_cases = true.
Proof. vm_compute. reflexivity. Qed.

Definition split_paren4_cases : list (str * list str) :=
  [([], [[]]);
   ([10;40;49;50;49], [[10;40;49;50;49]]);
   ([40], [[40]]);
   ([40;10;40;40;41;40;56;48;49;48;41;50], [[40;10;40;40;41];[50]]);
   ([40;10;41;40], [[40;10;41;40]]);
   ([40;10;49;40;48;49;41;40], [[40;10;49;40;48;49;41;40]]);
   ([40;40], [[40;40]]);
   ([40;40;10;40;52;49;52;41;40;56;48;49;48;41;50], [[40;40;10;40;52;49;52;41];[50]]);
   ([40;40;41;40;10;40;50], [[40;40;41;40;10;40;50]]);
   ([40;40;48;49;41;40;56;48;49;48;41;49], [[40;40;48;49;41];[49]]);
   ([40;40;52;49;52;41;40;40;56;48;49;48;41;40;40], [[];[40];[40;40]]);
   ([40;40;52;49;52;41;40;48;49;41;41], [[];[40;48;49;41;41]]);
   ([40;40;56;48;49;48;41], [[40];[]]);
   ([40;40;56;48;49;48;41;40;48;49;41;10], [[40];[40;48;49;41;10]]);
   ([40;40;56;48;49;48;41;40;48;49;41;41;40;40;52;49;52;41;50], [[40];[40;48;49;41;41];[50]]);
   ([40;40;56;48;49;48;41;41;40;40;52;49;52;41;40;52;49;52;41], [[40];[41];[40;52;49;52;41]]);
   ([40;41], [[40;41]]);
   ([40;41;40;52;49;52;41;49], [[40;41;40;52;49;52;41;49]]);
   ([40;41;50;49;10;40], [[40;41;50;49;10;40]]);
   ([40;48;49;41], [[40;48;49;41]]);
   ([40;48;49;41;40;48;49;41;41;40;48;49;41;40;56;48;49;48;41;41;41], [[40;48;49;41;40;48;49;41;41;40;48;49;41];[41;41]]);
   ([40;48;49;41;40;52;49;52;41;49;49], [[40;48;49;41;40;52;49;52;41;49;49]]);
   ([40;48;49;41;40;56;48;49;48;41;40;40], [[40;48;49;41];[40;40]]);
   ([40;49], [[40;49]]);
   ([40;50;40;10], [[40;50;40;10]]);
   ([40;52;49;52;41;40;40;56;48;49;48;41;41;40;48;49;41;40;56;48;49;48;41;40;56;48;49;48;41], [[40;52;49;52;41;40];[41;40;48;49;41];[];[]]);
   ([40;52;49;52;41;40;52;49;52;41;41;41;41;49;41], [[40;52;49;52;41];[41;41;49;41]]);
   ([40;52;49;52;41;40;56;48;49;48;41;40;40;56;48;49;48;41;49;40;56;48;49;48;41;41], [[40;52;49;52;41];[40];[49];[41]]);
   ([40;56;48;49;48;41], [[];[]]);
   ([40;56;48;49;48;41;10;50;41], [[];[10;50;41]]);
   ([40;56;48;49;48;41;40;41;10;40;48;49;41;10], [[];[40;41;10;40;48;49;41;10]]);
   ([40;56;48;49;48;41;40;49], [[];[40;49]]);
   ([40;56;48;49;48;41;40;49;41;49;41;40;52;49;52;41;40;56;48;49;48;41;40;52;49;52;41], [[];[40;49;41;49;41;40;52;49;52;41];[40;52;49;52;41]]);
   ([40;56;48;49;48;41;40;56;48;49;48;41;40;52;49;52;41;40;48;49;41;49], [[];[];[40;52;49;52;41;40;48;49;41;49]]);
   ([40;56;48;49;48;41;41], [[];[41]]);
   ([40;56;48;49;48;41;41;41;41;41;41], [[];[41;41;41;41;41]]);
   ([40;56;48;49;48;41;49;40;48;49;41;49;10;41], [[];[49;40;48;49;41;49;10;41]]);
   ([41], [[41]]);
   ([41;40;40;48;49;41;40;40;41], [[41;40;40;48;49;41;40;40;41]]);
   ([41;40;52;49;52;41;40;52;49;52;41], [[41;40;52;49;52;41;40;52;49;52;41]]);
   ([41;41;40;52;49;52;41;49;50;40;52;49;52;41;10;41;49], [[41;41;40;52;49;52;41;49;50;40;52;49;52;41;10;41;49]]);
   ([41;41;41;40;52;49;52;41;41;40], [[41;41;41];[40]]);
   ([41;41;50], [[41;41;50]]);
   ([41;49;40;56;48;49;48;41;40;41;10], [[41;49];[40;41;10]]);
   ([49;40], [[49;40]]);
   ([49;40;48;49;41;49;40;48;49;41;40;48;49;41;40;52;49;52;41;41;40], [[49;40;48;49;41;49;40;48;49;41;40;48;49;41];[40]]);
   ([49;40;50], [[49;40;50]]);
   ([49;40;52;49;52;41;41;40;41;41], [[49];[40;41;41]]);
   ([49;49;40;48;49;41;49;40;41;40;48;49;41;41;40;56;48;49;48;41], [[49;49;40;48;49;41;49];[41];[]]);
   ([50;10;40;52;49;52;41;40;41;10;50;40], [[50;10;40;52;49;52;41;40;41;10;50;40]]);
   ([50;40], [[50;40]]);
   ([50;40;40;40;40;56;48;49;48;41;40;48;49;41;40;56;48;49;48;41;10], [[50;40;40;40];[40;48;49;41];[10]]);
   ([50;40;40;40;48;49;41], [[50];[]]);
   ([50;41;10], [[50;41;10]]);
   ([50;41;49;40;41;41;10], [[50;41;49;40;41;41;10]])].
Example split_paren4_ok : forallb (fun c => strs_eqb (re_split m_paren4 (fst c)) (snd c)) split_paren4_cases = true.
Proof. vm_compute. reflexivity. Qed.

Definition split_zeros6_cases : list (str * list str) :=
  [([], [[]]);
   ([48], [[48]]);
   ([48;48;48], [[48;48;48]]);
   ([48;48;48;48], [[48;48;48;48]]);
   ([48;48;48;48;48;48], [[];[48;48;48;48;48;48];[]]);
   ([48;48;48;48;48;48;48], [[];[48;48;48;48;48;48];[48]]);
   ([48;48;48;48;48;48;48;48], [[];[48;48;48;48;48;48];[48;48]]);
   ([48;48;48;48;48;48;48;48;48], [[];[48;48;48;48;48;48];[48;48;48]]);
   ([48;48;48;48;48;48;48;48;48;48;48], [[];[48;48;48;48;48;48];[48;48;48;48;48]]);
   ([48;48;48;48;48;48;48;48;48;48;48;48;48;48], [[];[48;48;48;48;48;48];[];[48;48;48;48;48;48];[48;48]]);
   ([48;48;48;48;48;48;48;48;48;48;48;48;48;48;48;48;48;48], [[];[48;48;48;48;48;48];[];[48;48;48;48;48;48];[];[48;48;48;48;48;48];[]]);
   ([48;48;48;48;48;48;48;48;48;48;48;48;48;48;48;48;48;48;48;48], [[];[48;48;48;48;48;48];[];[48;48;48;48;48;48];[];[48;48;48;48;48;48];[48;48]]);
   ([48;48;48;48;48;48;48;48;48;48;48;48;48;48;48;48;48;48;48;48;48;48;48;48;48;49;48;48], [[];[48;48;48;48;48;48];[];[48;48;48;48;48;48];[];[48;48;48;48;48;48];[];[48;48;48;48;48;48];[48;49;48;48]]);
   ([48;48;48;48;48;48;48;48;48;48;48;48;48;48;48;48;48;48;48;48;48;49;48;48], [[];[48;48;48;48;48;48];[];[48;48;48;48;48;48];[];[48;48;48;48;48;48];[48;48;48;49;48;48]]);
   ([48;48;48;48;48;48;48;48;48;48;48;48;48;49;48;48;48;48;48], [[];[48;48;48;48;48;48];[];[48;48;48;48;48;48];[48;49;48;48;48;48;48]]);
   ([48;48;48;48;48;48;48;48;48;48;48;48;49;48], [[];[48;48;48;48;48;48];[];[48;48;48;48;48;48];[49;48]]);
   ([48;48;48;48;48;48;48;48;48;48;48;49], [[];[48;48;48;48;48;48];[48;48;48;48;48;49]]);
   ([48;48;48;48;48;48;48;48;48;48;48;49;48], [[];[48;48;48;48;48;48];[48;48;48;48;48;49;48]]);
   ([48;48;48;48;48;48;48;49;48;48;48;48;48;48;48;48;48;48;48;48;48;48], [[];[48;48;48;48;48;48];[48;49];[48;48;48;48;48;48];[];[48;48;48;48;48;48];[48;48]]);
   ([48;48;48;48;48;48;49;48;49;48;48;48;48;48;48;48;48], [[];[48;48;48;48;48;48];[49;48;49];[48;48;48;48;48;48];[48;48]]);
   ([48;48;48;48;48;48;49;49;48;48;48;48], [[];[48;48;48;48;48;48];[49;49;48;48;48;48]]);
   ([48;48;48;48;48;49], [[48;48;48;48;48;49]]);
   ([48;48;48;48;49;48;48;48;48;48;48;48;48;48;48;48;48;48;48;48], [[48;48;48;48;49];[48;48;48;48;48;48];[];[48;48;48;48;48;48];[48;48;48]]);
   ([48;48;48;49;48;48;49;48;48;48;48;48;48;48;48;48;48;48;48;48;48;48;48], [[48;48;48;49;48;48;49];[48;48;48;48;48;48];[];[48;48;48;48;48;48];[48;48;48;48]]);
   ([48;48;48;49;48;49;48;48;48;48;48;48;48;48;48;48], [[48;48;48;49;48;49];[48;48;48;48;48;48];[48;48;48;48]]);
   ([48;48;49], [[48;48;49]]);
   ([48;48;49;48], [[48;48;49;48]]);
   ([48;49;48;48], [[48;49;48;48]]);
   ([48;49;48;48;48;48;48;48;48;48;48;48;48;48;48;48], [[48;49];[48;48;48;48;48;48];[];[48;48;48;48;48;48];[48;48]]);
   ([48;49;48;48;48;48;48;48;48;48;48;48;48;48;48;49;48;48;48;48;48;48;48;48;48;48;48;48], [[48;49];[48;48;48;48;48;48];[];[48;48;48;48;48;48];[48;49];[48;48;48;48;48;48];[];[48;48;48;48;48;48];[]]);
   ([48;49;49;48;48;48;48;48;48;48;48], [[48;49;49];[48;48;48;48;48;48];[48;48]]);
   ([49], [[49]]);
   ([49;48;48;48;48;48], [[49;48;48;48;48;48]]);
   ([49;48;48;48;48;48;48], [[49];[48;48;48;48;48;48];[]]);
   ([49;48;48;48;48;48;48;48;48;48;48;48;48;48;48;48;48;48], [[49];[48;48;48;48;48;48];[];[48;48;48;48;48;48];[48;48;48;48;48]]);
   ([49;48;48;48;48;48;48;48;48;48;48;48;48;48;48;48;48;48;48;48;48;48;48;48;48], [[49];[48;48;48;48;48;48];[];[48;48;48;48;48;48];[];[48;48;48;48;48;48];[];[48;48;48;48;48;48];[]]);
   ([49;48;48;48;48;48;48;48;48;48;48;48;48;48;48;48;48;48;48;48;48;48;48;48;48;49;48;48;48;48;48;48], [[49];[48;48;48;48;48;48];[];[48;48;48;48;48;48];[];[48;48;48;48;48;48];[];[48;48;48;48;48;48];[49];[48;48;48;48;48;48];[]]);
   ([49;48;48;48;48;48;48;48;48;48;48;48;48;48;48;48;48;48;48;48;48;48;49;48;48;48;48], [[49];[48;48;48;48;48;48];[];[48;48;48;48;48;48];[];[48;48;48;48;48;48];[48;48;48;49;48;48;48;48]]);
   ([49;48;48;48;48;48;48;49;49;48;48;48;49;48;48;48;48;48;48;48], [[49];[48;48;48;48;48;48];[49;49;48;48;48;49];[48;48;48;48;48;48];[48]]);
   ([49;48;48;49;48;49;48;48;48;48;48;48;48;48;48;48;48;48;48;48;48;48], [[49;48;48;49;48;49];[48;48;48;48;48;48];[];[48;48;48;48;48;48];[48;48;48;48]]);
   ([49;48;49;48;48;48;48;48;48;48;48;48;48;48;48], [[49;48;49];[48;48;48;48;48;48];[];[48;48;48;48;48;48];[]]);
   ([49;48;49;48;48;48;48;48;48;48;48;49;48;48;48;48;48;48;48;48;48;49], [[49;48;49];[48;48;48;48;48;48];[48;48;49];[48;48;48;48;48;48];[48;48;48;49]]);
   ([49;48;49;49;49], [[49;48;49;49;49]]);
   ([49;49;48;48;48;48;48;48;48], [[49;49];[48;48;48;48;48;48];[48]])].
Example split_zeros6_ok : forallb (fun c => strs_eqb (re_split_cap m_zeros6 (fst c)) (snd c)) split_zeros6_cases = true.
Proof. vm_compute. reflexivity. Qed.

Definition sub_dot_star_cases : list (str * str) :=
  [([], []);
   ([10], [10]);
   ([10;10], [10;10]);
   ([10;10;10;48;42], [10;10;10;48;42]);
   ([10;42;97], [10;42;97]);
   ([10;46;42;10], [10;46;48;10]);
   ([10;46;42;10;46], [10;46;42;10;46]);
   ([10;46;42;10;46;42;10;46;46], [10;46;42;10;46;42;10;46;46]);
   ([10;46;42;10;46;42;97], [10;46;42;10;46;42;97]);
   ([10;46;42;10;97], [10;46;42;10;97]);
   ([10;46;42;42], [10;46;42;42]);
   ([10;48;10], [10;48;10]);
   ([10;48;46;42;10], [10;48;46;48;10]);
   ([10;48;46;42;10;46;42], [10;48;46;42;10;46;48]);
   ([10;97], [10;97]);
   ([42;10;46;42;42;42], [42;10;46;42;42;42]);
   ([42;46;42], [42;46;48]);
   ([42;46;46;42;10;10;42], [42;46;46;42;10;10;42]);
   ([42;48], [42;48]);
   ([42;48;46;42;10;46], [42;48;46;42;10;46]);
   ([42;97], [42;97]);
   ([46], [46]);
   ([46;10;10;46;42], [46;10;10;46;48]);
   ([46;10;42], [46;10;42]);
   ([46;10;46;46;42;10], [46;10;46;46;48;10]);
   ([46;10;97;46;42;10;46], [46;10;97;46;42;10;46]);
   ([46;42], [46;48]);
   ([46;42;10], [46;48;10]);
   ([46;42;10;42], [46;42;10;42]);
   ([46;42;10;42;42;10;46;42;10], [46;42;10;42;42;10;46;48;10]);
   ([46;42;10;42;46;42;10;42;97], [46;42;10;42;46;42;10;42;97]);
   ([46;42;10;46;42;10;97], [46;42;10;46;42;10;97]);
   ([46;42;10;46;42;10;97;10], [46;42;10;46;42;10;97;10]);
   ([46;42;10;48;97], [46;42;10;48;97]);
   ([46;42;42], [46;42;42]);
   ([46;42;46;42;97], [46;42;46;42;97]);
   ([46;42;48;48], [46;42;48;48]);
   ([46;42;97], [46;42;97]);
   ([46;46], [46;46]);
   ([46;46;42], [46;46;48]);
   ([46;46;42;10;42;10;48], [46;46;42;10;42;10;48]);
   ([48;10;10], [48;10;10]);
   ([48;42], [48;42]);
   ([48;42;97;46;42;10], [48;42;97;46;48;10]);
   ([48;46], [48;46]);
   ([48;46;46;42;10], [48;46;46;48;10]);
   ([48;48], [48;48]);
   ([48;48;46;46;42], [48;48;46;46;48]);
   ([48;97], [48;97]);
   ([48;97;10;46;42;97], [48;97;10;46;42;97]);
   ([48;97;42;48], [48;97;42;48]);
   ([48;97;46], [48;97;46]);
   ([97], [97]);
   ([97;10;48], [97;10;48]);
   ([97;46;42;10;46;46;42;10], [97;46;42;10;46;46;48;10]);
   ([97;46;42;10;97;48;97], [97;46;42;10;97;48;97]);
   ([97;46;42;46;10], [97;46;42;46;10]);
   ([97;97], [97;97])].
Example sub_dot_star_ok : forallb (fun c => str_eqb (sub_dot_star (fst c)) (snd c)) sub_dot_star_cases = true.
Proof. vm_compute. reflexivity. Qed.

Definition adi_match_cases : list (str * bool) :=
  [([], false);
   ([10], false);
   ([10;10;10;10], false);
   ([10;48], false);
   ([10;48;48], false);
   ([10;48;48;48;48;48;48;48;50], false);
   ([10;48;48;48;48;48;48;49], false);
   ([10;48;48;48;48;48;48;49;48;48;48;48;48;49], false);
   ([10;48;49], false);
   ([10;50;10;50;50;48;48;48;48;48], false);
   ([48;10;48;48;48;48;48;48;48;10;50], false);
   ([48;10;50;49;48;50], false);
   ([48;48;48;48], false);
   ([48;48;48;48;48;48], true);
   ([48;48;48;48;48;48;10;10], true);
   ([48;48;48;48;48;48;48], true);
   ([48;48;48;48;48;48;48;10], true);
   ([48;48;48;48;48;48;48;48;48;48;48;48], true);
   ([48;48;48;48;48;48;48;48;48;48;48;48;48;48;48;48;48], true);
   ([48;48;48;48;48;48;48;48;48;48;48;48;48;48;48;48;48;48;48;48;48;48;48;49;10], true);
   ([48;48;48;48;48;48;48;48;48;48;48;48;50], true);
   ([48;48;48;48;48;48;48;48;50;49], true);
   ([48;48;48;48;48;48;49;49], true);
   ([48;48;48;48;48;48;50], true);
   ([48;48;48;48;48;48;50;48;48;48;48;48;48;48;10], true);
   ([48;48;48;48;48;50], false);
   ([48;48;48;48;48;50;48;48;48;48;10], false);
   ([48;48;48;48;49;48;48;48;48;48;48], true);
   ([48;49], false);
   ([48;50;48;48;48;48;50;10;49;49], false);
   ([49], false);
   ([49;10;10;48;48;48;48;48;48;48;48;48;48;48;10], false);
   ([49;48;48;48;48;48;48;48;48;48;48], true);
   ([49;48;48;48;48;48;48;48;48;48;48;48;48;48], true);
   ([49;48;48;48;48;48;48;48;48;48;48;48;50;50;48;48;48;48;48;48], true);
   ([49;48;48;48;48;49], false);
   ([49;49;48;48;48;48;48;48;50;48;48;48;48;49;48;48;48;48;48;48], true);
   ([49;49;48;48;48;48;48;50;48;48;48;48;48;48;48], true);
   ([49;50;48;48;48;48;48;48;48;48;48;48], true);
   ([49;50;50;48;50;10;10], false);
   ([50;10;50], false);
   ([50;48;48;48;48;48;48;48;10;10], true);
   ([50;48;48;48;48;48;48;48;48], true);
   ([50;48;48;48;48;48;48;48;48;48;48;10;48;48;48;48;48;48;10;48;48;48;48], true);
   ([50;48;48;48;48;48;48;48;48;48;48;48;49], true);
   ([50;48;48;48;48;48;49], false);
   ([50;48;49;50;48;48;48;48;48;48;10], true)].
Example adi_match_ok : forallb (fun c => Bool.eqb (rmatch adi_terminator (fst c)) (snd c)) adi_match_cases = true.
Proof. vm_compute. reflexivity. Qed.
