(** Random programs: what CPython 3.11 answered, and what the machine comes to when it reads and runs the same text.  Written by
    tools/machine_random.py.  No code of /repo was run.  These are tests, not proofs. *)
From Coq Require Import String ZArith List.
From Verif.Model Require Import Py Syntax Reader Machine Loader.
From Verif.Tests Require Import MachineCases.
Import ListNotations.
Open Scope string_scope.
Open Scope Z_scope.
Open Scope list_scope.

Definition tables : list string := ["TABLE = {""a"": 1, ""0"": 12, """": -3}"; "ROWS = {1: {""L"": ""x"", ""K"": 2}, 12: {""L"": ""y0"", ""K"": 0}}"].
Definition programs : list (list string * list (list value * outcome)) := [
  (["def f(s, n):"; "    s += s"; "    s1 = ((("""").split("":""))[len(s)]).zfill(ord((s)[:n]))"; "    if (""Z"".join([]) in [z for z in s if True]):"; "        for c in (("""" if False else s1)).split(""0""):"; "            if ((not -3) and (not -1)):"; "                s1 = ((str((1))).split("".""))[pow(10, len(c))]"; "                i2 = (n * int(str(-(27))))"; "                i2 = i2"; "            else:"; "                i1 = -(n)"; "                m2 = [str((s).upper()), ROWS[12][""L""]]"; "        l0 = (((s1).upper()).upper()).split(""a"")"; "    else:"; "        try:"; "            i1 = n"; "        except KeyError:"; "            if ((n * n) <= sum([int(x) for x in s]) < ROWS[n][""K""]):"; "                b0 = (s1 == s)"; "                i0 = n"; "                s1 = s1"; "            if ((not ""11Z:"") or (""F:aF-"" not in TABLE)):"; "                n += n"; "                m2 = [k for k, w in TABLE.items()]"; "            elif (ROWS[-0][""L""]).isnumeric():"; "                s1 = (((s1 and "".2Z""))[:] or s1)"; "        if ((s1).upper()).startswith(s):"; "            n += int(("""" and s1), 10)"; "            if (ord("":: "") in ROWS):"; "                l1 = (((s1).split(""0""))[ord(""0"")]).split("":"")"; "        elif len((""2"" if False else ""-F_"")):"; "            for c in f""{(n):<4}"":"; "                m0 = [((s)[n:])[n:], ((s if True else s) or (c and ""bF""))]"; "        else:"; "            if (n <= TABLE[""Z""] < int(str(n))):"; "                raise NotImplementedError"; "            elif ((s in []) and (""Z"" in [""b"", ""0""])):"; "                m0 = [s for z in (f""%0Z{(s1)}Fa"" or ROWS[12][""L""])]"; "                i2 = (int((s1 or ""0""), 16) + n)"; "            else:"; "                l1 = (((s1).zfill(n)).replace("":a"", (s1 + s))).split(""a"")"; "                i2 = n"; "            s2 = s"; "        for c in f"": .02{((s)[n])}1a -%"":"; "            continue"; "            i2 = (n * (ord(""b1_2b"") if (c in []) else int("" 52"")))"; "            for c in [k for k, w in TABLE.items()]:"; "                break"; "    return [s, ((""2%"".split(""a""))[19] + (s1)[:])]"],
   [([(VStr [97%N;50%N]); (VInt (3))], Raised (XExn IndexError)); ([(VStr []); (VInt (3))], Raised (XExn TypeError)); ([(VStr [58%N;98%N]); (VInt (1))], Raised (XExn IndexError))]);
  (["def f(s, n):"; "    try:"; "        i1 = (sum([int(x) for x in s]) + (sum([int(x) for x in s]) * int(str(n))))"; "    except ValueError:"; "        if ((n + n) in ROWS):"; "            if ((s + s) in TABLE.keys()):"; "                s2 = ((chr(63))[:(3 + n)]).replace(""a1"", s)"; "                i1 = n"; "            elif chr(ROWS[12][""K""]):"; "                i1 = n"; "                i1 = n"; "                i0 = len(s)"; "            else:"; "                l1 = (((s if True else "":-a"")).split("":""))[:]"; "                i2 = ord(""a"")"; "                s2 = ""-"".join(((s).split("":""))[:ord(""z"")])"; "            if ((s or """") != s):"; "                m1 = [k for k, w in TABLE.items()]"; "                b2 = ((n >= n) or ((3 * -1) < n))"; "            elif int((s + s), 8):"; "                b0 = ((len("":_Z"".split(""."")) in ROWS) or ((n <= 2 < n) and ("" Z"" == s)))"; "                l1 = (s).split("":"")"; "    try:"; "        s0 = s"; "    except ValueError:"; "        n += n"; "    try:"; "        i0 = pow(2, 8)"; "    except KeyError:"; "        if ((n % 10) != int(""+9"")):"; "            for c in ((""1b:"" or """") if (-2 <= n < (1)) else (s).lower()):"; "                continue"; "        else:"; "            i2 = (n + n)"; "    return TABLE[""a""]"],
   [([(VStr [98%N;32%N;98%N]); (VInt (-2))], Returned (VInt (1))); ([(VStr [70%N;46%N;90%N;45%N]); (VInt (5))], Returned (VInt (1))); ([(VStr [46%N;48%N;45%N]); (VInt (1))], Returned (VInt (1)))]);
  (["def f(s, n):"; "    if ((n % 10) > ((1) if True else 3)):"; "        if (int(str(n)) <= -(-0) < (n - n)):"; "            try:"; "                b0 = (int(str(ord(""ZbZb""))) >= -(TABLE[s]))"; "            except KeyError:"; "                i1 = (pow(3, 15) + int(str(pow(10, len(""%"")))))"; "                l0 = (f""{((i1 if True else n)):08b}"").split(""."")"; "            try:"; "                b1 = (s).isnumeric()"; "            except ValueError:"; "                b1 = (((-2 if False else 19) - n) in ROWS)"; "                return (s).split(""0"")"; "            l2 = ((chr(107))[:]).split(""0"")"; "        elif ((""F"").split("":""))[sum([int(x) for x in "":""])]:"; "            if (n == int(s, 10)):"; "                i1 = ROWS[ord(""z"")][""K""]"; "            s0 = (f""{(('2b.-.' or s)):<03}"")[n]"; "            try:"; "                s1 = ROWS[1][""L""]"; "            except ValueError:"; "                i1 = n"; "                m2 = []"; "        else:"; "            n += -(pow(3, len(""-"")))"; "    else:"; "        try:"; "            i0 = n"; "        except KeyError:"; "            for c in s:"; "                b1 = (c in [(c * 1) for z in (s).zfill(n)])"; "                s1 = (((c)[28]).lower() if b1 else s)"; "                raise ValueError(""x"")"; "        if (n == (n % 7)):"; "            if (n in ROWS):"; "                i0 = (int(""Z"".join([""b"", ""0""]), 16) + n)"; "    if (s in [""F2:Zb"" for z in ""a"".split(""."")]):"; "        i0 = n"; "        try:"; "            i1 = int((f""{(i0):0>5}"" or (s + ""b_F2"")), 16)"; "        except ValueError:"; "            for c in [("""")[n] for z in ("":_"").split(""."")]:"; "                s1 = (ROWS[12][""L""] or c)"; "                i1 = (i0 - int(str((n - n))))"; "            if (ord(""0"") == n):"; "                s1 = f""{(ord('a')):02X}"""; "                l0 = ((s).split(""a""))[len((""F-%2-"".split(""a""))[n:]):-(sum([int(x) for x in s1]))]"; "            b2 = (f""00{(s)}.1"").startswith(((s or s))[n:])"; "    else:"; "        if (not s):"; "            i1 = n"; "            for c in s:"; "                s0 = s"; "                n += len(c)"; "                i0 = n"; "        else:"; "            for c in ((s)[n:]).split("".""):"; "                l1 = ((""."".join("""".split("".""))).upper()).split(""a"")"; "                s0 = c"; "                continue"; "    s0 = s"; "    try:"; "        i2 = TABLE[""0""]"; "    except KeyError:"; "        s += ((""1Zb-a"".split(""a""))[:])[int(n)]"; "        if (sum([int(x) for x in s]) <= ord(""A"") < sum([int(x) for x in s0])):"; "            for c in [k for k, w in TABLE.items() if w > 0]:"; "                l2 = (((s0).zfill((1))).split("":""))[:]"; "                b1 = (((s0)[(1):] + f""{(n):<4}"")).startswith((("":a2a"".split("".""))[n] if (""12 b-"" not in [""a"", ""0""]) else s0))"; "            n += (n - len(""."".split(""."")))"; "        elif s:"; "            try:"; "                m0 = [""a""]"; "            except KeyError:"; "                n += n"; "            for c in (s).split(""a""):"; "                b0 = (n < int(c, 16))"; "                l1 = (s0).split(""0"")"; "                continue"; "            s0 += (s0)[n]"; "    return [z for z in chr(114) if ((n > n) and (False or True))]"],
   [([(VStr [46%N;98%N;46%N]); (VInt (1))], Raised (XExn ValueError)); ([(VStr [45%N;70%N;46%N;90%N]); (VInt (5))], Raised (XExn ValueError)); ([(VStr []); (VInt (12))], Raised (XExn ValueError))]);
  (["def f(s, n):"; "    for c in s:"; "        if (s).isnumeric():"; "            b0 = ((c).replace(""2-"", c)).startswith(((c).lower())[sum([int(x) for x in """"]):sum([int(x) for x in s])])"; "            if (n <= int(n) < TABLE[c]):"; "                i0 = (int(str(len(""1"".split(""."")))) + n)"; "                l1 = (((""2_."").replace(""--"", """")).split(""0""))[n:len((""% "".split("".""))[:])]"; "            else:"; "                i1 = n"; "                i2 = ROWS[(ROWS[1][""K""] % 2)][""K""]"; "        try:"; "            i0 = -((ord(c) + ord(""A"")))"; "        except ValueError:"; "            try:"; "                l2 = (c).split(""."")"; "            except ValueError:"; "                s2 = ((s + (""Z%F-"" or s)))[n]"; "                n += ((n if True else (1)) * int(s, 10))"; "            try:"; "                i1 = int(str(-(n)))"; "            except KeyError:"; "                s2 = s"; "            for c in []:"; "                i1 = (int(""84"") % 2)"; "    try:"; "        i1 = int(s, 2)"; "    except ValueError:"; "        l2 = (((s + s))[n]).split(""0"")"; "        try:"; "            s2 = s"; "        except KeyError:"; "            m0 = [k for k, w in TABLE.items() if w > 0]"; "    if (not (s not in TABLE)):"; "        for c in (s).split(""0""):"; "            s0 = f""{(n):02X}"""; "        if (s).startswith("" "".join(""Z:0_%"".split("".""))):"; "            s2 = (((s)[:]).split(""0""))[n]"; "            try:"; "                s1 = s"; "            except KeyError:"; "                b0 = (int(s) in ROWS)"; "                n += len(s)"; "                i0 = ((n - n) * (n - ord(""a"")))"; "        else:"; "            m2 = []"; "            l1 = ((f""2{(s)}Z:"").zfill(n)).split("":"")"; "        for c in ((s and s)).split("".""):"; "            for c in ((c).split(""0""))[n:n]:"; "                i0 = (ROWS[12][""K""] - int((c).zfill(11), 2))"; "                s2 = (((c + c) or s) or f""{((s and '21  :')):3}"")"; "                l0 = ((s)[n]).split(""a"")"; "            try:"; "                i0 = n"; "            except KeyError:"; "                i1 = int(-(ord(c)))"; "                l2 = ((c).split(""0""))[:]"; "            if (f""{(n):02X}"" in [k for k, w in TABLE.items()]):"; "                b2 = (""a"".join((s).split("".""))).isnumeric()"; "                continue"; "            elif (2 * str(s)):"; "                l1 = (s).split(""a"")"; "                i0 = n"; "    elif f""{(pow(3, len(s))):02X}"":"; "        s0 = chr(TABLE[s])"; "        i0 = ROWS[1][""K""]"; "        for c in f""{((s0).replace('FZ', s)):<06}"":"; "            try:"; "                m2 = [(s0).upper() for z in chr(116)]"; "            except ValueError:"; "                m0 = [s0 for z in ((""%1%%_"").split(""0""))[n:] if (not z)]"; "            if (ROWS[1][""K""] <= n < -(i0)):"; "                i2 = int(""082"")"; "            elif i0:"; "                i1 = pow(10, len(f""{(chr(119)):<06}""))"; "                i0 = n"; "                i2 = (i1 if (s in TABLE) else ROWS[12][""K""])"; "            else:"; "                i2 = TABLE[""0""]"; "            l2 = (((""_Z%%:"".split("".""))[:n])[TABLE[""0""]:n])[TABLE[""0""]:]"; "    return (c).split("":"")"],
   [([(VStr [95%N;49%N;45%N;46%N;48%N]); (VInt (3))], Raised (XExn KeyError)); ([(VStr [37%N]); (VInt (5))], Raised (XExn IndexError)); ([(VStr [50%N]); (VInt (5))], Raised (XExn KeyError))]);
  (["def f(s, n):"; "    b2 = (int(chr(111)) > (ROWS[1][""K""] - ord(""0"")))"; "    if (b2 or (s in TABLE)):"; "        if b2:"; "            for c in ((s).split(""0""))[:TABLE[""a""]]:"; "                i0 = ((n if (not b2) else ord(""A"")) + n)"; "        elif (n <= n < (n % 2)):"; "            raise NotImplementedError"; "            if (ROWS[12][""K""] <= -((1)) < len(s)):"; "                s2 = s"; "                raise ValueError(""x"")"; "                s2 = (((s * 0))[:]).zfill(sum([int(x) for x in f"":Z.{(-1)}""]))"; "            else:"; "                m2 = [((z)[:22])[:int(""a "", 10)] for z in (s).split(""0"")]"; "        if ((s)[n] in [k for k, w in TABLE.items() if w > 0]):"; "            n += TABLE[s]"; "            i0 = len(s)"; "        elif (f"":_0F{(n)} "").startswith((s)[n:]):"; "            if ((""b-F%_"" + s)).isnumeric():"; "                s1 = (s and s)"; "            else:"; "                i2 = ord(ROWS[ROWS[n][""K""]][""L""])"; "                s1 = """".join((s).split(""0""))"; "                s2 = (s).upper()"; "            for c in s:"; "                m0 = [""b"", ""0""]"; "        s1 = f""{(TABLE[s]):0>5}"""; "    else:"; "        if (((1) == n) and b2):"; "            for c in []:"; "                s1 = s"; "                n += -((n + n))"; "            if (s not in TABLE):"; "                s += chr(90)"; "                i2 = pow(3, len(s))"; "            elif b2:"; "                s2 = s"; "                m0 = [(chr(n) and (s2)[:]) for z in ((s2)[n]).split(""a"")]"; "                s0 = s2"; "            if b2:"; "                raise KeyError(""k"")"; "                m2 = [(("". "")[10:])[(n + n):] for z in (s and f""a{('.bFF_')}- 10"") if b2]"; "        elif ((s + ""Z%.0:"")).replace(""%:"", ("""")[:(1)]):"; "            for c in ((s).split("":""))[pow(10, 12):sum([int(x) for x in ""0""])]:"; "                i2 = int(c, 8)"; "                m2 = [k for k, w in TABLE.items()]"; "                c += (chr(3)).zfill((n + i2))"; "        else:"; "            for c in [""a""]:"; "                s2 = c"; "                l0 = (f""_{(ROWS[1]['K'])}b b "").split("":"")"; "                l1 = (chr(93)).split(""."")"; "            b1 = ((b2 and (""0"" in [""a""])) and b2)"; "            try:"; "                s0 = s"; "            except ValueError:"; "                s2 = s"; "    m0 = [k for k, w in TABLE.items()]"; "    s0 = s"; "    for c in (f""{(s0):>{len(s)}}"").split(""0""):"; "        try:"; "            b2 = b2"; "        except ValueError:"; "            s0 = s"; "            if (""b"".join([""a""])).isnumeric():"; "                return [k for k, w in TABLE.items()]"; "                i0 = n"; "                s1 = str(-((i0 + n)))"; "            elif (ROWS[n][""L""] or ""."".join("""".split("".""))):"; "                b2 = b2"; "                b1 = (not ((""02"" if True else ""b-b"")).startswith((""ZZ"" or """")))"; "                l0 = (f""{(('F').replace('bZ', '0Z')):<03}"").split("":"")"; "            m2 = [z for z in (ROWS[12][""L""]).split(""."") if (n == ord(s0))]"; "    return (((s + s0))[(n + n):sum([int(x) for x in s0])]).split("":"")"],
   [([(VStr []); (VInt (-2))], Raised (XExn ValueError)); ([(VStr [70%N;32%N;46%N;32%N]); (VInt (1))], Raised (XExn ValueError)); ([(VStr [46%N;46%N]); (VInt (5))], Raised (XExn ValueError))]);
  (["def f(s, n):"; "    try:"; "        s0 = chr(92)"; "    except ValueError:"; "        if ((s != s) or ((1) == n)):"; "            try:"; "                s0 = (s)[n:]"; "            except ValueError:"; "                s2 = s"; "                l2 = ((("" 2%"".split(""a""))[:])[:(0 if False else n)])[int(f""{(32):03}"", 2):]"; "                return (n > n)"; "            if (s).startswith((s)[n]):"; "                s2 = s"; "                s1 = s2"; "                n += pow(2, len(f""{(n):0{len(s)}b}""))"; "            elif ((s).replace("" 1"", s) + (s if True else "". %:"")):"; "                i0 = int(str(ROWS[1][""K""]))"; "            try:"; "                i1 = pow(3, len(((s).split("":""))[n]))"; "            except KeyError:"; "                raise ValueError(""x"")"; "                i2 = TABLE[""0""]"; "        i1 = (((n + n) + int(str(n))) * (n if (not ""F"") else pow(10, len(s))))"; "        for c in ((s)[(1)]).split("".""):"; "            for c in s:"; "                i1 += i1"; "            b0 = (ROWS[1][""L""]).isnumeric()"; "            try:"; "                s2 = f""{(i1):08b}"""; "            except ValueError:"; "                break"; "                i1 = i1"; "    if ((s).zfill(n)).isnumeric():"; "        for c in [(""_%-"").replace(""a-"", ""0"") for z in (""1%bb."").replace(""b"", s) if (not True)]:"; "            for c in (c).split("".""):"; "                b1 = (((c and c) and (""b.Z.b"" + """"))).isnumeric()"; "        try:"; "            i1 = int(((s).lower() or ("".1"" + s)), 2)"; "        except ValueError:"; "            for c in ((""._-"" * -1))[:int(n)]:"; "                i2 = int(""."".join((""aab"").split(""."")))"; "                b1 = (not ROWS[int(c, 16)][""L""])"; "            if (f""-%:Fa{(s)}"").startswith(("":a"" if True else s)):"; "                i2 = n"; "                i0 = n"; "                s2 = s"; "            elif (TABLE[s] < len(""00."")):"; "                return [str(n) for z in (s).split(""."") if (z).startswith("".2 _"")]"; "                s2 = s"; "            else:"; "                l0 = ((s + s)).split(""a"")"; "            s0 = ((("" _.b"")[:]).replace(""1 "", s))[n]"; "        if (s).startswith((s)[:]):"; "            s0 = (0 * (str(1))[:n])"; "            for c in [""a""]:"; "                m1 = []"; "                s2 = f""0-2{(-(sum([int(x) for x in '_2_'])))}1F"""; "                b0 = ((str(""F."") in TABLE.keys()) and (ord(""z"") <= (n - n) < (n % 7)))"; "            l0 = (s0).split("":"")"; "    if (f""{(n):08b}"" not in TABLE):"; "        if (f""{(20):02X}"" in [s, s]):"; "            if (len(s) <= pow(10, 3) < TABLE[""a""]):"; "                i2 = n"; "                i2 += sum([int(x) for x in (""__.1%"").zfill(n)])"; "            else:"; "                return (f""_-b0{(n)}F"").lower()"; "                b1 = (((True and False) and (n == n)) and ((""Z"" + s) not in TABLE))"; "        else:"; "            for c in ((""%aa"").replace(""%%"", ""1_ :"")).split("":""):"; "                continue"; "                b1 = ((sum([int(x) for x in s]) % 2) > int((n * (1))))"; "                b1 = ((ord(""a"") - n) <= int(""+30"") < TABLE[""0""])"; "        for c in ((s).split(""0""))[:]:"; "            for c in ((c).zfill(n) and (s and s)):"; "                b0 = (int((""%0_a:"" + "".""), 2) >= int((c).zfill(n), 16))"; "                continue"; "                m0 = [k for k, w in TABLE.items()]"; "    elif (not (s if True else s)):"; "        i1 = -((n + int(str(n))))"; "        i2 = i1"; "        for c in s:"; "            for c in c:"; "                s2 = ((s).split(""a""))[pow(10, 17)]"; "    n += n"; "    if (((1) == n) and (n <= -2 < n)):"; "        i2 = n"; "        for c in (f""{(s):>04}"").split(""0""):"; "            try:"; "                i1 = ((i2 + i2) % 2)"; "            except ValueError:"; "                i1 = n"; "                m2 = [s, str(sum([int(x) for x in s]))]"; "                m0 = m2"; "            i2 = sum([int(x) for x in f""022:{(1)}a""])"; "            try:"; "                l1 = (((""--0F"").split(""a""))[i2]).split(""a"")"; "            except ValueError:"; "                s0 = c"; "                i2 = i2"; "    elif s:"; "        i2 = -(n)"; "        if (("""" != """") or (i2 <= (1))):"; "            if ((29 < 2) and (not True)):"; "                b1 = (s in [""a"", ""0""])"; "            try:"; "                m2 = [""b"", ""0""]"; "            except ValueError:"; "                s1 = ((s if (28 == i2) else f""{(i2):x}"")).zfill(int(s, 2))"; "                m0 = [s]"; "                l2 = ((f""a{(s)}Fa-"" or (s if False else s1))).split("":"")"; "            for c in s:"; "                s2 = c"; "                l1 = ((s).replace(""a"", (s).lower())).split("":"")"; "    else:"; "        if ((not 3) or (n <= (1) < n)):"; "            if (ROWS[1][""K""] in ROWS):"; "                raise KeyError(""k"")"; "                i2 = n"; "                l0 = ((s or ""1"".join([]))).split("":"")"; "            if ((not False) or (False or True)):"; "                b1 = (f""{(n)}"" not in TABLE)"; "                m0 = [k for k, w in TABLE.items() if w > 0]"; "                raise ValueError(""x"")"; "            for c in (s).split(""0""):"; "                b2 = ((("".ba10"" if True else s)).startswith((0 * s)) and ((1 + 14) <= int(-0) < (-2 - n)))"; "    return []"],
   [([(VStr []); (VInt (5))], Returned (VList [])); ([(VStr [37%N;32%N]); (VInt (5))], Raised (XExn ValueError)); ([(VStr []); (VInt (3))], Returned (VList []))]);
  (["def f(s, n):"; "    try:"; "        i2 = ((pow(10, len(s)) if (n <= 0 < 21) else n) if (ord(s) < TABLE[""a""]) else n)"; "    except KeyError:"; "        if ((s).isnumeric() and (n <= n < -4)):"; "            try:"; "                s2 = (s)[:]"; "            except KeyError:"; "                i2 = int(""b"".join([s for z in "":b "" if True]), 10)"; "                i0 = i2"; "            b1 = (s != s)"; "            try:"; "                i0 = -(ROWS[-(n)][""K""])"; "            except ValueError:"; "                m1 = [z for z in (f""_b{(n)}0"").split(""a"")]"; "                b1 = b1"; "                n += n"; "        elif -(n):"; "            i2 = n"; "    if (not f""{('F%ba:'):<03}""):"; "        raise NotImplementedError"; "        if ((n in ROWS) or (n >= n)):"; "            if (chr(n) in [""a""]):"; "                raise ValueError(""x"")"; "            elif (not (s in TABLE.keys())):"; "                s += (str(s)).lower()"; "                s += f""-2:{(n)} """; "                m2 = [ROWS[1][""L""] for z in s if (""-"".join("":_0:"".split(""a"")) in [s for z in z])]"; "            else:"; "                l2 = (f""{(s):<06}"").split(""a"")"; "                n += n"; "                s1 = chr(n)"; "            for c in (("" F%%"")[n:-2]).replace(""b_"", (""0aF"".split("".""))[3]):"; "                m1 = [(c + (c).replace(""%:"", s)), c]"; "                n += (int(s, 8) + n)"; "            if (s not in [""a"", ""0""]):"; "                return ((s).zfill(n))[:]"; "                s0 = (s)[:]"; "                l1 = ((s0).replace(""a"", s)).split(""."")"; "            else:"; "                s += (""1"".join([""a""])).replace(""b "", s)"; "                l1 = (s).split(""a"")"; "                i2 = (ord(""0"") + int((s or s)))"; "    else:"; "        for c in ((s).split(""a""))[TABLE[""a""]:n]:"; "            if ((False or True) and (True or True)):"; "                m0 = [""a""]"; "                s1 = str((s + c))"; "                s2 = (f""0{(n)}.a0  "").replace(""2"", ((c).upper()).lower())"; "            else:"; "                i2 = TABLE[str(n)]"; "            if ((n % 2) <= TABLE[""a""] < (n % 10)):"; "                i2 = ((-(n) if (c).startswith(c) else (n if False else 2)) - (n * pow(2, len(c))))"; "                m0 = [""b"", ""0""]"; "            else:"; "                l2 = (((c)[:8])[int(str(-2))]).split("":"")"; "                raise NotImplementedError"; "        l2 = (s).split("":"")"; "    i2 = (int(""-37"") if (n > pow(2, len(s))) else n)"; "    n += (i2 - (n * n))"; "    return (f""a-_0{(s)}F.%"")[:]"],
   [([(VStr []); (VInt (5))], Raised (XExn TypeError)); ([(VStr [95%N;70%N;95%N]); (VInt (12))], Raised (XExn TypeError)); ([(VStr [46%N;49%N;90%N]); (VInt (3))], Raised (XExn TypeError))]);
  (["def f(s, n):"; "    if (not (n * -0)):"; "        s += s"; "    else:"; "        l0 = (chr(n)).split(""."")"; "        try:"; "            i0 = (len((s).split(""."")) + ord(""z""))"; "        except ValueError:"; "            n += sum([int(x) for x in (s)[:n]])"; "            if ((n if False else n) != (2 % 7)):"; "                n += (sum([int(x) for x in s]) if (False and False) else len(s))"; "        for c in [chr(n) for z in s]:"; "            for c in l0:"; "                s1 = c"; "            if (ROWS[1][""L""] != s):"; "                s0 = ((f""{(c):>{len(s)}}"" or (s).zfill(n))).zfill(n)"; "                s2 = (((c).lower())[n:pow(2, 12)])[:n]"; "            elif ((""0:1--"" and """") == (s or s)):"; "                s1 = (((c).split(""a""))[:n])[(TABLE[s] * n)]"; "                s0 = ROWS[12][""L""]"; "            else:"; "                s0 = (s)[n:((n * n) - (n if False else n))]"; "            m1 = []"; "    for c in [k for k, w in TABLE.items() if w > 0]:"; "        l2 = (((c).split(""a""))[int(str(n))]).split(""0"")"; "        m1 = [f""{(z):>{n*n}}"" for z in ((s).split(""a""))[ord(""z""):-(n)]]"; "    if ((s + ""a2"")).isnumeric():"; "        if (TABLE[""-_a2""] <= (-1 - 12) < (n * -3)):"; "            try:"; "                i2 = int(str(((n if False else n) - int(s, 16))))"; "            except ValueError:"; "                s += (s)[:]"; "        else:"; "            try:"; "                m2 = [""b"", ""0""]"; "            except ValueError:"; "                b0 = ((int(str(n)) <= n) or ((""_F 1"" in TABLE.keys()) and (False or False)))"; "                s += f""{((s)[14:]):3}"""; "                l2 = (ROWS[12][""L""]).split(""a"")"; "        for c in [k for k, w in TABLE.items()]:"; "            if ((""02:Z_"").replace("".0"", ""-1-0"") != ""a"".join([])):"; "                i2 = n"; "                b0 = (((""%Z Z"".split(""a""))[3]).isnumeric() and (ord(""a"") in ROWS))"; "                i0 = int((f""{(c):>04}"").zfill(pow(2, len(c))), 8)"; "    if (n == (n % 7)):"; "        m2 = [""2"".join([]) for z in (f""{(n):08b}"").split(""a"") if ((s).replace(""Z_"", z)).startswith(z)]"; "    elif -(TABLE[""a""]):"; "        i0 = (n + ROWS[int(s, 2)][""K""])"; "    else:"; "        l0 = (((0 * s) if ((1) <= n < 1) else s)).split("":"")"; "    if ((s or s) == ("".2F2"")[:]):"; "        l2 = ((s if (not 2) else (s).upper())).split(""."")"; "    else:"; "        try:"; "            s0 = f""Z{((sum([int(x) for x in s]) if (False or False) else (n * 25)))}22 """; "        except KeyError:"; "            for c in [(z + z) for z in (s or ""b_."")]:"; "                s2 = chr(n)"; "        for c in ((s).split(""a""))[:(n - (1))]:"; "            for c in [f""{(s)}1 :a"" for z in c]:"; "                b2 = (not ROWS[n][""L""])"; "                i0 = int(n)"; "                s2 = (((""1:"" if True else c)).upper() * 1)"; "            i0 = TABLE[""0""]"; "    return ((chr(n)).upper()).split(""a"")"],
   [([(VStr [90%N;48%N;97%N]); (VInt (0))], Raised (XExn KeyError)); ([(VStr [49%N;98%N]); (VInt (-1))], Raised (XExn ValueError)); ([(VStr []); (VInt (2))], Raised (XExn IndexError))]);
  (["def f(s, n):"; "    try:"; "        b2 = ((s + (""Fb"".split("".""))[n]) not in TABLE)"; "    except ValueError:"; "        for c in [s]:"; "            try:"; "                b0 = (not (f""{('  Z'):>04}"").startswith((c).zfill(n)))"; "            except KeyError:"; "                i2 = n"; "                l2 = (((""aZ"".split("".""))[i2] and c)).split(""a"")"; "                b1 = ((n * TABLE[""a""]) <= i2)"; "            i2 = (-(((1) - n)) % -3)"; "        if (not (""Faab"").isnumeric()):"; "            b1 = (s == ((""_:a"" if True else ""Z"")).lower())"; "            for c in [s, (s * 3)]:"; "                m2 = [(s).zfill(pow(10, 3)) for z in (s).split(""0"")]"; "                i1 = int(int("" 19""))"; "        else:"; "            b2 = (((s)[n:18]).replace(""bZ"", s) in [chr(119) for z in ("":Zb.1"".split(""a""))[n]])"; "            for c in [(""b%"".split("".""))[n] for z in (""2aa"".split(""a""))[n] if b2]:"; "                i1 = n"; "                s1 = c"; "        if (not int(n)):"; "            for c in [z for z in s if (False or False)]:"; "                raise ValueError(""x"")"; "            s0 = ((c).upper()).zfill((int(""-92"") + (n - n)))"; "            s0 = (f""{(1):<03}"" + ((s)[1])[(3 + n):])"; "        elif (n <= int(s, 10) < n):"; "            if (n >= n):"; "                return [k for k, w in TABLE.items()]"; "            else:"; "                i1 = n"; "                s0 = s"; "                b1 = ((chr((1)))[:int(""+19"")]).isnumeric()"; "            try:"; "                s1 = (((""F--0"" * 0) + f""{(n):>3}"")).zfill(n)"; "            except KeyError:"; "                l1 = ((s)[:]).split(""."")"; "            for c in [("" bZ "").replace(""a"", s), (""22a2"").lower()]:"; "                s0 = (((""Z_"" if False else """")).zfill(n)).zfill(n)"; "        else:"; "            for c in [z for z in s if (n <= n < n)]:"; "                continue"; "                s1 = s"; "    s2 = str(ord((s + s)))"; "    for c in (f"" {(s)}0:_0_"").upper():"; "        if (c in [k for k, w in TABLE.items()]):"; "            if ((n in ROWS) or (not False)):"; "                b2 = (n <= (sum([int(x) for x in ""a1%""]) if (n in ROWS) else int(s, 10)) < pow(2, 7))"; "                raise KeyError(""k"")"; "                m2 = [chr(94) for z in (2 * f""{(35):b}"")]"; "            if (s).startswith(c):"; "                l0 = (ROWS[int(s2, 2)][""L""]).split(""a"")"; "                break"; "                return (c + c)"; "            else:"; "                i0 = n"; "        else:"; "            try:"; "                l2 = (c).split("":"")"; "            except ValueError:"; "                m2 = [(z + str(z)) for z in (f"":2{(n)}F2aa"").split("":"") if ((""aZ"".split(""a""))[33]).isnumeric()]"; "                m2 = m2"; "                m0 = [((c).zfill(n)).replace(""-"", s) for z in (s * 0)]"; "    if (("""")[n:2] in TABLE):"; "        s2 = s2"; "        b0 = (s).startswith(f""{(n)}F21"")"; "    s1 = (s or (s2).zfill((n + n)))"; "    return n"],
   [([(VStr [49%N]); (VInt (-1))], Raised (XExn TypeError)); ([(VStr [37%N]); (VInt (12))], Raised (XExn IndexError)); ([(VStr [70%N]); (VInt (12))], Raised (XExn IndexError))]);
  (["def f(s, n):"; "    if (sum([int(x) for x in s]) == TABLE[""0""]):"; "        try:"; "            i0 = TABLE[((s).split("":""))[int(""F_"")]]"; "        except ValueError:"; "            if (s not in TABLE):"; "                i1 = (TABLE[(s)[(1):]] if (n <= int(""+5"") < n) else n)"; "                s0 = str(sum([int(x) for x in (""F"").zfill(i1)]))"; "            else:"; "                s2 = ((str(s)).upper())[TABLE[(s).zfill(n)]:]"; "                s2 = (((s)[:-4] and chr(66)))[:(ROWS[12][""K""] + n)]"; "            b1 = ((TABLE[""0""] + ((1) * 36)) > n)"; "            if ((1 - n) >= ROWS[12][""K""]):"; "                i0 = (ROWS[1][""K""] + (int(str(-3)) - (n * -4)))"; "                return """".join((""2ZZ%."".split(""a""))[n:(1)])"; "                s += f""2 a-_{((s)[37:9])}.-_"""; "            else:"; "                s0 = f""{((s)[TABLE['0']:]):>04}"""; "                i1 = int(""015"")"; "        if (""F"".join(""%-F"".split("".""))).startswith(s):"; "            if ((s * 3) != s):"; "                n += n"; "            elif ((s).replace(""1%"", s)).zfill(((1) if True else n)):"; "                raise NotImplementedError"; "            else:"; "                m2 = [str(n)]"; "            i0 = n"; "            if ((s not in [""a"", ""0""]) or (i0 <= n)):"; "                i1 = (n * TABLE[""a""])"; "                m2 = [s, ((s)[-3])[:]]"; "        else:"; "            if (n >= pow(3, 12)):"; "                s0 = (((""12Z.-"" and ""0F-:a"")).split(""a""))[n]"; "                return [f""{(-1):02X}"" for z in (0 * s)]"; "                m2 = [(2 * f""{('Z_-.1'):<06}"") for z in chr((n - (1))) if ((20 < n) and (n <= n < n))]"; "            else:"; "                l2 = ((s and str(n))).split(""."")"; "            n += int((s).replace(""a"", s0), 8)"; "            i2 = (n + n)"; "    else:"; "        raise KeyError(""k"")"; "    for c in [f"".FZ_{(z)}Z"" for z in (s).split(""."")]:"; "        for c in (s or ROWS[12][""L""]):"; "            if (f""{(s):3}"" in [""a"", ""0""]):"; "                c += (ROWS[1][""L""]).zfill(n)"; "                l2 = (f""_-0 _{((c)[n:])}"").split("":"")"; "                i2 = n"; "            else:"; "                m0 = ["":"".join((c).split(""0"")) for z in f""{(str(n)):>{len(s)}}"" if ((z).replace(""."", ""-"")).startswith((z).lower())]"; "            for c in ((s).upper()).split("".""):"; "                i0 = (n if ((True and True) and (s in [""a""])) else int(n))"; "                i1 = -(int(str(i0)))"; "                l1 = (c).split(""0"")"; "        b2 = (n <= n < (len("" 0a"".split(""."")) % 7))"; "    return (int(s) * (n if (not -1) else n))"],
   [([(VStr []); (VInt (2))], Raised (XExn KeyError)); ([(VStr [45%N;32%N;58%N;50%N]); (VInt (5))], Raised (XExn ValueError)); ([(VStr [32%N]); (VInt (1))], Raised (XExn ValueError))]);
  (["def f(s, n):"; "    for c in s:"; "        try:"; "            s2 = (f""Z:_a{(int('092'))}Z_"")[(n if (n == 0) else (-4 + n)):TABLE[""a""]]"; "        except KeyError:"; "            for c in ((""aF_"").split("":""))[:]:"; "                m2 = [((z).lower()).lower() for z in (f""{(n):0{n*n}b}"").split(""a"") if ((n - -4) <= n < pow(10, len(""220"")))]"; "            try:"; "                i0 = (-(pow(3, 3)) * n)"; "            except KeyError:"; "                b0 = ((int(""2..%a"") <= n < (n % -3)) and (n in ROWS))"; "                continue"; "                return (f""01{(n)}%:Z0"").split(""."")"; "        i2 = sum([int(x) for x in (("""")[n]).zfill(TABLE[""-%b%""])])"; "    s1 = (((0 * s)).upper() + (f""{(s)}1-"")[n:])"; "    m2 = [(("""".split(""a""))[21]).replace("":%"", s1) for z in ((s).zfill(n)).split(""0"") if (n in ROWS)]"; "    if ((s1).lower()).startswith((""1"")[:]):"; "        for c in (f""{(1):0>5}"").upper():"; "            for c in ((s1).split(""0""))[ROWS[1][""K""]:]:"; "                raise ValueError(""x"")"; "                s1 = ((f""{(s1):<03}"").zfill(n) + s)"; "                break"; "    else:"; "        n += (n if (s1 in m2) else -(n))"; "        if (f""{('0F'):>{3}}"" == s):"; "            for c in [s1 for z in s1 if (0 <= (1) < n)]:"; "                s1 = s1"; "                i1 = (pow(2, 8) % 10)"; "                return []"; "            try:"; "                s0 = (ROWS[pow(10, len("" -.%.""))][""L""] or f""{((s1 if False else s1)):>{n*n}}"")"; "            except ValueError:"; "                l0 = (s1).split(""."")"; "                raise KeyError(""k"")"; "                i2 = int((f""{((1))}--"" or f""{(':aaZ.'):3}""))"; "        i1 = n"; "    return s"],
   [([(VStr [49%N;45%N;37%N;70%N]); (VInt (5))], Raised (XExn IndexError)); ([(VStr [98%N]); (VInt (3))], Raised (XExn IndexError)); ([(VStr []); (VInt (0))], Returned (VStr []))]);
  (["def f(s, n):"; "    for c in ((""2a _"").split(""a""))[ord(s)]:"; "        try:"; "            i0 = (n * TABLE[""0""])"; "        except KeyError:"; "            s1 = c"; "            for c in (ROWS[1][""L""]).split("":""):"; "                s1 = (c or c)"; "                b0 = (s1 == ((""%"").split("".""))[len(s)])"; "                break"; "    try:"; "        i1 = -(int(f""{(n):02X}"", 16))"; "    except ValueError:"; "        try:"; "            b1 = (c in TABLE)"; "        except KeyError:"; "            if ((c).startswith(c) or (c in TABLE)):"; "                b2 = (((c != c) and (n in ROWS)) or (s).isnumeric())"; "                s0 = s"; "                i1 = int(s0, 16)"; "            else:"; "                s += f""a{(n)}%2"""; "                i1 = (int(ROWS[25][""K""]) % 2)"; "                s2 = ROWS[12][""L""]"; "            s1 = (s).zfill(TABLE[""0""])"; "            if (n > (n if True else n)):"; "                s0 = c"; "                l1 = (((c).zfill(n)).split("".""))[:]"; "                m2 = [c for z in ((s).split("":""))[:(n if True else (1))]]"; "            elif ((""2b1"")[n] == chr(0)):"; "                b1 = (chr(pow(10, len(s))) in [""a"", ""0""])"; "                m2 = [""."".join((s1).split(""0"")) for z in ((""1:.-2"").lower()).lower()]"; "            else:"; "                b1 = (s1 in [(z).upper() for z in s1 if (n == n)])"; "                n += -(n)"; "        return s"; "    try:"; "        s0 = (s or ((""bF"".split("".""))[-1]).replace(""F0"", (c).zfill(n)))"; "    except KeyError:"; "        if (TABLE[""0""] in ROWS):"; "            for c in (c)[sum([int(x) for x in c]):n]:"; "                b1 = (len((s).split(""0"")) <= n < (int(c, 10) - (n if True else n)))"; "                return ((c).replace(""a"", c) not in TABLE.keys())"; "                l1 = (f""Z-F2{(n)}:22F-"").split(""."")"; "            l1 = (f""{((c).replace('..', s)):3}"").split(""0"")"; "        l1 = ((("".b1b"")[18:])[:]).split(""."")"; "        if ((s + c)).startswith((s).lower()):"; "            i1 = pow(10, 12)"; "            m2 = [k for k, w in TABLE.items() if w > 0]"; "            if (not ROWS[1][""L""]):"; "                s1 = s"; "            else:"; "                m0 = [(c).upper() for z in ((""b"").split("":""))[(1 % 7):] if (len("""") <= n < n)]"; "    try:"; "        m0 = []"; "    except KeyError:"; "        try:"; "            m1 = [f""b22 _{(n)}-"" for z in f""{(ROWS[1]['K']):b}"" if (n <= n < int(str(n)))]"; "        except ValueError:"; "            s2 = c"; "            for c in [f""% :{(n)}"" for z in (""0a_b-"").split(""a"")]:"; "                m1 = [s for z in ((s2).zfill(n)).split("":"") if (s not in TABLE)]"; "                l0 = (chr(114)).split(""a"")"; "                i1 = (sum([int(x) for x in ""_"".join(l0)]) % 2)"; "            l1 = (f""{(str(-4))}_Z%"").split("":"")"; "        if ((n - n) <= sum([int(x) for x in s]) < (-1 % 7)):"; "            if (f"":0{('Z')}- 0 b"" != (""0"").zfill(n)):"; "                i0 = (n + ROWS[n][""K""])"; "                s0 = (f""{(n):03}"")[TABLE[""a""]]"; "            elif (pow(3, len(""b"")) in ROWS):"; "                s2 = (chr(66) + c)"; "            try:"; "                m1 = [f""{(1):>{len(s)}}"" for z in ((c)[:]).split("":"")]"; "            except KeyError:"; "                raise ValueError(""x"")"; "    return (s).split(""0"")"],
   [([(VStr [90%N;58%N;70%N;90%N;90%N]); (VInt (0))], Raised (XExn TypeError)); ([(VStr [58%N;98%N;49%N;95%N]); (VInt (-2))], Raised (XExn TypeError)); ([(VStr [58%N;49%N;32%N]); (VInt (3))], Raised (XExn TypeError))]);
  (["def f(s, n):"; "    if ((""b0"").zfill(n) != f""{(n):>3}""):"; "        for c in (s).split(""a""):"; "            if ((not n) or (c in TABLE)):"; "                s1 = c"; "                m1 = [z for z in (f""2:aZ{(s1)}%_"" if ("""" in [""a"", ""0""]) else """".join("":_Z"".split(""a""))) if ((z).replace(""Z-"", c) in TABLE.keys())]"; "                n += int(str(int(n)))"; "            else:"; "                i0 = int(""068"")"; "                return (c and (s if False else s))"; "                s1 = ""0"".join([k for k, w in TABLE.items()])"; "            i0 = n"; "            if (s).startswith((""a:b%"" and c)):"; "                s1 = (c + (s).upper())"; "                i2 = ord(ROWS[(-2 - n)][""L""])"; "                return int(ROWS[12][""L""], 8)"; "        try:"; "            i1 = (n * ord((s + """")))"; "        except KeyError:"; "            for c in ((""b_:b0"")[:]).split("".""):"; "                s1 = s"; "                m1 = [c for z in s if ((False or True) or (z in [""a""]))]"; "        b0 = ((n in ROWS) and ((""F"").isnumeric() and (2 != n)))"; "    else:"; "        try:"; "            m2 = [f""{(int(z, 8)):<4}"" for z in ((""_b-"".split("".""))[n]).zfill(n) if (int(z, 10) < (n + n))]"; "        except ValueError:"; "            i1 = (TABLE[""0""] % 10)"; "            try:"; "                i2 = (i1 * ((i1 % 7) - (i1 - -4)))"; "            except ValueError:"; "                raise ValueError(""x"")"; "                raise NotImplementedError"; "                i2 = int("" 74"")"; "        s0 = ((""1"".join("""".split(""a"")) if (s in TABLE) else (s + s)))[n]"; "        s1 = (f""b-{(s0)}"").lower()"; "    s += s"; "    s2 = (f""Z{(s)}2_"")[n]"; "    if (""1"".join(""1F-0:"".split(""a"")) in [z for z in ""Fb"".split(""a"")]):"; "        try:"; "            l1 = (s).split("":"")"; "        except KeyError:"; "            if (s == ROWS[12][""L""]):"; "                s1 = chr((ROWS[12][""K""] % 7))"; "                s2 += ((s1).zfill(n)).replace(""-:"", (s2).lower())"; "                i0 = (n - int(""075""))"; "            elif ((s2 and ""Z2"")).startswith((""."" or s)):"; "                s1 = f""{(1)}2-_"""; "                m0 = [(str(n)).lower(), chr(72)]"; "                m0 = [s for z in (s1).split("":"")]"; "            else:"; "                i2 = (int(str(n)) - n)"; "            for c in f""{(n):03}"":"; "                m2 = [""a""]"; "                l0 = (s).split(""0"")"; "                return [""a""]"; "        if (s in [s2, s2]):"; "            if (not str(""F2"")):"; "                m0 = [k for k, w in TABLE.items()]"; "            else:"; "                s1 = (((s2 if False else ""2."") or (s if False else "" :b""))).zfill(n)"; "        elif (f""b_2-{(s)}"" in [""a""]):"; "            raise KeyError(""k"")"; "            m0 = [(("""")[3])[:] for z in (s).split(""0"")]"; "            if (int(""1"", 10) <= (n if True else 3) < int(str(n))):"; "                s0 = s2"; "                s1 = chr(TABLE[s2])"; "            else:"; "                i1 = sum([int(x) for x in ((""-"".split(""a""))[n] * 2)])"; "                s += s2"; "                s0 = s"; "        else:"; "            i2 = n"; "            if ((s + ""b1:."")).startswith(s):"; "                i2 += (i2 if (i2 in ROWS) else i2)"; "            else:"; "                return (f""a-.{(s)}%.F "").split(""0"")"; "            l0 = ((f""{(4):08b}"" if (i2 == n) else str(3))).split(""."")"; "        if (ord(""z"") > ROWS[1][""K""]):"; "            if (("""" if False else "".2"")).isnumeric():"; "                s0 = s"; "            if ((s).isnumeric() or ("""" == s)):"; "                l0 = (s).split(""."")"; "                return ((False or True) and (n >= n))"; "                s0 += (("""" and ""-:2F%"") + f""{(n):08b}"")"; "            elif s:"; "                n += int(n)"; "                m0 = [(f""bFZ{(z)}ZaF"").lower() for z in chr((n % 2)) if (f""b{(n)}F -0Z"").startswith((z * -1))]"; "                raise NotImplementedError"; "            try:"; "                s0 = s2"; "            except KeyError:"; "                s0 = s"; "                i0 = n"; "                b2 = (i0 <= (ord(""12 b"") % 10) < (sum([int(x) for x in s2]) - sum([int(x) for x in s0])))"; "        else:"; "            l1 = (((s + s2) + s2)).split(""a"")"; "    elif ROWS[(n + n)][""L""]:"; "        if ((s * 3) not in [""a"", ""0""]):"; "            i1 = int((s2).zfill(pow(10, len(""Z_-b:""))))"; "            s += s2"; "            b0 = (not ((i1 - i1) <= i1))"; "        elif ("" "".join(""Z:2"".split(""a"")) in [s for z in ""a"" if False]):"; "            s1 = f"".{((-(n) if (n <= n < n) else n))}a1%22"""; "        l2 = (ROWS[12][""L""]).split("":"")"; "        s += (s2)[int(s):]"; "    return ((s).split("".""))[:]"],
   [([(VStr []); (VInt (1))], Raised (XExn KeyError)); ([(VStr []); (VInt (5))], Raised (XExn KeyError)); ([(VStr [37%N;95%N;49%N]); (VInt (1))], Returned (VStr [37%N;95%N;49%N]))]);
  (["def f(s, n):"; "    s1 = f"".{(s)}a"""; "    try:"; "        s0 = s"; "    except ValueError:"; "        s1 = s1"; "    if ((s).zfill(0)).isnumeric():"; "        m2 = [k for k, w in TABLE.items()]"; "        if (s1 in TABLE.keys()):"; "            try:"; "                b2 = (not (s * 2))"; "            except ValueError:"; "                i2 = ord(s1)"; "                l0 = (s1).split("":"")"; "                i0 = n"; "    else:"; "        try:"; "            l2 = ((s1)[:]).split("":"")"; "        except ValueError:"; "            for c in (("""" * 0)).split(""a""):"; "                i2 = int(("""".join([]) if (c != ""bZ"") else (s1)[n:n]))"; "                b1 = (((s != """") and (-1 in ROWS)) or (ROWS[1][""K""] <= ord(""ZF-a."") < int(c, 2)))"; "                l2 = (((""aaa12"")[n]).upper()).split(""0"")"; "            s0 = s"; "        if (len(s1) <= n < (-4 % 10)):"; "            if (n in ROWS):"; "                s += s1"; "                i1 = n"; "                b0 = (s).isnumeric()"; "            s0 = (s1).upper()"; "            if ((31 > n) or (not False)):"; "                m1 = [k for k, w in TABLE.items() if w > 0]"; "                return []"; "            else:"; "                i1 = n"; "                i2 = n"; "                s0 = ((s1)[sum([int(x) for x in s]):]).zfill(i2)"; "        else:"; "            l1 = ((""a"".join(""%aa :"".split("".""))).zfill((n - (1)))).split(""0"")"; "            if (n in ROWS):"; "                i2 = n"; "                i1 = len(((s1).lower())[(i2 * i2)])"; "                b2 = ((-(n) * len(l1)) < int(i1))"; "            else:"; "                s2 = chr(ROWS[len(s1)][""K""])"; "                i0 = (n % 7)"; "        b2 = (int((s1)[:n], 2) <= int(ROWS[12][""L""], 2))"; "    if (str(s)).startswith(s1):"; "        l1 = (f""{((s)[n]):>{3}}"").split(""0"")"; "        for c in [""a""]:"; "            for c in ((""Z.b_ "" if True else ""2__.1"")).split(""0""):"; "                i0 = int(TABLE[""a""])"; "            i1 = n"; "            b0 = ((i1 % 7) < ((i1 + i1) + n))"; "        if (n in ROWS):"; "            b0 = (not ((n <= n) or (""1%_1"" == s)))"; "            try:"; "                s1 = (f""_% :2{(sum([int(x) for x in 'F_']))}--a"" + s)"; "            except ValueError:"; "                n += int(n)"; "            if ((3 if b0 else 2) >= (n - n)):"; "                i2 = ord(str(("""").upper()))"; "                m1 = [""a""]"; "            elif b0:"; "                s1 = (s1).zfill(n)"; "                s1 += s"; "        else:"; "            if (not (s1)[2]):"; "                b1 = ((f""{((1)):>3}"")[n:n] not in TABLE)"; "            else:"; "                m2 = [k for k, w in TABLE.items()]"; "                n += n"; "    else:"; "        i1 = (int(s1) + n)"; "        i1 += n"; "    return ((s).split(""a""))[(n if ("".1"" == ""_--"") else n):]"],
   [([(VStr [32%N;98%N;48%N;90%N]); (VInt (2))], Raised (XExn KeyError)); ([(VStr [58%N;97%N;90%N;49%N;32%N]); (VInt (5))], Raised (XExn KeyError)); ([(VStr [50%N;97%N;58%N;49%N;37%N]); (VInt (1))], Raised (XExn ValueError))]);
  (["def f(s, n):"; "    i2 = TABLE[""a""]"; "    for c in (s).split(""0""):"; "        l1 = (ROWS[1][""L""]).split(""."")"; "    return f""01{(n)}bZ- """],
   [([(VStr [90%N;58%N]); (VInt (2))], Returned (VStr [48%N;49%N;50%N;98%N;90%N;45%N;32%N])); ([(VStr [46%N]); (VInt (12))], Returned (VStr [48%N;49%N;49%N;50%N;98%N;90%N;45%N;32%N])); ([(VStr [37%N]); (VInt (-2))], Returned (VStr [48%N;49%N;45%N;50%N;98%N;90%N;45%N;32%N]))]);
  (["def f(s, n):"; "    for c in [f""{(n):x}"" for z in (""a% ."").split(""a"") if (z in [])]:"; "        if ((True or True) or (n != n)):"; "            m0 = [c for z in "":"".join((""ba02"".split(""a""))[:n])]"; "            for c in ((c).upper()).split("":""):"; "                i0 = -(n)"; "                c += f""{(int(s)):08b}"""; "                l1 = ((f""__a1{(-4)}_"")[len(""a_2"".split(""a""))]).split("":"")"; "            s0 = c"; "    l0 = (s).split(""."")"; "    return n"; "    return ((s)[:]).split(""a"")"],
   [([(VStr []); (VInt (2))], Returned (VInt (2))); ([(VStr []); (VInt (-1))], Returned (VInt (-1))); ([(VStr []); (VInt (1))], Returned (VInt (1)))]);
  (["def f(s, n):"; "    if (ROWS[12][""L""] in [z for z in s if True]):"; "        s += s"; "        if (len(s) <= n < n):"; "            try:"; "                i0 = len(((s or s)).split(""a""))"; "            except KeyError:"; "                s1 = ROWS[1][""L""]"; "                i2 = n"; "                i2 += ord(""A"")"; "        elif (f""{(23)}%"").startswith(s):"; "            try:"; "                l2 = (((""%.b"".split("".""))[n] + s)).split(""0"")"; "            except ValueError:"; "                l0 = (s).split(""."")"; "                s += s"; "            s2 = (f""{((s).replace('a1', s)):<03}"").lower()"; "            if (int(str(n)) <= ord(s2)):"; "                m0 = [((""1%"")[:n])[(n % 7):], s2]"; "                m0 = m0"; "                l1 = (f""{(pow(2, len(s2))):03}"").split("":"")"; "            else:"; "                l1 = ((f""{(n):>3}"" + (s2).lower())).split(""0"")"; "                b0 = (s == (f""F.a-{('a:%')}:"").zfill(int(""019"")))"; "                i0 = (pow(2, 4) - int(str(ord(""z""))))"; "        else:"; "            for c in []:"; "                l2 = (s).split(""a"")"; "            try:"; "                s1 = ROWS[n][""L""]"; "            except ValueError:"; "                m0 = [s for z in ((s + ""aFFa"")).split(""0"") if ((c).zfill(-2)).isnumeric()]"; "            c += ROWS[12][""L""]"; "    else:"; "        for c in str((n + n)):"; "            if (s).isnumeric():"; "                break"; "                return ((s or s) not in TABLE)"; "                i1 = (((n - n) * n) % 10)"; "            else:"; "                b0 = (n == n)"; "            return ((""0a%1"" or c) in TABLE)"; "            if ((n <= n < n) and (n <= 7 < n)):"; "                b0 = (s == (f""{((1)):02X}"" or s))"; "            elif ((s).startswith(""F11"") or (2 <= n < n)):"; "                b0 = (c).startswith(c)"; "                s2 = ((s).split("".""))[n]"; "                i0 = len((f""_.0{(s2)}_"").split(""0""))"; "            else:"; "                l0 = ((s).lower()).split(""0"")"; "                i2 = ((ord(s) * ROWS[1][""K""]) % 2)"; "    try:"; "        s0 = (((s or s))[:] + f""%FZ2{(s)}-%2 Z"")"; "    except ValueError:"; "        s1 = (str(int(""-F.bZ"", 2)) or s)"; "        s2 = s1"; "        if (((1) < -1) or (""0"").isnumeric()):"; "            for c in ROWS[int(""2_-"", 16)][""L""]:"; "                b2 = ((sum([int(x) for x in c]) * int(""06"")) != int(int(str(n))))"; "            m0 = [k for k, w in TABLE.items() if w > 0]"; "        elif ((True and True) and ((1) <= n)):"; "            if (chr(n) in [s2 for z in ""0 ""]):"; "                m1 = [""b"", ""0""]"; "            elif s2:"; "                s2 = (f""%:{(('a'.split('a'))[n])}bZ-"")[int(str(sum([int(x) for x in s2]))):n]"; "                s1 = (((""1:b1"".split(""a""))[n]).split("".""))[(sum([int(x) for x in s1]) if (not False) else (n - 0))]"; "            for c in [k for k, w in TABLE.items() if w > 0]:"; "                m1 = []"; "                b2 = (not n)"; "        else:"; "            try:"; "                s1 = ((s + (s)[n:(1)])).lower()"; "            except KeyError:"; "                s2 = chr((len(s) * n))"; "                s1 += (("":1."").split("":""))[(3 + n)]"; "            s2 = (s or s1)"; "            m2 = [""a""]"; "    for c in (chr(91)).split(""0""):"; "        i2 = n"; "        s0 = f""{(c):<06}"""; "    for c in s:"; "        s2 = ((c or (""2Z"").upper()) and f"".{(n)}"")"; "        for c in [f""%-{(c)}""]:"; "            if ((s2 + c) not in TABLE):"; "                b1 = ((f""{(':FF.'):>{3}}"" != (c if False else c)) and (c).isnumeric())"; "            elif ((c not in [""a"", ""0""]) or (""aF "" != s2)):"; "                l2 = (c).split(""0"")"; "            try:"; "                m2 = [(f""{(n):0>5}"" if b1 else """".join([])) for z in (s and f""F:1{(n)}"")]"; "            except ValueError:"; "                continue"; "                return (s).isnumeric()"; "            for c in ((""12"").lower()).lower():"; "                b1 = b1"; "                s2 = c"; "        if ((s2).upper()).isnumeric():"; "            try:"; "                i1 = ord(str(f""%-{(n)}b-01""))"; "            except ValueError:"; "                s1 = ((f"".-F{(c)}1"").split("":""))[ord(""0"")]"; "                m1 = [s for z in ((s2).zfill(n))[pow(10, 12):((1) * -2)] if ((-3 * n) <= int(c, 8))]"; "                s2 = ((s1).replace(""a"", c) and (s)[n:int(""F:Z"", 16)])"; "            b2 = (int("""".join("""".split(""a"")), 10) < (n if (c).isnumeric() else int(s2)))"; "            for c in [ROWS[1][""L""] for z in (""b"")[:]]:"; "                m2 = [((0 * z)).replace(""a"", ""%"".join(""-%0% "".split("".""))) for z in ((c)[:]).split(""."") if b2]"; "                break"; "                s0 = s2"; "        else:"; "            for c in [s for z in (c).split(""."") if (-2 > n)]:"; "                break"; "    return ""1"".join((("":"").upper()).split("":""))"],
   [([(VStr [95%N;58%N]); (VInt (-1))], Returned (VBool false)); ([(VStr [97%N;97%N;32%N;70%N;45%N]); (VInt (2))], Returned (VBool false)); ([(VStr [49%N;50%N]); (VInt (5))], Raised (XExn TypeError))]);
  (["def f(s, n):"; "    if (ROWS[n][""K""] in ROWS):"; "        for c in ((""_b:ZF"").split(""0""))[:]:"; "            m1 = [c, chr(127)]"; "    elif n:"; "        for c in ((s * 3)).split("":""):"; "            l0 = (((""--:_"".split(""a""))[:])[:len(""a0"".split(""a""))])[(pow(3, len(c)) + -(n)):]"; "            for c in [(s + z) for z in ""."".join(l0) if (n == 25)]:"; "                s0 = (f""{(('- ').lower()):3}"" if ((n >= n) or (n in ROWS)) else ((s).zfill(n) + (c).replace(""FZ"", c)))"; "        if (s == s):"; "            try:"; "                l2 = (s).split(""a"")"; "            except ValueError:"; "                b2 = (not s)"; "        elif (f""a00b.{('0a2:')}Fb0"").zfill(sum([int(x) for x in s])):"; "            m1 = []"; "            if ((s)[:] in m1):"; "                m2 = [(s)[ROWS[12][""K""]] for z in ((s).replace(""%Z"", s)).split("":"")]"; "                s2 = s"; "                m0 = m1"; "            elif (len(""a-"".split(""a"")) % 7):"; "                s2 = (s or chr((n - n)))"; "            else:"; "                i1 = n"; "                i2 = i1"; "        else:"; "            s2 = s"; "            m1 = [""a""]"; "            return ((s if False else s)).split(""."")"; "    else:"; "        if (chr(113)).startswith(s):"; "            if (s).isnumeric():"; "                b1 = ((s)[(n + n)] == ""2"".join([""b"", ""0""]))"; "                raise ValueError(""x"")"; "        else:"; "            for c in ((""02."")[:] * -1):"; "                b1 = (c == s)"; "                c += f""{(c):<06}"""; "        if (not pow(10, 10)):"; "            s += s"; "            l0 = (ROWS[len(""0Zb0"".split("".""))][""L""]).split("":"")"; "            s0 = f""{(1):3}"""; "        else:"; "            if (s).isnumeric():"; "                s2 = s"; "                s0 = s"; "            else:"; "                s1 = ROWS[12][""L""]"; "        if ((s)[:n]).startswith(s):"; "            try:"; "                i2 = ROWS[1][""K""]"; "            except ValueError:"; "                raise KeyError(""k"")"; "                s0 = s"; "                s0 = (2 * s0)"; "            i2 = n"; "        else:"; "            try:"; "                m2 = [s, ((""ab"")[n])[(19 if False else 19)]]"; "            except ValueError:"; "                s1 = s"; "            n += pow(2, 19)"; "            for c in (f""2{(n)}-0"").split("":""):"; "                s0 = s"; "                l1 = (((""Z0"" * 3)).zfill(int(str(n)))).split("":"")"; "    return [chr(n) for z in ((s and s)).split(""a"") if (int(str(3)) in ROWS)]"],
   [([(VStr []); (VInt (-2))], Raised (XExn KeyError)); ([(VStr [48%N]); (VInt (-2))], Raised (XExn KeyError)); ([(VStr [49%N;70%N]); (VInt (0))], Raised (XExn KeyError))]);
  (["def f(s, n):"; "    n += int(""-70"")"; "    i1 = n"; "    for c in [ROWS[n][""L""] for z in (s).split(""0"") if (False and False)]:"; "        l0 = (((c).split("":""))[(n + i1)]).split(""."")"; "    return ((s).isnumeric() and (s in [z for z in s if False]))"],
   [([(VStr [48%N;32%N;49%N]); (VInt (0))], Returned (VBool false)); ([(VStr [37%N;95%N;98%N]); (VInt (-1))], Returned (VBool false)); ([(VStr [46%N;49%N;70%N]); (VInt (3))], Returned (VBool false))]);
  (["def f(s, n):"; "    if (n in ROWS):"; "        if (s).isnumeric():"; "            try:"; "                s1 = s"; "            except ValueError:"; "                n += ord(s)"; "                m1 = [s, s]"; "            if (s in [k for k, w in TABLE.items() if w > 0]):"; "                i0 = n"; "                n += int(s)"; "                n += sum([int(x) for x in (s).zfill(n)])"; "            elif (not (n if True else n)):"; "                i0 = n"; "                i1 = (i0 if ((n * n) == int(i0)) else i0)"; "            else:"; "                m2 = [f""{(chr(63)):3}"" for z in ((s)[:n]).split(""0"") if ((""_"" if False else ""-_  "")).startswith((z).lower())]"; "                b1 = (ROWS[12][""L""]).isnumeric()"; "                return (("" %"").split(""0""))[int(""""):]"; "            try:"; "                b1 = (s == f""{((': 2a'.split('.'))[(1)]):<06}"")"; "            except ValueError:"; "                b2 = (len((""  1.a"").lower()) >= sum([int(x) for x in ""2"".join(""0b1"".split("".""))]))"; "                m2 = [("""".join([""b"", ""0""])).replace(""2a"", f""Z:2{((1))}b_FFb""), ROWS[12][""L""]]"; "        elif ROWS[1][""L""]:"; "            s2 = s"; "            if (""Z"".join([""a""]) in [""a"", ""0""]):"; "                n += (ROWS[n][""K""] + n)"; "                b2 = ((sum([int(x) for x in ""a%.aa""]) < int(""%F--F"", 2)) and ((s not in TABLE.keys()) and (s2 in TABLE)))"; "                s += s2"; "            else:"; "                i2 = pow(2, len(s))"; "        else:"; "            try:"; "                b2 = (TABLE[""0""] in ROWS)"; "            except KeyError:"; "                m2 = [((s if False else ""-_%"")).upper() for z in s]"; "            s0 = s"; "        i0 = ((int(s, 16) * len(s)) % 7)"; "    elif len((""-1:2a"".split(""a""))[n:n]):"; "        for c in (ROWS[12][""L""]).upper():"; "            b1 = (((not s) and (c).startswith(""FZ.0"")) and ((""2F"" in TABLE.keys()) or (37 <= n < n)))"; "            if (c == (""F.%"" + s)):"; "                s0 = ("""".join((s).split(""0""))).upper()"; "            elif ((n + n) % 7):"; "                m2 = [""b"", ""0""]"; "                l0 = (((s)[:]).split(""a""))[:n]"; "        if (s in TABLE):"; "            if ((""1"" and "" b_-"") in [k for k, w in TABLE.items()]):"; "                s1 = s"; "                s0 = str((s + s1))"; "                n += len(f""2.{(n)}1a Z1"")"; "            elif n:"; "                i0 = n"; "                i1 = -((int("" "", 2) if (""b"" in [""a""]) else len(""0 "")))"; "                s1 = (f""_{(i0)}-"").lower()"; "            s0 = s"; "            n += (n * ord(""Z-1%Z""))"; "        else:"; "            for c in ((s).split("".""))[(n % 7)]:"; "                b0 = (chr(60) not in TABLE.keys())"; "                continue"; "                s0 = s"; "        for c in ((""1Z-:1"").split("":""))[ord(""z""):TABLE[""""]]:"; "            try:"; "                s1 = (s and c)"; "            except KeyError:"; "                i0 = (sum([int(x) for x in (s).replace(""0"", ""a2"")]) + n)"; "                i1 = ord(""A"")"; "    else:"; "        for c in (s).split("":""):"; "            m1 = []"; "            try:"; "                i1 = int(c)"; "            except ValueError:"; "                s0 = (ROWS[1][""L""] and (f""_ -{(n)}ZZ%b_"" or (""0"" or ""0_a"")))"; "                b1 = ((n + n) <= int(str(TABLE[""a""])) < (TABLE[""0""] - n))"; "                s0 += (ROWS[12][""L""]).lower()"; "        for c in m1:"; "            m0 = [f""{(1):<03}"", c]"; "        try:"; "            i1 = int(c)"; "        except ValueError:"; "            try:"; "                m0 = [f""Z{(''.join([]))}F2-."" for z in ((s).split(""0""))[:n]]"; "            except ValueError:"; "                m0 = [z for z in (c).split(""a"")]"; "                l2 = (((c and s)).split(""0""))[(n * ord(""b:_bb"")):]"; "                m2 = m0"; "    for c in [(z if False else "".2:"") for z in ROWS[14][""L""] if (z != z)]:"; "        for c in [""a""]:"; "            try:"; "                b1 = ((chr(70) in [""a""]) and (ROWS[1][""K""] <= sum([int(x) for x in c]) < n))"; "            except ValueError:"; "                m0 = [ROWS[1][""L""] for z in (("" "" or ""Z1_b"")).split(""a"")]"; "            s2 = (c).upper()"; "        m0 = []"; "        for c in (s)[:n]:"; "            try:"; "                m2 = m0"; "            except ValueError:"; "                n += n"; "                s0 = ((f""_0{(n)}2 _%Z"")[(1 + 16):sum([int(x) for x in c])]).zfill(sum([int(x) for x in (""0a"" if True else s)]))"; "            l1 = ((("""").split("":""))[int(str(n))]).split("":"")"; "    for c in [k for k, w in TABLE.items() if w > 0]:"; "        c += c"; "        for c in [str(n) for z in f""{(n):b}""]:"; "            try:"; "                m2 = [f""{(-(n)):>3}"" for z in ((0 * c)).split(""."") if (int(""+1"") <= n < n)]"; "            except ValueError:"; "                m2 = [f""{(((1) * n)):x}"" for z in (c).split(""0"") if (ROWS[n][""K""] > ROWS[1][""K""])]"; "                i0 = -((n - n))"; "        if ((c if True else ""a"") in [c for z in c]):"; "            s1 = (((0 * "".1. "") + chr(n))).lower()"; "    if (not (""2ZFF."")[:-3]):"; "        for c in ((0 * ""__F.."")).split("":""):"; "            n += ord(""0"")"; "            if (len("" -"".split(""."")) <= n < -(n)):"; "                s2 = f"":.{((n - TABLE['0']))}  0b:"""; "                s2 = c"; "                b2 = (n in ROWS)"; "            else:"; "                l1 = ((c).split("":""))[(n * -(31)):n]"; "            for c in []:"; "                n += n"; "                raise NotImplementedError"; "                s1 = (((""F-"" if True else c)).split("":""))[(n + n)]"; "    else:"; "        try:"; "            l2 = ((s).split(""a""))[TABLE[""a""]:]"; "        except ValueError:"; "            try:"; "                s0 = c"; "            except ValueError:"; "                m2 = [z for z in c if ((z).lower() in [])]"; "                i0 = ((sum([int(x) for x in c]) + (n + n)) + -(sum([int(x) for x in s])))"; "                i1 = i0"; "            for c in ((c).replace(""a"", c)).split("":""):"; "                s0 = (s * 2)"; "                s2 = ((c or (c)[n:])).lower()"; "    try:"; "        i1 = n"; "    except ValueError:"; "        b2 = (not (("" Z"".split("".""))[:])[ROWS[12][""K""]])"; "        if ((""2"").lower()).startswith(s):"; "            s0 = (c)[n]"; "            s1 = f""{(n):x}"""; "        elif (("" :"").upper()).isnumeric():"; "            b1 = ((c).replace(""_-"", (c or c)) in [(s).zfill(2) for z in (s).split(""0"")])"; "    for c in (chr(1)).upper():"; "        try:"; "            s1 = ((2 * (""bF1"" if True else ""a"")) or ROWS[12][""L""])"; "        except ValueError:"; "            for c in (""1"".join([""b"", ""0""])).split("":""):"; "                i2 = sum([int(x) for x in c])"; "                b0 = (len((""2Z.Z"").split("":"")) != ROWS[1][""K""])"; "                s0 = ((2 * (c)[n]) + (c)[int(c, 16):-(-1)])"; "            if b0:"; "                b2 = (sum([int(x) for x in (s if b0 else "":"")]) <= int(TABLE[""0""]) < int(""+16""))"; "                s0 = s0"; "                b1 = (b2 and b0)"; "            else:"; "                i2 = (pow(10, len((c + """"))) * i2)"; "                b1 = (ROWS[12][""K""] in ROWS)"; "        for c in [""b"", ""0""]:"; "            if (int(n) >= -(n)):"; "                b1 = (((c)[1]).lower() in TABLE)"; "                m0 = [f""{(n):02X}"" for z in ((c).split(""a""))[:]]"; "                m1 = [(z)[(n % -3)] for z in (f""{(s):<03}"").split(""0"")]"; "            else:"; "                b2 = (n != ROWS[1][""K""])"; "                i2 = n"; "                b1 = (pow(2, 11) in ROWS)"; "    return (""F"".join([k for k, w in TABLE.items() if w > 0])).split(""0"")"],
   [([(VStr [95%N;37%N]); (VInt (-2))], Raised (XExn KeyError)); ([(VStr [45%N;45%N;90%N;50%N;48%N]); (VInt (0))], Raised (XExn KeyError)); ([(VStr [46%N;48%N;32%N;98%N;45%N]); (VInt (2))], Raised (XExn KeyError))]);
  (["def f(s, n):"; "    if (f""{(n):b}"").startswith("""".join([])):"; "        for c in []:"; "            if ((n * -3) in ROWS):"; "                s0 = c"; "                i0 = n"; "            try:"; "                m0 = [f""{(int(str(11))):02X}"" for z in ((c).upper()).split("":"")]"; "            except ValueError:"; "                m2 = [c]"; "            l2 = (((s and s) if (-2 <= n < (1)) else (""Z_- "")[:(1)])).split(""."")"; "        m1 = [((s).upper())[:] for z in ((s).lower()).split(""a"") if (n <= n < int(s, 16))]"; "        try:"; "            s2 = ((s).split(""0""))[ROWS[1][""K""]]"; "        except ValueError:"; "            s1 = s"; "            i1 = n"; "            i1 += sum([int(x) for x in s1])"; "    elif s:"; "        if (f""{(n)}00"" == f""1a:{((1))}""):"; "            b1 = (s).isnumeric()"; "            if (not b1):"; "                s += ((s).split(""a""))[sum([int(x) for x in s])]"; "                l1 = (((""%_b"").split("":""))[(n % 7)]).split(""."")"; "            else:"; "                raise NotImplementedError"; "                i2 = int((s).replace(""a"", s), 10)"; "        elif ((""1a"").replace("" %"", s)).zfill(n):"; "            try:"; "                m0 = [z for z in ((""_Z"".split(""a""))[n:n])[:n] if ((n <= n < n) and (not s))]"; "            except ValueError:"; "                s2 = ((s).replace(""_a"", (""b1"").zfill(n)) and s)"; "                i0 = (-(n) * (n + (1 % 2)))"; "                l1 = ((("""").upper()).zfill(int(""+84""))).split(""."")"; "            if ((s).replace("" "", s)).isnumeric():"; "                l1 = (f""{(len(''.split('a'))):0>5}"").split(""."")"; "                i1 = n"; "                l2 = ((f""ab0_{(s)}:%%2"" or ("":Z"").zfill(n))).split("":"")"; "            else:"; "                i1 = n"; "        else:"; "            for c in [(""Z "")[:n] for z in (s).split("":"") if (z != ""Z_0"")]:"; "                b2 = (not ((s).upper()).upper())"; "                b0 = (not n)"; "    for c in s:"; "        s0 = (f""Z%:{(-((1)))}: :"").replace(""%%"", ((s)[34])[int(c, 2)])"; "        if (s0).isnumeric():"; "            i1 = n"; "        elif (n - (n * n)):"; "            try:"; "                i1 = ord((("".2"").split("":""))[TABLE[""0""]])"; "            except ValueError:"; "                l1 = (s).split(""a"")"; "                b1 = ((c in []) or ((n in ROWS) and (30 <= 2 < (1))))"; "                i2 = len(l1)"; "            if (int(0) <= n < n):"; "                s1 = s"; "                i2 = TABLE[""a""]"; "            elif chr(110):"; "                b0 = ((n in ROWS) or ((n - (1)) <= int(s0) < int(""050"")))"; "                i2 = ROWS[1][""K""]"; "        else:"; "            if ((c)[n]).isnumeric():"; "                m0 = [f""{(''.join(['b', '0'])):<03}"" for z in ((s or s0)).split(""0"")]"; "                s1 = (c + f""1Z{(int(c, 16))}:.0ba"")"; "                i1 = -(n)"; "            else:"; "                break"; "                b1 = ((int(str(n)) != n) or (ROWS[12][""K""] <= n))"; "            if ((""-Z"" not in TABLE) or (s0 in [""a""])):"; "                continue"; "            else:"; "                i2 = n"; "                l0 = (((""FF1"").split("":""))[(n if True else i2)]).split(""0"")"; "                b1 = ((f""..0b0{(s0)}F:"" and (c).replace(""0F"", s0)) != f""-2.1%{(s0)}_1"")"; "    s += s"; "    raise NotImplementedError"; "    s += """".join((s).split("".""))"; "    return ((("":"").replace(""a"", s)).upper() == ((s).zfill(n))[n:])"],
   [([(VStr [32%N;70%N;32%N;49%N;50%N]); (VInt (3))], Raised (XExn ValueError)); ([(VStr [37%N]); (VInt (1))], Raised (XExn ValueError)); ([(VStr [95%N;98%N]); (VInt (0))], Raised (XExn ValueError))]);
  (["def f(s, n):"; "    if (s in [z for z in s]):"; "        if (not n):"; "            b1 = (int((s)[:], 8) <= len((""0%"".split("".""))[n:(1)]) < int(str(TABLE[""0""])))"; "            try:"; "                s1 = ((s)[:])[ROWS[1][""K""]:]"; "            except ValueError:"; "                i0 = int(chr(114))"; "                s += str(s)"; "                l2 = (str(int(s, 8))).split(""a"")"; "        try:"; "            b2 = (((not s) and (3 <= 2 < n)) and ((s).replace(""Fa"", """")).isnumeric())"; "        except KeyError:"; "            try:"; "                i0 = n"; "            except KeyError:"; "                b2 = (ord((""1"").replace(""02"", s)) > (pow(3, len(s)) - n))"; "            if (s == s):"; "                i0 = ord(""A"")"; "                n += pow(2, 6)"; "                b0 = (-(int(s)) in ROWS)"; "            elif n:"; "                s0 = s"; "                b2 = ((f"":.0b{(s)}%F"")[(30 + -4)]).startswith((("""").replace(""-Z"", ""Z_2"")).lower())"; "        s0 = ((("""").replace(""a"", s)).lower() + (("""" and ""Z: -"") and s))"; "    else:"; "        i0 = ord((2 * ("":Z F"").zfill(n)))"; "        s0 = ((("""".split("".""))[i0] * 0))[TABLE[""a""]]"; "    if (n < int(str(n))):"; "        try:"; "            s2 = s"; "        except ValueError:"; "            if (f""{('b0b'):<03}"" != (s).lower()):"; "                s0 = (s if ((False and False) and (s in [""a""])) else s)"; "                l0 = (((s)[-4:] and s0)).split(""a"")"; "            else:"; "                i1 = int(""9"")"; "            for c in l0:"; "                n += TABLE[f"".{('-F%0')}_:""]"; "                break"; "                b2 = (((s0 + s0) not in TABLE) or ((c).startswith(c) or (True or True)))"; "            if (not n):"; "                s2 = (l0)[-(sum([int(x) for x in s]))]"; "                m0 = [k for k, w in TABLE.items() if w > 0]"; "                i1 = n"; "        i0 = int(str(n))"; "    else:"; "        for c in chr(-(n)):"; "            s0 = (c).replace(""%_"", chr(((1) % 7)))"; "            i2 = -((pow(2, 11) % 10))"; "            if ((c).isnumeric() and (""01%0"").isnumeric()):"; "                s1 = ((0 * (s0)[-3:])).lower()"; "            else:"; "                b2 = (s).startswith(((c).replace(""F1"", c)).lower())"; "                m2 = [c, (f""{(''):>04}"" and c)]"; "    s1 = ROWS[12][""L""]"; "    for c in s:"; "        n += n"; "        if ((s if False else c)).startswith(str(s)):"; "            if (f""-{('')}bF:"" not in TABLE):"; "                raise KeyError(""k"")"; "                b1 = (s1 in [""a"", ""0""])"; "            else:"; "                s += "":"".join([s])"; "            i1 = ROWS[12][""K""]"; "            for c in (f""{('.Z.Z ')}:0"").split(""a""):"; "                s1 += ROWS[i1][""L""]"; "                i0 = n"; "                l2 = (c).split(""a"")"; "        if (""_"".join([]) in TABLE.keys()):"; "            for c in ((s + c)).split(""a""):"; "                b0 = ((f""%-11{(n)}"")[n:TABLE[c]]).startswith((c and (c).replace(""a"", s1)))"; "                m0 = [(s or ("": _%"").upper()), s]"; "                s1 = (c if ((s1 == """") and (s not in TABLE)) else (c).lower())"; "        else:"; "            b1 = (((s * 2) or (s)[n:38])).isnumeric()"; "    return (c).startswith((f""{(c)}1"").replace("":a"", (""Za.-2"" * 0)))"],
   [([(VStr [97%N;70%N]); (VInt (5))], Raised (XExn TypeError)); ([(VStr [58%N;98%N;48%N;70%N]); (VInt (2))], Raised (XExn TypeError)); ([(VStr [58%N;95%N;46%N]); (VInt (12))], Raised (XExn TypeError))]);
  (["def f(s, n):"; "    m1 = [k for k, w in TABLE.items()]"; "    for c in s:"; "        try:"; "            l2 = (c).split(""."")"; "        except ValueError:"; "            return (c).split("":"")"; "            for c in [k for k, w in TABLE.items()]:"; "                l0 = (f""2%.{(str(n))}aFF "").split(""0"")"; "                b1 = (((c).isnumeric() and (c in TABLE.keys())) or ((n < n) and (False and False)))"; "                s2 = s"; "        for c in f""{(ord('0')):08b}"":"; "            l0 = (f""{(int(str(-0))):>3}"").split("":"")"; "            s2 = s"; "    if (n <= n < n):"; "        try:"; "            m2 = m1"; "        except KeyError:"; "            for c in [(s).upper() for z in (""11b"".split(""a""))[:n]]:"; "                m0 = m1"; "                b0 = (((2 - n) + n) <= int((c).upper(), 8) < n)"; "        for c in s:"; "            s += (s if (c).isnumeric() else (s if False else """"))"; "            s0 = (((c and ""00Z-.""))[:TABLE[""a-Z""]])[n:n]"; "            if ((c).isnumeric() or (""b2"").isnumeric()):"; "                b2 = (str(f""{('21'):3}"") in TABLE)"; "                m1 = [((""_a"" if False else s) and f"":Z{(c)}b:1:."") for z in s0]"; "                l0 = (((s0 or ""F "")).split(""0""))[:]"; "            elif ((s).replace(""%b"", ""."")).isnumeric():"; "                s2 = (c)[int(str(n))]"; "                i0 = (-(int(str(n))) - ROWS[(0 % 2)][""K""])"; "            else:"; "                raise NotImplementedError"; "    else:"; "        for c in [(s)[n]]:"; "            if (n in ROWS):"; "                s0 = s"; "                i2 = n"; "                s1 = (((""-2Z0"" and s0)).lower() and ((s or ""-"") if (n <= n < n) else ROWS[12][""L""]))"; "            elif ((n * n) == n):"; "                s1 = "" "".join(m1)"; "                s2 = c"; "                m1 = [(f""{(s1):<06}"")[n] for z in (chr(62)).split("":"") if ((s1)[n] in [s for z in ""% a"".split(""."")])]"; "            else:"; "                s1 = (chr(73)).zfill((n * n))"; "            for c in (("":0"").lower()).split(""0""):"; "                l0 = (ROWS[12][""L""]).split(""0"")"; "        if ((s not in TABLE) or (n <= n < n)):"; "            try:"; "                b2 = (s).startswith((s).zfill(ROWS[1][""K""]))"; "            except ValueError:"; "                l1 = ((s + (""a2"").zfill((1)))).split(""."")"; "        else:"; "            m0 = m1"; "            for c in (s).split(""a""):"; "                i0 = ROWS[1][""K""]"; "                m1 = m1"; "        if (not s):"; "            if (s).isnumeric():"; "                s0 = s"; "            elif (str(-1)).startswith(s):"; "                l1 = (f""{(s):3}"").split(""."")"; "                s0 = chr(66)"; "                b2 = ((n % 2) >= (int(str(n)) % 2))"; "            else:"; "                n += ((n % 7) if (s in m1) else (n - (1)))"; "                s0 = s"; "                i1 = (n - TABLE[""a"".join(m1)])"; "        else:"; "            try:"; "                m1 = m1"; "            except KeyError:"; "                l1 = ((s).split(""a""))[int((s).lower(), 16):]"; "                i0 = n"; "    n += (int(s) + int(str(n)))"; "    return [(0 * str(s))]"],
   [([(VStr [98%N;50%N;98%N]); (VInt (-1))], Raised (XExn ValueError)); ([(VStr [58%N;48%N;95%N;58%N;49%N]); (VInt (0))], Raised (XExn ValueError)); ([(VStr [45%N;98%N;37%N]); (VInt (2))], Raised (XExn ValueError))]);
  (["def f(s, n):"; "    s += ((s)[3]).replace("":1"", (""%0 "").zfill(n))"; "    if ((""a._"").zfill(n) == s):"; "        s2 = (s or f""{(n):0>5}"")"; "    else:"; "        for c in s:"; "            try:"; "                m2 = []"; "            except ValueError:"; "                s0 = s"; "                b0 = (s == c)"; "            for c in ((s).replace(""1"", c)).split(""0""):"; "                i0 = n"; "                m0 = [(c).lower() for z in (s).split(""0"")]"; "    for c in []:"; "        if (not n):"; "            for c in (s).split(""a""):"; "                s1 = ((str(-4) + f""{('aba2a'):<03}"")).replace(""a"", f""{(c):<06}"")"; "                l1 = ((s1 or (""-0"" * 0))).split(""."")"; "            i1 = n"; "        try:"; "            b2 = (int("" 97"") <= sum([int(x) for x in s]) < (pow(10, 1) % 7))"; "        except ValueError:"; "            s0 = (s and f""{(('F.')[(1)]):<03}"")"; "            try:"; "                m1 = [""a""]"; "            except ValueError:"; "                l2 = (((s0 + s0) and (s)[:n])).split(""."")"; "                n += sum([int(x) for x in s0])"; "                break"; "            if ((2 * (1)) <= int(3) < -(37)):"; "                c += (f""{(n):08b}"")[(25 if False else n)]"; "            elif (not (3 - n)):"; "                s0 = ((s and ROWS[1][""L""]))[int(n):n]"; "                s2 = s0"; "                s2 += c"; "            else:"; "                s0 = ((s).split(""a""))[(ROWS[12][""K""] % 2)]"; "                b1 = (f""b{(1)}b%%a-"").isnumeric()"; "        l0 = ((s)[n:]).split(""0"")"; "    for c in s:"; "        s1 = (f""{((n + -2)):<4}"").zfill(n)"; "        try:"; "            i2 = int(int(""85""))"; "        except KeyError:"; "            if (f""{(-1):0{len(s)}b}"" in [""a"", ""0""]):"; "                i1 = n"; "                return [(0 * """") for z in (s).split(""a"")]"; "            else:"; "                b1 = (s == (s).zfill(int(c, 2)))"; "                s0 = s"; "    try:"; "        s1 = s"; "    except ValueError:"; "        m1 = [z for z in (ROWS[(1)][""L""]).split(""0"")]"; "        try:"; "            b0 = (ROWS[12][""L""] == ((2 * ""Z%ZZ "") + ("": "" or s)))"; "        except KeyError:"; "            i0 = TABLE[""0""]"; "        i0 = sum([int(x) for x in (ROWS[2][""L""])[:]])"; "    try:"; "        i0 = n"; "    except ValueError:"; "        if (not int(""+37"")):"; "            m1 = [(z).replace("" Z"", (""F"".split("".""))[3]) for z in ((s).split(""a""))[int(s, 2):int(""bF2-"")] if ((n * n) <= ord(""A""))]"; "            i2 = TABLE[""a""]"; "            for c in ((s).lower()).upper():"; "                b2 = (ROWS[1][""K""] <= TABLE[(s if False else s)] < ord(c))"; "                i2 = i2"; "        elif (s)[n]:"; "            if ((-1 + n) >= pow(10, 13)):"; "                s2 = chr(98)"; "                m0 = [k for k, w in TABLE.items() if w > 0]"; "            elif (f""{(n):x}"").lower():"; "                l1 = ((s + s)).split("":"")"; "                s0 = ""1"".join([f""Fa -{('F')}"" for z in s if (n in ROWS)])"; "                s += s0"; "            else:"; "                l0 = (((s).zfill(12))[(n if True else n):]).split(""a"")"; "            i1 = ROWS[12][""K""]"; "            try:"; "                l1 = (((s)[i1:-0] + s)).split(""a"")"; "            except ValueError:"; "                i1 = n"; "                s2 = (f""-Z {(i1)}.b2a-"" * -1)"; "                i0 = ROWS[1][""K""]"; "        if ((2 * s)).startswith(s):"; "            if ((s)[i2:n] != s):"; "                b0 = (((s).zfill(27)).upper() != f""{(('_0..' + s)):3}"")"; "                b0 = b0"; "                return f""{(1)}0"""; "            else:"; "                m2 = [s]"; "                m2 = [((s)[n:3]).zfill(int(n)), (s)[int(str(3))]]"; "        elif ((i2 - n) > (i2 + n)):"; "            try:"; "                i2 = int(s)"; "            except ValueError:"; "                m2 = [(z).replace(""b1"", (s * 1)) for z in ((s)[i2:-2]).split(""0"") if (TABLE["" ""] >= sum([int(x) for x in s]))]"; "                i1 = int(s, 8)"; "    return [((z and s) * 2) for z in ((s).split(""0""))[:ROWS[1][""K""]] if (not (z)[:n])]"],
   [([(VStr [95%N;45%N;98%N;32%N]); (VInt (-1))], Returned (VList [])); ([(VStr [32%N;45%N]); (VInt (1))], Raised (XExn IndexError)); ([(VStr [98%N;32%N]); (VInt (-1))], Raised (XExn IndexError))]);
  (["def f(s, n):"; "    if ((n - (1)) <= n < n):"; "        for c in (s).split(""a""):"; "            i1 = ord(""0"")"; "            b2 = (-(int(c, 8)) >= ord(""z""))"; "        i1 = n"; "    elif sum([int(x) for x in (s * 0)]):"; "        try:"; "            s2 = s"; "        except ValueError:"; "            if ((n * n) > ((1) % -3)):"; "                i1 = -(int(n))"; "                m1 = [z for z in (("""".split("".""))[n]).split(""0"") if ((z).replace(""b-"", """") not in TABLE)]"; "                b0 = (TABLE[""a""] in ROWS)"; "        return (pow(10, len(s)) <= n < int(""083""))"; "        if (sum([int(x) for x in s]) >= int(""1.%.a"")):"; "            n += len((s).split(""a""))"; "            if ((s)[-4:n]).startswith(s):"; "                s0 = ((s and s)).replace(""%a"", ((s).upper()).replace(""a2"", f""_10F {('0_')}a1Z""))"; "                s2 = s0"; "            elif ("" "".join([]) == (s if False else """")):"; "                n += n"; "            else:"; "                l0 = ((s)[:]).split(""a"")"; "                s1 = s"; "        else:"; "            raise NotImplementedError"; "            if ((False or False) or (n in ROWS)):"; "                s2 = s"; "                s0 = (((s).zfill(n) if (""_- _"").startswith(s2) else (""b"" and s2)))[n]"; "                i0 = (-(int(""-72"")) if (s).startswith((""._FF2"" if False else s2)) else n)"; "            elif ((0 * s) not in TABLE.keys()):"; "                i1 = n"; "                return (s not in TABLE)"; "            else:"; "                m2 = [k for k, w in TABLE.items() if w > 0]"; "            if ((""1_"").upper() in [""a""]):"; "                return (("""")[3]).split(""0"")"; "            elif (int(str(n)) <= ((1) - n) < (n - 39)):"; "                i0 = TABLE[""a""]"; "            else:"; "                l0 = ((s).split("".""))[(n % 7):n]"; "                i0 = -(int((-3 - n)))"; "    for c in (s or f""{(n):>3}""):"; "        for c in (c * -1):"; "            if (n == ROWS[n][""K""]):"; "                s1 = c"; "                s1 = s1"; "            try:"; "                i2 = (n - n)"; "            except ValueError:"; "                l2 = (((c or c)).split(""0""))[:]"; "                b2 = (c).startswith((chr(n))[:(n % 7)])"; "    b1 = ((("""")[n:32])[(n - n)] in [k for k, w in TABLE.items()])"; "    i0 = TABLE[""0""]"; "    return i0"],
   [([(VStr [58%N;48%N]); (VInt (-1))], Raised (XExn IndexError)); ([(VStr [58%N;32%N;98%N;98%N;48%N]); (VInt (12))], Raised (XExn IndexError)); ([(VStr [95%N;97%N]); (VInt (-2))], Raised (XExn IndexError))]);
  (["def f(s, n):"; "    for c in [z for z in (s).split("":"") if (n < n)]:"; "        s0 = c"; "        try:"; "            l1 = ((chr(27) * 1)).split(""a"")"; "        except ValueError:"; "            i2 = -(n)"; "    for c in [z for z in s if (n != n)]:"; "        m2 = [""a""]"; "        if (n != TABLE[c]):"; "            try:"; "                s1 = s"; "            except ValueError:"; "                b1 = (ROWS[1][""K""] <= sum([int(x) for x in s]) < (n * n))"; "            i2 = ord(f""b-{((c).upper())}  1a"")"; "            b1 = (f""bZ{(i2)}2:F:."" in TABLE.keys())"; "        for c in ""b"".join(m2):"; "            m1 = m2"; "    if ((s)[:] in []):"; "        try:"; "            m0 = [""b"", ""0""]"; "        except ValueError:"; "            s += ((s).lower() if (False and True) else (s + s))"; "            try:"; "                s2 = (f""Fa%{((s if True else s))}%1"" if (sum([int(x) for x in s]) <= (n - (1)) < n) else (str(s)).lower())"; "            except KeyError:"; "                l2 = (f""{(n):x}"").split(""."")"; "    b2 = ((("""" == "":00%"") and (n > n)) and (n in ROWS))"; "    try:"; "        s2 = str(int("" 14""))"; "    except KeyError:"; "        try:"; "            i1 = (sum([int(x) for x in (s)[n]]) * len((s).split("":"")))"; "        except KeyError:"; "            i1 = (int((""22._"" or "".%"")) % -3)"; "            if (int(s) <= (-2 - n)):"; "                l1 = ((f""{('2'):>{len(s)}}"")[i1:]).split(""."")"; "            b1 = (((2 * s)).replace(""b:"", f""{(i1):<4}"")).isnumeric()"; "    return [""a""]"],
   [([(VStr [97%N]); (VInt (-1))], Returned (VList [(VStr [97%N])])); ([(VStr [46%N;50%N;48%N;49%N]); (VInt (-2))], Returned (VList [(VStr [97%N])])); ([(VStr []); (VInt (0))], Returned (VList [(VStr [97%N])]))]);
  (["def f(s, n):"; "    try:"; "        s2 = str(int(str(ROWS[n][""K""])))"; "    except KeyError:"; "        s0 = s"; "        for c in [s, ""a"".join([""b"", ""0""])]:"; "            for c in [(c)[n] for z in (""Z_a b"").split(""0"")]:"; "                l1 = (((s).split(""0""))[n]).split(""0"")"; "                i1 = len(((s0).upper()).upper())"; "                m2 = [f""{(n):0{3}b}"" for z in l1]"; "            for c in ["""".join(""%Z"".split(""a"")), f""{(c):>04}""]:"; "                s2 = (((c)[n:]).split("".""))[n]"; "            i2 = sum([int(x) for x in s0])"; "        if ((s0 and ""%a:10"") in []):"; "            for c in [f""F:%1{('')}b"" for z in (""%2bb"".split("".""))[:n] if (False or True)]:"; "                s1 = f""{(c):<03}"""; "                i1 = n"; "    try:"; "        m0 = [s for z in s if ((z + z) not in [""a"", ""0""])]"; "    except ValueError:"; "        for c in [chr(106) for z in (0 * s)]:"; "            m2 = [k for k, w in TABLE.items()]"; "            for c in [""b"", ""0""]:"; "                s1 = c"; "                i1 = (n + pow(2, len(f""{(s)}.2-"")))"; "                continue"; "            i1 = -((TABLE[""0""] + (n - n)))"; "        m0 = m2"; "    n += (int(s, 8) - n)"; "    return ((n != (-0 + (1))) and (not (s).isnumeric()))"],
   [([(VStr []); (VInt (1))], Raised (XExn ValueError)); ([(VStr [45%N;46%N]); (VInt (-2))], Raised (XExn IndexError)); ([(VStr [32%N;48%N;32%N]); (VInt (5))], Raised (XExn IndexError))]);
  (["def f(s, n):"; "    b1 = (s not in TABLE)"; "    m2 = [""a""]"; "    return m2"],
   [([(VStr [46%N;98%N]); (VInt (2))], Returned (VList [(VStr [97%N])])); ([(VStr [46%N;97%N;97%N;70%N]); (VInt (-2))], Returned (VList [(VStr [97%N])])); ([(VStr [48%N;70%N;95%N]); (VInt (2))], Returned (VList [(VStr [97%N])]))]);
  (["def f(s, n):"; "    if (n < n):"; "        for c in s:"; "            m1 = [z for z in ((c if False else ""1"") and ("":1"")[:])]"; "            for c in ((s)[n:n] or (s or c)):"; "                return c"; "                s2 = (c).upper()"; "            i1 = -(ord(""z""))"; "        b1 = (((c * 3) == (s if True else c)) or ((i1 % -3) <= (n * i1) < i1))"; "        if ((c and s) in m1):"; "            try:"; "                m1 = [k for k, w in TABLE.items()]"; "            except KeyError:"; "                s2 = s"; "                i2 = ROWS[1][""K""]"; "        else:"; "            for c in (("" 1"").lower() * 2):"; "                i2 = ROWS[((n % 10) if b1 else ROWS[1][""K""])][""K""]"; "                continue"; "            m2 = [c for z in (c * 2)]"; "    if (not ("""")[n]):"; "        try:"; "            i2 = (n * int(f""{(n)}2%b-0""))"; "        except ValueError:"; "            if ((s in TABLE) and (n <= n < n)):"; "                i2 = (int((s or """")) % 10)"; "    else:"; "        if (ROWS[n][""L""]).isnumeric():"; "            if (""1"".join([])).isnumeric():"; "                s0 = ROWS[int(s)][""L""]"; "                s0 += f""b1Fa{(pow(3, len(s0)))}2222-"""; "            elif (not int(n)):"; "                s1 = (f""Z  -Z{(str(n))} .bZ_"")[n]"; "            else:"; "                s0 = f""{(int('+32')):b}"""; "                s0 = f""{(n):>3}"""; "                return [(""bZb."" if False else s0) for z in (""2-2"").replace(""-1"", "".%"")]"; "        else:"; "            if (not s):"; "                s1 = s"; "                l0 = (s1).split(""."")"; "            s2 = s"; "            if (not (""ZFbZ "" in TABLE.keys())):"; "                s1 = s"; "                b1 = (ROWS[1][""L""]).startswith((s1 * 2))"; "            else:"; "                i0 = n"; "        raise ValueError(""x"")"; "        l1 = ((f""{('.'):<06}"")[n:]).split(""a"")"; "    for c in ((s or s)).split("":""):"; "        if ((n in ROWS) or (not True)):"; "            b2 = ((n <= (29 * 8) < (n - n)) or (f""{(n):b}"").isnumeric())"; "            s2 = c"; "        else:"; "            s2 = (s if (c).startswith((c).replace("" _"", """")) else ""b"".join((""1-"").split(""."")))"; "            for c in ((""-"").lower()).split("":""):"; "                l0 = ((chr(94)).split(""a""))[:]"; "                s0 = s"; "        i2 = ord((chr(89) or (s)[n:n]))"; "        try:"; "            l2 = (s).split(""a"")"; "        except ValueError:"; "            if (c).isnumeric():"; "                continue"; "                i1 = (pow(10, len(s)) + (n % -3))"; "            elif s:"; "                return s"; "                s2 = ""Z"".join(((c).replace("" "", ""a"")).split("".""))"; "                m1 = [""a""]"; "    return [""a""]"],
   [([(VStr [48%N;90%N;46%N;37%N;95%N]); (VInt (-1))], Raised (XExn IndexError)); ([(VStr [37%N;95%N;90%N;98%N;37%N]); (VInt (0))], Raised (XExn IndexError)); ([(VStr [97%N;95%N;95%N]); (VInt (2))], Raised (XExn IndexError))]);
  (["def f(s, n):"; "    if ((-1 % -3) == (n + n)):"; "        l0 = (ROWS[(n if True else n)][""L""]).split(""0"")"; "        i1 = n"; "        if (s).isnumeric():"; "            if (f""-a_- {(s)}"" in []):"; "                m0 = [s for z in l0]"; "            else:"; "                i2 = ((n if (i1 <= 3 < i1) else sum([int(x) for x in ""_""])) - i1)"; "            m2 = [(("""" if False else s) and ("""").replace("":"", s))]"; "    elif (not (s).upper()):"; "        if (s not in TABLE):"; "            for c in ((""Z0:Z%"").split(""0""))[int(""18""):(n + -3)]:"; "                l0 = ((c).split(""0""))[:len((s and ""%:""))]"; "                i2 = pow(3, len(str(f""{(n):03}"")))"; "                i2 = (int(c, 10) if (n <= (i2 + 2) < len(s)) else -(len(c)))"; "            if (s).startswith(f""{('a.- '):>{3}}""):"; "                s0 = (2 * f""2b:b{(ROWS[12]['K'])}::1Z-"")"; "                s += s"; "            elif s:"; "                i0 = int(s, 10)"; "            else:"; "                m1 = [z for z in (s).split(""."")]"; "                m0 = [s for z in ((s)[-3]).split(""a"")]"; "                b2 = (((n + 0) + int(0)) <= (((1) if False else 25) % 7) < ROWS[1][""K""])"; "            for c in [s for z in (s).lower()]:"; "                raise KeyError(""k"")"; "                s0 = c"; "                l0 = (c).split(""a"")"; "        else:"; "            b2 = (not ((n if False else n) in ROWS))"; "        if (n in ROWS):"; "            for c in ((s).split(""a""))[(-1 * n)]:"; "                i1 = ROWS[1][""K""]"; "                m2 = [((z)[-1:n]).lower() for z in str((""1-b0F"").upper()) if (str(n) != s)]"; "                i2 = n"; "        elif (s)[:int(str(3))]:"; "            s2 = (((s if True else ""F_F-0"") + s))[(ROWS[(1)][""K""] if (not True) else pow(2, 2))]"; "            s0 = s2"; "            for c in s2:"; "                i0 = -(n)"; "                i0 = i0"; "        else:"; "            i0 = pow(3, 1)"; "            if (-(n) in ROWS):"; "                i0 += int(s, 8)"; "                s0 = s"; "        if (s != s):"; "            for c in [""b"", ""0""]:"; "                s2 = (((""2"".split(""a""))[n]).replace(""1:"", (c + s))).upper()"; "                s1 = (f""{((s).zfill(n)):>{3}}"" + """".join((""b%"").split(""0"")))"; "                s1 = (s2).upper()"; "            if (ROWS[1][""K""] == TABLE[s]):"; "                b1 = (n <= (n % -3))"; "                l0 = (f""{((n % 7)):<4}"").split(""0"")"; "            elif (s1)[:n]:"; "                i1 = n"; "                b1 = (f""{((n % 7)):b}"").isnumeric()"; "                s0 = ((""2"".join(""a-"".split("".""))).upper())[:n]"; "            m2 = [k for k, w in TABLE.items()]"; "        elif (s != s):"; "            try:"; "                s0 = s"; "            except KeyError:"; "                m0 = [z for z in ((s).split(""a""))[:]]"; "        else:"; "            l2 = (f""{(int('.1%', 8)):<4}"").split(""."")"; "            if (not ord(""A"")):"; "                i0 = ord(s)"; "                b2 = (ROWS[(36 + 2)][""L""] in [k for k, w in TABLE.items()])"; "                m2 = [k for k, w in TABLE.items() if w > 0]"; "    return (s).split(""."")"],
   [([(VStr [58%N]); (VInt (-1))], Returned (VList [(VStr [58%N])])); ([(VStr [70%N;46%N;70%N]); (VInt (12))], Returned (VList [(VStr [70%N]); (VStr [70%N])])); ([(VStr [97%N;37%N;90%N]); (VInt (-1))], Returned (VList [(VStr [97%N;37%N;90%N])]))]);
  (["def f(s, n):"; "    if (n in ROWS):"; "        if ((s + ""22b%1"") not in [""a"", ""0""]):"; "            try:"; "                l2 = (s).split(""a"")"; "            except ValueError:"; "                i0 = len((s).split(""a""))"; "            for c in (s).split(""a""):"; "                i1 = (n - ((9 * 27) + (1 if True else -2)))"; "                s0 = (((""_aZ2F"").upper() * -1))[(ROWS[1][""K""] * -(i1))]"; "                m2 = [s for z in (s0).lower()]"; "        else:"; "            for c in [(""-F:"" and z) for z in (""aab_1"").split(""0"") if (n in ROWS)]:"; "                s2 = c"; "                s0 = str((2 * s))"; "                s0 = (((s2).split("".""))[(n + n):])[(n * int(n))]"; "            i0 = int(str(n))"; "        if (not (not True)):"; "            for c in [("".-2 "").replace(""2"", ""F1a"") for z in str(n)]:"; "                s2 = (""2"".join([c for z in ""."".split(""."")]) if (("".1ab"".split("".""))[-3] not in TABLE) else c)"; "                raise KeyError(""k"")"; "            l1 = (((""F-Fb"" if True else s)).split(""a""))[int(""20""):]"; "            s2 = s"; "        elif (n <= ord(""2F0_F"") < int(str(n))):"; "            if ((not n) and (n <= n < (1))):"; "                s1 = s"; "                i0 = ROWS[pow(10, 8)][""K""]"; "                i0 = n"; "            else:"; "                l2 = (s).split(""0"")"; "        else:"; "            n += n"; "            for c in [s for z in (2 * ""_:2_b"")]:"; "                m1 = [(z * 0) for z in (c)[:n] if ((n * -1) < len("" "".split(""a"")))]"; "                b2 = (n == (len(c) * int(s, 8)))"; "                s0 = (ROWS[(31 + n)][""L""] + s)"; "            s2 = s"; "        for c in ("":"".join([""b"", ""0""])).split(""a""):"; "            for c in (c).split(""a""):"; "                s1 = f""{(str((n * 3))):>04}"""; "            n += int(s, 2)"; "    s2 = chr(n)"; "    s0 = str(s2)"; "    try:"; "        l0 = (((s).split(""0""))[:int(s0, 8)])[int((s2).lower()):]"; "    except ValueError:"; "        try:"; "            s1 = (((s2).zfill(n)).replace("":Z"", s0)).replace(""a"", s)"; "        except ValueError:"; "            if (s0).isnumeric():"; "                s0 = ((s).zfill(n) if ((n > -1) or (n in ROWS)) else (s2).lower())"; "            elif (f"":b Z{(n)}b"" + s):"; "                m0 = [((""-"").lower() and (z if True else z)) for z in (f""2Z {(n)} .  a"").split(""a"")]"; "                s1 = f""%%:{((n + TABLE['a']))}"""; "            l1 = (s0).split("":"")"; "            s0 = s0"; "    try:"; "        b0 = (s0 != (s)[int("":-."", 10)])"; "    except ValueError:"; "        s2 += chr(66)"; "        for c in (ROWS[1][""L""]).split(""0""):"; "            return s2"; "            if (len(""-."") <= (1 % 2)):"; "                s0 = s2"; "                s0 = (f""%{(c)}20_Z1"")[int(chr(67)):]"; "                m0 = [s2 for z in (("" "").upper()).split("":"") if (not s2)]"; "    if (len("""".split(""."")) != n):"; "        s2 = chr(92)"; "    return (((s0).split(""a""))[n:])[sum([int(x) for x in s2]):]"],
   [([(VStr [45%N]); (VInt (3))], Returned (VStr [3%N;66%N])); ([(VStr [45%N;70%N;45%N;37%N]); (VInt (2))], Returned (VStr [2%N;66%N])); ([(VStr [98%N]); (VInt (0))], Returned (VStr [0%N;66%N]))]);
  (["def f(s, n):"; "    l1 = (str(n)).split(""0"")"; "    if (f""{(n)}0.F_1"").isnumeric():"; "        s1 = f""{((n - ord(s))):>3}"""; "        try:"; "            i1 = (n if (ROWS[3][""K""] != n) else n)"; "        except ValueError:"; "            m0 = [ROWS[1][""L""] for z in l1 if (-(n) > ROWS[1][""K""])]"; "            m0 = [z for z in (s).split(""."")]"; "    elif s:"; "        for c in l1:"; "            if ((not False) and (s != s)):"; "                m2 = [z for z in (ROWS[1][""L""])[int(str(n)):] if ((s).zfill(n) == z)]"; "                i0 = len(((""b%"" or c)).split("".""))"; "            else:"; "                i0 = ROWS[1][""K""]"; "    s2 = (s1 * -1)"; "    return ((not int(""2."", 2)) or ((n * (1)) <= pow(10, len(s))))"],
   [([(VStr [58%N;45%N;32%N]); (VInt (3))], Raised (XOther "UnboundLocalError")); ([(VStr []); (VInt (-1))], Raised (XOther "UnboundLocalError")); ([(VStr [45%N;70%N;46%N;58%N]); (VInt (0))], Raised (XOther "UnboundLocalError"))]);
  (["def f(s, n):"; "    try:"; "        i2 = n"; "    except ValueError:"; "        try:"; "            l2 = (f""Z.F{((n if False else n))}.a."").split(""0"")"; "        except KeyError:"; "            i0 = int(n)"; "            if ((n * (1)) == i0):"; "                l0 = (s).split(""a"")"; "                i0 = len((f""{(i0):0{3}b}"")[(n - n)])"; "        for c in (f""{('1 . 2'):<06}"").split("":""):"; "            if (ROWS[12][""K""] <= int(s, 10) < TABLE[""a""]):"; "                i2 = -(((n % 10) if (n <= n < n) else sum([int(x) for x in c])))"; "            elif (int(c, 16) > n):"; "                m2 = [f""--ZFF{((z if False else '%:.'))}"" for z in ((c).split("":""))[TABLE[""0""]:ROWS[12][""K""]] if (sum([int(x) for x in s]) in ROWS)]"; "                s0 = (((c).split(""0""))[n]).replace(""F-"", (f""{((1)):0{n*n}b}"")[n])"; "                i1 = -(n)"; "            s0 = f""1{(ROWS[12]['L'])}b.%"""; "    try:"; "        b1 = ((n != ord(""A"")) and (("""").startswith(s) or (s != ""1aFF"")))"; "    except ValueError:"; "        if (("" FZ1."").replace(""%b"", s) not in TABLE):"; "            for c in [s for z in (s).split("":"") if (n <= n < n)]:"; "                m0 = [f""{(1):>{len(s)}}"" for z in (ROWS[12][""L""] and c) if (int("""", 8) >= (n if True else 1))]"; "                m2 = m0"; "                raise KeyError(""k"")"; "            try:"; "                s0 = s"; "            except KeyError:"; "                b2 = (s).startswith(s)"; "                s += s"; "                i0 = ((sum([int(x) for x in """"]) + n) + ord(""0""))"; "        else:"; "            m2 = [k for k, w in TABLE.items()]"; "            for c in [(""_a:"" or s) for z in (s).split(""a"")]:"; "                m0 = [((s or ""Z1"")).zfill((n + (1))) for z in ((c and c)).split(""."") if (int(str(7)) <= pow(2, 12))]"; "                l2 = ((2 * c)).split(""a"")"; "                i2 = -(int(sum([int(x) for x in s])))"; "            s2 = f""{(1):<03}"""; "        i2 = -(int(str(n)))"; "    b2 = ((s * 0) in [""b"", ""0""])"; "    return (b2 or b2)"],
   [([(VStr [70%N;45%N;46%N;97%N]); (VInt (0))], Returned (VBool false)); ([(VStr [70%N]); (VInt (-1))], Returned (VBool false)); ([(VStr []); (VInt (5))], Returned (VBool false))]);
  (["def f(s, n):"; "    s1 = f""{(s):>04}"""; "    if ((n if False else 13) <= n < ROWS[1][""K""]):"; "        if ((not ""b FZ"") or (True or True)):"; "            i2 = int(n)"; "            if (str(n)).isnumeric():"; "                b1 = (i2 <= (int("":120"") + i2) < ROWS[1][""K""])"; "            elif (s1 != s):"; "                m0 = [str((3 * i2)) for z in (("".b  0"")[:i2]).zfill(i2)]"; "                i2 += i2"; "                s0 = s1"; "            else:"; "                l2 = (s).split(""."")"; "                i1 = (i2 % -3)"; "                i2 = len(s1)"; "            i2 += i2"; "        return (s + (s1).zfill(i2))"; "    else:"; "        n += len(str(n))"; "    i2 = n"; "    if ((s * 1)).isnumeric():"; "        i2 = ROWS[1][""K""]"; "        i2 = (n % 10)"; "    else:"; "        if ((s != """") or (n <= i2)):"; "            b1 = (((""b"").split(""a""))[((1) + i2)] == s1)"; "            for c in s:"; "                l0 = (((""Z-"")[2:n])[-(0)]).split(""0"")"; "                s2 = ((ROWS[1][""L""] or (""0 0"")[i2:n]) and s)"; "                continue"; "        else:"; "            try:"; "                s2 = (2 * s)"; "            except KeyError:"; "                m0 = []"; "            i2 = i2"; "        for c in []:"; "            try:"; "                m0 = [c]"; "            except ValueError:"; "                s2 = (((c and ""Z2_"") and c) + ((s1)[i2:] or s))"; "            i0 = i2"; "            if (f""_%%-{(s1)}:"" in [k for k, w in TABLE.items() if w > 0]):"; "                s2 = s1"; "                i0 = (ROWS[12][""K""] % -3)"; "                l2 = (s).split(""0"")"; "            else:"; "                i2 = int(""-65"")"; "        for c in [s for z in s1]:"; "            return f""{(-(n)):08b}"""; "            try:"; "                i2 = sum([int(x) for x in s1])"; "            except ValueError:"; "                i2 = int(str(ROWS[int(""-89"")][""K""]))"; "    return ((("""".split("".""))[n] or s1)).split(""0"")"],
   [([(VStr [95%N;32%N;58%N]); (VInt (-2))], Raised (XExn IndexError)); ([(VStr [95%N]); (VInt (3))], Raised (XExn IndexError)); ([(VStr [70%N;50%N;95%N]); (VInt (3))], Raised (XExn IndexError))]);
  (["def f(s, n):"; "    for c in ((""_"").replace(""0_"", s) or s):"; "        try:"; "            s1 = str(c)"; "        except KeyError:"; "            for c in (("".%11"").zfill(n)).split(""0""):"; "                i1 = n"; "                l2 = (c).split(""0"")"; "                s0 = ((f""a0{(2)}:0"").replace(""%b"", (c if True else s))).upper()"; "            for c in ROWS[12][""L""]:"; "                b2 = ((n >= n) and (s in [k for k, w in TABLE.items() if w > 0]))"; "                m1 = [c, ((c).split("".""))[n]]"; "                s0 = f""%%.aa{(n)}a"""; "            l2 = (f""_{(c)}%_FZ%"").split("":"")"; "        for c in ((c).replace(""F"", s)).split(""a""):"; "            for c in (c).lower():"; "                b1 = ((c).zfill(int(str(n))) != c)"; "                s0 = (c).replace(""_F"", c)"; "                i1 = n"; "        try:"; "            m1 = [""a""]"; "        except ValueError:"; "            for c in (c).split(""0""):"; "                l0 = ((c).lower()).split(""a"")"; "    for c in (s).split("":""):"; "        i2 = int(int(str((n % 2))))"; "        if ((n <= (1) < n) and (""_10Z"" in [])):"; "            for c in [k for k, w in TABLE.items()]:"; "                i2 = int((f""212 {(i2)}%."")[sum([int(x) for x in ""0.""])], 2)"; "                i0 = n"; "                b0 = (c not in TABLE)"; "            try:"; "                s0 = ((c + (c and "" 0"")) + f""{(len(':Z0F:')):x}"")"; "            except ValueError:"; "                l1 = ((("":"" * 1)).zfill(ord("" ""))).split(""."")"; "    for c in ((s or s)).split(""a""):"; "        l0 = ((f""{(s):<03}"").split(""0""))[:]"; "        b2 = (str(c) in [""a"", ""0""])"; "        i1 = int(str(TABLE[""0""]))"; "    if (n == int(s, 16)):"; "        for c in ((""01:"" + s)).split("".""):"; "            for c in [ROWS[12][""L""] for z in (c).split(""0"")]:"; "                s1 = s"; "                i1 = ((len(""ZFFaF"".split(""."")) if (n <= n < 1) else int(str(n))) * ROWS[(n if True else n)][""K""])"; "                b0 = ((ROWS[1][""K""] >= i1) or (c).startswith((""%"".split(""a""))[n]))"; "            continue"; "            if (ROWS[(1)][""K""] < int(s)):"; "                s0 = s"; "            else:"; "                s1 = ((s + (""-"")[n]))[n:len((c).split(""a""))]"; "                i0 = ((-((1)) * n) + (n % -3))"; "                m1 = [k for k, w in TABLE.items()]"; "        l2 = (((s)[n])[n]).split("":"")"; "        if (n in ROWS):"; "            s += s"; "        else:"; "            if ((s)[:n] not in TABLE):"; "                i1 = n"; "            elif ((""_ZF"".split("".""))[n]).isnumeric():"; "                b1 = (not (s and ""2"".join(""."".split("".""))))"; "                b1 = (((n * n) % 7) <= n < int(str(int(s, 2))))"; "                i1 = n"; "            else:"; "                i1 = TABLE[""a""]"; "                l1 = (str(n)).split("":"")"; "            return [k for k, w in TABLE.items()]"; "    return (s in [""a"", ""0""])"],
   [([(VStr [37%N;90%N;90%N;97%N;37%N]); (VInt (-1))], Raised (XExn ValueError)); ([(VStr [90%N]); (VInt (0))], Raised (XExn ValueError)); ([(VStr [45%N]); (VInt (-1))], Raised (XExn ValueError))]);
  (["def f(s, n):"; "    b2 = (chr(109) in [z for z in (""_."").split("":"") if (n > n)])"; "    try:"; "        i0 = pow(3, 0)"; "    except KeyError:"; "        if b2:"; "            if b2:"; "                s2 = ROWS[ROWS[12][""K""]][""L""]"; "                m2 = [k for k, w in TABLE.items()]"; "                m1 = [s2 for z in ((s).split("":""))[int("" F0a."", 10):]]"; "            try:"; "                l1 = ((s).split("".""))[(ord(""A"") + ord(""Z0F"")):n]"; "            except ValueError:"; "                i0 = len((s).split(""a""))"; "                m1 = [z for z in s]"; "            for c in s:"; "                n += n"; "                i1 = (len(s) - ROWS[1][""K""])"; "        else:"; "            s0 = chr(121)"; "            for c in (str(s)).split(""0""):"; "                m1 = [s0]"; "            for c in s:"; "                b0 = (len((""-"").split(""a"")) in ROWS)"; "                s2 = (s0)[:n]"; "                l1 = (str(n)).split(""0"")"; "        s += (ROWS[1][""L""] and s)"; "    n += n"; "    try:"; "        i2 = (n % 7)"; "    except ValueError:"; "        for c in chr(103):"; "            for c in [(c).replace(""%"", ""."") for z in s if (b2 or False)]:"; "                s1 = (((2 * c))[:(n if b2 else n)] if ((n % 10) <= (n + n) < n) else chr(n))"; "                b2 = b2"; "    return (s)[:len(f""Z%%%2{(s)} aa"")]"],
   [([(VStr []); (VInt (0))], Returned (VStr [])); ([(VStr [32%N;95%N;32%N;49%N;98%N]); (VInt (2))], Returned (VStr [32%N;95%N;32%N;49%N;98%N])); ([(VStr [70%N]); (VInt (2))], Returned (VStr [70%N]))]);
  (["def f(s, n):"; "    if (TABLE[""0""] <= sum([int(x) for x in s]) < n):"; "        for c in s:"; "            for c in [s, ROWS[1][""L""]]:"; "                i2 = ord(""A"")"; "                c += (c or (c)[:3])"; "                s2 = chr(122)"; "            try:"; "                l2 = ((f""{(0):08b}"").lower()).split(""a"")"; "            except KeyError:"; "                b0 = (ROWS[1][""L""]).startswith("""".join((s).split(""a"")))"; "                s1 = s"; "                i1 = TABLE[""0""]"; "        for c in (s or (s and s)):"; "            b1 = (((""-"")[n]).replace(""-_"", (c and c))).isnumeric()"; "    elif (sum([int(x) for x in s]) * n):"; "        for c in [(s if True else z) for z in s if (n < 0)]:"; "            raise KeyError(""k"")"; "            if (s).startswith((s if True else """")):"; "                m1 = []"; "                m1 = m1"; "                m0 = [(z)[:] for z in ((""1"".split(""a""))[1:n])[:] if ((-3 % 7) >= n)]"; "            elif (c in TABLE.keys()):"; "                i2 = (n if (ROWS[12][""K""] <= int(c, 2) < (n if False else n)) else int(int(""ZZF"", 2)))"; "            else:"; "                s += s"; "                i0 = n"; "                i2 = i0"; "        if (TABLE[""a""] in ROWS):"; "            if (("""" if False else s) == (""b-F:2"")[n]):"; "                s2 = s"; "            for c in (str(s)).split("".""):"; "                s1 = (0 * (s + (s)[n]))"; "                s2 = f"" __{(-(TABLE['a']))} """; "    s0 = (s)[n]"; "    s1 = s"; "    return int(""-79"")"],
   [([(VStr [46%N;97%N;37%N;32%N;95%N]); (VInt (12))], Raised (XExn ValueError)); ([(VStr [90%N;46%N]); (VInt (12))], Raised (XExn ValueError)); ([(VStr [50%N]); (VInt (1))], Raised (XExn IndexError))]);
  (["def f(s, n):"; "    for c in [k for k, w in TABLE.items()]:"; "        if ((8 if True else -3) != n):"; "            if (("" 1Z"")[n] in TABLE.keys()):"; "                l0 = (s).split(""."")"; "            else:"; "                l1 = ((2 * (s).zfill(n))).split(""."")"; "            m2 = [((""b1"").split(""a""))[int(""4"")] for z in s]"; "            try:"; "                m0 = [f""_.1{(int('89'))}-b"" for z in (("" .Z"").split(""a""))[(-3 % 2):ROWS[1][""K""]] if ((False or True) or (c in m2))]"; "            except ValueError:"; "                s0 = c"; "        if (int(""-"", 2) <= ROWS[1][""K""]):"; "            for c in (s).split("".""):"; "                c += ROWS[1][""L""]"; "            for c in s:"; "                s0 = ((str(n)).split("":""))[n]"; "                i0 = ROWS[TABLE[""0""]][""K""]"; "            n += n"; "        else:"; "            for c in [("" __"" if False else """") for z in f""-b1{((1))}1:0%1""]:"; "                b0 = (str(int(s, 10)) == f""-F0F {(sum([int(x) for x in s]))}1-_%%"")"; "                l0 = (f""{((s).zfill(38)):<06}"").split(""0"")"; "                i2 = (n * ROWS[(-3 % 10)][""K""])"; "            for c in [(z or ""2.b"") for z in (s).split(""."") if (not "":1-_:"")]:"; "                i1 = (n if (not (n == -1)) else (n - (n if False else n)))"; "    if (-(n) == n):"; "        if (("" "").zfill(n) in TABLE):"; "            s += (""1"".join([])).upper()"; "            for c in ((""ZF0"").split(""0""))[:n]:"; "                i2 = n"; "                b2 = ((n >= (2 + n)) and ((n * i2) != i2))"; "                i2 = pow(3, 13)"; "        elif (n <= n):"; "            i1 = (n * (len(""Z1"".split(""a"")) % 7))"; "        else:"; "            i2 = n"; "            m0 = [z for z in (s).split(""a"")]"; "            if (f"" -F_{('')}F.1aF"").isnumeric():"; "                i1 = int(((s).upper() and f""{(n):x}""), 2)"; "                l2 = ((s).split("":""))[i1:]"; "        n += int(f""{(s):<06}"", 2)"; "    else:"; "        for c in [(z)[:] for z in ("" Zb%"".split(""a""))[36:16] if (n <= -2 < 2)]:"; "            l2 = (f""{(('F1a.a'.split('a'))[-2]):<06}"").split(""."")"; "            if (c != chr(1)):"; "                s2 = (((c).lower() * 1))[:]"; "            elif len(l2):"; "                m2 = [f""2__{((n * n))}2b."" for z in (f""{(c):>04}"").upper() if (f""{(z):3}"").isnumeric()]"; "            else:"; "                i0 = pow(3, len(s))"; "                i1 = ROWS[1][""K""]"; "                i1 = (ord(""a"") + (i0 - sum([int(x) for x in c])))"; "            m0 = [f""{(n):<4}"" for z in l2 if (ord(c) < int("""", 16))]"; "        return (ROWS[12][""L""]).startswith((s2)[:n])"; "    s0 = s"; "    try:"; "        s2 = (s0).zfill(TABLE[""0""])"; "    except ValueError:"; "        for c in (("" 1 "" if True else ""b. :-"")).split(""a""):"; "            if ("""".join([""a""])).isnumeric():"; "                l0 = (((s + ""0_.0"")).split(""0""))[:n]"; "                i1 = int(c)"; "            for c in (s0).split("":""):"; "                return [str(""%:2%_"") for z in (s0).split(""0"") if (False and True)]"; "        for c in (""F"".join(""_-"".split(""a""))).split("".""):"; "            b0 = (n in ROWS)"; "            s2 = f""F-Z:F{((('11b'.split('.'))[n] and c))}2 ab"""; "    return ROWS[1][""L""]"],
   [([(VStr [97%N;70%N]); (VInt (-2))], Raised (XExn IndexError)); ([(VStr [48%N]); (VInt (5))], Raised (XExn IndexError)); ([(VStr [45%N]); (VInt (2))], Raised (XExn IndexError))]);
  (["def f(s, n):"; "    s0 = (((s if True else s))[TABLE[s]]).replace(""-1"", ((s)[:]).upper())"; "    s0 = s0"; "    return (n in ROWS)"],
   [([(VStr [98%N;98%N;48%N]); (VInt (3))], Raised (XExn KeyError)); ([(VStr [90%N;95%N;97%N;70%N;70%N]); (VInt (-2))], Raised (XExn KeyError)); ([(VStr [95%N;37%N;48%N;45%N]); (VInt (12))], Raised (XExn KeyError))]);
  (["def f(s, n):"; "    if (not (True and True)):"; "        if (n <= (n + 3) < pow(3, 18)):"; "            try:"; "                s2 = (""Z"".join([""b"", ""0""]))[TABLE[""0""]:]"; "            except ValueError:"; "                b0 = (n in ROWS)"; "                return (s).isnumeric()"; "            m2 = [k for k, w in TABLE.items()]"; "            s1 = ROWS[sum([int(x) for x in s])][""L""]"; "        for c in [z for z in (s).split("":"") if (z not in TABLE)]:"; "            try:"; "                l1 = ((""."".join("".0_b"".split(""a""))).split(""0""))[:ord(""A"")]"; "            except ValueError:"; "                i0 = (n % 2)"; "            s1 = f""{(n):0>5}"""; "        m1 = []"; "    elif ((s and s)).replace(""2-"", f"":{(n)}Z:""):"; "        if (not (2 <= n < -0)):"; "            if (("" Z0F."").zfill(n) in [""a"", ""0""]):"; "                raise NotImplementedError"; "                s0 = s"; "            else:"; "                i2 = -(n)"; "        else:"; "            return (s).split(""."")"; "            try:"; "                l1 = (f""{((s)[:n]):<03}"").split("":"")"; "            except ValueError:"; "                l0 = (str(s)).split(""0"")"; "                return chr((n % 2))"; "            if ((s in []) or (s in TABLE)):"; "                b2 = ((f""{('a'):<06}"" and (""00%1"" if True else s)) not in TABLE.keys())"; "                m0 = []"; "            elif (sum([int(x) for x in s]) <= -(n) < n):"; "                b0 = ((2 * s)).isnumeric()"; "                i0 = (ord(""A"") if (s).isnumeric() else len(f""{(s):3}""))"; "            else:"; "                n += sum([int(x) for x in f""{('-a'):3}""])"; "                m1 = [""a""]"; "        if ((n * (1)) in ROWS):"; "            s1 = (((s and s) and ("".:_2"".split(""a""))[-1]) and f""{((s).replace('a', s)):<03}"")"; "            m0 = [""b"", ""0""]"; "        elif (not (s).startswith(s)):"; "            try:"; "                i1 = int(str(TABLE[""a""]))"; "            except ValueError:"; "                s0 = s"; "                return (ROWS[12][""L""]).isnumeric()"; "        else:"; "            for c in s:"; "                continue"; "                return (f""b.{(n)}b-0F"").split(""a"")"; "                l1 = (((s and s)).split("":""))[((n if True else (1)) * n):n]"; "    else:"; "        if ((s * 3) == chr(61)):"; "            if (not len(""b0"")):"; "                s1 = s"; "                l0 = (s).split(""0"")"; "                b0 = (n in ROWS)"; "            elif (("""" not in TABLE) and (True or False)):"; "                l0 = ((f""{(''):3}"").split("".""))[:]"; "            else:"; "                s0 = s"; "            s1 = str((s or s))"; "            s1 = s1"; "        elif ((0 >= n) or (0 in ROWS)):"; "            if ((s).lower() != ROWS[1][""L""]):"; "                s2 = (((s).zfill(n)).replace(""a"", (""%"")[:n])).replace(""% "", ((s)[:n])[:n])"; "            else:"; "                b2 = ((n - TABLE[s]) < int(n))"; "    if ((s + s1)).startswith(c):"; "        s1 = f""{((int('+56') * (4 if True else n))):03}"""; "    else:"; "        for c in ""b"".join((s).split("":"")):"; "            n += sum([int(x) for x in (""0"")[n]])"; "            if ((s).startswith(s) and (n == 1)):"; "                i1 = (n if (f""{('2__02'):>{len(s)}}"").isnumeric() else n)"; "                s1 = ((s).upper() + ((""1_ _"").lower())[:ROWS[1][""K""]])"; "            else:"; "                i2 = (TABLE[(c if True else c)] * n)"; "                return (s1).startswith(s1)"; "            if ((False or True) and (True or True)):"; "                b1 = ((c).lower() in [k for k, w in TABLE.items() if w > 0])"; "            else:"; "                s1 = (((s)[:n] or c) * 3)"; "                l0 = (c).split("":"")"; "        i1 = ord((c)[ROWS[12][""K""]:n])"; "    raise KeyError(""k"")"; "    if (("":_.0"".split("".""))[n]).isnumeric():"; "        i0 = n"; "        if (len("":1%"".split(""."")) <= i0 < (0 * n)):"; "            s2 = s"; "    return -(n)"],
   [([(VStr []); (VInt (-2))], Raised (XOther "UnboundLocalError")); ([(VStr [32%N;32%N;97%N;45%N]); (VInt (0))], Raised (XOther "UnboundLocalError")); ([(VStr []); (VInt (-1))], Raised (XOther "UnboundLocalError"))]);
  (["def f(s, n):"; "    try:"; "        b1 = (((n * n) in ROWS) or (s).isnumeric())"; "    except ValueError:"; "        i1 = -(n)"; "    return (not n)"],
   [([(VStr [95%N;45%N;95%N;58%N;37%N]); (VInt (1))], Returned (VBool false)); ([(VStr []); (VInt (1))], Returned (VBool false)); ([(VStr []); (VInt (0))], Returned (VBool true))]);
  (["def f(s, n):"; "    s1 = s"; "    m1 = [ROWS[12][""L""] for z in (s1).split("":"")]"; "    return []"],
   [([(VStr [46%N;70%N;37%N;90%N;50%N]); (VInt (0))], Returned (VList [])); ([(VStr [97%N]); (VInt (2))], Returned (VList [])); ([(VStr [48%N;45%N]); (VInt (3))], Returned (VList []))]);
  (["def f(s, n):"; "    l2 = (""."".join((""bF_1"").split(""a""))).split(""."")"; "    if ((38 * n) <= (n + n) < len(l2)):"; "        for c in f""{(1):>04}"":"; "            if (f""2%  a{(n)}"").startswith(c):"; "                break"; "                l2 = (ROWS[int(""2 :."", 16)][""L""]).split(""a"")"; "            elif ((38 <= n < (1)) and (s == s)):"; "                n += n"; "                l2 = l2"; "                l0 = (((s).split("".""))[:])[(sum([int(x) for x in c]) if (n < n) else int(""F1"", 16)):]"; "        if (not (s).startswith(s)):"; "            try:"; "                s0 = s"; "            except ValueError:"; "                b0 = (((s and s)).lower() in [k for k, w in TABLE.items()])"; "            s2 = f""{(((0 * 'F-1FZ')).upper()):<06}"""; "            if (n != int(str(n))):"; "                i2 = n"; "                i2 = ord((s)[:len(l2)])"; "                i0 = n"; "        elif n:"; "            if ((False and True) and (n == 35)):"; "                i1 = int(s)"; "            else:"; "                l2 = l2"; "    l1 = l2"; "    i0 = int("" 58"")"; "    return s"],
   [([(VStr []); (VInt (0))], Returned (VStr [])); ([(VStr [50%N;48%N;46%N;50%N]); (VInt (3))], Returned (VStr [50%N;48%N;46%N;50%N])); ([(VStr [49%N;97%N;49%N;97%N;49%N]); (VInt (0))], Returned (VStr [49%N;97%N;49%N;97%N;49%N]))]);
  (["def f(s, n):"; "    i1 = (n * n)"; "    for c in ((s).zfill(n)).split(""a""):"; "        for c in (chr(117)).split("":""):"; "            if (i1 <= TABLE[""a""] < i1):"; "                l0 = (c).split(""0"")"; "                s0 = str(TABLE[""a""])"; "    return (((""F."" if False else s) and f""{('b'):<06}"")).split(""."")"],
   [([(VStr [32%N]); (VInt (0))], Returned (VList [(VStr [98%N;48%N;48%N;48%N;48%N;48%N])])); ([(VStr [46%N;50%N]); (VInt (-2))], Returned (VList [(VStr [98%N;48%N;48%N;48%N;48%N;48%N])])); ([(VStr []); (VInt (0))], Returned (VList [(VStr [])]))]);
  (["def f(s, n):"; "    try:"; "        b2 = (((s)[n:] + (""0"").lower())).startswith(f""{(ROWS[n]['K']):02X}"")"; "    except ValueError:"; "        l0 = (s).split(""."")"; "        return l0"; "        i0 = n"; "    if (len("""".split(""a"")) != int(s)):"; "        if (n <= n < n):"; "            try:"; "                i0 = TABLE[""0""]"; "            except ValueError:"; "                s2 = ((s).zfill((-1 * 1)) and s)"; "                i1 = int(((""_Z1 "").lower()).replace(""b_"", f""{((1)):0{len(s)}b}""))"; "        elif (f""{(n):0{3}b}"" == f""{(n)}1. ""):"; "            for c in (s).split(""0""):"; "                s1 = (s).upper()"; "                i0 = int(str(n))"; "            s1 = f""Z0 {(1)}-2"""; "        if (not (not (1))):"; "            if (f"".1.b.{(n)}_FF_1"").isnumeric():"; "                l1 = (((s)[:] or (""%:1-."").zfill(n))).split(""0"")"; "                l1 = (s).split(""."")"; "                s0 = s"; "            elif (s == s):"; "                s0 = ((s or (s).zfill(n)) + s)"; "                m2 = [s]"; "                s0 += f""{(n):b}"""; "            s += s"; "            b2 = (f""{(ROWS[12]['K'])}2 "" in TABLE.keys())"; "        else:"; "            if (n != n):"; "                b0 = (f""Z..0%{((s)[:7])}"").isnumeric()"; "                i2 = n"; "                i0 = ord((str((1))).zfill(n))"; "            else:"; "                s1 = f""{(s):<03}"""; "    else:"; "        if ((0 <= n < n) and ("" "" != ""a"")):"; "            s0 = (((0 * s) if (s in TABLE.keys()) else s) and s)"; "            try:"; "                s0 = s"; "            except ValueError:"; "                n += n"; "                l1 = ((""."".join(""F-"".split(""a""))).upper()).split("":"")"; "            raise NotImplementedError"; "        if (n <= n):"; "            i1 = n"; "        else:"; "            for c in ((s)[:n]).lower():"; "                s0 = (((""2-1"".split(""a""))[n:n])[((1) if False else n):n])[n]"; "                i1 = -(int((-1 % 2)))"; "            s += f""Z:b1{(s)}-:1"""; "        if (TABLE[""Z.2a""] < ord(""a"")):"; "            n += -(ord(""2""))"; "            s0 = str(ROWS[1][""L""])"; "            if ((""Z F"".split(""a""))[n] in [s for z in ""_"".split(""."") if True]):"; "                m2 = []"; "        else:"; "            b0 = ((n % -3) >= -(n))"; "    l1 = (s).split(""a"")"; "    for c in []:"; "        for c in [(c)[:]]:"; "            for c in l1:"; "                i0 = n"; "        try:"; "            s1 = (c if (n < n) else (l1)[ord(s)])"; "        except ValueError:"; "            s0 = (s and f"" {((n % 7))}bZ%"")"; "            for c in (str(n)).split(""a""):"; "                i1 = n"; "                m2 = [s0 for z in (ROWS[i1][""L""]).split(""0"") if ((False or False) and (z).startswith(c))]"; "                s1 = (0 * c)"; "    if ((s not in TABLE) and (n in ROWS)):"; "        if (len(s) == n):"; "            if (n > ord(""%:ZZ-"")):"; "                b1 = (n < ROWS[(n - (1))][""K""])"; "                n += int(s, 16)"; "            if (len(l1) != TABLE[s]):"; "                i0 = n"; "                s += f""bb{(s)}0F11"""; "            elif (s).startswith((s).replace("".Z"", s)):"; "                s1 = ((s)[:])[len(l1)]"; "            if (ord(""z"") <= ROWS[n][""K""]):"; "                i1 = TABLE[(s if (True or True) else s)]"; "                m1 = [k for k, w in TABLE.items() if w > 0]"; "                s2 = s"; "            elif ((not False) and (n in ROWS)):"; "                b2 = ("""".join([""Z :2"" for z in l1]) not in [""a"", ""0""])"; "                m2 = []"; "    else:"; "        i2 = n"; "        if (("""" or ""b:-1"") != ROWS[12][""L""]):"; "            raise ValueError(""x"")"; "            l0 = (s).split(""a"")"; "        else:"; "            for c in l1:"; "                i1 = ((n - int(i2)) * i2)"; "                i2 = (ROWS[n][""K""] % 2)"; "            if ((s).isnumeric() or (i2 < i2)):"; "                l2 = (f""-bbZ{((s)[:])}_b."").split(""."")"; "                b1 = (ord(""0"") <= n < int((i2 if True else n)))"; "                s += s"; "        try:"; "            i1 = pow(3, 16)"; "        except ValueError:"; "            if (s).isnumeric():"; "                s0 = s"; "                n += i2"; "            if (not (s).replace(""1."", s)):"; "                l2 = (s).split(""a"")"; "                s0 = (((s).split("":""))[:])[(sum([int(x) for x in s]) - pow(3, 14))]"; "                s0 = f""{(1):0{3}b}"""; "            elif (("""").zfill(n) != s):"; "                return ((s and s) and (s + ""2F Z-""))"; "            else:"; "                l0 = (s).split(""."")"; "                n += int(str(i2))"; "    if (n > (n % -3)):"; "        if ((s)[:n] in [k for k, w in TABLE.items() if w > 0]):"; "            for c in ((""Z%2Z "")[-1:n]).split(""0""):"; "                b1 = (s).startswith(((""01ZZ"".split("".""))[n])[int(n):])"; "            for c in [k for k, w in TABLE.items() if w > 0]:"; "                break"; "            try:"; "                s1 = (s).replace(""2a"", s)"; "            except ValueError:"; "                m1 = [k for k, w in TABLE.items() if w > 0]"; "                s1 = f""{(n):x}"""; "        else:"; "            if (not int(str(n))):"; "                raise KeyError(""k"")"; "                s2 = f""{(((n % 10) * n))}% baa"""; "            for c in (chr(n)).split(""a""):"; "                i2 = ROWS[12][""K""]"; "        for c in ((s).split(""a""))[int(""-"", 8):]:"; "            for c in ((l1)[:(1)])[int(""%.-_""):n]:"; "                b0 = ((c).lower()).startswith((s).lower())"; "                s0 = f""{(c):<03}"""; "            if b0:"; "                i0 = n"; "        try:"; "            i0 = (n % 2)"; "        except KeyError:"; "            s1 = (((c).zfill(n) + (s0 + ""%.__""))).replace(""- "", str(TABLE[""0""]))"; "            for c in (f"" ZZ{(s1)}1"").split(""0""):"; "                i1 = n"; "                b1 = b0"; "            s0 = (((s1 and c))[pow(10, len("".1.Z:"")):]).lower()"; "    elif ((s == s) and (n == 7)):"; "        for c in (l1)[(n if False else (1)):]:"; "            if (int(str(n)) <= n < ROWS[1][""K""]):"; "                continue"; "            elif ((c or "" -"") == (c).zfill(n)):"; "                i0 = -(n)"; "            else:"; "                m0 = []"; "                continue"; "                continue"; "            if ((n % 7) <= n < len("""")):"; "                s1 = ROWS[12][""L""]"; "                i0 = len(((""0 -."").split(""a""))[:(n * n)])"; "            else:"; "                l2 = l1"; "                m0 = [""a""]"; "                s0 = s"; "            if (f""-2{(3)}Z"").isnumeric():"; "                b1 = (n < TABLE[""a""])"; "                b2 = (((s).split("":""))[(n if b1 else -1)] not in TABLE)"; "                s0 = c"; "            elif (ROWS[1][""L""] != s):"; "                s2 = c"; "                i2 = (len((c).split(""."")) + (n - int(n)))"; "                raise NotImplementedError"; "    return n"],
   [([(VStr [90%N;70%N]); (VInt (-2))], Raised (XExn KeyError)); ([(VStr [50%N;97%N;49%N;46%N]); (VInt (3))], Raised (XExn KeyError)); ([(VStr [37%N;37%N;46%N;97%N]); (VInt (-2))], Raised (XExn KeyError))]);
  (["def f(s, n):"; "    i1 = (n + TABLE[s])"; "    for c in (f""122 F{(-0)}b-1Z"" or s):"; "        for c in [z for z in s]:"; "            s1 = (((""%:%"".split(""a""))[:i1])[n] or (f""{(s):>04}"")[(n - (1))])"; "    return n"],
   [([(VStr []); (VInt (-2))], Returned (VInt (-2))); ([(VStr [45%N;45%N;90%N;50%N;58%N]); (VInt (3))], Raised (XExn KeyError)); ([(VStr []); (VInt (3))], Returned (VInt (3)))]);
  (["def f(s, n):"; "    try:"; "        b1 = (s != (chr(83) and s))"; "    except KeyError:"; "        if ((0 in ROWS) or ((1) <= n)):"; "            b1 = (int(str(n)) in ROWS)"; "            try:"; "                m2 = [z for z in s]"; "            except KeyError:"; "                l0 = (ROWS[1][""L""]).split(""a"")"; "                i2 = ROWS[1][""K""]"; "                raise NotImplementedError"; "            for c in str(f""_%{(s)}2b%b%""):"; "                m1 = [f""-{((0 * '% %-0'))}0_:"" for z in (("""".split("".""))[:n])[int(c):TABLE[s]]]"; "                l0 = (((c + ""ba"")).split("":""))[:(sum([int(x) for x in ""_0""]) if (b1 or True) else int(s, 8))]"; "                break"; "    for c in [k for k, w in TABLE.items() if w > 0]:"; "        s += (s if (True or False) else f""{(n):b}"")"; "        for c in (str(c) if (n <= n < -3) else s):"; "            if (str(c) not in TABLE):"; "                m1 = [s for z in c if ((not n) or (-3 <= n < n))]"; "            try:"; "                i2 = ROWS[1][""K""]"; "            except KeyError:"; "                break"; "                l2 = (((c)[(1)]).split(""0""))[n:n]"; "                l0 = (f"":-b 2{(s)}%."").split(""0"")"; "        if (pow(10, len(""a"")) in ROWS):"; "            for c in [k for k, w in TABLE.items()]:"; "                l0 = (str((s).upper())).split(""a"")"; "                i0 = int(str(((2 * n) - n)))"; "            try:"; "                s2 = (str(n)).upper()"; "            except KeyError:"; "                m0 = [((s)[-1:]).lower() for z in ((c + c)).split("":"") if (c != ("":bZ"".split("".""))[n])]"; "            i2 = (n - len(("".1 21"".split(""a""))[n]))"; "        elif (ord(""A"") + len(s)):"; "            if (f""{(1):0>5}"" in TABLE.keys()):"; "                s1 = s"; "                s1 = c"; "            elif (ord(""0"") if (""a:Z"" in TABLE.keys()) else (n * n)):"; "                m2 = [s for z in (2 * (s).lower()) if ((not z) and (""0"").startswith(c))]"; "                c += (c + s)"; "    try:"; "        s2 = ((("""").lower() or (""%"").replace(""%_"", s)) and s)"; "    except KeyError:"; "        try:"; "            b0 = (s not in [""a"", ""0""])"; "        except KeyError:"; "            for c in ((s).zfill(n)).split(""0""):"; "                b0 = ((c).lower()).startswith(f"". {(n)}%12%-"")"; "            if (not n):"; "                n += sum([int(x) for x in s])"; "                s2 = s"; "            elif ((n + n) > int(s, 10)):"; "                b0 = (int(s, 2) in ROWS)"; "                s += s"; "                s2 = (s if (("""").lower() in [""a""]) else s)"; "            else:"; "                l0 = (((""_ a0%"")[:-0]).split(""0""))[:n]"; "                i0 = ((n - ROWS[n][""K""]) - sum([int(x) for x in (""."" if False else s)]))"; "        for c in ((s if True else s)).split("".""):"; "            m0 = [f""b:{(n)}a%:_"" for z in (chr(100) and """".join("""".split("".""))) if (int(3) >= n)]"; "        m2 = [z for z in ((s + "":a% Z"")).upper()]"; "    l1 = ((f""{(s):3}"")[TABLE[""0""]]).split(""0"")"; "    s0 = s"; "    return (n - ord(str(3)))"],
   [([(VStr []); (VInt (12))], Raised (XExn IndexError)); ([(VStr [95%N;50%N;48%N;70%N]); (VInt (-1))], Returned (VInt (-52))); ([(VStr [37%N;37%N;37%N;98%N;50%N]); (VInt (3))], Returned (VInt (-48)))]);
  (["def f(s, n):"; "    for c in ""_"".join(["""", s]):"; "        if (c not in TABLE):"; "            s1 = f""{(ROWS[1]['K']):x}"""; "            for c in ((""-FF 0"").lower()).split("":""):"; "                s2 = s1"; "                return (n > (n * n))"; "                n += n"; "            i1 = ((int(n) if (c in [""b"", ""0""]) else ROWS[1][""K""]) + int((c)[:n], 2))"; "    if (len(""%Z%"") != ((1) + n)):"; "        s2 = s"; "        if (f""1.a-1{(n)}Z-:b"").isnumeric():"; "            if ((n + n) >= int(s2, 10)):"; "                s2 = s2"; "                n += n"; "        elif s2:"; "            return sum([int(x) for x in s2])"; "            if ((""2:%"").upper() == ROWS[12][""L""]):"; "                l2 = (((s * -1) if (not n) else (""02F "").zfill(n))).split("":"")"; "                m2 = [""b"", ""0""]"; "            elif (ROWS[n][""K""] - pow(2, len(s))):"; "                s1 = (((s2)[n:n]).zfill(n) if (int(""-::"", 10) != int(""033"")) else s)"; "            try:"; "                m0 = [f""{(s):>{n*n}}"" for z in ((s2 * 3)).split(""0"") if ((s2 not in TABLE.keys()) and (z in m2))]"; "            except KeyError:"; "                s += s"; "                b1 = (((""Z"")[-3:] and ROWS[12][""L""])).startswith(s)"; "        s1 = f""{(ROWS[ROWS[39]['K']]['K']):x}"""; "    elif sum([int(x) for x in s]):"; "        for c in [f""{(':'):>{3}}"" for z in (s).split(""a"") if (not 22)]:"; "            s0 = (((c or c) + c) or ((s).replace(""b:"", s))[TABLE[""a""]])"; "        return s"; "    try:"; "        s0 = str((f"" a.a{(s)}F."" if (not s) else (s).replace(""_Z"", ""Z--:a"")))"; "    except KeyError:"; "        return (ROWS[1][""L""] == f""20..%{(n)}b2"")"; "    return -(n)"],
   [([(VStr [98%N;98%N]); (VInt (0))], Returned (VBool false)); ([(VStr [50%N;45%N]); (VInt (1))], Returned (VBool false)); ([(VStr [58%N;45%N;97%N]); (VInt (12))], Returned (VBool false))]);
  (["def f(s, n):"; "    s2 = (s).replace(""Z-"", ROWS[sum([int(x) for x in """"])][""L""])"; "    m0 = [k for k, w in TABLE.items()]"; "    if (chr(73) in m0):"; "        if ((""-0Z-."" and ""01 %-"") == (s2)[(1)]):"; "            try:"; "                i2 = len(s2)"; "            except KeyError:"; "                i2 = n"; "            try:"; "                i1 = (len((s).split(""0"")) * TABLE[""a""])"; "            except ValueError:"; "                i2 = TABLE[""a""]"; "                i0 = pow(10, len(ROWS[12][""L""]))"; "        m2 = [""a""]"; "    else:"; "        for c in ((s)[n:]).split(""0""):"; "            try:"; "                s2 = s"; "            except KeyError:"; "                m1 = [c for z in (f""{(c):<06}"").upper() if (not ord(""1""))]"; "        m2 = m0"; "        m2 = [((s2).split(""0""))[n] for z in (s2).split("":"") if ((""Fa%a"")[n]).startswith((z or s))]"; "    try:"; "        i0 = (n % 7)"; "    except ValueError:"; "        for c in m0:"; "            if (("""" and ""2%._"")).startswith(s):"; "                return (f""2Fb{(s2)}00 "").split(""."")"; "                s1 = f""F{(ord('A'))} 00:_"""; "            else:"; "                s0 = s"; "                s2 = s0"; "            if ((0 + 33) < len(""-:"")):"; "                l0 = (((c)[:n]).replace(""a"", s)).split(""a"")"; "            else:"; "                s1 = (s).zfill(n)"; "            s1 = str((0 * s))"; "        if ((-4 == n) or (n != -4)):"; "            s2 = (s2)[n:]"; "            m0 = [s2 for z in ((s2).split(""0""))[ord(""""):] if (s in m0)]"; "            if (f""{(s2):>04}"").startswith((""_"").upper()):"; "                i0 = ((n % 7) + int(s, 8))"; "            elif (n + n):"; "                s += str((n - -2))"; "                m0 = m0"; "                l2 = (((s and s2) or s2)).split("":"")"; "        elif n:"; "            if (not s):"; "                b0 = (not (not (28 + n)))"; "                i1 = (int(str(int(""1"", 10))) % 7)"; "            elif ((n - 1) * sum([int(x) for x in s2])):"; "                i0 = int("" 33"")"; "                s2 += ((s2)[-3])[(n - 29)]"; "            s2 += ""%"".join(m0)"; "    return (f""a {(n)}b%2_."")[n]"],
   [([(VStr []); (VInt (-2))], Raised (XExn KeyError)); ([(VStr [49%N;32%N;90%N;90%N;48%N]); (VInt (3))], Raised (XExn KeyError)); ([(VStr [48%N;46%N;90%N;49%N;37%N]); (VInt (12))], Raised (XExn KeyError))]);
  (["def f(s, n):"; "    if (s).startswith((""_Z"").upper()):"; "        b0 = ((s and (""%_. -"").lower())).startswith(((""b1.b."")[n]).zfill(TABLE[""0""]))"; "        if ((""b_bZb"")[n]).isnumeric():"; "            s2 = (s).lower()"; "        elif (chr(119))[int(str(n)):]:"; "            for c in "":"".join((s).split(""a"")):"; "                continue"; "                return ord(""a"")"; "            for c in ROWS[12][""L""]:"; "                l2 = (f""2_.{(int(s))}0"").split(""0"")"; "                s2 = (0 * ""0"".join((c).split(""."")))"; "    else:"; "        for c in []:"; "            if (((1) in ROWS) or (n <= n < n)):"; "                break"; "                c += ((s + """")).zfill(n)"; "                m2 = [c]"; "            else:"; "                s0 = c"; "                s1 = (s0).zfill(n)"; "            i0 = n"; "        if ((""0"" and s) == s):"; "            for c in [k for k, w in TABLE.items()]:"; "                s2 = (((s).zfill(n)).split(""0""))[((1 if False else n) * (n - 5))]"; "                s0 = s"; "            try:"; "                s1 = ((s).lower() and ""Z"".join([k for k, w in TABLE.items()]))"; "            except KeyError:"; "                i0 = len(f""{(ord(s)):0{3}b}"")"; "                b0 = (not ((""1_:"".split(""a""))[n]).replace(""a"", (""-b"").zfill(-4)))"; "        elif n:"; "            for c in [(""_"" + ""1"") for z in (s).split("":"") if (False or True)]:"; "                l1 = (((""F-:Z"" or ""b"") + ("":_ "").replace("": "", s))).split(""0"")"; "                m0 = [chr(64) for z in (s).split(""."")]"; "                s1 = s"; "            i0 = n"; "            i1 = n"; "    for c in ((s).split("".""))[int(""211"", 8):]:"; "        if (c != (c)[n:]):"; "            for c in (("""").lower())[:]:"; "                i2 = n"; "        else:"; "            try:"; "                m0 = [z for z in ((s).replace(""a"", s)).zfill(ord(s)) if (str(n) != (""%"" or z))]"; "            except KeyError:"; "                s0 = f""_..-{(c)}_"""; "                continue"; "                continue"; "        break"; "    if (s not in TABLE):"; "        if (TABLE[s] <= n):"; "            i1 = (n - n)"; "            if ((-1 * 2) <= ((1) - n) < (i1 * n)):"; "                s2 = s"; "                i0 = int(f""{(chr(78)):<03}"", 16)"; "                l0 = (s2).split(""a"")"; "            elif n:"; "                i1 = sum([int(x) for x in (ROWS[1][""L""])[:(32 if True else i1)]])"; "                l1 = (((""F 2"").lower() if (True and True) else s)).split(""0"")"; "                i0 = ROWS[1][""K""]"; "            else:"; "                l0 = (((s or s)).split(""a""))[:(ROWS[1][""K""] * i1)]"; "        s += ((s and s)).upper()"; "    elif ((s).lower()).startswith(f""{((1)):0{n*n}b}""):"; "        try:"; "            i1 = pow(10, 17)"; "        except ValueError:"; "            try:"; "                s0 = s"; "            except ValueError:"; "                m0 = [f""bb%.{((n - n))}"" for z in (("":%Z"" and s) and f""{(s):<03}"")]"; "        b2 = (int(TABLE[""0""]) <= n < ROWS[1][""K""])"; "        for c in ((""F2F:"").split("".""))[:int(s, 8)]:"; "            if (int(""21"") >= n):"; "                m1 = [s for z in (c or (s + ""FZF"")) if (n >= (32 - 1))]"; "                i2 = (ord(""0"") * n)"; "                b1 = (((n % 2) if b2 else i2) < int(str(-(i2))))"; "            elif c:"; "                s1 = c"; "            for c in (str(""b1"")).split(""0""):"; "                m2 = [k for k, w in TABLE.items() if w > 0]"; "    if (n < n):"; "        raise NotImplementedError"; "        s0 = f""{((n if ((1) >= 4) else (n if True else n))):03}"""; "        if (TABLE[""0""] >= int(str(n))):"; "            for c in (("" "")[:]).split(""a""):"; "                i1 = TABLE[""0""]"; "                i2 = (n - len(f""{(i1):0>5}""))"; "            if ((s0 or ""Fa"") == f""{(s):3}""):"; "                s0 += s0"; "            b0 = (s0).startswith(s)"; "        else:"; "            if ((s0).startswith(s) and (-4 <= n < n)):"; "                s1 = s0"; "                s1 = ""1"".join([(s1).upper() for z in s0 if (False and True)])"; "                s1 = chr(49)"; "            else:"; "                s1 = s"; "                i2 = int(s)"; "                s1 = s"; "            l2 = (s0).split(""."")"; "    else:"; "        b2 = (ord(""a"") < ROWS[n][""K""])"; "    return (s).split(""."")"],
   [([(VStr [97%N;97%N;45%N;45%N]); (VInt (5))], Raised (XExn KeyError)); ([(VStr [46%N;58%N;97%N]); (VInt (3))], Raised (XExn IndexError)); ([(VStr [48%N;48%N;70%N]); (VInt (-2))], Raised (XExn IndexError))])].

Definition agrees_in (W : world) (c : list value * outcome) : bool :=
  match drive W 15 (StCall (VFun "m.f") (fst c) [] false []) with StDone r [] => same_outcome r (snd c) | _ => false end.
Definition program_agrees (p : list string * list (list value * outcome)) : bool :=
  match read_program [("m", tables ++ fst p)] with
  | Some (ms, fs) => match load ms (empty_world fs) with Some W => forallb (agrees_in W) (snd p) | None => false end
  | None => false
  end.
Example random_as_cpython : filter (fun p => negb (program_agrees p)) programs = [].
Proof. vm_compute. reflexivity. Qed.
