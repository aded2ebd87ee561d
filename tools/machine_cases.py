"""Small programs, run by CPython and put down as tests of Model/Machine.v: python3 machine_cases.py > Tests/MachineCases.v
No code of /repo is run."""
import os, sys, enum, tempfile
sys.path.insert(0, os.path.dirname(os.path.abspath(__file__)))
PROGRAM = r'''
import base64
import re
from enum import Enum, IntEnum
from math import log

LIMIT = 3
TABLE = {1: {"P": 0, "M": 20}, 2: {"P": 1, "M": 17}}
NESTED = {"a": TABLE[1], "b": TABLE[2]}
PATTERN = re.compile("[0-9]{2}(a|b)*")
NAMES = {x.lower(): len(x) for x in ["One", "Three"]}


class Colour(Enum):
    RED = "0"
    GREEN = "1"


class Size(IntEnum):
    SMALL = (1,)
    BIG = 14


class Base:
    KIND = "base"

    def __init__(self, x):
        self.x = x
        self.log = f"Base({x})"

    def show(self, *args, **kwargs):
        return f"{self.KIND}:{self.x}:{self.log}"

    def twice(self, y=LIMIT):
        return self.show() + str(y)

    @classmethod
    def make(cls, x):
        return cls(f"{cls.KIND}-{x}")

    @classmethod
    def name(cls):
        return cls.__name__


class Left(Base):
    def __init__(self, x):
        super().__init__(x + "l")
        self.log = self.log + f"Left({x})"


class Right(Base):
    KIND = "right"

    def __init__(self, x):
        super().__init__(x + "r")
        self.log = self.log + f"Right({x})"

    def show(self, mark="!"):
        return "<" + super().show() + mark


class Both(Left, Right):
    class Inner(Enum):
        A = "in"

    def __init__(self, x):
        super().__init__(x)
        self.extra = Both.Inner.A.value

    def all(self):
        return self.show(mark=self.extra)


def fresh(x):
    return Both(x).all()


def made(x):
    return [c.make(x).twice(y="?") for c in [Base, Left, Right, Both]]


def class_names():
    return [c.name() for c in [Base, Left, Right, Both]]


def instance(x):
    b = Both(x)
    r = Right(x)
    return [isinstance(b, Base), isinstance(r, Left), isinstance(None, Base), issubclass(Both, Right), issubclass(Right, Both)]


def inherited(x):
    return Left(x).show(1, 2, a=3)


def missing_attribute(x):
    return Left(x).nothing


def missing_method(x):
    return Left(x).nothing(1)


def unbound():
    if LIMIT == 4:
        y = 1
    return y


def no_name():
    return undefined_name


def shadow(LIMIT):
    return LIMIT


def swap(a, b):
    a, b = b, a
    return f"{a}.{b}"


def star(s):
    a, *rest = s.split(".")
    return [a, "/".join(rest)]


def unpack(s):
    a, b = s.split(".")
    return b + a


def defaults(a, b=2, *args, c=3, **kwargs):
    return [a, b, args, c]


def length_of(*args):
    return args


def call_defaults(n):
    if n == 0:
        return defaults(1)
    elif n == 1:
        return defaults(1, 5)
    elif n == 2:
        return defaults(b=7, a=8)
    elif n == 3:
        return defaults(1, c=9)
    elif n == 4:
        return defaults(1, z=9)
    elif n == 5:
        return defaults(b=1)
    elif n == 6:
        return swap(1, 2, 3)
    elif n == 7:
        return swap(1, a=3)
    elif n == 8:
        return swap(1, c=3)
    else:
        return swap(b=1, a="z")


def passing(*args, **kwargs):
    return swap(*args, **kwargs)


def call_passing(n):
    if n == 0:
        return passing("x", "y")
    if n == 1:
        return passing("x", b="y")
    if n == 2:
        return passing(b="x", a="y")
    return passing("x")


def order(s):
    res = ""
    for a in s:
        for b in "xy":
            if a == "2":
                break
            if b == "x":
                continue
            res += a + b
        if a == "4":
            break
    return res


def after_loop(s):
    for a in s.split(","):
        pass
    return a


def early(l):
    for a in l:
        if a > 2:
            return a
    return "none"


def no_return(a):
    a = 1


def caught(k):
    try:
        v = TABLE[k]
    except KeyError:
        return "none"
    return v["M"]


def not_caught(s):
    try:
        v = int(s)
    except KeyError:
        return "none"
    return v


def value_caught(s):
    try:
        return int(s)
    except ValueError:
        raise KeyError("x")


def inner_raise(s):
    if len(s) > 2:
        raise NotImplementedError
    return s


def outer(s):
    try:
        return inner_raise(s)
    except ValueError:
        return "caught"


def chain(a, b, c):
    return a < b <= c


def lazy(x):
    return x and x[0] == "a" or "none"


def lazy2(a, b):
    return [a and b, a or b, not a, not b]


def ternary(x):
    return "a" if x else "b"


def arithmetic(a, b):
    return [a + b, a - b, a * b, a % b, -a]


def text_times(s, n):
    return s * n + n * "-"


def compare(a, b):
    return [a == b, a != b, a < b, a <= b, a > b, a >= b]


def equal(a, b):
    return [a == b, a != b]


def member(k):
    return [k in TABLE, k not in TABLE, k in [1, 5], k in TABLE.keys()]


def items():
    return [f"{k}{v['P']}" for k, v in TABLE.items()]


def nested(k):
    return NESTED[k]["M"]


def comprehension(s):
    return [f"{a}{b}" for a in s if a != "x" for b in "12" if b != a]


def comp_scope(s):
    a = "outer"
    l = [a for a in s]
    return f"{a}{''.join(l)}"


def dict_order(s):
    return {c: len(c) + i for i in [1, 2] for c in s.split(" ")}


def index(s, n):
    return s[n]


def index_list(n):
    return [5, 6, 7][n]


def slices(s, a, b):
    return [s[a:b], s[a:], s[:b], s[:-1]]


def slice_list(s, a, b):
    return s.split(".")[a:b]


def alternate(s):
    return [int(c) for c in s][::2] if LIMIT == 4 else [[int(c) for c in s][0::2], [int(c) for c in s][1::2]]


def formats(z, n):
    return [f"{z:0{n}b}", f"{z:x}", f"{z:X}", f"{z:>0{n}}", f"{z:04b}"]


def format_text(s, n):
    return [f"{s:<0{n}}", f"{s:>0{n}}", f"{s}"]


def format_enum(n):
    return f"{Size.BIG}{Size.SMALL.value}{n}"


def numbers(s):
    return int(s)


def base_number(s, b):
    return int(s, b)


def powers(a, b):
    return pow(a, b)


def bits(n):
    return int(n * log(2) / log(10))


def total(s):
    return sum([int(c) for c in s])


def char(n):
    return chr(n)


def code(s):
    return ord(s)


def mapped(s):
    return "".join(list(map(code_text, s)))


def code_text(c):
    return str(ord(c))


def methods(s):
    return [s.replace("a", "bb"), s.replace("a", "c", 1), s.upper(), s.zfill(6), s.startswith("ab"), s.isnumeric()]


def splits(s):
    return s.split(".")


def joins(s):
    return ".".join(s.split("a")[1:])


def full(s):
    return "yes" if PATTERN.fullmatch(s) else "no"


def prefix(s):
    return "yes" if PATTERN.match(s) else "no"


def re_split(s):
    return re.split("(%[0-9a-fA-F]{2})", s)


def re_split2(s):
    return re.split(f"\\(.{{2}}\\)", s)


def re_find(s):
    return re.findall("." * 3, s)


def re_sub(s):
    return re.sub("\\.\\*$", ".0", s, 1)


def enums():
    return [[c.value for c in Colour], [c.name for c in Colour], Colour["GREEN"].value, Colour["GREEN"] == Colour.GREEN]


def enum_equal(a):
    return [a == Colour.RED, a != Colour.RED, a == Size.BIG]


def size(a):
    return [a == Size.BIG, 15 - a, a < 14]


def bad_member(s):
    return Colour[s].value


def by_name():
    return [NAMES["one"], NAMES["three"]]


def bytes_hex(s):
    return base64.b64decode(f"{s}==").hex()


def hex_bytes(s):
    return base64.b64encode(bytes.fromhex(s)).decode("utf-8")


def rebind(s):
    res = ""
    for g in s.split("."):
        res += g
        s = res
    return s


def augmented(n):
    n += 2
    n *= 3
    return n


def evaluation(s):
    return [trace(s, "a"), trace(s, "b")][1] + trace(s, "c")


def trace(s, c):
    if c in {"b": 1} and s == "stop":
        raise KeyError(c)
    return s + c


def first_error(s):
    return int(s) + TABLE[s]["P"]


def recursive(n):
    return "" if n == 0 else recursive(n - 1) + str(n)


def kind_sum(s, n):
    return s[1 : 1 + n]


def kind_bound(s, n):
    return s[:n]


def kind_start(s, n):
    return s[n:-1]


def kind_parts(v):
    return v[:2]


def kind_key(v):
    try:
        return NAMES[v[:3]]
    except KeyError:
        return "none"


def kind_split(v):
    return v.split(":")


def kind_fill(v):
    return v.zfill(4)


def kind_value(v):
    return v.value


def kind_name(v):
    return v.name


def kind_base(v):
    return int(v, 16)


def kind_match(v):
    return "yes" if PATTERN.fullmatch(v) else "no"


def kind_prefix(v):
    return "yes" if PATTERN.match(v) else "no"


def kind_minus(v):
    return 14 - v


def kind_zeros(v):
    return (14 - v) * "0"


def kind_true(v):
    return "yes" if v else "no"


def kind_member(v):
    return v == Colour.RED


def kind_number(v):
    return v != Size.BIG


def kind_text(v):
    return f"{v}"
'''
KINDS = [None, True, False, 0, 3, -2, 1.5, 0.0, -0.0, 1e300, 'ab', '', b'ab', b'', 'E:Colour.RED', 'E:Size.BIG', 'E:Size.SMALL']
BIG = 10 ** 25
CALLS = {
 'fresh': [('q',)], 'made': [('z',)], 'class_names': [()], 'instance': [('i',)], 'inherited': [('k',)],
 'missing_attribute': [('k',)], 'missing_method': [('k',)], 'unbound': [()], 'no_name': [()], 'shadow': [(5,)],
 'swap': [('1', '2')], 'star': [('a.b.c',), ('a',), ('',)], 'unpack': [('a.b',), ('a',), ('a.b.c',)],
 'call_defaults': [(i,) for i in range(10)], 'call_passing': [(i,) for i in range(4)],
 'order': [('1234567',), ('',), ('24',)], 'after_loop': [('a,b',), ('',)], 'early': [([1, 3, 5],), ([],), ([2],)],
 'no_return': [(3,)], 'caught': [(1,), (3,), ('x',)], 'not_caught': [('12',), ('x',)], 'value_caught': [('7',), ('7x',)],
 'outer': [('ab',), ('abc',)], 'chain': [(1, 2, 2), (1, 2, 1), (2, 2, 5), (BIG, BIG + 1, BIG + 1)],
 'lazy': [('',), ('a',), ('ba',)], 'lazy2': [('', 'x'), ('y', ''), ('', ''), (0, 5), (None, 1), (True, None)],
 'ternary': [(0,), (1,), ('',), ('0',), (None,), (-1,), ([],), ([0],)],
 'arithmetic': [(7, 3), (-7, 3), (7, -3), (-7, -3), (0, 5), (BIG, 7), (-BIG, 10)],
 'text_times': [('ab', 3), ('ab', 0), ('ab', -2), ('', 4)],
 'compare': [(1, 2), (2, 2), (3, 2), (-1, 0), (BIG, BIG - 1)],
 'equal': [('a', 'a'), ('a', 'b'), (1, 1), (1, 2), (None, None), (None, 'x'), ('1', 1), (1, '1'), (1, None), (None, 1), (True, False), (True, True)],
 'member': [(1,), (5,), (9,), ('1',)], 'items': [()], 'nested': [('a',), ('b',), ('c',)],
 'comprehension': [('1x2',), ('',)], 'comp_scope': [('xy',), ('',)], 'dict_order': [('a bb a',)],
 'index': [('abc', 0), ('abc', 2), ('abc', 3), ('abc', -1), ('abc', -3), ('abc', -4), ('', 0)],
 'index_list': [(0,), (2,), (3,)],
 'slices': [('abcdef', a, b) for a, b in [(0, 3), (2, 2), (4, 2), (-2, 6), (1, -1), (-9, 3), (3, 99), (-3, -1), (7, 9), (0, -9)]] + [('', 0, 3), ('é€', 1, 2)],
 'slice_list': [('a.b.c', 1, 9), ('a.b.c', 0, -1), ('a', 1, 2)], 'alternate': [('1234567',), ('12',), ('',), ('1x',)],
 'formats': [(0, 3), (5, 3), (255, 3), (-5, 6), (1023, 12), (BIG, 3)], 'format_text': [('ab', 5), ('ab', 1), ('', 3), ('ab', 0)],
 'format_enum': [(3,)], 'numbers': [('12',), (' 12 ',), ('-3',), ('+3',), ('1_0',), ('',), ('1x',), ('٣',), (5,)],
 'base_number': [('101', 2), ('102', 2), ('ff', 16), ('0xFF', 16), ('g', 16), ('0b1', 2), ('', 2)],
 'powers': [(2, 10), (10, 25), (0, 0), (-2, 3)], 'bits': [(n,) for n in (1, 3, 4, 38, 39, 41, 48, 96, 100, 1000)],
 'total': [('123',), ('',), ('1a',)], 'char': [(65,), (0,), (0x10FFFF,), (0x110000,), (-1,)], 'code': [('a',), ('€',), ('ab',), ('',)],
 'mapped': [('az',), ('',)], 'methods': [('abaa',), ('',), ('-12',), ('+1',), ('1234567',), ('a²',)],
 'splits': [('a.b.',), ('',), ('.',), ('ab',)], 'joins': [('xaya',), ('xyz',)],
 'full': [('12',), ('12ab',), ('12abc',), ('1',), ('12\n',), ('x12',)], 'prefix': [('12',), ('12abc',), ('x12',), ('12\n',)],
 're_split': [('a%2Fb%2f',), ('%%20',), ('',), ('%2',), ('%41%42',)], 're_split2': [('(01)123(21)45',), ('(01)',), ('x',), ('(\n1)2',)],
 're_find': [('abcdefgh',), ('ab',), ('ab\ncdef',), ('',)], 're_sub': [('a.*',), ('a.*.*',), ('.*\n',), ('a.*b',), ('*',)],
 'enums': [()], 'enum_equal': [('E:Colour.RED',), ('E:Colour.GREEN',), (None,), ('x',), ('E:Size.BIG',)], 'size': [('E:Size.SMALL',), ('E:Size.BIG',)],
 'bad_member': [('RED',), ('BLUE',), ('',)], 'by_name': [()],
 'bytes_hex': [('AQID',), ('AQI',), ('AQ',), ('A',), ('',), ('!AQ?ID',), ('AQ==ID',), ('é',)],
 'hex_bytes': [('00ff10',), ('0',), ('',), ('0 0',), ('00 ff',), ('xx',), ('FF',)],
 'rebind': [('a.b.c',)], 'augmented': [(4,), (-2,)], 'evaluation': [('go',), ('stop',)], 'first_error': [('1',), ('x',)], 'recursive': [(0,), (12,)],
 'kind_sum': [('abcd', k) for k in KINDS], 'kind_bound': [('abcd', k) for k in KINDS], 'kind_start': [('abcd', k) for k in KINDS],
 'kind_parts': [(k,) for k in KINDS], 'kind_key': [(k,) for k in KINDS + ['oneness', b'oneness']],
 'kind_split': [(k,) for k in KINDS], 'kind_fill': [(k,) for k in KINDS if not isinstance(k, bytes)],
 'kind_value': [(k,) for k in KINDS], 'kind_name': [(k,) for k in KINDS],
 'kind_base': [(k,) for k in KINDS if not isinstance(k, bytes)], 'kind_match': [(k,) for k in KINDS], 'kind_prefix': [(k,) for k in KINDS],
 'kind_minus': [(k,) for k in KINDS if k != 1e300], 'kind_zeros': [(k,) for k in KINDS if not isinstance(k, float)], 'kind_true': [(k,) for k in KINDS],
 'kind_member': [(k,) for k in KINDS], 'kind_number': [(k,) for k in KINDS if not isinstance(k, float)], 'kind_text': [(k,) for k in [None, True, False, 0, -7, 'ab', '']],
}
ns = {'__name__': 'cases'}
exec(compile(PROGRAM, 'cases', 'exec'), ns)
def arg(a):
    if isinstance(a, str) and a.startswith('E:'):
        c, m = a[2:].split('.'); return ns[c][m]
    return a
def codes(s): return '[%s]' % ';'.join('%d%%N' % ord(c) for c in s)
def fl(v):
    import math
    s = 'true' if math.copysign(1, v) < 0 else 'false'
    if v == 0: return '(SpecFloat.S754_zero %s)' % s
    m, e = math.frexp(abs(v))
    return '(SpecFloat.S754_finite %s %d (%d))' % (s, int(m * 2 ** 53), e - 53)
def val(v):
    if v is None: return 'VNone'
    if v is True: return '(VBool true)'
    if v is False: return '(VBool false)'
    if isinstance(v, enum.Enum): return '(VEnum "cases.%s" "%s" %s)' % (type(v).__qualname__, v.name, val(v.value))
    if isinstance(v, int): return '(VInt (%d))' % v
    if isinstance(v, float): return '(VFloat %s)' % fl(v)
    if isinstance(v, bytes): return '(VBytes %s)' % codes(v.decode('latin-1'))
    if isinstance(v, str): return '(VStr %s)' % codes(v)
    if isinstance(v, list): return '(VList [%s])' % '; '.join(map(val, v))
    if isinstance(v, tuple): return '(VTuple [%s])' % '; '.join(map(val, v))
    if isinstance(v, dict): return '(VDict [%s])' % '; '.join('(%s, %s)' % (val(a), val(b)) for a, b in v.items())
    raise Exception(repr(v))
MODELLED = ['ValueError', 'IndexError', 'KeyError', 'TypeError', 'OverflowError']
def outcome(f, args):
    try: return 'Returned ' + val(ns[f](*args))
    except Exception as x:
        n = type(x).__name__
        for b in type(x).__mro__:
            if b.__name__ in MODELLED and n not in MODELLED: n = b.__name__
        return 'Raised (XExn %s)' % n if n in MODELLED else 'Raised (XOther "%s")' % n
def main():
    import gen_source as g
    d = tempfile.mkdtemp()
    open(d + '/cases.py', 'w').write(PROGRAM)
    g.R = d + '/'
    txt = g.module('cases', 'cases.py').replace('epcpy/cases.py', 'the module')
    print('''(** Programs of our own, run by CPython %s and by the machine of [Model/Machine.v] and [Model/Loader.v]: every form of
    statement and expression the machine knows, with the answers of the interpreter.  Written by tools/machine_cases.py, which
    holds the programs as text.  No code of /repo was run.  These are tests, not proofs. *)
From Coq Require Import String ZArith List.
From Verif.Model Require Import Py Syntax Machine Loader.
Import ListNotations.
Open Scope string_scope.
Open Scope Z_scope.
Open Scope list_scope.
''' % sys.version.split()[0])
    print(txt)
    print('Definition codes : list (string * fundef) :=\n  [%s].\n' % ';\n   '.join('("%s", %s)' % (a, b) for a, b in g.codes))
    print('''Definition cases_world : option world := Eval vm_compute in load [("cases", m_cases)] (empty_world codes).

(** the same value; a list of texts has two forms in the machine *)
Fixpoint all2 {X} (f : X -> X -> bool) (a b : list X) : bool :=
  match a, b with [], [] => true | x :: a', y :: b' => f x y && all2 f a' b' | _, _ => false end.
Fixpoint same (a b : value) {struct b} : bool :=
  match a, b with
  | VNone, VNone => true
  | VBool x, VBool y => Bool.eqb x y
  | VInt x, VInt y => (x =? y)%Z
  | VStr s, VStr t | VBytes s, VBytes t => str_eqb s t
  | VFloat x, VFloat y => SpecFloat.SFeqb x y
  | VEnum c n _, VEnum d m _ => (String.eqb c d && String.eqb n m)%bool
  | VStrs l, VList m =>
      (fix go (l : list str) (m : list value) {struct m} : bool :=
         match l, m with [], [] => true | x :: l', y :: m' => (same (VStr x) y && go l' m')%bool | _, _ => false end) l m
  | VList l, VList m | VTuple l, VTuple m =>
      (fix go (l m : list value) {struct m} : bool :=
         match l, m with [], [] => true | x :: l', y :: m' => (same x y && go l' m')%bool | _, _ => false end) l m
  | VDict l, VDict m =>
      (fix go (l m : list (value * value)) {struct m} : bool :=
         match l, m with
         | [], [] => true
         | x :: l', y :: m' => (same (fst x) (let (k, _) := y in k) && same (snd x) (let (_, v) := y in v) && go l' m')%bool
         | _, _ => false
         end) l m
  | _, _ => false
  end.
Definition exn_eqb (a b : exn) : bool :=
  match a, b with
  | ConvertException, ConvertException | ValueError, ValueError | IndexError, IndexError | KeyError, KeyError
  | TypeError, TypeError | OverflowError, OverflowError => true
  | _, _ => false
  end.
Definition same_outcome (a b : outcome) : bool :=
  match a, b with
  | Returned x, Returned y => same x y
  | Raised (XExn x), Raised (XExn y) => exn_eqb x y
  | Raised (XOther x), Raised (XOther y) => String.eqb x y
  | _, _ => false
  end.
Definition agrees (c : string * list value * outcome) : bool :=
  match c, cases_world with
  | (f, args, r), Some W =>
      match drive W 14 (StCall (VFun (dotted "cases" f)) args [] false []) with StDone r' [] => same_outcome r' r | _ => false end
  | _, None => false
  end.
''')
    rows = []
    defined = [n for n in ns if not n.startswith('_') and type(ns[n]).__name__ == 'function' and n != 'log']
    called = set(CALLS)
    for f in CALLS:
        for args in CALLS[f]:
            a = [arg(x) for x in args]
            rows.append('("%s", [%s], %s)' % (f, '; '.join(map(val, a)), outcome(f, a)))
    print('Definition cases : list (string * list value * outcome) :=\n  [%s].\n' % ';\n   '.join(rows))
    print('Example machine_as_cpython : filter (fun c => negb (agrees c)) cases = [].\nProof. vm_compute. reflexivity. Qed.')
    print(len(rows), 'cases', file=sys.stderr)
if __name__ == '__main__': main()
