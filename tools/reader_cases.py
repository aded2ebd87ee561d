"""Small programs of our own, by hand and at random: Python's own syntax trees of them, as Coq checks of Model/Reader.v.
   python3 reader_cases.py COUNT SEED > Tests/ReaderCases.v"""
import ast,random,sys
import gen_source as g
HAND='''a = 1
a = (1)
a = 1,
a = 1, 2
a = ()
a = (1,)
a = [1, 2,]
a = [
    1,
    2,  # two
]
a = {}
a = {"k": 1, "l": [2]}
a = {"k": 1,}
a = - 1 + 2 - 3
a = b - (c - d)
a = -b * c
a = -(b * c)
a = b * -c / d % e
a = not b == c
a = not b and not c or d and e
a = b or (c or d)
a = b and (c and d) and e
a = b < c <= d != e
a = (b < c) < d
a = b in c
a = b not in c
a = not b in c
a = b if c else d if e else f
a = (b if c else d) if e else f
a = b.c.d(e)(f)[g].h
a = b[1:2]
a = b[:]
a = b[1:]
a = b[:-1]
a = b[::2]
a = b[1:2:3]
a = b[1, 2]
a = b(c, *d, e=f, **h)
a = b(c=d,)
a = b()
a = b(**c)
a = b(c == d)
a = [b for c in d]
a = [b for c in d if e if f]
a = [b for c, f in d for e in c]
a = [b if c else d for e in f or g]
a = {b: c for d, e in f}
a = "b" "c"
a = "b" f"c{d}" "e"
a = f"b" f"c"
a = f"{a}"
a = f"{{{a}}}"
a = f"{a}{b}c"
a = f"{a:>3}"
a = f"{a:0{b}d}"
a = f"{a[1:2]:b}"
a = f"{a['x:y']}"
a = f"{int(a, 16):0{len(a * 4)}b}"
a = f"{a if b else c}"
a = f"{(a, b)}"
a = f"{ {'a': 1}['a'] }"
a = 'it is "so"'
a = "it is \\"so\\""
a = "back \\\\ slash"
a = "\\d\\.\\-"
a = ""
a = "" ""
a = f""
a = """three "quotes" here"""
a: int = 1
a: Dict[str, List[int]]
a = None
a = True == False
a = 1 if b else(2)
import x
import x, y
from x import y
from x.y import z
from .x import y
from x import (y, z)
from x import (
    y,
    z,
)
from __future__ import annotations
class A:
    pass
class A(B, c.D):
    x = 1
    y: int = 2
    z: str

    def f(self): # here
        return

    @classmethod
    def g(cls, x: int = 1, *args, k: int, l=2, **kw) -> "A":
        """text"""
        return cls(x)

    class I(E):
        p = "1"
        def h(self):
            pass
def f(a, b=(1, 2), *, c=3):
    x = a
    x += 1
    x, y = y, x
    x, *y = a
    (x, *y) = a
    (
        self.x,
        self.y,
        *z,
    ) = a
    self.q = 1
    x: int = 2
    if a:
        pass
    elif b:
        x = 1
    else:
        x = 2
    if a:
        if b:
            x = 1
    else:
        x = 2
    for i in a:
        continue
    for i, j in b, c:
        if i:
            break
    try:
        x = int(a)
    except ValueError:
        raise E(f"no {a}")
    "text"
    f(a)
    return a, b

# a comment
   # another one

def f():
    (a, b)
    return (a
 + b
      )
def f(
    a,
    b: int
):

    return a

    # end
a = 1
def f():
    return -a ** b
a = lambda: 1
a = b is c
a = b // c
a = {b}
a = (b for c in d)
a = b"c"
a = "\\n"
a = 1.5
a = b = c
a = f"{b!r}"
def f():
    while a:
        pass
def f():
    with a:
        pass
def f():
    del a
 a = 1
def f():
    a
  b
def f():
a = (1
a = 1)
a = "b
if = 1
'''
BREAK='\n'
def hand():
    """one case per run of lines: a new one starts at each unindented line that is not a closing bracket"""
    cur=[]; depth=0
    for l in HAND.split('\n')[:-1]:
        if cur and not l.startswith((' ',')',']','#')) and l!='' and not cur[-1].startswith(' @'):
            yield '\n'.join(cur)+'\n'; cur=[]
        cur.append(l)
    yield '\n'.join(cur)+'\n'
rnd=None
NAMES=['a','b','cd','x_1','self','_y','Not','in_','If']
def r(n): return rnd.randrange(n)
def pick(l): return l[r(len(l))]
def sp(): return pick(['','',' ','  '])
def many(n,f,lo=0): return [f(n) for _ in range(lo+r(3))]
def comma(l): return (sp()+','+sp()).join(l)+(',' if l and r(4)==0 else '')
def text(): return ''.join(pick(list('abc .:-*()0')) for _ in range(r(5)))
def E(n,q='"'):
    """an expression, sometimes between brackets that are not needed"""
    if n<=0: return pick([pick(NAMES),str(r(30)),'None','True',q+text()+q])
    k=r(21); s=lambda m=1: E(n-m,q)
    if k<2: return E(0,q)
    if k==2: return '('+sp()+s()+sp()+')'
    if k==3: return s()+sp()+pick(['+','-','*','/','%'])+sp()+s()
    if k==4: return '-'+sp()+s()
    if k==5: return 'not '+s()
    if k==6: return s()+pick([' and ',' or '])+s()
    if k==7: return s()+sp()+pick(['==','!=','<','<=','>','>=',' in ',' not in '])+sp()+s()
    if k==8: return '(%s if %s else %s)'%(s(),s(),s())
    if k==9: return s()+' if '+s()+' else '+s()
    if k==10: return P(n-1,q)+'.'+pick(NAMES)
    if k==11: return P(n-1,q)+'['+s()+']'
    if k==12: return P(n-1,q)+'['+pick(['',s()])+':'+pick(['',s()])+pick(['',':',':'+s()])+']'
    if k==13:
        a=many(n-1,lambda m:E(m,q)); b=[pick(['*'+E(n-1,q)])] if r(4)==0 else []
        c=[x+sp()+'='+sp()+E(n-1,q) for x in rnd.sample(NAMES,r(3))]; d=['**'+E(n-1,q)] if r(5)==0 else []
        return P(n-1,q)+'('+comma(a+b+c+d)+')'
    if k==14: return '['+comma(many(n-1,lambda m:E(m,q)))+']'
    if k==15: return '('+', '.join(many(n-1,lambda m:E(m,q),1))+',)'
    if k==16: return '{'+comma([E(n-1,q)+sp()+':'+sp()+E(n-1,q) for _ in range(r(3))])+'}'
    if k==17: return '['+s()+gens(n-1,q)+']'
    if k==18: return '{'+s()+': '+s()+gens(n-1,q)+'}'
    if k==19 and q=='"': return ' '.join([F(n-1) for _ in range(1+r(2))]+[q+text()+q for _ in range(r(2))])
    return s()+sp()+pick(['+','-'])+sp()+s()
def P(n,q): return pick([pick(NAMES),'('+E(n,q)+')',pick(NAMES)+'.'+pick(NAMES)])
def gens(n,q):
    out=''
    for _ in range(1+r(2)):
        out+=' for '+', '.join(rnd.sample(NAMES,1+r(2)))+' in ('+E(n,q)+')'
        if r(2): out+=' if ('+E(n,q)+')'
    return out
def F(n):
    s=''
    for _ in range(r(4)):
        if r(2): s+=pick(['{{','}}','x y','\\.',':',''])
        else:
            s+='{('+E(n-1,"'")+')'+pick(['',':',':>3',':0{'+pick(NAMES)+'}b',':{'+pick(NAMES)+'[1:2]}'])+'}'
    return 'f"'+s+'"'
def S(n,ind,loop=False):
    p=' '*ind; step=pick([1,2,4])
    sub=lambda m,lp=loop: ''.join(S(m,ind+step,lp) for _ in range(1+r(2)))
    k=r(12) if n>0 else r(7)
    c=pick(['','','','  # note'])+'\n'
    if k==0: return p+E(2)+c
    if k==1: return p+pick(NAMES)+' = '+E(3)+c
    if k==2: return p+'self.'+pick(NAMES)+sp()+'='+sp()+E(2)+c
    if k==3: return p+pick(NAMES)+', '+pick(['','*'])+'x = '+E(2)+', '+E(1)+c
    if k==4: return p+pick(NAMES)+' += '+E(2)+c
    if k==5: return p+'return'+pick([' '+E(2),''])+c
    if k==6: return p+pick(['raise '+E(2),'pass','"text"','\n'+p+'pass','x: int = '+E(1)]+(['break','continue'] if loop else []))+c
    if k<10:
        s=p+'if '+E(2)+':'+c+sub(n-1)
        for _ in range(r(3)): s+=p+'elif '+E(2)+':'+c+sub(n-1)
        if r(2): s+=p+'else:'+c+sub(n-1)
        return s
    if k==10: return p+'for '+', '.join(rnd.sample(NAMES,1+r(2)))+' in '+E(2)+':'+c+sub(n-1,True)
    return p+'try:'+c+sub(n-1)+p+'except '+pick(['E','ValueError'])+':'+c+sub(n-1)
def fun(ind):
    p=' '*ind; k=r(5); l=rnd.sample(NAMES,k); j=r(k+1)
    ps=[x+pick(['',': int']) for x in l[:j]]+[x+'='+E(1) for x in l[j:]]
    if r(3)==0: ps.append(pick(['*rest','*rest: int']))
    if r(4)==0: ps+=([] if any(x.startswith('*') for x in ps) else ['*'])+['k',pick(['m','m='+E(1)])]
    if r(4)==0: ps.append('**kw')
    return p+'def '+pick(['f','g_2'])+'('+comma(ps) +')'+pick(['',' -> int'])+':\n'+pick(['',p+'  """text"""\n'] if ind>=0 else [''])+''.join(S(2,ind+2) for _ in range(1+r(3)))
def T():
    k=r(4)
    if k==0: return pick(NAMES)+' = '+E(3)+'\n'
    if k==1: return 'class A'+pick(['','(B)','(B, c.D)'])+':\n'+''.join(pick([lambda:' x = '+E(2)+'\n',lambda:' @classmethod\n'+fun(1),lambda:fun(1),lambda:' y: int\n'])() for _ in range(1+r(3)))
    return fun(0)
def expected(src):
    try: tree=ast.parse(src)
    except SyntaxError: return None
    g.codes.clear(); out=[]; g.PATH='m'
    try: items=[x for s in tree.body for x in g.top(s,'m','m',2,out)]
    except (AssertionError,g.Bad,KeyError): return None
    defs=dict()
    for o in out:
        head,b=o.split(' : fundef :=\n',1)
        defs.setdefault(head.split('Definition ')[1],[]).append(b.strip().rstrip('.'))
    fs=['(%s, %s)'%(g.q(n),defs[i].pop(0)) for n,i in g.codes]
    return '([%s], [%s])'%('; '.join(items),'; '.join(fs))
def main():
    global rnd
    rnd=random.Random(int(sys.argv[2])); import warnings; warnings.simplefilter('ignore')
    cases=list(hand())
    while len(cases)<int(sys.argv[1]):
        s=T()
        if expected(s): cases.append(s)
    print('''(** Python's own syntax trees of small programs, and what [Model/Reader.v] reads.  Written by tools/reader_cases.py with CPython 3.11.
    [None]: Python refuses the program, or it uses what [Model/Syntax.v] has no tree for. *)
From Coq Require Import String ZArith List.
From Verif.Model Require Import Syntax Reader.
Import ListNotations.
Open Scope string_scope.
Open Scope Z_scope.
Open Scope list_scope.

Definition cases : list (list string * option (list top * functions)) := [''')
    out=[]
    for s in cases:
        x=expected(s)
        out.append('  ([%s],\n   %s)'%('; '.join(map(g.q,s.split('\n')[:-1])),'None' if x is None else 'Some '+x))
    print(';\n'.join(out)+'].\n')
    print('''Example cases_read : map (fun c => read_module "m" (fst c)) cases = map snd cases.
Proof. vm_compute. reflexivity. Qed.''')
main()
