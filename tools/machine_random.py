"""Random programs over the operations of Model/Machine.v, run by CPython and put down as tests: the text of each is read by
Model/Reader.v and run by the machine.  python3 machine_random.py COUNT SEED > Tests/MachineRandom.v
No code of /repo is run."""
import os,random,sys,warnings; warnings.simplefilter('ignore')
N,SEED=int(sys.argv[1]),int(sys.argv[2]); rnd=random.Random(SEED)
def r(n): return rnd.randrange(n)
def pick(l): return l[r(len(l))]
PRE='''TABLE = {"a": 1, "0": 12, "": -3}
ROWS = {1: {"L": "x", "K": 2}, 12: {"L": "y0", "K": 0}}
'''
ALPH='ab01.:%2F- Z_'
def text(): return ''.join(pick(ALPH) for _ in range(r(6)))
class G:
    def __init__(s): s.vars={'S':[],'I':[],'B':[],'L':[],'M':[]}
    def e(s,t,n):
        v=s.vars[t]
        if v and r(3)==0 or (n<=0 and v and r(2)): return pick(v)
        return getattr(s,'e'+t)(n)
    def eS(s,n):
        if n<=0: return '"%s"'%text()
        k=r(21); S=lambda:s.e('S',n-1); I=lambda:s.e('I',n-1); B=lambda:s.e('B',n-1); L=lambda:s.e('L',n-1)
        if k==0: return '(%s + %s)'%(S(),S())
        if k==1: return '(%s * %s)'%((S(),pick(['0','1','2','3','-1'])) if r(2) else (pick(['0','2']),S()))
        if k==2: return '(%s)[%s]'%(S(),I())
        if k in(3,4): return '(%s)[%s:%s%s]'%(S(),pick(['',I()]),pick(['',I()]),'')
        if k==5: return '(%s).replace("%s", %s)'%(S(),text()[:2] or 'a',S())
        if k==6: return '%s.join(%s)'%('"%s"'%text()[:1],pick([L(),s.e('M',n-1)]))
        if k==7: return '(%s).zfill(%s)'%(S(),I())
        if k==8: return '(%s).upper()'%S()
        if k==9: return '(%s).lower()'%S()
        if k==10: return 'str(%s)'%pick([I(),S()])
        if k in(11,12): return 'f"%s{%s}%s"'%(text(),s.q(pick([I,S])()),text())
        if k==13: return 'f"{%s:%s}"'%(s.q(I()),pick(['b','08b','03','x','02X','0{%s}b'%pick(['n*n','len(s)','3']),'>3','<4','0>5']))
        if k==14: return 'f"{%s:%s}"'%(s.q(S()),pick(['>04','<06','>{%s}'%pick(['n*n','len(s)','3']),'3','<03']))
        if k==15: return '(%s if %s else %s)'%(S(),B(),S())
        if k==16: return 'chr(%s)'%pick([I(),str(48+r(80))])
        if k==17: return '(%s)[%s]'%(L(),I())
        if k==18: return 'ROWS[%s]["L"]'%pick(['1','12',I()])
        if k==19: return '(%s or %s)'%(S(),S())
        return '(%s and %s)'%(S(),S())
    def q(s,x): return '('+x.replace('"',"'")+')' if "f'" not in x.replace('"',"'") else '(1)'
    def eI(s,n):
        if n<=0: return pick([str(r(4)),str(r(40)),'-%d'%r(5),'(1)'])
        k=r(15); S=lambda:s.e('S',n-1); I=lambda:s.e('I',n-1); B=lambda:s.e('B',n-1); L=lambda:s.e('L',n-1)
        if k==0: return '(%s + %s)'%(I(),I())
        if k==1: return '(%s - %s)'%(I(),I())
        if k==2: return '(%s * %s)'%(I(),I())
        if k==3: return '(%s %% %s)'%(I(),pick(['2','7','10','-3']))
        if k==4: return 'len(%s)'%pick([S(),L()])
        if k in(5,6): return 'int(%s)'%pick([S(),'"%s%d"'%(pick(['','-',' ','+','0']),r(99)),'str(%s)'%I(),I()])
        if k==7: return 'int(%s, %s)'%(S(),pick(['2','16','10','8']))
        if k==8: return 'pow(%s, %s)'%(pick(['2','10','3']),pick([str(r(20)),'len(%s)'%S()]))
        if k==9: return 'ord(%s)'%pick([S(),'"%s"'%pick('azA0')])
        if k==10: return 'sum([int(x) for x in %s])'%S()
        if k==11: return 'TABLE[%s]'%pick([S(),'"a"','"0"'])
        if k==12: return 'ROWS[%s]["K"]'%pick(['1','12',I()])
        if k==13: return '(%s if %s else %s)'%(I(),B(),I())
        return '-(%s)'%I()
    def eB(s,n):
        if n<=0: return pick(['True','False'])
        k=r(12); S=lambda:s.e('S',n-1); I=lambda:s.e('I',n-1); B=lambda:s.e('B',n-1); L=lambda:s.e('L',n-1)
        if k<2: return '(%s %s %s)'%(I(),pick(['==','!=','<','<=','>','>=']),I())
        if k==2: return '(%s <= %s < %s)'%(I(),I(),I())
        if k==3: return '(%s %s %s)'%(S(),pick(['==','!=']),S())
        if k==4: return '(%s %s %s)'%(S(),pick(['in','not in']),pick(['TABLE','TABLE','TABLE.keys()','["a", "0"]']))
        if k==5: return '(not %s)'%pick([B(),S(),I()])
        if k==6: return '(%s and %s)'%(B(),B())
        if k==7: return '(%s or %s)'%(B(),B())
        if k==8: return '(%s).startswith(%s)'%(S(),S())
        if k==9: return '(%s).isnumeric()'%S()
        if k==10: return '(%s in %s)'%(S(),s.e('M',n-1))
        return '(%s in ROWS)'%I()
    def eL(s,n):
        S=lambda:s.e('S',n-1); I=lambda:s.e('I',n-1); L=lambda:s.e('L',n-1)
        if n<=0: return '"%s".split("%s")'%(text(),pick(['.','a']))
        k=r(5)
        if k<4: return '(%s).split("%s")'%(S(),pick(['.',':','a','0']))
        return '(%s)[%s:%s]'%(L(),pick(['',I()]),pick(['',I()]))
    def eM(s,n):
        S=lambda:s.e('S',n-1); I=lambda:s.e('I',n-1); L=lambda:s.e('L',n-1)
        k=r(6) if n>0 else 0
        if k==0: return pick(['[]','["a"]','["b", "0"]'])
        if k==1: return '[%s]'%', '.join(S() for _ in range(r(3)))
        if k<5:
            it=pick([S(),L()]); old=list(s.vars['S']); s.vars['S']=old+['z','z']
            c=' if '+s.e('B',n-1) if r(2) else ''
            b=s.e('S',n-1); s.vars['S']=old
            return '[%s for z in %s%s]'%(b,it,c)
        return '[k for k, w in TABLE.items()%s]'%pick([' if w > 0',''])
    def assign(s,ind):
        p='    '*ind
        t=pick('SSIILBM'); x=t.lower()+str(r(3)); v=s.e(t,3)
        if x not in s.vars[t]: s.vars[t]=s.vars[t]+[x]
        return p+'%s = %s\n'%(x,v)
    def st(s,n,ind,loop):
        p='    '*ind; k=r(14) if n>0 else r(5)
        if k<4: return s.assign(ind)
        if k==4:
            if loop and r(3)==0: return p+pick(['break','continue'])+'\n'
            if r(6)==0: return p+'raise '+pick(['ValueError("x")','KeyError("k")','NotImplementedError'])+'\n'
            if r(4)==0: return p+'return %s\n'%s.e(pick('SIBLM'),2)
            t=pick('SI')
            return p+('%s += %s\n'%(pick(s.vars[t]),s.e(t,2)) if s.vars[t] else 'pass\n')
        if k<9:
            save={a:list(b) for a,b in s.vars.items()}
            o=p+'if %s:\n'%s.e('B',2)+s.block(n-1,ind+1,loop)
            keep=s.vars if r(8)==0 else save; s.vars={a:list(b) for a,b in save.items()}
            if r(3)==0: o+=p+'elif %s:\n'%s.e(pick('BBSI'),2)+s.block(n-1,ind+1,loop); s.vars={a:list(b) for a,b in save.items()}
            if r(2): o+=p+'else:\n'+s.block(n-1,ind+1,loop)
            s.vars=keep if keep is save else {a:list(b) for a,b in keep.items()}
            return o
        if k<12:
            save={a:list(b) for a,b in s.vars.items()}
            it=s.e(pick('SLM'),2); s.vars['S']=s.vars['S']+['c']
            o=p+'for c in %s:\n'%it+s.block(n-1,ind+1,True)
            s.vars=save if r(6) else s.vars
            return o
        save={a:list(b) for a,b in s.vars.items()}
        o=p+'try:\n'+s.assign(ind+1); s.vars={a:list(b) for a,b in save.items()}
        o+=p+'except %s:\n'%pick(['ValueError','KeyError','ValueError'])+s.block(n-1,ind+1,loop); s.vars=save
        return o
    def block(s,n,ind,loop): return ''.join(s.st(n,ind,loop) for _ in range(1+r(3)))
class TooMuch(BaseException): pass
def run(src,args):
    cnt=[0]
    def tr(fr,ev,arg):
        cnt[0]+=1
        if cnt[0]>400: raise TooMuch
        return tr
    ns={}
    try:
        exec(PRE+src,ns); sys.settrace(tr)
        try: v=ns['f'](*args)
        finally: sys.settrace(None)
        return 'Returned '+val(v)
    except TooMuch: return None
    except MemoryError: return None
    except RecursionError: return None
    except Exception as ex:
        n=type(ex).__name__
        return 'Raised (XExn %s)'%n if n in('ValueError','KeyError','IndexError','TypeError','OverflowError') else 'Raised (XOther "%s")'%n
def st_(s):
    if len(s)>300: raise TooMuch
    return '['+';'.join('%d%%N'%ord(c) for c in s)+']'
def val(v):
    if v is None: return 'VNone'
    if isinstance(v,bool): return '(VBool %s)'%str(v).lower()
    if isinstance(v,int):
        if abs(v)>10**60: raise TooMuch
        return '(VInt (%d))'%v
    if isinstance(v,str): return '(VStr %s)'%st_(v)
    if isinstance(v,list): return '(VList [%s])'%'; '.join(map(val,v))
    if isinstance(v,dict): return '(VDict [%s])'%'; '.join('(%s, %s)'%(val(a),val(b)) for a,b in v.items())
    raise TooMuch
q=lambda s:'"'+s.replace('"','""')+'"'
progs=[]
while len(progs)<N:
    g=G(); g.vars['S']=['s']; g.vars['I']=['n']
    src='def f(s, n):\n'+g.block(3,1,False)+''.join(g.st(3,1,False) for _ in range(r(4)))+('    return %s\n'%g.e(pick('SIBLM'),3))
    cs=[]
    for _ in range(3):
        a=[text(),pick([0,1,2,3,-1,-2,5,12])]
        try: o=run(src,a)
        except TooMuch: o=None
        if o: cs.append('([%s], %s)'%('; '.join(map(val,a)),o))
    if cs and all(32<=ord(c)<127 or c=='\n' for c in src): progs.append('([%s],\n   [%s])'%('; '.join(q(l) for l in src.split('\n')[:-1]),'; '.join(cs)))
print('''(** Random programs: what CPython 3.11 answered, and what the machine comes to when it reads and runs the same text.  Written by
    tools/machine_random.py.  No code of /repo was run.  These are tests, not proofs. *)
From Coq Require Import String ZArith List.
From Verif.Model Require Import Py Syntax Reader Machine Loader.
From Verif.Tests Require Import MachineCases.
Import ListNotations.
Open Scope string_scope.
Open Scope Z_scope.
Open Scope list_scope.
''')
print('Definition tables : list string := [%s].'%'; '.join(q(l) for l in PRE.split('\n')[:-1]))
print('Definition programs : list (list string * list (list value * outcome)) := [\n  '+';\n  '.join(progs)+'].')
print('''
Definition agrees_in (W : world) (c : list value * outcome) : bool :=
  match drive W 15 (StCall (VFun "m.f") (fst c) [] false []) with StDone r [] => same_outcome r (snd c) | _ => false end.
Definition program_agrees (p : list string * list (list value * outcome)) : bool :=
  match read_program [("m", tables ++ fst p)] with
  | Some (ms, fs) => match load ms (empty_world fs) with Some W => forallb (agrees_in W) (snd p) | None => false end
  | None => false
  end.
Example random_as_cpython : filter (fun p => negb (program_agrees p)) programs = [].
Proof. vm_compute. reflexivity. Qed.''')
