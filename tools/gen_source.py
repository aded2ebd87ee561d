import ast,sys,os
R='/repo/epcpy/'
FILES=[('regex','utils/regex.py'),('common','utils/common.py'),('base_scheme','epc_schemes/base_scheme.py')]
SCH=sorted(f[:-3] for f in os.listdir(R+'epc_schemes') if f.endswith('.py') and f not in('__init__.py','base_scheme.py'))
FILES+=[(s,'epc_schemes/%s.py'%s) for s in SCH]
FILES+=[('epc_schemes','epc_schemes/__init__.py'),('parsers','utils/parsers.py')]
class Bad(Exception): pass
def bad(n,what=''): raise Bad('%s %s line %s'%(what,ast.dump(n)[:200],getattr(n,'lineno','?')))
def q(s):
    assert all(ord(c)<127 and ord(c)>=32 for c in s),repr(s)
    return '"'+s.replace('"','""')+'"'
def lst(l): return '['+'; '.join(l)+']'
def opt(f,x): return 'None' if x is None else '(Some %s)'%f(x)
BIN={ast.Add:'OpAdd',ast.Sub:'OpSub',ast.Mult:'OpMul',ast.Div:'OpDiv',ast.Mod:'OpMod'}
CMP={ast.Eq:'CmpEq',ast.NotEq:'CmpNe',ast.Lt:'CmpLt',ast.LtE:'CmpLe',ast.Gt:'CmpGt',ast.GtE:'CmpGe',ast.In:'CmpIn',ast.NotIn:'CmpNotIn'}
def e(n):
    t=type(n)
    if t is ast.Constant:
        v=n.value
        if v is None: return '(EConst CNone)'
        if v is True: return '(EConst CTrue)'
        if v is False: return '(EConst CFalse)'
        if isinstance(v,int): return '(EConst (CInt %d))'%v
        if isinstance(v,str): return '(EConst (CStr %s))'%q(v)
        bad(n)
    if t is ast.Name: return '(EName %s)'%q(n.id)
    if t is ast.Attribute: return '(EAttr %s %s)'%(e(n.value),q(n.attr))
    if t is ast.Subscript:
        if isinstance(n.slice,ast.Slice):
            s=n.slice
            return '(ESlice %s %s %s %s)'%(e(n.value),opt(e,s.lower),opt(e,s.upper),opt(e,s.step))
        return '(EIndex %s %s)'%(e(n.value),e(n.slice))
    if t is ast.BinOp: return '(EBin %s %s %s)'%(BIN[type(n.op)],e(n.left),e(n.right))
    if t is ast.UnaryOp:
        if isinstance(n.op,ast.Not): return '(ENot %s)'%e(n.operand)
        if isinstance(n.op,ast.USub): return '(ENeg %s)'%e(n.operand)
        bad(n)
    if t is ast.BoolOp: return '(%s %s)'%('EAnd' if isinstance(n.op,ast.And) else 'EOr',lst(map(e,n.values)))
    if t is ast.Compare: return '(ECmp %s %s)'%(e(n.left),lst('(%s, %s)'%(CMP[type(o)],e(c)) for o,c in zip(n.ops,n.comparators)))
    if t is ast.IfExp: return '(EIf %s %s %s)'%(e(n.test),e(n.body),e(n.orelse))
    if t is ast.List: return '(EList %s)'%lst(map(e,n.elts))
    if t is ast.Tuple: return '(ETuple %s)'%lst(map(e,n.elts))
    if t is ast.Dict:
        assert all(k is not None for k in n.keys)
        return '(EDict %s)'%lst('(%s, %s)'%(e(k),e(v)) for k,v in zip(n.keys,n.values))
    if t is ast.JoinedStr: return '(EJoined %s)'%lst(map(e,n.values))
    if t is ast.FormattedValue:
        if n.conversion!=-1: bad(n)
        return '(EFormat %s %s)'%(e(n.value),opt(e,n.format_spec))
    if t is ast.Call:
        args=[];star=None
        for a in n.args:
            if isinstance(a,ast.Starred):
                assert star is None; star=a.value
            else:
                assert star is None; args.append(a)
        kws=[];kwstar=None
        for k in n.keywords:
            if k.arg is None: assert kwstar is None; kwstar=k.value
            else:
                assert kwstar is None; kws.append(k)
        return '(ECall %s %s %s %s %s)'%(e(n.func),lst(map(e,args)),opt(e,star),lst('(%s, %s)'%(q(k.arg),e(k.value)) for k in kws),opt(e,kwstar))
    if t in (ast.ListComp,): return '(EListComp %s %s)'%(e(n.elt),gens(n))
    if t is ast.DictComp: return '(EDictComp %s %s %s)'%(e(n.key),e(n.value),gens(n))
    bad(n,'expr')
def gens(n):
    for g in n.generators: assert not g.is_async
    return lst('(%s, %s, %s)'%(tgt(g.target),e(g.iter),lst(map(e,g.ifs))) for g in n.generators)
def tgt(n):
    t=type(n)
    if t is ast.Name: return '(TName %s)'%q(n.id)
    if t is ast.Attribute:
        assert isinstance(n.value,ast.Name) and n.value.id=='self',ast.dump(n)
        return '(TSelf %s)'%q(n.attr)
    if t is ast.Tuple:
        rest=None; l=[]
        for x in n.elts:
            if isinstance(x,ast.Starred): assert rest is None; rest=x.value
            else: assert rest is None; l.append(x)
        return '(TTuple %s %s)'%(lst(map(tgt,l)),opt(tgt,rest))
    bad(n,'target')
def body(l,ind):
    l=[s for s in l if not(isinstance(s,ast.Expr) and isinstance(s.value,ast.Constant) and isinstance(s.value.value,str))]
    pad=' '*ind
    return '['+(';\n'+pad).join(st(s,ind+1) for s in l)+']'
def st(n,ind):
    t=type(n)
    if t is ast.Expr: return 'SExpr %s'%e(n.value)
    if t is ast.Assign:
        assert len(n.targets)==1
        return 'SAssign %s %s'%(tgt(n.targets[0]),e(n.value))
    if t is ast.AnnAssign:
        assert n.value is not None
        return 'SAssign %s %s'%(tgt(n.target),e(n.value))
    if t is ast.AugAssign:
        assert isinstance(n.target,ast.Name)
        return 'SAug %s %s %s'%(q(n.target.id),BIN[type(n.op)],e(n.value))
    if t is ast.If: return 'SIf %s\n%s%s\n%s%s'%(e(n.test),' '*ind,body(n.body,ind+1),' '*ind,body(n.orelse,ind+1))
    if t is ast.For:
        assert not n.orelse
        return 'SFor %s %s\n%s%s'%(tgt(n.target),e(n.iter),' '*ind,body(n.body,ind+1))
    if t is ast.Return: return 'SReturn %s'%opt(e,n.value)
    if t is ast.Raise:
        assert n.cause is None
        return 'SRaise %s'%e(n.exc)
    if t is ast.Try:
        assert len(n.handlers)==1 and not n.orelse and not n.finalbody and isinstance(n.handlers[0].type,ast.Name) and n.handlers[0].name is None
        h=n.handlers[0]
        return 'STry %s %s\n%s%s'%(body(n.body,ind+1),q(h.type.id),' '*ind,body(h.body,ind+1))
    if t is ast.Continue: return 'SContinue'
    if t is ast.Break: return 'SBreak'
    if t is ast.Pass: return 'SPass'
    bad(n,'stmt')
codes=[]
out=[]
def fun(n,mod,prefix,out):
    kind='KPlain'
    for d in n.decorator_list:
        assert isinstance(d,ast.Name) and d.id=='classmethod',ast.dump(d)
        kind='KClass'
    a=n.args
    assert not a.posonlyargs
    params=[x.arg for x in a.args]
    nd=len(a.defaults)
    defaults=[(params[len(params)-nd+i],d) for i,d in enumerate(a.defaults)]
    kwonly=[x.arg for x in a.kwonlyargs]
    for x,d in zip(a.kwonlyargs,a.kw_defaults):
        if d is not None: defaults.append((x.arg,d))
    qn=prefix+'.'+n.name
    ident='f_'+qn.replace('.','_')
    cls='None' if '.' not in prefix else '(Some %s)'%q(prefix)
    out.append('(** %s:%d-%d *)\nDefinition %s : fundef :=\n  mkFun %s %s %s %s %s %s %s %s\n   %s.\n'%(
        os.path.basename(PATH),n.lineno,n.end_lineno,ident,q(mod),cls,kind,lst(map(q,params)),
        lst('(%s, %s)'%(q(x),e(d)) for x,d in defaults),opt(lambda x:q(x.arg),a.vararg),lst(map(q,kwonly)),opt(lambda x:q(x.arg),a.kwarg),body(n.body,4)))
    codes.append((qn,ident))
    return 'TFun %s'%q(n.name)
def top(n,mod,prefix,ind,out):
    t=type(n)
    if t is ast.Import:
        return ['TImport %s'%q(x.name) for x in n.names if x.asname is None]
    if t is ast.ImportFrom:
        assert all(x.asname is None for x in n.names)
        if n.module=='__future__': return []
        m=n.module.split('.')[-1]
        return ['TFrom %s %s'%(q(m),lst(q(x.name) for x in n.names))]
    if t is ast.Assign:
        assert len(n.targets)==1 and isinstance(n.targets[0],ast.Name)
        return ['TAssign %s %s'%(q(n.targets[0].id),e(n.value))]
    if t is ast.AnnAssign:
        if n.value is None: return []
        return ['TAssign %s %s'%(q(n.target.id),e(n.value))]
    if t is ast.FunctionDef: return [fun(n,mod,prefix,out)]
    if t is ast.ClassDef:
        assert not n.keywords and not n.decorator_list
        items=[x for s in n.body for x in top(s,mod,prefix+'.'+n.name,ind+2,out)]
        pad='\n'+' '*(ind+2)
        return ['TClass %s %s%s%s'%(q(n.name),lst(map(e,n.bases)),pad,'['+(';'+pad+' ').join(items)+']')]
    if t is ast.Expr and isinstance(n.value,ast.Constant): return []
    if t is ast.Pass: return []
    bad(n,'top')
def module(name,path):
    global PATH
    PATH=path
    tree=ast.parse(open(R+path).read())
    out=[]
    items=[x for s in tree.body for x in top(s,name,name,2,out)]
    return '\n'.join(out)+'\n(** %s *)\nDefinition m_%s : list top :=\n  [%s].\n'%('epcpy/'+path,name,';\n   '.join(items))
HEAD='''(** %s
    Written by a program from the syntax trees of the source text: docstrings and annotations are left out, nothing else. *)
From Coq Require Import String ZArith List.
From Verif.Model Require Import Syntax.
Import ListNotations.
Open Scope string_scope.
Open Scope Z_scope.
Open Scope list_scope.

'''
if __name__=='__main__':
    od=sys.argv[1]; os.makedirs(od,exist_ok=True)
    for name,path in FILES:
        txt=module(name,path)
        open(od+'/S_%s.v'%name,'w').write(HEAD%('epcpy/'+path)+txt)
    w=HEAD%'The modules of epcpy, in an order in which each one comes after those it imports.'
    w=w.replace('Require Import Syntax.','Require Import Syntax.\nFrom Verif.Source Require Import '+' '.join('S_'+n for n,_ in FILES)+'.')
    w+='Definition modules : list (string * list top) :=\n  [%s].\n\n'%'; '.join('(%s, m_%s)'%(q(n),n) for n,_ in FILES)
    w+='Definition codes : list (string * fundef) :=\n  [%s].\n'%';\n   '.join('(%s, %s)'%(q(a),b) for a,b in codes)
    open(od+'/Program.v','w').write(w)
    print(len(codes),'functions')
