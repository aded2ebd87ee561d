"""Writes the text of the source files, line by line, as Coq strings: python3 gen_text.py OUTDIR"""
import sys
from gen_source import FILES,R,q
od=sys.argv[1]
HEAD='''(** epcpy/%s, the text of the file, line by line. *)
From Coq Require Import String List.
Import ListNotations.
Open Scope string_scope.

Definition text_%s : list string := [
  %s
].
'''
for name,path in FILES+[('epcpy','__init__.py')]:
    t=open(R+path,newline='').read()
    assert t=='' or t.endswith('\n')
    open(od+'/T_%s.v'%name,'w').write(HEAD%(path,name,';\n  '.join(map(q,t.split('\n')[:-1]))))
names=[n for n,_ in FILES]
open(od+'/Texts.v','w').write('''(** The text of the modules, in the order of [Program.modules]. *)
From Coq Require Import String List.
From Verif.Source Require Import %s.
Import ListNotations.
Open Scope string_scope.

Definition texts : list (string * list string) :=
  [%s].
'''%(' '.join('T_'+n for n in names),'; '.join('(%s, text_%s)'%(q(n),n) for n in names)))
