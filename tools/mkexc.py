#!/usr/bin/env python3
"""Generates rocq/theories/ExcTable.v from the class statements of /repo/postgresql/exceptions.py (read as text)."""
import ast
t=ast.parse(open('/repo/postgresql/exceptions.py').read())
env={'Message':34}  # message.py:10 class Message; a number that is no line of a class in exceptions.py
rows=[]
for n in t.body:
    if isinstance(n,ast.ClassDef):
        d={}
        for b in n.body:
            if isinstance(b,ast.Assign) and b.targets[0].id in('code','pg_code'): d[b.targets[0].id]=ast.literal_eval(b.value)
        bases=[env[ast.unparse(b)] for b in n.bases if ast.unparse(b) in env]
        env[n.name]=n.lineno
        o=lambda k: 'Some (str "%s")'%d[k] if k in d else 'None'
        rows.append('  mk %d (str "%s") [%s] (%s) (%s)'%(n.lineno,n.name,'; '.join(map(str,bases)),o('code'),o('pg_code')))
out='''(** ExcTable.v: the class statements of /repo/postgresql/exceptions.py:38-678, in order; generated by tools/mkexc.py.
    A class is identified by the line of its statement; 34 is Message (imported on that line; message.py:10-33).
    Bases that are builtins of Python are left out: they have no code. *)
From Verif Require Import PyStr ExcModel.

Definition statements : list class := [
  mk 34 (str "Message") [] (Some (str "00000")) None;
'''+';\n'.join(rows)+'''
].
'''
open('/verif/rocq/theories/ExcTable.v','w').write(out)
