#!/usr/bin/env python3
# Writes rocq/theories/CrypTable.v: the tables of /repo/postgresql/resolved/crypt.py, read as text.
import re,ast
src=open('/repo/postgresql/resolved/crypt.py').read()
def table(name):
    i=src.index('\n'+name+' = (')+1
    j=src.index('(',i); d=0; k=j
    # skip comments while counting brackets
    out=[]
    while True:
        c=src[k]
        if c=='#':
            while src[k]!='\n': k+=1
            continue
        out.append(c)
        if c=='(': d+=1
        if c==')':
            d-=1
            if d==0: break
        k+=1
    a=src[:i].count('\n')+1; b=src[:k].count('\n')+1
    return ast.literal_eval(''.join(out)),a,b
def lst(l):
    o=[];line='   '
    for n,x in enumerate(l):
        line+=' '+('0x%08x'%x if max(l)>255 else str(x))+(';' if n<len(l)-1 else '')
        if (n+1)%8==0 and n<len(l)-1: o.append(line); line='   '
    o.append(line)
    return '  [\n'+'\n'.join(o)+']'
w=['(** CrypTable.v: the tables of /repo/postgresql/resolved/crypt.py, generated by tools/mkcrypt.py *)',
   'From Coq Require Import ZArith List.','Import ListNotations.','Local Open Scope Z_scope.','']
for n in ('_SPtrans','_skb'):
    t,a,b=table(n)
    w.append('(** resolved/crypt.py:%d-%d %s *)'%(a,b,n))
    w.append('Definition %s : list (list Z) := ['%n[1:]+';\n'.join(lst(x) for x in t)+'].')
for n in ('_shifts2','_con_salt'):
    t,a,b=table(n)
    w.append('(** resolved/crypt.py:%d-%d %s *)'%(a,b,n))
    w.append('Definition %s : list Z :=\n%s.'%(n[1:],lst(t)))
i=src.index('_cov_2char = b'); s=re.match(r"_cov_2char = b'([^']*)'",src[i:]).group(1)
w.append('(** resolved/crypt.py:%d _cov_2char *)'%(src[:i].count('\n')+1))
w.append('Definition cov_2char : list Z :=\n%s.'%lst([ord(c) for c in s]))
open('/verif/rocq/theories/CrypTable.v','w').write('\n'.join(w)+'\n')
