#!/usr/bin/env python3
"""asks Coq for the assumptions of every theorem of the manifest (after a build); writes ASSUMPTIONS.md"""
import re,os,json,subprocess,sys
os.chdir(os.path.dirname(os.path.dirname(os.path.abspath(__file__))))
T='rocq/theories/'; L=[]; mods=[]
for l in open('rocq/_CoqProject'):
    l=l.strip()
    if not l.endswith('.v'): continue
    b=os.path.basename(l)[:-2]
    n=re.findall(r'^\s*Theorem (C\d\d\d?_\w+)',open(T+b+'.v').read(),re.M)
    if n: mods.append(b); L+=[(b,x) for x in n]
s=''.join('From Verif Require %s.\n'%b for b in mods)
for b,x in L: s+='Print Assumptions %s.%s.\n'%(b,x)
open('/tmp/Assume.v','w').write(s)
r=subprocess.run(['coqc','-Q','rocq/theories','Verif','/tmp/Assume.v'],capture_output=True,text=True)
if r.returncode: sys.exit(r.stderr)
res=[x for x in re.split(r'(?=Closed under the global context|Axioms:)',r.stdout) if x.strip()]
assert len(res)==len(L),(len(res),len(L))
with open('ASSUMPTIONS.md','w') as f:
    f.write('# Print Assumptions of every theorem (tools/assume.py)\n\n')
    for (b,x),y in zip(L,res): f.write('* `%s` (%s.v): %s\n'%(x,b,' '.join(y.split())))
print(len(L), sum(not y.startswith('Closed') for y in res),'with axioms')
