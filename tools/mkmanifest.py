#!/usr/bin/env python3
# MANIFEST.json: theorems are the Cnn_* theorems of rocq/theories/*Props.v; status and note come from tools/status.json
import json,re,glob,os
root=os.path.join(os.path.dirname(os.path.abspath(__file__)),'..')
st=json.load(open(os.path.join(root,'tools/status.json')))
th={}
for f in sorted(glob.glob(os.path.join(root,'rocq/theories/*Props*.v'))):
    for m in re.finditer(r'^\s*Theorem (C\d\d\w*)',open(f).read(),re.M):
        th.setdefault(m.group(1)[:3],[]).append(m.group(1))
claims=[]
for line in open(os.path.join(root,'properties.jsonl')):
    i=json.loads(line)['id']
    s,n=st.get(i,["",""])
    if not th.get(i) and s!='not_applicable':
        continue
    if not s:
        s='partial' if any(t.endswith('_partial') or t.endswith('_refuted') for t in th[i]) else 'proved'
    claims.append(dict(property=i,status=s,theorems=th.get(i,[]),note=n))
json.dump({"claims":claims},open(os.path.join(root,'MANIFEST.json'),'w'),indent=1)
print(len(claims),"claims",sum(len(c['theorems']) for c in claims),"theorems")
