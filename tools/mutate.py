#!/usr/bin/env python3
"""Test the theorems against wrong programs, in a scratch copy.
usage: mutate.py mutations.json   (list of {file, definition, old, new, edit, claim})
For each mutation: copy rocq/, apply the edit to the model, recompile the files that
depend on it; a proof that no longer goes through is replaced by Admitted (in the scratch
copy only) so that the rest can be tried; at the end the property theorems which rest on
such a proof are the ones that failed.  Appends one JSON line per mutation to
seeded/LOG.jsonl."""
import sys, os, re, json, shutil, subprocess
SRC='/verif/rocq'; W='/tmp/mut'
def order():
    return [l.strip() for l in open(SRC+'/_CoqProject') if l.strip().endswith('.v')]
def deps(f):
    t=open(SRC+'/'+f).read(); r=set()
    for m in re.finditer(r'From Verif Require (?:Import|Export) (.*?)\.\s',t,re.S):
        r|={'theories/%s.v'%x for x in m.group(1).split()}
    return r
def run(f):
    try:
        p=subprocess.run(['coqc','-q','-Q','theories','Verif',f],cwd=W,capture_output=True,text=True,timeout=600)
    except subprocess.TimeoutExpired:
        return None,'timeout'
    return p.returncode,p.stdout+p.stderr
START=re.compile(r'^\s*(?:Lemma|Theorem|Example|Corollary)\s+([\w\']+)',re.M)
def build(f,admitted):
    """compile f, admitting failing proofs"""
    path=W+'/'+f
    for _ in range(200):
        rc,out=run(f)
        if rc==0: return out
        m=re.search(r'line (\d+), characters (\d+)-',out)
        if not m: return 'FATAL '+out[-300:]
        ln=int(m.group(1)); lines=open(path).read().split('\n')
        off=sum(len(x)+1 for x in lines[:ln-1])+int(m.group(2))
        txt='\n'.join(lines)
        starts=[s for s in START.finditer(txt) if s.start()<=off]
        if not starts: return 'FATAL '+out[-300:]
        s=starts[-1]; name=s.group(1)
        pr=txt.find('Proof',s.start()); 
        q=re.compile(r'\b(Qed|Defined)\.').search(txt,s.start())
        if pr<0 or off<pr and 'is not' not in out and False: return 'FATAL '+out
        if name in admitted or q is None: return 'FATAL (statement) '+name+' '+out[-300:]
        txt=txt[:pr]+'Proof. Admitted.'+txt[q.end():]
        open(path,'w').write(txt); admitted.append(name)
    return 'FATAL loop'
def main():
    muts=json.load(open(sys.argv[1])); od=order(); D={f:deps(f) for f in od}
    log=open('/verif/seeded/LOG.jsonl','a')
    for m in muts:
        if os.path.exists(W): shutil.rmtree(W)
        shutil.copytree(SRC,W)
        p=W+'/theories/'+m['file']; t=open(p).read()
        if t.count(m['old'])<1: print('NOT FOUND',m['definition'],m['old']); continue
        if t.count(m['old'])>1:
            i=t.find(m['definition']); i=t.find(m['old'],max(i,0))
            t=t[:i]+m['new']+t[i+len(m['old']):]
        else: t=t.replace(m['old'],m['new'])
        open(p,'w').write(t)
        touched={'theories/'+m['file']}; admitted=[]; failed=[]; fatal=''
        for f in od:
            if 'only' in m and not any(os.path.basename(f).startswith(x) for x in m['only']): continue
            if f in touched or D[f]&touched:
                touched.add(f)
                out=build(f,admitted)
                if out.startswith('FATAL'): fatal=f+': '+out; break
                if 'Props' in f:
                    src=open(SRC+'/'+f).read()
                    names=re.findall(r'Print Assumptions (\w+)\.',src)
                    # split output in blocks
                    blocks=[b for b in re.split(r'(?=Closed under the global context|Axioms:)',out) if b.startswith(('Closed','Axioms'))]
                    for n,b in zip(names,blocks):
                        if b.startswith('Axioms'): failed.append(n)
        rec={'definition':m['definition'],'edit':m['edit'],'claim':m['claim'],'theorems_failed':failed,'theorems_tightened':m.get('tightened',[])}
        if fatal: rec['note']='build stops: '+fatal[:300]
        ex=[a for a in admitted if '_ex' in a]
        if ex: rec['examples_failed']=ex
        print(m['definition'],'|',m['edit'],'->',failed or ('FATAL '+fatal[:400] if fatal else 'NONE!!'),'| lemmas',admitted[:4])
        if failed or '--all' in sys.argv: log.write(json.dumps(rec)+'\n'); log.flush()
main()
