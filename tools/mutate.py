#!/usr/bin/env python3
"""Mutation testing.  usage: mutate.py muts.json [logfile]
muts.json: list of {"file":"TModel","def":"...","old":"..","new":"..","edit":"..","claim":"Cxx: ..","nth":0}
For each: copy the built tree to /tmp/mut, apply the edit, rebuild; every lemma whose proof
breaks is replaced by Admitted (only in the scratch copy) until the tree builds, then
Print Assumptions of the P_ files tells which property theorems no longer hold up."""
import sys,json,os,re,subprocess,shutil
muts=json.load(open(sys.argv[1])); log=sys.argv[2] if len(sys.argv)>2 else '/verif/seeded/LOG.jsonl'
BASE=os.environ.get('BASE','/verif/rocq'); SCR=os.environ.get('SCR','/tmp/mut')
os.makedirs(os.path.dirname(log),exist_ok=True)
def sh(c,**k): return subprocess.run(c,shell=True,capture_output=True,text=True,**k)
for mu in muts:
    shutil.rmtree(SCR,ignore_errors=True); sh(f'cp -a {BASE} {SCR}')
    f=f'{SCR}/theories/{mu["file"]}.v'; s=open(f).read()
    n=s.count(mu['old'])
    if n<1 or (n>1 and 'nth' not in mu): print('BAD MUT',n,mu['def'],mu['old']); continue
    parts=s.split(mu['old']); k=mu.get('nth',0)
    s=mu['old'].join(parts[:k+1])+mu['new']+mu['old'].join(parts[k+1:])
    open(f,'w').write(s)
    broken=[]; fatal=None
    tg=' '.join(f'theories/P_{t}.vo' for t in mu.get('targets',[]))
    # everything not needed for the targets is ignored
    for it in range(60):
        r=sh(f'cd {SCR} && ulimit -v 9000000 && timeout 1500 make -k -j3 {tg} 2>&1 >{SCR}.out; true')
        txt=r.stderr+r.stdout+open(f'{SCR}.out').read()
        errs=re.findall(r'File "\./theories/(\w+)\.v", line (\d+), characters[^\n]*\n(Error|Anomaly)?',txt)
        errs=[(a,int(b)) for a,b,c in errs if c]
        oom=re.findall(r'theories/(\w+)\.vo\] Error|theories/(\w+)\.vo\] Killed',txt)
        if not errs:
            m=re.search(r'\*\*\* \[[^\]]*theories/(\w+)\.vo\]',txt)
            if m: fatal='no location: '+m.group(0)
            break
        done=set()
        for fn,ln in errs:
            if fn in done: continue
            done.add(fn)
            p=f'{SCR}/theories/{fn}.v'; L=open(p).read().split('\n')
            # enclosing statement
            i=ln-1
            while i>=0 and not re.match(r'\s*(Lemma|Theorem|Example|Corollary|Fact|Definition|Fixpoint|Instance|Remark)\b',L[i]): i-=1
            name=re.match(r'\s*\w+\s+(\w+)',L[i]).group(1)
            j=i
            while j<len(L) and not re.search(r'\bProof\b',L[j]): j+=1
            if j==len(L): fatal=f'ill-typed: {fn}:{ln}'; break
            q=j
            while not re.search(r'\b(Qed|Defined)\.',L[q]): q+=1
            head=L[j].split('Proof')[0]
            if fn.startswith('P_'):
                L[j:q+1]=[head+'Proof. Admitted.']
            else: L[j:q+1]=[head+'Admitted.']+['']*(q-j)
            open(p,'w').write('\n'.join(L)); broken.append(f'{fn}.{name}')
        if fatal: break
    if fatal and fatal.startswith('ill'): print('BAD MUT',fatal,mu['def'],mu['edit']); continue
    # which property theorems depend on admitted lemmas
    failed=[]
    for pf in sorted(os.listdir(f'{SCR}/theories')):
        if not re.match(r'P_\w+\.v$',pf): continue
        if mu.get('targets') and pf[2:-2] not in mu['targets']: continue
        r=sh(f'cd {SCR} && ulimit -v 9000000 && coqc -Q theories Verif theories/{pf}')
        t=open(f'{SCR}/theories/{pf}').read()
        names=re.findall(r'^Print Assumptions (\w+)\.',t,re.M)
        chunks=re.split(r'(?=Closed under the global context|Axioms:)',r.stdout)
        chunks=[c for c in chunks if c.startswith('Closed') or c.startswith('Axioms')]
        if r.returncode or len(chunks)!=len(names): failed.append(pf+':COMPILE'); continue
        ax=[b.split('.')[1] for b in broken]
        for nm,c in zip(names,chunks):
            if any(re.search(r'\b'+a+r'\s*:',c) for a in ax) or nm in ax: failed.append(nm)
        failed+= [a for a in ax if re.match(r'C\d\d\w*_ex$|pC\d\d\w*_ex$',a) and a not in failed and re.search(r'\b'+a.lstrip('p')+r'\b',t)]
    ent={"definition":f'{mu["file"]}.{mu["def"]}',"edit":mu['edit'],"claim":mu['claim'],"theorems_failed":failed,"lemmas_broken":broken,"theorems_tightened":mu.get('tight',[])}
    if fatal: ent["note"]=fatal
    cid=re.findall(r'C\d+',mu['claim'])
    ok=any(any(t.startswith(c+'_') for c in cid) for t in failed)
    ent["caught"]=ok
    open(log,'a').write(json.dumps(ent)+'\n')
    print(('OK  ' if ok else 'MISS'),mu['def'],'|',mu['edit'],'|',mu['claim'],'->',failed,broken[:3],fatal or '')
    sys.stdout.flush()
