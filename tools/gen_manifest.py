#!/usr/bin/env python3
"""MANIFEST.json from the theorem names in P_*.v plus tools/notes.json."""
import re,glob,os,json
here=os.path.dirname(os.path.abspath(__file__))
th={}
for f in sorted(glob.glob(here+'/../rocq/theories/P_*.v')):
    for m in re.finditer(r'^Theorem (C\d\d\d?)(\w*)',open(f).read(),re.M):
        th.setdefault(m.group(1),[]).append(m.group(1)+m.group(2))
docs={}
for f in sorted(glob.glob(here+'/../rocq/theories/*Thms.v')):
    for m in re.finditer(r'\(\*\*((?:(?!\*\)).)*)\*\)\s*Lemma p(C\d\d\d?)(\w*(?:_partial|_refuted|_exact))\b',open(f).read(),re.S):
        docs.setdefault(m.group(2),[]).append(m.group(2)+m.group(3)+': '+re.sub(r'\s+',' ',m.group(1)).strip())
notes=json.load(open(here+'/notes.json')) if os.path.exists(here+'/notes.json') else {}
claims=[]
for l in open(here+'/../properties.jsonl'):
    i=json.loads(l)['id']
    ts=th.get(i,[])
    n=notes.get(i,{})
    st=n.get('status')
    if st is None:
        if not ts: continue
        st='partial' if any(t.endswith('_partial') or t.endswith('_refuted') for t in ts) else 'proved'
    if not ts and st!='not_applicable': continue
    claims.append({"property":i,"status":st,"theorems":ts,"note":n.get('note','') or ' | '.join(docs.get(i,[]))})
json.dump({"claims":claims},open(here+'/../MANIFEST.json','w'),indent=1)
print(len(claims),'claims',sum(len(c['theorems']) for c in claims),'theorems')
