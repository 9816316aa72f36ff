#!/usr/bin/env python3
"""Generate P_*.v (property theorems only) from *Thms.v.

Every `Lemma pCxx_name stmt. Proof.` of theories/XThms.v becomes
`Theorem Cxx_name stmt. Proof. exact pCxx_name. Qed. Print Assumptions Cxx_name.`
(or Example when the name ends in _ex) in theories/P_X.v, with its doc comment.
The imports are XThms plus whatever XThms imports."""
import re,glob,os
root=os.path.join(os.path.dirname(__file__),'..','rocq','theories')
for f in sorted(glob.glob(os.path.join(root,'*Thms.v'))):
    s=open(f).read()
    name=os.path.basename(f)[:-len('Thms.v')]
    imp=re.search(r'^From Verif Require Import ([^.]*)\.',s,re.M).group(1).split()
    out=[f"(** * P_{name}: property theorems (generated from {name}Thms.v by tools/gen_props.py). *)",
         f"From Verif Require Import {' '.join(imp)} {name}Thms.",""]
    for extra in re.findall(r'^(?:Import|Local Open Scope) [^.]*\.$',s,re.M): out.append(extra)
    for m in re.finditer(r'((?:\(\*\*(?:(?!\*\)).)*\*\)\n)?)Lemma p(C\d\d\w*)(.*?)\.\nProof\.',s,re.S):
        doc,nm,stmt=m.groups()
        kind='Example' if nm.endswith('_ex') else 'Theorem'
        out.append(f"{doc}{kind} {nm}{stmt}.\nProof. exact p{nm}. Qed.")
        if kind=='Theorem': out.append(f"Print Assumptions {nm}.")
        out.append("")
    open(os.path.join(root,f'P_{name}.v'),'w').write('\n'.join(out))
