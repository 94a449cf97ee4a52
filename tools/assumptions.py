#!/usr/bin/env python3
"""Rewrite the assumptions table in DESIGN.md (between the markers) from Print Assumptions.
Recompiles the P_*.v files into /tmp, so the library must be built."""
import glob, os, re, subprocess, collections, sys
from concurrent.futures import ThreadPoolExecutor
V='/verif/rocq'; groups=collections.defaultdict(list)
listed=open(V+'/_CoqProject').read().split()
files=[f for f in sorted(glob.glob(V+'/theories/P_*.v')) if 'theories/'+os.path.basename(f) in listed]
def compiled(f): return subprocess.run(['coqc','-Q','theories','Verif',f,'-o','/tmp/'+os.path.basename(f)+'o'],cwd=V,capture_output=True,text=True).stdout
outs=list(ThreadPoolExecutor(3).map(compiled,files))
for f,out in zip(files,outs):
    names=re.findall(r'^Print Assumptions (\S+)\.',open(f).read(),re.M)
    # one block per Print Assumptions, in order
    blocks=re.split(r'(?m)^(?=Axioms:|Closed under the global context)',out)[1:]
    assert len(blocks)==len(names),(f,len(blocks),len(names))
    for n,b in zip(names,blocks):
        ax=() if b.startswith('Closed') else tuple(sorted(set(re.findall(r'(?m)^([A-Za-z_.]+)(?: :|\n)',b))-{'Axioms'}))
        groups[ax].append(n)
txt=''
for ax,ns in sorted(groups.items(),key=lambda p:len(p[0])):
    txt+='\n* '+('**Closed under the global context**' if not ax else ', '.join('`%s`'%a for a in ax))+' (%d theorems): '%len(ns)+', '.join(ns)+'\n'
d=open('/verif/DESIGN.md').read()
a,b='<!-- assumptions begin -->','<!-- assumptions end -->'
i,j=d.index(a)+len(a),d.index(b)
open('/verif/DESIGN.md','w').write(d[:i]+'\n'+txt+'\n'+d[j:])
print({k:len(v) for k,v in groups.items()})
