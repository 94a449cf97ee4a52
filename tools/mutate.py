#!/usr/bin/env python3
"""Seed a bug into a scratch copy of the model and report which property theorems stop proving.

usage: mutate.py batch.json   (list of {definition, file, old, new, edit, claim})
Proofs that fail are replaced by Admitted in the scratch copy; Print Assumptions in the
P_*.v files then tells which property theorems rest on a failed proof.
With "only": ["P_X", ...] only these files and what they need are rebuilt and examined.
Results are appended to seeded/LOG.jsonl (unless the entry has "dry": true)."""
import json, os, re, shutil, subprocess, sys, tempfile
V='/verif/rocq'
def run(entry):
    d=tempfile.mkdtemp(prefix='scratch',dir='/tmp/mut')
    shutil.copytree(V+'/theories',d+'/theories',copy_function=shutil.copy2)
    shutil.copy(V+'/_CoqProject',d)
    f=d+'/theories/'+entry['file']
    s=open(f).read()
    if s.count(entry['old'])!=1: shutil.rmtree(d); return {'error':'old text occurs %d times'%s.count(entry['old'])}
    open(f,'w').write(s.replace(entry['old'],entry['new']))
    if entry.get('only'):
        need=set(entry['only']); dep=subprocess.run('coqdep -Q theories Verif theories/*.v',shell=True,cwd=d,capture_output=True,text=True).stdout
        deps={m.group(1):set(re.findall(r'theories/(\w+)\.vo\b',m.group(2))) for m in re.finditer(r'theories/(\w+)\.vo [^:]*: (.*)',dep)}
        todo=list(need)
        while todo:
            for x in deps.get(todo.pop(),()):
                if x not in need: need.add(x); todo.append(x)
        ls=open(d+'/_CoqProject').read().split('\n')
        open(d+'/_CoqProject','w').write('\n'.join(l for l in ls if not l.startswith('theories/') or l[9:-2] in need)+'\n')
    subprocess.run('coq_makefile -f _CoqProject -o Makefile',shell=True,cwd=d,stdout=subprocess.DEVNULL)
    failed=[]; log=''; import time; t0=time.time()
    for it in range(150):
        p=subprocess.run('timeout 1500 make -k -j3 2>&1',shell=True,cwd=d,capture_output=True,text=True)
        log+=p.stdout
        if p.returncode==0: break
        hit=False
        for m in re.finditer(r'File "\./theories/(\S+)\.v", line (\d+), characters \d+-\d+:\nError',p.stdout):
            fn=d+'/theories/'+m.group(1)+'.v'; ls=open(fn).read().split('\n'); i=int(m.group(2))-1
            j=i
            while j>=0 and not re.match(r'\s*(Lemma|Theorem|Example|Corollary|Definition|Fixpoint|Record|Inductive|Fact|Remark|Local Lemma|Let|Instance)\b',ls[j]): j-=1
            txt='\n'.join(ls[j:])
            k=re.match(r'\s*(?:Local )?(Lemma|Theorem|Example|Corollary|Fact|Remark)\s+(\S+?)[\s:]',txt)
            if not k: shutil.rmtree(d); return {'error':'definition broke in %s line %d'%(m.group(1),i+1),'detail':p.stdout[-800:]}
            a=re.search(r'\bProof\b[^.]*\.',txt); b=re.search(r'\bQed\.|\bDefined\.|\bAbort\.',txt)
            if not a or not b or b.start()<a.start() or i-j<txt[:a.start()].count('\n'):
                shutil.rmtree(d); return {'error':'statement broke in %s line %d'%(m.group(1),i+1),'detail':p.stdout[-800:]}
            txt=txt[:a.start()]+'Admitted.'+txt[b.end():]
            open(fn,'w').write('\n'.join(ls[:j])+('\n' if j else '')+txt)
            failed.append(k.group(2)); hit=True
        if not hit: shutil.rmtree(d); return {'error':'build','detail':p.stdout[-800:]}
    # assumptions
    bad=set(failed); thms=[]; listed=open(d+'/_CoqProject').read().split()
    for fn in sorted(os.listdir(d+'/theories')):
        if not(fn.startswith('P_') and fn.endswith('.v')) or 'theories/'+fn not in listed: continue
        if os.path.getmtime(d+'/theories/'+fn+'o')<t0: continue
        out=subprocess.run(['coqc','-Q','theories','Verif','theories/'+fn],cwd=d,capture_output=True,text=True).stdout
        names=re.findall(r'^Print Assumptions (\S+)\.',open(d+'/theories/'+fn).read(),re.M)
        blocks=re.split(r'(?m)^(?=Axioms:|Closed under)',out)[1:]
        if len(blocks)!=len(names): shutil.rmtree(d); return {'error':'assumptions of '+fn}
        for nme,bl in zip(names,blocks):
            if any(re.search(r'(?m)^(\S+\.)?%s\s'%re.escape(x),bl+' ') for x in bad) or nme in bad: thms.append(nme)
    shutil.rmtree(d)
    ex=[x for x in failed if re.match(r'C\d+_case',x)]
    return {'theorems_failed':thms,'examples_failed':ex,'lemmas_failed':[x for x in failed if x not in thms and x not in ex][:12]}
for e in json.load(open(sys.argv[1])):
    r=run(e)
    o={'definition':e['definition'],'file':e['file'],'edit':e['edit'],'claim':e['claim'],**({'only':e['only']} if 'only' in e else {}),**r,'theorems_tightened':e.get('tightened',[])}
    print(json.dumps(o),flush=True)
    if 'error' not in r and not e.get('dry'):
        open('/verif/seeded/LOG.jsonl','a').write(json.dumps(o)+'\n')
