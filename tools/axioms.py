#!/usr/bin/env python3
"""Prints Print Assumptions of every theorem in MANIFEST.json (after a build) and rewrites the two lists in DESIGN.md."""
import json,re,subprocess,glob,os
os.chdir('/verif/rocq')
where={}
for f in glob.glob('theories/Prop_*.v'):
    for m in re.finditer(r'^Theorem (C\d\d\w*)',open(f).read(),re.M): where[m[1]]=os.path.basename(f)[:-2]
names=sorted(where)
v='From Verif Require '+' '.join(sorted(set(where.values())))+'.\n'
for n in names: v+=f'Definition marker_{n} := tt. Print marker_{n}. Print Assumptions {where[n]}.{n}.\n'
open('/tmp/AllAx.v','w').write(v)
out=subprocess.run(['coqc','-Q','theories','Verif','/tmp/AllAx.v'],capture_output=True,text=True)
assert out.returncode==0,out.stderr
parts=re.split(r'^marker_(C\d\d\w*) = tt\n.*\n',out.stdout,flags=re.M)[1:]
closed=[];four=[]
AX={'ClassicalDedekindReals.sig_forall_dec','ClassicalDedekindReals.sig_not_dec','FunctionalExtensionality.functional_extensionality_dep','Classical_Prop.classic','functional_extensionality_dep','classic'}
for n,t in zip(parts[::2],parts[1::2]):
    if 'Closed under the global context' in t: closed.append(n); continue
    ax=set(re.findall(r'^([A-Za-z_.]+)\s*:',t,re.M))
    ax|=set(re.findall(r'^([A-Za-z_.]+)$',t,re.M))
    ax-={'Axioms'}
    assert ax<=AX,(n,ax)
    four.append((n,len(ax)))
print(len(names),len(closed),len(four),set(k for _,k in four))
d=open('/verif/DESIGN.md').read()
d=re.sub(r'(   \* Closed under the global context \(no axiom\): ).*',lambda m:m[1]+', '.join(closed)+'.',d)
d=re.sub(r'(   \* The four axioms above: ).*',lambda m:m[1]+', '.join(n for n,_ in four)+'.',d)
open('/verif/DESIGN.md','w').write(d)
