#!/usr/bin/env python3
"""Seed a wrong program into a scratch copy of the model and see which property theorems notice.

usage: mutate.py MUTANTS.json [id ...]     (results are appended to the --out file, default /tmp/mut/results.jsonl)

For each mutant the scratch copy is edited, rebuilt with make -k; every proof that no longer goes through is replaced
by Admitted *in the scratch copy* and the build goes on, so that at the end Print Assumptions tells for each
property theorem whether its proof survived.  Nothing under /verif/rocq is touched."""
import json, os, re, subprocess, sys, shutil, time, glob
SRC=os.environ.get('MUT_SRC','/verif/rocq'); OUT='/tmp/mut/results.jsonl'
STD={'ClassicalDedekindReals.sig_not_dec','ClassicalDedekindReals.sig_forall_dec',
     'FunctionalExtensionality.functional_extensionality_dep','Classical_Prop.classic',
     'functional_extensionality_dep','sig_not_dec','sig_forall_dec','classic'}
def sh(cmd,cwd,timeout=None):
    p=subprocess.run(cmd,shell=True,cwd=cwd,stdout=subprocess.PIPE,stderr=subprocess.STDOUT,text=True,errors='replace',timeout=timeout)
    return p.returncode,p.stdout
START=re.compile(r'^\s*(?:#\[[^\]]*\]\s*)?(?:Local |Global )?(Theorem|Lemma|Corollary|Fact|Remark|Proposition|Example|Definition|Fixpoint|Instance|Inductive|Record)\s+([A-Za-z_0-9\']+)',re.M)
END=re.compile(r'\b(Qed|Defined|Admitted|Abort)\.')
def admit_at(path,off):
    """replace the proof around character offset off by Admitted; returns (kind,name) or None"""
    s=open(path).read()
    ms=[m for m in START.finditer(s) if m.start()<=off]
    if not ms: return None
    m=ms[-1]
    e=END.search(s,m.start())
    p=re.search(r'\bProof\b[^.]*\.',s[m.start():])
    if not p or not e: return None
    pst=m.start()+p.start()
    nxt=[x for x in START.finditer(s) if x.start()>m.start()]
    if nxt and nxt[0].start()<pst: return None    # the failing sentence has no proof
    if e.start()<pst: return None
    if m.group(1)=='Example':
        # an example that became false: drop the statement
        s2=s[:m.start()]+'\n'+s[e.end():]
    else:
        s2=s[:pst]+'Proof. Admitted.'+s[e.end():]
    open(path,'w').write(s2)
    return (m.group(1),m.group(2))
def offset(path,line,col):
    b=open(path,'rb').read().split(b'\n')
    o=sum(len(x)+1 for x in b[:line-1])+col
    return len(open(path,'rb').read()[:o].decode('utf8','ignore'))
def theorems():
    out=[]
    for f in sorted(glob.glob(SRC+'/theories/Prop_*.v')):
        mod=os.path.basename(f)[:-2]
        for m in re.finditer(r'^Theorem (C\d\d_\w+)',open(f).read(),re.M): out.append((mod,m.group(1)))
    return out
def run(mu,work='/tmp/mut/work',maxit=60,per=150):
    t0=time.time()
    sh(f'rm -rf {work} && cp -a {SRC} {work}','/')
    edits=mu['edits'] if 'edits' in mu else [[mu['file'],mu['old'],mu['new']]]
    for f,old,new in edits:
        p=f'{work}/theories/{f}'; s=open(p).read()
        if s.count(old)!=1: return dict(id=mu['id'],status=f'bad edit in {f}: {s.count(old)} occurrences')
        open(p,'w').write(s.replace(old,new)); 
    admitted=[]; model=set(f for f,_,_ in edits)
    for it in range(maxit):
        rc,o=sh(f'make -k -j3 COQC="timeout {per} coqc" 2>&1',work,timeout=7200)
        if rc==0: break
        done=set(); progressed=False
        for m in re.finditer(r'File "\./(theories/\w+\.v)", line (\d+), characters (\d+)-(\d+):\n(Error|.*\n?Error)?',o):
            rest=o[m.end()-6:m.end()+200]
            if 'Error' not in o[m.end()-10:m.end()+10]: continue
            f=m.group(1)
            if f in done: continue
            done.add(f)
            off=offset(f'{work}/{f}',int(m.group(2)),int(m.group(3)))
            r=admit_at(f'{work}/{f}',off)
            if r is None:
                return dict(id=mu['id'],status='cannot repair',where=f,admitted=admitted,err=o[m.start():m.start()+600])
            admitted.append([os.path.basename(f),r[0],r[1]]); progressed=True
        for m in re.finditer(r'\*\*\* \[[^\]]*theories/(\w+)\.vo\] Error (\d+)',o):
            f=f'theories/{m.group(1)}.v'
            if f in done: continue
            # timeout: find the sentence
            rc2,o2=sh(f'timeout {per} coqc -time -Q theories Verif {f} 2>&1',work)
            cs=re.findall(r'^Chars (\d+) - (\d+) ',o2,re.M)
            if not cs: return dict(id=mu['id'],status='cannot locate',where=f,admitted=admitted,err=o2[-300:])
            b=open(f'{work}/{f}','rb').read()[:int(cs[-1][1])+2].decode('utf8','ignore')
            r=admit_at(f'{work}/{f}',len(b))
            if r is None: return dict(id=mu['id'],status='cannot repair (timeout)',where=f,admitted=admitted)
            admitted.append([os.path.basename(f),r[0],r[1]]); progressed=True; done.add(f)
        if not progressed: return dict(id=mu['id'],status='stuck',admitted=admitted,err=o[-800:])
    else: return dict(id=mu['id'],status='too many iterations',admitted=admitted)
    th=[(m,t) for m,t in theorems() if os.path.getmtime(f'{work}/theories/{m}.vo')>t0]    # the others were not rebuilt
    with open(f'{work}/All.v','w') as h:
        mods=sorted(set(m for m,_ in th))
        h.write('From Verif Require '+' '.join(mods)+'.\n')
        for m,t in th: h.write(f'Goal True. idtac "MARK {t}". Abort.\nPrint Assumptions {m}.{t}.\n')
    rc,o=sh('coqc -Q theories Verif All.v',work)
    failed=[]; seen=0
    for part in re.split(r'^MARK ',o,flags=re.M)[1:]:
        name=part.split()[0]; seen+=1
        i=part.find('Axioms:')
        if i<0: continue
        ax=set(x.split('.')[-1] for x in re.findall(r'^([A-Za-z_][\w.\']*)\s*(?::|$)',part[i+7:],re.M))
        if ax-{x.split('.')[-1] for x in STD}: failed.append(name)
    return dict(id=mu['id'],status='ok' if seen>=len(th) else f'parsed {seen}/{len(th)}',failed=failed,admitted=admitted,secs=int(time.time()-t0))
def main():
    global OUT
    a=sys.argv[1:]
    work='/tmp/mut/work'
    if '--work' in a: i=a.index('--work'); work=a[i+1]; del a[i:i+2]
    if '--out' in a: i=a.index('--out'); OUT=a[i+1]; del a[i:i+2]
    ms=json.load(open(a[0])); ids=a[1:]
    done=set()
    if os.path.exists(OUT): done={json.loads(l)['id'] for l in open(OUT) if json.loads(l).get('status')=='ok'}
    for mu in ms:
        if ids and mu['id'] not in ids: continue
        if not ids and mu['id'] in done: continue
        r=run(mu,work)
        for k in ('claim','def','what'): r[k]=mu.get(k)
        open(OUT,'a').write(json.dumps(r,ensure_ascii=False)+'\n')
        print(json.dumps({k:r.get(k) for k in ('id','status','failed','secs','where','err')},ensure_ascii=False),flush=True)
if __name__=='__main__': main()
