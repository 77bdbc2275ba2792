#!/usr/bin/env python3
"""Write seeded/LOG.jsonl: one line per seeded wrong program (seeded/mutants*.json joined with the results of mutate.py)."""
import json, glob, os, sys, shutil
here=os.path.dirname(os.path.abspath(__file__)); seed=os.path.join(here,'..','seeded')
for i,(m,r) in enumerate([('/tmp/mut/m1.json','/tmp/mut/results.jsonl'),('/tmp/mut/m2.json','/tmp/mut/results2.jsonl'),('/tmp/mut/m3.json','/tmp/mut/results3.jsonl'),('/tmp/mut/m4.json','/tmp/mut/results4.jsonl'),('/tmp/mut/m5.json','/tmp/mut/results5.jsonl'),('/tmp/mut/m6.json','/tmp/mut/results6.jsonl'),('/tmp/mut/m7.json','/tmp/mut/results7.jsonl'),('/tmp/mut/m8.json','/tmp/mut/results8.jsonl'),('/tmp/mut/m9.json','/tmp/mut/results9.jsonl'),('/tmp/mut/m10.json','/tmp/mut/results10.jsonl'),('/tmp/mut/m11.json','/tmp/mut/results11.jsonl'),('/tmp/mut/m12.json','/tmp/mut/results12.jsonl'),('/tmp/mut/m13.json','/tmp/mut/results13.jsonl')],1):
    if os.path.exists(r):
        shutil.copy(m,f'{seed}/mutants{i}.json')
        rows=[json.loads(l) for l in open(r)]
        rows=[{k:x.get(k) for k in ('id','status','failed','admitted')} for x in rows]
        open(f'{seed}/results{i}.jsonl','w').write(''.join(json.dumps(x,ensure_ascii=False)+'\n' for x in rows))
tight=json.load(open(f'{seed}/tightened.json')) if os.path.exists(f'{seed}/tightened.json') else {}
out=[]; weak=[]
res={}
for f in sorted(glob.glob(f'{seed}/results*.jsonl')):
    for l in open(f):
        x=json.loads(l); res[x['id']]=x
for f in sorted(glob.glob(f'{seed}/mutants*.json')):
    for m in json.load(open(f)):
        r=res.get(m['id'])
        if not r or r.get('failed') is None: 
            if r: weak.append((m['id'],r['status']))
            continue
        r['failed']=sorted(set(r['failed'])|{n for _,k,n in r.get('admitted',[]) if k=='Theorem' and n[0]=='C' and n[1:3].isdigit()})
        edits=m.get('edits') or [[m['file'],m['old'],m['new']]]
        c=m['claim'][:3]
        t=tight.get(m['id'],{})
        if not any(x.startswith(c) for x in r['failed']): weak.append((m['id'],m['claim'],m['what'],r['failed'][:5], 'explained' if t else ''))
        d=dict(id=m['id'],definition=f"{edits[0][0]}: {m['def']}",edit=m['what'],diff=[dict(file=a,old=b,new=c2) for a,b,c2 in edits],claim_broken=m['claim'],
               theorems_failed=r['failed'],theorems_tightened=t.get('tightened',[]))
        if t.get('note'): d['note']=t['note']
        out.append(d)
open(f'{seed}/LOG.jsonl','w').write(''.join(json.dumps(x,ensure_ascii=False)+'\n' for x in out))
print(len(out),'logged'); 
for w in weak: print('CHECK',w)
