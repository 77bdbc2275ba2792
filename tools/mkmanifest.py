#!/usr/bin/env python3
"""Writes MANIFEST.json from the theorem names C<nn>_* in rocq/theories/Prop_*.v and the notes in tools/notes.json."""
import json,re,glob,os
os.chdir(os.path.join(os.path.dirname(os.path.abspath(__file__)),'..'))
thms={}
for f in sorted(glob.glob('rocq/theories/Prop_*.v')):
    for m in re.finditer(r'^Theorem (C\d\d)(_\w+)',open(f).read(),re.M):
        thms.setdefault(m.group(1),[]).append(m.group(1)+m.group(2))
notes=json.load(open('tools/notes.json'))
claims=[]
for l in open('properties.jsonl'):
    i=json.loads(l)['id']
    ts=thms.get(i,[])
    n=notes.get(i,{})
    st=n.get('status') or ('proved' if ts else 'partial')
    claims.append({'property':i,'status':st,'theorems':ts,'note':n.get('note','') or ('' if ts else 'not yet proved')})
json.dump({'claims':claims},open('MANIFEST.json','w'),ensure_ascii=False,indent=1)
print({s:sum(c['status']==s for c in claims) for s in ('proved','partial','not_applicable')},[c['property'] for c in claims if not c['theorems']])
