#!/usr/bin/env python3
"""Regenerates MANIFEST.json: theorem names are collected from rocq/theories/Props*.v by their Cnn_ prefix."""
import json,re,glob,os
root=os.path.dirname(os.path.dirname(os.path.abspath(__file__)))
names={}
for f in sorted(glob.glob(root+'/rocq/theories/Props*.v')):
    for m in re.finditer(r'^(?:Theorem|Corollary)\s+((C\d+)_\w+)',open(f).read(),re.M):
        names.setdefault(m.group(2),[]).append(m.group(1))
notes=json.load(open(root+'/tools/notes.json'))
claims=[]
for l in open(root+'/properties.jsonl'):
    if not l.strip(): continue
    p=json.loads(l)['id']
    th=names.get(p,[])
    n=notes.get(p,{})
    st=n.get('status')
    if st is None: st='proved' if th and not any(t.endswith(('_partial','_refuted')) for t in th) else 'partial'
    claims.append({'property':p,'status':st,'theorems':th,'note':n.get('note','' if th else 'not yet proved')})
json.dump({'claims':claims},open(root+'/MANIFEST.json','w'),indent=1)
for c in claims: print(c['property'],c['status'],len(c['theorems']))
