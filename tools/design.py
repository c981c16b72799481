#!/usr/bin/env python3
"""Rewrites the generated part of DESIGN.md (status, findings) from MANIFEST.json and properties.jsonl."""
import json,os
root=os.path.dirname(os.path.dirname(os.path.abspath(__file__)))
P={}
for l in open(root+'/properties.jsonl'):
    if l.strip(): d=json.loads(l); P[d['id']]=d
mark='\n## Status and findings (generated by tools/design.py)\n'
s=open(root+'/DESIGN.md').read().split(mark)[0]
out=[mark,'\n"refuted" theorems exhibit an input or history on which the code of the pinned commit breaks the English property.\n']
for c in json.load(open(root+'/MANIFEST.json'))['claims']:
    p=c['property']; ref=[t for t in c['theorems'] if 'refuted' in t]
    out.append('\n* **%s %s** (%s). %s'%(p,P[p]['title'],c['status'],c['note']))
    if ref: out.append('  Refuted: '+', '.join('`%s`'%t for t in ref)+'.')
open(root+'/DESIGN.md','w').write(s+''.join(out)+'\n')
