#!/usr/bin/env python3
"""Appends the results of mutate.py runs to seeded/LOG.jsonl, filling in the affected property theorems.
usage: logmut.py file.out [definition=edit-substring:tightened,theorem,names ...]"""
import json,sys,re,glob,os
root='/verif/rocq/theories/'
def deps(f,memo={}):
    if f in memo: return memo[f]
    memo[f]=set(); r={f}
    for m in re.finditer(r'From Verif Require Import\s+([^.]*)\.',open(root+f+'.v').read()):
        for x in m.group(1).split(): r|=deps(x,memo)
    memo[f]=r; return r
tight={}
for a in sys.argv[2:]:
    k,v=a.split('::'); tight[k]=v.split(',')
with open('/verif/seeded/LOG.jsonl','a') as out:
    for l in open(sys.argv[1]):
        d=json.loads(l)
        failed={x.split('.')[0] for x in d['theorems_failed']}
        lost=[]
        for f in sorted(glob.glob(root+'Props*.v')):
            if deps(os.path.basename(f)[:-2])&failed: lost+=re.findall(r'^Theorem\s+(C\d+_\w+)',open(f).read(),re.M)
        cl=re.findall(r'C\d\d',d['claim'])
        d['property_theorems_no_longer_built']=[x for x in lost if not cl or x[:3] in cl] or lost
        for k,v in tight.items():
            if k in d['edit']: d['theorems_tightened']=v
        out.write(json.dumps(d)+'\n')
