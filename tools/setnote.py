#!/usr/bin/env python3
"""setnote.py C34 'text' [status]: sets the note of a claim in tools/notes.json."""
import json,sys,os
p=os.path.dirname(os.path.abspath(__file__))+'/notes.json'
n=json.load(open(p))
e=n.setdefault(sys.argv[1],{}); e['note']=sys.argv[2]
if len(sys.argv)>3: e['status']=sys.argv[3]
json.dump(n,open(p,'w'),indent=1)
