#!/usr/bin/env python3
"""Applies seeded bugs to a scratch copy of the model, rebuilds, and logs what failed.
usage: mutate.py spec.json   (spec: list of {definition,file,old,new,edit,claim})"""
import json,sys,os,re,shutil,subprocess,glob
root=os.path.dirname(os.path.dirname(os.path.abspath(__file__)))
spec=json.load(open(sys.argv[1])); tag=os.path.basename(sys.argv[1]).split('.')[0]
def theorem_at(path,line):
    name=None
    for i,l in enumerate(open(path),1):
        if i>line: break
        m=re.match(r'\s*(?:Theorem|Lemma|Corollary|Example|Fact|Remark|Definition|Fixpoint)\s+(\w+)',l)
        if m: name=m.group(1)
    return name
def deps(d,f,memo={}):
    if f in memo: return memo[f]
    memo[f]=set(); r={f}
    src=open(d+'/theories/'+f+'.v').read()
    for m in re.finditer(r'From Verif Require Import\s+([^.]*)\.',src):
        for x in m.group(1).split(): r|=deps(d,x,memo)
    memo[f]=r; return r
def lost_props(d,failed):
    r=[]
    for f in sorted(glob.glob(d+'/theories/Props*.v')):
        n=os.path.basename(f)[:-2]
        if deps(d,n)&set(failed): r+=re.findall(r'^Theorem\s+(C\d+_\w+)',open(f).read(),re.M)
    return r
for m in spec:
    d='/tmp/mut_'+tag
    if not os.path.isdir(d): shutil.copytree(root+'/rocq',d)
    # sync sources (keep .vo of unchanged files)
    for f in glob.glob(root+'/rocq/theories/*.v'):
        g=d+'/theories/'+os.path.basename(f)
        if not os.path.exists(g) or open(f).read()!=open(g).read(): shutil.copy(f,g)
    shutil.copy(root+'/rocq/_CoqProject',d+'/_CoqProject')
    subprocess.run('coq_makefile -f _CoqProject -o Makefile && make -j2',shell=True,cwd=d,capture_output=True)
    p=d+'/theories/'+m['file']; s=open(p).read()
    if s.count(m['old'])<1: print('NOT FOUND',m['definition'],m['old']); continue
    i=s.index(m['old'], s.index(m.get('after','')) if m.get('after') else 0)
    s=s[:i]+m['new']+s[i+len(m['old']):]
    open(p,'w').write(s)
    try:
        r=subprocess.run('make -k -j2 2>&1',shell=True,cwd=d,capture_output=True,text=True,timeout=1200); out=r.stdout
    except subprocess.TimeoutExpired as e:
        subprocess.run('pkill -f mut_'+tag,shell=True); out=(e.stdout or b'').decode() if isinstance(e.stdout,bytes) else (e.stdout or '')
        out+='\nTIMEOUT'
    direct=[]
    for x in re.finditer(r'File "\./theories/(\w+\.v)", line (\d+)',out):
        n=theorem_at(d+'/theories/'+x.group(1),int(x.group(2)))
        if n and (x.group(1)[:-2]+'.'+n) not in direct: direct.append(x.group(1)[:-2]+'.'+n)
    lost=lost_props(d,[x.split('.')[0] for x in direct])
    ent={'definition':m['definition'],'edit':m['edit'],'claim':m['claim'],'theorems_failed':direct,'property_theorems_no_longer_built':lost,'theorems_tightened':m.get('tightened',[])}
    if 'TIMEOUT' in out: ent['note']='build did not finish'
    print(json.dumps(ent)); sys.stdout.flush()
    open('/tmp/mutspec/'+tag+'.out','a').write(json.dumps(ent)+'\n')
    shutil.copy(root+'/rocq/theories/'+m['file'],p)
