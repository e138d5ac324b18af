#!/usr/bin/env python3
"""Seed one bug in a scratch copy of the model and report what no longer builds.
usage: mutate.py FILE 'old text' 'new text' 'claim broken' [definition]
Appends a line to /verif/seeded/LOG.jsonl (unless --dry)."""
import sys, os, subprocess, json, re, shutil
raw=[a for a in sys.argv[1:] if a!='--dry']; dry='--dry' in sys.argv
also=[]
while '--also' in raw:          # same edit mirrored in a proof-side copy of the loop body
    i=raw.index('--also'); also.append(raw[i+1:i+4]); del raw[i:i+4]
args=raw
f, old, new, claim = args[:4]; defn = args[4] if len(args)>4 else ''
V='/verif/rocq'; S='/tmp/mut/rocq'
os.makedirs('/tmp/mut',exist_ok=True)
subprocess.run(['rsync','-a','--delete',V+'/',S+'/']) if shutil.which('rsync') else (shutil.rmtree(S,ignore_errors=True), shutil.copytree(V,S,symlinks=True))
p=f'{S}/theories/{f}'; src=open(p).read()
assert src.count(old)>=1, 'pattern not found'
assert src.count(old)==1, f'pattern occurs {src.count(old)} times'
open(p,'w').write(src.replace(old,new))
for af,ao,an in also:
    q=f'{S}/theories/{af}'; t=open(q).read(); assert t.count(ao)==1, ('also',af,t.count(ao)); open(q,'w').write(t.replace(ao,an))
if not defn:
    pre=src[:src.index(old)]
    defn=re.findall(r'^(?:Definition|Fixpoint|Record|with)\s+(\w+)',pre,re.M)[-1]
subprocess.run('rm -f theories/Assumptions.vo; sed -i /Assumptions/d _CoqProject; coq_makefile -f _CoqProject -o Makefile',shell=True,cwd=S,stdout=subprocess.DEVNULL)
r=subprocess.run('timeout 3000 make -k -j4',shell=True,cwd=S,capture_output=True,text=True)
failed=[]
for m in re.finditer(r'File "\./theories/(\w+)\.v", line (\d+)[^\n]*\n(?!Warning)Error',r.stderr+r.stdout):
    fn,ln=m.group(1),int(m.group(2))
    lines=open(f'{S}/theories/{fn}.v').read().split('\n')[:ln]
    nm=None
    for l in lines:
        k=re.match(r'\s*(?:Global |Local |#\[\w+\] )?(?:Theorem|Lemma|Example|Corollary|Definition|Fixpoint|Instance|Fact|Program Definition)\s+(\w+)',l)
        if k: nm=k.group(1)
    failed.append(f'{fn}.{nm}')
# a prover process that was killed has rejected nothing: report it apart
killed=sorted(set(re.findall(r'theories/(\w+)\.vo\] (?:Error 137|Killed)',r.stderr+r.stdout)))
deps={}
for fn in os.listdir(S+'/theories'):
    if fn.endswith('.v'):
        t=open(S+'/theories/'+fn).read()
        deps[fn[:-2]]={w for m in re.findall(r'From Verif Require(?: Import| Export)?\s+([^.]*)\.',t) for w in m.split()}
bad={x.split('.')[0] for x in failed}; ch=True
while ch:
    ch=False
    for k,v in deps.items():
        if k not in bad and v&bad: bad.add(k); ch=True
notbuilt=sorted(bad-{'Assumptions'})
print('FAILED',failed,'NOT BUILT',notbuilt)
rec=dict(definition=f'{f}:{defn}',edit=f'{old.strip()}  ==>  {new.strip()}',claim=claim,failed=failed,not_built=notbuilt,tightened=[])
if killed: rec['inconclusive']=[k+': prover ran out of memory' for k in killed]; print('*** KILLED (inconclusive) ***',killed)
elif r.returncode==124: rec['inconclusive']=['build timed out']; print('*** TIMEOUT (inconclusive) ***')
elif not failed: print('*** SURVIVED ***')
if not dry:
    with open('/verif/seeded/LOG.jsonl','a') as g: g.write(json.dumps(rec)+'\n')
