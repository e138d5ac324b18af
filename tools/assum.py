#!/usr/bin/env python3
"""Collect the output of theories/Assumptions.v into the last section of /verif/DESIGN.md:
for each theorem the axioms Print Assumptions lists, grouped."""
import re,subprocess
V='/verif/rocq'
src=open(V+'/theories/Assumptions.v').read()
names=re.findall(r'^Print Assumptions (\w+)\.',src,re.M)
out=subprocess.run(['coqc','-Q','theories','Verif','-o','/tmp/Assumptions.vo','theories/Assumptions.v'],cwd=V,capture_output=True,text=True).stdout
blocks=[]; cur=None
for l in out.split('\n'):
    if l.startswith('Closed under the global context'): blocks.append(frozenset()); cur=None
    elif l.startswith('Axioms:'): cur=[]; blocks.append(cur)
    elif cur is not None:
        m=re.match(r'^([\w\.]+)(?:\s*:|$)',l)
        if m: cur.append(m.group(1))
blocks=[frozenset(b) for b in blocks]
assert len(blocks)==len(names),(len(blocks),len(names))
groups={}
for n,b in zip(names,blocks): groups.setdefault(b,[]).append(n)
o=[]
for b,ns in sorted(groups.items(),key=lambda x:len(x[0])):
    o.append('* '+('no axioms' if not b else ', '.join('`%s`'%x for x in sorted(b)))+': '+', '.join(ns))
M='### Axioms per theorem\n'
d=open('/verif/DESIGN.md').read()
d=d[:d.index(M)]+M+'\n'+'\n'.join(o)+'\n'
open('/verif/DESIGN.md','w').write(d)
print(len(names),'theorems',len(groups),'groups')
