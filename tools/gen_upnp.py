#!/usr/bin/env python3
"""Translate setupAction_gj (upnp2.cpp) and setupAction_sym_gj (upnp4.cpp) of
opengv into Coq: rocq/theories/UpnpGen.v."""
import re,os
OUT=os.path.join(os.path.dirname(__file__),'..','rocq','theories')
D='/repo/src/absolute_pose/modules/'
def cubics():
    return [(3-a-b-c,c,b,a) for a in range(4) for b in range(4-a) for c in range(4-a-b)]
U=lambda k,n=1:tuple(n*int(i==k) for i in range(4))
CFG={'upnp2.cpp':dict(pre='u2',mon1=cubics()+[U(k,2) for k in range(4)]+[U(k) for k in range(4)]+[(0,)*4],nr=395,nc=412,seed={411:(0,0,0,0),410:(0,0,0,1)},fn='setupAction_gj'),
     'upnp4.cpp':dict(pre='u4',mon1=cubics()+[U(k) for k in range(4)],nr=141,nc=149,seed={148:(0,0,0,1)},fn='setupAction_sym_gj')}
def load(f):
    t=open(D+f).read(); k=t.index('::setupAction'); body=t[k:]
    m1=[(int(a),int(b),e.strip()) for a,b,e in re.findall(r'(?<!\w)M1\((\d+),(\d+)\) = ([^;]*);',body)]
    rows={}
    for a,b,c,d in re.findall(r'\(\*\(M2\[(\d+)\]\)\)\[(\d+)\] = M1\((\d+),(\d+)\);',body):
        rows.setdefault(int(a),[]).append((int(b),int(c),int(d)))
    line=lambda s:t[:t.index(s)].count('\n')+1
    last=max(m.start() for m in re.finditer(r'\(\*\(M2\[\d+\]\)\)\[\d+\] = M1',t))
    return m1,rows,(line('M1(0,0) = '),line('(*(M2[0]))'),t[:last].count('\n')+1)
def monomials(rows,mon1,nr,nc,seed):
    mon=dict(seed); sh={}; ch=True
    while ch:
        ch=False
        for r,es in rows.items():
            for b,c,d in es:
                if r not in sh and b in mon: sh[r]=tuple(x-y for x,y in zip(mon[b],mon1[d])); ch=True
            if r in sh:
                for b,c,d in es:
                    e=tuple(x+y for x,y in zip(sh[r],mon1[d]))
                    if b not in mon: mon[b]=e; ch=True
                    assert mon[b]==e
    assert len(mon)==nc and len(rows)==nr
    return mon
def expr(e):
    e=re.sub(r'\bM\((\d+),(\d+)\)',r'M \1%nat \2%nat',e); e=re.sub(r'\bC\(0,(\d+)\)',r'C \1%nat',e)
    assert '(' not in e,e
    return re.sub(r'\s+',' ',re.sub(r'([+*])',r' \1 ',e))
def ex(l): return '[%s]'%';'.join('[%s]'%';'.join(map(str,m)) for m in l)
def gen(f):
    c=CFG[f]; m1,rows,(l1,l2,l3)=load(f); p=c['pre']; mon=monomials(rows,c['mon1'],c['nr'],c['nc'],c['seed'])
    path='src/absolute_pose/modules/'+f
    n1=len(c['mon1'])
    o=['(** * %s, %s *)'%(c['fn'],path)]
    o.append('(** the assignments to M1, %s from line %d *)'%(path,l1))
    o.append('Definition %s_cells (M : nat -> nat -> R) (C : nat -> R) : list (nat * nat * R) :=\n  [ %s ].'%(p,';\n    '.join('(%d%%nat, %d%%nat, %s)'%(a,b,expr(e)) for a,b,e in m1)))
    o.append('(** the assignments to M2, %s %d-%d: for each row of M2 the row i of M1 and\n    the pairs (column of M2, column of M1) *)'%(path,l2,l3))
    tab=[]
    for r in range(c['nr']):
        es=rows[r]; i={x[1] for x in es}; assert len(i)==1
        tab.append('(%d%%nat, [%s])'%(i.pop(),';'.join('(%d,%d)'%(b,d) for b,_,d in es)))
    o.append('Definition %s_rows : list (nat * list (N * N)) := [\n  %s ]%%N.'%(p,';\n  '.join(tab)))
    o.append('(** exponents of x_1 ... x_4 in the monomial of each column of M1 and of M2 *)')
    o.append('Definition %s_mon1 : list (list nat) := %s%%nat.'%(p,ex(c['mon1'])))
    o.append('Definition %s_mon2 : list (list nat) := %s%%nat.'%(p,ex([mon[k] for k in range(c['nc'])])))
    return '\n'.join(o)+'\n'
if __name__=='__main__':
    with open(OUT+'/UpnpGen.v','w') as g:
        g.write('(** Generated by tools/gen_upnp.py from src/absolute_pose/modules/upnp2.cpp and\n    upnp4.cpp: the coefficient matrices and elimination templates of UPnP.\n    Definitions only. *)\nFrom Coq Require Import Reals List NArith.\nImport ListNotations.\nLocal Open Scope R_scope.\n\n')
        g.write(gen('upnp2.cpp')+'\n'+gen('upnp4.cpp'))
