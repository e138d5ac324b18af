#!/usr/bin/env python3
"""Translate the sixpt solver of opengv, src/relative_pose/modules/sixpt/modules2.cpp,
into Coq: rocq/theories/SixptGen.v."""
import re,os
OUT=os.path.join(os.path.dirname(__file__),'..','rocq','theories')
F='src/relative_pose/modules/sixpt/modules2.cpp'
T=open('/repo/'+F).read()
L=T.split('\n')
def lineno(s,last=False): 
    k=T.rindex(s) if last else T.index(s)
    return T[:k].count('\n')+1
push=re.findall(r'(c\d)\.push_back\((.*)\);',T)
assert len(push)==30
row2=[(int(a),e) for a,e in re.findall(r'M1\(row,(\d+)\)\s*=\s*([^;]*);',T)]
assert [a for a,_ in row2]==list(range(84))
cells=[tuple(map(int,x)) for x in re.findall(r'M2\((\d+),(\d+)\) = M1\((\d+),(\d+)\)',T)]
act=[]
for l in L:
    m=re.match(r'Action\.row\((\d+)\) -= M3\.block<1,64>\((\d+),0\);',l.strip())
    if m: act.append((int(m.group(1)),'ActRow %s'%m.group(2)))
    m=re.match(r'Action\((\d+),(\d+)\) = 1\.0;',l.strip())
    if m: act.append((int(m.group(1)),'ActOne %s'%m.group(2)))
assert [a for a,_ in act]==list(range(64))
# monomials x_1^a x_2^b x_3^c
mon=[(2,0,0),(1,1,0),(0,2,0),(1,0,1),(0,1,1),(0,0,2),(1,0,0),(0,1,0),(0,0,1),(0,0,0)]
mon1=[]
for i,e in row2:
    S={tuple(sum(mon[int(k)][d] for k in t) for d in range(3)) for t in re.findall(r'm2\[\d\]\[(\d)\]\*m1\[\d\]\[(\d)\]\*m0\[\d\]\[(\d)\]',e)}
    assert len(S)==1; mon1.append(S.pop())
rows={}
for r,c,i,j in cells: rows.setdefault(r,[]).append((c,i,j))
mon2={156:(0,0,0)}; sh={}
ch=True
while ch:
    ch=False
    for r,es in rows.items():
        if r not in sh:
            for c,i,j in es:
                if c in mon2:
                    sh[r]=tuple(a-b for a,b in zip(mon2[c],mon1[j])); ch=True
                    for c,i,j in es:
                        e=tuple(a+b for a,b in zip(sh[r],mon1[j])); assert mon2.setdefault(c,e)==e
                    break
assert len(mon2)==157 and len(sh)==93
def sp(e): return re.sub(r'(?<=.)([-+*])',r' \1 ',e)
def e1(e): return re.sub(r'(l\d\d)\[(\d)\]',r'e\2 \1',sp(e))
def e2(e): return re.sub(r'(m\d)\[(\d)\]\[(\d)\]',r'\1 \2 \3',sp(e))
def mons(l): return '[%s]%%N'%';'.join('(%d,%d,%d)'%m for m in l)
o=['(** Generated by tools/gen_sixpt.py from %s:\n    the polynomials, the elimination template and the action matrix of sixpt.\n    Definitions only. *)\nFrom Coq Require Import Reals List NArith.\nFrom Verif Require Import Lin.\nImport ListNotations.\nLocal Open Scope R_scope.\n'%F]
o.append('(** Pluecker coordinates l[0] ... l[5] of a line: direction and moment *)\nRecord line6 := L6 { ldir : vec3; lmom : vec3 }.')
o.append('\n'.join('Definition e%d (l : line6) : R := %s (%s l).'%(k,['vx','vy','vz'][k%3],['ldir','lmom'][k//3]) for k in range(6)))
for k in range(3):
    es=[e for n,e in push if n=='c%d'%k]
    a,b=lineno('c%d.push_back'%k),lineno('c%d.push_back'%k,True)
    o.append('(** fillRow1, %s %d-%d *)'%(F,a,b))
    o.append('Definition fill_c%d (l01 l02 l11 l12 : line6) : list R :=\n  [ %s ].'%(k,';\n    '.join(map(e1,es))))
o.append('(** fillRow2, %s %d-%d *)'%(F,lineno('M1(row,0)'),lineno('M1(row,83)')))
o.append('Definition fill_row2 (m0 m1 m2 : nat -> nat -> R) : list R := (\n  [ %s ])%%R.'%(';\n    '.join(re.sub(r'(m\d) (\d) (\d)',r'\1 \2%nat \3%nat',e2(e)) for _,e in row2)))
o.append('(** the assignments to M2, %s %d-%d: for each row of M2 the\n    row i of M1 and the pairs (column of M2, column of M1) *)'%(F,lineno('M2(0,23)'),lineno('M2(92,')))
tab=[]
for r in range(93):
    i={x[1] for x in rows[r]}; assert len(i)==1
    tab.append('(%d%%nat, [%s])'%(i.pop(),';'.join('(%d,%d)'%(c,j) for c,_,j in rows[r])))
o.append('Definition six_rows : list (nat * list (N * N)) := [\n  %s ]%%N.'%';\n  '.join(tab))
o.append('(** a row of Action: minus a row of M3, or a one in a column *)\nInductive act_row := ActRow (k : nat) | ActOne (j : nat).')
o.append('(** the assignments to Action, %s %d-%d *)'%(F,lineno('Action.row(0)'),lineno('Action(63,62)')))
o.append('Definition six_action_rows : list act_row :=\n  [ %s ]%%nat.'%('; '.join(a for _,a in act)))
o.append('(** exponents of the three Cayley parameters in the monomials of the entries of\n    c0, c1, c2, of the columns of M1 and of the columns of M2 *)')
o.append('Definition six_mon : list (N * N * N) := %s.'%mons(mon))
o.append('Definition six_mon1 : list (N * N * N) := %s.'%mons(mon1))
o.append('Definition six_mon2 : list (N * N * N) := %s.'%mons([mon2[c] for c in range(157)]))
if __name__=='__main__':
    open(OUT+'/SixptGen.v','w').write('\n'.join(o)+'\n')
