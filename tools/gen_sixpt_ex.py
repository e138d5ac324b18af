#!/usr/bin/env python3
"""Writes rocq/theories/SixptData.v: the scene of SixptEx2.v, the values of the
matrices of sixpt for it and the pivots of the eliminations (examples only)."""
import re,os,math
from fractions import Fraction as Q
OUT=os.path.join(os.path.dirname(__file__),'..','rocq','theories')
T=open('/repo/src/relative_pose/modules/sixpt/modules2.cpp').read()
push=re.findall(r'(c\d)\.push_back\((.*)\);',T)
row2=[e for _,e in re.findall(r'M1\(row,(\d+)\)\s*=\s*([^;]*);',T)]
cells=[tuple(map(int,x)) for x in re.findall(r'M2\((\d+),(\d+)\) = M1\((\d+),(\d+)\)',T)]
act=[]
for l in T.split('\n'):
    m=re.match(r'Action\.row\((\d+)\) -= M3\.block<1,64>\((\d+),0\);',l.strip())
    if m: act.append((int(m.group(1)),int(m.group(2))))
    m=re.match(r'Action\((\d+),(\d+)\) = 1\.0;',l.strip())
    if m: act.append((int(m.group(1)),93+int(m.group(2))))
# three times the directions, and the points (in view 1 and in view 2)
S=[((-2, 2, -1), (-2, 2, -1), (9, -6, -3), (-6, 6, -3)),
   ((0, 3, 0), (-2, -2, -1), (6, 0, 0), (-3, 3, 3)),
   ((0, 0, 3), (2, 1, 2), (6, 0, 6), (3, 3, 3)),
   ((0, 0, 3), (2, -1, -2), (0, 3, 0), (-3, -3, 6)),
   ((-2, 1, 2), (3, 0, 0), (0, -6, 6), (3, -3, -3)),
   ((-2, -2, 1), (2, 2, -1), (-3, 0, -3), (-6, -6, 3))]
def cross(a,b): return [a[1]*b[2]-a[2]*b[1],a[2]*b[0]-a[0]*b[2],a[0]*b[1]-a[1]*b[0]]
L1=[[Q(x,3) for x in D]+cross([Q(x,3) for x in D],X) for D,_,X,_ in S]
L2=[[Q(x,3) for x in D]+cross([Q(x,3) for x in D],X) for _,D,_,X in S]
cp=[(n,compile(e,'x','eval')) for n,e in push]; cr=[compile(e,'x','eval') for e in row2]
def fill1(l01,l02,l11,l12):
    g=dict(l01=l01,l02=l02,l11=l11,l12=l12); c={'c0':[],'c1':[],'c2':[]}
    for n,e in cp: c[n].append(eval(e,g))
    return c['c0'],c['c1'],c['c2']
m={(p,s-(s>p)):fill1(L1[p],L2[p],L1[s],L2[s]) for p in range(6) for s in range(6) if s!=p}
A=[[eval(c,dict(m0=m[d,a],m1=m[d,b],m2=m[d,e])) for c in cr] for d in range(6) for a in range(3) for b in range(a+1,4) for e in range(b+1,5)]
Az=[[int(x*27**3) for x in r] for r in A]
assert all(x*27**3==y for r,q in zip(A,Az) for x,y in zip(r,q))
def order(rows,P):
    B={k:[x%P for x in r] for k,r in rows.items()}; cols=set(range(len(B[min(B)]))); rs=[];cs=[]
    while cols:
        best=None; cnt={c:sum(1 for r in B.values() if r[c]) for c in cols}
        for k,r in B.items():
            nz=[c for c in cols if r[c]]
            if not nz: continue
            c=min(nz,key=lambda c:(cnt[c],c)); cost=(len(nz)-1)*(cnt[c]-1)
            if best is None or cost<best[0]: best=(cost,k,c)
        if best is None: return None
        _,k,c=best; p=B.pop(k); iv=pow(p[c],-1,P)
        for q in B.values():
            if q[c]:
                f=q[c]*iv%P
                for d in cols:
                    if p[d]: q[d]=(q[d]-f*p[d])%P
        cols.discard(c); rs.append(k); cs.append(c)
    return rs,cs
# fifteen independent equations and M1
PB=1000003
rb,_=order({r:Az[r][:15] for r in range(60)},PB)
B=[[Q(x) for x in A[r]] for r in rb]
for c in range(15):
    k=next(i for i in range(c,15) if B[i][c]!=0); B[c],B[k]=B[k],B[c]
    iv=1/B[c][c]; B[c]=[x*iv for x in B[c]]
    for i in range(15):
        if i!=c and B[i][c]!=0:
            f=B[i][c]; B[i]=[x-f*y for x,y in zip(B[i],B[c])]
D=1
for r in B:
    for x in r: D=D*x.denominator//math.gcd(D,x.denominator)
N=[[int(x*D) for x in r] for r in B]
for P in [p for p in range(5,400) if all(p%q for q in range(2,p))]:
    if D%P==0: continue
    b=order({r:Az[r][:15] for r in range(60)},P)
    M1=[[x*pow(D,-1,P)%P for x in r] for r in N]
    M2=[[0]*157 for _ in range(93)]
    for r,c,i,j in cells: M2[r][c]=M1[i][j]
    lead=b and order({r:M2[r][:93] for r in range(93)},P)
    if not lead: continue
    rows={r:M2[r][:156] for r in range(93)}
    for i,a in act:
        q=[0]*157; q[a]=1; q[93+i]=P-1; rows[93+i]=q[:156]
    eig=order(rows,P)
    if eig: break
print('P',P,'D',D)
def zl(l): return '[%s]'%';'.join(map(str,l))
def tab(name,t,ty='list (list Z)'): return 'Definition %s : %s := [\n  %s]%%Z.'%(name,ty,';\n  '.join(map(zl,t)))
def vz(x): return '(%d,%d,%d)'%tuple(x)
o=['(** Generated by tools/gen_sixpt_ex.py: values and pivots for the scene of\n    SixptEx2.v (examples only). *)\nFrom Coq Require Import List NArith ZArith.\nImport ListNotations.\n']
o.append('(** three times the directions, the points in view 1 and in view 2 *)')
for n,k in (('s6_D1',0),('s6_D2',1),('s6_X1',2),('s6_X2',3)): o.append('Definition %s : list (Z * Z * Z) := [%s]%%Z.'%(n,'; '.join(vz(s[k]) for s in S)))
o.append('(** the polynomials of fillRow1 for l = (d/3, m), times 27 *)')
def ze(e):
    # terms with fewer than three directions get factors three
    ts=re.findall(r'[+-]?[^+-]+',e); out=''
    for t in ts:
        nd=len(re.findall(r'l\d\d\[[012]\]',t)); assert nd in (1,2,3),(nd,t)
        s='-' if t[0]=='-' else '+'; t=t.lstrip('+-').strip()
        k=3**(3-nd); t=re.sub(r'(l\d\d)\[(\d)\]',r'z\2 \1',t).replace('*',' * ')
        if k>1: t='%d * %s'%(k,t)
        out+=(' %s '%s if out else ('-' if s=='-' else ''))+t
    return out
o.append('Record zline := ZL { z0 : Z; z1 : Z; z2 : Z; z3 : Z; z4 : Z; z5 : Z }.')
for k in range(3):
    es=[e for n,e in push if n=='c%d'%k]
    o.append('Definition zfill_c%d (l01 l02 l11 l12 : zline) : list Z := (\n  [ %s ])%%Z.'%(k,';\n    '.join(map(ze,es))))
o.append('(** 27^3 M1p *)'); o.append(tab('s6_M1p',Az))
o.append('Definition s6_d : Z := %d.'%D); o.append('(** s6_d M1 *)'); o.append(tab('s6_M1',N))
o.append('Definition s6_P : Z := %d.'%P); o.append(tab('s6_res',M1))
o.append('Definition s6_brs : list nat := %s.'%zl(b[0])); o.append('Definition s6_bcs : list nat := %s.'%zl(b[1]))
o.append('Definition s6_rs : list nat := %s.'%zl(lead[0])); o.append('Definition s6_cs : list N := %s%%N.'%zl(lead[1]))
o.append('Definition s6_ers : list nat := %s.'%zl(eig[0])); o.append('Definition s6_ecs : list N := %s%%N.'%zl(eig[1]))
open(OUT+'/SixptData.v','w').write('\n'.join(o)+'\n')
