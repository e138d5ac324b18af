#!/usr/bin/env python3
"""Translate the two composeA functions of the five-point algorithms
(fivept_stewenius/modules.cpp, fivept_nister/modules.cpp) to Gallina:
rocq/theories/FiveptGen.v."""
import re,os
B='/repo/src/relative_pose/modules/'
def load(name):
    s=open(B+name+'/modules.cpp').read()
    i=s.index('::composeA('); j=s.index('\n}',i)
    l0=s[:i].count('\n')+1; l1=s[:j].count('\n')+2
    asg=re.findall(r'(\w+|A\(\d+,\d+\))\s*=([^;=]+);',s[i:j])
    # nothing but declarations and assignments
    rest=re.sub(r'(\w+|A\(\d+,\d+\))\s*=([^;=]+);','',s[i:j]); rest=re.sub(r'double [\w,]+;','',rest)
    assert re.sub(r'\s+','',rest)=='::composeA(constEigen::Matrix<double,9,4>&EE,Eigen::Matrix<double,10,20>&A){',rest
    return l0,l1,asg
def term(e):
    e=re.sub(r'(?<![\d.])0?\.5\*','(1/2)*',e.strip().replace('1.5*','(3/2)*')).replace('.0*','*')
    assert '.' not in e
    return re.sub(r'\s*([-+*])\s*',r' \1 ',e).strip().replace('( - ','(-').replace('1/2','1 / 2').replace('3/2','3 / 2')
def fix(e):
    e=term(e)
    return '- '+e[1:].lstrip() if e.startswith('-') else e
out=[r'''(** Generated by tools/gen_five.py from composeA of
    src/relative_pose/modules/fivept_stewenius/modules.cpp and
    src/relative_pose/modules/fivept_nister/modules.cpp.  The four columns of the
    9x4 matrix EE are the matrices X Y Z W, read row by row.  Definitions only. *)
From Coq Require Import Reals List.
From Verif Require Import Lin.
Import ListNotations.
Local Open Scope R_scope.

Section Compose.
Variables X Y Z W : mat3.
''']
ms=['m%d%d'%(i,j) for i in range(3) for j in range(3)]
names=set()
def header(asg):
    h=[]
    for l,r in asg:
        m=re.fullmatch(r'EE\((\d),(\d)\)',r.strip())
        if m:
            assert l=='e%s%s'%(m[2],m[1]); continue
        if l.startswith('A('): continue
        b=l[:3]; n=int(l[3]); assert r.replace(' ','')=='*'.join([b]*n),(l,r)
for k in range(4):
    for i in range(9):
        out.append('Local Notation e%d%d := (%s %s).'%(k,i,ms[i],'XYZW'[k]))
for k in range(4):
    for i in range(9):
        b='e%d%d'%(k,i); out.append('Local Notation %s2 := (%s * %s).'%(b,b,b)); out.append('Local Notation %s3 := (%s * %s * %s).'%(b,b,b,b))
for name,short in (('fivept_stewenius','stew'),('fivept_nister','nister')):
    l0,l1,asg=load(name); header(asg)
    A={}
    for l,r in asg:
        m=re.fullmatch(r'A\((\d+),(\d+)\)',l)
        if m:
            k=(int(m[1]),int(m[2])); assert k not in A; A[k]=fix(r)
    assert len(A)==200
    out.append('\n(** rows of A, composeA, %s/modules.cpp %d-%d *)'%(name,l0,l1))
    for i in range(10):
        out.append('Definition %s_row%d : list R := ['%(short,i)); out.append(';\n'.join('  '+A[i,j] for j in range(20))+'].')
    out.append('Definition %s_rows : list (list R) := [%s].'%(short,'; '.join('%s_row%d'%(short,i) for i in range(10))))
    out.append('Definition %s_A : nat -> nat -> R := fun i j => nth j (nth i %s_rows []) 0.'%(short,short))
out.append('End Compose.')
open(os.path.join(os.path.dirname(os.path.abspath(__file__)),'..','rocq','theories','FiveptGen.v'),'w').write('\n'.join(out)+'\n')
