#!/usr/bin/env python3
"""Rational instances of the five-point problem with an exact singular value
decomposition, with certificates: rocq/theories/FiveptExData.v."""
import os
import re,math
from fractions import Fraction as F
from math import gcd
B='/repo/src/relative_pose/modules/'
def load(name):
    s=open(B+name+'/modules.cpp').read()
    i=s.index('::composeA('); j=s.index('\n}',i)
    A={}
    for l,r in re.findall(r'(A\(\d+,\d+\))\s*=([^;=]+);',s[i:j]):
        m=re.fullmatch(r'A\((\d+),(\d+)\)',l); 
        # double coefs
        ts=re.findall(r'([-+]?)\s*([^-+]+)',r)
        out=[]
        for sg,t in ts:
            c=2; vs=[]
            for f in t.strip().split('*'):
                f=f.strip()
                m2=re.fullmatch(r'e(\d)(\d)([23]?)',f)
                if m2: vs+=[(int(m2[1]),int(m2[2]))]*(int(m2[3]) if m2[3] else 1)
                else: c=int(2*float(f))
            assert len(vs)==3
            out.append((-c if sg=='-' else c,vs))
        A[int(m[1]),int(m[2])]=out
    return A
ST=load('fivept_stewenius'); NI=load('fivept_nister')
def evalA(T,E): # E[k][i]
    return [[sum(c*E[a[0]][a[1]]*E[b[0]][b[1]]*E[d[0]][d[1]] for c,(a,b,d) in T[i,j])/F(2) for j in range(20)] for i in range(10)]
def inv(A):
    n=len(A); M=[[F(x) for x in r]+[F(int(i==j)) for j in range(n)] for i,r in enumerate(A)]
    for c in range(n):
        p=next((r for r in range(c,n) if M[r][c]!=0),None)
        if p is None: return None
        M[c],M[p]=M[p],M[c]
        iv=1/M[c][c]; M[c]=[x*iv for x in M[c]]
        for r in range(n):
            if r!=c and M[r][c]!=0:
                f=M[r][c]; M[r]=[x-f*y for x,y in zip(M[r],M[c])]
    return [r[n:] for r in M]
def mm(A,B): return [[sum(a*b for a,b in zip(r,c)) for c in zip(*B)] for r in A]
def rank(A):
    M=[[F(x) for x in r] for r in A]; rk=0
    for c in range(len(M[0])):
        p=next((r for r in range(rk,len(M)) if M[r][c]!=0),None)
        if p is None: continue
        M[rk],M[p]=M[p],M[rk]
        for r in range(rk+1,len(M)):
            if M[r][c]!=0:
                f=M[r][c]/M[rk][c]; M[r]=[x-f*y for x,y in zip(M[r],M[rk])]
        rk+=1
    return rk
def rot(a,b,c,d):
    n=a*a+b*b+c*c+d*d
    return [[F(x,n) for x in r] for r in [[a*a+b*b-c*c-d*d,2*(b*c-a*d),2*(b*d+a*c)],[2*(b*c+a*d),a*a-b*b+c*c-d*d,2*(c*d-a*b)],[2*(b*d-a*c),2*(c*d+a*b),a*a-b*b-c*c+d*d]]]
def lc(*p): 
    return [sum(F(c)*v[i] for c,v in p) for i in range(len(p[0][1]))]
def householder_frame(u): # rational orthonormal frame with first vector u
    e=[F(1),F(0),F(0)]
    w=[a-b for a,b in zip(u,e)]; n=sum(x*x for x in w)
    if n==0: return [[F(1),F(0),F(0)],[F(0),F(1),F(0)],[F(0),F(0),F(1)]]
    H=[[F(int(i==j))-2*w[i]*w[j]/n for j in range(3)] for i in range(3)]
    return H
def kron(a,b): return [a[i]*b[j] for i in range(3) for j in range(3)]
def skew(t): return [[0,-t[2],t[1]],[t[2],0,-t[0]],[-t[1],t[0],0]]
def build(q,t,c1,mix,rotab=(1,0)):
    R=rot(*q); E=mm(skew(t),R)
    r=E
    def unitrow(v):
        n2=sum(x*x for x in v)
        import math
        s=F(math.isqrt(n2.numerator),math.isqrt(n2.denominator)); assert s*s==n2; return [x/s for x in v]
    a=householder_frame(unitrow(r[0])); b=householder_frame(unitrow(r[1])); c=householder_frame(c1)
    e=[[F(1),F(0),F(0)],[F(0),F(1),F(0)],[F(0),F(0),F(1)]]
    corr=[(e[0],a[1]),(e[0],a[2]),(e[1],b[1]),(e[1],b[2]),(e[2],c1)]
    basis=[kron(e[0],a[0]),kron(e[1],b[0]),kron(e[2],c[1]),kron(e[2],c[2])]
    EE=[lc(*[(mix[k][j],basis[j]) for j in range(4)]) for k in range(4)]
    return R,E,corr,EE
def check(E,corr,EE):
    ev=[x for r in E for x in r]
    for u,v in corr: assert sum(x*y for x,y in zip(kron(u,v),ev))==0
    co=[sum(x*y for x,y in zip(EE[k],ev)) for k in range(4)]
    if co[3]==0: return None
    x,y,z=[c/co[3] for c in co[:3]]
    A=evalA(ST,EE); Ai=inv([r[:10] for r in A])
    An=evalA(NI,EE); Ani=inv([r[:10] for r in An])
    if Ai is None or Ani is None: return 'sing'
    A3=mm(Ai,[r[10:] for r in A])
    M=[[-v for v in A3[i]] for i in (0,1,2,4,5,7)]+[[F(int(j==k)) for j in range(10)] for k in (0,1,3,6)]
    w=[x*x,x*y,y*y,x*z,y*z,z*z,x,y,z,F(1)]
    assert all(sum(a*b for a,b in zip(M[i],w))==x*w[i] for i in range(10))
    rk=rank([[M[i][j]-(x if i==j else 0) for j in range(10)] for i in range(10)])
    return rk,(x,y,z),M,w

def den(rows):
    d=1
    for r in rows:
        for x in r: d=d*F(x).denominator//gcd(d,F(x).denominator)
    return d
def ints(rows,d):
    out=[[int(F(x)*d) for x in r] for r in rows]
    assert all(F(x)*d==y for r,o in zip(rows,out) for x,y in zip(r,o)); return out
L=lambda v:'['+'; '.join(map(str,v))+']'
LL=lambda m:'[\n  '+';\n  '.join(L(r) for r in m)+']'
H=[[F(s,2) for s in r] for r in [[1,1,1,1],[1,-1,1,-1],[1,1,-1,-1],[1,-1,-1,1]]]
def instance(q,t):
    R=rot(*q)
    for m in range(1,8):
        for n in range(60):
            v=lc((F(t[0]*m),R[0]),(F(t[1]*m),R[1]),(F(n),R[2])); n2=sum(x*x for x in v); s=math.isqrt(n2.numerator)
            if n2.denominator==1 and s*s==n2: return build(q,t,[x/s for x in v],H)
o=['(** Generated by tools/gen_fiveex.py: exact instances of the five-point problem\n    and certificates, used in examples. *)\nFrom Coq Require Import List ZArith.\nImport ListNotations.\nLocal Open Scope Z_scope.\n']
def emit(n,v): o.append('Definition %s := %s.'%(n,v))
def svd(nm,corr,EE):
    cols=[kron(u,v) for u,v in corr]+EE
    for a in range(9):
        for b in range(9): assert sum(x*y for x,y in zip(cols[a],cols[b]))==(a==b)
    rows=[list(r) for r in zip(*cols)]; D=den(rows)
    emit(nm+'_D',D); emit(nm+'_V',LL(ints(rows,D)))
    dc=den([v for _,v in corr]); emit(nm+'_dc',dc)
    emit(nm+'_b1',LL(ints([u for u,_ in corr],1))); emit(nm+'_b2',LL(ints([v for _,v in corr],dc)))
    return D
# 1: regular
R,E,corr,EE=instance((2,1,1,0),(4,4,3)); D=svd('x1',corr,EE)
emit('x1_dR',den(R)); emit('x1_R',LL(ints(R,den(R))))
rk,(x,y,z),M,w=check(E,corr,EE); assert rk==9
ev=[c for r in E for c in r]; co=[sum(a*b for a,b in zip(EE[k],ev)) for k in range(4)]
dco=den([co]); emit('x1_dco',dco); emit('x1_co',L([int(c*dco) for c in co]))
print((x,y,z),co)
def system(nm,T,EE,D):
    A=evalA(T,EE); a=ints(A,2*D**3); emit(nm+'_a',LL(a))
    Ai=inv([r[:10] for r in a]); dn=den(Ai); emit(nm+'_dn',dn); emit(nm+'_N',LL(ints(Ai,dn)))
    A3=mm(Ai,[r[10:] for r in a]); d3=den(A3); emit(nm+'_d3',d3); emit(nm+'_A3',LL(ints(A3,d3)))
    return A3
A3=system('x1s',ST,EE,D); An3=system('x1n',NI,EE,D)
# certificate of the one-dimensional eigenspace: K (M - x I) = I - w e9^T
S=[[M[i][j]-(x if i==j else 0) for j in range(10)] for i in range(10)]
# drop a row of S dependent on the others: solve K S = T by elimination on [S^T | T^T]
T=[[F(int(i==j))-(w[i] if j==9 else 0) for j in range(10)] for i in range(10)]
Mx=[[S[j][c] for j in range(10)]+[T[i][c] for i in range(10)] for c in range(10)]
piv=[];r=0
for c in range(10):
    p=next((k for k in range(r,10) if Mx[k][c]!=0),None)
    if p is None: continue
    Mx[r],Mx[p]=Mx[p],Mx[r]; iv=1/Mx[r][c]; Mx[r]=[v*iv for v in Mx[r]]
    for k in range(10):
        if k!=r and Mx[k][c]!=0:
            f=Mx[k][c]; Mx[k]=[u-f*v for u,v in zip(Mx[k],Mx[r])]
    piv.append(c); r+=1
K=[[F(0)]*10 for _ in range(10)]
for i in range(10):
    for rr,c in enumerate(piv): K[i][c]=Mx[rr][10+i]
    assert all(Mx[k][10+i]==0 for k in range(r,10))
assert mm(K,S)==T
kd=den(K); emit('x1_kd',kd); emit('x1_K',LL(ints(K,kd)))
bd=den([w]); emit('x1_bd',bd); emit('x1_w',L(ints([w],bd)[0]))
# 2: orthogonal to the last column
R2,E2,corr2,EE2=instance((1,0,0,0),(4,4,3)); svd('x2',corr2,EE2)
ev=[c for r in E2 for c in r]; assert sum(a*b for a,b in zip(EE2[3],ev))==0
# 3: two solutions with the same z
Ea=[[0,-1,2],[1,0,-3],[-2,3,0]]                      # skew (3,2,1)
Eb=mm(skew((1,-1,2)),[[2,-1,2],[2,2,-1],[-1,2,2]]) # three times a rotation
f=lambda m:[c for r in m for c in r]
import random; random.seed(5)
while 1:
    Y=[random.randint(-2,2) for _ in range(9)]; Z=[random.randint(-2,2) for _ in range(9)]
    EE3=[[b-a for a,b in zip(f(Ea),f(Eb))],Y,Z,f(Ea)]
    if inv([r[:10] for r in evalA(NI,EE3)]) is not None: break
emit('x3_EE',LL(EE3)); system('x3n',NI,EE3,1)
open(os.path.join(os.path.dirname(os.path.abspath(__file__)),'..','rocq','theories','FiveptExData.v'),'w').write('\n'.join(o)+'\n')
