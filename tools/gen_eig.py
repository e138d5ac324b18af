#!/usr/bin/env python3
"""Translate the straight-line code of composeM, composeMwithJacobians, composeG
and composeGwithJacobians (eigensolver/modules.cpp, ge/modules.cpp) to Gallina.
Every  temp = <product>; X(i,j) (+)= temp;  pair becomes one summand."""
import re,sys
B='/repo/src/relative_pose/modules/'
def body(path,fname):
    L=open(path).read().split('\n')
    i=next(k for k,l in enumerate(L) if re.search(r'::'+fname+r'\(',l))
    while L[i].strip()!='{': i+=1
    j=i
    while L[j]!='}': j+=1
    return i+1,j+1,'\n'.join(re.sub(r'//.*','',l) for l in L[i+1:j])
def fac(s,vecs):
    """one factor -> (kind, gallina)"""
    s=s.strip()
    m=re.fullmatch(r'(R(?:_jac\d)?)\.row\((\d)\)(?:\.transpose\(\))?',s)
    if m: return f'(rw {m[1]} {m[2]})'
    m=re.fullmatch(r'Rows(_jac\d)?(?:\.transpose\(\)|t)?',s)
    if m: return f'(rows9 R{m[1] or ""})'
    m=re.fullmatch(r'Cols(_jac\d)?(?:\.transpose\(\))?',s)
    if m: return f'(cols9 R{m[1] or ""})'
    m=re.fullmatch(r'([xyz]{2})F',s)
    if m: return f'(mget ({s} S))'
    m=re.fullmatch(r'([xyz][12]P|m\d\dP)',s)
    if m: return f'({s} S)'
    if s in vecs: return vecs[s]
    raise Exception(s)
def prod(e,vecs):
    e=e.strip(); k='1'
    m=re.match(r'(-?\d+\.\d)\*',e)
    if m:
        k={'-1.0':'-1','-2.0':'-2','2.0':'2'}[m[1]]; e=e[m.end():]
    elif e[0]=='-': k='-1'; e=e[1:]
    fs=[f.strip() for f in e.split('*')]
    g=[]
    for f in fs:
        r=fac(f,vecs); g+= r if isinstance(r,list) else [r]
    assert len(g)==3,(e,g)
    d=lambda t: '9' if 's9' in t else '3'
    t=f'bf {d(g[0])} {d(g[2])} {g[0]} {g[1]} {g[2]}'
    return t if k=='1' else f'{k} * {t}' if k[0]!='-' else f'- ({k[1:]}) * {t}'
def run(path,fname,dim):
    a,b,t=body(path,fname); ent={}; vecs={}; temp=None; jac={}
    for st in t.split(';'):
        st=' '.join(st.split())
        if not st: continue
        if re.match(r'(return|double temp$|rotation_t R|Eigen::Matrix<double,\d,\d> \w+$|Eigen::Matrix[34]d \w$|Rows|Cols|Eigen::Matrix<double,9,1> Rowst =)',st): continue
        m=re.fullmatch(r'Eigen::Vector3d (\w+) = (.*)',st)
        if m: vecs[m[1]]=[fac(x,vecs) for x in m[2].split('*')]; continue
        m=re.fullmatch(r'(R_jac\d)\((\d),(\d)\) = (.*)',st)
        if m:
            e=m[4].replace('2.0','2'); e=re.sub(r'\*cayley\[(\d)\]',lambda q:' * '+['vx','vy','vz'][int(q[1])]+' c',e)
            e=re.sub(r'^-2','- (2)',e)
            jac[(m[1],int(m[2]),int(m[3]))]=e; continue
        m=re.fullmatch(r'temp = (.*)',st)
        if m: temp=prod(m[1],vecs); continue
        m=re.fullmatch(r'(\w+)\((\d),(\d)\) (\+?=) temp',st)
        if m:
            k=(m[1],int(m[2]),int(m[3]))
            if m[4]=='=': ent[k]=[temp]
            else: ent[k].append(temp)
            continue
        m=re.fullmatch(r'(\w+)\((\d),(\d)\) = (\w+)\((\d),(\d)\)',st)
        if m: ent[(m[1],int(m[2]),int(m[3]))]=ent[(m[4],int(m[5]),int(m[6]))]; continue
        raise Exception(st)
    return a,b,ent,jac
out=[]
def emit(path,fname,dim,X,names,ty):
    a,b,ent,jac=run(B+path,fname,dim)
    for r in sorted({k[0] for k in jac}):
        if path.startswith('eig'):
            out.append(f'(** {r}, {path} {a}-{b} *)')
            es=['('+jac[(r,i,j)]+')' for i in range(3) for j in range(3)]
            out.append(f'Definition {r} (c : vec3) : mat3 := M3 '+' '.join(es)+'.')
        else:  # check that it is the same matrix as in the eigensolver
            assert all(jac[(r,i,j)]==J0[(r,i,j)] for i in range(3) for j in range(3))
    jj=''.join(f' let {r} := {r} c in' for r in sorted({k[0] for k in jac}))
    for x,nm in names:
        out.append(f'(** {"the return value" if x==X else x} of {fname}, {path} {a}-{b} *)')
        if dim==3:
            es=['\n     ('+' + '.join(ent[(x,i,j)])+')' for i in range(3) for j in range(3)]
            rhs='M3'+''.join(es)
        else:
            rhs='fun i j => nth j (nth i\n    ['+';\n     '.join('['+';\n      '.join(' + '.join(ent[(x,i,j)]) for j in range(4))+']' for i in range(4))+'] []) 0'
        out.append(f'Definition {nm} (S : {ty}) (c : vec3) : {"mat3" if dim==3 else "nat -> nat -> R"} :=\n  let R := cayley2rot_reduced c in{jj}\n  {rhs}.')
    return jac
E_='eigensolver/modules.cpp'; G_='ge/modules.cpp'
H='''(** GENERATED by tools/gen_eig.py from src/relative_pose/modules/%s: do not edit. *)
From Coq Require Import Reals List.
From Verif Require Import Lin RotModel %s.
Import ListNotations.
Local Open Scope R_scope.
'''
emit(E_,'composeM',3,'M',[('M','composeM')],'fsums')
J0=emit(E_,'composeMwithJacobians',3,'M',[('M','composeMJ'),('M_jac1','M_jac1'),('M_jac2','M_jac2'),('M_jac3','M_jac3')],'fsums')
open('/verif/rocq/theories/EigGen.v','w').write(H%(E_,'EigSums')+'\n'.join(out)+'\n')
out.clear()
emit(G_,'composeG',4,'G',[('G','composeG')],'gsums')
emit(G_,'composeGwithJacobians',4,'G',[('G','composeGJ'),('G_jac1','G_jac1'),('G_jac2','G_jac2'),('G_jac3','G_jac3')],'gsums')
open('/verif/rocq/theories/GeGen.v','w').write(H%(G_,'EigSums EigGen GeSums')+'\n'.join(out)+'\n')
