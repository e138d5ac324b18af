#!/usr/bin/env python3
"""Integer instances of the gpnp distance systems on which the templates run
to the end (rocq/theories/GpnpExData.v)."""
import sys,os,random,re
sys.path.insert(0,os.path.dirname(__file__))
import gbparse as g
P=2147483647
class Z0(Exception): pass
def inv(x):
    if x%P==0: raise Z0
    return pow(x,P-2,P)
def run(name,env):
    sp,rd,ops,nr,nc=g.load(name)
    G=[[0]*nc for _ in range(nr)]; cells=[]
    for r,c,e in g.init_cells(name):
        e=re.sub(r'\b(\w)\((\d+),0\)',r'\1[\2]',e); v=eval(e,dict(env)); cells.append((r,c,v)); G[r][c]=v%P
    for o in ops:
        if o[0]=='S':
            for (t,c,p,n) in sp[o[1]][0]:
                v=0
                if p: v+=G[p[0]][p[1]]*inv(G[p[0]][p[2]])
                if n: v-=G[n[0]][n[1]]*inv(G[n[0]][n[2]])
                G[t][c]=v%P
        else:
            (s,pairs),_=rd[o[1]]; t=o[2]; f=G[t][pairs[0][0]]*inv(G[s][pairs[0][1]])%P
            G[t][pairs[0][0]]=0
            for ct,cs in pairs[1:]: G[t][ct]=(G[t][ct]-f*G[s][cs])%P
    return G,cells
def inst(k,B,seed):
    random.seed(seed); R=lambda:random.randint(-B,B)
    ccam=[[R() for _ in range(3)] for _ in range(4)]
    s=sum(ccam,[])
    V=[[R() for _ in range(12)] for _ in range(k)]; x=[R() for _ in range(k)]
    a=[s[i]-sum(x[j]*V[j][i] for j in range(k)) for i in range(12)]
    env={'a':a,'pow':pow}
    for j,nm in enumerate('nmklp'[:k]): env[nm]=V[j]
    for i in range(4):
        for j in range(i+1,4): env['c%d%dw'%(i,j)]=sum((ccam[i][t]-ccam[j][t])**2 for t in range(3))
    return env,x,ccam,a,V
L=lambda v:'['+'; '.join(map(str,v))+']'
rows={1:[3],2:[8,7],3:[13,12,11],4:[23,22,21,20],5:[42,41,40,39,38]}
def main():
    o=['(** Generated by tools/gen_gbex.py: integer instances of the control point\n    distance equations, used in examples and counterexamples. *)\nFrom Coq Require Import List ZArith.\nImport ListNotations.\nLocal Open Scope Z_scope.\n']
    for k in range(1,6):
        for seed in range(1000):
            env,x,cc,a,V=inst(k,3,seed)
            if len(set(x))<k or 0 in x: continue
            if len({tuple(p) for p in cc})<4: continue
            try: G,cells=run('gpnp%d'%k,env)
            except Z0: continue
            nc=len(G[0])
            if any(G[r][nc-2-j]==0 for j,r in enumerate(rows[k])): continue
            if k==5 and G[38][76]==0: continue
            if k<5:
             try: G0,cells0=run('gpnp%d'%k,dict(env,**{v:0 for v in env if v[0]=='c' and v[-1]=='w'}))
             except Z0: continue
             if any(G0[r][nc-2-j]==0 for j,r in enumerate(rows[k])): continue
             if (G0[rows[k][0]][nc-2]*x[0]+G0[rows[k][0]][nc-1])%P==0: continue
            # sanity
            for j,r in enumerate(rows[k]):
                assert (sum(G[r][nc-2-j+i]*x[j-i] for i in range(j+1))+G[r][nc-1])%P==0
            break
        else: raise Exception(k)
        o.append('(** %d null space vector(s) (seed %d) *)'%(k,seed))
        o.append('Definition e%d_a : list Z := %s.'%(k,L(a)))
        for nm,v in zip('nmklp',V): o.append('Definition e%d_%s : list Z := %s.'%(k,nm,L(v)))
        o.append('Definition e%d_x : list Z := %s.'%(k,L(x)))
        o.append('Definition e%d_c : list (list Z) := [%s].'%(k,'; '.join(L(p) for p in cc)))
        if k<5: o.append('(** the same with all control points at one place *)\nDefinition e%d_cells0 : list (nat * nat * Z) := [%s].'%(k,'; '.join('(%d%%nat,%d%%nat,%d)'%t for t in cells0)))
        o.append('Definition e%d_cells : list (nat * nat * Z) := [%s].\n'%(k,'; '.join('(%d%%nat,%d%%nat,%d)'%t for t in cells)))
    open(os.path.join(os.path.dirname(__file__),'..','rocq','theories','GpnpExData.v'),'w').write('\n'.join(o))
main()
