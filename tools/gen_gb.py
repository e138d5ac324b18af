#!/usr/bin/env python3
"""Translate the Groebner templates gpnp1..gpnp5 of opengv into Coq:
rocq/theories/GpnpData.v (statement groups, monomials) and
rocq/theories/GpnpInit.v (coefficient matrices)."""
import re,sys,os
sys.path.insert(0,os.path.dirname(__file__))
import gbparse as g
OUT=os.path.join(os.path.dirname(__file__),'..','rocq','theories')
def opt(x): return 'None' if x is None else 'Some %d'%x
def data(name,pre):
    sp,rd,ops,nr,nc=g.load(name); mon=g.monomials(name,nc)
    assert len(mon)==nc,(name,sorted(set(range(nc))-set(mon)))
    path='src/absolute_pose/modules/%s/'%name
    o=[]
    o.append('(** * %s: %d x %d matrix, groebnerMatrix of %s *)'%(name,nr,nc,path))
    o.append('Definition %s_rows := %d.\nDefinition %s_cols := %d.'%(pre,nr,pre,nc))
    o.append('(** exponents of the monomial of each column, %s *)'%path)
    o.append('Definition %s_mon : list (list nat) := [%s].'%(pre,';'.join('[%s]'%';'.join(map(str,mon[c])) for c in range(nc))))
    o.append('(** the entries init writes, %sinit.cpp *)'%path)
    o.append('Definition %s_keys : list (nat * nat) := [%s].'%(pre,';'.join('(%d,%d)'%(r,c) for r,c,_ in g.init_cells(name))))
    used={x[1] for x in ops}
    for k,(ent,ln) in sp.items():
        if k not in used: continue
        P=[x[2] for x in ent if x[2]]; N=[x[3] for x in ent if x[3]]
        i,p=P[0][0],P[0][2]; j,q=N[0][0],N[0][2]; t=ent[0][0]
        assert all(x[0]==i and x[2]==p for x in P) and all(x[0]==j and x[2]==q for x in N) and all(x[0]==t for x in ent)
        o.append('(** %s, %sspolynomials.cpp %d *)'%(k,path,ln))
        o.append('Definition %s_%s := GS %d %d %d %d %d [%s].'%(pre,k,t,i,p,j,q,';'.join('(%d,%s,%s)'%(x[1],opt(x[2] and x[2][1]),opt(x[3] and x[3][1])) for x in ent)))
    for k,((s,pairs),ln) in rd.items():
        if k not in used: continue
        o.append('(** %s, %sreductors.cpp %d *)'%(k,path,ln))
        o.append('Definition %s_%s t := GR t %d %d %d [%s].'%(pre,k,s,pairs[0][0],pairs[0][1],';'.join('(%d,%d)'%x for x in pairs[1:])))
    body=[]
    for x in ops:
        if x[0]=='S': body.append('%s_%s'%(pre,x[1]))
        elif x[0]=='R': body.append('%s_%s %d'%(pre,x[1],x[2]))
        elif x[0]=='N': body.append('GN %d %d'%x[1:])
        elif x[0]=='E': body.append('GE %d %d %d'%x[1:])
    o.append('(** compute, %scode.cpp *)'%path)
    o.append('Definition %s_compute : list gop := [\n  %s].'%(pre,';\n  '.join(body)))
    return '\n'.join(o)+'\n'
def expr(e):
    e=re.sub(r'pow\((\w)\((\d+),0\),2\)',r'\1 \2%nat ^ 2',e)
    e=re.sub(r'\b(\w)\((\d+),0\)',r'\1 \2%nat',e)
    assert 'pow' not in e,e
    e=re.sub(r'([-+*])',r' \1 ',e)
    return re.sub(r'\s+',' ',e).strip()
def init(name,pre):
    d='src/absolute_pose/modules/%s/init.cpp'%name
    txt=open('/repo/'+d).read()
    sig=txt[txt.index('::init('):]; sig=sig[:sig.index('{')]
    vs=re.findall(r'12,1> & (\w)',sig); cs=re.findall(r'Vector3d & (c\d)',sig)
    assert cs==['c0','c1','c2','c3']
    body=txt[txt.index('{',txt.index('::init(')):]
    lets=re.findall(r'temp = (c\d)-(c\d);\s*double (c\d\dw) = temp\.norm\(\)\*temp\.norm\(\);',body)
    o=['(** %s::init, %s %d-%d. *)'%(name,d,txt[:txt.index('::init(')].count('\n')+1,txt.count('\n'))]
    o.append('Definition %s_cells (%s : nat -> R) (c0 c1 c2 c3 : vec3) : list (nat * nat * R) :='%(pre,' '.join(vs)))
    for x,y,w in lets: o.append('  let %s := norm (vsub %s %s) * norm (vsub %s %s) in'%(w,x,y,x,y))
    o.append('  [ %s ].'%';\n    '.join('(%d%%nat, %d%%nat, %s)'%(r,c,expr(e)) for r,c,e in g.init_cells(name)))
    o.append('Definition %s_init (%s : nat -> R) (c0 c1 c2 c3 : vec3) : gmat := gcells (%s_cells %s c0 c1 c2 c3).'%(pre,' '.join(vs),pre,' '.join(vs)))
    return '\n'.join(o)+'\n'
if __name__=='__main__':
    with open(OUT+'/GpnpData.v','w') as f:
        f.write('(** Generated by tools/gen_gb.py from the Groebner templates\n    src/absolute_pose/modules/gpnp1 ... gpnp5: each sPolynomial and groebnerRow\n    function and the statement sequence of compute.  Definitions only. *)\nFrom Coq Require Import List.\nFrom Verif Require Import GbModel.\nImport ListNotations.\n\n')
        for k in range(1,6): f.write(data('gpnp%d'%k,'g%d'%k)+'\n')
    with open(OUT+'/GpnpInit.v','w') as f:
        f.write('(** Generated by tools/gen_gb.py from src/absolute_pose/modules/gpnp1 ...\n    gpnp5, init.cpp: the coefficient matrices as functions of the particular\n    solution, the null space vectors and the world control points.\n    Definitions only. *)\nFrom Coq Require Import Reals List.\nFrom Verif Require Import Lin GbModel.\nImport ListNotations.\nLocal Open Scope R_scope.\n\n')
        for k in range(1,6): f.write(init('gpnp%d'%k,'g%d'%k)+'\n')
