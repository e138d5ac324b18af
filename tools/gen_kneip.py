#!/usr/bin/env python3
"""Translate src/relative_pose/modules/fivept_kneip (init.cpp, spolynomials.cpp,
reductors.cpp, code.cpp) into rocq/theories/KneipData.v."""
import re,sys,os
sys.path.insert(0,os.path.dirname(__file__))
import gbparse as g
D='/repo/src/relative_pose/modules/fivept_kneip/'
OUT=os.path.join(os.path.dirname(__file__),'..','rocq','theories')
def bodies(f): return g.bodies(open(D+f).read())
sp={k:(g.parse_spoly(b),ln) for k,(b,ln,_,_) in bodies('spolynomials.cpp').items()}
rd={k:(g.parse_red(b),ln) for k,(b,ln,_,_) in bodies('reductors.cpp').items()}
txt=open(D+'code.cpp').read(); cut=txt.index('double factor = 0.0;')+20
base=txt[:cut].count('\n')+1
lines=[(base+i,l.strip().rstrip(';')) for i,l in enumerate(txt[cut:].split('\n'))]
lines=[(n,l) for n,l in lines if l and l!='}']
ops=[];i=0
while i<len(lines):
    n,st=lines[i]
    m=re.fullmatch(r'(sPolynomial\d+)\(groebnerMatrix\)',st)
    if m: ops.append(('S',m.group(1),n)); i+=1; continue
    m=re.fullmatch(r'(groebnerRow\w+)\(groebnerMatrix,(\d+)\)',st)
    if m: ops.append(('R',m.group(1),int(m.group(2)),n)); i+=1; continue
    m=re.fullmatch(r'factor = 1\.0 / groebnerMatrix\((\d+),(\d+)\)',st)
    if m:
        r,c=m.groups(); assert lines[i+1][1]==f'groebnerMatrix.row({r}) = factor * groebnerMatrix.row({r})'
        ops.append(('N',int(r),int(c),n)); i+=2; continue
    m=re.fullmatch(r'factor = (-?)groebnerMatrix\((\d+),(\d+)\)',st); assert m,st
    ng,r,c=m.groups(); nx=lines[i+1][1]
    k=re.fullmatch(rf'groebnerMatrix\.row\({r}\) = groebnerMatrix\.row\({r}\) - factor \* groebnerMatrix\.row\((\d+)\)',nx)
    if k:
        assert not ng; ops.append(('E',int(r),int(c),int(k.group(1)),n)); i+=2; continue
    assert nx==f'groebnerMatrix({r},{c}) = 0.0',(n,nx)
    i+=2; ps=[];s=None
    while i<len(lines):
        m=re.fullmatch(rf'groebnerMatrix\({r},(\d+)\) = groebnerMatrix\({r},(\d+)\) - factor \* groebnerMatrix\((\d+),(\d+)\)',lines[i][1])
        if not m: break
        assert m.group(1)==m.group(2); assert s in (None,int(m.group(3))); s=int(m.group(3)); ps.append((int(m.group(1)),int(m.group(4)))); i+=1
    ops.append(('I',int(r),(int(c),bool(ng),s,tuple(ps)),n))
ini=open(D+'init.cpp').read()
rowcells=[(int(a),e.strip()) for a,e in re.findall(r'row\(0,(\d+)\) = ([^;]*);',ini)]
cells=[(int(a),int(b),int(e)) for a,b,e in re.findall(r'groebnerMatrix\((\d+),(\d+)\) = ([^;]*);',ini)]
assert [c for c,_ in rowcells]==sorted(c for c,_ in rowcells)
pats=[]; first={}
for o in ops:
    if o[0]=='I' and o[2] not in first: first[o[2]]=o[3]; pats.append(o[2])
reds=[k for k in rd]
sps=['sPolynomial%d'%k for k in range(30,66)]; assert set(sps)==set(sp)
lead={r:min(c for a,c,_ in cells if a==r) for r in range(10,30)}
def unit(*ks):
    v=[0]*9
    for k in ks: v[k-1]+=1
    return tuple(v)
def monomials():
    e={196:(0,)*9,0:unit(1,2,4)}
    for i in range(1,10): e[186+i]=unit(i)
    for j in range(1,10):
        for i in range(1,j+1): e[142+j*(j-1)//2+i-1]=unit(i,j)
    sub=lambda a,b:tuple(x-y for x,y in zip(a,b)); add=lambda a,b:tuple(x+y for x,y in zip(a,b))
    rel=[[(p[0],lead[p[2]])]+list(p[3]) for p in pats]+[p for (s,p),_ in rd.values()]
    for ent,_ in sp.values():
        rel.append([(c,p[1]) for _,c,p,_ in ent if p]); rel.append([(c,n[1]) for _,c,_,n in ent if n])
    ch=True
    while ch:
        ch=False
        for pairs in rel:
            sh=None
            for ct,cs in pairs:
                if ct in e and cs in e: sh=sub(e[ct],e[cs]);break
            if sh is None: continue
            for ct,cs in pairs:
                if cs in e and ct not in e: e[ct]=add(e[cs],sh); ch=True
                elif ct in e and cs not in e: e[cs]=sub(e[ct],sh); ch=True
                elif ct in e: assert e[ct]==add(e[cs],sh)
    assert len(e)==197
    return e
def opt(x): return 'None' if x is None else 'Some %d'%x
def expr(e):
    e=re.sub(r'c123_1\[(\d)\]\((\d),(\d)\)',r'm\2\3 p\1',e); e=re.sub(r'c123_2\[(\d)\]\((\d),(\d)\)',r'm\2\3 q\1',e)
    return re.sub(r'([-+*])',r' \1 ',e).strip()
def instr(o):
    if o[0]=='S': return 'CS %d'%(int(o[1][11:])-30)
    if o[0]=='R': return 'CR %d %d'%(reds.index(o[1]),o[2])
    if o[0]=='I': return 'CI %d %d'%(pats.index(o[2]),o[1])
    if o[0]=='N': return 'CN %d %d'%(o[1],o[2])
    return 'CE %d %d %d'%o[1:4]
def wrap(l,sep='; ',ind='  ',w=150):
    out=[];cur=ind
    for k,x in enumerate(l):
        y=x+(sep if k<len(l)-1 else '')
        if len(cur)+len(y)>w: out.append(cur.rstrip()); cur=ind
        cur+=y
    out.append(cur); return '\n'.join(out)
def blocks():
    """the statement groups split before each sPolynomial"""
    out=[]
    for o in ops:
        if o[0]=='S': out.append([])
        out[-1].append(o)
    return out
def cubic():
    B=blocks(); n=88
    blk=[o[2] for o in B[0][1:1+n]]
    assert all([o[2] for o in b[1:1+n]]==blk for b in B[:9])
    return blk
if __name__=='__main__':
    path='src/relative_pose/modules/fivept_kneip/'
    B=blocks(); blk=cubic(); mon=monomials()
    o=['(** Generated by tools/gen_kneip.py from '+path+':\n    the coefficient rows, the sPolynomial and groebnerRow functions, the inline\n    reductions and the statement sequence of computeBasis.  Definitions only. *)',
       'From Coq Require Import Reals List.','From Verif Require Import Lin GbModel KneipOps.','Import ListNotations.','']
    o.append('(** exponents of the monomial of each column, in the order r22 r21 r20 r12 r11\n    r10 r02 r01 r00 *)')
    o.append('Definition kn_mon : list (list nat) := [\n%s].'%wrap(['[%s]'%';'.join(map(str,mon[c])) for c in range(197)]))
    o.append('(** initMatrix, %sinit.cpp 159-227 *)'%path)
    o.append('Definition kn_const : list (nat * nat * R) := [\n%s].'%wrap(['(%d,%d,%s)'%(a,b,'1%R' if e==1 else '(-1)%R') for a,b,e in cells]))
    o.append('(** sPolynomial30 ... sPolynomial65, %sspolynomials.cpp *)'%path)
    for k in sps:
        ent,ln=sp[k]
        P=[x[2] for x in ent if x[2]]; N=[x[3] for x in ent if x[3]]
        i_,p=P[0][0],P[0][2]; j,q=N[0][0],N[0][2]; t=ent[0][0]
        assert all(x[0]==i_ and x[2]==p for x in P) and all(x[0]==j and x[2]==q for x in N) and all(x[0]==t for x in ent)
        o.append('(** %s, spolynomials.cpp %d *)'%(k,ln))
        o.append('Definition kn_s%s := GS %d %d %d %d %d [\n%s].'%(k[11:],t,i_,p,j,q,wrap(['(%d,%s,%s)'%(x[1],opt(x[2] and x[2][1]),opt(x[3] and x[3][1])) for x in ent])))
    o.append('Definition kn_spolys : list gop := [%s].'%'; '.join('kn_s'+k[11:] for k in sps))
    o.append('(** the groebnerRow functions of %sreductors.cpp: source row, target pivot\n    column, source pivot column, remaining column pairs *)'%path)
    o.append('Definition kn_reds : list (nat * nat * nat * list (nat * nat)) := [')
    for n,k in enumerate(reds):
        (s,pairs),ln=rd[k]
        o.append('  (* %d: %s, line %d *) (%d, %d, %d, [%s])%s'%(n,k,ln,s,pairs[0][0],pairs[0][1],';'.join('(%d,%d)'%x for x in pairs[1:]),'].' if n==len(reds)-1 else ';'))
    o.append('(** the inline reductions of %scode.cpp: target pivot column, sign of the\n    factor, source row, column pairs *)'%path)
    o.append('Definition kn_inls : list (nat * bool * nat * list (nat * nat)) := [')
    for n,p in enumerate(pats):
        o.append('  (* %d: first at line %d *) (%d, %s, %d, [%s])%s'%(n,first[p],p[0],'true' if p[1] else 'false',p[2],';'.join('(%d,%d)'%x for x in p[3]),'].' if n==len(pats)-1 else ';'))
    o.append('(** the statement groups that follow each of sPolynomial30 ... sPolynomial38,\n    %scode.cpp %d-... *)'%(path,B[0][1][-1]))
    o.append('Definition kn_cubic (t : nat) : list kinstr := map (fun k => CI k t) [\n%s].'%wrap([str(pats.index(p)) for p in blk]))
    names=[]
    for k in range(10):
        b=B[k]; r=b[1+88:] if k<9 else b[1:]
        if k==9:
            nI=next(i for i,x in enumerate(r) if x[0]!='I'); 
            o.append('(** the inline reductions after sPolynomial39, code.cpp %d-... *)'%r[0][-1])
            o.append('Definition kn_cubic39 : list kinstr := [\n%s].'%wrap([instr(x) for x in r[:nI]])); r=r[nI:]
        o.append('(** the rest of the block of sPolynomial%d, code.cpp %d-... *)'%(30+k,r[0][-1]))
        o.append('Definition kn_rest%d : list kinstr := [\n%s].'%(30+k,wrap([instr(x) for x in r])))
        names.append('[CS %d] ++ %s ++ kn_rest%d'%(k,'kn_cubic %d'%(30+k) if k<9 else 'kn_cubic39',30+k))
    rest=[x for b in B[10:] for x in b]
    o.append('(** sPolynomial40 to the end, code.cpp %d-... *)'%rest[0][-1])
    o.append('Definition kn_tail : list kinstr := [\n%s].'%wrap([instr(x) for x in rest]))
    o.append('(** computeBasis, %scode.cpp 36-8910 *)'%path)
    o.append('Definition kn_code : list kinstr :=\n  %s ++\n  kn_tail.'%' ++\n  '.join(names))
    o.append('Local Open Scope R_scope.')
    o.append('(** initEpncpRowR, %sinit.cpp 34-156: p0 p1 p2 are c123_1, q0 q1 q2 are c123_2 *)'%path)
    o.append('Definition kn_row (p0 p1 p2 q0 q1 q2 : mat3) : list (nat * R) :=\n  [ %s ].'%';\n    '.join('(%d%%nat, %s)'%(c,expr(e)) for c,e in rowcells))
    open(OUT+'/KneipData.v','w').write('\n'.join(o)+'\n')
