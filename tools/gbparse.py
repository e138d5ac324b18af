#!/usr/bin/env python3
"""Parse the generated Groebner-basis templates of opengv (spolynomials.cpp,
reductors.cpp, code.cpp) into a list of matrix operations, infer the monomial
of every column and check the support bookkeeping that GroebnerProps.v
verifies inside Coq."""
import re, sys
R='/repo/src/'
T={'gp3p':R+'absolute_pose/modules/gp3p/','fivept_kneip':R+'relative_pose/modules/fivept_kneip/'}
for k in range(1,6): T['gpnp%d'%k]=R+'absolute_pose/modules/gpnp%d/'%k
G=r'groebnerMatrix\((\d+|targetRow),(\d+)\)'
def bodies(txt):
    """function name -> (body text, line)"""
    out={}
    for m in re.finditer(r'::(\w+)\(\s*Eigen::Matrix<double,(\d+),(\d+)> & groebnerMatrix[^)]*\)\s*\{(.*?)\n\}',txt,re.S):
        out[m.group(1)]=(m.group(4),txt[:m.start()].count('\n')+1,int(m.group(2)),int(m.group(3)))
    return out
def parse_spoly(body):
    """list of (target row, target col, (i,a,p) or None, (j,b,q) or None)"""
    res=[]
    q=r'groebnerMatrix\((\d+),(\d+)\)/\(groebnerMatrix\((\d+),(\d+)\)\)'
    for st in [s.strip() for s in body.split(';') if s.strip()]:
        m=re.fullmatch(r'groebnerMatrix\((\d+),(\d+)\) = \(?(?:'+q+r')?(?:-'+q+r')?\)?',st)
        assert m,st
        g=[int(x) if x is not None else None for x in m.groups()]
        t,c=g[0],g[1]
        pos=None; neg=None
        if g[2] is not None: assert g[2]==g[4]; pos=(g[2],g[3],g[5])
        if g[6] is not None: assert g[6]==g[8]; neg=(g[6],g[7],g[9])
        res.append((t,c,pos,neg))
    return res
def parse_red(body):
    """(pivot source row, [(ct,cs)...]) first pair is the pivot"""
    sts=[s.strip() for s in body.split(';') if s.strip()]
    m=re.fullmatch(r'double factor = groebnerMatrix\(targetRow,(\d+)\) / groebnerMatrix\((\d+),(\d+)\)',sts[0]); assert m,sts[0]
    c0,s,p=map(int,m.groups()); pairs=[(c0,p)]
    m=re.fullmatch(r'groebnerMatrix\(targetRow,(\d+)\) = 0\.0',sts[1]); assert m and int(m.group(1))==c0,sts[1]
    for st in sts[2:]:
        m=re.fullmatch(r'groebnerMatrix\(targetRow,(\d+)\) -= factor \* groebnerMatrix\((\d+),(\d+)\)',st); assert m,st
        assert int(m.group(2))==s
        pairs.append((int(m.group(1)),int(m.group(3))))
    return s,pairs
def parse_code(body,spolys,reds):
    ops=[]; sts=[s.strip() for s in body.split(';') if s.strip()]
    i=1 if sts[0]=='double factor = 0.0' else 0
    while i<len(sts):
        st=sts[i]
        m=re.fullmatch(r'(sPolynomial\d+)\(groebnerMatrix\)',st)
        if m: ops.append(('S',m.group(1))); i+=1; continue
        m=re.fullmatch(r'(groebnerRow\w+)\(groebnerMatrix,(\d+)\)',st)
        if m: ops.append(('R',m.group(1),int(m.group(2)))); i+=1; continue
        m=re.fullmatch(r'factor = 1\.0 / groebnerMatrix\((\d+),(\d+)\)',st)
        if m:
            r,c=m.groups(); assert sts[i+1]==f'groebnerMatrix.row({r}) = factor * groebnerMatrix.row({r})',sts[i+1]
            ops.append(('N',int(r),int(c))); i+=2; continue
        m=re.fullmatch(r'factor = groebnerMatrix\((\d+),(\d+)\)',st)
        if m:
            r,c=m.groups(); k=re.fullmatch(rf'groebnerMatrix\.row\({r}\) = groebnerMatrix\.row\({r}\) - factor \* groebnerMatrix\.row\((\d+)\)',sts[i+1]); assert k,sts[i+1]
            ops.append(('E',int(r),int(c),int(k.group(1)))); i+=2; continue
        raise Exception(st)
    return ops
def load(name):
    d=T[name]
    sp={k:(parse_spoly(b),ln) for k,(b,ln,_,_) in bodies(open(d+'spolynomials.cpp').read()).items()}
    rd={k:(parse_red(b),ln) for k,(b,ln,_,_) in bodies(open(d+'reductors.cpp').read()).items()}
    cb=bodies(open(d+'code.cpp').read())['compute']
    return sp,rd,parse_code(cb[0],sp,rd),cb[2],cb[3]
def init_cells(name):
    txt=open(T[name]+'init.cpp').read()
    return [(int(a),int(b),e.strip()) for a,b,e in re.findall(r'groebnerMatrix\((\d+),(\d+)\) = ([^;]*);',txt)]
def monomials(name,nc):
    """exponent vector of every column, from the shifts in the reductor names"""
    sp,rd,ops,nr,nc=load(name)
    nv=len(next(iter(rd)).split('_')[1])
    sub=lambda a,b:tuple(x-y for x,y in zip(a,b)); add=lambda a,b:tuple(x+y for x,y in zip(a,b))
    e={nc-1:(0,)*nv}
    for c,m in SEED.get(name,{}).items(): e[c]=tuple(map(int,m))
    rel=[]   # groups of (ct,cs) with a common known shift, or unknown
    for k,((s,pairs),_) in rd.items():
        sh=tuple(int(c) for c in k.split('_')[1]); rel.append((sh,pairs))
    for k,(ent,_) in sp.items():
        rel.append((None,[(c,p[1]) for _,c,p,_ in ent if p])); rel.append((None,[(c,n[1]) for _,c,_,n in ent if n]))
    ch=True
    while ch:
        ch=False
        for sh,pairs in rel:
            if sh is None:
                for ct,cs in pairs:
                    if ct in e and cs in e: sh=sub(e[ct],e[cs])
            if sh is None: continue
            for ct,cs in pairs:
                if cs in e and ct not in e: e[ct]=add(e[cs],sh); ch=True
                elif ct in e and cs not in e: e[cs]=sub(e[ct],sh); ch=True
                elif ct in e and cs in e: assert e[ct]==add(e[cs],sh),(name,ct,cs,sh,e[ct],e[cs])
    return e
SEED={'gp3p':{81:'001000',66:'002000',70:'011000',71:'020000',75:'101000',21:'002100',33:'020100',53:'200100',
   20:'002010',32:'020010',52:'200010',19:'002001',31:'020001',51:'200001',78:'000001',79:'000010'},
   'gpnp1':{0:'2',1:'1'},'gpnp2':{0:'02',1:'11',3:'01'},'gpnp3':{8:'002',9:'011',11:'101',14:'001'}}
def canon(keys,zero):
    """class labels from keys: 0 for the zero keys, else 1 + first column with the same key"""
    first={}; out=[]
    for c,k in enumerate(keys):
        if k in zero: out.append(0); continue
        first.setdefault(k,c+1); out.append(first[k])
    return out
def init_labels(name,nr,nc):
    rows=[[0]*nc for _ in range(nr)]
    seen={}
    for r,c,e in init_cells(name):
        e=e.replace(' ','')
        if e in('0','0.0'): continue
        rows[r][c]=seen.setdefault((r,e),c+1)
    return rows
def check(name):
    sp,rd,ops,nr,nc=load(name)
    mon=monomials(name,nc)
    L=init_labels(name,nr,nc); bad=[]
    sub=lambda a,b:tuple(x-y for x,y in zip(a,b)); add=lambda a,b:tuple(x+y for x,y in zip(a,b))
    for o in ops:
        if o[0]=='S':
            ent=sp[o[1]][0]; t=ent[0][0]
            if any(L[t]): bad.append(('nonempty',o))
            P=[x[2] for x in ent if x[2]]; N=[x[3] for x in ent if x[3]]
            i,p=P[0][0],P[0][2]; j,q=N[0][0],N[0][2]
            assert all(x[0]==i and x[2]==p for x in P) and all(x[0]==j and x[2]==q for x in N) and all(x[0]==t for x in ent)
            la={x[2][1]:x[1] for x in ent if x[2]}; lb={x[3][1]:x[1] for x in ent if x[3]}
            ua=[a for a in range(nc) if L[i][a] and a not in la]; ub=[b for b in range(nc) if L[j][b] and b not in lb]
            if any(L[i][a]!=L[i][p] for a in ua) or any(L[j][b]!=L[j][q] for b in ub): bad.append((o,'dropped',ua,ub)); 
            al=[sub(mon[c],mon[a]) for a,c in la.items() if a in mon and c in mon]; be=[sub(mon[c],mon[b]) for b,c in lb.items() if b in mon and c in mon]
            if not al or not be: bad.append((o,'no shift'))
            else:
                if len(set(al))>1 or len(set(be))>1: bad.append((o,'shift'))
                for a,c in la.items():
                    if a not in mon: bad.append((o,'mon',a))
                A=sorted(add(mon[a],al[0]) if a in mon else (a,) for a in ua); B=sorted(add(mon[b],be[0]) if b in mon else (b,) for b in ub)
                if A!=B: bad.append((o,'multiset',ua,ub))
            keys=[(0,0)]*nc
            for (_,c,P1,N1) in ent: keys[c]=((L[i][P1[1]] if P1 else 0),(L[j][N1[1]] if N1 else 0))
            L[t]=canon(keys,{(0,0),(L[i][p],L[j][q])})
        elif o[0]=='R':
            (s,pairs),_=rd[o[1]]; t=o[2]
            m={b:a for a,b in pairs}; c0,p=pairs[0]
            miss=[b for b in range(nc) if L[s][b] and b not in m]
            if miss: bad.append((o,'missing',miss))
            sh=sub(mon[c0],mon[p]) if c0 in mon and p in mon else None
            for a,b in pairs:
                if not(a in mon and b in mon) or sub(mon[a],mon[b])!=sh: bad.append((o,'mon',a,b))
            keys=[(x,0) for x in L[t]]
            for a,b in pairs: keys[a]=(L[t][a],L[s][b])
            L[t]=canon(keys,{(0,0),keys[c0]})
        elif o[0]=='N':
            pass
        elif o[0]=='E':
            _,t,c,s=o
            keys=list(zip(L[t],L[s]))
            L[t]=canon(keys,{(0,0),keys[c]})   # needs G(s,c)=1
    return bad,mon,[{c for c in range(nc) if L[r][c]} for r in range(nr)]
if __name__=='__main__':
    for n in sys.argv[1:]:
        sp,rd,ops,nr,nc=load(n)
        print(n,nr,nc,'spolys',len(sp),'reductors',len(rd),'ops',len(ops),{k:sum(o[0]==k for o in ops) for k in 'SRNE'},'pairs',sum(len(v[0][1]) for v in rd.values()), 'sentries',sum(len(v[0]) for v in sp.values()))
        bad,mon,supp=check(n)
        print(' monomials',len(mon),'of',nc,'bad',len(bad),bad[:6])
        print(' ',[mon.get(c) for c in range(max(0,nc-12),nc)])
        print(' last rows',[(r,sorted(supp[r])) for r in range(max(0,nr-3),nr)])
