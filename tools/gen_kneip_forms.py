#!/usr/bin/env python3
"""Write rocq/theories/KneipForms.v: the linear relations between the entries
of a row built by fivept_kneip/init.cpp, found by elimination over Q."""
import re,os
from collections import Counter
from fractions import Fraction
ini=open('/repo/src/relative_pose/modules/fivept_kneip/init.cpp').read()
rowcells=[(int(a),e.strip()) for a,e in re.findall(r'row\(0,(\d+)\) = ([^;]*);',ini)]
cells=[(int(a),int(b),int(e)) for a,b,e in re.findall(r'groebnerMatrix\((\d+),(\d+)\) = ([^;]*);',ini)]
def poly(ex):
    d=Counter()
    for s,a,b in re.findall(r'([+-]?)(c123_1\[\d\]\(\d,\d\))\*(c123_2\[\d\]\(\d,\d\))',ex): d[a,b]+=-1 if s=='-' else 1
    return d
basis=[]; cols=[]; row={}
for c,ex in rowcells:
    v={k:Fraction(x) for k,x in poly(ex).items()}; comb={}
    for p,b,cb in basis:
        if v.get(p,0):
            f=v[p]/b[p]
            for k,x in b.items(): v[k]=v.get(k,0)-f*x
            for k,x in cb.items(): comb[k]=comb.get(k,0)+f*x
    v={k:x for k,x in v.items() if x}
    if v:
        n=len(cols); cols.append(c); cb={k:-x for k,x in comb.items()}; cb[n]=Fraction(1)
        basis.append((next(iter(v)),v,cb)); row[c]={n:Fraction(1)}
    else: row[c]={k:x for k,x in comb.items() if x}
z=lambda x:'%d%%Z'%x if x>0 else '(%d)%%Z'%x
def w(l,n=6): return ';\n  '.join('; '.join(l[i:i+n]) for i in range(0,len(l),n))
out='''(** Certificate for the rows of fivept_kneip/init.cpp: 64 of the 114 entries
    determine the others linearly.  [kn_par] lists their columns; the entry
    (c, f) of [kn_form] says that column c is the sum of z times the k-th of
    them over (k, z) in f.  Written by tools/gen_kneip_forms.py.  Definitions only. *)
From Coq Require Import List ZArith.
Import ListNotations.
'''
out+='Definition kn_par : list nat := [\n  '+w([str(c) for c in cols],24)+']%nat.\n'
assert all(x.denominator==1 for f in row.values() for x in f.values())
L=['(%d, [%s])'%(c,'; '.join('(%d, %s)'%(k,z(x)) for k,x in sorted(f.items()))) for c,f in sorted(row.items())]
out+='Definition kn_form : list (nat * list (nat * Z)) := [\n  '+w(L)+']%nat.\n'
out+='(** the entries of KneipData.kn_const as integers *)\nDefinition kn_constZ : list (nat * nat * Z) := [\n  '+w(['(%d,%d,%s)'%(a,c,z(v)) for a,c,v in cells],10)+']%nat.\n'
open(os.path.join(os.path.dirname(__file__),'..','rocq','theories','KneipForms.v'),'w').write(out)
