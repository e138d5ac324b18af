#!/usr/bin/env python3
"""Translate the Groebner template gp3p of opengv into Coq:
rocq/theories/Gp3pData.v (statement groups, monomials) and
rocq/theories/Gp3pInit.v (coefficient matrix)."""
import re,sys,os
sys.path.insert(0,os.path.dirname(__file__))
import gbparse as g
import gen_gb as G
def expr(e):
    e=re.sub(r'\b([fvp])\((\d),(\d)\)',lambda m:'v%s (%s %s%%nat)'%('xyz'[int(m.group(2))],m.group(1),m.group(3)),e)
    e=re.sub(r'([-+*])',r' \1 ',e); e=re.sub(r'\( - ',r'(- ',e)
    return re.sub(r'\s+',' ',e).strip()
if __name__=='__main__':
    with open(G.OUT+'/Gp3pData.v','w') as f:
        f.write('(** Generated by tools/gen_gp3p.py from the Groebner template\n    src/absolute_pose/modules/gp3p: each sPolynomial and groebnerRow function and\n    the statement sequence of compute.  Definitions only. *)\nFrom Coq Require Import List.\nFrom Verif Require Import GbModel.\nImport ListNotations.\n\n')
        f.write(G.data('gp3p','gp'))
    d='src/absolute_pose/modules/gp3p/init.cpp'; txt=open('/repo/'+d).read()
    with open(G.OUT+'/Gp3pInit.v','w') as f:
        f.write('(** Generated by tools/gen_gp3p.py from src/absolute_pose/modules/gp3p, init.cpp:\n    the coefficient matrix as a function of the unrotated bearing vectors, the\n    camera offsets and the world points (the columns of f, v and p).\n    Definitions only. *)\nFrom Coq Require Import Reals List.\nFrom Verif Require Import Lin GbModel.\nImport ListNotations.\nLocal Open Scope R_scope.\n\n')
        f.write('(** gp3p::init, %s %d-%d. *)\n'%(d,txt[:txt.index('::init(')].count('\n')+1,txt.count('\n')))
        f.write('Definition gp_cells (f v p : nat -> vec3) : list (nat * nat * R) :=\n')
        f.write('  [ %s ].\n'%';\n    '.join('(%d%%nat, %d%%nat, %s)'%(r,c,expr(e)) for r,c,e in g.init_cells('gp3p')))
        f.write('Definition gp_init (f v p : nat -> vec3) : gmat := gcells (gp_cells f v p).\n')
