#!/usr/bin/env python3
"""Write rocq/theories/KneipZrow.v: the coefficient rows of
fivept_kneip/init.cpp over the integers, for the examples of C78."""
import re,os,sys
sys.path.insert(0,os.path.dirname(__file__))
import gen_kneip as k
def ex(e):
    e=re.sub(r'c123_1\[(\d)\]\((\d),(\d)\)',r'z\2\3 p\1',e); e=re.sub(r'c123_2\[(\d)\]\((\d),(\d)\)',r'z\2\3 q\1',e)
    return re.sub(r'([-+*])',r' \1 ',e).strip()
o=['''(** Generated by tools/gen_kneip_ex.py: the rows of fivept_kneip/init.cpp over the
    integers (examples only). *)
From Coq Require Import ZArith List.
Import ListNotations.
Local Open Scope Z_scope.
Record z33 := Z33 { z00 : Z; z01 : Z; z02 : Z; z10 : Z; z11 : Z; z12 : Z; z20 : Z; z21 : Z; z22 : Z }.
Definition zkn_row (p0 p1 p2 q0 q1 q2 : z33) : list (nat * Z) :=''']
o.append('  [ '+';\n    '.join('(%d%%nat, %s)'%(c,ex(e)) for c,e in k.rowcells)+' ].')
open(os.path.join(k.OUT,'KneipZrow.v'),'w').write('\n'.join(o)+'\n')
