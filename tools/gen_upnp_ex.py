#!/usr/bin/env python3
"""Writes rocq/theories/UpnpActData.v: intermediate values, permutations and
certificates for the two scenes of UpnpActExamples.v (examples only)."""
import re, sys, os
from fractions import Fraction as F
from math import gcd
D = '/repo/src/absolute_pose/modules/'
def load(fn):
    t = open(D + fn).read(); body = t[t.index('::setupAction'):]
    m1 = [(int(a), int(b), e.strip()) for a, b, e in re.findall(r'(?<!\w)M1\((\d+),(\d+)\) = ([^;]*);', body)]
    m2 = [(int(a), int(b), int(c), int(d)) for a, b, c, d in re.findall(r'\(\*\(M2\[(\d+)\]\)\)\[(\d+)\] = M1\((\d+),(\d+)\);', body)]
    return m1, m2
L2 = load('upnp2.cpp'); L4 = load('upnp4.cpp')
def mm(A, B): return [[sum(A[i][k]*B[k][j] for k in range(len(B))) for j in range(len(B[0]))] for i in range(len(A))]
def mv(A, v): return [sum(x*y for x, y in zip(r, v)) for r in A]
def inv(A):
    n = len(A); B = [[F(x) for x in A[i]] + [F(int(i == j)) for j in range(n)] for i in range(n)]
    for c in range(n):
        p = next(i for i in range(c, n) if B[i][c]); B[c], B[p] = B[p], B[c]
        iv = 1/B[c][c]; B[c] = [x*iv for x in B[c]]
        for i in range(n):
            if i != c and B[i][c]: f = B[i][c]; B[i] = [x - f*y for x, y in zip(B[i], B[c])]
    return [r[n:] for r in B]
def fill(x):
    a, b, c = x
    cols = [[a,b,c],[a,-b,-c],[-a,b,-c],[-a,-b,c],[0,-2*c,2*b],[2*c,0,-2*a],[-2*b,2*a,0],[2*b,2*a,0],[2*c,0,2*a],[0,2*c,2*b]]
    return [[cols[j][i] for j in range(10)] for i in range(3)]
def rotT(v): return [v[1], v[2], v[0]]       # transpose of the rotation of (1/2,1/2,1/2,1/2)
def scene(fl, vs, t):
    return [(f, v, rotT([lam*f[k] + v[k] - t[k] for k in range(3)])) for (f, lam), v in zip(fl, vs)]
def values(cs):
    n = len(cs)
    T = [[[f[i]*f[j] - (i == j) for j in range(3)] for i in range(3)] for f, _, _ in cs]
    H = inv([[n*(i == j) - sum(f[i]*f[j] for f, _, _ in cs) for j in range(3)] for i in range(3)])
    V = [mm(H, t) for t in T]
    I = [[sum(mm(V[k], fill(cs[k][2]))[i][j] for k in range(n)) for j in range(10)] for i in range(3)]
    J = [sum(mv(V[k], cs[k][1])[i] for k in range(n)) for i in range(3)]
    As, bs = [], []
    for k in range(n):
        Fp = fill(cs[k][2]); As.append(mm(T[k], [[Fp[i][j] + I[i][j] for j in range(10)] for i in range(3)]))
        bs.append([-x for x in mv(T[k], [cs[k][1][i] + J[i] for i in range(3)])])
    M = [[F(sum(A[r][i]*A[r][j] for A in As for r in range(3))) for j in range(10)] for i in range(10)]
    C = [F(sum(b[r]*A[r][i] for A, b in zip(As, bs) for r in range(3))) for i in range(10)]
    return H, I, J, As, bs, M, C
def m1mat(m1, nr, nc, M, C):
    A = [[F(0)]*nc for _ in range(nr)]
    for a, b, e in m1:
        e = re.sub(r'M\((\d+),(\d+)\)', r'M[\1][\2]', e); e = re.sub(r'C\(0,(\d+)\)', r'C[\1]', e)
        A[a][b] = F(eval(e, {'M': M, 'C': C}))
    return A
def mac(m2, A, nr):
    m = [{} for _ in range(nr)]
    for a, b, c, d in m2:
        if A[c][d]: m[a][b] = A[c][d]
    return m
def elim(m, n):
    m = [dict(r) for r in m]; used = [None]*n; rows = set(range(len(m)))
    for c in range(n):
        p = min((i for i in rows if m[i].get(c)), key=lambda i: len(m[i])); rows.discard(p); used[c] = p
        iv = 1/m[p][c]; m[p] = {k: v*iv for k, v in m[p].items()}
        for i in range(len(m)):
            if i != p and m[i].get(c):
                f = m[i][c]; mi = m[i]
                for k, v in m[p].items():
                    nv = mi.get(k, 0) - f*v
                    if nv: mi[k] = nv
                    else: mi.pop(k, None)
    return [m[used[c]] for c in range(n)]
def order(m, cols, P):
    """pivots (row, column) of an elimination modulo P with little fill-in"""
    cols = set(cols)
    m = [{k: z for k, v in r.items() if k in cols for z in [v.numerator*pow(v.denominator, -1, P) % P] if z} for r in m]
    rows = set(range(len(m))); out = []; cc = {c: set() for c in cols}
    for i, r in enumerate(m):
        for k in r: cc[k].add(i)
    while cols:
        best = None
        for i in sorted(rows):
            lr = len(m[i])
            for k in sorted(m[i]):
                s = (lr - 1)*(len(cc[k]) - 1)
                if best is None or s < best[0]: best = (s, i, k)
        if best is None: return None
        s, i, c = best; out.append((i, c)); rows.discard(i); cols.discard(c)
        iv = pow(m[i][c], P - 2, P)
        for k in m[i]: cc[k].discard(i)
        for j in list(cc[c]):
            f = m[j][c]*iv % P; mj = m[j]
            for k, v in m[i].items():
                nv = (mj.get(k, 0) - f*v) % P
                if nv: cc[k].add(j); mj[k] = nv
                elif k in mj: del mj[k]; cc[k].discard(j)
        del cc[c]
    return out
def find_order(m, cols):
    for P in (31, 61, 101, 127, 251, 1021):
        try: o = order(m, cols, P)
        except ValueError: continue
        if o: return P, o
    raise SystemExit('no prime')
def q(x):
    x = F(x)
    if x.denominator == 1: return str(x.numerator) if x >= 0 else '(%d)' % x.numerator
    return '(%d / %d)' % (x.numerator, x.denominator)
def zl(l): return '[' + '; '.join(str(x) if x >= 0 else '(%d)' % x for x in l) + ']'
def zll(l): return '[' + ';\n   '.join(zl(r) for r in l) + ']%Z'
def nl(l): return '[' + '; '.join(map(str, l)) + ']%N'
def vec(c): return 'V3 ' + ' '.join(q(x) for x in c)
def common(rows):
    d = 1
    for r in rows:
        for x in r: d = d*x.denominator//gcd(d, x.denominator)
    return d
out = ['''(** Generated by tools/gen_upnp_ex.py: two scenes for UPnP with the intermediate
    values, permutations and certificates used by UpnpActExamples.v. *)
From Coq Require Import Reals List NArith ZArith.
From Verif Require Import Lin UpnpModel.
Import ListNotations.
Local Open Scope R_scope.
''']
def emit(name, fl, vs, t):
    cs = scene(fl, vs, t); H, I, J, As, bs, M, C = values(cs); n = len(cs)
    out.append('(** * %d correspondences *)' % n)
    out.append('Definition %s_c (i : nat) : ucorr :=\n  nth i [%s] (UC v0 v0 v0).' % (name, ';\n         '.join('UC (%s) (%s) (%s)' % (vec(f), vec(v), vec(p)) for f, v, p in cs)))
    out.append('Definition %s_l : list ucorr := [%s].' % (name, '; '.join('%s_c %d' % (name, i) for i in range(n))))
    out.append('Definition %s_t : vec3 := %s.' % (name, vec(t)))
    out.append('Definition %s_H : mat3 := diag %s %s %s.' % (name, q(H[0][0]), q(H[1][1]), q(H[2][2])))
    out.append('Definition %s_I (j : nat) : vec3 := nth j [%s] v0.' % (name, '; '.join(vec([I[r][j] for r in range(3)]) for j in range(10))))
    out.append('Definition %s_J : vec3 := %s.' % (name, vec(J)))
    out.append('Definition %s_A (i j : nat) : vec3 := nth j (nth i [%s] []) v0.' % (name, ';\n   '.join('[' + '; '.join(vec([A[r][j] for r in range(3)]) for j in range(10)) + ']' for A in As)))
    out.append('Definition %s_b (i : nat) : vec3 := nth i [%s] v0.' % (name, '; '.join(vec(b) for b in bs)))
    d = common(M + [C])
    out.append('(** %d times M and C *)' % d)
    out.append('Definition %s_Mz : list (list Z) :=\n  %s.' % (name, zll([[int(x*d) for x in r] for r in M])))
    out.append('Definition %s_Cz : list Z := %s%%Z.' % (name, zl([int(x*d) for x in C])))
    m1, m2 = (L4 if n > 4 else L2); nr1, nc1, nl_, nr, nc = (8, 24, 7, 141, 149) if n > 4 else (5, 29, 4, 395, 412)
    A = m1mat(m1, nr1, nc1, M, C)
    out.append('(** %d times M1 *)' % d)
    out.append('Definition %s_m1 : list (list Z) :=\n  %s.' % (name, zll([[int(x*d) for x in r] for r in A])))
    iv = inv([r[:nl_] for r in A[:nl_]]); G = mm(iv, A[:nl_]) + A[nl_:]; d2 = common(G)
    di = common(iv)
    out.append('(** the inverse of its leading block *)')
    out.append('Definition %s_di : Z := %d%%Z.' % (name, di))
    out.append('Definition %s_inv : list (list Z) :=\n  %s.' % (name, zll([[int(x*di) for x in r] for r in iv])))
    out.append('(** %d times the matrix after multiplication by the inverse of its leading block *)' % d2)
    out.append('Definition %s_red : list (list Z) :=\n  %s.' % (name, zll([[int(x*d2) for x in r] for r in G])))
    if n > 4: G = [[x - r[10]*y for x, y in zip(r, G[7])] for r in G[:7]] + G[7:]
    out.append('(** ... and %d times the final one *)' % d2)
    out.append('Definition %s_fin : list (list Z) :=\n  %s.' % (name, zll([[int(x*d2) for x in r] for r in G])))
    m = mac(m2, G, nr)
    P, o = find_order(m, range(nr))
    out.append('(** the order of rows and columns in which the elimination modulo %d succeeds *)' % P)
    out.append('Definition %s_P : Z := %d%%Z.' % (name, P))
    out.append('Definition %s_rs : list nat := map N.to_nat %s.' % (name, nl([i for i, _ in o])))
    out.append('Definition %s_cs : list N := %s.' % (name, nl([c for _, c in o])))
    out.append('(** the residues of the final matrix *)')
    out.append('Definition %s_res : list (list Z) :=\n  %s.' % (name, zll([[x.numerator*pow(x.denominator, -1, P) % P for x in r] for r in G])))
    if n == 4:
        r = elim(m, nr); y = [-x.get(nr, F(0)) for x in r] + [F(1)]; d3 = common([y])
        out.append('(** a multiple of the solution whose trailing part is (1,0,...,0) *)')
        out.append('Definition %s_y : list Z :=\n  %s.' % (name, zl([int(x*d3) for x in y]).replace('; ', ';\n   ') + '%Z'))
    else:
        rs = [(f, v, [p[2], p[0], p[1]]) for f, v, p in cs]
        _, Ir, _, Ar, _, Mr, Cr = values(rs)
        out.append('(** the same values for the rotated points *)')
        out.append('Definition %s_p (i : nat) : vec3 := nth i [%s] v0.' % (name, '; '.join(vec(p) for _, _, p in rs)))
        out.append('Definition %s_Ir (j : nat) : vec3 := nth j [%s] v0.' % (name, '; '.join(vec([Ir[r][j] for r in range(3)]) for j in range(10))))
        out.append('Definition %s_Ar (i j : nat) : vec3 := nth j (nth i [%s] []) v0.' % (name, ';\n   '.join('[' + '; '.join(vec([A[r][j] for r in range(3)]) for j in range(10)) + ']' for A in Ar)))
        mm_, cc_ = Mr, Cr
        hs = [[2*mm_[4][4]+4*mm_[0][1]-4*mm_[0][0]+4*cc_[1]-4*cc_[0], 2*mm_[5][4]+2*mm_[0][7]+2*cc_[7], 2*mm_[6][4]+2*mm_[0][8]+2*cc_[8]],
              [2*mm_[4][5]+2*mm_[0][7]+2*cc_[7], 2*mm_[5][5]+4*mm_[0][2]-4*mm_[0][0]+4*cc_[2]-4*cc_[0], 2*mm_[6][5]+2*mm_[0][9]+2*cc_[9]],
              [2*mm_[4][6]+2*mm_[0][8]+2*cc_[8], 2*mm_[5][6]+2*mm_[0][9]+2*cc_[9], 2*mm_[6][6]+4*mm_[0][3]-4*mm_[0][0]+4*cc_[3]-4*cc_[0]]]
        det = sum(hs[0][i]*(hs[1][(i+1)%3]*hs[2][(i+2)%3]-hs[1][(i+2)%3]*hs[2][(i+1)%3]) for i in range(3)); assert det
        out.append('Definition %s_hess : mat3 := M3 %s.' % (name, ' '.join(q(x) for r in hs for x in r)))
        lam = F(1, 4)
        ext = [{121 + i: F(1), 141 + i: -lam} for i in range(4)] + [{141 + i: F(1), 145 + i: -lam} for i in range(4)]
        P, o = find_order(m + ext, range(nc - 1))
        out.append('(** the same with the equations of an eigenvector, without the last column, modulo %d *)' % P)
        out.append('Definition %s_eP : Z := %d%%Z.' % (name, P))
        out.append('Definition %s_ers : list nat := map N.to_nat %s.' % (name, nl([i for i, _ in o])))
        out.append('Definition %s_ecs : list N := %s.' % (name, nl([c for _, c in o])))
        out.append('Definition %s_eres : list (list Z) :=\n  %s.' % (name, zll([[x.numerator*pow(x.denominator, -1, P) % P for x in r] for r in G])))
    out.append('')
E1, E2, E3 = [1, 0, 0], [0, 1, 0], [0, 0, 1]
emit('s4', [(E1, 2), (E2, 2), (E3, 1), (E1, 2)], [[0, -1, 0], [0, -1, -1], [0, 1, 1], [-1, 0, 1]], [0, 1, 0])
emit('s5', [(E1, 1), (E2, 1), (E3, 1), (E1, 1), (E2, 2)], [[0, 1, 0], [0, 1, 0], [0, 0, 0], [-1, 1, 0], [1, 0, 0]], [0, 0, 0])
open(os.path.join(os.path.dirname(os.path.abspath(__file__)), '../rocq/theories/UpnpActData.v'), 'w').write('\n'.join(out) + '\n')
