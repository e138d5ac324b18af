(** Model of p3p_gao (/repo/src/absolute_pose/methods.cpp 161-188) and
    p3p_gao_main (/repo/src/absolute_pose/modules/main.cpp 223-373) over the
    exact reals.  Definitions only.  [None] is a transformation with NaN or
    infinite entries; the SVD of arun_complete is the argument [svd]. *)
From Coq Require Import Reals List.
From Verif Require Import Lin Cplx ArunModel GeoModel RootsModel.
Import ListNotations.
Local Open Scope R_scope.

Section Factors.
Variables (a b p q r : R).
(** factors, 264-284 *)
Definition gao_A : R := - 2 * b + b * b + a * a + 1 - b * (r * r) * a + 2 * b * a - 2 * a.
Definition gao_B : R :=
  - 2 * b * q * a - 2 * (a * a) * q + b * (r * r) * q * a - 2 * q + 2 * b * q
  + 4 * a * q + p * b * r + b * r * p * a - (b * b) * r * p.
Definition gao_C : R :=
  q * q + (b * b) * (r * r) - b * (p * p) - q * p * b * r + (b * b) * (p * p) - b * (r * r) * a
  + 2 - 2 * (b * b) - a * b * r * p * q + 2 * (a * a) - 4 * a - 2 * (q * q) * a + (q * q) * (a * a).
Definition gao_D : R :=
  - (b * b) * r * p + b * r * p * a - 2 * (a * a) * q + q * (p * p) * b
  + 2 * b * q * a + 4 * a * q + p * b * r - 2 * b * q - 2 * q.
Definition gao_E : R := 1 - 2 * a + 2 * b + b * b - b * (p * p) + a * a - 2 * b * a.
(** temp, 290 *)
Definition gao_temp : R := p * p * (a - 1 + b) + p * q * r - q * a * r * p + (a - 1 - b) * (r * r).
(** b1_part1, 309-310 *)
Definition gao_part1 (x : R) : R := (1 - a - b) * (x * x) + (q * a - q) * x + (1 - a + b).
(** b1_part2, 312-327 *)
Definition gao_part2 (x : R) : R :=
  let aSq := a * a in let bSq := b * b in let pSq := p * p in let qSq := q * q in let rSq := r * r in
  let rCb := rSq * r in
    (aSq*rCb + 2*b*rCb*a - b*rSq*rCb*a - 2*a*rCb + rCb + bSq*rCb - 2*rCb*b) * (x*x*x)
  + (p*rSq + p*aSq*rSq - 2*b*rCb*q*a + 2*rCb*b*q - 2*rCb*q - 2*p*(a+b)*rSq
     + rSq*rSq*p*b + 4*a*rCb*q + b*q*a*rCb*rSq - 2*rCb*aSq*q + 2*rSq*p*b*a
     + bSq*rSq*p - rSq*rSq*p*bSq) * (x*x)
  + (rCb*qSq + rSq*rCb*bSq + r*pSq*bSq - 4*a*rCb - 2*a*rCb*qSq + rCb*qSq*aSq
     + 2*aSq*rCb - 2*bSq*rCb - 2*pSq*b*r + 4*p*a*rSq*q + 2*a*pSq*r*b
     - 2*a*rSq*q*b*p - 2*pSq*a*r + r*pSq - b*rSq*rCb*a + 2*p*rSq*b*q
     + r*pSq*aSq - 2*p*q*rSq + 2*rCb - 2*rSq*p*aSq*q - rSq*rSq*q*b*p) * x
  + (4*a*rCb*q + p*rSq*qSq + 2*pSq*p*b*a - 4*p*a*rSq - 2*rCb*b*q - 2*pSq*q*r
     - 2*bSq*rSq*p + rSq*rSq*p*b + 2*p*aSq*rSq - 2*rCb*aSq*q - 2*pSq*p*a
     + pSq*p*aSq + 2*p*rSq + pSq*p + 2*b*rCb*q*a + 2*q*pSq*b*r + 4*q*a*r*pSq
     - 2*p*a*rSq*qSq - 2*pSq*aSq*r*q + p*aSq*rSq*qSq - 2*rCb*q - 2*pSq*p*b
     + pSq*p*bSq - 2*pSq*b*r*q*a).
End Factors.

Section Gao.
Variables (svd : svd_t) (csqrt ccbrt : cx -> cx).
(** one column of 329-372: y, v, X, Y, Z and the alignment *)
Definition gao_solution (f1 f2 f3 A B C : vec3) (AB a b p q r x : R) : option pose :=
  let b0 := b * gao_temp a b p q r * gao_temp a b p q r in
  if Req_EM_T b0 0 then None else
  let y := gao_part1 a b q x * gao_part2 a b p q r x / b0 in
  let v := x * x + y ^ 2 - r * (x * y) in
  if Rle_dec v 0 then None else
  let Z := AB / sqrt v in
  let X := x * Z in
  let Y := y * Z in
  let T := arun_complete svd [(A, vscale X f1); (B, vscale Y f2); (C, vscale Z f3)] in
  Some (Pose (fst T) (snd T)).
(** p3p_gao_main, 223-373 *)
Definition p3p_gao (f1 f2 f3 A B C : vec3) : list (option pose) :=
  let AB := norm (vsub A B) in
  let BC := norm (vsub B C) in
  let AC := norm (vsub A C) in
  let cosalpha := dot f2 f3 in
  let cosbeta := dot f1 f3 in
  let cosgamma := dot f1 f2 in
  if Req_EM_T AB 0 then [None; None; None; None] else
  let a := (BC / AB) ^ 2 in
  let b := (AC / AB) ^ 2 in
  let p := 2 * cosalpha in
  let q := 2 * cosbeta in
  let r := 2 * cosgamma in
  if Req_EM_T (p * p + q * q + r * r - p * q * r - 1) 0 then [] else
  if Req_EM_T (gao_A a b r) 0 then [] else
  match o4_roots csqrt ccbrt (gao_A a b r) (gao_B a b p q r) (gao_C a b p q r) (gao_D a b p q r) (gao_E a b p) with
  | None => [None; None; None; None]
  | Some x => map (gao_solution f1 f2 f3 A B C AB a b p q r) x
  end.
End Gao.
