(** Model of src/math/roots.cpp over the reals.  Definitions only.
    [None] = a division by zero happened, so that the results are NaN. *)
From Coq Require Import Reals List.
From Verif Require Import Cplx SturmModel.
Import ListNotations.
Local Open Scope R_scope.

(** atan(y / x) in floating point for y > 0: y/0 is +infinity, whose arc tangent
    is pi/2. *)
Definition atan_ratio (y x : R) : R := if Req_EM_T x 0 then PI / 2 else atan (y / x).

Definition theta_0 (a b c : R) : R := b * b - 3 * a * c.
Definition theta_1 (a b c d : R) : R := 2 * b * b * b - 9 * a * b * c + 27 * a * a * d.
(** the variable C, roots.cpp 42-72 *)
Definition o3_C (a b c d : R) : cx :=
  let t0 := theta_0 a b c in
  let t1 := theta_1 a b c d in
  let term := t1 * t1 - 4 * t0 * t0 * t0 in
  if Rge_dec term 0 then
    let C3 := 1/2 * (t1 + sqrt term) in
    if Rlt_dec C3 0 then Cx (- rpow (- C3) (1 / 3)) 0 else Cx (rpow C3 (1 / 3)) 0
  else
    let C3 := Cx (1/2 * t1) (1/2 * sqrt (- term)) in
    let r3 := sqrt (re C3 ^ 2 + im C3 ^ 2) in
    let a3 := atan_ratio (im C3) (re C3) in
    let a3 := if Rlt_dec (re C3) 0 then a3 + PI else a3 in
    let r := rpow r3 (1 / 3) in
    Cx (r * cos (a3 / 3)) (r * sin (a3 / 3)).
Definition u1 : cx := Cx 1 0.
Definition u2 : cx := Cx (- (1/2)) (1/2 * sqrt 3).
Definition u3 : cx := Cx (- (1/2)) (- (1/2) * sqrt 3).
(** r1, r2, r3, lines 74-76 *)
Definition o3_root (a b c : R) (C u : cx) : cx :=
  (RtoC (- (1 / (3 * a))) * (RtoC b + u * C + RtoC (theta_0 a b c) / (u * C)))%cx.
Definition o3_complex (a b c d : R) : option (list cx) :=
  let C := o3_C a b c d in
  if Req_EM_T a 0 then None else
  if ceqb C c0 then None else
  Some [o3_root a b c C u1; o3_root a b c C u2; o3_root a b c C u3].
(** o3_roots, 34-84: the real parts *)
Definition o3_roots (a b c d : R) : option (list R) := option_map (map re) (o3_complex a b c d).

(** o4_roots, 88-136 and 138-186 (the two overloads have the same body).
    [csqrt] and [ccbrt] are the complex square root and pow(., 1/3). *)
Section O4.
Variables (csqrt ccbrt : cx -> cx).
Definition o4_alpha (A B C : R) : R := - 3 * (B * B) / (8 * (A * A)) + C / A.
Definition o4_beta (A B C D : R) : R := (B * B * B) / (8 * (A * A * A)) - B * C / (2 * (A * A)) + D / A.
Definition o4_gamma (A B C D E : R) : R :=
  - 3 * (B * B * B * B) / (256 * (A * A * A * A)) + B * B * C / (16 * (A * A * A)) - B * D / (4 * (A * A)) + E / A.
Definition o4_P (alpha gamma : R) : cx := Cx (- (alpha * alpha) / 12 - gamma) 0.
Definition o4_Q (alpha beta gamma : R) : cx := Cx (- (alpha * alpha * alpha) / 108 + alpha * gamma / 3 - beta ^ 2 / 8) 0.
(** lines 110-120 *)
Definition o4_y (alpha beta gamma : R) : cx :=
  let P := o4_P alpha gamma in
  let Q := o4_Q alpha beta gamma in
  let r := (- Q / RtoC 2 + csqrt (Q * Q / RtoC 4 + P * P * P / RtoC 27))%cx in
  let U := ccbrt r in
  if Req_EM_T (re U) 0 then (RtoC (- (5) * alpha / 6) - ccbrt Q)%cx
  else (RtoC (- (5) * alpha / 6) - P / (RtoC 3 * U) + U)%cx.
Definition o4_w (alpha beta gamma : R) : cx := csqrt (RtoC alpha + RtoC 2 * o4_y alpha beta gamma)%cx.
(** lines 122-132 *)
Definition o4_complex (A B C D E : R) : option (list cx) :=
  if Req_EM_T A 0 then None else
  let alpha := o4_alpha A B C in
  let beta := o4_beta A B C D in
  let gamma := o4_gamma A B C D E in
  let y := o4_y alpha beta gamma in
  let w := o4_w alpha beta gamma in
  if ceqb w c0 then None else
  let s1 := csqrt (- (RtoC (3 * alpha) + RtoC 2 * y + RtoC (2 * beta) / w))%cx in
  let s2 := csqrt (- (RtoC (3 * alpha) + RtoC 2 * y - RtoC (2 * beta) / w))%cx in
  let m := RtoC (- B / (4 * A)) in
  let h := RtoC (1/2) in
  Some [ (m + h * (w + s1))%cx; (m + h * (w - s1))%cx; (m + h * (- w + s2))%cx; (m + h * (- w - s2))%cx ].
Definition o4_roots (A B C D E : R) : option (list R) := option_map (map re) (o4_complex A B C D E).
End O4.
