(** The error measures of the EPnP class: src/absolute_pose/modules/Epnp.cpp
    830-918.  Doubles are exact reals; the float literals 0.0f, 0.5f, 1.0f are
    exact.  A quotient by zero (NaN or infinity in the code) is [None]. *)
From Coq Require Import Reals Bool.
From Verif Require Import Lin.
Local Open Scope R_scope.

(** double q[4] *)
Record eq4 := E4 { e0 : R; e1 : R; e2 : R; e3 : R }.
(** a < b of the code, as a boolean *)
Definition ltb (a b : R) : bool := if Rlt_dec a b then true else false.

(** mat_to_quat: Epnp.cpp 874-918; the array R[3][3] is a [mat3]; the pair is
    the unscaled q and n4 at the end of the if-cascade (879-909) *)
Definition mat_to_quat_raw (A : mat3) : eq4 * R :=
  let tr := m00 A + m11 A + m22 A in
  if ltb 0 tr then
    (E4 (m12 A - m21 A) (m20 A - m02 A) (m01 A - m10 A) (tr + 1), tr + 1)
  else if ltb (m11 A) (m00 A) && ltb (m22 A) (m00 A) then
    let n := 1 + m00 A - m11 A - m22 A in
    (E4 n (m10 A + m01 A) (m20 A + m02 A) (m12 A - m21 A), n)
  else if ltb (m22 A) (m11 A) then
    let n := 1 + m11 A - m00 A - m22 A in
    (E4 (m10 A + m01 A) n (m21 A + m12 A) (m20 A - m02 A), n)
  else
    let n := 1 + m22 A - m00 A - m11 A in
    (E4 (m20 A + m02 A) (m21 A + m12 A) n (m01 A - m10 A), n).
(** Epnp.cpp 911-917; [None] where sqrt(n4) is not a positive number *)
Definition mat_to_quat (A : mat3) : option eq4 :=
  let (q, n4) := mat_to_quat_raw A in
  if ltb 0 n4 then
    let scale := (1 / 2) / sqrt n4 in
    Some (E4 (e0 q * scale) (e1 q * scale) (e2 q * scale) (e3 q * scale))
  else None.

(** a / b on doubles *)
Definition quot (a b : R) : option R := if Req_EM_T b 0 then None else Some (a / b).

(** relative_error, rotation part: Epnp.cpp 839-861 *)
Definition rot_err (At Ae : mat3) : option R :=
  match mat_to_quat At, mat_to_quat Ae with
  | Some q, Some p =>
    let nq := sqrt (e0 q * e0 q + e1 q * e1 q + e2 q * e2 q + e3 q * e3 q) in
    match
      quot (sqrt ((e0 q - e0 p) * (e0 q - e0 p) + (e1 q - e1 p) * (e1 q - e1 p) +
                  (e2 q - e2 p) * (e2 q - e2 p) + (e3 q - e3 p) * (e3 q - e3 p))) nq,
      quot (sqrt ((e0 q + e0 p) * (e0 q + e0 p) + (e1 q + e1 p) * (e1 q + e1 p) +
                  (e2 q + e2 p) * (e2 q + e2 p) + (e3 q + e3 p) * (e3 q + e3 p))) nq
    with
    | Some r1, Some r2 => Some (if ltb r2 r1 then r2 else r1)
    | _, _ => None
    end
  | _, _ => None
  end.
(** relative_error, translation part: Epnp.cpp 863-869 *)
Definition transl_err (tt te : vec3) : option R :=
  quot (sqrt ((vx tt - vx te) * (vx tt - vx te) + (vy tt - vy te) * (vy tt - vy te) +
              (vz tt - vz te) * (vz tt - vz te)))
       (sqrt (vx tt * vx tt + vy tt * vy tt + vz tt * vz tt)).
