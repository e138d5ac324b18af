(** Model of src/math/cayley.cpp and src/math/quaternion.cpp over the reals.
    Definitions only.  [None] = the C++ result contains NaN or infinities. *)
From Coq Require Import Reals.
From Verif Require Import Lin.
Local Open Scope R_scope.

(** quaternion_t (include/opengv/types.hpp): (q[0],q[1],q[2],q[3]), q[0] the scalar part. *)
Record quat := Q4 { q0 : R; q1 : R; q2 : R; q3 : R }.

(** cayley2rot_reduced, cayley.cpp 58-73. *)
Definition cayley2rot_reduced (c : vec3) : mat3 :=
  M3 (1 + vx c ^ 2 - vy c ^ 2 - vz c ^ 2) (2 * (vx c * vy c - vz c)) (2 * (vx c * vz c + vy c))
     (2 * (vx c * vy c + vz c)) (1 - vx c ^ 2 + vy c ^ 2 - vz c ^ 2) (2 * (vy c * vz c - vx c))
     (2 * (vx c * vz c - vy c)) (2 * (vy c * vz c + vx c)) (1 - vx c ^ 2 - vy c ^ 2 + vz c ^ 2).

(** cayley2rot, cayley.cpp 34-55. *)
Definition cayley2rot (c : vec3) : mat3 :=
  let scale := 1 + vx c ^ 2 + vy c ^ 2 + vz c ^ 2 in
  mscale (1 / scale)
    (M3 (1 + vx c ^ 2 - vy c ^ 2 - vz c ^ 2) (2 * (vx c * vy c - vz c)) (2 * (vx c * vz c + vy c))
        (2 * (vx c * vy c + vz c)) (1 - vx c ^ 2 + vy c ^ 2 - vz c ^ 2) (2 * (vy c * vz c - vx c))
        (2 * (vx c * vz c - vy c)) (2 * (vy c * vz c + vx c)) (1 - vx c ^ 2 - vy c ^ 2 + vz c ^ 2)).

(** Eigen's inverse(): cofactors over the determinant; dividing by a zero
    determinant gives infinities / NaN. *)
Definition inverse (A : mat3) : option mat3 :=
  if Req_EM_T (det A) 0 then None else Some (minv A).

(** rot2cayley, cayley.cpp 75-92. *)
Definition rot2cayley (A : mat3) : option vec3 :=
  let C1 := msub A mid in
  let C2 := madd A mid in
  match inverse C2 with
  | None => None
  | Some I2 => let C := mmul C1 I2 in Some (V3 (- m12 C) (m02 C) (- m01 C))
  end.

(** quaternion2rot, quaternion.cpp 34-50. *)
Definition quaternion2rot (q : quat) : mat3 :=
  M3 (q0 q ^ 2 + q1 q ^ 2 - q2 q ^ 2 - q3 q ^ 2) (2 * (q1 q * q2 q - q0 q * q3 q)) (2 * (q1 q * q3 q + q0 q * q2 q))
     (2 * (q1 q * q2 q + q0 q * q3 q)) (q0 q ^ 2 - q1 q ^ 2 + q2 q ^ 2 - q3 q ^ 2) (2 * (q2 q * q3 q - q0 q * q1 q))
     (2 * (q1 q * q3 q - q0 q * q2 q)) (2 * (q2 q * q3 q + q0 q * q1 q)) (q0 q ^ 2 - q1 q ^ 2 - q2 q ^ 2 + q3 q ^ 2).

(** x/fabs(x), NaN for 0. *)
Definition sign_of (x : R) : option R :=
  if Req_EM_T x 0 then None else Some (x / Rabs x).
(** if(q<0) q = 0. *)
Definition clamp0 (x : R) : R := if Rlt_dec x 0 then 0 else x.
(** a >= b and friends on three others. *)
Definition ge3 (a b c d : R) : bool :=
  if Rge_dec a b then if Rge_dec a c then if Rge_dec a d then true else false else false else false.
(** one signed component: q *= sign; NaN poisons the norm and so everything. *)
Definition signed (a : R) (x : R) (k : R -> option quat) : option quat :=
  match sign_of x with None => None | Some s => k (a * s) end.
(** the final normalisation, quaternion.cpp 105-110; [None] if the norm is 0. *)
Definition qnormalize (q : quat) : option quat :=
  let scale := sqrt (q0 q * q0 q + q1 q * q1 q + q2 q * q2 q + q3 q * q3 q) in
  if Req_EM_T scale 0 then None
  else Some (Q4 (q0 q / scale) (q1 q / scale) (q2 q / scale) (q3 q / scale)).

(** rot2quaternion, quaternion.cpp 52-113. *)
Definition rot2quaternion (A : mat3) : option quat :=
  let a := sqrt (clamp0 (( m00 A + m11 A + m22 A + 1) / 4)) in
  let b := sqrt (clamp0 (( m00 A - m11 A - m22 A + 1) / 4)) in
  let c := sqrt (clamp0 ((- m00 A + m11 A - m22 A + 1) / 4)) in
  let d := sqrt (clamp0 ((- m00 A - m11 A + m22 A + 1) / 4)) in
  if ge3 a b c d then
    signed b (m21 A - m12 A) (fun b => signed c (m02 A - m20 A) (fun c =>
    signed d (m10 A - m01 A) (fun d => qnormalize (Q4 a b c d))))
  else if ge3 b a c d then
    signed a (m21 A - m12 A) (fun a => signed c (m10 A + m01 A) (fun c =>
    signed d (m02 A + m20 A) (fun d => qnormalize (Q4 a b c d))))
  else if ge3 c a b d then
    signed a (m02 A - m20 A) (fun a => signed b (m10 A + m01 A) (fun b =>
    signed d (m21 A + m12 A) (fun d => qnormalize (Q4 a b c d))))
  else if ge3 d a b c then
    signed a (m10 A - m01 A) (fun a => signed b (m20 A + m02 A) (fun b =>
    signed c (m21 A + m12 A) (fun c => qnormalize (Q4 a b c d))))
  else qnormalize (Q4 a b c d).
