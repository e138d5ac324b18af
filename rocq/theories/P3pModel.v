(** Model of p3p_kneip (/repo/src/absolute_pose/methods.cpp 132-159) and
    p3p_kneip_main (/repo/src/absolute_pose/modules/main.cpp 50-220) over the
    exact reals.  Definitions only.  A transformation is a [pose]: the
    rotation and the position of the camera; [None] is a
    transformation with NaN entries.  Simplified: where a division x / 0 gives
    an infinite cotangent the model also says [None]. *)
From Coq Require Import Reals List.
From Verif Require Import Lin Cplx GeoModel RootsModel.
Import ListNotations.
Local Open Scope R_scope.

(** e1, e2, e3 and T, 72-80 and 90-97 *)
Definition kneip_T (f1 f2 : vec3) : option mat3 :=
  match normalize (cross f1 f2) with
  | None => None
  | Some e3 => Some (of_rows f1 (cross e3 f1) e3)
  end.
(** n1, n2, n3 and N, 106-115 *)
Definition kneip_N (P1 P2 P3 : vec3) : option mat3 :=
  match normalize (vsub P2 P1) with
  | None => None
  | Some n1 =>
      match normalize (cross n1 (vsub P3 P1)) with
      | None => None
      | Some n3 => Some (of_rows n1 (cross n3 n1) n3)
      end
  end.
(** b, 126-132 *)
Definition kneip_b (cos_beta : R) : R :=
  let b := 1 / (1 - cos_beta ^ 2) - 1 in
  if Rlt_dec cos_beta 0 then - sqrt b else sqrt b.

Section Quartic.
Variables (f_1 f_2 p_1 p_2 d_12 b : R).
(** factors, 146-184 *)
Definition kneip_A : R := - f_2 ^ 2 * p_2 ^ 4 - p_2 ^ 4 * f_1 ^ 2 - p_2 ^ 4.
Definition kneip_B : R := 2 * p_2 ^ 3 * d_12 * b + 2 * f_2 ^ 2 * p_2 ^ 3 * d_12 * b - 2 * f_2 * p_2 ^ 3 * f_1 * d_12.
Definition kneip_C : R :=
  - f_2 ^ 2 * p_2 ^ 2 * p_1 ^ 2 - f_2 ^ 2 * p_2 ^ 2 * d_12 ^ 2 * b ^ 2 - f_2 ^ 2 * p_2 ^ 2 * d_12 ^ 2
  + f_2 ^ 2 * p_2 ^ 4 + p_2 ^ 4 * f_1 ^ 2 + 2 * p_1 * p_2 ^ 2 * d_12 + 2 * f_1 * f_2 * p_1 * p_2 ^ 2 * d_12 * b
  - p_2 ^ 2 * p_1 ^ 2 * f_1 ^ 2 + 2 * p_1 * p_2 ^ 2 * f_2 ^ 2 * d_12 - p_2 ^ 2 * d_12 ^ 2 * b ^ 2 - 2 * p_1 ^ 2 * p_2 ^ 2.
Definition kneip_D : R :=
  2 * p_1 ^ 2 * p_2 * d_12 * b + 2 * f_2 * p_2 ^ 3 * f_1 * d_12 - 2 * f_2 ^ 2 * p_2 ^ 3 * d_12 * b
  - 2 * p_1 * p_2 * d_12 ^ 2 * b.
Definition kneip_E : R :=
  - 2 * f_2 * p_2 ^ 2 * f_1 * p_1 * d_12 * b + f_2 ^ 2 * p_2 ^ 2 * d_12 ^ 2 + 2 * p_1 ^ 3 * d_12 - p_1 ^ 2 * d_12 ^ 2
  + f_2 ^ 2 * p_2 ^ 2 * p_1 ^ 2 - p_1 ^ 4 - 2 * f_2 ^ 2 * p_2 ^ 2 * p_1 * d_12 + p_2 ^ 2 * f_1 ^ 2 * p_1 ^ 2
  + f_2 ^ 2 * p_2 ^ 2 * d_12 ^ 2 * b ^ 2.
(** cot_alpha, 190-192 *)
Definition kneip_cot (root : R) : option R :=
  if Req_EM_T f_2 0 then None else
  let den := - f_1 * root * p_2 / f_2 + p_1 - d_12 in
  if Req_EM_T den 0 then None else
  Some ((- f_1 * p_1 / f_2 - root * p_2 + d_12 * b) / den).
End Quartic.

(** the rotation from the world frame to the camera frame, 208-217 *)
Definition kneip_R (sa ca st ct : R) : mat3 :=
  M3 (- ca) (- sa * ct) (- sa * st) sa (- ca * ct) (- ca * st) 0 (- st) ct.
(** one pass of the loop, 188-219 *)
Definition kneip_solution (T N : mat3) (P1 : vec3) (f_1 f_2 p_1 p_2 d_12 b root : R) : option pose :=
  match kneip_cot f_1 f_2 p_1 p_2 d_12 b root with
  | None => None
  | Some cot_alpha =>
      if Rlt_dec (1 - root ^ 2) 0 then None else
      let cos_theta := root in
      let sin_theta := sqrt (1 - root ^ 2) in
      let sin_alpha := sqrt (1 / (cot_alpha ^ 2 + 1)) in
      let cos_alpha := sqrt (1 - sin_alpha ^ 2) in
      let cos_alpha := if Rlt_dec cot_alpha 0 then - cos_alpha else cos_alpha in
      let C := V3 (d_12 * cos_alpha * (sin_alpha * b + cos_alpha))
                  (cos_theta * d_12 * sin_alpha * (sin_alpha * b + cos_alpha))
                  (sin_theta * d_12 * sin_alpha * (sin_alpha * b + cos_alpha)) in
      Some (Pose (mmul (mmul (mT N) (mT (kneip_R sin_alpha cos_alpha sin_theta cos_theta))) T)
                 (vadd P1 (mv (mT N) C)))
  end.

Section P3P.
Variables (csqrt ccbrt : cx -> cx).
(** 106-219, after the choice of the order; [f3] is already T * f3 *)
Definition kneip_core (T : mat3) (f1 f2 f3 P1 P2 P3 : vec3) (d_12 : R) : list (option pose) :=
  match kneip_N P1 P2 P3 with
  | None => [None; None; None; None]
  | Some N =>
      if Req_EM_T (vz f3) 0 then [None; None; None; None] else
      let P3 := mv N (vsub P3 P1) in
      let f_1 := vx f3 / vz f3 in
      let f_2 := vy f3 / vz f3 in
      let p_1 := vx P3 in
      let p_2 := vy P3 in
      let b := kneip_b (dot f1 f2) in
      match o4_roots csqrt ccbrt (kneip_A f_1 f_2 p_2) (kneip_B f_1 f_2 p_2 d_12 b)
              (kneip_C f_1 f_2 p_1 p_2 d_12 b) (kneip_D f_1 f_2 p_1 p_2 d_12 b) (kneip_E f_1 f_2 p_1 p_2 d_12 b) with
      | None => [None; None; None; None]
      | Some roots => map (kneip_solution T N P1 f_1 f_2 p_1 p_2 d_12 b) roots
      end
  end.
(** p3p_kneip_main, 50-220 *)
Definition p3p_kneip (f1 f2 f3 P1 P2 P3 : vec3) : list (option pose) :=
  let temp1 := vsub P2 P1 in
  let temp2 := vsub P3 P1 in
  if Req_EM_T (norm (cross temp1 temp2)) 0 then [] else
  match kneip_T f1 f2 with
  | None => [None; None; None; None]
  | Some T =>
      if Rlt_dec 0 (vz (mv T f3)) then
        match kneip_T f2 f1 with
        | None => [None; None; None; None]
        | Some T' => kneip_core T' f2 f1 (mv T' f3) P2 P1 P3 (norm temp1)
        end
      else kneip_core T f1 f2 (mv T f3) P1 P2 P3 (norm temp1)
  end.
End P3P.
