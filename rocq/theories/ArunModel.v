(** Model of src/math/arun.cpp, threept_arun (src/point_cloud/methods.cpp) and
    the rotation-only solvers (src/relative_pose/methods.cpp) over the reals.
    Eigen's JacobiSVD is the argument [svd]: it returns (U, singular values, V).
    The correspondences selected through the adapter and the index list are
    the list argument.  Definitions only. *)
From Coq Require Import Reals List.
From Verif Require Import Lin.
Import ListNotations.
Local Open Scope R_scope.

Definition svd_t := mat3 -> mat3 * vec3 * mat3.

(** arun, arun.cpp 33-58. *)
Definition arun (svd : svd_t) (Hcross : mat3) : mat3 :=
  let '(U, _, V) := svd Hcross in
  let A := mmul V (mT U) in
  if Rlt_dec (det A) 0
  then mmul (of_cols (col V 0) (col V 1) (vneg (col V 2))) (mT U)
  else A.

(** the two accumulation loops, arun.cpp 68-81. *)
Definition center (l : list vec3) : vec3 :=
  vdivs (fold_left vadd l v0) (INR (length l)).
(** Hcross += fprime * f.transpose(), arun.cpp 83-92; [l] holds pairs (p1,p2). *)
Definition cross_cov (l : list (vec3 * vec3)) (c1 c2 : vec3) : mat3 :=
  fold_left (fun H p => madd H (outer (vsub (snd p) c2) (vsub (fst p) c1))) l mzero.

(** arun_complete, arun.cpp 60-103, and threept_arun, point_cloud/methods.cpp
    47-86: returns (rotation, translation). *)
Definition arun_complete (svd : svd_t) (l : list (vec3 * vec3)) : mat3 * vec3 :=
  let c1 := center (map fst l) in
  let c2 := center (map snd l) in
  let rotation := arun svd (cross_cov l c1 c2) in
  (rotation, vsub c1 (mv rotation c2)).
Definition threept_arun := arun_complete.

(** twopt_rotationOnly, relative_pose/methods.cpp 97-121 (the sum is divided by 3). *)
Definition twopt_rotationOnly (svd : svd_t) (f0 f0' f1 f1' : vec3) : mat3 :=
  let c1 := vdivs (vadd f0 f1) 3 in
  let c2 := vdivs (vadd f0' f1') 3 in
  let H := madd mzero (outer (vsub f0' c2) (vsub f0 c1)) in
  let H := madd H (outer (vsub f1' c2) (vsub f1 c1)) in
  arun svd H.

(** rotationOnly, relative_pose/methods.cpp 128-159. *)
Definition rotationOnly (svd : svd_t) (l : list (vec3 * vec3)) : mat3 :=
  arun svd (cross_cov l (center (map fst l)) (center (map snd l))).
