(** Model of the nonlinear refinement functions (optimize_nonlinear of
    src/absolute_pose/methods.cpp 708-812, src/relative_pose/methods.cpp
    1078-1197, src/point_cloud/methods.cpp 107-193) and of the
    optimizeModelCoefficients overrides of src/sac_problems that call them,
    over the reals.  Definitions only.  [None] stands for NaN.

    Eigen's LevenbergMarquardt with NumericalDiff is not part of the
    repository.  It is represented by a [minimiser]: an arbitrary finite
    strategy which, from the parameters it is started with, repeatedly chooses
    a parameter vector, receives the residuals the functor returns for it, and
    finally leaves a parameter vector in x.  The functor of the relative
    problem changes the adapter each time it is evaluated, so the evaluations
    are part of the model. *)
From Coq Require Import Reals List.
From Verif Require Import SacModel Lin ArunModel AdapterModel RotModel GeoModel.
Import ListNotations.
Local Open Scope R_scope.

(** The six parameters: x.block<3,1>(0,0) and x.block<3,1>(3,0). *)
Record params := Par { xt : vec3; xc : vec3 }.
(** translation and cayley2rot(cayley), e.g. absolute_pose/methods.cpp 734-736. *)
Definition pose_of (x : params) : pose := Pose (cayley2rot (xc x)) (xt x).

(** A run of lm.minimize(x) from the outside. *)
Inductive strategy :=
| Stop (x : params)
| Ask (x : params) (k : list (option R) -> strategy).
Definition minimiser := params -> strategy.

(** The starting parameters, e.g. absolute_pose/methods.cpp 774-775. *)
Definition start_of (T : pose) : option params :=
  match rot2cayley (pR T) with
  | None => None
  | Some c => Some (Par (pt T) c)
  end.

(** * Absolute pose *)
(** OptimizeNonlinearFunctor1::operator(), absolute_pose/methods.cpp 727-764. *)
Definition abs_residual (A : abs_adapter) (x : params) (i : nat) : option R :=
  let translation := xt x in
  let rotation := cayley2rot (xc x) in
  let invR := mT rotation in
  let invt := vneg (mv invR translation) in
  let bodyReprojection := vadd (mv invR (ap A i)) invt in
  let reprojection := mv (mT (ar A i)) (vsub bodyReprojection (ao A i)) in
  match normalize reprojection with
  | None => None
  | Some r => Some (1 * (1 - dot r (af A i)))
  end.
Definition abs_residuals (A : abs_adapter) (idx : list nat) (x : params) : list (option R) :=
  map (abs_residual A x) idx.
(** The evaluations of a run, for a functor without side effects. *)
Fixpoint run (f : params -> list (option R)) (s : strategy) : params :=
  match s with
  | Stop x => x
  | Ask x k => run f (k (f x))
  end.
(** optimize_nonlinear, 767-792.  From NaN parameters every residual is NaN;
    the result is then NaN as well. *)
Definition abs_optimize (lm : minimiser) (A : abs_adapter) (idx : list nat) : option pose :=
  match start_of (aprior A) with
  | None => None
  | Some x => Some (pose_of (run (abs_residuals A idx) (lm x)))
  end.
(** sett, setR of the adapter. *)
Definition set_abs_prior (A : abs_adapter) (T : pose) : abs_adapter :=
  AbsAdapter (af A) (ap A) (ao A) (ar A) T.
(** AbsolutePoseSacProblem::optimizeModelCoefficients, AbsolutePoseSacProblem.cpp
    203-211; MultiNoncentralAbsolutePoseSacProblem.cpp 156-164 (indices already
    converted): result and adapter afterwards. *)
Definition abs_optimize_model (lm : minimiser) (A : abs_adapter) (inliers : list nat) (model : pose)
    : option pose * abs_adapter :=
  let A := set_abs_prior A model in
  (abs_optimize lm A inliers, A).

(** * Relative pose *)
(** One pass of the loop of OptimizeNonlinearFunctor1::operator(),
    relative_pose/methods.cpp 1110-1146: sets the adapter's pose, triangulates
    with it, and compares. *)
Definition rel_step (A : rel_adapter) (x : params) (i : nat) : option R * rel_adapter :=
  let translation := xt x in
  let rotation := cayley2rot (xc x) in
  let directTranslation :=
    mv (mT (rr1 A i)) (vadd (vsub translation (ro1 A i)) (mv rotation (ro2 A i))) in
  let directRotation := mmul (mmul (mT (rr1 A i)) rotation) (rr2 A i) in
  let A := set_prior A (Pose directRotation directTranslation) in
  let invR := mT directRotation in
  let invt := vneg (mv invR directTranslation) in
  let r :=
    match adapter_triangulate2 A i with
    | None => None
    | Some X =>
      match normalize X, normalize (vadd (mv invR X) invt) with
      | Some r1, Some r2 => Some (1 * ((1 - dot (rf1 A i) r1) + (1 - dot (rf2 A i) r2)))
      | _, _ => None
      end
    end in
  (r, A).
(** The whole loop: residuals and adapter afterwards. *)
Fixpoint rel_residuals (A : rel_adapter) (idx : list nat) (x : params) : list (option R) * rel_adapter :=
  match idx with
  | [] => ([], A)
  | i :: rest =>
      let (r, A) := rel_step A x i in
      let (l, A) := rel_residuals A rest x in
      (r :: l, A)
  end.
Fixpoint rel_run (idx : list nat) (s : strategy) (A : rel_adapter) : params * rel_adapter :=
  match s with
  | Stop x => (x, A)
  | Ask x k => let (r, A) := rel_residuals A idx x in rel_run idx (k r) A
  end.
(** optimize_nonlinear, 1152-1178: result and adapter afterwards.  With NaN
    parameters the pose left in the adapter is not modelled; the result is. *)
Definition rel_optimize (lm : minimiser) (A : rel_adapter) (idx : list nat)
    : option (pose * rel_adapter) :=
  match start_of (rprior A) with
  | None => None
  | Some x => let (y, A) := rel_run idx (lm x) A in Some (pose_of y, A)
  end.
(** optimizeModelCoefficients of CentralRelativePoseSacProblem.cpp 292-305,
    NoncentralRelativePoseSacProblem.cpp 268-281, TranslationOnlySacProblem.cpp
    87-100, MultiNoncentralRelativePoseSacProblem.cpp 332-347 (indices already
    converted). *)
Definition rel_optimize_model (lm : minimiser) (A : rel_adapter) (inliers : list nat) (model : pose)
    : option (pose * rel_adapter) :=
  rel_optimize lm (set_prior A model) inliers.

(** * Point clouds *)
(** A point-cloud adapter: getPoint1, getPoint2, the prior gett12/getR12. *)
Record pc_adapter := PcAdapter { pp1 : nat -> vec3; pp2 : nat -> vec3; pprior : pose }.
(** OptimizeNonlinearFunctor1::operator(), point_cloud/methods.cpp 125-148. *)
Definition pc_residual (A : pc_adapter) (x : params) (i : nat) : R :=
  let transformedPoint := vadd (mv (cayley2rot (xc x)) (pp2 A i)) (xt x) in
  norm (vsub (pp1 A i) transformedPoint).
Definition pc_residuals (A : pc_adapter) (idx : list nat) (x : params) : list (option R) :=
  map (fun i => Some (pc_residual A x i)) idx.
(** optimize_nonlinear, 150-175. *)
Definition pc_optimize (lm : minimiser) (A : pc_adapter) (idx : list nat) : option pose :=
  match start_of (pprior A) with
  | None => None
  | Some x => Some (pose_of (run (pc_residuals A idx) (lm x)))
  end.
(** The pairs threept_arun reads (point_cloud/methods.cpp 47-86). *)
Definition pc_pairs (A : pc_adapter) (idx : list nat) : list (vec3 * vec3) :=
  map (fun i => (pp1 A i, pp2 A i)) idx.
(** PointCloudSacProblem::optimizeModelCoefficients, PointCloudSacProblem.cpp
    64-72: the closed form, whatever the model. *)
Definition pc_optimize_model (svd : svd_t) (A : pc_adapter) (inliers : list nat) (model : pose) : pose :=
  let T := threept_arun svd (pc_pairs A inliers) in Pose (fst T) (snd T).
(** RotationOnlySacProblem::optimizeModelCoefficients, RotationOnlySacProblem.cpp
    71-79: the closed form, whatever the model. *)
Definition rot_optimize_model (svd : svd_t) (A : rel_adapter) (inliers : list nat) (model : mat3) : mat3 :=
  rotationOnly svd (map (fun i => (rf1 A i, rf2 A i)) inliers).
