(** Model of EigensolverSacProblem, src/sac_problems/relative_pose/
    EigensolverSacProblem.cpp: computeModelCoefficients (36-56) and
    optimizeModelCoefficients (124-163).  Definitions only, exact reals.
    getSelectedDistancesToModel (58-121) is eigensolver_distances of GeoModel.v. *)
From Coq Require Import Reals List ZArith.
From Verif Require Import Lin RotModel GeoModel EigSums EigGen EigModel.
Import ListNotations.
Local Open Scope R_scope.

(** the three calls of rand() of one start value, in order; [mx] is RAND_MAX *)
Definition draws3 : Type := (Z * Z * Z)%type.
(** cayley[i] + (((double) rand()) / ((double) RAND_MAX) - 0.5) * 2.0 * maxVariation, 47-48 and 142-143 *)
Definition perturb1 (maxVariation : R) (mx r : Z) (c : R) : R :=
  c + (IZR r / IZR mx - 1/2) * 2 * maxVariation.
(** the loop over the three coordinates, 47-48 and 142-143 *)
Definition perturb (maxVariation : R) (mx : Z) (d : draws3) (c : vec3) : vec3 :=
  let '(r0, r1, r2) := d in
  V3 (perturb1 maxVariation mx r0 (vx c)) (perturb1 maxVariation mx r1 (vy c)) (perturb1 maxVariation mx r2 (vz c)).
(** the randomised start rotation, 45-49 and 140-144.  [None]: rot2cayley gave
    NaN or infinite parameters, and so does cayley2rot. *)
Definition start_rotation (maxVariation : R) (mx : Z) (d : draws3) (A : mat3) : option mat3 :=
  match rot2cayley A with
  | None => None
  | Some c => Some (cayley2rot (perturb maxVariation mx d c))
  end.
(** the correspondences eigensolver(_adapter, indices, ...) reads, methods.cpp
    510-535; [w] is getWeight *)
Definition sac_data (A : rel_adapter) (w : nat -> R) (idx : list nat) : list (R * (vec3 * vec3)) :=
  map (fun i => (w i, (rf1 A i, rf2 A i))) idx.
(** the call eigensolver(_adapter, indices, output, useWeights) with
    output.rotation the start value, 51 and 145.  A start rotation of NaNs
    reaches the optimisation as no finite start value. *)
Definition eigensolver_from (lm : fsums -> option vec3 -> vec3) (eig : mat3 -> list epair) (sort : list epair -> list epair)
    (useWeights : bool) (start : option mat3) (l : list (R * (vec3 * vec3))) : option eigOut :=
  match start with
  | Some s => eigensolver lm eig sort useWeights s l
  | None => eigensolver (fun S _ => lm S None) eig sort useWeights mid l
  end.

(** computeModelCoefficients, 36-56; it always returns true, so the result is
    only outModel *)
Definition eig_sac_model (lm : fsums -> option vec3 -> vec3) (eig : mat3 -> list epair) (sort : list epair -> list epair)
    (mx : Z) (d : draws3) (A : rel_adapter) (w : nat -> R) (idx : list nat) : option eigOut :=
  eigensolver_from lm eig sort false (start_rotation (1/10) mx d (pR (rprior A))) (sac_data A w idx).

(** the loop of optimizeModelCoefficients, 134-162: one list element per
    iteration (the draws of that iteration); [best] is optimized_model together
    with firstIteration = false, a NaN comparison is false *)
Fixpoint opt_loop (run : draws3 -> option eigOut) (ds : list draws3) (best : option (option eigOut)) : option (option eigOut) :=
  match ds with
  | [] => best
  | d :: r =>
      let temp := run d in
      let best := match best with
                  | None => Some temp
                  | Some (Some b) =>
                      match temp with
                      | Some t => if Rlt_dec (nth 0 (eo_eigenvalues t) 0) (nth 0 (eo_eigenvalues b) 0) then Some (Some t) else Some (Some b)
                      | None => Some (Some b)
                      end
                  | Some None => Some None
                  end in
      opt_loop run r best
  end.
(** maxIterations, 130 *)
Definition maxIterations : nat := 1.
(** optimizeModelCoefficients, 124-163; [ds i] are the draws of iteration i,
    [model] the rotation of the model to refine.  Outer [None]: optimized_model
    was not assigned. *)
Definition eig_sac_optimize (lm : fsums -> option vec3 -> vec3) (eig : mat3 -> list epair) (sort : list epair -> list epair)
    (mx : Z) (ds : nat -> draws3) (A : rel_adapter) (w : nat -> R) (inliers : list nat) (model : mat3) : option (option eigOut) :=
  opt_loop (fun d => eigensolver_from lm eig sort true (start_rotation 0 mx d model) (sac_data A w inliers))
    (map ds (seq 0 maxIterations)) None.
