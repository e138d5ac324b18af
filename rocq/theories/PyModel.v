(** Model of the Python bindings, python/pyopengv.cpp and python/types.hpp
    (definitions only).  A numpy argument is a C-ordered array of doubles
    (types.hpp 14: c_style | forcecast), here over the reals; entries of
    returned arrays are [option R], [None] standing for NaN or infinity.
    pybind11 is not part of the repository; of it only array_t::data(i, j, ...)
    and shape(0) are modelled, with the checks their documentation states. *)
From Coq Require Import ZArith Reals List String Floats.
From Verif Require Import SacModel Lin Cplx ArunModel GeoModel TriModel P3pModel GaoModel.
Import ListNotations.

(** A call from Python returns, raises an exception, or has undefined behaviour. *)
Inductive pyres (X : Type) : Type := PyOk (x : X) | PyRaise | PyUB.
Arguments PyOk {X} x.
Arguments PyRaise {X}.
Arguments PyUB {X}.
Definition pybind {X Y} (a : pyres X) (f : X -> pyres Y) : pyres Y :=
  match a with PyOk x => f x | PyRaise => PyRaise | PyUB => PyUB end.
Notation "'py!' p ':=' e 'in' k" := (pybind e (fun p => k)) (at level 61, p pattern, right associativity).

(** A numpy array: its shape and its buffer. *)
Record parr (E : Type) := Arr { shp : list nat; dat : list E }.
Arguments Arr {E}.
Arguments shp {E}.
Arguments dat {E}.
Definition prodn (l : list nat) : nat := fold_right Nat.mul 1%nat l.

(** array::offset_at: [None] = IndexError (too many indices, or one out of
    range); fewer indices than dimensions are accepted.  In elements. *)
Fixpoint offset (shape idx : list nat) : option nat :=
  match idx, shape with
  | [], _ => Some O
  | _ :: _, [] => None
  | i :: is, n :: ns =>
      if Nat.ltb i n then option_map (fun o => (i * prodn ns + o)%nat) (offset ns is) else None
  end.
(** *array.data(idx...): the offset is checked against the shape, the read is
    not checked against the buffer. *)
Definition at_py {E} (a : parr E) (idx : list nat) : pyres E :=
  match offset (shp a) idx with
  | None => PyRaise
  | Some o => match nth_error (dat a) o with Some x => PyOk x | None => PyUB end
  end.
(** array.shape(0); an array without dimensions raises. *)
Definition shape0 {E} (a : parr E) : pyres nat :=
  match shp a with [] => PyRaise | n :: _ => PyOk n end.

(** bearingVectorFromArray and pointFromArray, 20-40. *)
Definition row_of (a : parr R) (i : nat) : pyres vec3 :=
  py! x := at_py a [i; 0%nat] in
  py! y := at_py a [i; 1%nat] in
  py! z := at_py a [i; 2%nat] in
  PyOk (V3 x y z).
(** the loops over _R and _t of the adapter constructors, 126-160 and
    348-382. *)
Definition rot_of (a : parr R) : pyres mat3 :=
  py! r0 := row_of a 0 in
  py! r1 := row_of a 1 in
  py! r2 := row_of a 2 in
  PyOk (of_rows r0 r1 r2).
Definition vec_of (a : parr R) : pyres vec3 :=
  py! x := at_py a [0%nat] in
  py! y := at_py a [1%nat] in
  py! z := at_py a [2%nat] in
  PyOk (V3 x y z).

(** * Returned arrays *)
Definition ovec (o : option vec3) : list (option R) :=
  [option_map vx o; option_map vy o; option_map vz o].
(** arrayFromTranslation, 53-56 *)
Definition arr_of_vec (o : option vec3) : parr (option R) := Arr [3%nat] (ovec o).
(** arrayFromRotation and arrayFromEssential, 58-62 and 73-77: a row-major copy *)
Definition mrows (M : mat3) : list (list R) :=
  [[m00 M; m01 M; m02 M]; [m10 M; m11 M; m12 M]; [m20 M; m21 M; m22 M]].
Definition arr_of_rot (M : mat3) : parr (option R) := Arr [3%nat; 3%nat] (map Some (List.concat (mrows M))).
(** arrayFromTransformation, 88-92: a row-major copy of the 3x4 matrix [R | t] *)
Definition arr_of_pose (o : option pose) : parr (option R) :=
  Arr [3%nat; 4%nat]
    match o with
    | None => repeat None 12
    | Some T => map Some
        [m00 (pR T); m01 (pR T); m02 (pR T); vx (pt T);
         m10 (pR T); m11 (pR T); m12 (pR T); vy (pt T);
         m20 (pR T); m21 (pR T); m22 (pR T); vz (pt T)]
    end.
(** arrayFromPoints, 42-51.  &data[0] on the empty vector is undefined. *)
Definition arr_of_points (l : list (option vec3)) : pyres (parr (option R)) :=
  match l with
  | [] => PyUB
  | _ :: _ => PyOk (Arr [List.length l; 3%nat] (flat_map ovec l))
  end.

(** * Minimal solvers *)
(** absolute_pose::p2p, 197-202 *)
Definition py_p2p (v p Ra : parr R) : pyres (parr (option R)) :=
  py! Rc := rot_of Ra in
  py! f0 := row_of v 0 in
  py! f1 := row_of v 1 in
  py! p0 := row_of p 0 in
  py! p1 := row_of p 1 in
  PyOk (arr_of_vec (Some (p2p Rc f0 f1 p0 p1))).
(** the three rows read by p3p_kneip and p3p_gao (absolute_pose/methods.cpp
    132-160, 178-206: indices 0, 1, 2) *)
Definition three_rows (a : parr R) : pyres (vec3 * vec3 * vec3) :=
  py! x0 := row_of a 0 in
  py! x1 := row_of a 1 in
  py! x2 := row_of a 2 in
  PyOk (x0, x1, x2).
(** absolute_pose::p3p_kneip, 204-209; a Python list of 3x4 arrays *)
Definition py_p3p_kneip (csqrt ccbrt : cx -> cx) (v p : parr R) : pyres (list (parr (option R))) :=
  py! (f1, f2, f3) := three_rows v in
  py! (P1, P2, P3) := three_rows p in
  PyOk (map arr_of_pose (p3p_kneip csqrt ccbrt f1 f2 f3 P1 P2 P3)).
(** absolute_pose::p3p_gao, 211-216 *)
Definition py_p3p_gao (svd : svd_t) (csqrt ccbrt : cx -> cx) (v p : parr R) : pyres (list (parr (option R))) :=
  py! (f1, f2, f3) := three_rows v in
  py! (P1, P2, P3) := three_rows p in
  PyOk (map arr_of_pose (p3p_gao svd csqrt ccbrt f1 f2 f3 P1 P2 P3)).
(** relative_pose::twopt, 424-429 *)
Definition py_twopt (b1 b2 Ra : parr R) : pyres (parr (option R)) :=
  py! R12 := rot_of Ra in
  py! f1 := row_of b1 0 in
  py! f1' := row_of b2 0 in
  py! f2 := row_of b1 1 in
  py! f2' := row_of b2 1 in
  PyOk (arr_of_vec (twopt R12 true f1 f1' f2 f2')).
(** relative_pose::twopt_rotationOnly, 431-436 *)
Definition py_twopt_rotationOnly (svd : svd_t) (b1 b2 : parr R) : pyres (parr (option R)) :=
  py! f0 := row_of b1 0 in
  py! f0' := row_of b2 0 in
  py! f1 := row_of b1 1 in
  py! f1' := row_of b2 1 in
  PyOk (arr_of_rot (twopt_rotationOnly svd f0 f0' f1 f1')).
(** a loop reading row i of both arrays for i = 0 .. n-1, [k] = next index *)
Fixpoint both_rows (b1 b2 : parr R) (n k : nat) : pyres (list (vec3 * vec3)) :=
  match n with
  | O => PyOk []
  | S n' =>
      py! f1 := row_of b1 k in
      py! f2 := row_of b2 k in
      py! rest := both_rows b1 b2 n' (S k) in
      PyOk ((f1, f2) :: rest)
  end.
(** relative_pose::rotationOnly, 438-443; the number of correspondences is
    _bearingVectors1.shape(0), 414-416 *)
Definition py_rotationOnly (svd : svd_t) (b1 b2 : parr R) : pyres (parr (option R)) :=
  py! n := shape0 b1 in
  py! l := both_rows b1 b2 n 0 in
  PyOk (arr_of_rot (rotationOnly svd l)).
(** triangulation::triangulate, 630-644, and triangulate2, 646-660 *)
Definition py_triangulate_with (f : mat3 -> vec3 -> vec3 -> vec3 -> option vec3)
    (b1 b2 ta Ra : parr R) : pyres (parr (option R)) :=
  py! t12 := vec_of ta in
  py! R12 := rot_of Ra in
  py! n := shape0 b1 in
  py! l := both_rows b1 b2 n 0 in
  arr_of_points (map (fun q => f R12 t12 (fst q) (snd q)) l).
Definition py_triangulate (svdV : (nat -> nat -> R) -> nat -> nat -> R) :=
  py_triangulate_with (triangulate svdV).
Definition py_triangulate2 :=
  py_triangulate_with (fun R12 t12 f1 f2 => triangulate2 t12 R12 f1 f2).

(** * Sample consensus *)
(** algo_name to algorithm, 269-274 and 306-311; the initial value stays for any
    other name *)
Inductive abs_alg := A_TWOPT | A_KNEIP | A_GAO | A_EPNP | A_GP3P.
Definition abs_alg_of_name (s : string) : abs_alg :=
  if String.eqb s "TWOPT" then A_TWOPT
  else if String.eqb s "KNEIP" then A_KNEIP
  else if String.eqb s "GAO" then A_GAO
  else if String.eqb s "EPNP" then A_EPNP
  else if String.eqb s "GP3P" then A_GP3P
  else A_KNEIP.
(** AbsolutePoseSacProblem::getSampleSize, AbsolutePoseSacProblem.cpp 214-223 *)
Definition abs_sample_size (a : abs_alg) : Z :=
  match a with A_TWOPT => 2 | A_EPNP => 6 | _ => 4 end.
(** 510-514 and 546-550 *)
Inductive rel_alg := L_STEWENIUS | L_NISTER | L_SEVENPT | L_EIGHTPT.
Definition rel_alg_of_name (s : string) : rel_alg :=
  if String.eqb s "STEWENIUS" then L_STEWENIUS
  else if String.eqb s "NISTER" then L_NISTER
  else if String.eqb s "SEVENPT" then L_SEVENPT
  else if String.eqb s "EIGHTPT" then L_EIGHTPT
  else L_NISTER.
(** CentralRelativePoseSacProblem::getSampleSize, 308-337 *)
Definition rel_sample_size (a : rel_alg) : Z :=
  match a with L_STEWENIUS | L_NISTER => 8 | L_SEVENPT | L_EIGHTPT => 9 end.

(** CentralAbsoluteAdapter(bearingVectors, points), 120-125 and 164-186, with the
    priors of AbsoluteAdapterBase (zero, identity).  A read that raises is
    replaced by the zero vector: runs stopped by an exception of an adapter
    read are not modelled. *)
Definition row_or_0 (a : parr R) (i : nat) : vec3 :=
  match row_of a i with PyOk x => x | _ => v0 end.
Definition abs_adapter_of (v p : parr R) : abs_adapter :=
  AbsAdapter (row_or_0 v) (row_or_0 p) (fun _ => v0) (fun _ => mid) (Pose mid v0).
(** CentralRelativeAdapter(bearingVectors1, bearingVectors2), 342-347, 386-416 *)
Definition rel_adapter_of (b1 b2 : parr R) : rel_adapter :=
  RelAdapter (row_or_0 b1) (row_or_0 b2) (fun _ => v0) (fun _ => v0) (fun _ => mid) (fun _ => mid) (Pose mid v0).

Definition py_of_outcome {X} (o : outcome X) : pyres X :=
  match o with Ret x => PyOk x | _ => PyUB end.
Section Consensus.
  Context {U M : Type}.
  Variable flog : float -> float.
  Variable fpow : float -> float -> float.
  Variable fsort : list float -> list float.
  Variable toarr : M -> parr (option R).       (* arrayFromTransformation / arrayFromRotation *)
  (** The body shared by the three ransac wrappers (276-290, 516-530, 580-594):
      a problem over the indices 0..n-1, a fresh Ransac object whose threshold_,
      max_iterations_ and probability_ are assigned, computeModel() with its
      result dropped, model_coefficients_ returned.  [m0], [mi] = the content of
      uninitialised matrices, [C] = the problem class, [u] its user state. *)
  Definition py_ransac_run (C : sac_class U M) (n : nat) (g : rng) (u : U) (m0 mi : M)
      (threshold : float) (max_iterations : Z) (probability : float) : pyres (parr (option R)) :=
    let s := setUniformIndices (Z.of_nat n) g u in
    py! (s', r', ok, tr) := py_of_outcome
      (ransac_computeModel flog fpow C m0 s (fresh max_iterations threshold probability mi)) in
    PyOk (toarr (o_coef r')).
  (** the lmeds wrappers (313-327, 552-566, 608-622) *)
  Definition py_lmeds_run (C : sac_class U M) (n : nat) (g : rng) (u : U) (m0 mi : M)
      (threshold : float) (max_iterations : Z) (probability : float) : pyres (parr (option R)) :=
    let s := setUniformIndices (Z.of_nat n) g u in
    py! (s', r', ok, tr) := py_of_outcome
      (lmeds_computeModel fsort C m0 s (fresh max_iterations threshold probability mi)) in
    PyOk (toarr (o_coef r')).
End Consensus.

(** The wrappers proper.  [problem alg adapter] is the sample-consensus problem
    object constructed from the adapter and the algorithm. *)
Section Wrappers.
  Context {U M : Type}.
  Variable flog : float -> float.
  Variable fpow : float -> float -> float.
  Variable fsort : list float -> list float.
  Variable toarr : M -> parr (option R).
  (** absolute_pose::ransac 256-291 and lmeds 293-328 *)
  Definition py_abs_ransac (problem : abs_alg -> abs_adapter -> sac_class U M) (v p : parr R) (algo_name : string)
      (g : rng) (u : U) (m0 mi : M) (threshold : float) (max_iterations : Z) (probability : float) :=
    py! n := shape0 v in
    py_ransac_run flog fpow toarr (problem (abs_alg_of_name algo_name) (abs_adapter_of v p)) n g u m0 mi
      threshold max_iterations probability.
  Definition py_abs_lmeds (problem : abs_alg -> abs_adapter -> sac_class U M) (v p : parr R) (algo_name : string)
      (g : rng) (u : U) (m0 mi : M) (threshold : float) (max_iterations : Z) (probability : float) :=
    py! n := shape0 v in
    py_lmeds_run fsort toarr (problem (abs_alg_of_name algo_name) (abs_adapter_of v p)) n g u m0 mi
      threshold max_iterations probability.
  (** relative_pose::ransac 497-531 and lmeds 533-567 *)
  Definition py_rel_ransac (problem : rel_alg -> rel_adapter -> sac_class U M) (b1 b2 : parr R) (algo_name : string)
      (g : rng) (u : U) (m0 mi : M) (threshold : float) (max_iterations : Z) (probability : float) :=
    py! n := shape0 b1 in
    py_ransac_run flog fpow toarr (problem (rel_alg_of_name algo_name) (rel_adapter_of b1 b2)) n g u m0 mi
      threshold max_iterations probability.
  Definition py_rel_lmeds (problem : rel_alg -> rel_adapter -> sac_class U M) (b1 b2 : parr R) (algo_name : string)
      (g : rng) (u : U) (m0 mi : M) (threshold : float) (max_iterations : Z) (probability : float) :=
    py! n := shape0 b1 in
    py_lmeds_run fsort toarr (problem (rel_alg_of_name algo_name) (rel_adapter_of b1 b2)) n g u m0 mi
      threshold max_iterations probability.
  (** ransac_rotationOnly 569-595 and lmeds_rotationOnly 597-623 *)
  Definition py_ransac_rotationOnly (problem : rel_adapter -> sac_class U M) (b1 b2 : parr R)
      (g : rng) (u : U) (m0 mi : M) (threshold : float) (max_iterations : Z) (probability : float) :=
    py! n := shape0 b1 in
    py_ransac_run flog fpow toarr (problem (rel_adapter_of b1 b2)) n g u m0 mi threshold max_iterations probability.
  Definition py_lmeds_rotationOnly (problem : rel_adapter -> sac_class U M) (b1 b2 : parr R)
      (g : rng) (u : U) (m0 mi : M) (threshold : float) (max_iterations : Z) (probability : float) :=
    py! n := shape0 b1 in
    py_lmeds_run fsort toarr (problem (rel_adapter_of b1 b2)) n g u m0 mi threshold max_iterations probability.
End Wrappers.
(** default arguments, 679-686 etc. *)
Definition py_default_iterations : Z := 1000.
Definition py_default_probability : float := 0x1.fae147ae147aep-1%float.

(** AbsolutePoseSacProblem with TWOPT on an adapter: computeModelCoefficients
    stores the pose of [absolute_model_twopt] (GeoModel); scores and
    isSampleGood are parameters. *)
Definition twopt_problem {U} (good : U -> list Z -> bool) (dist : U -> pose -> list Z -> U * list float)
    (A : abs_adapter) : sac_class U pose :=
  mkClass U pose (fun _ => abs_sample_size A_TWOPT) good
    (fun u sel m => match absolute_model_twopt A (map Z.to_nat sel) with
                    | Ret (Some T) => (u, true, T)
                    | _ => (u, false, m)
                    end)
    dist.
