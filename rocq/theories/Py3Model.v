(** Model of the nonlinear refinements of the Python bindings, python/pyopengv.cpp
    144-159, 246-254, 367-382 and 487-495, and of the wrapper of fivept_kneip,
    452-457 (definitions only), on top of the array
    model of PyModel.v and the refinements of NlModel.v. *)
From Coq Require Import Reals List Arith.
From Verif Require Import Lin Cplx GeoModel NlModel KneipModel PyModel.
Import ListNotations.
Local Open Scope R_scope.

(** The adapters built by the four-argument constructors (144-159, 367-382) over
    the rows read: no camera offsets, camera rotations the identity (172-184,
    395-411), [T] the pose given.  Only indices of rows are ever passed; the
    values past the last row are filler. *)
Definition abs_rows (l : list (vec3 * vec3)) (T : pose) : abs_adapter :=
  let row i := nth i l (v0, V3 1 0 0) in
  AbsAdapter (fun i => snd (row i)) (fun i => fst (row i)) (fun _ => v0) (fun _ => mid) T.
Definition rel_rows (l : list (vec3 * vec3)) (T : pose) : rel_adapter :=
  let row i := nth i l (V3 1 0 0, V3 1 0 0) in
  RelAdapter (fun i => fst (row i)) (fun i => snd (row i)) (fun _ => v0) (fun _ => v0) (fun _ => mid) (fun _ => mid) T.
(** The rows read while the residuals are computed.  Eigen's minimize returns
    at once (ImproperInputParameters, x untouched, no residual computed) when
    there are fewer residuals, one per correspondence, than the six parameters;
    then no row is read.  The rows of one correspondence are read together;
    reading them again later gives the same values. *)
Definition refine_rows (a b : parr R) (n : nat) : pyres (list (vec3 * vec3)) :=
  if Nat.ltb n 6 then PyOk [] else both_rows a b n 0.
Definition refine_with (lm : minimiser) (n : nat) : minimiser :=
  if Nat.ltb n 6 then Stop else lm.

(** absolute_pose::optimize_nonlinear(v, p, t, R), 246-254.  The constructor reads
    t, then R; the number of correspondences is v.shape(0). *)
Definition py_abs_optimize (lm : minimiser) (v p ta Ra : parr R) : pyres (parr (option R)) :=
  py! t := vec_of ta in
  py! A := rot_of Ra in
  py! n := shape0 v in
  py! l := refine_rows p v n in
  PyOk (arr_of_pose (abs_optimize (refine_with lm n) (abs_rows l (Pose A t)) (seq 0 n))).
(** relative_pose::optimize_nonlinear(b1, b2, t12, R12), 487-495 *)
Definition py_rel_optimize (lm : minimiser) (b1 b2 ta Ra : parr R) : pyres (parr (option R)) :=
  py! t := vec_of ta in
  py! A := rot_of Ra in
  py! n := shape0 b1 in
  py! l := refine_rows b1 b2 n in
  PyOk (arr_of_pose (option_map fst (rel_optimize (refine_with lm n) (rel_rows l (Pose A t)) (seq 0 n)))).
(** relative_pose::fivept_kneip(b1, b2), 452-457: the first five rows, whatever
    the number of rows (getNindices, 103-109); listFromRotations, 64-71.  The
    adapter has no pose prior (identity).  [None]: the solver divides by zero. *)
Definition py_fivept_kneip (eig : (nat -> nat -> R) -> (nat -> cx) * (nat -> nat -> cx)) (b1 b2 : parr R)
    : pyres (option (list (parr (option R)))) :=
  py! l := both_rows b1 b2 5 0 in
  PyOk (option_map (map arr_of_rot) (fivept_kneip eig (rel_rows l (Pose mid v0)) (seq 0 5))).
