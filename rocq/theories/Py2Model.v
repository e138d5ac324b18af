(** Model of further wrappers of the Python bindings, python/pyopengv.cpp 225-237
    and 445-485 (definitions only), on top of the array model of PyModel.v and
    the solver models. *)
From Coq Require Import Reals List Arith.
From Verif Require Import Lin Cplx ArunModel GeoModel PyModel EpnpModel GpnpModel EpiModel FiveptModel SixptModel.
Import ListNotations.

(** assert(b) in a solver: the process is aborted, or the solver goes on outside
    its contract if assertions are compiled out.  Both are [PyUB]. *)
Definition py_assert (b : bool) : pyres Datatypes.unit := if b then PyOk tt else PyUB.
(** arrayFromRotation and arrayFromEssential (58-62, 73-77) of a matrix that may
    be NaN *)
Definition arr_of_orot (o : option mat3) : parr (option R) :=
  match o with Some M => arr_of_rot M | None => Arr [3%nat; 3%nat] (repeat None 9) end.

(** The loops of fivept_nister, sevenpt and eightpt over the correspondences
    (relative_pose/methods.cpp 246-261, 324-338, 432-446): the vector of the
    second view is read first.  The number of correspondences is
    _bearingVectors1.shape(0) (pyopengv.cpp 414-416) and [k] the least number
    asserted (243, 321, 429). *)
Definition py_pairs (k : nat) (b1 b2 : parr R) : pyres (list (vec3 * vec3)) :=
  py! n := shape0 b1 in
  py! _ := py_assert (Nat.leb k n) in
  py! l := both_rows b2 b1 n 0 in
  PyOk (map (fun q => (snd q, fst q)) l).

(** relative_pose::fivept_nister, 445-450, with listFromEssentials, 79-86 *)
Definition py_fivept_nister svdV inv10 roots lm (b1 b2 : parr R) : pyres (list (parr (option R))) :=
  py! l := py_pairs 5 b1 b2 in
  PyOk (map arr_of_orot (fivept_nister svdV inv10 roots lm l)).
(** relative_pose::sevenpt, 459-464.  [None]: a list of NaN matrices. *)
Definition py_sevenpt svdV eig (b1 b2 : parr R) : pyres (option (list (parr (option R)))) :=
  py! l := py_pairs 7 b1 b2 in
  PyOk (option_map (map arr_of_rot) (sevenpt svdV eig l)).
(** relative_pose::eightpt, 466-471 *)
Definition py_eightpt svdV svd3 (b1 b2 : parr R) : pyres (parr (option R)) :=
  py! l := py_pairs 8 b1 b2 in
  PyOk (arr_of_rot (eightpt svdV svd3 l)).

(** relative_pose::sixpt, 480-485, with listFromRotations, 64-71.  All rows are
    used; the solver asserts that there are six (methods.cpp 606). *)
Definition py_sixpt inv solve eig (b1 b2 : parr R) : pyres (list (parr (option R))) :=
  py! n := shape0 b1 in
  py! _ := py_assert (Nat.eqb n 6) in
  py! _ := both_rows b1 b2 n 0 in
  PyOk (map arr_of_orot (sixpt inv solve eig (rel_adapter_of b1 b2) (seq 0 n))).

(** absolute_pose::epnp, 225-230; the number of correspondences is
    _bearingVectors.shape(0), the point is read first (absolute_pose/methods.cpp
    244-256) *)
Definition py_epnp svd3 svd12 solve a1 a2 junk (v p : parr R) : pyres (parr (option R)) :=
  py! n := shape0 v in
  py! _ := py_assert (Nat.ltb 5 n) in
  py! l := both_rows p v n 0 in
  PyOk (arr_of_pose (option_map (fun r => Pose (fst r) (snd r))
    (epnp svd3 svd12 solve a1 a2 junk (map (fun q => EC (fst q) (snd q)) l)))).
(** absolute_pose::gpnp, 232-237, on the central adapter: no camera offsets,
    camera rotations the identity (172-184).  The points are read before the
    bearing vectors (methods.cpp 314-362); here row by row. *)
Definition py_gpnp svd3 svdP svdA lm (v p : parr R) : pyres (parr (option R)) :=
  py! n := shape0 v in
  py! _ := py_assert (Nat.ltb 5 n) in
  py! l := both_rows p v n 0 in
  let T := gpnp svd3 svdP svdA lm (map (fun q => GCorr (fst q) v0 (mv mid (snd q))) l) in
  PyOk (arr_of_pose (Some (Pose (fst T) (snd T)))).
