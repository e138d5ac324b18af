(** Model of the eigensolver wrapper of the Python bindings, python/pyopengv.cpp
    354-365 and 473-478 (definitions only). *)
From Coq Require Import Reals List Arith.
From Verif Require Import Lin GeoModel EigSums EigModel PyModel Py2Model.
Import ListNotations.
Local Open Scope R_scope.

(** relative_pose::eigensolver(b1, b2, R), 473-478, with the overload of
    relative_pose/methods.cpp 574-581: all rows, weights (all 1.0, pyopengv.cpp
    394-396) unused by default, start value R; more than
    four correspondences are asserted (methods.cpp 503).  Only the rotation is
    returned.  The bearing vector of the first view is read first (519-520). *)
Definition py_eigensolver (lm : fsums -> option vec3 -> vec3) (eig : mat3 -> list epair) (sort : list epair -> list epair)
    (b1 b2 Ra : parr R) : pyres (parr (option R)) :=
  py! A := rot_of Ra in
  py! n := shape0 b1 in
  py! _ := py_assert (Nat.ltb 4 n) in
  py! l := both_rows b1 b2 n 0 in
  PyOk (arr_of_orot (option_map eo_rotation (eigensolver lm eig sort false A (map (fun q => (1, q)) l)))).
