(** Model of the gp3p wrapper of the Python bindings, python/pyopengv.cpp 218-223
    (definitions only). *)
From Coq Require Import Reals List Arith.
From Verif Require Import Lin Cplx GeoModel Gp3pModel PyModel.
Import ListNotations.
Local Open Scope R_scope.

(** absolute_pose::gp3p(v, p), 218-223: the correspondences 0, 1 and 2.  Central
    adapter: no camera offsets, camera rotations the identity (174-184).  The
    solver reads row i of v and then row i of p (absolute_pose/methods.cpp
    202-212); here all rows of v first, which only matters for which of two
    IndexErrors is raised.  [None]: the elimination divides by zero. *)
Definition py_gp3p (eig : (nat -> nat -> R) -> (nat -> cx) * (nat -> nat -> cx)) (v p : parr R)
    : pyres (option (list (parr (option R)))) :=
  py! (f1, f2, f3) := three_rows v in
  py! (P1, P2, P3) := three_rows p in
  let corrs i := GC (nth i [f1; f2; f3] v0) mid v0 (nth i [P1; P2; P3] v0) in
  PyOk (option_map (map arr_of_pose) (gp3p3 eig corrs 0 1 2)).
