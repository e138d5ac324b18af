(** Generated by tools/gen_sixpt.py from src/relative_pose/modules/sixpt/modules2.cpp:
    the polynomials, the elimination template and the action matrix of sixpt.
    Definitions only. *)
From Coq Require Import Reals List NArith.
From Verif Require Import Lin.
Import ListNotations.
Local Open Scope R_scope.

(** Pluecker coordinates l[0] ... l[5] of a line: direction and moment *)
Record line6 := L6 { ldir : vec3; lmom : vec3 }.
Definition e0 (l : line6) : R := vx (ldir l).
Definition e1 (l : line6) : R := vy (ldir l).
Definition e2 (l : line6) : R := vz (ldir l).
Definition e3 (l : line6) : R := vx (lmom l).
Definition e4 (l : line6) : R := vy (lmom l).
Definition e5 (l : line6) : R := vz (lmom l).
(** fillRow1, src/relative_pose/modules/sixpt/modules2.cpp 48-57 *)
Definition fill_c0 (l01 l02 l11 l12 : line6) : list R :=
  [ -e2 l12 * e1 l11 * e0 l01 + e2 l12 * e0 l11 * e1 l01 + e1 l12 * e2 l11 * e0 l01 - e1 l12 * e0 l11 * e2 l01 + e0 l12 * e2 l11 * e1 l01 - e0 l12 * e1 l11 * e2 l01;
    2 * e1 l12 * e2 l11 * e1 l01 - 2 * e1 l12 * e1 l11 * e2 l01 - 2 * e0 l12 * e2 l11 * e0 l01 + 2 * e0 l12 * e0 l11 * e2 l01;
    -e2 l12 * e1 l11 * e0 l01 + e2 l12 * e0 l11 * e1 l01 - e1 l12 * e2 l11 * e0 l01 + e1 l12 * e0 l11 * e2 l01 - e0 l12 * e2 l11 * e1 l01 + e0 l12 * e1 l11 * e2 l01;
    2 * e2 l12 * e2 l11 * e1 l01 - 2 * e2 l12 * e1 l11 * e2 l01 + 2 * e0 l12 * e1 l11 * e0 l01 - 2 * e0 l12 * e0 l11 * e1 l01;
    -2 * e2 l12 * e2 l11 * e0 l01 + 2 * e2 l12 * e0 l11 * e2 l01 + 2 * e1 l12 * e1 l11 * e0 l01 - 2 * e1 l12 * e0 l11 * e1 l01;
    e2 l12 * e1 l11 * e0 l01 - e2 l12 * e0 l11 * e1 l01 + e1 l12 * e2 l11 * e0 l01 - e1 l12 * e0 l11 * e2 l01 - e0 l12 * e2 l11 * e1 l01 + e0 l12 * e1 l11 * e2 l01;
    -2 * e2 l12 * e2 l11 * e0 l01 + 2 * e2 l12 * e0 l11 * e2 l01 - 2 * e1 l12 * e1 l11 * e0 l01 + 2 * e1 l12 * e0 l11 * e1 l01;
    -2 * e2 l12 * e2 l11 * e1 l01 + 2 * e2 l12 * e1 l11 * e2 l01 + 2 * e0 l12 * e1 l11 * e0 l01 - 2 * e0 l12 * e0 l11 * e1 l01;
    2 * e1 l12 * e2 l11 * e1 l01 - 2 * e1 l12 * e1 l11 * e2 l01 + 2 * e0 l12 * e2 l11 * e0 l01 - 2 * e0 l12 * e0 l11 * e2 l01;
    e2 l12 * e1 l11 * e0 l01 - e2 l12 * e0 l11 * e1 l01 - e1 l12 * e2 l11 * e0 l01 + e1 l12 * e0 l11 * e2 l01 + e0 l12 * e2 l11 * e1 l01 - e0 l12 * e1 l11 * e2 l01 ].
(** fillRow1, src/relative_pose/modules/sixpt/modules2.cpp 58-67 *)
Definition fill_c1 (l01 l02 l11 l12 : line6) : list R :=
  [ e2 l12 * e1 l11 * e0 l02 + e2 l12 * e0 l11 * e1 l02 - e1 l12 * e2 l11 * e0 l02 - e1 l12 * e0 l11 * e2 l02 + e0 l12 * e2 l11 * e1 l02 - e0 l12 * e1 l11 * e2 l02;
    2 * e2 l12 * e1 l11 * e1 l02 - 2 * e2 l12 * e0 l11 * e0 l02 - 2 * e1 l12 * e1 l11 * e2 l02 + 2 * e0 l12 * e0 l11 * e2 l02;
    -e2 l12 * e1 l11 * e0 l02 - e2 l12 * e0 l11 * e1 l02 - e1 l12 * e2 l11 * e0 l02 + e1 l12 * e0 l11 * e2 l02 + e0 l12 * e2 l11 * e1 l02 + e0 l12 * e1 l11 * e2 l02;
    2 * e2 l12 * e2 l11 * e1 l02 - 2 * e1 l12 * e2 l11 * e2 l02 + 2 * e1 l12 * e0 l11 * e0 l02 - 2 * e0 l12 * e0 l11 * e1 l02;
    -2 * e2 l12 * e2 l11 * e0 l02 + 2 * e1 l12 * e1 l11 * e0 l02 + 2 * e0 l12 * e2 l11 * e2 l02 - 2 * e0 l12 * e1 l11 * e1 l02;
    e2 l12 * e1 l11 * e0 l02 - e2 l12 * e0 l11 * e1 l02 + e1 l12 * e2 l11 * e0 l02 + e1 l12 * e0 l11 * e2 l02 - e0 l12 * e2 l11 * e1 l02 - e0 l12 * e1 l11 * e2 l02;
    2 * e2 l12 * e2 l11 * e0 l02 + 2 * e1 l12 * e1 l11 * e0 l02 - 2 * e0 l12 * e2 l11 * e2 l02 - 2 * e0 l12 * e1 l11 * e1 l02;
    2 * e2 l12 * e2 l11 * e1 l02 - 2 * e1 l12 * e2 l11 * e2 l02 - 2 * e1 l12 * e0 l11 * e0 l02 + 2 * e0 l12 * e0 l11 * e1 l02;
    -2 * e2 l12 * e1 l11 * e1 l02 - 2 * e2 l12 * e0 l11 * e0 l02 + 2 * e1 l12 * e1 l11 * e2 l02 + 2 * e0 l12 * e0 l11 * e2 l02;
    -e2 l12 * e1 l11 * e0 l02 + e2 l12 * e0 l11 * e1 l02 + e1 l12 * e2 l11 * e0 l02 - e1 l12 * e0 l11 * e2 l02 - e0 l12 * e2 l11 * e1 l02 + e0 l12 * e1 l11 * e2 l02 ].
(** fillRow1, src/relative_pose/modules/sixpt/modules2.cpp 68-77 *)
Definition fill_c2 (l01 l02 l11 l12 : line6) : list R :=
  [ -e2 l12 * e1 l11 * e5 l02 * e1 l02 + e2 l12 * e1 l11 * e4 l02 * e2 l02 + e2 l12 * e1 l11 * e5 l01 * e1 l01 - e2 l12 * e1 l11 * e4 l01 * e2 l01 + e2 l12 * e0 l11 * e5 l02 * e0 l02 - e2 l12 * e0 l11 * e3 l02 * e2 l02 + e2 l12 * e0 l11 * e5 l01 * e0 l01 - e2 l12 * e0 l11 * e3 l01 * e2 l01 + e1 l12 * e2 l11 * e5 l02 * e1 l02 - e1 l12 * e2 l11 * e4 l02 * e2 l02 - e1 l12 * e2 l11 * e5 l01 * e1 l01 + e1 l12 * e2 l11 * e4 l01 * e2 l01 + e1 l12 * e0 l11 * e4 l02 * e0 l02 - e1 l12 * e0 l11 * e3 l02 * e1 l02 + e1 l12 * e0 l11 * e4 l01 * e0 l01 - e1 l12 * e0 l11 * e3 l01 * e1 l01 + e0 l12 * e2 l11 * e5 l02 * e0 l02 - e0 l12 * e2 l11 * e3 l02 * e2 l02 + e0 l12 * e2 l11 * e5 l01 * e0 l01 - e0 l12 * e2 l11 * e3 l01 * e2 l01 + e0 l12 * e1 l11 * e4 l02 * e0 l02 - e0 l12 * e1 l11 * e3 l02 * e1 l02 + e0 l12 * e1 l11 * e4 l01 * e0 l01 - e0 l12 * e1 l11 * e3 l01 * e1 l01 - e5 l12 * e2 l11 - e4 l12 * e1 l11 + e3 l12 * e0 l11 - e2 l12 * e5 l11 - e1 l12 * e4 l11 + e0 l12 * e3 l11;
    2 * e2 l12 * e1 l11 * e5 l02 * e0 l02 - 2 * e2 l12 * e1 l11 * e3 l02 * e2 l02 + 2 * e2 l12 * e0 l11 * e5 l02 * e1 l02 - 2 * e2 l12 * e0 l11 * e4 l02 * e2 l02 + 2 * e1 l12 * e2 l11 * e5 l01 * e0 l01 - 2 * e1 l12 * e2 l11 * e3 l01 * e2 l01 + 2 * e1 l12 * e1 l11 * e4 l02 * e0 l02 - 2 * e1 l12 * e1 l11 * e3 l02 * e1 l02 + 2 * e1 l12 * e1 l11 * e4 l01 * e0 l01 - 2 * e1 l12 * e1 l11 * e3 l01 * e1 l01 + 2 * e0 l12 * e2 l11 * e5 l01 * e1 l01 - 2 * e0 l12 * e2 l11 * e4 l01 * e2 l01 - 2 * e0 l12 * e0 l11 * e4 l02 * e0 l02 + 2 * e0 l12 * e0 l11 * e3 l02 * e1 l02 - 2 * e0 l12 * e0 l11 * e4 l01 * e0 l01 + 2 * e0 l12 * e0 l11 * e3 l01 * e1 l01 + 2 * e4 l12 * e0 l11 + 2 * e3 l12 * e1 l11 + 2 * e1 l12 * e3 l11 + 2 * e0 l12 * e4 l11;
    e2 l12 * e1 l11 * e5 l02 * e1 l02 - e2 l12 * e1 l11 * e4 l02 * e2 l02 + e2 l12 * e1 l11 * e5 l01 * e1 l01 - e2 l12 * e1 l11 * e4 l01 * e2 l01 - e2 l12 * e0 l11 * e5 l02 * e0 l02 + e2 l12 * e0 l11 * e3 l02 * e2 l02 + e2 l12 * e0 l11 * e5 l01 * e0 l01 - e2 l12 * e0 l11 * e3 l01 * e2 l01 + e1 l12 * e2 l11 * e5 l02 * e1 l02 - e1 l12 * e2 l11 * e4 l02 * e2 l02 + e1 l12 * e2 l11 * e5 l01 * e1 l01 - e1 l12 * e2 l11 * e4 l01 * e2 l01 - e1 l12 * e0 l11 * e4 l02 * e0 l02 + e1 l12 * e0 l11 * e3 l02 * e1 l02 - e1 l12 * e0 l11 * e4 l01 * e0 l01 + e1 l12 * e0 l11 * e3 l01 * e1 l01 + e0 l12 * e2 l11 * e5 l02 * e0 l02 - e0 l12 * e2 l11 * e3 l02 * e2 l02 - e0 l12 * e2 l11 * e5 l01 * e0 l01 + e0 l12 * e2 l11 * e3 l01 * e2 l01 - e0 l12 * e1 l11 * e4 l02 * e0 l02 + e0 l12 * e1 l11 * e3 l02 * e1 l02 - e0 l12 * e1 l11 * e4 l01 * e0 l01 + e0 l12 * e1 l11 * e3 l01 * e1 l01 - e5 l12 * e2 l11 + e4 l12 * e1 l11 - e3 l12 * e0 l11 - e2 l12 * e5 l11 + e1 l12 * e4 l11 - e0 l12 * e3 l11;
    2 * e2 l12 * e2 l11 * e5 l02 * e0 l02 - 2 * e2 l12 * e2 l11 * e3 l02 * e2 l02 + 2 * e2 l12 * e2 l11 * e5 l01 * e0 l01 - 2 * e2 l12 * e2 l11 * e3 l01 * e2 l01 + 2 * e2 l12 * e1 l11 * e4 l01 * e0 l01 - 2 * e2 l12 * e1 l11 * e3 l01 * e1 l01 + 2 * e1 l12 * e2 l11 * e4 l02 * e0 l02 - 2 * e1 l12 * e2 l11 * e3 l02 * e1 l02 - 2 * e1 l12 * e0 l11 * e5 l02 * e1 l02 + 2 * e1 l12 * e0 l11 * e4 l02 * e2 l02 - 2 * e0 l12 * e1 l11 * e5 l01 * e1 l01 + 2 * e0 l12 * e1 l11 * e4 l01 * e2 l01 - 2 * e0 l12 * e0 l11 * e5 l02 * e0 l02 + 2 * e0 l12 * e0 l11 * e3 l02 * e2 l02 - 2 * e0 l12 * e0 l11 * e5 l01 * e0 l01 + 2 * e0 l12 * e0 l11 * e3 l01 * e2 l01 + 2 * e5 l12 * e0 l11 + 2 * e3 l12 * e2 l11 + 2 * e2 l12 * e3 l11 + 2 * e0 l12 * e5 l11;
    2 * e2 l12 * e2 l11 * e5 l02 * e1 l02 - 2 * e2 l12 * e2 l11 * e4 l02 * e2 l02 + 2 * e2 l12 * e2 l11 * e5 l01 * e1 l01 - 2 * e2 l12 * e2 l11 * e4 l01 * e2 l01 - 2 * e2 l12 * e0 l11 * e4 l01 * e0 l01 + 2 * e2 l12 * e0 l11 * e3 l01 * e1 l01 - 2 * e1 l12 * e1 l11 * e5 l02 * e1 l02 + 2 * e1 l12 * e1 l11 * e4 l02 * e2 l02 - 2 * e1 l12 * e1 l11 * e5 l01 * e1 l01 + 2 * e1 l12 * e1 l11 * e4 l01 * e2 l01 - 2 * e1 l12 * e0 l11 * e5 l01 * e0 l01 + 2 * e1 l12 * e0 l11 * e3 l01 * e2 l01 - 2 * e0 l12 * e2 l11 * e4 l02 * e0 l02 + 2 * e0 l12 * e2 l11 * e3 l02 * e1 l02 - 2 * e0 l12 * e1 l11 * e5 l02 * e0 l02 + 2 * e0 l12 * e1 l11 * e3 l02 * e2 l02 + 2 * e5 l12 * e1 l11 + 2 * e4 l12 * e2 l11 + 2 * e2 l12 * e4 l11 + 2 * e1 l12 * e5 l11;
    -e2 l12 * e1 l11 * e5 l02 * e1 l02 + e2 l12 * e1 l11 * e4 l02 * e2 l02 - e2 l12 * e1 l11 * e5 l01 * e1 l01 + e2 l12 * e1 l11 * e4 l01 * e2 l01 - e2 l12 * e0 l11 * e5 l02 * e0 l02 + e2 l12 * e0 l11 * e3 l02 * e2 l02 - e2 l12 * e0 l11 * e5 l01 * e0 l01 + e2 l12 * e0 l11 * e3 l01 * e2 l01 - e1 l12 * e2 l11 * e5 l02 * e1 l02 + e1 l12 * e2 l11 * e4 l02 * e2 l02 - e1 l12 * e2 l11 * e5 l01 * e1 l01 + e1 l12 * e2 l11 * e4 l01 * e2 l01 - e1 l12 * e0 l11 * e4 l02 * e0 l02 + e1 l12 * e0 l11 * e3 l02 * e1 l02 + e1 l12 * e0 l11 * e4 l01 * e0 l01 - e1 l12 * e0 l11 * e3 l01 * e1 l01 - e0 l12 * e2 l11 * e5 l02 * e0 l02 + e0 l12 * e2 l11 * e3 l02 * e2 l02 - e0 l12 * e2 l11 * e5 l01 * e0 l01 + e0 l12 * e2 l11 * e3 l01 * e2 l01 + e0 l12 * e1 l11 * e4 l02 * e0 l02 - e0 l12 * e1 l11 * e3 l02 * e1 l02 - e0 l12 * e1 l11 * e4 l01 * e0 l01 + e0 l12 * e1 l11 * e3 l01 * e1 l01 + e5 l12 * e2 l11 - e4 l12 * e1 l11 - e3 l12 * e0 l11 + e2 l12 * e5 l11 - e1 l12 * e4 l11 - e0 l12 * e3 l11;
    -2 * e2 l12 * e2 l11 * e5 l02 * e1 l02 + 2 * e2 l12 * e2 l11 * e4 l02 * e2 l02 + 2 * e2 l12 * e2 l11 * e5 l01 * e1 l01 - 2 * e2 l12 * e2 l11 * e4 l01 * e2 l01 - 2 * e2 l12 * e0 l11 * e4 l01 * e0 l01 + 2 * e2 l12 * e0 l11 * e3 l01 * e1 l01 - 2 * e1 l12 * e1 l11 * e5 l02 * e1 l02 + 2 * e1 l12 * e1 l11 * e4 l02 * e2 l02 + 2 * e1 l12 * e1 l11 * e5 l01 * e1 l01 - 2 * e1 l12 * e1 l11 * e4 l01 * e2 l01 + 2 * e1 l12 * e0 l11 * e5 l01 * e0 l01 - 2 * e1 l12 * e0 l11 * e3 l01 * e2 l01 + 2 * e0 l12 * e2 l11 * e4 l02 * e0 l02 - 2 * e0 l12 * e2 l11 * e3 l02 * e1 l02 - 2 * e0 l12 * e1 l11 * e5 l02 * e0 l02 + 2 * e0 l12 * e1 l11 * e3 l02 * e2 l02 + 2 * e5 l12 * e1 l11 - 2 * e4 l12 * e2 l11 + 2 * e2 l12 * e4 l11 - 2 * e1 l12 * e5 l11;
    2 * e2 l12 * e2 l11 * e5 l02 * e0 l02 - 2 * e2 l12 * e2 l11 * e3 l02 * e2 l02 - 2 * e2 l12 * e2 l11 * e5 l01 * e0 l01 + 2 * e2 l12 * e2 l11 * e3 l01 * e2 l01 - 2 * e2 l12 * e1 l11 * e4 l01 * e0 l01 + 2 * e2 l12 * e1 l11 * e3 l01 * e1 l01 + 2 * e1 l12 * e2 l11 * e4 l02 * e0 l02 - 2 * e1 l12 * e2 l11 * e3 l02 * e1 l02 + 2 * e1 l12 * e0 l11 * e5 l02 * e1 l02 - 2 * e1 l12 * e0 l11 * e4 l02 * e2 l02 - 2 * e0 l12 * e1 l11 * e5 l01 * e1 l01 + 2 * e0 l12 * e1 l11 * e4 l01 * e2 l01 + 2 * e0 l12 * e0 l11 * e5 l02 * e0 l02 - 2 * e0 l12 * e0 l11 * e3 l02 * e2 l02 - 2 * e0 l12 * e0 l11 * e5 l01 * e0 l01 + 2 * e0 l12 * e0 l11 * e3 l01 * e2 l01 - 2 * e5 l12 * e0 l11 + 2 * e3 l12 * e2 l11 - 2 * e2 l12 * e3 l11 + 2 * e0 l12 * e5 l11;
    -2 * e2 l12 * e1 l11 * e5 l02 * e0 l02 + 2 * e2 l12 * e1 l11 * e3 l02 * e2 l02 + 2 * e2 l12 * e0 l11 * e5 l02 * e1 l02 - 2 * e2 l12 * e0 l11 * e4 l02 * e2 l02 + 2 * e1 l12 * e2 l11 * e5 l01 * e0 l01 - 2 * e1 l12 * e2 l11 * e3 l01 * e2 l01 - 2 * e1 l12 * e1 l11 * e4 l02 * e0 l02 + 2 * e1 l12 * e1 l11 * e3 l02 * e1 l02 + 2 * e1 l12 * e1 l11 * e4 l01 * e0 l01 - 2 * e1 l12 * e1 l11 * e3 l01 * e1 l01 - 2 * e0 l12 * e2 l11 * e5 l01 * e1 l01 + 2 * e0 l12 * e2 l11 * e4 l01 * e2 l01 - 2 * e0 l12 * e0 l11 * e4 l02 * e0 l02 + 2 * e0 l12 * e0 l11 * e3 l02 * e1 l02 + 2 * e0 l12 * e0 l11 * e4 l01 * e0 l01 - 2 * e0 l12 * e0 l11 * e3 l01 * e1 l01 + 2 * e4 l12 * e0 l11 - 2 * e3 l12 * e1 l11 + 2 * e1 l12 * e3 l11 - 2 * e0 l12 * e4 l11;
    e2 l12 * e1 l11 * e5 l02 * e1 l02 - e2 l12 * e1 l11 * e4 l02 * e2 l02 - e2 l12 * e1 l11 * e5 l01 * e1 l01 + e2 l12 * e1 l11 * e4 l01 * e2 l01 + e2 l12 * e0 l11 * e5 l02 * e0 l02 - e2 l12 * e0 l11 * e3 l02 * e2 l02 - e2 l12 * e0 l11 * e5 l01 * e0 l01 + e2 l12 * e0 l11 * e3 l01 * e2 l01 - e1 l12 * e2 l11 * e5 l02 * e1 l02 + e1 l12 * e2 l11 * e4 l02 * e2 l02 + e1 l12 * e2 l11 * e5 l01 * e1 l01 - e1 l12 * e2 l11 * e4 l01 * e2 l01 + e1 l12 * e0 l11 * e4 l02 * e0 l02 - e1 l12 * e0 l11 * e3 l02 * e1 l02 - e1 l12 * e0 l11 * e4 l01 * e0 l01 + e1 l12 * e0 l11 * e3 l01 * e1 l01 - e0 l12 * e2 l11 * e5 l02 * e0 l02 + e0 l12 * e2 l11 * e3 l02 * e2 l02 + e0 l12 * e2 l11 * e5 l01 * e0 l01 - e0 l12 * e2 l11 * e3 l01 * e2 l01 - e0 l12 * e1 l11 * e4 l02 * e0 l02 + e0 l12 * e1 l11 * e3 l02 * e1 l02 + e0 l12 * e1 l11 * e4 l01 * e0 l01 - e0 l12 * e1 l11 * e3 l01 * e1 l01 + e5 l12 * e2 l11 + e4 l12 * e1 l11 + e3 l12 * e0 l11 + e2 l12 * e5 l11 + e1 l12 * e4 l11 + e0 l12 * e3 l11 ].
(** fillRow2, src/relative_pose/modules/sixpt/modules2.cpp 88-171 *)
Definition fill_row2 (m0 m1 m2 : nat -> nat -> R) : list R := (
  [ m2 2%nat 0%nat * m1 1%nat 0%nat * m0 0%nat 0%nat - m2 2%nat 0%nat * m1 0%nat 0%nat * m0 1%nat 0%nat - m2 1%nat 0%nat * m1 2%nat 0%nat * m0 0%nat 0%nat + m2 1%nat 0%nat * m1 0%nat 0%nat * m0 2%nat 0%nat + m2 0%nat 0%nat * m1 2%nat 0%nat * m0 1%nat 0%nat - m2 0%nat 0%nat * m1 1%nat 0%nat * m0 2%nat 0%nat;
    m2 2%nat 1%nat * m1 1%nat 0%nat * m0 0%nat 0%nat - m2 2%nat 1%nat * m1 0%nat 0%nat * m0 1%nat 0%nat + m2 2%nat 0%nat * m1 1%nat 1%nat * m0 0%nat 0%nat + m2 2%nat 0%nat * m1 1%nat 0%nat * m0 0%nat 1%nat - m2 2%nat 0%nat * m1 0%nat 1%nat * m0 1%nat 0%nat - m2 2%nat 0%nat * m1 0%nat 0%nat * m0 1%nat 1%nat - m2 1%nat 1%nat * m1 2%nat 0%nat * m0 0%nat 0%nat + m2 1%nat 1%nat * m1 0%nat 0%nat * m0 2%nat 0%nat - m2 1%nat 0%nat * m1 2%nat 1%nat * m0 0%nat 0%nat - m2 1%nat 0%nat * m1 2%nat 0%nat * m0 0%nat 1%nat + m2 1%nat 0%nat * m1 0%nat 1%nat * m0 2%nat 0%nat + m2 1%nat 0%nat * m1 0%nat 0%nat * m0 2%nat 1%nat + m2 0%nat 1%nat * m1 2%nat 0%nat * m0 1%nat 0%nat - m2 0%nat 1%nat * m1 1%nat 0%nat * m0 2%nat 0%nat + m2 0%nat 0%nat * m1 2%nat 1%nat * m0 1%nat 0%nat + m2 0%nat 0%nat * m1 2%nat 0%nat * m0 1%nat 1%nat - m2 0%nat 0%nat * m1 1%nat 1%nat * m0 2%nat 0%nat - m2 0%nat 0%nat * m1 1%nat 0%nat * m0 2%nat 1%nat;
    m2 2%nat 2%nat * m1 1%nat 0%nat * m0 0%nat 0%nat - m2 2%nat 2%nat * m1 0%nat 0%nat * m0 1%nat 0%nat + m2 2%nat 1%nat * m1 1%nat 1%nat * m0 0%nat 0%nat + m2 2%nat 1%nat * m1 1%nat 0%nat * m0 0%nat 1%nat - m2 2%nat 1%nat * m1 0%nat 1%nat * m0 1%nat 0%nat - m2 2%nat 1%nat * m1 0%nat 0%nat * m0 1%nat 1%nat + m2 2%nat 0%nat * m1 1%nat 2%nat * m0 0%nat 0%nat + m2 2%nat 0%nat * m1 1%nat 1%nat * m0 0%nat 1%nat + m2 2%nat 0%nat * m1 1%nat 0%nat * m0 0%nat 2%nat - m2 2%nat 0%nat * m1 0%nat 2%nat * m0 1%nat 0%nat - m2 2%nat 0%nat * m1 0%nat 1%nat * m0 1%nat 1%nat - m2 2%nat 0%nat * m1 0%nat 0%nat * m0 1%nat 2%nat - m2 1%nat 2%nat * m1 2%nat 0%nat * m0 0%nat 0%nat + m2 1%nat 2%nat * m1 0%nat 0%nat * m0 2%nat 0%nat - m2 1%nat 1%nat * m1 2%nat 1%nat * m0 0%nat 0%nat - m2 1%nat 1%nat * m1 2%nat 0%nat * m0 0%nat 1%nat + m2 1%nat 1%nat * m1 0%nat 1%nat * m0 2%nat 0%nat + m2 1%nat 1%nat * m1 0%nat 0%nat * m0 2%nat 1%nat - m2 1%nat 0%nat * m1 2%nat 2%nat * m0 0%nat 0%nat - m2 1%nat 0%nat * m1 2%nat 1%nat * m0 0%nat 1%nat - m2 1%nat 0%nat * m1 2%nat 0%nat * m0 0%nat 2%nat + m2 1%nat 0%nat * m1 0%nat 2%nat * m0 2%nat 0%nat + m2 1%nat 0%nat * m1 0%nat 1%nat * m0 2%nat 1%nat + m2 1%nat 0%nat * m1 0%nat 0%nat * m0 2%nat 2%nat + m2 0%nat 2%nat * m1 2%nat 0%nat * m0 1%nat 0%nat - m2 0%nat 2%nat * m1 1%nat 0%nat * m0 2%nat 0%nat + m2 0%nat 1%nat * m1 2%nat 1%nat * m0 1%nat 0%nat + m2 0%nat 1%nat * m1 2%nat 0%nat * m0 1%nat 1%nat - m2 0%nat 1%nat * m1 1%nat 1%nat * m0 2%nat 0%nat - m2 0%nat 1%nat * m1 1%nat 0%nat * m0 2%nat 1%nat + m2 0%nat 0%nat * m1 2%nat 2%nat * m0 1%nat 0%nat + m2 0%nat 0%nat * m1 2%nat 1%nat * m0 1%nat 1%nat + m2 0%nat 0%nat * m1 2%nat 0%nat * m0 1%nat 2%nat - m2 0%nat 0%nat * m1 1%nat 2%nat * m0 2%nat 0%nat - m2 0%nat 0%nat * m1 1%nat 1%nat * m0 2%nat 1%nat - m2 0%nat 0%nat * m1 1%nat 0%nat * m0 2%nat 2%nat;
    m2 2%nat 2%nat * m1 1%nat 1%nat * m0 0%nat 0%nat + m2 2%nat 2%nat * m1 1%nat 0%nat * m0 0%nat 1%nat - m2 2%nat 2%nat * m1 0%nat 1%nat * m0 1%nat 0%nat - m2 2%nat 2%nat * m1 0%nat 0%nat * m0 1%nat 1%nat + m2 2%nat 1%nat * m1 1%nat 2%nat * m0 0%nat 0%nat + m2 2%nat 1%nat * m1 1%nat 1%nat * m0 0%nat 1%nat + m2 2%nat 1%nat * m1 1%nat 0%nat * m0 0%nat 2%nat - m2 2%nat 1%nat * m1 0%nat 2%nat * m0 1%nat 0%nat - m2 2%nat 1%nat * m1 0%nat 1%nat * m0 1%nat 1%nat - m2 2%nat 1%nat * m1 0%nat 0%nat * m0 1%nat 2%nat + m2 2%nat 0%nat * m1 1%nat 2%nat * m0 0%nat 1%nat + m2 2%nat 0%nat * m1 1%nat 1%nat * m0 0%nat 2%nat - m2 2%nat 0%nat * m1 0%nat 2%nat * m0 1%nat 1%nat - m2 2%nat 0%nat * m1 0%nat 1%nat * m0 1%nat 2%nat - m2 1%nat 2%nat * m1 2%nat 1%nat * m0 0%nat 0%nat - m2 1%nat 2%nat * m1 2%nat 0%nat * m0 0%nat 1%nat + m2 1%nat 2%nat * m1 0%nat 1%nat * m0 2%nat 0%nat + m2 1%nat 2%nat * m1 0%nat 0%nat * m0 2%nat 1%nat - m2 1%nat 1%nat * m1 2%nat 2%nat * m0 0%nat 0%nat - m2 1%nat 1%nat * m1 2%nat 1%nat * m0 0%nat 1%nat - m2 1%nat 1%nat * m1 2%nat 0%nat * m0 0%nat 2%nat + m2 1%nat 1%nat * m1 0%nat 2%nat * m0 2%nat 0%nat + m2 1%nat 1%nat * m1 0%nat 1%nat * m0 2%nat 1%nat + m2 1%nat 1%nat * m1 0%nat 0%nat * m0 2%nat 2%nat - m2 1%nat 0%nat * m1 2%nat 2%nat * m0 0%nat 1%nat - m2 1%nat 0%nat * m1 2%nat 1%nat * m0 0%nat 2%nat + m2 1%nat 0%nat * m1 0%nat 2%nat * m0 2%nat 1%nat + m2 1%nat 0%nat * m1 0%nat 1%nat * m0 2%nat 2%nat + m2 0%nat 2%nat * m1 2%nat 1%nat * m0 1%nat 0%nat + m2 0%nat 2%nat * m1 2%nat 0%nat * m0 1%nat 1%nat - m2 0%nat 2%nat * m1 1%nat 1%nat * m0 2%nat 0%nat - m2 0%nat 2%nat * m1 1%nat 0%nat * m0 2%nat 1%nat + m2 0%nat 1%nat * m1 2%nat 2%nat * m0 1%nat 0%nat + m2 0%nat 1%nat * m1 2%nat 1%nat * m0 1%nat 1%nat + m2 0%nat 1%nat * m1 2%nat 0%nat * m0 1%nat 2%nat - m2 0%nat 1%nat * m1 1%nat 2%nat * m0 2%nat 0%nat - m2 0%nat 1%nat * m1 1%nat 1%nat * m0 2%nat 1%nat - m2 0%nat 1%nat * m1 1%nat 0%nat * m0 2%nat 2%nat + m2 0%nat 0%nat * m1 2%nat 2%nat * m0 1%nat 1%nat + m2 0%nat 0%nat * m1 2%nat 1%nat * m0 1%nat 2%nat - m2 0%nat 0%nat * m1 1%nat 2%nat * m0 2%nat 1%nat - m2 0%nat 0%nat * m1 1%nat 1%nat * m0 2%nat 2%nat;
    m2 2%nat 2%nat * m1 1%nat 2%nat * m0 0%nat 0%nat + m2 2%nat 2%nat * m1 1%nat 1%nat * m0 0%nat 1%nat + m2 2%nat 2%nat * m1 1%nat 0%nat * m0 0%nat 2%nat - m2 2%nat 2%nat * m1 0%nat 2%nat * m0 1%nat 0%nat - m2 2%nat 2%nat * m1 0%nat 1%nat * m0 1%nat 1%nat - m2 2%nat 2%nat * m1 0%nat 0%nat * m0 1%nat 2%nat + m2 2%nat 1%nat * m1 1%nat 2%nat * m0 0%nat 1%nat + m2 2%nat 1%nat * m1 1%nat 1%nat * m0 0%nat 2%nat - m2 2%nat 1%nat * m1 0%nat 2%nat * m0 1%nat 1%nat - m2 2%nat 1%nat * m1 0%nat 1%nat * m0 1%nat 2%nat + m2 2%nat 0%nat * m1 1%nat 2%nat * m0 0%nat 2%nat - m2 2%nat 0%nat * m1 0%nat 2%nat * m0 1%nat 2%nat - m2 1%nat 2%nat * m1 2%nat 2%nat * m0 0%nat 0%nat - m2 1%nat 2%nat * m1 2%nat 1%nat * m0 0%nat 1%nat - m2 1%nat 2%nat * m1 2%nat 0%nat * m0 0%nat 2%nat + m2 1%nat 2%nat * m1 0%nat 2%nat * m0 2%nat 0%nat + m2 1%nat 2%nat * m1 0%nat 1%nat * m0 2%nat 1%nat + m2 1%nat 2%nat * m1 0%nat 0%nat * m0 2%nat 2%nat - m2 1%nat 1%nat * m1 2%nat 2%nat * m0 0%nat 1%nat - m2 1%nat 1%nat * m1 2%nat 1%nat * m0 0%nat 2%nat + m2 1%nat 1%nat * m1 0%nat 2%nat * m0 2%nat 1%nat + m2 1%nat 1%nat * m1 0%nat 1%nat * m0 2%nat 2%nat - m2 1%nat 0%nat * m1 2%nat 2%nat * m0 0%nat 2%nat + m2 1%nat 0%nat * m1 0%nat 2%nat * m0 2%nat 2%nat + m2 0%nat 2%nat * m1 2%nat 2%nat * m0 1%nat 0%nat + m2 0%nat 2%nat * m1 2%nat 1%nat * m0 1%nat 1%nat + m2 0%nat 2%nat * m1 2%nat 0%nat * m0 1%nat 2%nat - m2 0%nat 2%nat * m1 1%nat 2%nat * m0 2%nat 0%nat - m2 0%nat 2%nat * m1 1%nat 1%nat * m0 2%nat 1%nat - m2 0%nat 2%nat * m1 1%nat 0%nat * m0 2%nat 2%nat + m2 0%nat 1%nat * m1 2%nat 2%nat * m0 1%nat 1%nat + m2 0%nat 1%nat * m1 2%nat 1%nat * m0 1%nat 2%nat - m2 0%nat 1%nat * m1 1%nat 2%nat * m0 2%nat 1%nat - m2 0%nat 1%nat * m1 1%nat 1%nat * m0 2%nat 2%nat + m2 0%nat 0%nat * m1 2%nat 2%nat * m0 1%nat 2%nat - m2 0%nat 0%nat * m1 1%nat 2%nat * m0 2%nat 2%nat;
    m2 2%nat 2%nat * m1 1%nat 2%nat * m0 0%nat 1%nat + m2 2%nat 2%nat * m1 1%nat 1%nat * m0 0%nat 2%nat - m2 2%nat 2%nat * m1 0%nat 2%nat * m0 1%nat 1%nat - m2 2%nat 2%nat * m1 0%nat 1%nat * m0 1%nat 2%nat + m2 2%nat 1%nat * m1 1%nat 2%nat * m0 0%nat 2%nat - m2 2%nat 1%nat * m1 0%nat 2%nat * m0 1%nat 2%nat - m2 1%nat 2%nat * m1 2%nat 2%nat * m0 0%nat 1%nat - m2 1%nat 2%nat * m1 2%nat 1%nat * m0 0%nat 2%nat + m2 1%nat 2%nat * m1 0%nat 2%nat * m0 2%nat 1%nat + m2 1%nat 2%nat * m1 0%nat 1%nat * m0 2%nat 2%nat - m2 1%nat 1%nat * m1 2%nat 2%nat * m0 0%nat 2%nat + m2 1%nat 1%nat * m1 0%nat 2%nat * m0 2%nat 2%nat + m2 0%nat 2%nat * m1 2%nat 2%nat * m0 1%nat 1%nat + m2 0%nat 2%nat * m1 2%nat 1%nat * m0 1%nat 2%nat - m2 0%nat 2%nat * m1 1%nat 2%nat * m0 2%nat 1%nat - m2 0%nat 2%nat * m1 1%nat 1%nat * m0 2%nat 2%nat + m2 0%nat 1%nat * m1 2%nat 2%nat * m0 1%nat 2%nat - m2 0%nat 1%nat * m1 1%nat 2%nat * m0 2%nat 2%nat;
    m2 2%nat 2%nat * m1 1%nat 2%nat * m0 0%nat 2%nat - m2 2%nat 2%nat * m1 0%nat 2%nat * m0 1%nat 2%nat - m2 1%nat 2%nat * m1 2%nat 2%nat * m0 0%nat 2%nat + m2 1%nat 2%nat * m1 0%nat 2%nat * m0 2%nat 2%nat + m2 0%nat 2%nat * m1 2%nat 2%nat * m0 1%nat 2%nat - m2 0%nat 2%nat * m1 1%nat 2%nat * m0 2%nat 2%nat;
    m2 2%nat 3%nat * m1 1%nat 0%nat * m0 0%nat 0%nat - m2 2%nat 3%nat * m1 0%nat 0%nat * m0 1%nat 0%nat + m2 2%nat 0%nat * m1 1%nat 3%nat * m0 0%nat 0%nat + m2 2%nat 0%nat * m1 1%nat 0%nat * m0 0%nat 3%nat - m2 2%nat 0%nat * m1 0%nat 3%nat * m0 1%nat 0%nat - m2 2%nat 0%nat * m1 0%nat 0%nat * m0 1%nat 3%nat - m2 1%nat 3%nat * m1 2%nat 0%nat * m0 0%nat 0%nat + m2 1%nat 3%nat * m1 0%nat 0%nat * m0 2%nat 0%nat - m2 1%nat 0%nat * m1 2%nat 3%nat * m0 0%nat 0%nat - m2 1%nat 0%nat * m1 2%nat 0%nat * m0 0%nat 3%nat + m2 1%nat 0%nat * m1 0%nat 3%nat * m0 2%nat 0%nat + m2 1%nat 0%nat * m1 0%nat 0%nat * m0 2%nat 3%nat + m2 0%nat 3%nat * m1 2%nat 0%nat * m0 1%nat 0%nat - m2 0%nat 3%nat * m1 1%nat 0%nat * m0 2%nat 0%nat + m2 0%nat 0%nat * m1 2%nat 3%nat * m0 1%nat 0%nat + m2 0%nat 0%nat * m1 2%nat 0%nat * m0 1%nat 3%nat - m2 0%nat 0%nat * m1 1%nat 3%nat * m0 2%nat 0%nat - m2 0%nat 0%nat * m1 1%nat 0%nat * m0 2%nat 3%nat;
    m2 2%nat 4%nat * m1 1%nat 0%nat * m0 0%nat 0%nat - m2 2%nat 4%nat * m1 0%nat 0%nat * m0 1%nat 0%nat + m2 2%nat 3%nat * m1 1%nat 1%nat * m0 0%nat 0%nat + m2 2%nat 3%nat * m1 1%nat 0%nat * m0 0%nat 1%nat - m2 2%nat 3%nat * m1 0%nat 1%nat * m0 1%nat 0%nat - m2 2%nat 3%nat * m1 0%nat 0%nat * m0 1%nat 1%nat + m2 2%nat 1%nat * m1 1%nat 3%nat * m0 0%nat 0%nat + m2 2%nat 1%nat * m1 1%nat 0%nat * m0 0%nat 3%nat - m2 2%nat 1%nat * m1 0%nat 3%nat * m0 1%nat 0%nat - m2 2%nat 1%nat * m1 0%nat 0%nat * m0 1%nat 3%nat + m2 2%nat 0%nat * m1 1%nat 4%nat * m0 0%nat 0%nat + m2 2%nat 0%nat * m1 1%nat 3%nat * m0 0%nat 1%nat + m2 2%nat 0%nat * m1 1%nat 1%nat * m0 0%nat 3%nat + m2 2%nat 0%nat * m1 1%nat 0%nat * m0 0%nat 4%nat - m2 2%nat 0%nat * m1 0%nat 4%nat * m0 1%nat 0%nat - m2 2%nat 0%nat * m1 0%nat 3%nat * m0 1%nat 1%nat - m2 2%nat 0%nat * m1 0%nat 1%nat * m0 1%nat 3%nat - m2 2%nat 0%nat * m1 0%nat 0%nat * m0 1%nat 4%nat - m2 1%nat 4%nat * m1 2%nat 0%nat * m0 0%nat 0%nat + m2 1%nat 4%nat * m1 0%nat 0%nat * m0 2%nat 0%nat - m2 1%nat 3%nat * m1 2%nat 1%nat * m0 0%nat 0%nat - m2 1%nat 3%nat * m1 2%nat 0%nat * m0 0%nat 1%nat + m2 1%nat 3%nat * m1 0%nat 1%nat * m0 2%nat 0%nat + m2 1%nat 3%nat * m1 0%nat 0%nat * m0 2%nat 1%nat - m2 1%nat 1%nat * m1 2%nat 3%nat * m0 0%nat 0%nat - m2 1%nat 1%nat * m1 2%nat 0%nat * m0 0%nat 3%nat + m2 1%nat 1%nat * m1 0%nat 3%nat * m0 2%nat 0%nat + m2 1%nat 1%nat * m1 0%nat 0%nat * m0 2%nat 3%nat - m2 1%nat 0%nat * m1 2%nat 4%nat * m0 0%nat 0%nat - m2 1%nat 0%nat * m1 2%nat 3%nat * m0 0%nat 1%nat - m2 1%nat 0%nat * m1 2%nat 1%nat * m0 0%nat 3%nat - m2 1%nat 0%nat * m1 2%nat 0%nat * m0 0%nat 4%nat + m2 1%nat 0%nat * m1 0%nat 4%nat * m0 2%nat 0%nat + m2 1%nat 0%nat * m1 0%nat 3%nat * m0 2%nat 1%nat + m2 1%nat 0%nat * m1 0%nat 1%nat * m0 2%nat 3%nat + m2 1%nat 0%nat * m1 0%nat 0%nat * m0 2%nat 4%nat + m2 0%nat 4%nat * m1 2%nat 0%nat * m0 1%nat 0%nat - m2 0%nat 4%nat * m1 1%nat 0%nat * m0 2%nat 0%nat + m2 0%nat 3%nat * m1 2%nat 1%nat * m0 1%nat 0%nat + m2 0%nat 3%nat * m1 2%nat 0%nat * m0 1%nat 1%nat - m2 0%nat 3%nat * m1 1%nat 1%nat * m0 2%nat 0%nat - m2 0%nat 3%nat * m1 1%nat 0%nat * m0 2%nat 1%nat + m2 0%nat 1%nat * m1 2%nat 3%nat * m0 1%nat 0%nat + m2 0%nat 1%nat * m1 2%nat 0%nat * m0 1%nat 3%nat - m2 0%nat 1%nat * m1 1%nat 3%nat * m0 2%nat 0%nat - m2 0%nat 1%nat * m1 1%nat 0%nat * m0 2%nat 3%nat + m2 0%nat 0%nat * m1 2%nat 4%nat * m0 1%nat 0%nat + m2 0%nat 0%nat * m1 2%nat 3%nat * m0 1%nat 1%nat + m2 0%nat 0%nat * m1 2%nat 1%nat * m0 1%nat 3%nat + m2 0%nat 0%nat * m1 2%nat 0%nat * m0 1%nat 4%nat - m2 0%nat 0%nat * m1 1%nat 4%nat * m0 2%nat 0%nat - m2 0%nat 0%nat * m1 1%nat 3%nat * m0 2%nat 1%nat - m2 0%nat 0%nat * m1 1%nat 1%nat * m0 2%nat 3%nat - m2 0%nat 0%nat * m1 1%nat 0%nat * m0 2%nat 4%nat;
    m2 2%nat 4%nat * m1 1%nat 1%nat * m0 0%nat 0%nat + m2 2%nat 4%nat * m1 1%nat 0%nat * m0 0%nat 1%nat - m2 2%nat 4%nat * m1 0%nat 1%nat * m0 1%nat 0%nat - m2 2%nat 4%nat * m1 0%nat 0%nat * m0 1%nat 1%nat + m2 2%nat 3%nat * m1 1%nat 2%nat * m0 0%nat 0%nat + m2 2%nat 3%nat * m1 1%nat 1%nat * m0 0%nat 1%nat + m2 2%nat 3%nat * m1 1%nat 0%nat * m0 0%nat 2%nat - m2 2%nat 3%nat * m1 0%nat 2%nat * m0 1%nat 0%nat - m2 2%nat 3%nat * m1 0%nat 1%nat * m0 1%nat 1%nat - m2 2%nat 3%nat * m1 0%nat 0%nat * m0 1%nat 2%nat + m2 2%nat 2%nat * m1 1%nat 3%nat * m0 0%nat 0%nat + m2 2%nat 2%nat * m1 1%nat 0%nat * m0 0%nat 3%nat - m2 2%nat 2%nat * m1 0%nat 3%nat * m0 1%nat 0%nat - m2 2%nat 2%nat * m1 0%nat 0%nat * m0 1%nat 3%nat + m2 2%nat 1%nat * m1 1%nat 4%nat * m0 0%nat 0%nat + m2 2%nat 1%nat * m1 1%nat 3%nat * m0 0%nat 1%nat + m2 2%nat 1%nat * m1 1%nat 1%nat * m0 0%nat 3%nat + m2 2%nat 1%nat * m1 1%nat 0%nat * m0 0%nat 4%nat - m2 2%nat 1%nat * m1 0%nat 4%nat * m0 1%nat 0%nat - m2 2%nat 1%nat * m1 0%nat 3%nat * m0 1%nat 1%nat - m2 2%nat 1%nat * m1 0%nat 1%nat * m0 1%nat 3%nat - m2 2%nat 1%nat * m1 0%nat 0%nat * m0 1%nat 4%nat + m2 2%nat 0%nat * m1 1%nat 4%nat * m0 0%nat 1%nat + m2 2%nat 0%nat * m1 1%nat 3%nat * m0 0%nat 2%nat + m2 2%nat 0%nat * m1 1%nat 2%nat * m0 0%nat 3%nat + m2 2%nat 0%nat * m1 1%nat 1%nat * m0 0%nat 4%nat - m2 2%nat 0%nat * m1 0%nat 4%nat * m0 1%nat 1%nat - m2 2%nat 0%nat * m1 0%nat 3%nat * m0 1%nat 2%nat - m2 2%nat 0%nat * m1 0%nat 2%nat * m0 1%nat 3%nat - m2 2%nat 0%nat * m1 0%nat 1%nat * m0 1%nat 4%nat - m2 1%nat 4%nat * m1 2%nat 1%nat * m0 0%nat 0%nat - m2 1%nat 4%nat * m1 2%nat 0%nat * m0 0%nat 1%nat + m2 1%nat 4%nat * m1 0%nat 1%nat * m0 2%nat 0%nat + m2 1%nat 4%nat * m1 0%nat 0%nat * m0 2%nat 1%nat - m2 1%nat 3%nat * m1 2%nat 2%nat * m0 0%nat 0%nat - m2 1%nat 3%nat * m1 2%nat 1%nat * m0 0%nat 1%nat - m2 1%nat 3%nat * m1 2%nat 0%nat * m0 0%nat 2%nat + m2 1%nat 3%nat * m1 0%nat 2%nat * m0 2%nat 0%nat + m2 1%nat 3%nat * m1 0%nat 1%nat * m0 2%nat 1%nat + m2 1%nat 3%nat * m1 0%nat 0%nat * m0 2%nat 2%nat - m2 1%nat 2%nat * m1 2%nat 3%nat * m0 0%nat 0%nat - m2 1%nat 2%nat * m1 2%nat 0%nat * m0 0%nat 3%nat + m2 1%nat 2%nat * m1 0%nat 3%nat * m0 2%nat 0%nat + m2 1%nat 2%nat * m1 0%nat 0%nat * m0 2%nat 3%nat - m2 1%nat 1%nat * m1 2%nat 4%nat * m0 0%nat 0%nat - m2 1%nat 1%nat * m1 2%nat 3%nat * m0 0%nat 1%nat - m2 1%nat 1%nat * m1 2%nat 1%nat * m0 0%nat 3%nat - m2 1%nat 1%nat * m1 2%nat 0%nat * m0 0%nat 4%nat + m2 1%nat 1%nat * m1 0%nat 4%nat * m0 2%nat 0%nat + m2 1%nat 1%nat * m1 0%nat 3%nat * m0 2%nat 1%nat + m2 1%nat 1%nat * m1 0%nat 1%nat * m0 2%nat 3%nat + m2 1%nat 1%nat * m1 0%nat 0%nat * m0 2%nat 4%nat - m2 1%nat 0%nat * m1 2%nat 4%nat * m0 0%nat 1%nat - m2 1%nat 0%nat * m1 2%nat 3%nat * m0 0%nat 2%nat - m2 1%nat 0%nat * m1 2%nat 2%nat * m0 0%nat 3%nat - m2 1%nat 0%nat * m1 2%nat 1%nat * m0 0%nat 4%nat + m2 1%nat 0%nat * m1 0%nat 4%nat * m0 2%nat 1%nat + m2 1%nat 0%nat * m1 0%nat 3%nat * m0 2%nat 2%nat + m2 1%nat 0%nat * m1 0%nat 2%nat * m0 2%nat 3%nat + m2 1%nat 0%nat * m1 0%nat 1%nat * m0 2%nat 4%nat + m2 0%nat 4%nat * m1 2%nat 1%nat * m0 1%nat 0%nat + m2 0%nat 4%nat * m1 2%nat 0%nat * m0 1%nat 1%nat - m2 0%nat 4%nat * m1 1%nat 1%nat * m0 2%nat 0%nat - m2 0%nat 4%nat * m1 1%nat 0%nat * m0 2%nat 1%nat + m2 0%nat 3%nat * m1 2%nat 2%nat * m0 1%nat 0%nat + m2 0%nat 3%nat * m1 2%nat 1%nat * m0 1%nat 1%nat + m2 0%nat 3%nat * m1 2%nat 0%nat * m0 1%nat 2%nat - m2 0%nat 3%nat * m1 1%nat 2%nat * m0 2%nat 0%nat - m2 0%nat 3%nat * m1 1%nat 1%nat * m0 2%nat 1%nat - m2 0%nat 3%nat * m1 1%nat 0%nat * m0 2%nat 2%nat + m2 0%nat 2%nat * m1 2%nat 3%nat * m0 1%nat 0%nat + m2 0%nat 2%nat * m1 2%nat 0%nat * m0 1%nat 3%nat - m2 0%nat 2%nat * m1 1%nat 3%nat * m0 2%nat 0%nat - m2 0%nat 2%nat * m1 1%nat 0%nat * m0 2%nat 3%nat + m2 0%nat 1%nat * m1 2%nat 4%nat * m0 1%nat 0%nat + m2 0%nat 1%nat * m1 2%nat 3%nat * m0 1%nat 1%nat + m2 0%nat 1%nat * m1 2%nat 1%nat * m0 1%nat 3%nat + m2 0%nat 1%nat * m1 2%nat 0%nat * m0 1%nat 4%nat - m2 0%nat 1%nat * m1 1%nat 4%nat * m0 2%nat 0%nat - m2 0%nat 1%nat * m1 1%nat 3%nat * m0 2%nat 1%nat - m2 0%nat 1%nat * m1 1%nat 1%nat * m0 2%nat 3%nat - m2 0%nat 1%nat * m1 1%nat 0%nat * m0 2%nat 4%nat + m2 0%nat 0%nat * m1 2%nat 4%nat * m0 1%nat 1%nat + m2 0%nat 0%nat * m1 2%nat 3%nat * m0 1%nat 2%nat + m2 0%nat 0%nat * m1 2%nat 2%nat * m0 1%nat 3%nat + m2 0%nat 0%nat * m1 2%nat 1%nat * m0 1%nat 4%nat - m2 0%nat 0%nat * m1 1%nat 4%nat * m0 2%nat 1%nat - m2 0%nat 0%nat * m1 1%nat 3%nat * m0 2%nat 2%nat - m2 0%nat 0%nat * m1 1%nat 2%nat * m0 2%nat 3%nat - m2 0%nat 0%nat * m1 1%nat 1%nat * m0 2%nat 4%nat;
    m2 2%nat 4%nat * m1 1%nat 2%nat * m0 0%nat 0%nat + m2 2%nat 4%nat * m1 1%nat 1%nat * m0 0%nat 1%nat + m2 2%nat 4%nat * m1 1%nat 0%nat * m0 0%nat 2%nat - m2 2%nat 4%nat * m1 0%nat 2%nat * m0 1%nat 0%nat - m2 2%nat 4%nat * m1 0%nat 1%nat * m0 1%nat 1%nat - m2 2%nat 4%nat * m1 0%nat 0%nat * m0 1%nat 2%nat + m2 2%nat 3%nat * m1 1%nat 2%nat * m0 0%nat 1%nat + m2 2%nat 3%nat * m1 1%nat 1%nat * m0 0%nat 2%nat - m2 2%nat 3%nat * m1 0%nat 2%nat * m0 1%nat 1%nat - m2 2%nat 3%nat * m1 0%nat 1%nat * m0 1%nat 2%nat + m2 2%nat 2%nat * m1 1%nat 4%nat * m0 0%nat 0%nat + m2 2%nat 2%nat * m1 1%nat 3%nat * m0 0%nat 1%nat + m2 2%nat 2%nat * m1 1%nat 1%nat * m0 0%nat 3%nat + m2 2%nat 2%nat * m1 1%nat 0%nat * m0 0%nat 4%nat - m2 2%nat 2%nat * m1 0%nat 4%nat * m0 1%nat 0%nat - m2 2%nat 2%nat * m1 0%nat 3%nat * m0 1%nat 1%nat - m2 2%nat 2%nat * m1 0%nat 1%nat * m0 1%nat 3%nat - m2 2%nat 2%nat * m1 0%nat 0%nat * m0 1%nat 4%nat + m2 2%nat 1%nat * m1 1%nat 4%nat * m0 0%nat 1%nat + m2 2%nat 1%nat * m1 1%nat 3%nat * m0 0%nat 2%nat + m2 2%nat 1%nat * m1 1%nat 2%nat * m0 0%nat 3%nat + m2 2%nat 1%nat * m1 1%nat 1%nat * m0 0%nat 4%nat - m2 2%nat 1%nat * m1 0%nat 4%nat * m0 1%nat 1%nat - m2 2%nat 1%nat * m1 0%nat 3%nat * m0 1%nat 2%nat - m2 2%nat 1%nat * m1 0%nat 2%nat * m0 1%nat 3%nat - m2 2%nat 1%nat * m1 0%nat 1%nat * m0 1%nat 4%nat + m2 2%nat 0%nat * m1 1%nat 4%nat * m0 0%nat 2%nat + m2 2%nat 0%nat * m1 1%nat 2%nat * m0 0%nat 4%nat - m2 2%nat 0%nat * m1 0%nat 4%nat * m0 1%nat 2%nat - m2 2%nat 0%nat * m1 0%nat 2%nat * m0 1%nat 4%nat - m2 1%nat 4%nat * m1 2%nat 2%nat * m0 0%nat 0%nat - m2 1%nat 4%nat * m1 2%nat 1%nat * m0 0%nat 1%nat - m2 1%nat 4%nat * m1 2%nat 0%nat * m0 0%nat 2%nat + m2 1%nat 4%nat * m1 0%nat 2%nat * m0 2%nat 0%nat + m2 1%nat 4%nat * m1 0%nat 1%nat * m0 2%nat 1%nat + m2 1%nat 4%nat * m1 0%nat 0%nat * m0 2%nat 2%nat - m2 1%nat 3%nat * m1 2%nat 2%nat * m0 0%nat 1%nat - m2 1%nat 3%nat * m1 2%nat 1%nat * m0 0%nat 2%nat + m2 1%nat 3%nat * m1 0%nat 2%nat * m0 2%nat 1%nat + m2 1%nat 3%nat * m1 0%nat 1%nat * m0 2%nat 2%nat - m2 1%nat 2%nat * m1 2%nat 4%nat * m0 0%nat 0%nat - m2 1%nat 2%nat * m1 2%nat 3%nat * m0 0%nat 1%nat - m2 1%nat 2%nat * m1 2%nat 1%nat * m0 0%nat 3%nat - m2 1%nat 2%nat * m1 2%nat 0%nat * m0 0%nat 4%nat + m2 1%nat 2%nat * m1 0%nat 4%nat * m0 2%nat 0%nat + m2 1%nat 2%nat * m1 0%nat 3%nat * m0 2%nat 1%nat + m2 1%nat 2%nat * m1 0%nat 1%nat * m0 2%nat 3%nat + m2 1%nat 2%nat * m1 0%nat 0%nat * m0 2%nat 4%nat - m2 1%nat 1%nat * m1 2%nat 4%nat * m0 0%nat 1%nat - m2 1%nat 1%nat * m1 2%nat 3%nat * m0 0%nat 2%nat - m2 1%nat 1%nat * m1 2%nat 2%nat * m0 0%nat 3%nat - m2 1%nat 1%nat * m1 2%nat 1%nat * m0 0%nat 4%nat + m2 1%nat 1%nat * m1 0%nat 4%nat * m0 2%nat 1%nat + m2 1%nat 1%nat * m1 0%nat 3%nat * m0 2%nat 2%nat + m2 1%nat 1%nat * m1 0%nat 2%nat * m0 2%nat 3%nat + m2 1%nat 1%nat * m1 0%nat 1%nat * m0 2%nat 4%nat - m2 1%nat 0%nat * m1 2%nat 4%nat * m0 0%nat 2%nat - m2 1%nat 0%nat * m1 2%nat 2%nat * m0 0%nat 4%nat + m2 1%nat 0%nat * m1 0%nat 4%nat * m0 2%nat 2%nat + m2 1%nat 0%nat * m1 0%nat 2%nat * m0 2%nat 4%nat + m2 0%nat 4%nat * m1 2%nat 2%nat * m0 1%nat 0%nat + m2 0%nat 4%nat * m1 2%nat 1%nat * m0 1%nat 1%nat + m2 0%nat 4%nat * m1 2%nat 0%nat * m0 1%nat 2%nat - m2 0%nat 4%nat * m1 1%nat 2%nat * m0 2%nat 0%nat - m2 0%nat 4%nat * m1 1%nat 1%nat * m0 2%nat 1%nat - m2 0%nat 4%nat * m1 1%nat 0%nat * m0 2%nat 2%nat + m2 0%nat 3%nat * m1 2%nat 2%nat * m0 1%nat 1%nat + m2 0%nat 3%nat * m1 2%nat 1%nat * m0 1%nat 2%nat - m2 0%nat 3%nat * m1 1%nat 2%nat * m0 2%nat 1%nat - m2 0%nat 3%nat * m1 1%nat 1%nat * m0 2%nat 2%nat + m2 0%nat 2%nat * m1 2%nat 4%nat * m0 1%nat 0%nat + m2 0%nat 2%nat * m1 2%nat 3%nat * m0 1%nat 1%nat + m2 0%nat 2%nat * m1 2%nat 1%nat * m0 1%nat 3%nat + m2 0%nat 2%nat * m1 2%nat 0%nat * m0 1%nat 4%nat - m2 0%nat 2%nat * m1 1%nat 4%nat * m0 2%nat 0%nat - m2 0%nat 2%nat * m1 1%nat 3%nat * m0 2%nat 1%nat - m2 0%nat 2%nat * m1 1%nat 1%nat * m0 2%nat 3%nat - m2 0%nat 2%nat * m1 1%nat 0%nat * m0 2%nat 4%nat + m2 0%nat 1%nat * m1 2%nat 4%nat * m0 1%nat 1%nat + m2 0%nat 1%nat * m1 2%nat 3%nat * m0 1%nat 2%nat + m2 0%nat 1%nat * m1 2%nat 2%nat * m0 1%nat 3%nat + m2 0%nat 1%nat * m1 2%nat 1%nat * m0 1%nat 4%nat - m2 0%nat 1%nat * m1 1%nat 4%nat * m0 2%nat 1%nat - m2 0%nat 1%nat * m1 1%nat 3%nat * m0 2%nat 2%nat - m2 0%nat 1%nat * m1 1%nat 2%nat * m0 2%nat 3%nat - m2 0%nat 1%nat * m1 1%nat 1%nat * m0 2%nat 4%nat + m2 0%nat 0%nat * m1 2%nat 4%nat * m0 1%nat 2%nat + m2 0%nat 0%nat * m1 2%nat 2%nat * m0 1%nat 4%nat - m2 0%nat 0%nat * m1 1%nat 4%nat * m0 2%nat 2%nat - m2 0%nat 0%nat * m1 1%nat 2%nat * m0 2%nat 4%nat;
    m2 2%nat 4%nat * m1 1%nat 2%nat * m0 0%nat 1%nat + m2 2%nat 4%nat * m1 1%nat 1%nat * m0 0%nat 2%nat - m2 2%nat 4%nat * m1 0%nat 2%nat * m0 1%nat 1%nat - m2 2%nat 4%nat * m1 0%nat 1%nat * m0 1%nat 2%nat + m2 2%nat 3%nat * m1 1%nat 2%nat * m0 0%nat 2%nat - m2 2%nat 3%nat * m1 0%nat 2%nat * m0 1%nat 2%nat + m2 2%nat 2%nat * m1 1%nat 4%nat * m0 0%nat 1%nat + m2 2%nat 2%nat * m1 1%nat 3%nat * m0 0%nat 2%nat + m2 2%nat 2%nat * m1 1%nat 2%nat * m0 0%nat 3%nat + m2 2%nat 2%nat * m1 1%nat 1%nat * m0 0%nat 4%nat - m2 2%nat 2%nat * m1 0%nat 4%nat * m0 1%nat 1%nat - m2 2%nat 2%nat * m1 0%nat 3%nat * m0 1%nat 2%nat - m2 2%nat 2%nat * m1 0%nat 2%nat * m0 1%nat 3%nat - m2 2%nat 2%nat * m1 0%nat 1%nat * m0 1%nat 4%nat + m2 2%nat 1%nat * m1 1%nat 4%nat * m0 0%nat 2%nat + m2 2%nat 1%nat * m1 1%nat 2%nat * m0 0%nat 4%nat - m2 2%nat 1%nat * m1 0%nat 4%nat * m0 1%nat 2%nat - m2 2%nat 1%nat * m1 0%nat 2%nat * m0 1%nat 4%nat - m2 1%nat 4%nat * m1 2%nat 2%nat * m0 0%nat 1%nat - m2 1%nat 4%nat * m1 2%nat 1%nat * m0 0%nat 2%nat + m2 1%nat 4%nat * m1 0%nat 2%nat * m0 2%nat 1%nat + m2 1%nat 4%nat * m1 0%nat 1%nat * m0 2%nat 2%nat - m2 1%nat 3%nat * m1 2%nat 2%nat * m0 0%nat 2%nat + m2 1%nat 3%nat * m1 0%nat 2%nat * m0 2%nat 2%nat - m2 1%nat 2%nat * m1 2%nat 4%nat * m0 0%nat 1%nat - m2 1%nat 2%nat * m1 2%nat 3%nat * m0 0%nat 2%nat - m2 1%nat 2%nat * m1 2%nat 2%nat * m0 0%nat 3%nat - m2 1%nat 2%nat * m1 2%nat 1%nat * m0 0%nat 4%nat + m2 1%nat 2%nat * m1 0%nat 4%nat * m0 2%nat 1%nat + m2 1%nat 2%nat * m1 0%nat 3%nat * m0 2%nat 2%nat + m2 1%nat 2%nat * m1 0%nat 2%nat * m0 2%nat 3%nat + m2 1%nat 2%nat * m1 0%nat 1%nat * m0 2%nat 4%nat - m2 1%nat 1%nat * m1 2%nat 4%nat * m0 0%nat 2%nat - m2 1%nat 1%nat * m1 2%nat 2%nat * m0 0%nat 4%nat + m2 1%nat 1%nat * m1 0%nat 4%nat * m0 2%nat 2%nat + m2 1%nat 1%nat * m1 0%nat 2%nat * m0 2%nat 4%nat + m2 0%nat 4%nat * m1 2%nat 2%nat * m0 1%nat 1%nat + m2 0%nat 4%nat * m1 2%nat 1%nat * m0 1%nat 2%nat - m2 0%nat 4%nat * m1 1%nat 2%nat * m0 2%nat 1%nat - m2 0%nat 4%nat * m1 1%nat 1%nat * m0 2%nat 2%nat + m2 0%nat 3%nat * m1 2%nat 2%nat * m0 1%nat 2%nat - m2 0%nat 3%nat * m1 1%nat 2%nat * m0 2%nat 2%nat + m2 0%nat 2%nat * m1 2%nat 4%nat * m0 1%nat 1%nat + m2 0%nat 2%nat * m1 2%nat 3%nat * m0 1%nat 2%nat + m2 0%nat 2%nat * m1 2%nat 2%nat * m0 1%nat 3%nat + m2 0%nat 2%nat * m1 2%nat 1%nat * m0 1%nat 4%nat - m2 0%nat 2%nat * m1 1%nat 4%nat * m0 2%nat 1%nat - m2 0%nat 2%nat * m1 1%nat 3%nat * m0 2%nat 2%nat - m2 0%nat 2%nat * m1 1%nat 2%nat * m0 2%nat 3%nat - m2 0%nat 2%nat * m1 1%nat 1%nat * m0 2%nat 4%nat + m2 0%nat 1%nat * m1 2%nat 4%nat * m0 1%nat 2%nat + m2 0%nat 1%nat * m1 2%nat 2%nat * m0 1%nat 4%nat - m2 0%nat 1%nat * m1 1%nat 4%nat * m0 2%nat 2%nat - m2 0%nat 1%nat * m1 1%nat 2%nat * m0 2%nat 4%nat;
    m2 2%nat 4%nat * m1 1%nat 2%nat * m0 0%nat 2%nat - m2 2%nat 4%nat * m1 0%nat 2%nat * m0 1%nat 2%nat + m2 2%nat 2%nat * m1 1%nat 4%nat * m0 0%nat 2%nat + m2 2%nat 2%nat * m1 1%nat 2%nat * m0 0%nat 4%nat - m2 2%nat 2%nat * m1 0%nat 4%nat * m0 1%nat 2%nat - m2 2%nat 2%nat * m1 0%nat 2%nat * m0 1%nat 4%nat - m2 1%nat 4%nat * m1 2%nat 2%nat * m0 0%nat 2%nat + m2 1%nat 4%nat * m1 0%nat 2%nat * m0 2%nat 2%nat - m2 1%nat 2%nat * m1 2%nat 4%nat * m0 0%nat 2%nat - m2 1%nat 2%nat * m1 2%nat 2%nat * m0 0%nat 4%nat + m2 1%nat 2%nat * m1 0%nat 4%nat * m0 2%nat 2%nat + m2 1%nat 2%nat * m1 0%nat 2%nat * m0 2%nat 4%nat + m2 0%nat 4%nat * m1 2%nat 2%nat * m0 1%nat 2%nat - m2 0%nat 4%nat * m1 1%nat 2%nat * m0 2%nat 2%nat + m2 0%nat 2%nat * m1 2%nat 4%nat * m0 1%nat 2%nat + m2 0%nat 2%nat * m1 2%nat 2%nat * m0 1%nat 4%nat - m2 0%nat 2%nat * m1 1%nat 4%nat * m0 2%nat 2%nat - m2 0%nat 2%nat * m1 1%nat 2%nat * m0 2%nat 4%nat;
    m2 2%nat 5%nat * m1 1%nat 0%nat * m0 0%nat 0%nat - m2 2%nat 5%nat * m1 0%nat 0%nat * m0 1%nat 0%nat + m2 2%nat 3%nat * m1 1%nat 3%nat * m0 0%nat 0%nat + m2 2%nat 3%nat * m1 1%nat 0%nat * m0 0%nat 3%nat - m2 2%nat 3%nat * m1 0%nat 3%nat * m0 1%nat 0%nat - m2 2%nat 3%nat * m1 0%nat 0%nat * m0 1%nat 3%nat + m2 2%nat 0%nat * m1 1%nat 5%nat * m0 0%nat 0%nat + m2 2%nat 0%nat * m1 1%nat 3%nat * m0 0%nat 3%nat + m2 2%nat 0%nat * m1 1%nat 0%nat * m0 0%nat 5%nat - m2 2%nat 0%nat * m1 0%nat 5%nat * m0 1%nat 0%nat - m2 2%nat 0%nat * m1 0%nat 3%nat * m0 1%nat 3%nat - m2 2%nat 0%nat * m1 0%nat 0%nat * m0 1%nat 5%nat - m2 1%nat 5%nat * m1 2%nat 0%nat * m0 0%nat 0%nat + m2 1%nat 5%nat * m1 0%nat 0%nat * m0 2%nat 0%nat - m2 1%nat 3%nat * m1 2%nat 3%nat * m0 0%nat 0%nat - m2 1%nat 3%nat * m1 2%nat 0%nat * m0 0%nat 3%nat + m2 1%nat 3%nat * m1 0%nat 3%nat * m0 2%nat 0%nat + m2 1%nat 3%nat * m1 0%nat 0%nat * m0 2%nat 3%nat - m2 1%nat 0%nat * m1 2%nat 5%nat * m0 0%nat 0%nat - m2 1%nat 0%nat * m1 2%nat 3%nat * m0 0%nat 3%nat - m2 1%nat 0%nat * m1 2%nat 0%nat * m0 0%nat 5%nat + m2 1%nat 0%nat * m1 0%nat 5%nat * m0 2%nat 0%nat + m2 1%nat 0%nat * m1 0%nat 3%nat * m0 2%nat 3%nat + m2 1%nat 0%nat * m1 0%nat 0%nat * m0 2%nat 5%nat + m2 0%nat 5%nat * m1 2%nat 0%nat * m0 1%nat 0%nat - m2 0%nat 5%nat * m1 1%nat 0%nat * m0 2%nat 0%nat + m2 0%nat 3%nat * m1 2%nat 3%nat * m0 1%nat 0%nat + m2 0%nat 3%nat * m1 2%nat 0%nat * m0 1%nat 3%nat - m2 0%nat 3%nat * m1 1%nat 3%nat * m0 2%nat 0%nat - m2 0%nat 3%nat * m1 1%nat 0%nat * m0 2%nat 3%nat + m2 0%nat 0%nat * m1 2%nat 5%nat * m0 1%nat 0%nat + m2 0%nat 0%nat * m1 2%nat 3%nat * m0 1%nat 3%nat + m2 0%nat 0%nat * m1 2%nat 0%nat * m0 1%nat 5%nat - m2 0%nat 0%nat * m1 1%nat 5%nat * m0 2%nat 0%nat - m2 0%nat 0%nat * m1 1%nat 3%nat * m0 2%nat 3%nat - m2 0%nat 0%nat * m1 1%nat 0%nat * m0 2%nat 5%nat;
    m2 2%nat 5%nat * m1 1%nat 1%nat * m0 0%nat 0%nat + m2 2%nat 5%nat * m1 1%nat 0%nat * m0 0%nat 1%nat - m2 2%nat 5%nat * m1 0%nat 1%nat * m0 1%nat 0%nat - m2 2%nat 5%nat * m1 0%nat 0%nat * m0 1%nat 1%nat + m2 2%nat 4%nat * m1 1%nat 3%nat * m0 0%nat 0%nat + m2 2%nat 4%nat * m1 1%nat 0%nat * m0 0%nat 3%nat - m2 2%nat 4%nat * m1 0%nat 3%nat * m0 1%nat 0%nat - m2 2%nat 4%nat * m1 0%nat 0%nat * m0 1%nat 3%nat + m2 2%nat 3%nat * m1 1%nat 4%nat * m0 0%nat 0%nat + m2 2%nat 3%nat * m1 1%nat 3%nat * m0 0%nat 1%nat + m2 2%nat 3%nat * m1 1%nat 1%nat * m0 0%nat 3%nat + m2 2%nat 3%nat * m1 1%nat 0%nat * m0 0%nat 4%nat - m2 2%nat 3%nat * m1 0%nat 4%nat * m0 1%nat 0%nat - m2 2%nat 3%nat * m1 0%nat 3%nat * m0 1%nat 1%nat - m2 2%nat 3%nat * m1 0%nat 1%nat * m0 1%nat 3%nat - m2 2%nat 3%nat * m1 0%nat 0%nat * m0 1%nat 4%nat + m2 2%nat 1%nat * m1 1%nat 5%nat * m0 0%nat 0%nat + m2 2%nat 1%nat * m1 1%nat 3%nat * m0 0%nat 3%nat + m2 2%nat 1%nat * m1 1%nat 0%nat * m0 0%nat 5%nat - m2 2%nat 1%nat * m1 0%nat 5%nat * m0 1%nat 0%nat - m2 2%nat 1%nat * m1 0%nat 3%nat * m0 1%nat 3%nat - m2 2%nat 1%nat * m1 0%nat 0%nat * m0 1%nat 5%nat + m2 2%nat 0%nat * m1 1%nat 5%nat * m0 0%nat 1%nat + m2 2%nat 0%nat * m1 1%nat 4%nat * m0 0%nat 3%nat + m2 2%nat 0%nat * m1 1%nat 3%nat * m0 0%nat 4%nat + m2 2%nat 0%nat * m1 1%nat 1%nat * m0 0%nat 5%nat - m2 2%nat 0%nat * m1 0%nat 5%nat * m0 1%nat 1%nat - m2 2%nat 0%nat * m1 0%nat 4%nat * m0 1%nat 3%nat - m2 2%nat 0%nat * m1 0%nat 3%nat * m0 1%nat 4%nat - m2 2%nat 0%nat * m1 0%nat 1%nat * m0 1%nat 5%nat - m2 1%nat 5%nat * m1 2%nat 1%nat * m0 0%nat 0%nat - m2 1%nat 5%nat * m1 2%nat 0%nat * m0 0%nat 1%nat + m2 1%nat 5%nat * m1 0%nat 1%nat * m0 2%nat 0%nat + m2 1%nat 5%nat * m1 0%nat 0%nat * m0 2%nat 1%nat - m2 1%nat 4%nat * m1 2%nat 3%nat * m0 0%nat 0%nat - m2 1%nat 4%nat * m1 2%nat 0%nat * m0 0%nat 3%nat + m2 1%nat 4%nat * m1 0%nat 3%nat * m0 2%nat 0%nat + m2 1%nat 4%nat * m1 0%nat 0%nat * m0 2%nat 3%nat - m2 1%nat 3%nat * m1 2%nat 4%nat * m0 0%nat 0%nat - m2 1%nat 3%nat * m1 2%nat 3%nat * m0 0%nat 1%nat - m2 1%nat 3%nat * m1 2%nat 1%nat * m0 0%nat 3%nat - m2 1%nat 3%nat * m1 2%nat 0%nat * m0 0%nat 4%nat + m2 1%nat 3%nat * m1 0%nat 4%nat * m0 2%nat 0%nat + m2 1%nat 3%nat * m1 0%nat 3%nat * m0 2%nat 1%nat + m2 1%nat 3%nat * m1 0%nat 1%nat * m0 2%nat 3%nat + m2 1%nat 3%nat * m1 0%nat 0%nat * m0 2%nat 4%nat - m2 1%nat 1%nat * m1 2%nat 5%nat * m0 0%nat 0%nat - m2 1%nat 1%nat * m1 2%nat 3%nat * m0 0%nat 3%nat - m2 1%nat 1%nat * m1 2%nat 0%nat * m0 0%nat 5%nat + m2 1%nat 1%nat * m1 0%nat 5%nat * m0 2%nat 0%nat + m2 1%nat 1%nat * m1 0%nat 3%nat * m0 2%nat 3%nat + m2 1%nat 1%nat * m1 0%nat 0%nat * m0 2%nat 5%nat - m2 1%nat 0%nat * m1 2%nat 5%nat * m0 0%nat 1%nat - m2 1%nat 0%nat * m1 2%nat 4%nat * m0 0%nat 3%nat - m2 1%nat 0%nat * m1 2%nat 3%nat * m0 0%nat 4%nat - m2 1%nat 0%nat * m1 2%nat 1%nat * m0 0%nat 5%nat + m2 1%nat 0%nat * m1 0%nat 5%nat * m0 2%nat 1%nat + m2 1%nat 0%nat * m1 0%nat 4%nat * m0 2%nat 3%nat + m2 1%nat 0%nat * m1 0%nat 3%nat * m0 2%nat 4%nat + m2 1%nat 0%nat * m1 0%nat 1%nat * m0 2%nat 5%nat + m2 0%nat 5%nat * m1 2%nat 1%nat * m0 1%nat 0%nat + m2 0%nat 5%nat * m1 2%nat 0%nat * m0 1%nat 1%nat - m2 0%nat 5%nat * m1 1%nat 1%nat * m0 2%nat 0%nat - m2 0%nat 5%nat * m1 1%nat 0%nat * m0 2%nat 1%nat + m2 0%nat 4%nat * m1 2%nat 3%nat * m0 1%nat 0%nat + m2 0%nat 4%nat * m1 2%nat 0%nat * m0 1%nat 3%nat - m2 0%nat 4%nat * m1 1%nat 3%nat * m0 2%nat 0%nat - m2 0%nat 4%nat * m1 1%nat 0%nat * m0 2%nat 3%nat + m2 0%nat 3%nat * m1 2%nat 4%nat * m0 1%nat 0%nat + m2 0%nat 3%nat * m1 2%nat 3%nat * m0 1%nat 1%nat + m2 0%nat 3%nat * m1 2%nat 1%nat * m0 1%nat 3%nat + m2 0%nat 3%nat * m1 2%nat 0%nat * m0 1%nat 4%nat - m2 0%nat 3%nat * m1 1%nat 4%nat * m0 2%nat 0%nat - m2 0%nat 3%nat * m1 1%nat 3%nat * m0 2%nat 1%nat - m2 0%nat 3%nat * m1 1%nat 1%nat * m0 2%nat 3%nat - m2 0%nat 3%nat * m1 1%nat 0%nat * m0 2%nat 4%nat + m2 0%nat 1%nat * m1 2%nat 5%nat * m0 1%nat 0%nat + m2 0%nat 1%nat * m1 2%nat 3%nat * m0 1%nat 3%nat + m2 0%nat 1%nat * m1 2%nat 0%nat * m0 1%nat 5%nat - m2 0%nat 1%nat * m1 1%nat 5%nat * m0 2%nat 0%nat - m2 0%nat 1%nat * m1 1%nat 3%nat * m0 2%nat 3%nat - m2 0%nat 1%nat * m1 1%nat 0%nat * m0 2%nat 5%nat + m2 0%nat 0%nat * m1 2%nat 5%nat * m0 1%nat 1%nat + m2 0%nat 0%nat * m1 2%nat 4%nat * m0 1%nat 3%nat + m2 0%nat 0%nat * m1 2%nat 3%nat * m0 1%nat 4%nat + m2 0%nat 0%nat * m1 2%nat 1%nat * m0 1%nat 5%nat - m2 0%nat 0%nat * m1 1%nat 5%nat * m0 2%nat 1%nat - m2 0%nat 0%nat * m1 1%nat 4%nat * m0 2%nat 3%nat - m2 0%nat 0%nat * m1 1%nat 3%nat * m0 2%nat 4%nat - m2 0%nat 0%nat * m1 1%nat 1%nat * m0 2%nat 5%nat;
    m2 2%nat 5%nat * m1 1%nat 2%nat * m0 0%nat 0%nat + m2 2%nat 5%nat * m1 1%nat 1%nat * m0 0%nat 1%nat + m2 2%nat 5%nat * m1 1%nat 0%nat * m0 0%nat 2%nat - m2 2%nat 5%nat * m1 0%nat 2%nat * m0 1%nat 0%nat - m2 2%nat 5%nat * m1 0%nat 1%nat * m0 1%nat 1%nat - m2 2%nat 5%nat * m1 0%nat 0%nat * m0 1%nat 2%nat + m2 2%nat 4%nat * m1 1%nat 4%nat * m0 0%nat 0%nat + m2 2%nat 4%nat * m1 1%nat 3%nat * m0 0%nat 1%nat + m2 2%nat 4%nat * m1 1%nat 1%nat * m0 0%nat 3%nat + m2 2%nat 4%nat * m1 1%nat 0%nat * m0 0%nat 4%nat - m2 2%nat 4%nat * m1 0%nat 4%nat * m0 1%nat 0%nat - m2 2%nat 4%nat * m1 0%nat 3%nat * m0 1%nat 1%nat - m2 2%nat 4%nat * m1 0%nat 1%nat * m0 1%nat 3%nat - m2 2%nat 4%nat * m1 0%nat 0%nat * m0 1%nat 4%nat + m2 2%nat 3%nat * m1 1%nat 4%nat * m0 0%nat 1%nat + m2 2%nat 3%nat * m1 1%nat 3%nat * m0 0%nat 2%nat + m2 2%nat 3%nat * m1 1%nat 2%nat * m0 0%nat 3%nat + m2 2%nat 3%nat * m1 1%nat 1%nat * m0 0%nat 4%nat - m2 2%nat 3%nat * m1 0%nat 4%nat * m0 1%nat 1%nat - m2 2%nat 3%nat * m1 0%nat 3%nat * m0 1%nat 2%nat - m2 2%nat 3%nat * m1 0%nat 2%nat * m0 1%nat 3%nat - m2 2%nat 3%nat * m1 0%nat 1%nat * m0 1%nat 4%nat + m2 2%nat 2%nat * m1 1%nat 5%nat * m0 0%nat 0%nat + m2 2%nat 2%nat * m1 1%nat 3%nat * m0 0%nat 3%nat + m2 2%nat 2%nat * m1 1%nat 0%nat * m0 0%nat 5%nat - m2 2%nat 2%nat * m1 0%nat 5%nat * m0 1%nat 0%nat - m2 2%nat 2%nat * m1 0%nat 3%nat * m0 1%nat 3%nat - m2 2%nat 2%nat * m1 0%nat 0%nat * m0 1%nat 5%nat + m2 2%nat 1%nat * m1 1%nat 5%nat * m0 0%nat 1%nat + m2 2%nat 1%nat * m1 1%nat 4%nat * m0 0%nat 3%nat + m2 2%nat 1%nat * m1 1%nat 3%nat * m0 0%nat 4%nat + m2 2%nat 1%nat * m1 1%nat 1%nat * m0 0%nat 5%nat - m2 2%nat 1%nat * m1 0%nat 5%nat * m0 1%nat 1%nat - m2 2%nat 1%nat * m1 0%nat 4%nat * m0 1%nat 3%nat - m2 2%nat 1%nat * m1 0%nat 3%nat * m0 1%nat 4%nat - m2 2%nat 1%nat * m1 0%nat 1%nat * m0 1%nat 5%nat + m2 2%nat 0%nat * m1 1%nat 5%nat * m0 0%nat 2%nat + m2 2%nat 0%nat * m1 1%nat 4%nat * m0 0%nat 4%nat + m2 2%nat 0%nat * m1 1%nat 2%nat * m0 0%nat 5%nat - m2 2%nat 0%nat * m1 0%nat 5%nat * m0 1%nat 2%nat - m2 2%nat 0%nat * m1 0%nat 4%nat * m0 1%nat 4%nat - m2 2%nat 0%nat * m1 0%nat 2%nat * m0 1%nat 5%nat - m2 1%nat 5%nat * m1 2%nat 2%nat * m0 0%nat 0%nat - m2 1%nat 5%nat * m1 2%nat 1%nat * m0 0%nat 1%nat - m2 1%nat 5%nat * m1 2%nat 0%nat * m0 0%nat 2%nat + m2 1%nat 5%nat * m1 0%nat 2%nat * m0 2%nat 0%nat + m2 1%nat 5%nat * m1 0%nat 1%nat * m0 2%nat 1%nat + m2 1%nat 5%nat * m1 0%nat 0%nat * m0 2%nat 2%nat - m2 1%nat 4%nat * m1 2%nat 4%nat * m0 0%nat 0%nat - m2 1%nat 4%nat * m1 2%nat 3%nat * m0 0%nat 1%nat - m2 1%nat 4%nat * m1 2%nat 1%nat * m0 0%nat 3%nat - m2 1%nat 4%nat * m1 2%nat 0%nat * m0 0%nat 4%nat + m2 1%nat 4%nat * m1 0%nat 4%nat * m0 2%nat 0%nat + m2 1%nat 4%nat * m1 0%nat 3%nat * m0 2%nat 1%nat + m2 1%nat 4%nat * m1 0%nat 1%nat * m0 2%nat 3%nat + m2 1%nat 4%nat * m1 0%nat 0%nat * m0 2%nat 4%nat - m2 1%nat 3%nat * m1 2%nat 4%nat * m0 0%nat 1%nat - m2 1%nat 3%nat * m1 2%nat 3%nat * m0 0%nat 2%nat - m2 1%nat 3%nat * m1 2%nat 2%nat * m0 0%nat 3%nat - m2 1%nat 3%nat * m1 2%nat 1%nat * m0 0%nat 4%nat + m2 1%nat 3%nat * m1 0%nat 4%nat * m0 2%nat 1%nat + m2 1%nat 3%nat * m1 0%nat 3%nat * m0 2%nat 2%nat + m2 1%nat 3%nat * m1 0%nat 2%nat * m0 2%nat 3%nat + m2 1%nat 3%nat * m1 0%nat 1%nat * m0 2%nat 4%nat - m2 1%nat 2%nat * m1 2%nat 5%nat * m0 0%nat 0%nat - m2 1%nat 2%nat * m1 2%nat 3%nat * m0 0%nat 3%nat - m2 1%nat 2%nat * m1 2%nat 0%nat * m0 0%nat 5%nat + m2 1%nat 2%nat * m1 0%nat 5%nat * m0 2%nat 0%nat + m2 1%nat 2%nat * m1 0%nat 3%nat * m0 2%nat 3%nat + m2 1%nat 2%nat * m1 0%nat 0%nat * m0 2%nat 5%nat - m2 1%nat 1%nat * m1 2%nat 5%nat * m0 0%nat 1%nat - m2 1%nat 1%nat * m1 2%nat 4%nat * m0 0%nat 3%nat - m2 1%nat 1%nat * m1 2%nat 3%nat * m0 0%nat 4%nat - m2 1%nat 1%nat * m1 2%nat 1%nat * m0 0%nat 5%nat + m2 1%nat 1%nat * m1 0%nat 5%nat * m0 2%nat 1%nat + m2 1%nat 1%nat * m1 0%nat 4%nat * m0 2%nat 3%nat + m2 1%nat 1%nat * m1 0%nat 3%nat * m0 2%nat 4%nat + m2 1%nat 1%nat * m1 0%nat 1%nat * m0 2%nat 5%nat - m2 1%nat 0%nat * m1 2%nat 5%nat * m0 0%nat 2%nat - m2 1%nat 0%nat * m1 2%nat 4%nat * m0 0%nat 4%nat - m2 1%nat 0%nat * m1 2%nat 2%nat * m0 0%nat 5%nat + m2 1%nat 0%nat * m1 0%nat 5%nat * m0 2%nat 2%nat + m2 1%nat 0%nat * m1 0%nat 4%nat * m0 2%nat 4%nat + m2 1%nat 0%nat * m1 0%nat 2%nat * m0 2%nat 5%nat + m2 0%nat 5%nat * m1 2%nat 2%nat * m0 1%nat 0%nat + m2 0%nat 5%nat * m1 2%nat 1%nat * m0 1%nat 1%nat + m2 0%nat 5%nat * m1 2%nat 0%nat * m0 1%nat 2%nat - m2 0%nat 5%nat * m1 1%nat 2%nat * m0 2%nat 0%nat - m2 0%nat 5%nat * m1 1%nat 1%nat * m0 2%nat 1%nat - m2 0%nat 5%nat * m1 1%nat 0%nat * m0 2%nat 2%nat + m2 0%nat 4%nat * m1 2%nat 4%nat * m0 1%nat 0%nat + m2 0%nat 4%nat * m1 2%nat 3%nat * m0 1%nat 1%nat + m2 0%nat 4%nat * m1 2%nat 1%nat * m0 1%nat 3%nat + m2 0%nat 4%nat * m1 2%nat 0%nat * m0 1%nat 4%nat - m2 0%nat 4%nat * m1 1%nat 4%nat * m0 2%nat 0%nat - m2 0%nat 4%nat * m1 1%nat 3%nat * m0 2%nat 1%nat - m2 0%nat 4%nat * m1 1%nat 1%nat * m0 2%nat 3%nat - m2 0%nat 4%nat * m1 1%nat 0%nat * m0 2%nat 4%nat + m2 0%nat 3%nat * m1 2%nat 4%nat * m0 1%nat 1%nat + m2 0%nat 3%nat * m1 2%nat 3%nat * m0 1%nat 2%nat + m2 0%nat 3%nat * m1 2%nat 2%nat * m0 1%nat 3%nat + m2 0%nat 3%nat * m1 2%nat 1%nat * m0 1%nat 4%nat - m2 0%nat 3%nat * m1 1%nat 4%nat * m0 2%nat 1%nat - m2 0%nat 3%nat * m1 1%nat 3%nat * m0 2%nat 2%nat - m2 0%nat 3%nat * m1 1%nat 2%nat * m0 2%nat 3%nat - m2 0%nat 3%nat * m1 1%nat 1%nat * m0 2%nat 4%nat + m2 0%nat 2%nat * m1 2%nat 5%nat * m0 1%nat 0%nat + m2 0%nat 2%nat * m1 2%nat 3%nat * m0 1%nat 3%nat + m2 0%nat 2%nat * m1 2%nat 0%nat * m0 1%nat 5%nat - m2 0%nat 2%nat * m1 1%nat 5%nat * m0 2%nat 0%nat - m2 0%nat 2%nat * m1 1%nat 3%nat * m0 2%nat 3%nat - m2 0%nat 2%nat * m1 1%nat 0%nat * m0 2%nat 5%nat + m2 0%nat 1%nat * m1 2%nat 5%nat * m0 1%nat 1%nat + m2 0%nat 1%nat * m1 2%nat 4%nat * m0 1%nat 3%nat + m2 0%nat 1%nat * m1 2%nat 3%nat * m0 1%nat 4%nat + m2 0%nat 1%nat * m1 2%nat 1%nat * m0 1%nat 5%nat - m2 0%nat 1%nat * m1 1%nat 5%nat * m0 2%nat 1%nat - m2 0%nat 1%nat * m1 1%nat 4%nat * m0 2%nat 3%nat - m2 0%nat 1%nat * m1 1%nat 3%nat * m0 2%nat 4%nat - m2 0%nat 1%nat * m1 1%nat 1%nat * m0 2%nat 5%nat + m2 0%nat 0%nat * m1 2%nat 5%nat * m0 1%nat 2%nat + m2 0%nat 0%nat * m1 2%nat 4%nat * m0 1%nat 4%nat + m2 0%nat 0%nat * m1 2%nat 2%nat * m0 1%nat 5%nat - m2 0%nat 0%nat * m1 1%nat 5%nat * m0 2%nat 2%nat - m2 0%nat 0%nat * m1 1%nat 4%nat * m0 2%nat 4%nat - m2 0%nat 0%nat * m1 1%nat 2%nat * m0 2%nat 5%nat;
    m2 2%nat 5%nat * m1 1%nat 2%nat * m0 0%nat 1%nat + m2 2%nat 5%nat * m1 1%nat 1%nat * m0 0%nat 2%nat - m2 2%nat 5%nat * m1 0%nat 2%nat * m0 1%nat 1%nat - m2 2%nat 5%nat * m1 0%nat 1%nat * m0 1%nat 2%nat + m2 2%nat 4%nat * m1 1%nat 4%nat * m0 0%nat 1%nat + m2 2%nat 4%nat * m1 1%nat 3%nat * m0 0%nat 2%nat + m2 2%nat 4%nat * m1 1%nat 2%nat * m0 0%nat 3%nat + m2 2%nat 4%nat * m1 1%nat 1%nat * m0 0%nat 4%nat - m2 2%nat 4%nat * m1 0%nat 4%nat * m0 1%nat 1%nat - m2 2%nat 4%nat * m1 0%nat 3%nat * m0 1%nat 2%nat - m2 2%nat 4%nat * m1 0%nat 2%nat * m0 1%nat 3%nat - m2 2%nat 4%nat * m1 0%nat 1%nat * m0 1%nat 4%nat + m2 2%nat 3%nat * m1 1%nat 4%nat * m0 0%nat 2%nat + m2 2%nat 3%nat * m1 1%nat 2%nat * m0 0%nat 4%nat - m2 2%nat 3%nat * m1 0%nat 4%nat * m0 1%nat 2%nat - m2 2%nat 3%nat * m1 0%nat 2%nat * m0 1%nat 4%nat + m2 2%nat 2%nat * m1 1%nat 5%nat * m0 0%nat 1%nat + m2 2%nat 2%nat * m1 1%nat 4%nat * m0 0%nat 3%nat + m2 2%nat 2%nat * m1 1%nat 3%nat * m0 0%nat 4%nat + m2 2%nat 2%nat * m1 1%nat 1%nat * m0 0%nat 5%nat - m2 2%nat 2%nat * m1 0%nat 5%nat * m0 1%nat 1%nat - m2 2%nat 2%nat * m1 0%nat 4%nat * m0 1%nat 3%nat - m2 2%nat 2%nat * m1 0%nat 3%nat * m0 1%nat 4%nat - m2 2%nat 2%nat * m1 0%nat 1%nat * m0 1%nat 5%nat + m2 2%nat 1%nat * m1 1%nat 5%nat * m0 0%nat 2%nat + m2 2%nat 1%nat * m1 1%nat 4%nat * m0 0%nat 4%nat + m2 2%nat 1%nat * m1 1%nat 2%nat * m0 0%nat 5%nat - m2 2%nat 1%nat * m1 0%nat 5%nat * m0 1%nat 2%nat - m2 2%nat 1%nat * m1 0%nat 4%nat * m0 1%nat 4%nat - m2 2%nat 1%nat * m1 0%nat 2%nat * m0 1%nat 5%nat - m2 1%nat 5%nat * m1 2%nat 2%nat * m0 0%nat 1%nat - m2 1%nat 5%nat * m1 2%nat 1%nat * m0 0%nat 2%nat + m2 1%nat 5%nat * m1 0%nat 2%nat * m0 2%nat 1%nat + m2 1%nat 5%nat * m1 0%nat 1%nat * m0 2%nat 2%nat - m2 1%nat 4%nat * m1 2%nat 4%nat * m0 0%nat 1%nat - m2 1%nat 4%nat * m1 2%nat 3%nat * m0 0%nat 2%nat - m2 1%nat 4%nat * m1 2%nat 2%nat * m0 0%nat 3%nat - m2 1%nat 4%nat * m1 2%nat 1%nat * m0 0%nat 4%nat + m2 1%nat 4%nat * m1 0%nat 4%nat * m0 2%nat 1%nat + m2 1%nat 4%nat * m1 0%nat 3%nat * m0 2%nat 2%nat + m2 1%nat 4%nat * m1 0%nat 2%nat * m0 2%nat 3%nat + m2 1%nat 4%nat * m1 0%nat 1%nat * m0 2%nat 4%nat - m2 1%nat 3%nat * m1 2%nat 4%nat * m0 0%nat 2%nat - m2 1%nat 3%nat * m1 2%nat 2%nat * m0 0%nat 4%nat + m2 1%nat 3%nat * m1 0%nat 4%nat * m0 2%nat 2%nat + m2 1%nat 3%nat * m1 0%nat 2%nat * m0 2%nat 4%nat - m2 1%nat 2%nat * m1 2%nat 5%nat * m0 0%nat 1%nat - m2 1%nat 2%nat * m1 2%nat 4%nat * m0 0%nat 3%nat - m2 1%nat 2%nat * m1 2%nat 3%nat * m0 0%nat 4%nat - m2 1%nat 2%nat * m1 2%nat 1%nat * m0 0%nat 5%nat + m2 1%nat 2%nat * m1 0%nat 5%nat * m0 2%nat 1%nat + m2 1%nat 2%nat * m1 0%nat 4%nat * m0 2%nat 3%nat + m2 1%nat 2%nat * m1 0%nat 3%nat * m0 2%nat 4%nat + m2 1%nat 2%nat * m1 0%nat 1%nat * m0 2%nat 5%nat - m2 1%nat 1%nat * m1 2%nat 5%nat * m0 0%nat 2%nat - m2 1%nat 1%nat * m1 2%nat 4%nat * m0 0%nat 4%nat - m2 1%nat 1%nat * m1 2%nat 2%nat * m0 0%nat 5%nat + m2 1%nat 1%nat * m1 0%nat 5%nat * m0 2%nat 2%nat + m2 1%nat 1%nat * m1 0%nat 4%nat * m0 2%nat 4%nat + m2 1%nat 1%nat * m1 0%nat 2%nat * m0 2%nat 5%nat + m2 0%nat 5%nat * m1 2%nat 2%nat * m0 1%nat 1%nat + m2 0%nat 5%nat * m1 2%nat 1%nat * m0 1%nat 2%nat - m2 0%nat 5%nat * m1 1%nat 2%nat * m0 2%nat 1%nat - m2 0%nat 5%nat * m1 1%nat 1%nat * m0 2%nat 2%nat + m2 0%nat 4%nat * m1 2%nat 4%nat * m0 1%nat 1%nat + m2 0%nat 4%nat * m1 2%nat 3%nat * m0 1%nat 2%nat + m2 0%nat 4%nat * m1 2%nat 2%nat * m0 1%nat 3%nat + m2 0%nat 4%nat * m1 2%nat 1%nat * m0 1%nat 4%nat - m2 0%nat 4%nat * m1 1%nat 4%nat * m0 2%nat 1%nat - m2 0%nat 4%nat * m1 1%nat 3%nat * m0 2%nat 2%nat - m2 0%nat 4%nat * m1 1%nat 2%nat * m0 2%nat 3%nat - m2 0%nat 4%nat * m1 1%nat 1%nat * m0 2%nat 4%nat + m2 0%nat 3%nat * m1 2%nat 4%nat * m0 1%nat 2%nat + m2 0%nat 3%nat * m1 2%nat 2%nat * m0 1%nat 4%nat - m2 0%nat 3%nat * m1 1%nat 4%nat * m0 2%nat 2%nat - m2 0%nat 3%nat * m1 1%nat 2%nat * m0 2%nat 4%nat + m2 0%nat 2%nat * m1 2%nat 5%nat * m0 1%nat 1%nat + m2 0%nat 2%nat * m1 2%nat 4%nat * m0 1%nat 3%nat + m2 0%nat 2%nat * m1 2%nat 3%nat * m0 1%nat 4%nat + m2 0%nat 2%nat * m1 2%nat 1%nat * m0 1%nat 5%nat - m2 0%nat 2%nat * m1 1%nat 5%nat * m0 2%nat 1%nat - m2 0%nat 2%nat * m1 1%nat 4%nat * m0 2%nat 3%nat - m2 0%nat 2%nat * m1 1%nat 3%nat * m0 2%nat 4%nat - m2 0%nat 2%nat * m1 1%nat 1%nat * m0 2%nat 5%nat + m2 0%nat 1%nat * m1 2%nat 5%nat * m0 1%nat 2%nat + m2 0%nat 1%nat * m1 2%nat 4%nat * m0 1%nat 4%nat + m2 0%nat 1%nat * m1 2%nat 2%nat * m0 1%nat 5%nat - m2 0%nat 1%nat * m1 1%nat 5%nat * m0 2%nat 2%nat - m2 0%nat 1%nat * m1 1%nat 4%nat * m0 2%nat 4%nat - m2 0%nat 1%nat * m1 1%nat 2%nat * m0 2%nat 5%nat;
    m2 2%nat 5%nat * m1 1%nat 2%nat * m0 0%nat 2%nat - m2 2%nat 5%nat * m1 0%nat 2%nat * m0 1%nat 2%nat + m2 2%nat 4%nat * m1 1%nat 4%nat * m0 0%nat 2%nat + m2 2%nat 4%nat * m1 1%nat 2%nat * m0 0%nat 4%nat - m2 2%nat 4%nat * m1 0%nat 4%nat * m0 1%nat 2%nat - m2 2%nat 4%nat * m1 0%nat 2%nat * m0 1%nat 4%nat + m2 2%nat 2%nat * m1 1%nat 5%nat * m0 0%nat 2%nat + m2 2%nat 2%nat * m1 1%nat 4%nat * m0 0%nat 4%nat + m2 2%nat 2%nat * m1 1%nat 2%nat * m0 0%nat 5%nat - m2 2%nat 2%nat * m1 0%nat 5%nat * m0 1%nat 2%nat - m2 2%nat 2%nat * m1 0%nat 4%nat * m0 1%nat 4%nat - m2 2%nat 2%nat * m1 0%nat 2%nat * m0 1%nat 5%nat - m2 1%nat 5%nat * m1 2%nat 2%nat * m0 0%nat 2%nat + m2 1%nat 5%nat * m1 0%nat 2%nat * m0 2%nat 2%nat - m2 1%nat 4%nat * m1 2%nat 4%nat * m0 0%nat 2%nat - m2 1%nat 4%nat * m1 2%nat 2%nat * m0 0%nat 4%nat + m2 1%nat 4%nat * m1 0%nat 4%nat * m0 2%nat 2%nat + m2 1%nat 4%nat * m1 0%nat 2%nat * m0 2%nat 4%nat - m2 1%nat 2%nat * m1 2%nat 5%nat * m0 0%nat 2%nat - m2 1%nat 2%nat * m1 2%nat 4%nat * m0 0%nat 4%nat - m2 1%nat 2%nat * m1 2%nat 2%nat * m0 0%nat 5%nat + m2 1%nat 2%nat * m1 0%nat 5%nat * m0 2%nat 2%nat + m2 1%nat 2%nat * m1 0%nat 4%nat * m0 2%nat 4%nat + m2 1%nat 2%nat * m1 0%nat 2%nat * m0 2%nat 5%nat + m2 0%nat 5%nat * m1 2%nat 2%nat * m0 1%nat 2%nat - m2 0%nat 5%nat * m1 1%nat 2%nat * m0 2%nat 2%nat + m2 0%nat 4%nat * m1 2%nat 4%nat * m0 1%nat 2%nat + m2 0%nat 4%nat * m1 2%nat 2%nat * m0 1%nat 4%nat - m2 0%nat 4%nat * m1 1%nat 4%nat * m0 2%nat 2%nat - m2 0%nat 4%nat * m1 1%nat 2%nat * m0 2%nat 4%nat + m2 0%nat 2%nat * m1 2%nat 5%nat * m0 1%nat 2%nat + m2 0%nat 2%nat * m1 2%nat 4%nat * m0 1%nat 4%nat + m2 0%nat 2%nat * m1 2%nat 2%nat * m0 1%nat 5%nat - m2 0%nat 2%nat * m1 1%nat 5%nat * m0 2%nat 2%nat - m2 0%nat 2%nat * m1 1%nat 4%nat * m0 2%nat 4%nat - m2 0%nat 2%nat * m1 1%nat 2%nat * m0 2%nat 5%nat;
    m2 2%nat 5%nat * m1 1%nat 3%nat * m0 0%nat 0%nat + m2 2%nat 5%nat * m1 1%nat 0%nat * m0 0%nat 3%nat - m2 2%nat 5%nat * m1 0%nat 3%nat * m0 1%nat 0%nat - m2 2%nat 5%nat * m1 0%nat 0%nat * m0 1%nat 3%nat + m2 2%nat 3%nat * m1 1%nat 5%nat * m0 0%nat 0%nat + m2 2%nat 3%nat * m1 1%nat 3%nat * m0 0%nat 3%nat + m2 2%nat 3%nat * m1 1%nat 0%nat * m0 0%nat 5%nat - m2 2%nat 3%nat * m1 0%nat 5%nat * m0 1%nat 0%nat - m2 2%nat 3%nat * m1 0%nat 3%nat * m0 1%nat 3%nat - m2 2%nat 3%nat * m1 0%nat 0%nat * m0 1%nat 5%nat + m2 2%nat 0%nat * m1 1%nat 5%nat * m0 0%nat 3%nat + m2 2%nat 0%nat * m1 1%nat 3%nat * m0 0%nat 5%nat - m2 2%nat 0%nat * m1 0%nat 5%nat * m0 1%nat 3%nat - m2 2%nat 0%nat * m1 0%nat 3%nat * m0 1%nat 5%nat - m2 1%nat 5%nat * m1 2%nat 3%nat * m0 0%nat 0%nat - m2 1%nat 5%nat * m1 2%nat 0%nat * m0 0%nat 3%nat + m2 1%nat 5%nat * m1 0%nat 3%nat * m0 2%nat 0%nat + m2 1%nat 5%nat * m1 0%nat 0%nat * m0 2%nat 3%nat - m2 1%nat 3%nat * m1 2%nat 5%nat * m0 0%nat 0%nat - m2 1%nat 3%nat * m1 2%nat 3%nat * m0 0%nat 3%nat - m2 1%nat 3%nat * m1 2%nat 0%nat * m0 0%nat 5%nat + m2 1%nat 3%nat * m1 0%nat 5%nat * m0 2%nat 0%nat + m2 1%nat 3%nat * m1 0%nat 3%nat * m0 2%nat 3%nat + m2 1%nat 3%nat * m1 0%nat 0%nat * m0 2%nat 5%nat - m2 1%nat 0%nat * m1 2%nat 5%nat * m0 0%nat 3%nat - m2 1%nat 0%nat * m1 2%nat 3%nat * m0 0%nat 5%nat + m2 1%nat 0%nat * m1 0%nat 5%nat * m0 2%nat 3%nat + m2 1%nat 0%nat * m1 0%nat 3%nat * m0 2%nat 5%nat + m2 0%nat 5%nat * m1 2%nat 3%nat * m0 1%nat 0%nat + m2 0%nat 5%nat * m1 2%nat 0%nat * m0 1%nat 3%nat - m2 0%nat 5%nat * m1 1%nat 3%nat * m0 2%nat 0%nat - m2 0%nat 5%nat * m1 1%nat 0%nat * m0 2%nat 3%nat + m2 0%nat 3%nat * m1 2%nat 5%nat * m0 1%nat 0%nat + m2 0%nat 3%nat * m1 2%nat 3%nat * m0 1%nat 3%nat + m2 0%nat 3%nat * m1 2%nat 0%nat * m0 1%nat 5%nat - m2 0%nat 3%nat * m1 1%nat 5%nat * m0 2%nat 0%nat - m2 0%nat 3%nat * m1 1%nat 3%nat * m0 2%nat 3%nat - m2 0%nat 3%nat * m1 1%nat 0%nat * m0 2%nat 5%nat + m2 0%nat 0%nat * m1 2%nat 5%nat * m0 1%nat 3%nat + m2 0%nat 0%nat * m1 2%nat 3%nat * m0 1%nat 5%nat - m2 0%nat 0%nat * m1 1%nat 5%nat * m0 2%nat 3%nat - m2 0%nat 0%nat * m1 1%nat 3%nat * m0 2%nat 5%nat;
    m2 2%nat 5%nat * m1 1%nat 4%nat * m0 0%nat 0%nat + m2 2%nat 5%nat * m1 1%nat 3%nat * m0 0%nat 1%nat + m2 2%nat 5%nat * m1 1%nat 1%nat * m0 0%nat 3%nat + m2 2%nat 5%nat * m1 1%nat 0%nat * m0 0%nat 4%nat - m2 2%nat 5%nat * m1 0%nat 4%nat * m0 1%nat 0%nat - m2 2%nat 5%nat * m1 0%nat 3%nat * m0 1%nat 1%nat - m2 2%nat 5%nat * m1 0%nat 1%nat * m0 1%nat 3%nat - m2 2%nat 5%nat * m1 0%nat 0%nat * m0 1%nat 4%nat + m2 2%nat 4%nat * m1 1%nat 5%nat * m0 0%nat 0%nat + m2 2%nat 4%nat * m1 1%nat 3%nat * m0 0%nat 3%nat + m2 2%nat 4%nat * m1 1%nat 0%nat * m0 0%nat 5%nat - m2 2%nat 4%nat * m1 0%nat 5%nat * m0 1%nat 0%nat - m2 2%nat 4%nat * m1 0%nat 3%nat * m0 1%nat 3%nat - m2 2%nat 4%nat * m1 0%nat 0%nat * m0 1%nat 5%nat + m2 2%nat 3%nat * m1 1%nat 5%nat * m0 0%nat 1%nat + m2 2%nat 3%nat * m1 1%nat 4%nat * m0 0%nat 3%nat + m2 2%nat 3%nat * m1 1%nat 3%nat * m0 0%nat 4%nat + m2 2%nat 3%nat * m1 1%nat 1%nat * m0 0%nat 5%nat - m2 2%nat 3%nat * m1 0%nat 5%nat * m0 1%nat 1%nat - m2 2%nat 3%nat * m1 0%nat 4%nat * m0 1%nat 3%nat - m2 2%nat 3%nat * m1 0%nat 3%nat * m0 1%nat 4%nat - m2 2%nat 3%nat * m1 0%nat 1%nat * m0 1%nat 5%nat + m2 2%nat 1%nat * m1 1%nat 5%nat * m0 0%nat 3%nat + m2 2%nat 1%nat * m1 1%nat 3%nat * m0 0%nat 5%nat - m2 2%nat 1%nat * m1 0%nat 5%nat * m0 1%nat 3%nat - m2 2%nat 1%nat * m1 0%nat 3%nat * m0 1%nat 5%nat + m2 2%nat 0%nat * m1 1%nat 5%nat * m0 0%nat 4%nat + m2 2%nat 0%nat * m1 1%nat 4%nat * m0 0%nat 5%nat - m2 2%nat 0%nat * m1 0%nat 5%nat * m0 1%nat 4%nat - m2 2%nat 0%nat * m1 0%nat 4%nat * m0 1%nat 5%nat - m2 1%nat 5%nat * m1 2%nat 4%nat * m0 0%nat 0%nat - m2 1%nat 5%nat * m1 2%nat 3%nat * m0 0%nat 1%nat - m2 1%nat 5%nat * m1 2%nat 1%nat * m0 0%nat 3%nat - m2 1%nat 5%nat * m1 2%nat 0%nat * m0 0%nat 4%nat + m2 1%nat 5%nat * m1 0%nat 4%nat * m0 2%nat 0%nat + m2 1%nat 5%nat * m1 0%nat 3%nat * m0 2%nat 1%nat + m2 1%nat 5%nat * m1 0%nat 1%nat * m0 2%nat 3%nat + m2 1%nat 5%nat * m1 0%nat 0%nat * m0 2%nat 4%nat - m2 1%nat 4%nat * m1 2%nat 5%nat * m0 0%nat 0%nat - m2 1%nat 4%nat * m1 2%nat 3%nat * m0 0%nat 3%nat - m2 1%nat 4%nat * m1 2%nat 0%nat * m0 0%nat 5%nat + m2 1%nat 4%nat * m1 0%nat 5%nat * m0 2%nat 0%nat + m2 1%nat 4%nat * m1 0%nat 3%nat * m0 2%nat 3%nat + m2 1%nat 4%nat * m1 0%nat 0%nat * m0 2%nat 5%nat - m2 1%nat 3%nat * m1 2%nat 5%nat * m0 0%nat 1%nat - m2 1%nat 3%nat * m1 2%nat 4%nat * m0 0%nat 3%nat - m2 1%nat 3%nat * m1 2%nat 3%nat * m0 0%nat 4%nat - m2 1%nat 3%nat * m1 2%nat 1%nat * m0 0%nat 5%nat + m2 1%nat 3%nat * m1 0%nat 5%nat * m0 2%nat 1%nat + m2 1%nat 3%nat * m1 0%nat 4%nat * m0 2%nat 3%nat + m2 1%nat 3%nat * m1 0%nat 3%nat * m0 2%nat 4%nat + m2 1%nat 3%nat * m1 0%nat 1%nat * m0 2%nat 5%nat - m2 1%nat 1%nat * m1 2%nat 5%nat * m0 0%nat 3%nat - m2 1%nat 1%nat * m1 2%nat 3%nat * m0 0%nat 5%nat + m2 1%nat 1%nat * m1 0%nat 5%nat * m0 2%nat 3%nat + m2 1%nat 1%nat * m1 0%nat 3%nat * m0 2%nat 5%nat - m2 1%nat 0%nat * m1 2%nat 5%nat * m0 0%nat 4%nat - m2 1%nat 0%nat * m1 2%nat 4%nat * m0 0%nat 5%nat + m2 1%nat 0%nat * m1 0%nat 5%nat * m0 2%nat 4%nat + m2 1%nat 0%nat * m1 0%nat 4%nat * m0 2%nat 5%nat + m2 0%nat 5%nat * m1 2%nat 4%nat * m0 1%nat 0%nat + m2 0%nat 5%nat * m1 2%nat 3%nat * m0 1%nat 1%nat + m2 0%nat 5%nat * m1 2%nat 1%nat * m0 1%nat 3%nat + m2 0%nat 5%nat * m1 2%nat 0%nat * m0 1%nat 4%nat - m2 0%nat 5%nat * m1 1%nat 4%nat * m0 2%nat 0%nat - m2 0%nat 5%nat * m1 1%nat 3%nat * m0 2%nat 1%nat - m2 0%nat 5%nat * m1 1%nat 1%nat * m0 2%nat 3%nat - m2 0%nat 5%nat * m1 1%nat 0%nat * m0 2%nat 4%nat + m2 0%nat 4%nat * m1 2%nat 5%nat * m0 1%nat 0%nat + m2 0%nat 4%nat * m1 2%nat 3%nat * m0 1%nat 3%nat + m2 0%nat 4%nat * m1 2%nat 0%nat * m0 1%nat 5%nat - m2 0%nat 4%nat * m1 1%nat 5%nat * m0 2%nat 0%nat - m2 0%nat 4%nat * m1 1%nat 3%nat * m0 2%nat 3%nat - m2 0%nat 4%nat * m1 1%nat 0%nat * m0 2%nat 5%nat + m2 0%nat 3%nat * m1 2%nat 5%nat * m0 1%nat 1%nat + m2 0%nat 3%nat * m1 2%nat 4%nat * m0 1%nat 3%nat + m2 0%nat 3%nat * m1 2%nat 3%nat * m0 1%nat 4%nat + m2 0%nat 3%nat * m1 2%nat 1%nat * m0 1%nat 5%nat - m2 0%nat 3%nat * m1 1%nat 5%nat * m0 2%nat 1%nat - m2 0%nat 3%nat * m1 1%nat 4%nat * m0 2%nat 3%nat - m2 0%nat 3%nat * m1 1%nat 3%nat * m0 2%nat 4%nat - m2 0%nat 3%nat * m1 1%nat 1%nat * m0 2%nat 5%nat + m2 0%nat 1%nat * m1 2%nat 5%nat * m0 1%nat 3%nat + m2 0%nat 1%nat * m1 2%nat 3%nat * m0 1%nat 5%nat - m2 0%nat 1%nat * m1 1%nat 5%nat * m0 2%nat 3%nat - m2 0%nat 1%nat * m1 1%nat 3%nat * m0 2%nat 5%nat + m2 0%nat 0%nat * m1 2%nat 5%nat * m0 1%nat 4%nat + m2 0%nat 0%nat * m1 2%nat 4%nat * m0 1%nat 5%nat - m2 0%nat 0%nat * m1 1%nat 5%nat * m0 2%nat 4%nat - m2 0%nat 0%nat * m1 1%nat 4%nat * m0 2%nat 5%nat;
    m2 2%nat 5%nat * m1 1%nat 4%nat * m0 0%nat 1%nat + m2 2%nat 5%nat * m1 1%nat 3%nat * m0 0%nat 2%nat + m2 2%nat 5%nat * m1 1%nat 2%nat * m0 0%nat 3%nat + m2 2%nat 5%nat * m1 1%nat 1%nat * m0 0%nat 4%nat - m2 2%nat 5%nat * m1 0%nat 4%nat * m0 1%nat 1%nat - m2 2%nat 5%nat * m1 0%nat 3%nat * m0 1%nat 2%nat - m2 2%nat 5%nat * m1 0%nat 2%nat * m0 1%nat 3%nat - m2 2%nat 5%nat * m1 0%nat 1%nat * m0 1%nat 4%nat + m2 2%nat 4%nat * m1 1%nat 5%nat * m0 0%nat 1%nat + m2 2%nat 4%nat * m1 1%nat 4%nat * m0 0%nat 3%nat + m2 2%nat 4%nat * m1 1%nat 3%nat * m0 0%nat 4%nat + m2 2%nat 4%nat * m1 1%nat 1%nat * m0 0%nat 5%nat - m2 2%nat 4%nat * m1 0%nat 5%nat * m0 1%nat 1%nat - m2 2%nat 4%nat * m1 0%nat 4%nat * m0 1%nat 3%nat - m2 2%nat 4%nat * m1 0%nat 3%nat * m0 1%nat 4%nat - m2 2%nat 4%nat * m1 0%nat 1%nat * m0 1%nat 5%nat + m2 2%nat 3%nat * m1 1%nat 5%nat * m0 0%nat 2%nat + m2 2%nat 3%nat * m1 1%nat 4%nat * m0 0%nat 4%nat + m2 2%nat 3%nat * m1 1%nat 2%nat * m0 0%nat 5%nat - m2 2%nat 3%nat * m1 0%nat 5%nat * m0 1%nat 2%nat - m2 2%nat 3%nat * m1 0%nat 4%nat * m0 1%nat 4%nat - m2 2%nat 3%nat * m1 0%nat 2%nat * m0 1%nat 5%nat + m2 2%nat 2%nat * m1 1%nat 5%nat * m0 0%nat 3%nat + m2 2%nat 2%nat * m1 1%nat 3%nat * m0 0%nat 5%nat - m2 2%nat 2%nat * m1 0%nat 5%nat * m0 1%nat 3%nat - m2 2%nat 2%nat * m1 0%nat 3%nat * m0 1%nat 5%nat + m2 2%nat 1%nat * m1 1%nat 5%nat * m0 0%nat 4%nat + m2 2%nat 1%nat * m1 1%nat 4%nat * m0 0%nat 5%nat - m2 2%nat 1%nat * m1 0%nat 5%nat * m0 1%nat 4%nat - m2 2%nat 1%nat * m1 0%nat 4%nat * m0 1%nat 5%nat - m2 1%nat 5%nat * m1 2%nat 4%nat * m0 0%nat 1%nat - m2 1%nat 5%nat * m1 2%nat 3%nat * m0 0%nat 2%nat - m2 1%nat 5%nat * m1 2%nat 2%nat * m0 0%nat 3%nat - m2 1%nat 5%nat * m1 2%nat 1%nat * m0 0%nat 4%nat + m2 1%nat 5%nat * m1 0%nat 4%nat * m0 2%nat 1%nat + m2 1%nat 5%nat * m1 0%nat 3%nat * m0 2%nat 2%nat + m2 1%nat 5%nat * m1 0%nat 2%nat * m0 2%nat 3%nat + m2 1%nat 5%nat * m1 0%nat 1%nat * m0 2%nat 4%nat - m2 1%nat 4%nat * m1 2%nat 5%nat * m0 0%nat 1%nat - m2 1%nat 4%nat * m1 2%nat 4%nat * m0 0%nat 3%nat - m2 1%nat 4%nat * m1 2%nat 3%nat * m0 0%nat 4%nat - m2 1%nat 4%nat * m1 2%nat 1%nat * m0 0%nat 5%nat + m2 1%nat 4%nat * m1 0%nat 5%nat * m0 2%nat 1%nat + m2 1%nat 4%nat * m1 0%nat 4%nat * m0 2%nat 3%nat + m2 1%nat 4%nat * m1 0%nat 3%nat * m0 2%nat 4%nat + m2 1%nat 4%nat * m1 0%nat 1%nat * m0 2%nat 5%nat - m2 1%nat 3%nat * m1 2%nat 5%nat * m0 0%nat 2%nat - m2 1%nat 3%nat * m1 2%nat 4%nat * m0 0%nat 4%nat - m2 1%nat 3%nat * m1 2%nat 2%nat * m0 0%nat 5%nat + m2 1%nat 3%nat * m1 0%nat 5%nat * m0 2%nat 2%nat + m2 1%nat 3%nat * m1 0%nat 4%nat * m0 2%nat 4%nat + m2 1%nat 3%nat * m1 0%nat 2%nat * m0 2%nat 5%nat - m2 1%nat 2%nat * m1 2%nat 5%nat * m0 0%nat 3%nat - m2 1%nat 2%nat * m1 2%nat 3%nat * m0 0%nat 5%nat + m2 1%nat 2%nat * m1 0%nat 5%nat * m0 2%nat 3%nat + m2 1%nat 2%nat * m1 0%nat 3%nat * m0 2%nat 5%nat - m2 1%nat 1%nat * m1 2%nat 5%nat * m0 0%nat 4%nat - m2 1%nat 1%nat * m1 2%nat 4%nat * m0 0%nat 5%nat + m2 1%nat 1%nat * m1 0%nat 5%nat * m0 2%nat 4%nat + m2 1%nat 1%nat * m1 0%nat 4%nat * m0 2%nat 5%nat + m2 0%nat 5%nat * m1 2%nat 4%nat * m0 1%nat 1%nat + m2 0%nat 5%nat * m1 2%nat 3%nat * m0 1%nat 2%nat + m2 0%nat 5%nat * m1 2%nat 2%nat * m0 1%nat 3%nat + m2 0%nat 5%nat * m1 2%nat 1%nat * m0 1%nat 4%nat - m2 0%nat 5%nat * m1 1%nat 4%nat * m0 2%nat 1%nat - m2 0%nat 5%nat * m1 1%nat 3%nat * m0 2%nat 2%nat - m2 0%nat 5%nat * m1 1%nat 2%nat * m0 2%nat 3%nat - m2 0%nat 5%nat * m1 1%nat 1%nat * m0 2%nat 4%nat + m2 0%nat 4%nat * m1 2%nat 5%nat * m0 1%nat 1%nat + m2 0%nat 4%nat * m1 2%nat 4%nat * m0 1%nat 3%nat + m2 0%nat 4%nat * m1 2%nat 3%nat * m0 1%nat 4%nat + m2 0%nat 4%nat * m1 2%nat 1%nat * m0 1%nat 5%nat - m2 0%nat 4%nat * m1 1%nat 5%nat * m0 2%nat 1%nat - m2 0%nat 4%nat * m1 1%nat 4%nat * m0 2%nat 3%nat - m2 0%nat 4%nat * m1 1%nat 3%nat * m0 2%nat 4%nat - m2 0%nat 4%nat * m1 1%nat 1%nat * m0 2%nat 5%nat + m2 0%nat 3%nat * m1 2%nat 5%nat * m0 1%nat 2%nat + m2 0%nat 3%nat * m1 2%nat 4%nat * m0 1%nat 4%nat + m2 0%nat 3%nat * m1 2%nat 2%nat * m0 1%nat 5%nat - m2 0%nat 3%nat * m1 1%nat 5%nat * m0 2%nat 2%nat - m2 0%nat 3%nat * m1 1%nat 4%nat * m0 2%nat 4%nat - m2 0%nat 3%nat * m1 1%nat 2%nat * m0 2%nat 5%nat + m2 0%nat 2%nat * m1 2%nat 5%nat * m0 1%nat 3%nat + m2 0%nat 2%nat * m1 2%nat 3%nat * m0 1%nat 5%nat - m2 0%nat 2%nat * m1 1%nat 5%nat * m0 2%nat 3%nat - m2 0%nat 2%nat * m1 1%nat 3%nat * m0 2%nat 5%nat + m2 0%nat 1%nat * m1 2%nat 5%nat * m0 1%nat 4%nat + m2 0%nat 1%nat * m1 2%nat 4%nat * m0 1%nat 5%nat - m2 0%nat 1%nat * m1 1%nat 5%nat * m0 2%nat 4%nat - m2 0%nat 1%nat * m1 1%nat 4%nat * m0 2%nat 5%nat;
    m2 2%nat 5%nat * m1 1%nat 4%nat * m0 0%nat 2%nat + m2 2%nat 5%nat * m1 1%nat 2%nat * m0 0%nat 4%nat - m2 2%nat 5%nat * m1 0%nat 4%nat * m0 1%nat 2%nat - m2 2%nat 5%nat * m1 0%nat 2%nat * m0 1%nat 4%nat + m2 2%nat 4%nat * m1 1%nat 5%nat * m0 0%nat 2%nat + m2 2%nat 4%nat * m1 1%nat 4%nat * m0 0%nat 4%nat + m2 2%nat 4%nat * m1 1%nat 2%nat * m0 0%nat 5%nat - m2 2%nat 4%nat * m1 0%nat 5%nat * m0 1%nat 2%nat - m2 2%nat 4%nat * m1 0%nat 4%nat * m0 1%nat 4%nat - m2 2%nat 4%nat * m1 0%nat 2%nat * m0 1%nat 5%nat + m2 2%nat 2%nat * m1 1%nat 5%nat * m0 0%nat 4%nat + m2 2%nat 2%nat * m1 1%nat 4%nat * m0 0%nat 5%nat - m2 2%nat 2%nat * m1 0%nat 5%nat * m0 1%nat 4%nat - m2 2%nat 2%nat * m1 0%nat 4%nat * m0 1%nat 5%nat - m2 1%nat 5%nat * m1 2%nat 4%nat * m0 0%nat 2%nat - m2 1%nat 5%nat * m1 2%nat 2%nat * m0 0%nat 4%nat + m2 1%nat 5%nat * m1 0%nat 4%nat * m0 2%nat 2%nat + m2 1%nat 5%nat * m1 0%nat 2%nat * m0 2%nat 4%nat - m2 1%nat 4%nat * m1 2%nat 5%nat * m0 0%nat 2%nat - m2 1%nat 4%nat * m1 2%nat 4%nat * m0 0%nat 4%nat - m2 1%nat 4%nat * m1 2%nat 2%nat * m0 0%nat 5%nat + m2 1%nat 4%nat * m1 0%nat 5%nat * m0 2%nat 2%nat + m2 1%nat 4%nat * m1 0%nat 4%nat * m0 2%nat 4%nat + m2 1%nat 4%nat * m1 0%nat 2%nat * m0 2%nat 5%nat - m2 1%nat 2%nat * m1 2%nat 5%nat * m0 0%nat 4%nat - m2 1%nat 2%nat * m1 2%nat 4%nat * m0 0%nat 5%nat + m2 1%nat 2%nat * m1 0%nat 5%nat * m0 2%nat 4%nat + m2 1%nat 2%nat * m1 0%nat 4%nat * m0 2%nat 5%nat + m2 0%nat 5%nat * m1 2%nat 4%nat * m0 1%nat 2%nat + m2 0%nat 5%nat * m1 2%nat 2%nat * m0 1%nat 4%nat - m2 0%nat 5%nat * m1 1%nat 4%nat * m0 2%nat 2%nat - m2 0%nat 5%nat * m1 1%nat 2%nat * m0 2%nat 4%nat + m2 0%nat 4%nat * m1 2%nat 5%nat * m0 1%nat 2%nat + m2 0%nat 4%nat * m1 2%nat 4%nat * m0 1%nat 4%nat + m2 0%nat 4%nat * m1 2%nat 2%nat * m0 1%nat 5%nat - m2 0%nat 4%nat * m1 1%nat 5%nat * m0 2%nat 2%nat - m2 0%nat 4%nat * m1 1%nat 4%nat * m0 2%nat 4%nat - m2 0%nat 4%nat * m1 1%nat 2%nat * m0 2%nat 5%nat + m2 0%nat 2%nat * m1 2%nat 5%nat * m0 1%nat 4%nat + m2 0%nat 2%nat * m1 2%nat 4%nat * m0 1%nat 5%nat - m2 0%nat 2%nat * m1 1%nat 5%nat * m0 2%nat 4%nat - m2 0%nat 2%nat * m1 1%nat 4%nat * m0 2%nat 5%nat;
    m2 2%nat 5%nat * m1 1%nat 5%nat * m0 0%nat 0%nat + m2 2%nat 5%nat * m1 1%nat 3%nat * m0 0%nat 3%nat + m2 2%nat 5%nat * m1 1%nat 0%nat * m0 0%nat 5%nat - m2 2%nat 5%nat * m1 0%nat 5%nat * m0 1%nat 0%nat - m2 2%nat 5%nat * m1 0%nat 3%nat * m0 1%nat 3%nat - m2 2%nat 5%nat * m1 0%nat 0%nat * m0 1%nat 5%nat + m2 2%nat 3%nat * m1 1%nat 5%nat * m0 0%nat 3%nat + m2 2%nat 3%nat * m1 1%nat 3%nat * m0 0%nat 5%nat - m2 2%nat 3%nat * m1 0%nat 5%nat * m0 1%nat 3%nat - m2 2%nat 3%nat * m1 0%nat 3%nat * m0 1%nat 5%nat + m2 2%nat 0%nat * m1 1%nat 5%nat * m0 0%nat 5%nat - m2 2%nat 0%nat * m1 0%nat 5%nat * m0 1%nat 5%nat - m2 1%nat 5%nat * m1 2%nat 5%nat * m0 0%nat 0%nat - m2 1%nat 5%nat * m1 2%nat 3%nat * m0 0%nat 3%nat - m2 1%nat 5%nat * m1 2%nat 0%nat * m0 0%nat 5%nat + m2 1%nat 5%nat * m1 0%nat 5%nat * m0 2%nat 0%nat + m2 1%nat 5%nat * m1 0%nat 3%nat * m0 2%nat 3%nat + m2 1%nat 5%nat * m1 0%nat 0%nat * m0 2%nat 5%nat - m2 1%nat 3%nat * m1 2%nat 5%nat * m0 0%nat 3%nat - m2 1%nat 3%nat * m1 2%nat 3%nat * m0 0%nat 5%nat + m2 1%nat 3%nat * m1 0%nat 5%nat * m0 2%nat 3%nat + m2 1%nat 3%nat * m1 0%nat 3%nat * m0 2%nat 5%nat - m2 1%nat 0%nat * m1 2%nat 5%nat * m0 0%nat 5%nat + m2 1%nat 0%nat * m1 0%nat 5%nat * m0 2%nat 5%nat + m2 0%nat 5%nat * m1 2%nat 5%nat * m0 1%nat 0%nat + m2 0%nat 5%nat * m1 2%nat 3%nat * m0 1%nat 3%nat + m2 0%nat 5%nat * m1 2%nat 0%nat * m0 1%nat 5%nat - m2 0%nat 5%nat * m1 1%nat 5%nat * m0 2%nat 0%nat - m2 0%nat 5%nat * m1 1%nat 3%nat * m0 2%nat 3%nat - m2 0%nat 5%nat * m1 1%nat 0%nat * m0 2%nat 5%nat + m2 0%nat 3%nat * m1 2%nat 5%nat * m0 1%nat 3%nat + m2 0%nat 3%nat * m1 2%nat 3%nat * m0 1%nat 5%nat - m2 0%nat 3%nat * m1 1%nat 5%nat * m0 2%nat 3%nat - m2 0%nat 3%nat * m1 1%nat 3%nat * m0 2%nat 5%nat + m2 0%nat 0%nat * m1 2%nat 5%nat * m0 1%nat 5%nat - m2 0%nat 0%nat * m1 1%nat 5%nat * m0 2%nat 5%nat;
    m2 2%nat 5%nat * m1 1%nat 5%nat * m0 0%nat 1%nat + m2 2%nat 5%nat * m1 1%nat 4%nat * m0 0%nat 3%nat + m2 2%nat 5%nat * m1 1%nat 3%nat * m0 0%nat 4%nat + m2 2%nat 5%nat * m1 1%nat 1%nat * m0 0%nat 5%nat - m2 2%nat 5%nat * m1 0%nat 5%nat * m0 1%nat 1%nat - m2 2%nat 5%nat * m1 0%nat 4%nat * m0 1%nat 3%nat - m2 2%nat 5%nat * m1 0%nat 3%nat * m0 1%nat 4%nat - m2 2%nat 5%nat * m1 0%nat 1%nat * m0 1%nat 5%nat + m2 2%nat 4%nat * m1 1%nat 5%nat * m0 0%nat 3%nat + m2 2%nat 4%nat * m1 1%nat 3%nat * m0 0%nat 5%nat - m2 2%nat 4%nat * m1 0%nat 5%nat * m0 1%nat 3%nat - m2 2%nat 4%nat * m1 0%nat 3%nat * m0 1%nat 5%nat + m2 2%nat 3%nat * m1 1%nat 5%nat * m0 0%nat 4%nat + m2 2%nat 3%nat * m1 1%nat 4%nat * m0 0%nat 5%nat - m2 2%nat 3%nat * m1 0%nat 5%nat * m0 1%nat 4%nat - m2 2%nat 3%nat * m1 0%nat 4%nat * m0 1%nat 5%nat + m2 2%nat 1%nat * m1 1%nat 5%nat * m0 0%nat 5%nat - m2 2%nat 1%nat * m1 0%nat 5%nat * m0 1%nat 5%nat - m2 1%nat 5%nat * m1 2%nat 5%nat * m0 0%nat 1%nat - m2 1%nat 5%nat * m1 2%nat 4%nat * m0 0%nat 3%nat - m2 1%nat 5%nat * m1 2%nat 3%nat * m0 0%nat 4%nat - m2 1%nat 5%nat * m1 2%nat 1%nat * m0 0%nat 5%nat + m2 1%nat 5%nat * m1 0%nat 5%nat * m0 2%nat 1%nat + m2 1%nat 5%nat * m1 0%nat 4%nat * m0 2%nat 3%nat + m2 1%nat 5%nat * m1 0%nat 3%nat * m0 2%nat 4%nat + m2 1%nat 5%nat * m1 0%nat 1%nat * m0 2%nat 5%nat - m2 1%nat 4%nat * m1 2%nat 5%nat * m0 0%nat 3%nat - m2 1%nat 4%nat * m1 2%nat 3%nat * m0 0%nat 5%nat + m2 1%nat 4%nat * m1 0%nat 5%nat * m0 2%nat 3%nat + m2 1%nat 4%nat * m1 0%nat 3%nat * m0 2%nat 5%nat - m2 1%nat 3%nat * m1 2%nat 5%nat * m0 0%nat 4%nat - m2 1%nat 3%nat * m1 2%nat 4%nat * m0 0%nat 5%nat + m2 1%nat 3%nat * m1 0%nat 5%nat * m0 2%nat 4%nat + m2 1%nat 3%nat * m1 0%nat 4%nat * m0 2%nat 5%nat - m2 1%nat 1%nat * m1 2%nat 5%nat * m0 0%nat 5%nat + m2 1%nat 1%nat * m1 0%nat 5%nat * m0 2%nat 5%nat + m2 0%nat 5%nat * m1 2%nat 5%nat * m0 1%nat 1%nat + m2 0%nat 5%nat * m1 2%nat 4%nat * m0 1%nat 3%nat + m2 0%nat 5%nat * m1 2%nat 3%nat * m0 1%nat 4%nat + m2 0%nat 5%nat * m1 2%nat 1%nat * m0 1%nat 5%nat - m2 0%nat 5%nat * m1 1%nat 5%nat * m0 2%nat 1%nat - m2 0%nat 5%nat * m1 1%nat 4%nat * m0 2%nat 3%nat - m2 0%nat 5%nat * m1 1%nat 3%nat * m0 2%nat 4%nat - m2 0%nat 5%nat * m1 1%nat 1%nat * m0 2%nat 5%nat + m2 0%nat 4%nat * m1 2%nat 5%nat * m0 1%nat 3%nat + m2 0%nat 4%nat * m1 2%nat 3%nat * m0 1%nat 5%nat - m2 0%nat 4%nat * m1 1%nat 5%nat * m0 2%nat 3%nat - m2 0%nat 4%nat * m1 1%nat 3%nat * m0 2%nat 5%nat + m2 0%nat 3%nat * m1 2%nat 5%nat * m0 1%nat 4%nat + m2 0%nat 3%nat * m1 2%nat 4%nat * m0 1%nat 5%nat - m2 0%nat 3%nat * m1 1%nat 5%nat * m0 2%nat 4%nat - m2 0%nat 3%nat * m1 1%nat 4%nat * m0 2%nat 5%nat + m2 0%nat 1%nat * m1 2%nat 5%nat * m0 1%nat 5%nat - m2 0%nat 1%nat * m1 1%nat 5%nat * m0 2%nat 5%nat;
    m2 2%nat 5%nat * m1 1%nat 5%nat * m0 0%nat 2%nat + m2 2%nat 5%nat * m1 1%nat 4%nat * m0 0%nat 4%nat + m2 2%nat 5%nat * m1 1%nat 2%nat * m0 0%nat 5%nat - m2 2%nat 5%nat * m1 0%nat 5%nat * m0 1%nat 2%nat - m2 2%nat 5%nat * m1 0%nat 4%nat * m0 1%nat 4%nat - m2 2%nat 5%nat * m1 0%nat 2%nat * m0 1%nat 5%nat + m2 2%nat 4%nat * m1 1%nat 5%nat * m0 0%nat 4%nat + m2 2%nat 4%nat * m1 1%nat 4%nat * m0 0%nat 5%nat - m2 2%nat 4%nat * m1 0%nat 5%nat * m0 1%nat 4%nat - m2 2%nat 4%nat * m1 0%nat 4%nat * m0 1%nat 5%nat + m2 2%nat 2%nat * m1 1%nat 5%nat * m0 0%nat 5%nat - m2 2%nat 2%nat * m1 0%nat 5%nat * m0 1%nat 5%nat - m2 1%nat 5%nat * m1 2%nat 5%nat * m0 0%nat 2%nat - m2 1%nat 5%nat * m1 2%nat 4%nat * m0 0%nat 4%nat - m2 1%nat 5%nat * m1 2%nat 2%nat * m0 0%nat 5%nat + m2 1%nat 5%nat * m1 0%nat 5%nat * m0 2%nat 2%nat + m2 1%nat 5%nat * m1 0%nat 4%nat * m0 2%nat 4%nat + m2 1%nat 5%nat * m1 0%nat 2%nat * m0 2%nat 5%nat - m2 1%nat 4%nat * m1 2%nat 5%nat * m0 0%nat 4%nat - m2 1%nat 4%nat * m1 2%nat 4%nat * m0 0%nat 5%nat + m2 1%nat 4%nat * m1 0%nat 5%nat * m0 2%nat 4%nat + m2 1%nat 4%nat * m1 0%nat 4%nat * m0 2%nat 5%nat - m2 1%nat 2%nat * m1 2%nat 5%nat * m0 0%nat 5%nat + m2 1%nat 2%nat * m1 0%nat 5%nat * m0 2%nat 5%nat + m2 0%nat 5%nat * m1 2%nat 5%nat * m0 1%nat 2%nat + m2 0%nat 5%nat * m1 2%nat 4%nat * m0 1%nat 4%nat + m2 0%nat 5%nat * m1 2%nat 2%nat * m0 1%nat 5%nat - m2 0%nat 5%nat * m1 1%nat 5%nat * m0 2%nat 2%nat - m2 0%nat 5%nat * m1 1%nat 4%nat * m0 2%nat 4%nat - m2 0%nat 5%nat * m1 1%nat 2%nat * m0 2%nat 5%nat + m2 0%nat 4%nat * m1 2%nat 5%nat * m0 1%nat 4%nat + m2 0%nat 4%nat * m1 2%nat 4%nat * m0 1%nat 5%nat - m2 0%nat 4%nat * m1 1%nat 5%nat * m0 2%nat 4%nat - m2 0%nat 4%nat * m1 1%nat 4%nat * m0 2%nat 5%nat + m2 0%nat 2%nat * m1 2%nat 5%nat * m0 1%nat 5%nat - m2 0%nat 2%nat * m1 1%nat 5%nat * m0 2%nat 5%nat;
    m2 2%nat 5%nat * m1 1%nat 5%nat * m0 0%nat 3%nat + m2 2%nat 5%nat * m1 1%nat 3%nat * m0 0%nat 5%nat - m2 2%nat 5%nat * m1 0%nat 5%nat * m0 1%nat 3%nat - m2 2%nat 5%nat * m1 0%nat 3%nat * m0 1%nat 5%nat + m2 2%nat 3%nat * m1 1%nat 5%nat * m0 0%nat 5%nat - m2 2%nat 3%nat * m1 0%nat 5%nat * m0 1%nat 5%nat - m2 1%nat 5%nat * m1 2%nat 5%nat * m0 0%nat 3%nat - m2 1%nat 5%nat * m1 2%nat 3%nat * m0 0%nat 5%nat + m2 1%nat 5%nat * m1 0%nat 5%nat * m0 2%nat 3%nat + m2 1%nat 5%nat * m1 0%nat 3%nat * m0 2%nat 5%nat - m2 1%nat 3%nat * m1 2%nat 5%nat * m0 0%nat 5%nat + m2 1%nat 3%nat * m1 0%nat 5%nat * m0 2%nat 5%nat + m2 0%nat 5%nat * m1 2%nat 5%nat * m0 1%nat 3%nat + m2 0%nat 5%nat * m1 2%nat 3%nat * m0 1%nat 5%nat - m2 0%nat 5%nat * m1 1%nat 5%nat * m0 2%nat 3%nat - m2 0%nat 5%nat * m1 1%nat 3%nat * m0 2%nat 5%nat + m2 0%nat 3%nat * m1 2%nat 5%nat * m0 1%nat 5%nat - m2 0%nat 3%nat * m1 1%nat 5%nat * m0 2%nat 5%nat;
    m2 2%nat 5%nat * m1 1%nat 5%nat * m0 0%nat 4%nat + m2 2%nat 5%nat * m1 1%nat 4%nat * m0 0%nat 5%nat - m2 2%nat 5%nat * m1 0%nat 5%nat * m0 1%nat 4%nat - m2 2%nat 5%nat * m1 0%nat 4%nat * m0 1%nat 5%nat + m2 2%nat 4%nat * m1 1%nat 5%nat * m0 0%nat 5%nat - m2 2%nat 4%nat * m1 0%nat 5%nat * m0 1%nat 5%nat - m2 1%nat 5%nat * m1 2%nat 5%nat * m0 0%nat 4%nat - m2 1%nat 5%nat * m1 2%nat 4%nat * m0 0%nat 5%nat + m2 1%nat 5%nat * m1 0%nat 5%nat * m0 2%nat 4%nat + m2 1%nat 5%nat * m1 0%nat 4%nat * m0 2%nat 5%nat - m2 1%nat 4%nat * m1 2%nat 5%nat * m0 0%nat 5%nat + m2 1%nat 4%nat * m1 0%nat 5%nat * m0 2%nat 5%nat + m2 0%nat 5%nat * m1 2%nat 5%nat * m0 1%nat 4%nat + m2 0%nat 5%nat * m1 2%nat 4%nat * m0 1%nat 5%nat - m2 0%nat 5%nat * m1 1%nat 5%nat * m0 2%nat 4%nat - m2 0%nat 5%nat * m1 1%nat 4%nat * m0 2%nat 5%nat + m2 0%nat 4%nat * m1 2%nat 5%nat * m0 1%nat 5%nat - m2 0%nat 4%nat * m1 1%nat 5%nat * m0 2%nat 5%nat;
    m2 2%nat 5%nat * m1 1%nat 5%nat * m0 0%nat 5%nat - m2 2%nat 5%nat * m1 0%nat 5%nat * m0 1%nat 5%nat - m2 1%nat 5%nat * m1 2%nat 5%nat * m0 0%nat 5%nat + m2 1%nat 5%nat * m1 0%nat 5%nat * m0 2%nat 5%nat + m2 0%nat 5%nat * m1 2%nat 5%nat * m0 1%nat 5%nat - m2 0%nat 5%nat * m1 1%nat 5%nat * m0 2%nat 5%nat;
    m2 2%nat 6%nat * m1 1%nat 0%nat * m0 0%nat 0%nat - m2 2%nat 6%nat * m1 0%nat 0%nat * m0 1%nat 0%nat + m2 2%nat 0%nat * m1 1%nat 6%nat * m0 0%nat 0%nat + m2 2%nat 0%nat * m1 1%nat 0%nat * m0 0%nat 6%nat - m2 2%nat 0%nat * m1 0%nat 6%nat * m0 1%nat 0%nat - m2 2%nat 0%nat * m1 0%nat 0%nat * m0 1%nat 6%nat - m2 1%nat 6%nat * m1 2%nat 0%nat * m0 0%nat 0%nat + m2 1%nat 6%nat * m1 0%nat 0%nat * m0 2%nat 0%nat - m2 1%nat 0%nat * m1 2%nat 6%nat * m0 0%nat 0%nat - m2 1%nat 0%nat * m1 2%nat 0%nat * m0 0%nat 6%nat + m2 1%nat 0%nat * m1 0%nat 6%nat * m0 2%nat 0%nat + m2 1%nat 0%nat * m1 0%nat 0%nat * m0 2%nat 6%nat + m2 0%nat 6%nat * m1 2%nat 0%nat * m0 1%nat 0%nat - m2 0%nat 6%nat * m1 1%nat 0%nat * m0 2%nat 0%nat + m2 0%nat 0%nat * m1 2%nat 6%nat * m0 1%nat 0%nat + m2 0%nat 0%nat * m1 2%nat 0%nat * m0 1%nat 6%nat - m2 0%nat 0%nat * m1 1%nat 6%nat * m0 2%nat 0%nat - m2 0%nat 0%nat * m1 1%nat 0%nat * m0 2%nat 6%nat;
    m2 2%nat 7%nat * m1 1%nat 0%nat * m0 0%nat 0%nat - m2 2%nat 7%nat * m1 0%nat 0%nat * m0 1%nat 0%nat + m2 2%nat 6%nat * m1 1%nat 1%nat * m0 0%nat 0%nat + m2 2%nat 6%nat * m1 1%nat 0%nat * m0 0%nat 1%nat - m2 2%nat 6%nat * m1 0%nat 1%nat * m0 1%nat 0%nat - m2 2%nat 6%nat * m1 0%nat 0%nat * m0 1%nat 1%nat + m2 2%nat 1%nat * m1 1%nat 6%nat * m0 0%nat 0%nat + m2 2%nat 1%nat * m1 1%nat 0%nat * m0 0%nat 6%nat - m2 2%nat 1%nat * m1 0%nat 6%nat * m0 1%nat 0%nat - m2 2%nat 1%nat * m1 0%nat 0%nat * m0 1%nat 6%nat + m2 2%nat 0%nat * m1 1%nat 7%nat * m0 0%nat 0%nat + m2 2%nat 0%nat * m1 1%nat 6%nat * m0 0%nat 1%nat + m2 2%nat 0%nat * m1 1%nat 1%nat * m0 0%nat 6%nat + m2 2%nat 0%nat * m1 1%nat 0%nat * m0 0%nat 7%nat - m2 2%nat 0%nat * m1 0%nat 7%nat * m0 1%nat 0%nat - m2 2%nat 0%nat * m1 0%nat 6%nat * m0 1%nat 1%nat - m2 2%nat 0%nat * m1 0%nat 1%nat * m0 1%nat 6%nat - m2 2%nat 0%nat * m1 0%nat 0%nat * m0 1%nat 7%nat - m2 1%nat 7%nat * m1 2%nat 0%nat * m0 0%nat 0%nat + m2 1%nat 7%nat * m1 0%nat 0%nat * m0 2%nat 0%nat - m2 1%nat 6%nat * m1 2%nat 1%nat * m0 0%nat 0%nat - m2 1%nat 6%nat * m1 2%nat 0%nat * m0 0%nat 1%nat + m2 1%nat 6%nat * m1 0%nat 1%nat * m0 2%nat 0%nat + m2 1%nat 6%nat * m1 0%nat 0%nat * m0 2%nat 1%nat - m2 1%nat 1%nat * m1 2%nat 6%nat * m0 0%nat 0%nat - m2 1%nat 1%nat * m1 2%nat 0%nat * m0 0%nat 6%nat + m2 1%nat 1%nat * m1 0%nat 6%nat * m0 2%nat 0%nat + m2 1%nat 1%nat * m1 0%nat 0%nat * m0 2%nat 6%nat - m2 1%nat 0%nat * m1 2%nat 7%nat * m0 0%nat 0%nat - m2 1%nat 0%nat * m1 2%nat 6%nat * m0 0%nat 1%nat - m2 1%nat 0%nat * m1 2%nat 1%nat * m0 0%nat 6%nat - m2 1%nat 0%nat * m1 2%nat 0%nat * m0 0%nat 7%nat + m2 1%nat 0%nat * m1 0%nat 7%nat * m0 2%nat 0%nat + m2 1%nat 0%nat * m1 0%nat 6%nat * m0 2%nat 1%nat + m2 1%nat 0%nat * m1 0%nat 1%nat * m0 2%nat 6%nat + m2 1%nat 0%nat * m1 0%nat 0%nat * m0 2%nat 7%nat + m2 0%nat 7%nat * m1 2%nat 0%nat * m0 1%nat 0%nat - m2 0%nat 7%nat * m1 1%nat 0%nat * m0 2%nat 0%nat + m2 0%nat 6%nat * m1 2%nat 1%nat * m0 1%nat 0%nat + m2 0%nat 6%nat * m1 2%nat 0%nat * m0 1%nat 1%nat - m2 0%nat 6%nat * m1 1%nat 1%nat * m0 2%nat 0%nat - m2 0%nat 6%nat * m1 1%nat 0%nat * m0 2%nat 1%nat + m2 0%nat 1%nat * m1 2%nat 6%nat * m0 1%nat 0%nat + m2 0%nat 1%nat * m1 2%nat 0%nat * m0 1%nat 6%nat - m2 0%nat 1%nat * m1 1%nat 6%nat * m0 2%nat 0%nat - m2 0%nat 1%nat * m1 1%nat 0%nat * m0 2%nat 6%nat + m2 0%nat 0%nat * m1 2%nat 7%nat * m0 1%nat 0%nat + m2 0%nat 0%nat * m1 2%nat 6%nat * m0 1%nat 1%nat + m2 0%nat 0%nat * m1 2%nat 1%nat * m0 1%nat 6%nat + m2 0%nat 0%nat * m1 2%nat 0%nat * m0 1%nat 7%nat - m2 0%nat 0%nat * m1 1%nat 7%nat * m0 2%nat 0%nat - m2 0%nat 0%nat * m1 1%nat 6%nat * m0 2%nat 1%nat - m2 0%nat 0%nat * m1 1%nat 1%nat * m0 2%nat 6%nat - m2 0%nat 0%nat * m1 1%nat 0%nat * m0 2%nat 7%nat;
    m2 2%nat 7%nat * m1 1%nat 1%nat * m0 0%nat 0%nat + m2 2%nat 7%nat * m1 1%nat 0%nat * m0 0%nat 1%nat - m2 2%nat 7%nat * m1 0%nat 1%nat * m0 1%nat 0%nat - m2 2%nat 7%nat * m1 0%nat 0%nat * m0 1%nat 1%nat + m2 2%nat 6%nat * m1 1%nat 2%nat * m0 0%nat 0%nat + m2 2%nat 6%nat * m1 1%nat 1%nat * m0 0%nat 1%nat + m2 2%nat 6%nat * m1 1%nat 0%nat * m0 0%nat 2%nat - m2 2%nat 6%nat * m1 0%nat 2%nat * m0 1%nat 0%nat - m2 2%nat 6%nat * m1 0%nat 1%nat * m0 1%nat 1%nat - m2 2%nat 6%nat * m1 0%nat 0%nat * m0 1%nat 2%nat + m2 2%nat 2%nat * m1 1%nat 6%nat * m0 0%nat 0%nat + m2 2%nat 2%nat * m1 1%nat 0%nat * m0 0%nat 6%nat - m2 2%nat 2%nat * m1 0%nat 6%nat * m0 1%nat 0%nat - m2 2%nat 2%nat * m1 0%nat 0%nat * m0 1%nat 6%nat + m2 2%nat 1%nat * m1 1%nat 7%nat * m0 0%nat 0%nat + m2 2%nat 1%nat * m1 1%nat 6%nat * m0 0%nat 1%nat + m2 2%nat 1%nat * m1 1%nat 1%nat * m0 0%nat 6%nat + m2 2%nat 1%nat * m1 1%nat 0%nat * m0 0%nat 7%nat - m2 2%nat 1%nat * m1 0%nat 7%nat * m0 1%nat 0%nat - m2 2%nat 1%nat * m1 0%nat 6%nat * m0 1%nat 1%nat - m2 2%nat 1%nat * m1 0%nat 1%nat * m0 1%nat 6%nat - m2 2%nat 1%nat * m1 0%nat 0%nat * m0 1%nat 7%nat + m2 2%nat 0%nat * m1 1%nat 7%nat * m0 0%nat 1%nat + m2 2%nat 0%nat * m1 1%nat 6%nat * m0 0%nat 2%nat + m2 2%nat 0%nat * m1 1%nat 2%nat * m0 0%nat 6%nat + m2 2%nat 0%nat * m1 1%nat 1%nat * m0 0%nat 7%nat - m2 2%nat 0%nat * m1 0%nat 7%nat * m0 1%nat 1%nat - m2 2%nat 0%nat * m1 0%nat 6%nat * m0 1%nat 2%nat - m2 2%nat 0%nat * m1 0%nat 2%nat * m0 1%nat 6%nat - m2 2%nat 0%nat * m1 0%nat 1%nat * m0 1%nat 7%nat - m2 1%nat 7%nat * m1 2%nat 1%nat * m0 0%nat 0%nat - m2 1%nat 7%nat * m1 2%nat 0%nat * m0 0%nat 1%nat + m2 1%nat 7%nat * m1 0%nat 1%nat * m0 2%nat 0%nat + m2 1%nat 7%nat * m1 0%nat 0%nat * m0 2%nat 1%nat - m2 1%nat 6%nat * m1 2%nat 2%nat * m0 0%nat 0%nat - m2 1%nat 6%nat * m1 2%nat 1%nat * m0 0%nat 1%nat - m2 1%nat 6%nat * m1 2%nat 0%nat * m0 0%nat 2%nat + m2 1%nat 6%nat * m1 0%nat 2%nat * m0 2%nat 0%nat + m2 1%nat 6%nat * m1 0%nat 1%nat * m0 2%nat 1%nat + m2 1%nat 6%nat * m1 0%nat 0%nat * m0 2%nat 2%nat - m2 1%nat 2%nat * m1 2%nat 6%nat * m0 0%nat 0%nat - m2 1%nat 2%nat * m1 2%nat 0%nat * m0 0%nat 6%nat + m2 1%nat 2%nat * m1 0%nat 6%nat * m0 2%nat 0%nat + m2 1%nat 2%nat * m1 0%nat 0%nat * m0 2%nat 6%nat - m2 1%nat 1%nat * m1 2%nat 7%nat * m0 0%nat 0%nat - m2 1%nat 1%nat * m1 2%nat 6%nat * m0 0%nat 1%nat - m2 1%nat 1%nat * m1 2%nat 1%nat * m0 0%nat 6%nat - m2 1%nat 1%nat * m1 2%nat 0%nat * m0 0%nat 7%nat + m2 1%nat 1%nat * m1 0%nat 7%nat * m0 2%nat 0%nat + m2 1%nat 1%nat * m1 0%nat 6%nat * m0 2%nat 1%nat + m2 1%nat 1%nat * m1 0%nat 1%nat * m0 2%nat 6%nat + m2 1%nat 1%nat * m1 0%nat 0%nat * m0 2%nat 7%nat - m2 1%nat 0%nat * m1 2%nat 7%nat * m0 0%nat 1%nat - m2 1%nat 0%nat * m1 2%nat 6%nat * m0 0%nat 2%nat - m2 1%nat 0%nat * m1 2%nat 2%nat * m0 0%nat 6%nat - m2 1%nat 0%nat * m1 2%nat 1%nat * m0 0%nat 7%nat + m2 1%nat 0%nat * m1 0%nat 7%nat * m0 2%nat 1%nat + m2 1%nat 0%nat * m1 0%nat 6%nat * m0 2%nat 2%nat + m2 1%nat 0%nat * m1 0%nat 2%nat * m0 2%nat 6%nat + m2 1%nat 0%nat * m1 0%nat 1%nat * m0 2%nat 7%nat + m2 0%nat 7%nat * m1 2%nat 1%nat * m0 1%nat 0%nat + m2 0%nat 7%nat * m1 2%nat 0%nat * m0 1%nat 1%nat - m2 0%nat 7%nat * m1 1%nat 1%nat * m0 2%nat 0%nat - m2 0%nat 7%nat * m1 1%nat 0%nat * m0 2%nat 1%nat + m2 0%nat 6%nat * m1 2%nat 2%nat * m0 1%nat 0%nat + m2 0%nat 6%nat * m1 2%nat 1%nat * m0 1%nat 1%nat + m2 0%nat 6%nat * m1 2%nat 0%nat * m0 1%nat 2%nat - m2 0%nat 6%nat * m1 1%nat 2%nat * m0 2%nat 0%nat - m2 0%nat 6%nat * m1 1%nat 1%nat * m0 2%nat 1%nat - m2 0%nat 6%nat * m1 1%nat 0%nat * m0 2%nat 2%nat + m2 0%nat 2%nat * m1 2%nat 6%nat * m0 1%nat 0%nat + m2 0%nat 2%nat * m1 2%nat 0%nat * m0 1%nat 6%nat - m2 0%nat 2%nat * m1 1%nat 6%nat * m0 2%nat 0%nat - m2 0%nat 2%nat * m1 1%nat 0%nat * m0 2%nat 6%nat + m2 0%nat 1%nat * m1 2%nat 7%nat * m0 1%nat 0%nat + m2 0%nat 1%nat * m1 2%nat 6%nat * m0 1%nat 1%nat + m2 0%nat 1%nat * m1 2%nat 1%nat * m0 1%nat 6%nat + m2 0%nat 1%nat * m1 2%nat 0%nat * m0 1%nat 7%nat - m2 0%nat 1%nat * m1 1%nat 7%nat * m0 2%nat 0%nat - m2 0%nat 1%nat * m1 1%nat 6%nat * m0 2%nat 1%nat - m2 0%nat 1%nat * m1 1%nat 1%nat * m0 2%nat 6%nat - m2 0%nat 1%nat * m1 1%nat 0%nat * m0 2%nat 7%nat + m2 0%nat 0%nat * m1 2%nat 7%nat * m0 1%nat 1%nat + m2 0%nat 0%nat * m1 2%nat 6%nat * m0 1%nat 2%nat + m2 0%nat 0%nat * m1 2%nat 2%nat * m0 1%nat 6%nat + m2 0%nat 0%nat * m1 2%nat 1%nat * m0 1%nat 7%nat - m2 0%nat 0%nat * m1 1%nat 7%nat * m0 2%nat 1%nat - m2 0%nat 0%nat * m1 1%nat 6%nat * m0 2%nat 2%nat - m2 0%nat 0%nat * m1 1%nat 2%nat * m0 2%nat 6%nat - m2 0%nat 0%nat * m1 1%nat 1%nat * m0 2%nat 7%nat;
    m2 2%nat 7%nat * m1 1%nat 2%nat * m0 0%nat 0%nat + m2 2%nat 7%nat * m1 1%nat 1%nat * m0 0%nat 1%nat + m2 2%nat 7%nat * m1 1%nat 0%nat * m0 0%nat 2%nat - m2 2%nat 7%nat * m1 0%nat 2%nat * m0 1%nat 0%nat - m2 2%nat 7%nat * m1 0%nat 1%nat * m0 1%nat 1%nat - m2 2%nat 7%nat * m1 0%nat 0%nat * m0 1%nat 2%nat + m2 2%nat 6%nat * m1 1%nat 2%nat * m0 0%nat 1%nat + m2 2%nat 6%nat * m1 1%nat 1%nat * m0 0%nat 2%nat - m2 2%nat 6%nat * m1 0%nat 2%nat * m0 1%nat 1%nat - m2 2%nat 6%nat * m1 0%nat 1%nat * m0 1%nat 2%nat + m2 2%nat 2%nat * m1 1%nat 7%nat * m0 0%nat 0%nat + m2 2%nat 2%nat * m1 1%nat 6%nat * m0 0%nat 1%nat + m2 2%nat 2%nat * m1 1%nat 1%nat * m0 0%nat 6%nat + m2 2%nat 2%nat * m1 1%nat 0%nat * m0 0%nat 7%nat - m2 2%nat 2%nat * m1 0%nat 7%nat * m0 1%nat 0%nat - m2 2%nat 2%nat * m1 0%nat 6%nat * m0 1%nat 1%nat - m2 2%nat 2%nat * m1 0%nat 1%nat * m0 1%nat 6%nat - m2 2%nat 2%nat * m1 0%nat 0%nat * m0 1%nat 7%nat + m2 2%nat 1%nat * m1 1%nat 7%nat * m0 0%nat 1%nat + m2 2%nat 1%nat * m1 1%nat 6%nat * m0 0%nat 2%nat + m2 2%nat 1%nat * m1 1%nat 2%nat * m0 0%nat 6%nat + m2 2%nat 1%nat * m1 1%nat 1%nat * m0 0%nat 7%nat - m2 2%nat 1%nat * m1 0%nat 7%nat * m0 1%nat 1%nat - m2 2%nat 1%nat * m1 0%nat 6%nat * m0 1%nat 2%nat - m2 2%nat 1%nat * m1 0%nat 2%nat * m0 1%nat 6%nat - m2 2%nat 1%nat * m1 0%nat 1%nat * m0 1%nat 7%nat + m2 2%nat 0%nat * m1 1%nat 7%nat * m0 0%nat 2%nat + m2 2%nat 0%nat * m1 1%nat 2%nat * m0 0%nat 7%nat - m2 2%nat 0%nat * m1 0%nat 7%nat * m0 1%nat 2%nat - m2 2%nat 0%nat * m1 0%nat 2%nat * m0 1%nat 7%nat - m2 1%nat 7%nat * m1 2%nat 2%nat * m0 0%nat 0%nat - m2 1%nat 7%nat * m1 2%nat 1%nat * m0 0%nat 1%nat - m2 1%nat 7%nat * m1 2%nat 0%nat * m0 0%nat 2%nat + m2 1%nat 7%nat * m1 0%nat 2%nat * m0 2%nat 0%nat + m2 1%nat 7%nat * m1 0%nat 1%nat * m0 2%nat 1%nat + m2 1%nat 7%nat * m1 0%nat 0%nat * m0 2%nat 2%nat - m2 1%nat 6%nat * m1 2%nat 2%nat * m0 0%nat 1%nat - m2 1%nat 6%nat * m1 2%nat 1%nat * m0 0%nat 2%nat + m2 1%nat 6%nat * m1 0%nat 2%nat * m0 2%nat 1%nat + m2 1%nat 6%nat * m1 0%nat 1%nat * m0 2%nat 2%nat - m2 1%nat 2%nat * m1 2%nat 7%nat * m0 0%nat 0%nat - m2 1%nat 2%nat * m1 2%nat 6%nat * m0 0%nat 1%nat - m2 1%nat 2%nat * m1 2%nat 1%nat * m0 0%nat 6%nat - m2 1%nat 2%nat * m1 2%nat 0%nat * m0 0%nat 7%nat + m2 1%nat 2%nat * m1 0%nat 7%nat * m0 2%nat 0%nat + m2 1%nat 2%nat * m1 0%nat 6%nat * m0 2%nat 1%nat + m2 1%nat 2%nat * m1 0%nat 1%nat * m0 2%nat 6%nat + m2 1%nat 2%nat * m1 0%nat 0%nat * m0 2%nat 7%nat - m2 1%nat 1%nat * m1 2%nat 7%nat * m0 0%nat 1%nat - m2 1%nat 1%nat * m1 2%nat 6%nat * m0 0%nat 2%nat - m2 1%nat 1%nat * m1 2%nat 2%nat * m0 0%nat 6%nat - m2 1%nat 1%nat * m1 2%nat 1%nat * m0 0%nat 7%nat + m2 1%nat 1%nat * m1 0%nat 7%nat * m0 2%nat 1%nat + m2 1%nat 1%nat * m1 0%nat 6%nat * m0 2%nat 2%nat + m2 1%nat 1%nat * m1 0%nat 2%nat * m0 2%nat 6%nat + m2 1%nat 1%nat * m1 0%nat 1%nat * m0 2%nat 7%nat - m2 1%nat 0%nat * m1 2%nat 7%nat * m0 0%nat 2%nat - m2 1%nat 0%nat * m1 2%nat 2%nat * m0 0%nat 7%nat + m2 1%nat 0%nat * m1 0%nat 7%nat * m0 2%nat 2%nat + m2 1%nat 0%nat * m1 0%nat 2%nat * m0 2%nat 7%nat + m2 0%nat 7%nat * m1 2%nat 2%nat * m0 1%nat 0%nat + m2 0%nat 7%nat * m1 2%nat 1%nat * m0 1%nat 1%nat + m2 0%nat 7%nat * m1 2%nat 0%nat * m0 1%nat 2%nat - m2 0%nat 7%nat * m1 1%nat 2%nat * m0 2%nat 0%nat - m2 0%nat 7%nat * m1 1%nat 1%nat * m0 2%nat 1%nat - m2 0%nat 7%nat * m1 1%nat 0%nat * m0 2%nat 2%nat + m2 0%nat 6%nat * m1 2%nat 2%nat * m0 1%nat 1%nat + m2 0%nat 6%nat * m1 2%nat 1%nat * m0 1%nat 2%nat - m2 0%nat 6%nat * m1 1%nat 2%nat * m0 2%nat 1%nat - m2 0%nat 6%nat * m1 1%nat 1%nat * m0 2%nat 2%nat + m2 0%nat 2%nat * m1 2%nat 7%nat * m0 1%nat 0%nat + m2 0%nat 2%nat * m1 2%nat 6%nat * m0 1%nat 1%nat + m2 0%nat 2%nat * m1 2%nat 1%nat * m0 1%nat 6%nat + m2 0%nat 2%nat * m1 2%nat 0%nat * m0 1%nat 7%nat - m2 0%nat 2%nat * m1 1%nat 7%nat * m0 2%nat 0%nat - m2 0%nat 2%nat * m1 1%nat 6%nat * m0 2%nat 1%nat - m2 0%nat 2%nat * m1 1%nat 1%nat * m0 2%nat 6%nat - m2 0%nat 2%nat * m1 1%nat 0%nat * m0 2%nat 7%nat + m2 0%nat 1%nat * m1 2%nat 7%nat * m0 1%nat 1%nat + m2 0%nat 1%nat * m1 2%nat 6%nat * m0 1%nat 2%nat + m2 0%nat 1%nat * m1 2%nat 2%nat * m0 1%nat 6%nat + m2 0%nat 1%nat * m1 2%nat 1%nat * m0 1%nat 7%nat - m2 0%nat 1%nat * m1 1%nat 7%nat * m0 2%nat 1%nat - m2 0%nat 1%nat * m1 1%nat 6%nat * m0 2%nat 2%nat - m2 0%nat 1%nat * m1 1%nat 2%nat * m0 2%nat 6%nat - m2 0%nat 1%nat * m1 1%nat 1%nat * m0 2%nat 7%nat + m2 0%nat 0%nat * m1 2%nat 7%nat * m0 1%nat 2%nat + m2 0%nat 0%nat * m1 2%nat 2%nat * m0 1%nat 7%nat - m2 0%nat 0%nat * m1 1%nat 7%nat * m0 2%nat 2%nat - m2 0%nat 0%nat * m1 1%nat 2%nat * m0 2%nat 7%nat;
    m2 2%nat 7%nat * m1 1%nat 2%nat * m0 0%nat 1%nat + m2 2%nat 7%nat * m1 1%nat 1%nat * m0 0%nat 2%nat - m2 2%nat 7%nat * m1 0%nat 2%nat * m0 1%nat 1%nat - m2 2%nat 7%nat * m1 0%nat 1%nat * m0 1%nat 2%nat + m2 2%nat 6%nat * m1 1%nat 2%nat * m0 0%nat 2%nat - m2 2%nat 6%nat * m1 0%nat 2%nat * m0 1%nat 2%nat + m2 2%nat 2%nat * m1 1%nat 7%nat * m0 0%nat 1%nat + m2 2%nat 2%nat * m1 1%nat 6%nat * m0 0%nat 2%nat + m2 2%nat 2%nat * m1 1%nat 2%nat * m0 0%nat 6%nat + m2 2%nat 2%nat * m1 1%nat 1%nat * m0 0%nat 7%nat - m2 2%nat 2%nat * m1 0%nat 7%nat * m0 1%nat 1%nat - m2 2%nat 2%nat * m1 0%nat 6%nat * m0 1%nat 2%nat - m2 2%nat 2%nat * m1 0%nat 2%nat * m0 1%nat 6%nat - m2 2%nat 2%nat * m1 0%nat 1%nat * m0 1%nat 7%nat + m2 2%nat 1%nat * m1 1%nat 7%nat * m0 0%nat 2%nat + m2 2%nat 1%nat * m1 1%nat 2%nat * m0 0%nat 7%nat - m2 2%nat 1%nat * m1 0%nat 7%nat * m0 1%nat 2%nat - m2 2%nat 1%nat * m1 0%nat 2%nat * m0 1%nat 7%nat - m2 1%nat 7%nat * m1 2%nat 2%nat * m0 0%nat 1%nat - m2 1%nat 7%nat * m1 2%nat 1%nat * m0 0%nat 2%nat + m2 1%nat 7%nat * m1 0%nat 2%nat * m0 2%nat 1%nat + m2 1%nat 7%nat * m1 0%nat 1%nat * m0 2%nat 2%nat - m2 1%nat 6%nat * m1 2%nat 2%nat * m0 0%nat 2%nat + m2 1%nat 6%nat * m1 0%nat 2%nat * m0 2%nat 2%nat - m2 1%nat 2%nat * m1 2%nat 7%nat * m0 0%nat 1%nat - m2 1%nat 2%nat * m1 2%nat 6%nat * m0 0%nat 2%nat - m2 1%nat 2%nat * m1 2%nat 2%nat * m0 0%nat 6%nat - m2 1%nat 2%nat * m1 2%nat 1%nat * m0 0%nat 7%nat + m2 1%nat 2%nat * m1 0%nat 7%nat * m0 2%nat 1%nat + m2 1%nat 2%nat * m1 0%nat 6%nat * m0 2%nat 2%nat + m2 1%nat 2%nat * m1 0%nat 2%nat * m0 2%nat 6%nat + m2 1%nat 2%nat * m1 0%nat 1%nat * m0 2%nat 7%nat - m2 1%nat 1%nat * m1 2%nat 7%nat * m0 0%nat 2%nat - m2 1%nat 1%nat * m1 2%nat 2%nat * m0 0%nat 7%nat + m2 1%nat 1%nat * m1 0%nat 7%nat * m0 2%nat 2%nat + m2 1%nat 1%nat * m1 0%nat 2%nat * m0 2%nat 7%nat + m2 0%nat 7%nat * m1 2%nat 2%nat * m0 1%nat 1%nat + m2 0%nat 7%nat * m1 2%nat 1%nat * m0 1%nat 2%nat - m2 0%nat 7%nat * m1 1%nat 2%nat * m0 2%nat 1%nat - m2 0%nat 7%nat * m1 1%nat 1%nat * m0 2%nat 2%nat + m2 0%nat 6%nat * m1 2%nat 2%nat * m0 1%nat 2%nat - m2 0%nat 6%nat * m1 1%nat 2%nat * m0 2%nat 2%nat + m2 0%nat 2%nat * m1 2%nat 7%nat * m0 1%nat 1%nat + m2 0%nat 2%nat * m1 2%nat 6%nat * m0 1%nat 2%nat + m2 0%nat 2%nat * m1 2%nat 2%nat * m0 1%nat 6%nat + m2 0%nat 2%nat * m1 2%nat 1%nat * m0 1%nat 7%nat - m2 0%nat 2%nat * m1 1%nat 7%nat * m0 2%nat 1%nat - m2 0%nat 2%nat * m1 1%nat 6%nat * m0 2%nat 2%nat - m2 0%nat 2%nat * m1 1%nat 2%nat * m0 2%nat 6%nat - m2 0%nat 2%nat * m1 1%nat 1%nat * m0 2%nat 7%nat + m2 0%nat 1%nat * m1 2%nat 7%nat * m0 1%nat 2%nat + m2 0%nat 1%nat * m1 2%nat 2%nat * m0 1%nat 7%nat - m2 0%nat 1%nat * m1 1%nat 7%nat * m0 2%nat 2%nat - m2 0%nat 1%nat * m1 1%nat 2%nat * m0 2%nat 7%nat;
    m2 2%nat 7%nat * m1 1%nat 2%nat * m0 0%nat 2%nat - m2 2%nat 7%nat * m1 0%nat 2%nat * m0 1%nat 2%nat + m2 2%nat 2%nat * m1 1%nat 7%nat * m0 0%nat 2%nat + m2 2%nat 2%nat * m1 1%nat 2%nat * m0 0%nat 7%nat - m2 2%nat 2%nat * m1 0%nat 7%nat * m0 1%nat 2%nat - m2 2%nat 2%nat * m1 0%nat 2%nat * m0 1%nat 7%nat - m2 1%nat 7%nat * m1 2%nat 2%nat * m0 0%nat 2%nat + m2 1%nat 7%nat * m1 0%nat 2%nat * m0 2%nat 2%nat - m2 1%nat 2%nat * m1 2%nat 7%nat * m0 0%nat 2%nat - m2 1%nat 2%nat * m1 2%nat 2%nat * m0 0%nat 7%nat + m2 1%nat 2%nat * m1 0%nat 7%nat * m0 2%nat 2%nat + m2 1%nat 2%nat * m1 0%nat 2%nat * m0 2%nat 7%nat + m2 0%nat 7%nat * m1 2%nat 2%nat * m0 1%nat 2%nat - m2 0%nat 7%nat * m1 1%nat 2%nat * m0 2%nat 2%nat + m2 0%nat 2%nat * m1 2%nat 7%nat * m0 1%nat 2%nat + m2 0%nat 2%nat * m1 2%nat 2%nat * m0 1%nat 7%nat - m2 0%nat 2%nat * m1 1%nat 7%nat * m0 2%nat 2%nat - m2 0%nat 2%nat * m1 1%nat 2%nat * m0 2%nat 7%nat;
    m2 2%nat 8%nat * m1 1%nat 0%nat * m0 0%nat 0%nat - m2 2%nat 8%nat * m1 0%nat 0%nat * m0 1%nat 0%nat + m2 2%nat 6%nat * m1 1%nat 3%nat * m0 0%nat 0%nat + m2 2%nat 6%nat * m1 1%nat 0%nat * m0 0%nat 3%nat - m2 2%nat 6%nat * m1 0%nat 3%nat * m0 1%nat 0%nat - m2 2%nat 6%nat * m1 0%nat 0%nat * m0 1%nat 3%nat + m2 2%nat 3%nat * m1 1%nat 6%nat * m0 0%nat 0%nat + m2 2%nat 3%nat * m1 1%nat 0%nat * m0 0%nat 6%nat - m2 2%nat 3%nat * m1 0%nat 6%nat * m0 1%nat 0%nat - m2 2%nat 3%nat * m1 0%nat 0%nat * m0 1%nat 6%nat + m2 2%nat 0%nat * m1 1%nat 8%nat * m0 0%nat 0%nat + m2 2%nat 0%nat * m1 1%nat 6%nat * m0 0%nat 3%nat + m2 2%nat 0%nat * m1 1%nat 3%nat * m0 0%nat 6%nat + m2 2%nat 0%nat * m1 1%nat 0%nat * m0 0%nat 8%nat - m2 2%nat 0%nat * m1 0%nat 8%nat * m0 1%nat 0%nat - m2 2%nat 0%nat * m1 0%nat 6%nat * m0 1%nat 3%nat - m2 2%nat 0%nat * m1 0%nat 3%nat * m0 1%nat 6%nat - m2 2%nat 0%nat * m1 0%nat 0%nat * m0 1%nat 8%nat - m2 1%nat 8%nat * m1 2%nat 0%nat * m0 0%nat 0%nat + m2 1%nat 8%nat * m1 0%nat 0%nat * m0 2%nat 0%nat - m2 1%nat 6%nat * m1 2%nat 3%nat * m0 0%nat 0%nat - m2 1%nat 6%nat * m1 2%nat 0%nat * m0 0%nat 3%nat + m2 1%nat 6%nat * m1 0%nat 3%nat * m0 2%nat 0%nat + m2 1%nat 6%nat * m1 0%nat 0%nat * m0 2%nat 3%nat - m2 1%nat 3%nat * m1 2%nat 6%nat * m0 0%nat 0%nat - m2 1%nat 3%nat * m1 2%nat 0%nat * m0 0%nat 6%nat + m2 1%nat 3%nat * m1 0%nat 6%nat * m0 2%nat 0%nat + m2 1%nat 3%nat * m1 0%nat 0%nat * m0 2%nat 6%nat - m2 1%nat 0%nat * m1 2%nat 8%nat * m0 0%nat 0%nat - m2 1%nat 0%nat * m1 2%nat 6%nat * m0 0%nat 3%nat - m2 1%nat 0%nat * m1 2%nat 3%nat * m0 0%nat 6%nat - m2 1%nat 0%nat * m1 2%nat 0%nat * m0 0%nat 8%nat + m2 1%nat 0%nat * m1 0%nat 8%nat * m0 2%nat 0%nat + m2 1%nat 0%nat * m1 0%nat 6%nat * m0 2%nat 3%nat + m2 1%nat 0%nat * m1 0%nat 3%nat * m0 2%nat 6%nat + m2 1%nat 0%nat * m1 0%nat 0%nat * m0 2%nat 8%nat + m2 0%nat 8%nat * m1 2%nat 0%nat * m0 1%nat 0%nat - m2 0%nat 8%nat * m1 1%nat 0%nat * m0 2%nat 0%nat + m2 0%nat 6%nat * m1 2%nat 3%nat * m0 1%nat 0%nat + m2 0%nat 6%nat * m1 2%nat 0%nat * m0 1%nat 3%nat - m2 0%nat 6%nat * m1 1%nat 3%nat * m0 2%nat 0%nat - m2 0%nat 6%nat * m1 1%nat 0%nat * m0 2%nat 3%nat + m2 0%nat 3%nat * m1 2%nat 6%nat * m0 1%nat 0%nat + m2 0%nat 3%nat * m1 2%nat 0%nat * m0 1%nat 6%nat - m2 0%nat 3%nat * m1 1%nat 6%nat * m0 2%nat 0%nat - m2 0%nat 3%nat * m1 1%nat 0%nat * m0 2%nat 6%nat + m2 0%nat 0%nat * m1 2%nat 8%nat * m0 1%nat 0%nat + m2 0%nat 0%nat * m1 2%nat 6%nat * m0 1%nat 3%nat + m2 0%nat 0%nat * m1 2%nat 3%nat * m0 1%nat 6%nat + m2 0%nat 0%nat * m1 2%nat 0%nat * m0 1%nat 8%nat - m2 0%nat 0%nat * m1 1%nat 8%nat * m0 2%nat 0%nat - m2 0%nat 0%nat * m1 1%nat 6%nat * m0 2%nat 3%nat - m2 0%nat 0%nat * m1 1%nat 3%nat * m0 2%nat 6%nat - m2 0%nat 0%nat * m1 1%nat 0%nat * m0 2%nat 8%nat;
    m2 2%nat 8%nat * m1 1%nat 1%nat * m0 0%nat 0%nat + m2 2%nat 8%nat * m1 1%nat 0%nat * m0 0%nat 1%nat - m2 2%nat 8%nat * m1 0%nat 1%nat * m0 1%nat 0%nat - m2 2%nat 8%nat * m1 0%nat 0%nat * m0 1%nat 1%nat + m2 2%nat 7%nat * m1 1%nat 3%nat * m0 0%nat 0%nat + m2 2%nat 7%nat * m1 1%nat 0%nat * m0 0%nat 3%nat - m2 2%nat 7%nat * m1 0%nat 3%nat * m0 1%nat 0%nat - m2 2%nat 7%nat * m1 0%nat 0%nat * m0 1%nat 3%nat + m2 2%nat 6%nat * m1 1%nat 4%nat * m0 0%nat 0%nat + m2 2%nat 6%nat * m1 1%nat 3%nat * m0 0%nat 1%nat + m2 2%nat 6%nat * m1 1%nat 1%nat * m0 0%nat 3%nat + m2 2%nat 6%nat * m1 1%nat 0%nat * m0 0%nat 4%nat - m2 2%nat 6%nat * m1 0%nat 4%nat * m0 1%nat 0%nat - m2 2%nat 6%nat * m1 0%nat 3%nat * m0 1%nat 1%nat - m2 2%nat 6%nat * m1 0%nat 1%nat * m0 1%nat 3%nat - m2 2%nat 6%nat * m1 0%nat 0%nat * m0 1%nat 4%nat + m2 2%nat 4%nat * m1 1%nat 6%nat * m0 0%nat 0%nat + m2 2%nat 4%nat * m1 1%nat 0%nat * m0 0%nat 6%nat - m2 2%nat 4%nat * m1 0%nat 6%nat * m0 1%nat 0%nat - m2 2%nat 4%nat * m1 0%nat 0%nat * m0 1%nat 6%nat + m2 2%nat 3%nat * m1 1%nat 7%nat * m0 0%nat 0%nat + m2 2%nat 3%nat * m1 1%nat 6%nat * m0 0%nat 1%nat + m2 2%nat 3%nat * m1 1%nat 1%nat * m0 0%nat 6%nat + m2 2%nat 3%nat * m1 1%nat 0%nat * m0 0%nat 7%nat - m2 2%nat 3%nat * m1 0%nat 7%nat * m0 1%nat 0%nat - m2 2%nat 3%nat * m1 0%nat 6%nat * m0 1%nat 1%nat - m2 2%nat 3%nat * m1 0%nat 1%nat * m0 1%nat 6%nat - m2 2%nat 3%nat * m1 0%nat 0%nat * m0 1%nat 7%nat + m2 2%nat 1%nat * m1 1%nat 8%nat * m0 0%nat 0%nat + m2 2%nat 1%nat * m1 1%nat 6%nat * m0 0%nat 3%nat + m2 2%nat 1%nat * m1 1%nat 3%nat * m0 0%nat 6%nat + m2 2%nat 1%nat * m1 1%nat 0%nat * m0 0%nat 8%nat - m2 2%nat 1%nat * m1 0%nat 8%nat * m0 1%nat 0%nat - m2 2%nat 1%nat * m1 0%nat 6%nat * m0 1%nat 3%nat - m2 2%nat 1%nat * m1 0%nat 3%nat * m0 1%nat 6%nat - m2 2%nat 1%nat * m1 0%nat 0%nat * m0 1%nat 8%nat + m2 2%nat 0%nat * m1 1%nat 8%nat * m0 0%nat 1%nat + m2 2%nat 0%nat * m1 1%nat 7%nat * m0 0%nat 3%nat + m2 2%nat 0%nat * m1 1%nat 6%nat * m0 0%nat 4%nat + m2 2%nat 0%nat * m1 1%nat 4%nat * m0 0%nat 6%nat + m2 2%nat 0%nat * m1 1%nat 3%nat * m0 0%nat 7%nat + m2 2%nat 0%nat * m1 1%nat 1%nat * m0 0%nat 8%nat - m2 2%nat 0%nat * m1 0%nat 8%nat * m0 1%nat 1%nat - m2 2%nat 0%nat * m1 0%nat 7%nat * m0 1%nat 3%nat - m2 2%nat 0%nat * m1 0%nat 6%nat * m0 1%nat 4%nat - m2 2%nat 0%nat * m1 0%nat 4%nat * m0 1%nat 6%nat - m2 2%nat 0%nat * m1 0%nat 3%nat * m0 1%nat 7%nat - m2 2%nat 0%nat * m1 0%nat 1%nat * m0 1%nat 8%nat - m2 1%nat 8%nat * m1 2%nat 1%nat * m0 0%nat 0%nat - m2 1%nat 8%nat * m1 2%nat 0%nat * m0 0%nat 1%nat + m2 1%nat 8%nat * m1 0%nat 1%nat * m0 2%nat 0%nat + m2 1%nat 8%nat * m1 0%nat 0%nat * m0 2%nat 1%nat - m2 1%nat 7%nat * m1 2%nat 3%nat * m0 0%nat 0%nat - m2 1%nat 7%nat * m1 2%nat 0%nat * m0 0%nat 3%nat + m2 1%nat 7%nat * m1 0%nat 3%nat * m0 2%nat 0%nat + m2 1%nat 7%nat * m1 0%nat 0%nat * m0 2%nat 3%nat - m2 1%nat 6%nat * m1 2%nat 4%nat * m0 0%nat 0%nat - m2 1%nat 6%nat * m1 2%nat 3%nat * m0 0%nat 1%nat - m2 1%nat 6%nat * m1 2%nat 1%nat * m0 0%nat 3%nat - m2 1%nat 6%nat * m1 2%nat 0%nat * m0 0%nat 4%nat + m2 1%nat 6%nat * m1 0%nat 4%nat * m0 2%nat 0%nat + m2 1%nat 6%nat * m1 0%nat 3%nat * m0 2%nat 1%nat + m2 1%nat 6%nat * m1 0%nat 1%nat * m0 2%nat 3%nat + m2 1%nat 6%nat * m1 0%nat 0%nat * m0 2%nat 4%nat - m2 1%nat 4%nat * m1 2%nat 6%nat * m0 0%nat 0%nat - m2 1%nat 4%nat * m1 2%nat 0%nat * m0 0%nat 6%nat + m2 1%nat 4%nat * m1 0%nat 6%nat * m0 2%nat 0%nat + m2 1%nat 4%nat * m1 0%nat 0%nat * m0 2%nat 6%nat - m2 1%nat 3%nat * m1 2%nat 7%nat * m0 0%nat 0%nat - m2 1%nat 3%nat * m1 2%nat 6%nat * m0 0%nat 1%nat - m2 1%nat 3%nat * m1 2%nat 1%nat * m0 0%nat 6%nat - m2 1%nat 3%nat * m1 2%nat 0%nat * m0 0%nat 7%nat + m2 1%nat 3%nat * m1 0%nat 7%nat * m0 2%nat 0%nat + m2 1%nat 3%nat * m1 0%nat 6%nat * m0 2%nat 1%nat + m2 1%nat 3%nat * m1 0%nat 1%nat * m0 2%nat 6%nat + m2 1%nat 3%nat * m1 0%nat 0%nat * m0 2%nat 7%nat - m2 1%nat 1%nat * m1 2%nat 8%nat * m0 0%nat 0%nat - m2 1%nat 1%nat * m1 2%nat 6%nat * m0 0%nat 3%nat - m2 1%nat 1%nat * m1 2%nat 3%nat * m0 0%nat 6%nat - m2 1%nat 1%nat * m1 2%nat 0%nat * m0 0%nat 8%nat + m2 1%nat 1%nat * m1 0%nat 8%nat * m0 2%nat 0%nat + m2 1%nat 1%nat * m1 0%nat 6%nat * m0 2%nat 3%nat + m2 1%nat 1%nat * m1 0%nat 3%nat * m0 2%nat 6%nat + m2 1%nat 1%nat * m1 0%nat 0%nat * m0 2%nat 8%nat - m2 1%nat 0%nat * m1 2%nat 8%nat * m0 0%nat 1%nat - m2 1%nat 0%nat * m1 2%nat 7%nat * m0 0%nat 3%nat - m2 1%nat 0%nat * m1 2%nat 6%nat * m0 0%nat 4%nat - m2 1%nat 0%nat * m1 2%nat 4%nat * m0 0%nat 6%nat - m2 1%nat 0%nat * m1 2%nat 3%nat * m0 0%nat 7%nat - m2 1%nat 0%nat * m1 2%nat 1%nat * m0 0%nat 8%nat + m2 1%nat 0%nat * m1 0%nat 8%nat * m0 2%nat 1%nat + m2 1%nat 0%nat * m1 0%nat 7%nat * m0 2%nat 3%nat + m2 1%nat 0%nat * m1 0%nat 6%nat * m0 2%nat 4%nat + m2 1%nat 0%nat * m1 0%nat 4%nat * m0 2%nat 6%nat + m2 1%nat 0%nat * m1 0%nat 3%nat * m0 2%nat 7%nat + m2 1%nat 0%nat * m1 0%nat 1%nat * m0 2%nat 8%nat + m2 0%nat 8%nat * m1 2%nat 1%nat * m0 1%nat 0%nat + m2 0%nat 8%nat * m1 2%nat 0%nat * m0 1%nat 1%nat - m2 0%nat 8%nat * m1 1%nat 1%nat * m0 2%nat 0%nat - m2 0%nat 8%nat * m1 1%nat 0%nat * m0 2%nat 1%nat + m2 0%nat 7%nat * m1 2%nat 3%nat * m0 1%nat 0%nat + m2 0%nat 7%nat * m1 2%nat 0%nat * m0 1%nat 3%nat - m2 0%nat 7%nat * m1 1%nat 3%nat * m0 2%nat 0%nat - m2 0%nat 7%nat * m1 1%nat 0%nat * m0 2%nat 3%nat + m2 0%nat 6%nat * m1 2%nat 4%nat * m0 1%nat 0%nat + m2 0%nat 6%nat * m1 2%nat 3%nat * m0 1%nat 1%nat + m2 0%nat 6%nat * m1 2%nat 1%nat * m0 1%nat 3%nat + m2 0%nat 6%nat * m1 2%nat 0%nat * m0 1%nat 4%nat - m2 0%nat 6%nat * m1 1%nat 4%nat * m0 2%nat 0%nat - m2 0%nat 6%nat * m1 1%nat 3%nat * m0 2%nat 1%nat - m2 0%nat 6%nat * m1 1%nat 1%nat * m0 2%nat 3%nat - m2 0%nat 6%nat * m1 1%nat 0%nat * m0 2%nat 4%nat + m2 0%nat 4%nat * m1 2%nat 6%nat * m0 1%nat 0%nat + m2 0%nat 4%nat * m1 2%nat 0%nat * m0 1%nat 6%nat - m2 0%nat 4%nat * m1 1%nat 6%nat * m0 2%nat 0%nat - m2 0%nat 4%nat * m1 1%nat 0%nat * m0 2%nat 6%nat + m2 0%nat 3%nat * m1 2%nat 7%nat * m0 1%nat 0%nat + m2 0%nat 3%nat * m1 2%nat 6%nat * m0 1%nat 1%nat + m2 0%nat 3%nat * m1 2%nat 1%nat * m0 1%nat 6%nat + m2 0%nat 3%nat * m1 2%nat 0%nat * m0 1%nat 7%nat - m2 0%nat 3%nat * m1 1%nat 7%nat * m0 2%nat 0%nat - m2 0%nat 3%nat * m1 1%nat 6%nat * m0 2%nat 1%nat - m2 0%nat 3%nat * m1 1%nat 1%nat * m0 2%nat 6%nat - m2 0%nat 3%nat * m1 1%nat 0%nat * m0 2%nat 7%nat + m2 0%nat 1%nat * m1 2%nat 8%nat * m0 1%nat 0%nat + m2 0%nat 1%nat * m1 2%nat 6%nat * m0 1%nat 3%nat + m2 0%nat 1%nat * m1 2%nat 3%nat * m0 1%nat 6%nat + m2 0%nat 1%nat * m1 2%nat 0%nat * m0 1%nat 8%nat - m2 0%nat 1%nat * m1 1%nat 8%nat * m0 2%nat 0%nat - m2 0%nat 1%nat * m1 1%nat 6%nat * m0 2%nat 3%nat - m2 0%nat 1%nat * m1 1%nat 3%nat * m0 2%nat 6%nat - m2 0%nat 1%nat * m1 1%nat 0%nat * m0 2%nat 8%nat + m2 0%nat 0%nat * m1 2%nat 8%nat * m0 1%nat 1%nat + m2 0%nat 0%nat * m1 2%nat 7%nat * m0 1%nat 3%nat + m2 0%nat 0%nat * m1 2%nat 6%nat * m0 1%nat 4%nat + m2 0%nat 0%nat * m1 2%nat 4%nat * m0 1%nat 6%nat + m2 0%nat 0%nat * m1 2%nat 3%nat * m0 1%nat 7%nat + m2 0%nat 0%nat * m1 2%nat 1%nat * m0 1%nat 8%nat - m2 0%nat 0%nat * m1 1%nat 8%nat * m0 2%nat 1%nat - m2 0%nat 0%nat * m1 1%nat 7%nat * m0 2%nat 3%nat - m2 0%nat 0%nat * m1 1%nat 6%nat * m0 2%nat 4%nat - m2 0%nat 0%nat * m1 1%nat 4%nat * m0 2%nat 6%nat - m2 0%nat 0%nat * m1 1%nat 3%nat * m0 2%nat 7%nat - m2 0%nat 0%nat * m1 1%nat 1%nat * m0 2%nat 8%nat;
    m2 2%nat 8%nat * m1 1%nat 2%nat * m0 0%nat 0%nat + m2 2%nat 8%nat * m1 1%nat 1%nat * m0 0%nat 1%nat + m2 2%nat 8%nat * m1 1%nat 0%nat * m0 0%nat 2%nat - m2 2%nat 8%nat * m1 0%nat 2%nat * m0 1%nat 0%nat - m2 2%nat 8%nat * m1 0%nat 1%nat * m0 1%nat 1%nat - m2 2%nat 8%nat * m1 0%nat 0%nat * m0 1%nat 2%nat + m2 2%nat 7%nat * m1 1%nat 4%nat * m0 0%nat 0%nat + m2 2%nat 7%nat * m1 1%nat 3%nat * m0 0%nat 1%nat + m2 2%nat 7%nat * m1 1%nat 1%nat * m0 0%nat 3%nat + m2 2%nat 7%nat * m1 1%nat 0%nat * m0 0%nat 4%nat - m2 2%nat 7%nat * m1 0%nat 4%nat * m0 1%nat 0%nat - m2 2%nat 7%nat * m1 0%nat 3%nat * m0 1%nat 1%nat - m2 2%nat 7%nat * m1 0%nat 1%nat * m0 1%nat 3%nat - m2 2%nat 7%nat * m1 0%nat 0%nat * m0 1%nat 4%nat + m2 2%nat 6%nat * m1 1%nat 4%nat * m0 0%nat 1%nat + m2 2%nat 6%nat * m1 1%nat 3%nat * m0 0%nat 2%nat + m2 2%nat 6%nat * m1 1%nat 2%nat * m0 0%nat 3%nat + m2 2%nat 6%nat * m1 1%nat 1%nat * m0 0%nat 4%nat - m2 2%nat 6%nat * m1 0%nat 4%nat * m0 1%nat 1%nat - m2 2%nat 6%nat * m1 0%nat 3%nat * m0 1%nat 2%nat - m2 2%nat 6%nat * m1 0%nat 2%nat * m0 1%nat 3%nat - m2 2%nat 6%nat * m1 0%nat 1%nat * m0 1%nat 4%nat + m2 2%nat 4%nat * m1 1%nat 7%nat * m0 0%nat 0%nat + m2 2%nat 4%nat * m1 1%nat 6%nat * m0 0%nat 1%nat + m2 2%nat 4%nat * m1 1%nat 1%nat * m0 0%nat 6%nat + m2 2%nat 4%nat * m1 1%nat 0%nat * m0 0%nat 7%nat - m2 2%nat 4%nat * m1 0%nat 7%nat * m0 1%nat 0%nat - m2 2%nat 4%nat * m1 0%nat 6%nat * m0 1%nat 1%nat - m2 2%nat 4%nat * m1 0%nat 1%nat * m0 1%nat 6%nat - m2 2%nat 4%nat * m1 0%nat 0%nat * m0 1%nat 7%nat + m2 2%nat 3%nat * m1 1%nat 7%nat * m0 0%nat 1%nat + m2 2%nat 3%nat * m1 1%nat 6%nat * m0 0%nat 2%nat + m2 2%nat 3%nat * m1 1%nat 2%nat * m0 0%nat 6%nat + m2 2%nat 3%nat * m1 1%nat 1%nat * m0 0%nat 7%nat - m2 2%nat 3%nat * m1 0%nat 7%nat * m0 1%nat 1%nat - m2 2%nat 3%nat * m1 0%nat 6%nat * m0 1%nat 2%nat - m2 2%nat 3%nat * m1 0%nat 2%nat * m0 1%nat 6%nat - m2 2%nat 3%nat * m1 0%nat 1%nat * m0 1%nat 7%nat + m2 2%nat 2%nat * m1 1%nat 8%nat * m0 0%nat 0%nat + m2 2%nat 2%nat * m1 1%nat 6%nat * m0 0%nat 3%nat + m2 2%nat 2%nat * m1 1%nat 3%nat * m0 0%nat 6%nat + m2 2%nat 2%nat * m1 1%nat 0%nat * m0 0%nat 8%nat - m2 2%nat 2%nat * m1 0%nat 8%nat * m0 1%nat 0%nat - m2 2%nat 2%nat * m1 0%nat 6%nat * m0 1%nat 3%nat - m2 2%nat 2%nat * m1 0%nat 3%nat * m0 1%nat 6%nat - m2 2%nat 2%nat * m1 0%nat 0%nat * m0 1%nat 8%nat + m2 2%nat 1%nat * m1 1%nat 8%nat * m0 0%nat 1%nat + m2 2%nat 1%nat * m1 1%nat 7%nat * m0 0%nat 3%nat + m2 2%nat 1%nat * m1 1%nat 6%nat * m0 0%nat 4%nat + m2 2%nat 1%nat * m1 1%nat 4%nat * m0 0%nat 6%nat + m2 2%nat 1%nat * m1 1%nat 3%nat * m0 0%nat 7%nat + m2 2%nat 1%nat * m1 1%nat 1%nat * m0 0%nat 8%nat - m2 2%nat 1%nat * m1 0%nat 8%nat * m0 1%nat 1%nat - m2 2%nat 1%nat * m1 0%nat 7%nat * m0 1%nat 3%nat - m2 2%nat 1%nat * m1 0%nat 6%nat * m0 1%nat 4%nat - m2 2%nat 1%nat * m1 0%nat 4%nat * m0 1%nat 6%nat - m2 2%nat 1%nat * m1 0%nat 3%nat * m0 1%nat 7%nat - m2 2%nat 1%nat * m1 0%nat 1%nat * m0 1%nat 8%nat + m2 2%nat 0%nat * m1 1%nat 8%nat * m0 0%nat 2%nat + m2 2%nat 0%nat * m1 1%nat 7%nat * m0 0%nat 4%nat + m2 2%nat 0%nat * m1 1%nat 4%nat * m0 0%nat 7%nat + m2 2%nat 0%nat * m1 1%nat 2%nat * m0 0%nat 8%nat - m2 2%nat 0%nat * m1 0%nat 8%nat * m0 1%nat 2%nat - m2 2%nat 0%nat * m1 0%nat 7%nat * m0 1%nat 4%nat - m2 2%nat 0%nat * m1 0%nat 4%nat * m0 1%nat 7%nat - m2 2%nat 0%nat * m1 0%nat 2%nat * m0 1%nat 8%nat - m2 1%nat 8%nat * m1 2%nat 2%nat * m0 0%nat 0%nat - m2 1%nat 8%nat * m1 2%nat 1%nat * m0 0%nat 1%nat - m2 1%nat 8%nat * m1 2%nat 0%nat * m0 0%nat 2%nat + m2 1%nat 8%nat * m1 0%nat 2%nat * m0 2%nat 0%nat + m2 1%nat 8%nat * m1 0%nat 1%nat * m0 2%nat 1%nat + m2 1%nat 8%nat * m1 0%nat 0%nat * m0 2%nat 2%nat - m2 1%nat 7%nat * m1 2%nat 4%nat * m0 0%nat 0%nat - m2 1%nat 7%nat * m1 2%nat 3%nat * m0 0%nat 1%nat - m2 1%nat 7%nat * m1 2%nat 1%nat * m0 0%nat 3%nat - m2 1%nat 7%nat * m1 2%nat 0%nat * m0 0%nat 4%nat + m2 1%nat 7%nat * m1 0%nat 4%nat * m0 2%nat 0%nat + m2 1%nat 7%nat * m1 0%nat 3%nat * m0 2%nat 1%nat + m2 1%nat 7%nat * m1 0%nat 1%nat * m0 2%nat 3%nat + m2 1%nat 7%nat * m1 0%nat 0%nat * m0 2%nat 4%nat - m2 1%nat 6%nat * m1 2%nat 4%nat * m0 0%nat 1%nat - m2 1%nat 6%nat * m1 2%nat 3%nat * m0 0%nat 2%nat - m2 1%nat 6%nat * m1 2%nat 2%nat * m0 0%nat 3%nat - m2 1%nat 6%nat * m1 2%nat 1%nat * m0 0%nat 4%nat + m2 1%nat 6%nat * m1 0%nat 4%nat * m0 2%nat 1%nat + m2 1%nat 6%nat * m1 0%nat 3%nat * m0 2%nat 2%nat + m2 1%nat 6%nat * m1 0%nat 2%nat * m0 2%nat 3%nat + m2 1%nat 6%nat * m1 0%nat 1%nat * m0 2%nat 4%nat - m2 1%nat 4%nat * m1 2%nat 7%nat * m0 0%nat 0%nat - m2 1%nat 4%nat * m1 2%nat 6%nat * m0 0%nat 1%nat - m2 1%nat 4%nat * m1 2%nat 1%nat * m0 0%nat 6%nat - m2 1%nat 4%nat * m1 2%nat 0%nat * m0 0%nat 7%nat + m2 1%nat 4%nat * m1 0%nat 7%nat * m0 2%nat 0%nat + m2 1%nat 4%nat * m1 0%nat 6%nat * m0 2%nat 1%nat + m2 1%nat 4%nat * m1 0%nat 1%nat * m0 2%nat 6%nat + m2 1%nat 4%nat * m1 0%nat 0%nat * m0 2%nat 7%nat - m2 1%nat 3%nat * m1 2%nat 7%nat * m0 0%nat 1%nat - m2 1%nat 3%nat * m1 2%nat 6%nat * m0 0%nat 2%nat - m2 1%nat 3%nat * m1 2%nat 2%nat * m0 0%nat 6%nat - m2 1%nat 3%nat * m1 2%nat 1%nat * m0 0%nat 7%nat + m2 1%nat 3%nat * m1 0%nat 7%nat * m0 2%nat 1%nat + m2 1%nat 3%nat * m1 0%nat 6%nat * m0 2%nat 2%nat + m2 1%nat 3%nat * m1 0%nat 2%nat * m0 2%nat 6%nat + m2 1%nat 3%nat * m1 0%nat 1%nat * m0 2%nat 7%nat - m2 1%nat 2%nat * m1 2%nat 8%nat * m0 0%nat 0%nat - m2 1%nat 2%nat * m1 2%nat 6%nat * m0 0%nat 3%nat - m2 1%nat 2%nat * m1 2%nat 3%nat * m0 0%nat 6%nat - m2 1%nat 2%nat * m1 2%nat 0%nat * m0 0%nat 8%nat + m2 1%nat 2%nat * m1 0%nat 8%nat * m0 2%nat 0%nat + m2 1%nat 2%nat * m1 0%nat 6%nat * m0 2%nat 3%nat + m2 1%nat 2%nat * m1 0%nat 3%nat * m0 2%nat 6%nat + m2 1%nat 2%nat * m1 0%nat 0%nat * m0 2%nat 8%nat - m2 1%nat 1%nat * m1 2%nat 8%nat * m0 0%nat 1%nat - m2 1%nat 1%nat * m1 2%nat 7%nat * m0 0%nat 3%nat - m2 1%nat 1%nat * m1 2%nat 6%nat * m0 0%nat 4%nat - m2 1%nat 1%nat * m1 2%nat 4%nat * m0 0%nat 6%nat - m2 1%nat 1%nat * m1 2%nat 3%nat * m0 0%nat 7%nat - m2 1%nat 1%nat * m1 2%nat 1%nat * m0 0%nat 8%nat + m2 1%nat 1%nat * m1 0%nat 8%nat * m0 2%nat 1%nat + m2 1%nat 1%nat * m1 0%nat 7%nat * m0 2%nat 3%nat + m2 1%nat 1%nat * m1 0%nat 6%nat * m0 2%nat 4%nat + m2 1%nat 1%nat * m1 0%nat 4%nat * m0 2%nat 6%nat + m2 1%nat 1%nat * m1 0%nat 3%nat * m0 2%nat 7%nat + m2 1%nat 1%nat * m1 0%nat 1%nat * m0 2%nat 8%nat - m2 1%nat 0%nat * m1 2%nat 8%nat * m0 0%nat 2%nat - m2 1%nat 0%nat * m1 2%nat 7%nat * m0 0%nat 4%nat - m2 1%nat 0%nat * m1 2%nat 4%nat * m0 0%nat 7%nat - m2 1%nat 0%nat * m1 2%nat 2%nat * m0 0%nat 8%nat + m2 1%nat 0%nat * m1 0%nat 8%nat * m0 2%nat 2%nat + m2 1%nat 0%nat * m1 0%nat 7%nat * m0 2%nat 4%nat + m2 1%nat 0%nat * m1 0%nat 4%nat * m0 2%nat 7%nat + m2 1%nat 0%nat * m1 0%nat 2%nat * m0 2%nat 8%nat + m2 0%nat 8%nat * m1 2%nat 2%nat * m0 1%nat 0%nat + m2 0%nat 8%nat * m1 2%nat 1%nat * m0 1%nat 1%nat + m2 0%nat 8%nat * m1 2%nat 0%nat * m0 1%nat 2%nat - m2 0%nat 8%nat * m1 1%nat 2%nat * m0 2%nat 0%nat - m2 0%nat 8%nat * m1 1%nat 1%nat * m0 2%nat 1%nat - m2 0%nat 8%nat * m1 1%nat 0%nat * m0 2%nat 2%nat + m2 0%nat 7%nat * m1 2%nat 4%nat * m0 1%nat 0%nat + m2 0%nat 7%nat * m1 2%nat 3%nat * m0 1%nat 1%nat + m2 0%nat 7%nat * m1 2%nat 1%nat * m0 1%nat 3%nat + m2 0%nat 7%nat * m1 2%nat 0%nat * m0 1%nat 4%nat - m2 0%nat 7%nat * m1 1%nat 4%nat * m0 2%nat 0%nat - m2 0%nat 7%nat * m1 1%nat 3%nat * m0 2%nat 1%nat - m2 0%nat 7%nat * m1 1%nat 1%nat * m0 2%nat 3%nat - m2 0%nat 7%nat * m1 1%nat 0%nat * m0 2%nat 4%nat + m2 0%nat 6%nat * m1 2%nat 4%nat * m0 1%nat 1%nat + m2 0%nat 6%nat * m1 2%nat 3%nat * m0 1%nat 2%nat + m2 0%nat 6%nat * m1 2%nat 2%nat * m0 1%nat 3%nat + m2 0%nat 6%nat * m1 2%nat 1%nat * m0 1%nat 4%nat - m2 0%nat 6%nat * m1 1%nat 4%nat * m0 2%nat 1%nat - m2 0%nat 6%nat * m1 1%nat 3%nat * m0 2%nat 2%nat - m2 0%nat 6%nat * m1 1%nat 2%nat * m0 2%nat 3%nat - m2 0%nat 6%nat * m1 1%nat 1%nat * m0 2%nat 4%nat + m2 0%nat 4%nat * m1 2%nat 7%nat * m0 1%nat 0%nat + m2 0%nat 4%nat * m1 2%nat 6%nat * m0 1%nat 1%nat + m2 0%nat 4%nat * m1 2%nat 1%nat * m0 1%nat 6%nat + m2 0%nat 4%nat * m1 2%nat 0%nat * m0 1%nat 7%nat - m2 0%nat 4%nat * m1 1%nat 7%nat * m0 2%nat 0%nat - m2 0%nat 4%nat * m1 1%nat 6%nat * m0 2%nat 1%nat - m2 0%nat 4%nat * m1 1%nat 1%nat * m0 2%nat 6%nat - m2 0%nat 4%nat * m1 1%nat 0%nat * m0 2%nat 7%nat + m2 0%nat 3%nat * m1 2%nat 7%nat * m0 1%nat 1%nat + m2 0%nat 3%nat * m1 2%nat 6%nat * m0 1%nat 2%nat + m2 0%nat 3%nat * m1 2%nat 2%nat * m0 1%nat 6%nat + m2 0%nat 3%nat * m1 2%nat 1%nat * m0 1%nat 7%nat - m2 0%nat 3%nat * m1 1%nat 7%nat * m0 2%nat 1%nat - m2 0%nat 3%nat * m1 1%nat 6%nat * m0 2%nat 2%nat - m2 0%nat 3%nat * m1 1%nat 2%nat * m0 2%nat 6%nat - m2 0%nat 3%nat * m1 1%nat 1%nat * m0 2%nat 7%nat + m2 0%nat 2%nat * m1 2%nat 8%nat * m0 1%nat 0%nat + m2 0%nat 2%nat * m1 2%nat 6%nat * m0 1%nat 3%nat + m2 0%nat 2%nat * m1 2%nat 3%nat * m0 1%nat 6%nat + m2 0%nat 2%nat * m1 2%nat 0%nat * m0 1%nat 8%nat - m2 0%nat 2%nat * m1 1%nat 8%nat * m0 2%nat 0%nat - m2 0%nat 2%nat * m1 1%nat 6%nat * m0 2%nat 3%nat - m2 0%nat 2%nat * m1 1%nat 3%nat * m0 2%nat 6%nat - m2 0%nat 2%nat * m1 1%nat 0%nat * m0 2%nat 8%nat + m2 0%nat 1%nat * m1 2%nat 8%nat * m0 1%nat 1%nat + m2 0%nat 1%nat * m1 2%nat 7%nat * m0 1%nat 3%nat + m2 0%nat 1%nat * m1 2%nat 6%nat * m0 1%nat 4%nat + m2 0%nat 1%nat * m1 2%nat 4%nat * m0 1%nat 6%nat + m2 0%nat 1%nat * m1 2%nat 3%nat * m0 1%nat 7%nat + m2 0%nat 1%nat * m1 2%nat 1%nat * m0 1%nat 8%nat - m2 0%nat 1%nat * m1 1%nat 8%nat * m0 2%nat 1%nat - m2 0%nat 1%nat * m1 1%nat 7%nat * m0 2%nat 3%nat - m2 0%nat 1%nat * m1 1%nat 6%nat * m0 2%nat 4%nat - m2 0%nat 1%nat * m1 1%nat 4%nat * m0 2%nat 6%nat - m2 0%nat 1%nat * m1 1%nat 3%nat * m0 2%nat 7%nat - m2 0%nat 1%nat * m1 1%nat 1%nat * m0 2%nat 8%nat + m2 0%nat 0%nat * m1 2%nat 8%nat * m0 1%nat 2%nat + m2 0%nat 0%nat * m1 2%nat 7%nat * m0 1%nat 4%nat + m2 0%nat 0%nat * m1 2%nat 4%nat * m0 1%nat 7%nat + m2 0%nat 0%nat * m1 2%nat 2%nat * m0 1%nat 8%nat - m2 0%nat 0%nat * m1 1%nat 8%nat * m0 2%nat 2%nat - m2 0%nat 0%nat * m1 1%nat 7%nat * m0 2%nat 4%nat - m2 0%nat 0%nat * m1 1%nat 4%nat * m0 2%nat 7%nat - m2 0%nat 0%nat * m1 1%nat 2%nat * m0 2%nat 8%nat;
    m2 2%nat 8%nat * m1 1%nat 2%nat * m0 0%nat 1%nat + m2 2%nat 8%nat * m1 1%nat 1%nat * m0 0%nat 2%nat - m2 2%nat 8%nat * m1 0%nat 2%nat * m0 1%nat 1%nat - m2 2%nat 8%nat * m1 0%nat 1%nat * m0 1%nat 2%nat + m2 2%nat 7%nat * m1 1%nat 4%nat * m0 0%nat 1%nat + m2 2%nat 7%nat * m1 1%nat 3%nat * m0 0%nat 2%nat + m2 2%nat 7%nat * m1 1%nat 2%nat * m0 0%nat 3%nat + m2 2%nat 7%nat * m1 1%nat 1%nat * m0 0%nat 4%nat - m2 2%nat 7%nat * m1 0%nat 4%nat * m0 1%nat 1%nat - m2 2%nat 7%nat * m1 0%nat 3%nat * m0 1%nat 2%nat - m2 2%nat 7%nat * m1 0%nat 2%nat * m0 1%nat 3%nat - m2 2%nat 7%nat * m1 0%nat 1%nat * m0 1%nat 4%nat + m2 2%nat 6%nat * m1 1%nat 4%nat * m0 0%nat 2%nat + m2 2%nat 6%nat * m1 1%nat 2%nat * m0 0%nat 4%nat - m2 2%nat 6%nat * m1 0%nat 4%nat * m0 1%nat 2%nat - m2 2%nat 6%nat * m1 0%nat 2%nat * m0 1%nat 4%nat + m2 2%nat 4%nat * m1 1%nat 7%nat * m0 0%nat 1%nat + m2 2%nat 4%nat * m1 1%nat 6%nat * m0 0%nat 2%nat + m2 2%nat 4%nat * m1 1%nat 2%nat * m0 0%nat 6%nat + m2 2%nat 4%nat * m1 1%nat 1%nat * m0 0%nat 7%nat - m2 2%nat 4%nat * m1 0%nat 7%nat * m0 1%nat 1%nat - m2 2%nat 4%nat * m1 0%nat 6%nat * m0 1%nat 2%nat - m2 2%nat 4%nat * m1 0%nat 2%nat * m0 1%nat 6%nat - m2 2%nat 4%nat * m1 0%nat 1%nat * m0 1%nat 7%nat + m2 2%nat 3%nat * m1 1%nat 7%nat * m0 0%nat 2%nat + m2 2%nat 3%nat * m1 1%nat 2%nat * m0 0%nat 7%nat - m2 2%nat 3%nat * m1 0%nat 7%nat * m0 1%nat 2%nat - m2 2%nat 3%nat * m1 0%nat 2%nat * m0 1%nat 7%nat + m2 2%nat 2%nat * m1 1%nat 8%nat * m0 0%nat 1%nat + m2 2%nat 2%nat * m1 1%nat 7%nat * m0 0%nat 3%nat + m2 2%nat 2%nat * m1 1%nat 6%nat * m0 0%nat 4%nat + m2 2%nat 2%nat * m1 1%nat 4%nat * m0 0%nat 6%nat + m2 2%nat 2%nat * m1 1%nat 3%nat * m0 0%nat 7%nat + m2 2%nat 2%nat * m1 1%nat 1%nat * m0 0%nat 8%nat - m2 2%nat 2%nat * m1 0%nat 8%nat * m0 1%nat 1%nat - m2 2%nat 2%nat * m1 0%nat 7%nat * m0 1%nat 3%nat - m2 2%nat 2%nat * m1 0%nat 6%nat * m0 1%nat 4%nat - m2 2%nat 2%nat * m1 0%nat 4%nat * m0 1%nat 6%nat - m2 2%nat 2%nat * m1 0%nat 3%nat * m0 1%nat 7%nat - m2 2%nat 2%nat * m1 0%nat 1%nat * m0 1%nat 8%nat + m2 2%nat 1%nat * m1 1%nat 8%nat * m0 0%nat 2%nat + m2 2%nat 1%nat * m1 1%nat 7%nat * m0 0%nat 4%nat + m2 2%nat 1%nat * m1 1%nat 4%nat * m0 0%nat 7%nat + m2 2%nat 1%nat * m1 1%nat 2%nat * m0 0%nat 8%nat - m2 2%nat 1%nat * m1 0%nat 8%nat * m0 1%nat 2%nat - m2 2%nat 1%nat * m1 0%nat 7%nat * m0 1%nat 4%nat - m2 2%nat 1%nat * m1 0%nat 4%nat * m0 1%nat 7%nat - m2 2%nat 1%nat * m1 0%nat 2%nat * m0 1%nat 8%nat - m2 1%nat 8%nat * m1 2%nat 2%nat * m0 0%nat 1%nat - m2 1%nat 8%nat * m1 2%nat 1%nat * m0 0%nat 2%nat + m2 1%nat 8%nat * m1 0%nat 2%nat * m0 2%nat 1%nat + m2 1%nat 8%nat * m1 0%nat 1%nat * m0 2%nat 2%nat - m2 1%nat 7%nat * m1 2%nat 4%nat * m0 0%nat 1%nat - m2 1%nat 7%nat * m1 2%nat 3%nat * m0 0%nat 2%nat - m2 1%nat 7%nat * m1 2%nat 2%nat * m0 0%nat 3%nat - m2 1%nat 7%nat * m1 2%nat 1%nat * m0 0%nat 4%nat + m2 1%nat 7%nat * m1 0%nat 4%nat * m0 2%nat 1%nat + m2 1%nat 7%nat * m1 0%nat 3%nat * m0 2%nat 2%nat + m2 1%nat 7%nat * m1 0%nat 2%nat * m0 2%nat 3%nat + m2 1%nat 7%nat * m1 0%nat 1%nat * m0 2%nat 4%nat - m2 1%nat 6%nat * m1 2%nat 4%nat * m0 0%nat 2%nat - m2 1%nat 6%nat * m1 2%nat 2%nat * m0 0%nat 4%nat + m2 1%nat 6%nat * m1 0%nat 4%nat * m0 2%nat 2%nat + m2 1%nat 6%nat * m1 0%nat 2%nat * m0 2%nat 4%nat - m2 1%nat 4%nat * m1 2%nat 7%nat * m0 0%nat 1%nat - m2 1%nat 4%nat * m1 2%nat 6%nat * m0 0%nat 2%nat - m2 1%nat 4%nat * m1 2%nat 2%nat * m0 0%nat 6%nat - m2 1%nat 4%nat * m1 2%nat 1%nat * m0 0%nat 7%nat + m2 1%nat 4%nat * m1 0%nat 7%nat * m0 2%nat 1%nat + m2 1%nat 4%nat * m1 0%nat 6%nat * m0 2%nat 2%nat + m2 1%nat 4%nat * m1 0%nat 2%nat * m0 2%nat 6%nat + m2 1%nat 4%nat * m1 0%nat 1%nat * m0 2%nat 7%nat - m2 1%nat 3%nat * m1 2%nat 7%nat * m0 0%nat 2%nat - m2 1%nat 3%nat * m1 2%nat 2%nat * m0 0%nat 7%nat + m2 1%nat 3%nat * m1 0%nat 7%nat * m0 2%nat 2%nat + m2 1%nat 3%nat * m1 0%nat 2%nat * m0 2%nat 7%nat - m2 1%nat 2%nat * m1 2%nat 8%nat * m0 0%nat 1%nat - m2 1%nat 2%nat * m1 2%nat 7%nat * m0 0%nat 3%nat - m2 1%nat 2%nat * m1 2%nat 6%nat * m0 0%nat 4%nat - m2 1%nat 2%nat * m1 2%nat 4%nat * m0 0%nat 6%nat - m2 1%nat 2%nat * m1 2%nat 3%nat * m0 0%nat 7%nat - m2 1%nat 2%nat * m1 2%nat 1%nat * m0 0%nat 8%nat + m2 1%nat 2%nat * m1 0%nat 8%nat * m0 2%nat 1%nat + m2 1%nat 2%nat * m1 0%nat 7%nat * m0 2%nat 3%nat + m2 1%nat 2%nat * m1 0%nat 6%nat * m0 2%nat 4%nat + m2 1%nat 2%nat * m1 0%nat 4%nat * m0 2%nat 6%nat + m2 1%nat 2%nat * m1 0%nat 3%nat * m0 2%nat 7%nat + m2 1%nat 2%nat * m1 0%nat 1%nat * m0 2%nat 8%nat - m2 1%nat 1%nat * m1 2%nat 8%nat * m0 0%nat 2%nat - m2 1%nat 1%nat * m1 2%nat 7%nat * m0 0%nat 4%nat - m2 1%nat 1%nat * m1 2%nat 4%nat * m0 0%nat 7%nat - m2 1%nat 1%nat * m1 2%nat 2%nat * m0 0%nat 8%nat + m2 1%nat 1%nat * m1 0%nat 8%nat * m0 2%nat 2%nat + m2 1%nat 1%nat * m1 0%nat 7%nat * m0 2%nat 4%nat + m2 1%nat 1%nat * m1 0%nat 4%nat * m0 2%nat 7%nat + m2 1%nat 1%nat * m1 0%nat 2%nat * m0 2%nat 8%nat + m2 0%nat 8%nat * m1 2%nat 2%nat * m0 1%nat 1%nat + m2 0%nat 8%nat * m1 2%nat 1%nat * m0 1%nat 2%nat - m2 0%nat 8%nat * m1 1%nat 2%nat * m0 2%nat 1%nat - m2 0%nat 8%nat * m1 1%nat 1%nat * m0 2%nat 2%nat + m2 0%nat 7%nat * m1 2%nat 4%nat * m0 1%nat 1%nat + m2 0%nat 7%nat * m1 2%nat 3%nat * m0 1%nat 2%nat + m2 0%nat 7%nat * m1 2%nat 2%nat * m0 1%nat 3%nat + m2 0%nat 7%nat * m1 2%nat 1%nat * m0 1%nat 4%nat - m2 0%nat 7%nat * m1 1%nat 4%nat * m0 2%nat 1%nat - m2 0%nat 7%nat * m1 1%nat 3%nat * m0 2%nat 2%nat - m2 0%nat 7%nat * m1 1%nat 2%nat * m0 2%nat 3%nat - m2 0%nat 7%nat * m1 1%nat 1%nat * m0 2%nat 4%nat + m2 0%nat 6%nat * m1 2%nat 4%nat * m0 1%nat 2%nat + m2 0%nat 6%nat * m1 2%nat 2%nat * m0 1%nat 4%nat - m2 0%nat 6%nat * m1 1%nat 4%nat * m0 2%nat 2%nat - m2 0%nat 6%nat * m1 1%nat 2%nat * m0 2%nat 4%nat + m2 0%nat 4%nat * m1 2%nat 7%nat * m0 1%nat 1%nat + m2 0%nat 4%nat * m1 2%nat 6%nat * m0 1%nat 2%nat + m2 0%nat 4%nat * m1 2%nat 2%nat * m0 1%nat 6%nat + m2 0%nat 4%nat * m1 2%nat 1%nat * m0 1%nat 7%nat - m2 0%nat 4%nat * m1 1%nat 7%nat * m0 2%nat 1%nat - m2 0%nat 4%nat * m1 1%nat 6%nat * m0 2%nat 2%nat - m2 0%nat 4%nat * m1 1%nat 2%nat * m0 2%nat 6%nat - m2 0%nat 4%nat * m1 1%nat 1%nat * m0 2%nat 7%nat + m2 0%nat 3%nat * m1 2%nat 7%nat * m0 1%nat 2%nat + m2 0%nat 3%nat * m1 2%nat 2%nat * m0 1%nat 7%nat - m2 0%nat 3%nat * m1 1%nat 7%nat * m0 2%nat 2%nat - m2 0%nat 3%nat * m1 1%nat 2%nat * m0 2%nat 7%nat + m2 0%nat 2%nat * m1 2%nat 8%nat * m0 1%nat 1%nat + m2 0%nat 2%nat * m1 2%nat 7%nat * m0 1%nat 3%nat + m2 0%nat 2%nat * m1 2%nat 6%nat * m0 1%nat 4%nat + m2 0%nat 2%nat * m1 2%nat 4%nat * m0 1%nat 6%nat + m2 0%nat 2%nat * m1 2%nat 3%nat * m0 1%nat 7%nat + m2 0%nat 2%nat * m1 2%nat 1%nat * m0 1%nat 8%nat - m2 0%nat 2%nat * m1 1%nat 8%nat * m0 2%nat 1%nat - m2 0%nat 2%nat * m1 1%nat 7%nat * m0 2%nat 3%nat - m2 0%nat 2%nat * m1 1%nat 6%nat * m0 2%nat 4%nat - m2 0%nat 2%nat * m1 1%nat 4%nat * m0 2%nat 6%nat - m2 0%nat 2%nat * m1 1%nat 3%nat * m0 2%nat 7%nat - m2 0%nat 2%nat * m1 1%nat 1%nat * m0 2%nat 8%nat + m2 0%nat 1%nat * m1 2%nat 8%nat * m0 1%nat 2%nat + m2 0%nat 1%nat * m1 2%nat 7%nat * m0 1%nat 4%nat + m2 0%nat 1%nat * m1 2%nat 4%nat * m0 1%nat 7%nat + m2 0%nat 1%nat * m1 2%nat 2%nat * m0 1%nat 8%nat - m2 0%nat 1%nat * m1 1%nat 8%nat * m0 2%nat 2%nat - m2 0%nat 1%nat * m1 1%nat 7%nat * m0 2%nat 4%nat - m2 0%nat 1%nat * m1 1%nat 4%nat * m0 2%nat 7%nat - m2 0%nat 1%nat * m1 1%nat 2%nat * m0 2%nat 8%nat;
    m2 2%nat 8%nat * m1 1%nat 2%nat * m0 0%nat 2%nat - m2 2%nat 8%nat * m1 0%nat 2%nat * m0 1%nat 2%nat + m2 2%nat 7%nat * m1 1%nat 4%nat * m0 0%nat 2%nat + m2 2%nat 7%nat * m1 1%nat 2%nat * m0 0%nat 4%nat - m2 2%nat 7%nat * m1 0%nat 4%nat * m0 1%nat 2%nat - m2 2%nat 7%nat * m1 0%nat 2%nat * m0 1%nat 4%nat + m2 2%nat 4%nat * m1 1%nat 7%nat * m0 0%nat 2%nat + m2 2%nat 4%nat * m1 1%nat 2%nat * m0 0%nat 7%nat - m2 2%nat 4%nat * m1 0%nat 7%nat * m0 1%nat 2%nat - m2 2%nat 4%nat * m1 0%nat 2%nat * m0 1%nat 7%nat + m2 2%nat 2%nat * m1 1%nat 8%nat * m0 0%nat 2%nat + m2 2%nat 2%nat * m1 1%nat 7%nat * m0 0%nat 4%nat + m2 2%nat 2%nat * m1 1%nat 4%nat * m0 0%nat 7%nat + m2 2%nat 2%nat * m1 1%nat 2%nat * m0 0%nat 8%nat - m2 2%nat 2%nat * m1 0%nat 8%nat * m0 1%nat 2%nat - m2 2%nat 2%nat * m1 0%nat 7%nat * m0 1%nat 4%nat - m2 2%nat 2%nat * m1 0%nat 4%nat * m0 1%nat 7%nat - m2 2%nat 2%nat * m1 0%nat 2%nat * m0 1%nat 8%nat - m2 1%nat 8%nat * m1 2%nat 2%nat * m0 0%nat 2%nat + m2 1%nat 8%nat * m1 0%nat 2%nat * m0 2%nat 2%nat - m2 1%nat 7%nat * m1 2%nat 4%nat * m0 0%nat 2%nat - m2 1%nat 7%nat * m1 2%nat 2%nat * m0 0%nat 4%nat + m2 1%nat 7%nat * m1 0%nat 4%nat * m0 2%nat 2%nat + m2 1%nat 7%nat * m1 0%nat 2%nat * m0 2%nat 4%nat - m2 1%nat 4%nat * m1 2%nat 7%nat * m0 0%nat 2%nat - m2 1%nat 4%nat * m1 2%nat 2%nat * m0 0%nat 7%nat + m2 1%nat 4%nat * m1 0%nat 7%nat * m0 2%nat 2%nat + m2 1%nat 4%nat * m1 0%nat 2%nat * m0 2%nat 7%nat - m2 1%nat 2%nat * m1 2%nat 8%nat * m0 0%nat 2%nat - m2 1%nat 2%nat * m1 2%nat 7%nat * m0 0%nat 4%nat - m2 1%nat 2%nat * m1 2%nat 4%nat * m0 0%nat 7%nat - m2 1%nat 2%nat * m1 2%nat 2%nat * m0 0%nat 8%nat + m2 1%nat 2%nat * m1 0%nat 8%nat * m0 2%nat 2%nat + m2 1%nat 2%nat * m1 0%nat 7%nat * m0 2%nat 4%nat + m2 1%nat 2%nat * m1 0%nat 4%nat * m0 2%nat 7%nat + m2 1%nat 2%nat * m1 0%nat 2%nat * m0 2%nat 8%nat + m2 0%nat 8%nat * m1 2%nat 2%nat * m0 1%nat 2%nat - m2 0%nat 8%nat * m1 1%nat 2%nat * m0 2%nat 2%nat + m2 0%nat 7%nat * m1 2%nat 4%nat * m0 1%nat 2%nat + m2 0%nat 7%nat * m1 2%nat 2%nat * m0 1%nat 4%nat - m2 0%nat 7%nat * m1 1%nat 4%nat * m0 2%nat 2%nat - m2 0%nat 7%nat * m1 1%nat 2%nat * m0 2%nat 4%nat + m2 0%nat 4%nat * m1 2%nat 7%nat * m0 1%nat 2%nat + m2 0%nat 4%nat * m1 2%nat 2%nat * m0 1%nat 7%nat - m2 0%nat 4%nat * m1 1%nat 7%nat * m0 2%nat 2%nat - m2 0%nat 4%nat * m1 1%nat 2%nat * m0 2%nat 7%nat + m2 0%nat 2%nat * m1 2%nat 8%nat * m0 1%nat 2%nat + m2 0%nat 2%nat * m1 2%nat 7%nat * m0 1%nat 4%nat + m2 0%nat 2%nat * m1 2%nat 4%nat * m0 1%nat 7%nat + m2 0%nat 2%nat * m1 2%nat 2%nat * m0 1%nat 8%nat - m2 0%nat 2%nat * m1 1%nat 8%nat * m0 2%nat 2%nat - m2 0%nat 2%nat * m1 1%nat 7%nat * m0 2%nat 4%nat - m2 0%nat 2%nat * m1 1%nat 4%nat * m0 2%nat 7%nat - m2 0%nat 2%nat * m1 1%nat 2%nat * m0 2%nat 8%nat;
    m2 2%nat 8%nat * m1 1%nat 3%nat * m0 0%nat 0%nat + m2 2%nat 8%nat * m1 1%nat 0%nat * m0 0%nat 3%nat - m2 2%nat 8%nat * m1 0%nat 3%nat * m0 1%nat 0%nat - m2 2%nat 8%nat * m1 0%nat 0%nat * m0 1%nat 3%nat + m2 2%nat 6%nat * m1 1%nat 5%nat * m0 0%nat 0%nat + m2 2%nat 6%nat * m1 1%nat 3%nat * m0 0%nat 3%nat + m2 2%nat 6%nat * m1 1%nat 0%nat * m0 0%nat 5%nat - m2 2%nat 6%nat * m1 0%nat 5%nat * m0 1%nat 0%nat - m2 2%nat 6%nat * m1 0%nat 3%nat * m0 1%nat 3%nat - m2 2%nat 6%nat * m1 0%nat 0%nat * m0 1%nat 5%nat + m2 2%nat 5%nat * m1 1%nat 6%nat * m0 0%nat 0%nat + m2 2%nat 5%nat * m1 1%nat 0%nat * m0 0%nat 6%nat - m2 2%nat 5%nat * m1 0%nat 6%nat * m0 1%nat 0%nat - m2 2%nat 5%nat * m1 0%nat 0%nat * m0 1%nat 6%nat + m2 2%nat 3%nat * m1 1%nat 8%nat * m0 0%nat 0%nat + m2 2%nat 3%nat * m1 1%nat 6%nat * m0 0%nat 3%nat + m2 2%nat 3%nat * m1 1%nat 3%nat * m0 0%nat 6%nat + m2 2%nat 3%nat * m1 1%nat 0%nat * m0 0%nat 8%nat - m2 2%nat 3%nat * m1 0%nat 8%nat * m0 1%nat 0%nat - m2 2%nat 3%nat * m1 0%nat 6%nat * m0 1%nat 3%nat - m2 2%nat 3%nat * m1 0%nat 3%nat * m0 1%nat 6%nat - m2 2%nat 3%nat * m1 0%nat 0%nat * m0 1%nat 8%nat + m2 2%nat 0%nat * m1 1%nat 8%nat * m0 0%nat 3%nat + m2 2%nat 0%nat * m1 1%nat 6%nat * m0 0%nat 5%nat + m2 2%nat 0%nat * m1 1%nat 5%nat * m0 0%nat 6%nat + m2 2%nat 0%nat * m1 1%nat 3%nat * m0 0%nat 8%nat - m2 2%nat 0%nat * m1 0%nat 8%nat * m0 1%nat 3%nat - m2 2%nat 0%nat * m1 0%nat 6%nat * m0 1%nat 5%nat - m2 2%nat 0%nat * m1 0%nat 5%nat * m0 1%nat 6%nat - m2 2%nat 0%nat * m1 0%nat 3%nat * m0 1%nat 8%nat - m2 1%nat 8%nat * m1 2%nat 3%nat * m0 0%nat 0%nat - m2 1%nat 8%nat * m1 2%nat 0%nat * m0 0%nat 3%nat + m2 1%nat 8%nat * m1 0%nat 3%nat * m0 2%nat 0%nat + m2 1%nat 8%nat * m1 0%nat 0%nat * m0 2%nat 3%nat - m2 1%nat 6%nat * m1 2%nat 5%nat * m0 0%nat 0%nat - m2 1%nat 6%nat * m1 2%nat 3%nat * m0 0%nat 3%nat - m2 1%nat 6%nat * m1 2%nat 0%nat * m0 0%nat 5%nat + m2 1%nat 6%nat * m1 0%nat 5%nat * m0 2%nat 0%nat + m2 1%nat 6%nat * m1 0%nat 3%nat * m0 2%nat 3%nat + m2 1%nat 6%nat * m1 0%nat 0%nat * m0 2%nat 5%nat - m2 1%nat 5%nat * m1 2%nat 6%nat * m0 0%nat 0%nat - m2 1%nat 5%nat * m1 2%nat 0%nat * m0 0%nat 6%nat + m2 1%nat 5%nat * m1 0%nat 6%nat * m0 2%nat 0%nat + m2 1%nat 5%nat * m1 0%nat 0%nat * m0 2%nat 6%nat - m2 1%nat 3%nat * m1 2%nat 8%nat * m0 0%nat 0%nat - m2 1%nat 3%nat * m1 2%nat 6%nat * m0 0%nat 3%nat - m2 1%nat 3%nat * m1 2%nat 3%nat * m0 0%nat 6%nat - m2 1%nat 3%nat * m1 2%nat 0%nat * m0 0%nat 8%nat + m2 1%nat 3%nat * m1 0%nat 8%nat * m0 2%nat 0%nat + m2 1%nat 3%nat * m1 0%nat 6%nat * m0 2%nat 3%nat + m2 1%nat 3%nat * m1 0%nat 3%nat * m0 2%nat 6%nat + m2 1%nat 3%nat * m1 0%nat 0%nat * m0 2%nat 8%nat - m2 1%nat 0%nat * m1 2%nat 8%nat * m0 0%nat 3%nat - m2 1%nat 0%nat * m1 2%nat 6%nat * m0 0%nat 5%nat - m2 1%nat 0%nat * m1 2%nat 5%nat * m0 0%nat 6%nat - m2 1%nat 0%nat * m1 2%nat 3%nat * m0 0%nat 8%nat + m2 1%nat 0%nat * m1 0%nat 8%nat * m0 2%nat 3%nat + m2 1%nat 0%nat * m1 0%nat 6%nat * m0 2%nat 5%nat + m2 1%nat 0%nat * m1 0%nat 5%nat * m0 2%nat 6%nat + m2 1%nat 0%nat * m1 0%nat 3%nat * m0 2%nat 8%nat + m2 0%nat 8%nat * m1 2%nat 3%nat * m0 1%nat 0%nat + m2 0%nat 8%nat * m1 2%nat 0%nat * m0 1%nat 3%nat - m2 0%nat 8%nat * m1 1%nat 3%nat * m0 2%nat 0%nat - m2 0%nat 8%nat * m1 1%nat 0%nat * m0 2%nat 3%nat + m2 0%nat 6%nat * m1 2%nat 5%nat * m0 1%nat 0%nat + m2 0%nat 6%nat * m1 2%nat 3%nat * m0 1%nat 3%nat + m2 0%nat 6%nat * m1 2%nat 0%nat * m0 1%nat 5%nat - m2 0%nat 6%nat * m1 1%nat 5%nat * m0 2%nat 0%nat - m2 0%nat 6%nat * m1 1%nat 3%nat * m0 2%nat 3%nat - m2 0%nat 6%nat * m1 1%nat 0%nat * m0 2%nat 5%nat + m2 0%nat 5%nat * m1 2%nat 6%nat * m0 1%nat 0%nat + m2 0%nat 5%nat * m1 2%nat 0%nat * m0 1%nat 6%nat - m2 0%nat 5%nat * m1 1%nat 6%nat * m0 2%nat 0%nat - m2 0%nat 5%nat * m1 1%nat 0%nat * m0 2%nat 6%nat + m2 0%nat 3%nat * m1 2%nat 8%nat * m0 1%nat 0%nat + m2 0%nat 3%nat * m1 2%nat 6%nat * m0 1%nat 3%nat + m2 0%nat 3%nat * m1 2%nat 3%nat * m0 1%nat 6%nat + m2 0%nat 3%nat * m1 2%nat 0%nat * m0 1%nat 8%nat - m2 0%nat 3%nat * m1 1%nat 8%nat * m0 2%nat 0%nat - m2 0%nat 3%nat * m1 1%nat 6%nat * m0 2%nat 3%nat - m2 0%nat 3%nat * m1 1%nat 3%nat * m0 2%nat 6%nat - m2 0%nat 3%nat * m1 1%nat 0%nat * m0 2%nat 8%nat + m2 0%nat 0%nat * m1 2%nat 8%nat * m0 1%nat 3%nat + m2 0%nat 0%nat * m1 2%nat 6%nat * m0 1%nat 5%nat + m2 0%nat 0%nat * m1 2%nat 5%nat * m0 1%nat 6%nat + m2 0%nat 0%nat * m1 2%nat 3%nat * m0 1%nat 8%nat - m2 0%nat 0%nat * m1 1%nat 8%nat * m0 2%nat 3%nat - m2 0%nat 0%nat * m1 1%nat 6%nat * m0 2%nat 5%nat - m2 0%nat 0%nat * m1 1%nat 5%nat * m0 2%nat 6%nat - m2 0%nat 0%nat * m1 1%nat 3%nat * m0 2%nat 8%nat;
    m2 2%nat 8%nat * m1 1%nat 4%nat * m0 0%nat 0%nat + m2 2%nat 8%nat * m1 1%nat 3%nat * m0 0%nat 1%nat + m2 2%nat 8%nat * m1 1%nat 1%nat * m0 0%nat 3%nat + m2 2%nat 8%nat * m1 1%nat 0%nat * m0 0%nat 4%nat - m2 2%nat 8%nat * m1 0%nat 4%nat * m0 1%nat 0%nat - m2 2%nat 8%nat * m1 0%nat 3%nat * m0 1%nat 1%nat - m2 2%nat 8%nat * m1 0%nat 1%nat * m0 1%nat 3%nat - m2 2%nat 8%nat * m1 0%nat 0%nat * m0 1%nat 4%nat + m2 2%nat 7%nat * m1 1%nat 5%nat * m0 0%nat 0%nat + m2 2%nat 7%nat * m1 1%nat 3%nat * m0 0%nat 3%nat + m2 2%nat 7%nat * m1 1%nat 0%nat * m0 0%nat 5%nat - m2 2%nat 7%nat * m1 0%nat 5%nat * m0 1%nat 0%nat - m2 2%nat 7%nat * m1 0%nat 3%nat * m0 1%nat 3%nat - m2 2%nat 7%nat * m1 0%nat 0%nat * m0 1%nat 5%nat + m2 2%nat 6%nat * m1 1%nat 5%nat * m0 0%nat 1%nat + m2 2%nat 6%nat * m1 1%nat 4%nat * m0 0%nat 3%nat + m2 2%nat 6%nat * m1 1%nat 3%nat * m0 0%nat 4%nat + m2 2%nat 6%nat * m1 1%nat 1%nat * m0 0%nat 5%nat - m2 2%nat 6%nat * m1 0%nat 5%nat * m0 1%nat 1%nat - m2 2%nat 6%nat * m1 0%nat 4%nat * m0 1%nat 3%nat - m2 2%nat 6%nat * m1 0%nat 3%nat * m0 1%nat 4%nat - m2 2%nat 6%nat * m1 0%nat 1%nat * m0 1%nat 5%nat + m2 2%nat 5%nat * m1 1%nat 7%nat * m0 0%nat 0%nat + m2 2%nat 5%nat * m1 1%nat 6%nat * m0 0%nat 1%nat + m2 2%nat 5%nat * m1 1%nat 1%nat * m0 0%nat 6%nat + m2 2%nat 5%nat * m1 1%nat 0%nat * m0 0%nat 7%nat - m2 2%nat 5%nat * m1 0%nat 7%nat * m0 1%nat 0%nat - m2 2%nat 5%nat * m1 0%nat 6%nat * m0 1%nat 1%nat - m2 2%nat 5%nat * m1 0%nat 1%nat * m0 1%nat 6%nat - m2 2%nat 5%nat * m1 0%nat 0%nat * m0 1%nat 7%nat + m2 2%nat 4%nat * m1 1%nat 8%nat * m0 0%nat 0%nat + m2 2%nat 4%nat * m1 1%nat 6%nat * m0 0%nat 3%nat + m2 2%nat 4%nat * m1 1%nat 3%nat * m0 0%nat 6%nat + m2 2%nat 4%nat * m1 1%nat 0%nat * m0 0%nat 8%nat - m2 2%nat 4%nat * m1 0%nat 8%nat * m0 1%nat 0%nat - m2 2%nat 4%nat * m1 0%nat 6%nat * m0 1%nat 3%nat - m2 2%nat 4%nat * m1 0%nat 3%nat * m0 1%nat 6%nat - m2 2%nat 4%nat * m1 0%nat 0%nat * m0 1%nat 8%nat + m2 2%nat 3%nat * m1 1%nat 8%nat * m0 0%nat 1%nat + m2 2%nat 3%nat * m1 1%nat 7%nat * m0 0%nat 3%nat + m2 2%nat 3%nat * m1 1%nat 6%nat * m0 0%nat 4%nat + m2 2%nat 3%nat * m1 1%nat 4%nat * m0 0%nat 6%nat + m2 2%nat 3%nat * m1 1%nat 3%nat * m0 0%nat 7%nat + m2 2%nat 3%nat * m1 1%nat 1%nat * m0 0%nat 8%nat - m2 2%nat 3%nat * m1 0%nat 8%nat * m0 1%nat 1%nat - m2 2%nat 3%nat * m1 0%nat 7%nat * m0 1%nat 3%nat - m2 2%nat 3%nat * m1 0%nat 6%nat * m0 1%nat 4%nat - m2 2%nat 3%nat * m1 0%nat 4%nat * m0 1%nat 6%nat - m2 2%nat 3%nat * m1 0%nat 3%nat * m0 1%nat 7%nat - m2 2%nat 3%nat * m1 0%nat 1%nat * m0 1%nat 8%nat + m2 2%nat 1%nat * m1 1%nat 8%nat * m0 0%nat 3%nat + m2 2%nat 1%nat * m1 1%nat 6%nat * m0 0%nat 5%nat + m2 2%nat 1%nat * m1 1%nat 5%nat * m0 0%nat 6%nat + m2 2%nat 1%nat * m1 1%nat 3%nat * m0 0%nat 8%nat - m2 2%nat 1%nat * m1 0%nat 8%nat * m0 1%nat 3%nat - m2 2%nat 1%nat * m1 0%nat 6%nat * m0 1%nat 5%nat - m2 2%nat 1%nat * m1 0%nat 5%nat * m0 1%nat 6%nat - m2 2%nat 1%nat * m1 0%nat 3%nat * m0 1%nat 8%nat + m2 2%nat 0%nat * m1 1%nat 8%nat * m0 0%nat 4%nat + m2 2%nat 0%nat * m1 1%nat 7%nat * m0 0%nat 5%nat + m2 2%nat 0%nat * m1 1%nat 5%nat * m0 0%nat 7%nat + m2 2%nat 0%nat * m1 1%nat 4%nat * m0 0%nat 8%nat - m2 2%nat 0%nat * m1 0%nat 8%nat * m0 1%nat 4%nat - m2 2%nat 0%nat * m1 0%nat 7%nat * m0 1%nat 5%nat - m2 2%nat 0%nat * m1 0%nat 5%nat * m0 1%nat 7%nat - m2 2%nat 0%nat * m1 0%nat 4%nat * m0 1%nat 8%nat - m2 1%nat 8%nat * m1 2%nat 4%nat * m0 0%nat 0%nat - m2 1%nat 8%nat * m1 2%nat 3%nat * m0 0%nat 1%nat - m2 1%nat 8%nat * m1 2%nat 1%nat * m0 0%nat 3%nat - m2 1%nat 8%nat * m1 2%nat 0%nat * m0 0%nat 4%nat + m2 1%nat 8%nat * m1 0%nat 4%nat * m0 2%nat 0%nat + m2 1%nat 8%nat * m1 0%nat 3%nat * m0 2%nat 1%nat + m2 1%nat 8%nat * m1 0%nat 1%nat * m0 2%nat 3%nat + m2 1%nat 8%nat * m1 0%nat 0%nat * m0 2%nat 4%nat - m2 1%nat 7%nat * m1 2%nat 5%nat * m0 0%nat 0%nat - m2 1%nat 7%nat * m1 2%nat 3%nat * m0 0%nat 3%nat - m2 1%nat 7%nat * m1 2%nat 0%nat * m0 0%nat 5%nat + m2 1%nat 7%nat * m1 0%nat 5%nat * m0 2%nat 0%nat + m2 1%nat 7%nat * m1 0%nat 3%nat * m0 2%nat 3%nat + m2 1%nat 7%nat * m1 0%nat 0%nat * m0 2%nat 5%nat - m2 1%nat 6%nat * m1 2%nat 5%nat * m0 0%nat 1%nat - m2 1%nat 6%nat * m1 2%nat 4%nat * m0 0%nat 3%nat - m2 1%nat 6%nat * m1 2%nat 3%nat * m0 0%nat 4%nat - m2 1%nat 6%nat * m1 2%nat 1%nat * m0 0%nat 5%nat + m2 1%nat 6%nat * m1 0%nat 5%nat * m0 2%nat 1%nat + m2 1%nat 6%nat * m1 0%nat 4%nat * m0 2%nat 3%nat + m2 1%nat 6%nat * m1 0%nat 3%nat * m0 2%nat 4%nat + m2 1%nat 6%nat * m1 0%nat 1%nat * m0 2%nat 5%nat - m2 1%nat 5%nat * m1 2%nat 7%nat * m0 0%nat 0%nat - m2 1%nat 5%nat * m1 2%nat 6%nat * m0 0%nat 1%nat - m2 1%nat 5%nat * m1 2%nat 1%nat * m0 0%nat 6%nat - m2 1%nat 5%nat * m1 2%nat 0%nat * m0 0%nat 7%nat + m2 1%nat 5%nat * m1 0%nat 7%nat * m0 2%nat 0%nat + m2 1%nat 5%nat * m1 0%nat 6%nat * m0 2%nat 1%nat + m2 1%nat 5%nat * m1 0%nat 1%nat * m0 2%nat 6%nat + m2 1%nat 5%nat * m1 0%nat 0%nat * m0 2%nat 7%nat - m2 1%nat 4%nat * m1 2%nat 8%nat * m0 0%nat 0%nat - m2 1%nat 4%nat * m1 2%nat 6%nat * m0 0%nat 3%nat - m2 1%nat 4%nat * m1 2%nat 3%nat * m0 0%nat 6%nat - m2 1%nat 4%nat * m1 2%nat 0%nat * m0 0%nat 8%nat + m2 1%nat 4%nat * m1 0%nat 8%nat * m0 2%nat 0%nat + m2 1%nat 4%nat * m1 0%nat 6%nat * m0 2%nat 3%nat + m2 1%nat 4%nat * m1 0%nat 3%nat * m0 2%nat 6%nat + m2 1%nat 4%nat * m1 0%nat 0%nat * m0 2%nat 8%nat - m2 1%nat 3%nat * m1 2%nat 8%nat * m0 0%nat 1%nat - m2 1%nat 3%nat * m1 2%nat 7%nat * m0 0%nat 3%nat - m2 1%nat 3%nat * m1 2%nat 6%nat * m0 0%nat 4%nat - m2 1%nat 3%nat * m1 2%nat 4%nat * m0 0%nat 6%nat - m2 1%nat 3%nat * m1 2%nat 3%nat * m0 0%nat 7%nat - m2 1%nat 3%nat * m1 2%nat 1%nat * m0 0%nat 8%nat + m2 1%nat 3%nat * m1 0%nat 8%nat * m0 2%nat 1%nat + m2 1%nat 3%nat * m1 0%nat 7%nat * m0 2%nat 3%nat + m2 1%nat 3%nat * m1 0%nat 6%nat * m0 2%nat 4%nat + m2 1%nat 3%nat * m1 0%nat 4%nat * m0 2%nat 6%nat + m2 1%nat 3%nat * m1 0%nat 3%nat * m0 2%nat 7%nat + m2 1%nat 3%nat * m1 0%nat 1%nat * m0 2%nat 8%nat - m2 1%nat 1%nat * m1 2%nat 8%nat * m0 0%nat 3%nat - m2 1%nat 1%nat * m1 2%nat 6%nat * m0 0%nat 5%nat - m2 1%nat 1%nat * m1 2%nat 5%nat * m0 0%nat 6%nat - m2 1%nat 1%nat * m1 2%nat 3%nat * m0 0%nat 8%nat + m2 1%nat 1%nat * m1 0%nat 8%nat * m0 2%nat 3%nat + m2 1%nat 1%nat * m1 0%nat 6%nat * m0 2%nat 5%nat + m2 1%nat 1%nat * m1 0%nat 5%nat * m0 2%nat 6%nat + m2 1%nat 1%nat * m1 0%nat 3%nat * m0 2%nat 8%nat - m2 1%nat 0%nat * m1 2%nat 8%nat * m0 0%nat 4%nat - m2 1%nat 0%nat * m1 2%nat 7%nat * m0 0%nat 5%nat - m2 1%nat 0%nat * m1 2%nat 5%nat * m0 0%nat 7%nat - m2 1%nat 0%nat * m1 2%nat 4%nat * m0 0%nat 8%nat + m2 1%nat 0%nat * m1 0%nat 8%nat * m0 2%nat 4%nat + m2 1%nat 0%nat * m1 0%nat 7%nat * m0 2%nat 5%nat + m2 1%nat 0%nat * m1 0%nat 5%nat * m0 2%nat 7%nat + m2 1%nat 0%nat * m1 0%nat 4%nat * m0 2%nat 8%nat + m2 0%nat 8%nat * m1 2%nat 4%nat * m0 1%nat 0%nat + m2 0%nat 8%nat * m1 2%nat 3%nat * m0 1%nat 1%nat + m2 0%nat 8%nat * m1 2%nat 1%nat * m0 1%nat 3%nat + m2 0%nat 8%nat * m1 2%nat 0%nat * m0 1%nat 4%nat - m2 0%nat 8%nat * m1 1%nat 4%nat * m0 2%nat 0%nat - m2 0%nat 8%nat * m1 1%nat 3%nat * m0 2%nat 1%nat - m2 0%nat 8%nat * m1 1%nat 1%nat * m0 2%nat 3%nat - m2 0%nat 8%nat * m1 1%nat 0%nat * m0 2%nat 4%nat + m2 0%nat 7%nat * m1 2%nat 5%nat * m0 1%nat 0%nat + m2 0%nat 7%nat * m1 2%nat 3%nat * m0 1%nat 3%nat + m2 0%nat 7%nat * m1 2%nat 0%nat * m0 1%nat 5%nat - m2 0%nat 7%nat * m1 1%nat 5%nat * m0 2%nat 0%nat - m2 0%nat 7%nat * m1 1%nat 3%nat * m0 2%nat 3%nat - m2 0%nat 7%nat * m1 1%nat 0%nat * m0 2%nat 5%nat + m2 0%nat 6%nat * m1 2%nat 5%nat * m0 1%nat 1%nat + m2 0%nat 6%nat * m1 2%nat 4%nat * m0 1%nat 3%nat + m2 0%nat 6%nat * m1 2%nat 3%nat * m0 1%nat 4%nat + m2 0%nat 6%nat * m1 2%nat 1%nat * m0 1%nat 5%nat - m2 0%nat 6%nat * m1 1%nat 5%nat * m0 2%nat 1%nat - m2 0%nat 6%nat * m1 1%nat 4%nat * m0 2%nat 3%nat - m2 0%nat 6%nat * m1 1%nat 3%nat * m0 2%nat 4%nat - m2 0%nat 6%nat * m1 1%nat 1%nat * m0 2%nat 5%nat + m2 0%nat 5%nat * m1 2%nat 7%nat * m0 1%nat 0%nat + m2 0%nat 5%nat * m1 2%nat 6%nat * m0 1%nat 1%nat + m2 0%nat 5%nat * m1 2%nat 1%nat * m0 1%nat 6%nat + m2 0%nat 5%nat * m1 2%nat 0%nat * m0 1%nat 7%nat - m2 0%nat 5%nat * m1 1%nat 7%nat * m0 2%nat 0%nat - m2 0%nat 5%nat * m1 1%nat 6%nat * m0 2%nat 1%nat - m2 0%nat 5%nat * m1 1%nat 1%nat * m0 2%nat 6%nat - m2 0%nat 5%nat * m1 1%nat 0%nat * m0 2%nat 7%nat + m2 0%nat 4%nat * m1 2%nat 8%nat * m0 1%nat 0%nat + m2 0%nat 4%nat * m1 2%nat 6%nat * m0 1%nat 3%nat + m2 0%nat 4%nat * m1 2%nat 3%nat * m0 1%nat 6%nat + m2 0%nat 4%nat * m1 2%nat 0%nat * m0 1%nat 8%nat - m2 0%nat 4%nat * m1 1%nat 8%nat * m0 2%nat 0%nat - m2 0%nat 4%nat * m1 1%nat 6%nat * m0 2%nat 3%nat - m2 0%nat 4%nat * m1 1%nat 3%nat * m0 2%nat 6%nat - m2 0%nat 4%nat * m1 1%nat 0%nat * m0 2%nat 8%nat + m2 0%nat 3%nat * m1 2%nat 8%nat * m0 1%nat 1%nat + m2 0%nat 3%nat * m1 2%nat 7%nat * m0 1%nat 3%nat + m2 0%nat 3%nat * m1 2%nat 6%nat * m0 1%nat 4%nat + m2 0%nat 3%nat * m1 2%nat 4%nat * m0 1%nat 6%nat + m2 0%nat 3%nat * m1 2%nat 3%nat * m0 1%nat 7%nat + m2 0%nat 3%nat * m1 2%nat 1%nat * m0 1%nat 8%nat - m2 0%nat 3%nat * m1 1%nat 8%nat * m0 2%nat 1%nat - m2 0%nat 3%nat * m1 1%nat 7%nat * m0 2%nat 3%nat - m2 0%nat 3%nat * m1 1%nat 6%nat * m0 2%nat 4%nat - m2 0%nat 3%nat * m1 1%nat 4%nat * m0 2%nat 6%nat - m2 0%nat 3%nat * m1 1%nat 3%nat * m0 2%nat 7%nat - m2 0%nat 3%nat * m1 1%nat 1%nat * m0 2%nat 8%nat + m2 0%nat 1%nat * m1 2%nat 8%nat * m0 1%nat 3%nat + m2 0%nat 1%nat * m1 2%nat 6%nat * m0 1%nat 5%nat + m2 0%nat 1%nat * m1 2%nat 5%nat * m0 1%nat 6%nat + m2 0%nat 1%nat * m1 2%nat 3%nat * m0 1%nat 8%nat - m2 0%nat 1%nat * m1 1%nat 8%nat * m0 2%nat 3%nat - m2 0%nat 1%nat * m1 1%nat 6%nat * m0 2%nat 5%nat - m2 0%nat 1%nat * m1 1%nat 5%nat * m0 2%nat 6%nat - m2 0%nat 1%nat * m1 1%nat 3%nat * m0 2%nat 8%nat + m2 0%nat 0%nat * m1 2%nat 8%nat * m0 1%nat 4%nat + m2 0%nat 0%nat * m1 2%nat 7%nat * m0 1%nat 5%nat + m2 0%nat 0%nat * m1 2%nat 5%nat * m0 1%nat 7%nat + m2 0%nat 0%nat * m1 2%nat 4%nat * m0 1%nat 8%nat - m2 0%nat 0%nat * m1 1%nat 8%nat * m0 2%nat 4%nat - m2 0%nat 0%nat * m1 1%nat 7%nat * m0 2%nat 5%nat - m2 0%nat 0%nat * m1 1%nat 5%nat * m0 2%nat 7%nat - m2 0%nat 0%nat * m1 1%nat 4%nat * m0 2%nat 8%nat;
    m2 2%nat 8%nat * m1 1%nat 4%nat * m0 0%nat 1%nat + m2 2%nat 8%nat * m1 1%nat 3%nat * m0 0%nat 2%nat + m2 2%nat 8%nat * m1 1%nat 2%nat * m0 0%nat 3%nat + m2 2%nat 8%nat * m1 1%nat 1%nat * m0 0%nat 4%nat - m2 2%nat 8%nat * m1 0%nat 4%nat * m0 1%nat 1%nat - m2 2%nat 8%nat * m1 0%nat 3%nat * m0 1%nat 2%nat - m2 2%nat 8%nat * m1 0%nat 2%nat * m0 1%nat 3%nat - m2 2%nat 8%nat * m1 0%nat 1%nat * m0 1%nat 4%nat + m2 2%nat 7%nat * m1 1%nat 5%nat * m0 0%nat 1%nat + m2 2%nat 7%nat * m1 1%nat 4%nat * m0 0%nat 3%nat + m2 2%nat 7%nat * m1 1%nat 3%nat * m0 0%nat 4%nat + m2 2%nat 7%nat * m1 1%nat 1%nat * m0 0%nat 5%nat - m2 2%nat 7%nat * m1 0%nat 5%nat * m0 1%nat 1%nat - m2 2%nat 7%nat * m1 0%nat 4%nat * m0 1%nat 3%nat - m2 2%nat 7%nat * m1 0%nat 3%nat * m0 1%nat 4%nat - m2 2%nat 7%nat * m1 0%nat 1%nat * m0 1%nat 5%nat + m2 2%nat 6%nat * m1 1%nat 5%nat * m0 0%nat 2%nat + m2 2%nat 6%nat * m1 1%nat 4%nat * m0 0%nat 4%nat + m2 2%nat 6%nat * m1 1%nat 2%nat * m0 0%nat 5%nat - m2 2%nat 6%nat * m1 0%nat 5%nat * m0 1%nat 2%nat - m2 2%nat 6%nat * m1 0%nat 4%nat * m0 1%nat 4%nat - m2 2%nat 6%nat * m1 0%nat 2%nat * m0 1%nat 5%nat + m2 2%nat 5%nat * m1 1%nat 7%nat * m0 0%nat 1%nat + m2 2%nat 5%nat * m1 1%nat 6%nat * m0 0%nat 2%nat + m2 2%nat 5%nat * m1 1%nat 2%nat * m0 0%nat 6%nat + m2 2%nat 5%nat * m1 1%nat 1%nat * m0 0%nat 7%nat - m2 2%nat 5%nat * m1 0%nat 7%nat * m0 1%nat 1%nat - m2 2%nat 5%nat * m1 0%nat 6%nat * m0 1%nat 2%nat - m2 2%nat 5%nat * m1 0%nat 2%nat * m0 1%nat 6%nat - m2 2%nat 5%nat * m1 0%nat 1%nat * m0 1%nat 7%nat + m2 2%nat 4%nat * m1 1%nat 8%nat * m0 0%nat 1%nat + m2 2%nat 4%nat * m1 1%nat 7%nat * m0 0%nat 3%nat + m2 2%nat 4%nat * m1 1%nat 6%nat * m0 0%nat 4%nat + m2 2%nat 4%nat * m1 1%nat 4%nat * m0 0%nat 6%nat + m2 2%nat 4%nat * m1 1%nat 3%nat * m0 0%nat 7%nat + m2 2%nat 4%nat * m1 1%nat 1%nat * m0 0%nat 8%nat - m2 2%nat 4%nat * m1 0%nat 8%nat * m0 1%nat 1%nat - m2 2%nat 4%nat * m1 0%nat 7%nat * m0 1%nat 3%nat - m2 2%nat 4%nat * m1 0%nat 6%nat * m0 1%nat 4%nat - m2 2%nat 4%nat * m1 0%nat 4%nat * m0 1%nat 6%nat - m2 2%nat 4%nat * m1 0%nat 3%nat * m0 1%nat 7%nat - m2 2%nat 4%nat * m1 0%nat 1%nat * m0 1%nat 8%nat + m2 2%nat 3%nat * m1 1%nat 8%nat * m0 0%nat 2%nat + m2 2%nat 3%nat * m1 1%nat 7%nat * m0 0%nat 4%nat + m2 2%nat 3%nat * m1 1%nat 4%nat * m0 0%nat 7%nat + m2 2%nat 3%nat * m1 1%nat 2%nat * m0 0%nat 8%nat - m2 2%nat 3%nat * m1 0%nat 8%nat * m0 1%nat 2%nat - m2 2%nat 3%nat * m1 0%nat 7%nat * m0 1%nat 4%nat - m2 2%nat 3%nat * m1 0%nat 4%nat * m0 1%nat 7%nat - m2 2%nat 3%nat * m1 0%nat 2%nat * m0 1%nat 8%nat + m2 2%nat 2%nat * m1 1%nat 8%nat * m0 0%nat 3%nat + m2 2%nat 2%nat * m1 1%nat 6%nat * m0 0%nat 5%nat + m2 2%nat 2%nat * m1 1%nat 5%nat * m0 0%nat 6%nat + m2 2%nat 2%nat * m1 1%nat 3%nat * m0 0%nat 8%nat - m2 2%nat 2%nat * m1 0%nat 8%nat * m0 1%nat 3%nat - m2 2%nat 2%nat * m1 0%nat 6%nat * m0 1%nat 5%nat - m2 2%nat 2%nat * m1 0%nat 5%nat * m0 1%nat 6%nat - m2 2%nat 2%nat * m1 0%nat 3%nat * m0 1%nat 8%nat + m2 2%nat 1%nat * m1 1%nat 8%nat * m0 0%nat 4%nat + m2 2%nat 1%nat * m1 1%nat 7%nat * m0 0%nat 5%nat + m2 2%nat 1%nat * m1 1%nat 5%nat * m0 0%nat 7%nat + m2 2%nat 1%nat * m1 1%nat 4%nat * m0 0%nat 8%nat - m2 2%nat 1%nat * m1 0%nat 8%nat * m0 1%nat 4%nat - m2 2%nat 1%nat * m1 0%nat 7%nat * m0 1%nat 5%nat - m2 2%nat 1%nat * m1 0%nat 5%nat * m0 1%nat 7%nat - m2 2%nat 1%nat * m1 0%nat 4%nat * m0 1%nat 8%nat - m2 1%nat 8%nat * m1 2%nat 4%nat * m0 0%nat 1%nat - m2 1%nat 8%nat * m1 2%nat 3%nat * m0 0%nat 2%nat - m2 1%nat 8%nat * m1 2%nat 2%nat * m0 0%nat 3%nat - m2 1%nat 8%nat * m1 2%nat 1%nat * m0 0%nat 4%nat + m2 1%nat 8%nat * m1 0%nat 4%nat * m0 2%nat 1%nat + m2 1%nat 8%nat * m1 0%nat 3%nat * m0 2%nat 2%nat + m2 1%nat 8%nat * m1 0%nat 2%nat * m0 2%nat 3%nat + m2 1%nat 8%nat * m1 0%nat 1%nat * m0 2%nat 4%nat - m2 1%nat 7%nat * m1 2%nat 5%nat * m0 0%nat 1%nat - m2 1%nat 7%nat * m1 2%nat 4%nat * m0 0%nat 3%nat - m2 1%nat 7%nat * m1 2%nat 3%nat * m0 0%nat 4%nat - m2 1%nat 7%nat * m1 2%nat 1%nat * m0 0%nat 5%nat + m2 1%nat 7%nat * m1 0%nat 5%nat * m0 2%nat 1%nat + m2 1%nat 7%nat * m1 0%nat 4%nat * m0 2%nat 3%nat + m2 1%nat 7%nat * m1 0%nat 3%nat * m0 2%nat 4%nat + m2 1%nat 7%nat * m1 0%nat 1%nat * m0 2%nat 5%nat - m2 1%nat 6%nat * m1 2%nat 5%nat * m0 0%nat 2%nat - m2 1%nat 6%nat * m1 2%nat 4%nat * m0 0%nat 4%nat - m2 1%nat 6%nat * m1 2%nat 2%nat * m0 0%nat 5%nat + m2 1%nat 6%nat * m1 0%nat 5%nat * m0 2%nat 2%nat + m2 1%nat 6%nat * m1 0%nat 4%nat * m0 2%nat 4%nat + m2 1%nat 6%nat * m1 0%nat 2%nat * m0 2%nat 5%nat - m2 1%nat 5%nat * m1 2%nat 7%nat * m0 0%nat 1%nat - m2 1%nat 5%nat * m1 2%nat 6%nat * m0 0%nat 2%nat - m2 1%nat 5%nat * m1 2%nat 2%nat * m0 0%nat 6%nat - m2 1%nat 5%nat * m1 2%nat 1%nat * m0 0%nat 7%nat + m2 1%nat 5%nat * m1 0%nat 7%nat * m0 2%nat 1%nat + m2 1%nat 5%nat * m1 0%nat 6%nat * m0 2%nat 2%nat + m2 1%nat 5%nat * m1 0%nat 2%nat * m0 2%nat 6%nat + m2 1%nat 5%nat * m1 0%nat 1%nat * m0 2%nat 7%nat - m2 1%nat 4%nat * m1 2%nat 8%nat * m0 0%nat 1%nat - m2 1%nat 4%nat * m1 2%nat 7%nat * m0 0%nat 3%nat - m2 1%nat 4%nat * m1 2%nat 6%nat * m0 0%nat 4%nat - m2 1%nat 4%nat * m1 2%nat 4%nat * m0 0%nat 6%nat - m2 1%nat 4%nat * m1 2%nat 3%nat * m0 0%nat 7%nat - m2 1%nat 4%nat * m1 2%nat 1%nat * m0 0%nat 8%nat + m2 1%nat 4%nat * m1 0%nat 8%nat * m0 2%nat 1%nat + m2 1%nat 4%nat * m1 0%nat 7%nat * m0 2%nat 3%nat + m2 1%nat 4%nat * m1 0%nat 6%nat * m0 2%nat 4%nat + m2 1%nat 4%nat * m1 0%nat 4%nat * m0 2%nat 6%nat + m2 1%nat 4%nat * m1 0%nat 3%nat * m0 2%nat 7%nat + m2 1%nat 4%nat * m1 0%nat 1%nat * m0 2%nat 8%nat - m2 1%nat 3%nat * m1 2%nat 8%nat * m0 0%nat 2%nat - m2 1%nat 3%nat * m1 2%nat 7%nat * m0 0%nat 4%nat - m2 1%nat 3%nat * m1 2%nat 4%nat * m0 0%nat 7%nat - m2 1%nat 3%nat * m1 2%nat 2%nat * m0 0%nat 8%nat + m2 1%nat 3%nat * m1 0%nat 8%nat * m0 2%nat 2%nat + m2 1%nat 3%nat * m1 0%nat 7%nat * m0 2%nat 4%nat + m2 1%nat 3%nat * m1 0%nat 4%nat * m0 2%nat 7%nat + m2 1%nat 3%nat * m1 0%nat 2%nat * m0 2%nat 8%nat - m2 1%nat 2%nat * m1 2%nat 8%nat * m0 0%nat 3%nat - m2 1%nat 2%nat * m1 2%nat 6%nat * m0 0%nat 5%nat - m2 1%nat 2%nat * m1 2%nat 5%nat * m0 0%nat 6%nat - m2 1%nat 2%nat * m1 2%nat 3%nat * m0 0%nat 8%nat + m2 1%nat 2%nat * m1 0%nat 8%nat * m0 2%nat 3%nat + m2 1%nat 2%nat * m1 0%nat 6%nat * m0 2%nat 5%nat + m2 1%nat 2%nat * m1 0%nat 5%nat * m0 2%nat 6%nat + m2 1%nat 2%nat * m1 0%nat 3%nat * m0 2%nat 8%nat - m2 1%nat 1%nat * m1 2%nat 8%nat * m0 0%nat 4%nat - m2 1%nat 1%nat * m1 2%nat 7%nat * m0 0%nat 5%nat - m2 1%nat 1%nat * m1 2%nat 5%nat * m0 0%nat 7%nat - m2 1%nat 1%nat * m1 2%nat 4%nat * m0 0%nat 8%nat + m2 1%nat 1%nat * m1 0%nat 8%nat * m0 2%nat 4%nat + m2 1%nat 1%nat * m1 0%nat 7%nat * m0 2%nat 5%nat + m2 1%nat 1%nat * m1 0%nat 5%nat * m0 2%nat 7%nat + m2 1%nat 1%nat * m1 0%nat 4%nat * m0 2%nat 8%nat + m2 0%nat 8%nat * m1 2%nat 4%nat * m0 1%nat 1%nat + m2 0%nat 8%nat * m1 2%nat 3%nat * m0 1%nat 2%nat + m2 0%nat 8%nat * m1 2%nat 2%nat * m0 1%nat 3%nat + m2 0%nat 8%nat * m1 2%nat 1%nat * m0 1%nat 4%nat - m2 0%nat 8%nat * m1 1%nat 4%nat * m0 2%nat 1%nat - m2 0%nat 8%nat * m1 1%nat 3%nat * m0 2%nat 2%nat - m2 0%nat 8%nat * m1 1%nat 2%nat * m0 2%nat 3%nat - m2 0%nat 8%nat * m1 1%nat 1%nat * m0 2%nat 4%nat + m2 0%nat 7%nat * m1 2%nat 5%nat * m0 1%nat 1%nat + m2 0%nat 7%nat * m1 2%nat 4%nat * m0 1%nat 3%nat + m2 0%nat 7%nat * m1 2%nat 3%nat * m0 1%nat 4%nat + m2 0%nat 7%nat * m1 2%nat 1%nat * m0 1%nat 5%nat - m2 0%nat 7%nat * m1 1%nat 5%nat * m0 2%nat 1%nat - m2 0%nat 7%nat * m1 1%nat 4%nat * m0 2%nat 3%nat - m2 0%nat 7%nat * m1 1%nat 3%nat * m0 2%nat 4%nat - m2 0%nat 7%nat * m1 1%nat 1%nat * m0 2%nat 5%nat + m2 0%nat 6%nat * m1 2%nat 5%nat * m0 1%nat 2%nat + m2 0%nat 6%nat * m1 2%nat 4%nat * m0 1%nat 4%nat + m2 0%nat 6%nat * m1 2%nat 2%nat * m0 1%nat 5%nat - m2 0%nat 6%nat * m1 1%nat 5%nat * m0 2%nat 2%nat - m2 0%nat 6%nat * m1 1%nat 4%nat * m0 2%nat 4%nat - m2 0%nat 6%nat * m1 1%nat 2%nat * m0 2%nat 5%nat + m2 0%nat 5%nat * m1 2%nat 7%nat * m0 1%nat 1%nat + m2 0%nat 5%nat * m1 2%nat 6%nat * m0 1%nat 2%nat + m2 0%nat 5%nat * m1 2%nat 2%nat * m0 1%nat 6%nat + m2 0%nat 5%nat * m1 2%nat 1%nat * m0 1%nat 7%nat - m2 0%nat 5%nat * m1 1%nat 7%nat * m0 2%nat 1%nat - m2 0%nat 5%nat * m1 1%nat 6%nat * m0 2%nat 2%nat - m2 0%nat 5%nat * m1 1%nat 2%nat * m0 2%nat 6%nat - m2 0%nat 5%nat * m1 1%nat 1%nat * m0 2%nat 7%nat + m2 0%nat 4%nat * m1 2%nat 8%nat * m0 1%nat 1%nat + m2 0%nat 4%nat * m1 2%nat 7%nat * m0 1%nat 3%nat + m2 0%nat 4%nat * m1 2%nat 6%nat * m0 1%nat 4%nat + m2 0%nat 4%nat * m1 2%nat 4%nat * m0 1%nat 6%nat + m2 0%nat 4%nat * m1 2%nat 3%nat * m0 1%nat 7%nat + m2 0%nat 4%nat * m1 2%nat 1%nat * m0 1%nat 8%nat - m2 0%nat 4%nat * m1 1%nat 8%nat * m0 2%nat 1%nat - m2 0%nat 4%nat * m1 1%nat 7%nat * m0 2%nat 3%nat - m2 0%nat 4%nat * m1 1%nat 6%nat * m0 2%nat 4%nat - m2 0%nat 4%nat * m1 1%nat 4%nat * m0 2%nat 6%nat - m2 0%nat 4%nat * m1 1%nat 3%nat * m0 2%nat 7%nat - m2 0%nat 4%nat * m1 1%nat 1%nat * m0 2%nat 8%nat + m2 0%nat 3%nat * m1 2%nat 8%nat * m0 1%nat 2%nat + m2 0%nat 3%nat * m1 2%nat 7%nat * m0 1%nat 4%nat + m2 0%nat 3%nat * m1 2%nat 4%nat * m0 1%nat 7%nat + m2 0%nat 3%nat * m1 2%nat 2%nat * m0 1%nat 8%nat - m2 0%nat 3%nat * m1 1%nat 8%nat * m0 2%nat 2%nat - m2 0%nat 3%nat * m1 1%nat 7%nat * m0 2%nat 4%nat - m2 0%nat 3%nat * m1 1%nat 4%nat * m0 2%nat 7%nat - m2 0%nat 3%nat * m1 1%nat 2%nat * m0 2%nat 8%nat + m2 0%nat 2%nat * m1 2%nat 8%nat * m0 1%nat 3%nat + m2 0%nat 2%nat * m1 2%nat 6%nat * m0 1%nat 5%nat + m2 0%nat 2%nat * m1 2%nat 5%nat * m0 1%nat 6%nat + m2 0%nat 2%nat * m1 2%nat 3%nat * m0 1%nat 8%nat - m2 0%nat 2%nat * m1 1%nat 8%nat * m0 2%nat 3%nat - m2 0%nat 2%nat * m1 1%nat 6%nat * m0 2%nat 5%nat - m2 0%nat 2%nat * m1 1%nat 5%nat * m0 2%nat 6%nat - m2 0%nat 2%nat * m1 1%nat 3%nat * m0 2%nat 8%nat + m2 0%nat 1%nat * m1 2%nat 8%nat * m0 1%nat 4%nat + m2 0%nat 1%nat * m1 2%nat 7%nat * m0 1%nat 5%nat + m2 0%nat 1%nat * m1 2%nat 5%nat * m0 1%nat 7%nat + m2 0%nat 1%nat * m1 2%nat 4%nat * m0 1%nat 8%nat - m2 0%nat 1%nat * m1 1%nat 8%nat * m0 2%nat 4%nat - m2 0%nat 1%nat * m1 1%nat 7%nat * m0 2%nat 5%nat - m2 0%nat 1%nat * m1 1%nat 5%nat * m0 2%nat 7%nat - m2 0%nat 1%nat * m1 1%nat 4%nat * m0 2%nat 8%nat;
    m2 2%nat 8%nat * m1 1%nat 4%nat * m0 0%nat 2%nat + m2 2%nat 8%nat * m1 1%nat 2%nat * m0 0%nat 4%nat - m2 2%nat 8%nat * m1 0%nat 4%nat * m0 1%nat 2%nat - m2 2%nat 8%nat * m1 0%nat 2%nat * m0 1%nat 4%nat + m2 2%nat 7%nat * m1 1%nat 5%nat * m0 0%nat 2%nat + m2 2%nat 7%nat * m1 1%nat 4%nat * m0 0%nat 4%nat + m2 2%nat 7%nat * m1 1%nat 2%nat * m0 0%nat 5%nat - m2 2%nat 7%nat * m1 0%nat 5%nat * m0 1%nat 2%nat - m2 2%nat 7%nat * m1 0%nat 4%nat * m0 1%nat 4%nat - m2 2%nat 7%nat * m1 0%nat 2%nat * m0 1%nat 5%nat + m2 2%nat 5%nat * m1 1%nat 7%nat * m0 0%nat 2%nat + m2 2%nat 5%nat * m1 1%nat 2%nat * m0 0%nat 7%nat - m2 2%nat 5%nat * m1 0%nat 7%nat * m0 1%nat 2%nat - m2 2%nat 5%nat * m1 0%nat 2%nat * m0 1%nat 7%nat + m2 2%nat 4%nat * m1 1%nat 8%nat * m0 0%nat 2%nat + m2 2%nat 4%nat * m1 1%nat 7%nat * m0 0%nat 4%nat + m2 2%nat 4%nat * m1 1%nat 4%nat * m0 0%nat 7%nat + m2 2%nat 4%nat * m1 1%nat 2%nat * m0 0%nat 8%nat - m2 2%nat 4%nat * m1 0%nat 8%nat * m0 1%nat 2%nat - m2 2%nat 4%nat * m1 0%nat 7%nat * m0 1%nat 4%nat - m2 2%nat 4%nat * m1 0%nat 4%nat * m0 1%nat 7%nat - m2 2%nat 4%nat * m1 0%nat 2%nat * m0 1%nat 8%nat + m2 2%nat 2%nat * m1 1%nat 8%nat * m0 0%nat 4%nat + m2 2%nat 2%nat * m1 1%nat 7%nat * m0 0%nat 5%nat + m2 2%nat 2%nat * m1 1%nat 5%nat * m0 0%nat 7%nat + m2 2%nat 2%nat * m1 1%nat 4%nat * m0 0%nat 8%nat - m2 2%nat 2%nat * m1 0%nat 8%nat * m0 1%nat 4%nat - m2 2%nat 2%nat * m1 0%nat 7%nat * m0 1%nat 5%nat - m2 2%nat 2%nat * m1 0%nat 5%nat * m0 1%nat 7%nat - m2 2%nat 2%nat * m1 0%nat 4%nat * m0 1%nat 8%nat - m2 1%nat 8%nat * m1 2%nat 4%nat * m0 0%nat 2%nat - m2 1%nat 8%nat * m1 2%nat 2%nat * m0 0%nat 4%nat + m2 1%nat 8%nat * m1 0%nat 4%nat * m0 2%nat 2%nat + m2 1%nat 8%nat * m1 0%nat 2%nat * m0 2%nat 4%nat - m2 1%nat 7%nat * m1 2%nat 5%nat * m0 0%nat 2%nat - m2 1%nat 7%nat * m1 2%nat 4%nat * m0 0%nat 4%nat - m2 1%nat 7%nat * m1 2%nat 2%nat * m0 0%nat 5%nat + m2 1%nat 7%nat * m1 0%nat 5%nat * m0 2%nat 2%nat + m2 1%nat 7%nat * m1 0%nat 4%nat * m0 2%nat 4%nat + m2 1%nat 7%nat * m1 0%nat 2%nat * m0 2%nat 5%nat - m2 1%nat 5%nat * m1 2%nat 7%nat * m0 0%nat 2%nat - m2 1%nat 5%nat * m1 2%nat 2%nat * m0 0%nat 7%nat + m2 1%nat 5%nat * m1 0%nat 7%nat * m0 2%nat 2%nat + m2 1%nat 5%nat * m1 0%nat 2%nat * m0 2%nat 7%nat - m2 1%nat 4%nat * m1 2%nat 8%nat * m0 0%nat 2%nat - m2 1%nat 4%nat * m1 2%nat 7%nat * m0 0%nat 4%nat - m2 1%nat 4%nat * m1 2%nat 4%nat * m0 0%nat 7%nat - m2 1%nat 4%nat * m1 2%nat 2%nat * m0 0%nat 8%nat + m2 1%nat 4%nat * m1 0%nat 8%nat * m0 2%nat 2%nat + m2 1%nat 4%nat * m1 0%nat 7%nat * m0 2%nat 4%nat + m2 1%nat 4%nat * m1 0%nat 4%nat * m0 2%nat 7%nat + m2 1%nat 4%nat * m1 0%nat 2%nat * m0 2%nat 8%nat - m2 1%nat 2%nat * m1 2%nat 8%nat * m0 0%nat 4%nat - m2 1%nat 2%nat * m1 2%nat 7%nat * m0 0%nat 5%nat - m2 1%nat 2%nat * m1 2%nat 5%nat * m0 0%nat 7%nat - m2 1%nat 2%nat * m1 2%nat 4%nat * m0 0%nat 8%nat + m2 1%nat 2%nat * m1 0%nat 8%nat * m0 2%nat 4%nat + m2 1%nat 2%nat * m1 0%nat 7%nat * m0 2%nat 5%nat + m2 1%nat 2%nat * m1 0%nat 5%nat * m0 2%nat 7%nat + m2 1%nat 2%nat * m1 0%nat 4%nat * m0 2%nat 8%nat + m2 0%nat 8%nat * m1 2%nat 4%nat * m0 1%nat 2%nat + m2 0%nat 8%nat * m1 2%nat 2%nat * m0 1%nat 4%nat - m2 0%nat 8%nat * m1 1%nat 4%nat * m0 2%nat 2%nat - m2 0%nat 8%nat * m1 1%nat 2%nat * m0 2%nat 4%nat + m2 0%nat 7%nat * m1 2%nat 5%nat * m0 1%nat 2%nat + m2 0%nat 7%nat * m1 2%nat 4%nat * m0 1%nat 4%nat + m2 0%nat 7%nat * m1 2%nat 2%nat * m0 1%nat 5%nat - m2 0%nat 7%nat * m1 1%nat 5%nat * m0 2%nat 2%nat - m2 0%nat 7%nat * m1 1%nat 4%nat * m0 2%nat 4%nat - m2 0%nat 7%nat * m1 1%nat 2%nat * m0 2%nat 5%nat + m2 0%nat 5%nat * m1 2%nat 7%nat * m0 1%nat 2%nat + m2 0%nat 5%nat * m1 2%nat 2%nat * m0 1%nat 7%nat - m2 0%nat 5%nat * m1 1%nat 7%nat * m0 2%nat 2%nat - m2 0%nat 5%nat * m1 1%nat 2%nat * m0 2%nat 7%nat + m2 0%nat 4%nat * m1 2%nat 8%nat * m0 1%nat 2%nat + m2 0%nat 4%nat * m1 2%nat 7%nat * m0 1%nat 4%nat + m2 0%nat 4%nat * m1 2%nat 4%nat * m0 1%nat 7%nat + m2 0%nat 4%nat * m1 2%nat 2%nat * m0 1%nat 8%nat - m2 0%nat 4%nat * m1 1%nat 8%nat * m0 2%nat 2%nat - m2 0%nat 4%nat * m1 1%nat 7%nat * m0 2%nat 4%nat - m2 0%nat 4%nat * m1 1%nat 4%nat * m0 2%nat 7%nat - m2 0%nat 4%nat * m1 1%nat 2%nat * m0 2%nat 8%nat + m2 0%nat 2%nat * m1 2%nat 8%nat * m0 1%nat 4%nat + m2 0%nat 2%nat * m1 2%nat 7%nat * m0 1%nat 5%nat + m2 0%nat 2%nat * m1 2%nat 5%nat * m0 1%nat 7%nat + m2 0%nat 2%nat * m1 2%nat 4%nat * m0 1%nat 8%nat - m2 0%nat 2%nat * m1 1%nat 8%nat * m0 2%nat 4%nat - m2 0%nat 2%nat * m1 1%nat 7%nat * m0 2%nat 5%nat - m2 0%nat 2%nat * m1 1%nat 5%nat * m0 2%nat 7%nat - m2 0%nat 2%nat * m1 1%nat 4%nat * m0 2%nat 8%nat;
    m2 2%nat 8%nat * m1 1%nat 5%nat * m0 0%nat 0%nat + m2 2%nat 8%nat * m1 1%nat 3%nat * m0 0%nat 3%nat + m2 2%nat 8%nat * m1 1%nat 0%nat * m0 0%nat 5%nat - m2 2%nat 8%nat * m1 0%nat 5%nat * m0 1%nat 0%nat - m2 2%nat 8%nat * m1 0%nat 3%nat * m0 1%nat 3%nat - m2 2%nat 8%nat * m1 0%nat 0%nat * m0 1%nat 5%nat + m2 2%nat 6%nat * m1 1%nat 5%nat * m0 0%nat 3%nat + m2 2%nat 6%nat * m1 1%nat 3%nat * m0 0%nat 5%nat - m2 2%nat 6%nat * m1 0%nat 5%nat * m0 1%nat 3%nat - m2 2%nat 6%nat * m1 0%nat 3%nat * m0 1%nat 5%nat + m2 2%nat 5%nat * m1 1%nat 8%nat * m0 0%nat 0%nat + m2 2%nat 5%nat * m1 1%nat 6%nat * m0 0%nat 3%nat + m2 2%nat 5%nat * m1 1%nat 3%nat * m0 0%nat 6%nat + m2 2%nat 5%nat * m1 1%nat 0%nat * m0 0%nat 8%nat - m2 2%nat 5%nat * m1 0%nat 8%nat * m0 1%nat 0%nat - m2 2%nat 5%nat * m1 0%nat 6%nat * m0 1%nat 3%nat - m2 2%nat 5%nat * m1 0%nat 3%nat * m0 1%nat 6%nat - m2 2%nat 5%nat * m1 0%nat 0%nat * m0 1%nat 8%nat + m2 2%nat 3%nat * m1 1%nat 8%nat * m0 0%nat 3%nat + m2 2%nat 3%nat * m1 1%nat 6%nat * m0 0%nat 5%nat + m2 2%nat 3%nat * m1 1%nat 5%nat * m0 0%nat 6%nat + m2 2%nat 3%nat * m1 1%nat 3%nat * m0 0%nat 8%nat - m2 2%nat 3%nat * m1 0%nat 8%nat * m0 1%nat 3%nat - m2 2%nat 3%nat * m1 0%nat 6%nat * m0 1%nat 5%nat - m2 2%nat 3%nat * m1 0%nat 5%nat * m0 1%nat 6%nat - m2 2%nat 3%nat * m1 0%nat 3%nat * m0 1%nat 8%nat + m2 2%nat 0%nat * m1 1%nat 8%nat * m0 0%nat 5%nat + m2 2%nat 0%nat * m1 1%nat 5%nat * m0 0%nat 8%nat - m2 2%nat 0%nat * m1 0%nat 8%nat * m0 1%nat 5%nat - m2 2%nat 0%nat * m1 0%nat 5%nat * m0 1%nat 8%nat - m2 1%nat 8%nat * m1 2%nat 5%nat * m0 0%nat 0%nat - m2 1%nat 8%nat * m1 2%nat 3%nat * m0 0%nat 3%nat - m2 1%nat 8%nat * m1 2%nat 0%nat * m0 0%nat 5%nat + m2 1%nat 8%nat * m1 0%nat 5%nat * m0 2%nat 0%nat + m2 1%nat 8%nat * m1 0%nat 3%nat * m0 2%nat 3%nat + m2 1%nat 8%nat * m1 0%nat 0%nat * m0 2%nat 5%nat - m2 1%nat 6%nat * m1 2%nat 5%nat * m0 0%nat 3%nat - m2 1%nat 6%nat * m1 2%nat 3%nat * m0 0%nat 5%nat + m2 1%nat 6%nat * m1 0%nat 5%nat * m0 2%nat 3%nat + m2 1%nat 6%nat * m1 0%nat 3%nat * m0 2%nat 5%nat - m2 1%nat 5%nat * m1 2%nat 8%nat * m0 0%nat 0%nat - m2 1%nat 5%nat * m1 2%nat 6%nat * m0 0%nat 3%nat - m2 1%nat 5%nat * m1 2%nat 3%nat * m0 0%nat 6%nat - m2 1%nat 5%nat * m1 2%nat 0%nat * m0 0%nat 8%nat + m2 1%nat 5%nat * m1 0%nat 8%nat * m0 2%nat 0%nat + m2 1%nat 5%nat * m1 0%nat 6%nat * m0 2%nat 3%nat + m2 1%nat 5%nat * m1 0%nat 3%nat * m0 2%nat 6%nat + m2 1%nat 5%nat * m1 0%nat 0%nat * m0 2%nat 8%nat - m2 1%nat 3%nat * m1 2%nat 8%nat * m0 0%nat 3%nat - m2 1%nat 3%nat * m1 2%nat 6%nat * m0 0%nat 5%nat - m2 1%nat 3%nat * m1 2%nat 5%nat * m0 0%nat 6%nat - m2 1%nat 3%nat * m1 2%nat 3%nat * m0 0%nat 8%nat + m2 1%nat 3%nat * m1 0%nat 8%nat * m0 2%nat 3%nat + m2 1%nat 3%nat * m1 0%nat 6%nat * m0 2%nat 5%nat + m2 1%nat 3%nat * m1 0%nat 5%nat * m0 2%nat 6%nat + m2 1%nat 3%nat * m1 0%nat 3%nat * m0 2%nat 8%nat - m2 1%nat 0%nat * m1 2%nat 8%nat * m0 0%nat 5%nat - m2 1%nat 0%nat * m1 2%nat 5%nat * m0 0%nat 8%nat + m2 1%nat 0%nat * m1 0%nat 8%nat * m0 2%nat 5%nat + m2 1%nat 0%nat * m1 0%nat 5%nat * m0 2%nat 8%nat + m2 0%nat 8%nat * m1 2%nat 5%nat * m0 1%nat 0%nat + m2 0%nat 8%nat * m1 2%nat 3%nat * m0 1%nat 3%nat + m2 0%nat 8%nat * m1 2%nat 0%nat * m0 1%nat 5%nat - m2 0%nat 8%nat * m1 1%nat 5%nat * m0 2%nat 0%nat - m2 0%nat 8%nat * m1 1%nat 3%nat * m0 2%nat 3%nat - m2 0%nat 8%nat * m1 1%nat 0%nat * m0 2%nat 5%nat + m2 0%nat 6%nat * m1 2%nat 5%nat * m0 1%nat 3%nat + m2 0%nat 6%nat * m1 2%nat 3%nat * m0 1%nat 5%nat - m2 0%nat 6%nat * m1 1%nat 5%nat * m0 2%nat 3%nat - m2 0%nat 6%nat * m1 1%nat 3%nat * m0 2%nat 5%nat + m2 0%nat 5%nat * m1 2%nat 8%nat * m0 1%nat 0%nat + m2 0%nat 5%nat * m1 2%nat 6%nat * m0 1%nat 3%nat + m2 0%nat 5%nat * m1 2%nat 3%nat * m0 1%nat 6%nat + m2 0%nat 5%nat * m1 2%nat 0%nat * m0 1%nat 8%nat - m2 0%nat 5%nat * m1 1%nat 8%nat * m0 2%nat 0%nat - m2 0%nat 5%nat * m1 1%nat 6%nat * m0 2%nat 3%nat - m2 0%nat 5%nat * m1 1%nat 3%nat * m0 2%nat 6%nat - m2 0%nat 5%nat * m1 1%nat 0%nat * m0 2%nat 8%nat + m2 0%nat 3%nat * m1 2%nat 8%nat * m0 1%nat 3%nat + m2 0%nat 3%nat * m1 2%nat 6%nat * m0 1%nat 5%nat + m2 0%nat 3%nat * m1 2%nat 5%nat * m0 1%nat 6%nat + m2 0%nat 3%nat * m1 2%nat 3%nat * m0 1%nat 8%nat - m2 0%nat 3%nat * m1 1%nat 8%nat * m0 2%nat 3%nat - m2 0%nat 3%nat * m1 1%nat 6%nat * m0 2%nat 5%nat - m2 0%nat 3%nat * m1 1%nat 5%nat * m0 2%nat 6%nat - m2 0%nat 3%nat * m1 1%nat 3%nat * m0 2%nat 8%nat + m2 0%nat 0%nat * m1 2%nat 8%nat * m0 1%nat 5%nat + m2 0%nat 0%nat * m1 2%nat 5%nat * m0 1%nat 8%nat - m2 0%nat 0%nat * m1 1%nat 8%nat * m0 2%nat 5%nat - m2 0%nat 0%nat * m1 1%nat 5%nat * m0 2%nat 8%nat;
    m2 2%nat 8%nat * m1 1%nat 5%nat * m0 0%nat 1%nat + m2 2%nat 8%nat * m1 1%nat 4%nat * m0 0%nat 3%nat + m2 2%nat 8%nat * m1 1%nat 3%nat * m0 0%nat 4%nat + m2 2%nat 8%nat * m1 1%nat 1%nat * m0 0%nat 5%nat - m2 2%nat 8%nat * m1 0%nat 5%nat * m0 1%nat 1%nat - m2 2%nat 8%nat * m1 0%nat 4%nat * m0 1%nat 3%nat - m2 2%nat 8%nat * m1 0%nat 3%nat * m0 1%nat 4%nat - m2 2%nat 8%nat * m1 0%nat 1%nat * m0 1%nat 5%nat + m2 2%nat 7%nat * m1 1%nat 5%nat * m0 0%nat 3%nat + m2 2%nat 7%nat * m1 1%nat 3%nat * m0 0%nat 5%nat - m2 2%nat 7%nat * m1 0%nat 5%nat * m0 1%nat 3%nat - m2 2%nat 7%nat * m1 0%nat 3%nat * m0 1%nat 5%nat + m2 2%nat 6%nat * m1 1%nat 5%nat * m0 0%nat 4%nat + m2 2%nat 6%nat * m1 1%nat 4%nat * m0 0%nat 5%nat - m2 2%nat 6%nat * m1 0%nat 5%nat * m0 1%nat 4%nat - m2 2%nat 6%nat * m1 0%nat 4%nat * m0 1%nat 5%nat + m2 2%nat 5%nat * m1 1%nat 8%nat * m0 0%nat 1%nat + m2 2%nat 5%nat * m1 1%nat 7%nat * m0 0%nat 3%nat + m2 2%nat 5%nat * m1 1%nat 6%nat * m0 0%nat 4%nat + m2 2%nat 5%nat * m1 1%nat 4%nat * m0 0%nat 6%nat + m2 2%nat 5%nat * m1 1%nat 3%nat * m0 0%nat 7%nat + m2 2%nat 5%nat * m1 1%nat 1%nat * m0 0%nat 8%nat - m2 2%nat 5%nat * m1 0%nat 8%nat * m0 1%nat 1%nat - m2 2%nat 5%nat * m1 0%nat 7%nat * m0 1%nat 3%nat - m2 2%nat 5%nat * m1 0%nat 6%nat * m0 1%nat 4%nat - m2 2%nat 5%nat * m1 0%nat 4%nat * m0 1%nat 6%nat - m2 2%nat 5%nat * m1 0%nat 3%nat * m0 1%nat 7%nat - m2 2%nat 5%nat * m1 0%nat 1%nat * m0 1%nat 8%nat + m2 2%nat 4%nat * m1 1%nat 8%nat * m0 0%nat 3%nat + m2 2%nat 4%nat * m1 1%nat 6%nat * m0 0%nat 5%nat + m2 2%nat 4%nat * m1 1%nat 5%nat * m0 0%nat 6%nat + m2 2%nat 4%nat * m1 1%nat 3%nat * m0 0%nat 8%nat - m2 2%nat 4%nat * m1 0%nat 8%nat * m0 1%nat 3%nat - m2 2%nat 4%nat * m1 0%nat 6%nat * m0 1%nat 5%nat - m2 2%nat 4%nat * m1 0%nat 5%nat * m0 1%nat 6%nat - m2 2%nat 4%nat * m1 0%nat 3%nat * m0 1%nat 8%nat + m2 2%nat 3%nat * m1 1%nat 8%nat * m0 0%nat 4%nat + m2 2%nat 3%nat * m1 1%nat 7%nat * m0 0%nat 5%nat + m2 2%nat 3%nat * m1 1%nat 5%nat * m0 0%nat 7%nat + m2 2%nat 3%nat * m1 1%nat 4%nat * m0 0%nat 8%nat - m2 2%nat 3%nat * m1 0%nat 8%nat * m0 1%nat 4%nat - m2 2%nat 3%nat * m1 0%nat 7%nat * m0 1%nat 5%nat - m2 2%nat 3%nat * m1 0%nat 5%nat * m0 1%nat 7%nat - m2 2%nat 3%nat * m1 0%nat 4%nat * m0 1%nat 8%nat + m2 2%nat 1%nat * m1 1%nat 8%nat * m0 0%nat 5%nat + m2 2%nat 1%nat * m1 1%nat 5%nat * m0 0%nat 8%nat - m2 2%nat 1%nat * m1 0%nat 8%nat * m0 1%nat 5%nat - m2 2%nat 1%nat * m1 0%nat 5%nat * m0 1%nat 8%nat - m2 1%nat 8%nat * m1 2%nat 5%nat * m0 0%nat 1%nat - m2 1%nat 8%nat * m1 2%nat 4%nat * m0 0%nat 3%nat - m2 1%nat 8%nat * m1 2%nat 3%nat * m0 0%nat 4%nat - m2 1%nat 8%nat * m1 2%nat 1%nat * m0 0%nat 5%nat + m2 1%nat 8%nat * m1 0%nat 5%nat * m0 2%nat 1%nat + m2 1%nat 8%nat * m1 0%nat 4%nat * m0 2%nat 3%nat + m2 1%nat 8%nat * m1 0%nat 3%nat * m0 2%nat 4%nat + m2 1%nat 8%nat * m1 0%nat 1%nat * m0 2%nat 5%nat - m2 1%nat 7%nat * m1 2%nat 5%nat * m0 0%nat 3%nat - m2 1%nat 7%nat * m1 2%nat 3%nat * m0 0%nat 5%nat + m2 1%nat 7%nat * m1 0%nat 5%nat * m0 2%nat 3%nat + m2 1%nat 7%nat * m1 0%nat 3%nat * m0 2%nat 5%nat - m2 1%nat 6%nat * m1 2%nat 5%nat * m0 0%nat 4%nat - m2 1%nat 6%nat * m1 2%nat 4%nat * m0 0%nat 5%nat + m2 1%nat 6%nat * m1 0%nat 5%nat * m0 2%nat 4%nat + m2 1%nat 6%nat * m1 0%nat 4%nat * m0 2%nat 5%nat - m2 1%nat 5%nat * m1 2%nat 8%nat * m0 0%nat 1%nat - m2 1%nat 5%nat * m1 2%nat 7%nat * m0 0%nat 3%nat - m2 1%nat 5%nat * m1 2%nat 6%nat * m0 0%nat 4%nat - m2 1%nat 5%nat * m1 2%nat 4%nat * m0 0%nat 6%nat - m2 1%nat 5%nat * m1 2%nat 3%nat * m0 0%nat 7%nat - m2 1%nat 5%nat * m1 2%nat 1%nat * m0 0%nat 8%nat + m2 1%nat 5%nat * m1 0%nat 8%nat * m0 2%nat 1%nat + m2 1%nat 5%nat * m1 0%nat 7%nat * m0 2%nat 3%nat + m2 1%nat 5%nat * m1 0%nat 6%nat * m0 2%nat 4%nat + m2 1%nat 5%nat * m1 0%nat 4%nat * m0 2%nat 6%nat + m2 1%nat 5%nat * m1 0%nat 3%nat * m0 2%nat 7%nat + m2 1%nat 5%nat * m1 0%nat 1%nat * m0 2%nat 8%nat - m2 1%nat 4%nat * m1 2%nat 8%nat * m0 0%nat 3%nat - m2 1%nat 4%nat * m1 2%nat 6%nat * m0 0%nat 5%nat - m2 1%nat 4%nat * m1 2%nat 5%nat * m0 0%nat 6%nat - m2 1%nat 4%nat * m1 2%nat 3%nat * m0 0%nat 8%nat + m2 1%nat 4%nat * m1 0%nat 8%nat * m0 2%nat 3%nat + m2 1%nat 4%nat * m1 0%nat 6%nat * m0 2%nat 5%nat + m2 1%nat 4%nat * m1 0%nat 5%nat * m0 2%nat 6%nat + m2 1%nat 4%nat * m1 0%nat 3%nat * m0 2%nat 8%nat - m2 1%nat 3%nat * m1 2%nat 8%nat * m0 0%nat 4%nat - m2 1%nat 3%nat * m1 2%nat 7%nat * m0 0%nat 5%nat - m2 1%nat 3%nat * m1 2%nat 5%nat * m0 0%nat 7%nat - m2 1%nat 3%nat * m1 2%nat 4%nat * m0 0%nat 8%nat + m2 1%nat 3%nat * m1 0%nat 8%nat * m0 2%nat 4%nat + m2 1%nat 3%nat * m1 0%nat 7%nat * m0 2%nat 5%nat + m2 1%nat 3%nat * m1 0%nat 5%nat * m0 2%nat 7%nat + m2 1%nat 3%nat * m1 0%nat 4%nat * m0 2%nat 8%nat - m2 1%nat 1%nat * m1 2%nat 8%nat * m0 0%nat 5%nat - m2 1%nat 1%nat * m1 2%nat 5%nat * m0 0%nat 8%nat + m2 1%nat 1%nat * m1 0%nat 8%nat * m0 2%nat 5%nat + m2 1%nat 1%nat * m1 0%nat 5%nat * m0 2%nat 8%nat + m2 0%nat 8%nat * m1 2%nat 5%nat * m0 1%nat 1%nat + m2 0%nat 8%nat * m1 2%nat 4%nat * m0 1%nat 3%nat + m2 0%nat 8%nat * m1 2%nat 3%nat * m0 1%nat 4%nat + m2 0%nat 8%nat * m1 2%nat 1%nat * m0 1%nat 5%nat - m2 0%nat 8%nat * m1 1%nat 5%nat * m0 2%nat 1%nat - m2 0%nat 8%nat * m1 1%nat 4%nat * m0 2%nat 3%nat - m2 0%nat 8%nat * m1 1%nat 3%nat * m0 2%nat 4%nat - m2 0%nat 8%nat * m1 1%nat 1%nat * m0 2%nat 5%nat + m2 0%nat 7%nat * m1 2%nat 5%nat * m0 1%nat 3%nat + m2 0%nat 7%nat * m1 2%nat 3%nat * m0 1%nat 5%nat - m2 0%nat 7%nat * m1 1%nat 5%nat * m0 2%nat 3%nat - m2 0%nat 7%nat * m1 1%nat 3%nat * m0 2%nat 5%nat + m2 0%nat 6%nat * m1 2%nat 5%nat * m0 1%nat 4%nat + m2 0%nat 6%nat * m1 2%nat 4%nat * m0 1%nat 5%nat - m2 0%nat 6%nat * m1 1%nat 5%nat * m0 2%nat 4%nat - m2 0%nat 6%nat * m1 1%nat 4%nat * m0 2%nat 5%nat + m2 0%nat 5%nat * m1 2%nat 8%nat * m0 1%nat 1%nat + m2 0%nat 5%nat * m1 2%nat 7%nat * m0 1%nat 3%nat + m2 0%nat 5%nat * m1 2%nat 6%nat * m0 1%nat 4%nat + m2 0%nat 5%nat * m1 2%nat 4%nat * m0 1%nat 6%nat + m2 0%nat 5%nat * m1 2%nat 3%nat * m0 1%nat 7%nat + m2 0%nat 5%nat * m1 2%nat 1%nat * m0 1%nat 8%nat - m2 0%nat 5%nat * m1 1%nat 8%nat * m0 2%nat 1%nat - m2 0%nat 5%nat * m1 1%nat 7%nat * m0 2%nat 3%nat - m2 0%nat 5%nat * m1 1%nat 6%nat * m0 2%nat 4%nat - m2 0%nat 5%nat * m1 1%nat 4%nat * m0 2%nat 6%nat - m2 0%nat 5%nat * m1 1%nat 3%nat * m0 2%nat 7%nat - m2 0%nat 5%nat * m1 1%nat 1%nat * m0 2%nat 8%nat + m2 0%nat 4%nat * m1 2%nat 8%nat * m0 1%nat 3%nat + m2 0%nat 4%nat * m1 2%nat 6%nat * m0 1%nat 5%nat + m2 0%nat 4%nat * m1 2%nat 5%nat * m0 1%nat 6%nat + m2 0%nat 4%nat * m1 2%nat 3%nat * m0 1%nat 8%nat - m2 0%nat 4%nat * m1 1%nat 8%nat * m0 2%nat 3%nat - m2 0%nat 4%nat * m1 1%nat 6%nat * m0 2%nat 5%nat - m2 0%nat 4%nat * m1 1%nat 5%nat * m0 2%nat 6%nat - m2 0%nat 4%nat * m1 1%nat 3%nat * m0 2%nat 8%nat + m2 0%nat 3%nat * m1 2%nat 8%nat * m0 1%nat 4%nat + m2 0%nat 3%nat * m1 2%nat 7%nat * m0 1%nat 5%nat + m2 0%nat 3%nat * m1 2%nat 5%nat * m0 1%nat 7%nat + m2 0%nat 3%nat * m1 2%nat 4%nat * m0 1%nat 8%nat - m2 0%nat 3%nat * m1 1%nat 8%nat * m0 2%nat 4%nat - m2 0%nat 3%nat * m1 1%nat 7%nat * m0 2%nat 5%nat - m2 0%nat 3%nat * m1 1%nat 5%nat * m0 2%nat 7%nat - m2 0%nat 3%nat * m1 1%nat 4%nat * m0 2%nat 8%nat + m2 0%nat 1%nat * m1 2%nat 8%nat * m0 1%nat 5%nat + m2 0%nat 1%nat * m1 2%nat 5%nat * m0 1%nat 8%nat - m2 0%nat 1%nat * m1 1%nat 8%nat * m0 2%nat 5%nat - m2 0%nat 1%nat * m1 1%nat 5%nat * m0 2%nat 8%nat;
    m2 2%nat 8%nat * m1 1%nat 5%nat * m0 0%nat 2%nat + m2 2%nat 8%nat * m1 1%nat 4%nat * m0 0%nat 4%nat + m2 2%nat 8%nat * m1 1%nat 2%nat * m0 0%nat 5%nat - m2 2%nat 8%nat * m1 0%nat 5%nat * m0 1%nat 2%nat - m2 2%nat 8%nat * m1 0%nat 4%nat * m0 1%nat 4%nat - m2 2%nat 8%nat * m1 0%nat 2%nat * m0 1%nat 5%nat + m2 2%nat 7%nat * m1 1%nat 5%nat * m0 0%nat 4%nat + m2 2%nat 7%nat * m1 1%nat 4%nat * m0 0%nat 5%nat - m2 2%nat 7%nat * m1 0%nat 5%nat * m0 1%nat 4%nat - m2 2%nat 7%nat * m1 0%nat 4%nat * m0 1%nat 5%nat + m2 2%nat 5%nat * m1 1%nat 8%nat * m0 0%nat 2%nat + m2 2%nat 5%nat * m1 1%nat 7%nat * m0 0%nat 4%nat + m2 2%nat 5%nat * m1 1%nat 4%nat * m0 0%nat 7%nat + m2 2%nat 5%nat * m1 1%nat 2%nat * m0 0%nat 8%nat - m2 2%nat 5%nat * m1 0%nat 8%nat * m0 1%nat 2%nat - m2 2%nat 5%nat * m1 0%nat 7%nat * m0 1%nat 4%nat - m2 2%nat 5%nat * m1 0%nat 4%nat * m0 1%nat 7%nat - m2 2%nat 5%nat * m1 0%nat 2%nat * m0 1%nat 8%nat + m2 2%nat 4%nat * m1 1%nat 8%nat * m0 0%nat 4%nat + m2 2%nat 4%nat * m1 1%nat 7%nat * m0 0%nat 5%nat + m2 2%nat 4%nat * m1 1%nat 5%nat * m0 0%nat 7%nat + m2 2%nat 4%nat * m1 1%nat 4%nat * m0 0%nat 8%nat - m2 2%nat 4%nat * m1 0%nat 8%nat * m0 1%nat 4%nat - m2 2%nat 4%nat * m1 0%nat 7%nat * m0 1%nat 5%nat - m2 2%nat 4%nat * m1 0%nat 5%nat * m0 1%nat 7%nat - m2 2%nat 4%nat * m1 0%nat 4%nat * m0 1%nat 8%nat + m2 2%nat 2%nat * m1 1%nat 8%nat * m0 0%nat 5%nat + m2 2%nat 2%nat * m1 1%nat 5%nat * m0 0%nat 8%nat - m2 2%nat 2%nat * m1 0%nat 8%nat * m0 1%nat 5%nat - m2 2%nat 2%nat * m1 0%nat 5%nat * m0 1%nat 8%nat - m2 1%nat 8%nat * m1 2%nat 5%nat * m0 0%nat 2%nat - m2 1%nat 8%nat * m1 2%nat 4%nat * m0 0%nat 4%nat - m2 1%nat 8%nat * m1 2%nat 2%nat * m0 0%nat 5%nat + m2 1%nat 8%nat * m1 0%nat 5%nat * m0 2%nat 2%nat + m2 1%nat 8%nat * m1 0%nat 4%nat * m0 2%nat 4%nat + m2 1%nat 8%nat * m1 0%nat 2%nat * m0 2%nat 5%nat - m2 1%nat 7%nat * m1 2%nat 5%nat * m0 0%nat 4%nat - m2 1%nat 7%nat * m1 2%nat 4%nat * m0 0%nat 5%nat + m2 1%nat 7%nat * m1 0%nat 5%nat * m0 2%nat 4%nat + m2 1%nat 7%nat * m1 0%nat 4%nat * m0 2%nat 5%nat - m2 1%nat 5%nat * m1 2%nat 8%nat * m0 0%nat 2%nat - m2 1%nat 5%nat * m1 2%nat 7%nat * m0 0%nat 4%nat - m2 1%nat 5%nat * m1 2%nat 4%nat * m0 0%nat 7%nat - m2 1%nat 5%nat * m1 2%nat 2%nat * m0 0%nat 8%nat + m2 1%nat 5%nat * m1 0%nat 8%nat * m0 2%nat 2%nat + m2 1%nat 5%nat * m1 0%nat 7%nat * m0 2%nat 4%nat + m2 1%nat 5%nat * m1 0%nat 4%nat * m0 2%nat 7%nat + m2 1%nat 5%nat * m1 0%nat 2%nat * m0 2%nat 8%nat - m2 1%nat 4%nat * m1 2%nat 8%nat * m0 0%nat 4%nat - m2 1%nat 4%nat * m1 2%nat 7%nat * m0 0%nat 5%nat - m2 1%nat 4%nat * m1 2%nat 5%nat * m0 0%nat 7%nat - m2 1%nat 4%nat * m1 2%nat 4%nat * m0 0%nat 8%nat + m2 1%nat 4%nat * m1 0%nat 8%nat * m0 2%nat 4%nat + m2 1%nat 4%nat * m1 0%nat 7%nat * m0 2%nat 5%nat + m2 1%nat 4%nat * m1 0%nat 5%nat * m0 2%nat 7%nat + m2 1%nat 4%nat * m1 0%nat 4%nat * m0 2%nat 8%nat - m2 1%nat 2%nat * m1 2%nat 8%nat * m0 0%nat 5%nat - m2 1%nat 2%nat * m1 2%nat 5%nat * m0 0%nat 8%nat + m2 1%nat 2%nat * m1 0%nat 8%nat * m0 2%nat 5%nat + m2 1%nat 2%nat * m1 0%nat 5%nat * m0 2%nat 8%nat + m2 0%nat 8%nat * m1 2%nat 5%nat * m0 1%nat 2%nat + m2 0%nat 8%nat * m1 2%nat 4%nat * m0 1%nat 4%nat + m2 0%nat 8%nat * m1 2%nat 2%nat * m0 1%nat 5%nat - m2 0%nat 8%nat * m1 1%nat 5%nat * m0 2%nat 2%nat - m2 0%nat 8%nat * m1 1%nat 4%nat * m0 2%nat 4%nat - m2 0%nat 8%nat * m1 1%nat 2%nat * m0 2%nat 5%nat + m2 0%nat 7%nat * m1 2%nat 5%nat * m0 1%nat 4%nat + m2 0%nat 7%nat * m1 2%nat 4%nat * m0 1%nat 5%nat - m2 0%nat 7%nat * m1 1%nat 5%nat * m0 2%nat 4%nat - m2 0%nat 7%nat * m1 1%nat 4%nat * m0 2%nat 5%nat + m2 0%nat 5%nat * m1 2%nat 8%nat * m0 1%nat 2%nat + m2 0%nat 5%nat * m1 2%nat 7%nat * m0 1%nat 4%nat + m2 0%nat 5%nat * m1 2%nat 4%nat * m0 1%nat 7%nat + m2 0%nat 5%nat * m1 2%nat 2%nat * m0 1%nat 8%nat - m2 0%nat 5%nat * m1 1%nat 8%nat * m0 2%nat 2%nat - m2 0%nat 5%nat * m1 1%nat 7%nat * m0 2%nat 4%nat - m2 0%nat 5%nat * m1 1%nat 4%nat * m0 2%nat 7%nat - m2 0%nat 5%nat * m1 1%nat 2%nat * m0 2%nat 8%nat + m2 0%nat 4%nat * m1 2%nat 8%nat * m0 1%nat 4%nat + m2 0%nat 4%nat * m1 2%nat 7%nat * m0 1%nat 5%nat + m2 0%nat 4%nat * m1 2%nat 5%nat * m0 1%nat 7%nat + m2 0%nat 4%nat * m1 2%nat 4%nat * m0 1%nat 8%nat - m2 0%nat 4%nat * m1 1%nat 8%nat * m0 2%nat 4%nat - m2 0%nat 4%nat * m1 1%nat 7%nat * m0 2%nat 5%nat - m2 0%nat 4%nat * m1 1%nat 5%nat * m0 2%nat 7%nat - m2 0%nat 4%nat * m1 1%nat 4%nat * m0 2%nat 8%nat + m2 0%nat 2%nat * m1 2%nat 8%nat * m0 1%nat 5%nat + m2 0%nat 2%nat * m1 2%nat 5%nat * m0 1%nat 8%nat - m2 0%nat 2%nat * m1 1%nat 8%nat * m0 2%nat 5%nat - m2 0%nat 2%nat * m1 1%nat 5%nat * m0 2%nat 8%nat;
    m2 2%nat 8%nat * m1 1%nat 5%nat * m0 0%nat 3%nat + m2 2%nat 8%nat * m1 1%nat 3%nat * m0 0%nat 5%nat - m2 2%nat 8%nat * m1 0%nat 5%nat * m0 1%nat 3%nat - m2 2%nat 8%nat * m1 0%nat 3%nat * m0 1%nat 5%nat + m2 2%nat 6%nat * m1 1%nat 5%nat * m0 0%nat 5%nat - m2 2%nat 6%nat * m1 0%nat 5%nat * m0 1%nat 5%nat + m2 2%nat 5%nat * m1 1%nat 8%nat * m0 0%nat 3%nat + m2 2%nat 5%nat * m1 1%nat 6%nat * m0 0%nat 5%nat + m2 2%nat 5%nat * m1 1%nat 5%nat * m0 0%nat 6%nat + m2 2%nat 5%nat * m1 1%nat 3%nat * m0 0%nat 8%nat - m2 2%nat 5%nat * m1 0%nat 8%nat * m0 1%nat 3%nat - m2 2%nat 5%nat * m1 0%nat 6%nat * m0 1%nat 5%nat - m2 2%nat 5%nat * m1 0%nat 5%nat * m0 1%nat 6%nat - m2 2%nat 5%nat * m1 0%nat 3%nat * m0 1%nat 8%nat + m2 2%nat 3%nat * m1 1%nat 8%nat * m0 0%nat 5%nat + m2 2%nat 3%nat * m1 1%nat 5%nat * m0 0%nat 8%nat - m2 2%nat 3%nat * m1 0%nat 8%nat * m0 1%nat 5%nat - m2 2%nat 3%nat * m1 0%nat 5%nat * m0 1%nat 8%nat - m2 1%nat 8%nat * m1 2%nat 5%nat * m0 0%nat 3%nat - m2 1%nat 8%nat * m1 2%nat 3%nat * m0 0%nat 5%nat + m2 1%nat 8%nat * m1 0%nat 5%nat * m0 2%nat 3%nat + m2 1%nat 8%nat * m1 0%nat 3%nat * m0 2%nat 5%nat - m2 1%nat 6%nat * m1 2%nat 5%nat * m0 0%nat 5%nat + m2 1%nat 6%nat * m1 0%nat 5%nat * m0 2%nat 5%nat - m2 1%nat 5%nat * m1 2%nat 8%nat * m0 0%nat 3%nat - m2 1%nat 5%nat * m1 2%nat 6%nat * m0 0%nat 5%nat - m2 1%nat 5%nat * m1 2%nat 5%nat * m0 0%nat 6%nat - m2 1%nat 5%nat * m1 2%nat 3%nat * m0 0%nat 8%nat + m2 1%nat 5%nat * m1 0%nat 8%nat * m0 2%nat 3%nat + m2 1%nat 5%nat * m1 0%nat 6%nat * m0 2%nat 5%nat + m2 1%nat 5%nat * m1 0%nat 5%nat * m0 2%nat 6%nat + m2 1%nat 5%nat * m1 0%nat 3%nat * m0 2%nat 8%nat - m2 1%nat 3%nat * m1 2%nat 8%nat * m0 0%nat 5%nat - m2 1%nat 3%nat * m1 2%nat 5%nat * m0 0%nat 8%nat + m2 1%nat 3%nat * m1 0%nat 8%nat * m0 2%nat 5%nat + m2 1%nat 3%nat * m1 0%nat 5%nat * m0 2%nat 8%nat + m2 0%nat 8%nat * m1 2%nat 5%nat * m0 1%nat 3%nat + m2 0%nat 8%nat * m1 2%nat 3%nat * m0 1%nat 5%nat - m2 0%nat 8%nat * m1 1%nat 5%nat * m0 2%nat 3%nat - m2 0%nat 8%nat * m1 1%nat 3%nat * m0 2%nat 5%nat + m2 0%nat 6%nat * m1 2%nat 5%nat * m0 1%nat 5%nat - m2 0%nat 6%nat * m1 1%nat 5%nat * m0 2%nat 5%nat + m2 0%nat 5%nat * m1 2%nat 8%nat * m0 1%nat 3%nat + m2 0%nat 5%nat * m1 2%nat 6%nat * m0 1%nat 5%nat + m2 0%nat 5%nat * m1 2%nat 5%nat * m0 1%nat 6%nat + m2 0%nat 5%nat * m1 2%nat 3%nat * m0 1%nat 8%nat - m2 0%nat 5%nat * m1 1%nat 8%nat * m0 2%nat 3%nat - m2 0%nat 5%nat * m1 1%nat 6%nat * m0 2%nat 5%nat - m2 0%nat 5%nat * m1 1%nat 5%nat * m0 2%nat 6%nat - m2 0%nat 5%nat * m1 1%nat 3%nat * m0 2%nat 8%nat + m2 0%nat 3%nat * m1 2%nat 8%nat * m0 1%nat 5%nat + m2 0%nat 3%nat * m1 2%nat 5%nat * m0 1%nat 8%nat - m2 0%nat 3%nat * m1 1%nat 8%nat * m0 2%nat 5%nat - m2 0%nat 3%nat * m1 1%nat 5%nat * m0 2%nat 8%nat;
    m2 2%nat 8%nat * m1 1%nat 5%nat * m0 0%nat 4%nat + m2 2%nat 8%nat * m1 1%nat 4%nat * m0 0%nat 5%nat - m2 2%nat 8%nat * m1 0%nat 5%nat * m0 1%nat 4%nat - m2 2%nat 8%nat * m1 0%nat 4%nat * m0 1%nat 5%nat + m2 2%nat 7%nat * m1 1%nat 5%nat * m0 0%nat 5%nat - m2 2%nat 7%nat * m1 0%nat 5%nat * m0 1%nat 5%nat + m2 2%nat 5%nat * m1 1%nat 8%nat * m0 0%nat 4%nat + m2 2%nat 5%nat * m1 1%nat 7%nat * m0 0%nat 5%nat + m2 2%nat 5%nat * m1 1%nat 5%nat * m0 0%nat 7%nat + m2 2%nat 5%nat * m1 1%nat 4%nat * m0 0%nat 8%nat - m2 2%nat 5%nat * m1 0%nat 8%nat * m0 1%nat 4%nat - m2 2%nat 5%nat * m1 0%nat 7%nat * m0 1%nat 5%nat - m2 2%nat 5%nat * m1 0%nat 5%nat * m0 1%nat 7%nat - m2 2%nat 5%nat * m1 0%nat 4%nat * m0 1%nat 8%nat + m2 2%nat 4%nat * m1 1%nat 8%nat * m0 0%nat 5%nat + m2 2%nat 4%nat * m1 1%nat 5%nat * m0 0%nat 8%nat - m2 2%nat 4%nat * m1 0%nat 8%nat * m0 1%nat 5%nat - m2 2%nat 4%nat * m1 0%nat 5%nat * m0 1%nat 8%nat - m2 1%nat 8%nat * m1 2%nat 5%nat * m0 0%nat 4%nat - m2 1%nat 8%nat * m1 2%nat 4%nat * m0 0%nat 5%nat + m2 1%nat 8%nat * m1 0%nat 5%nat * m0 2%nat 4%nat + m2 1%nat 8%nat * m1 0%nat 4%nat * m0 2%nat 5%nat - m2 1%nat 7%nat * m1 2%nat 5%nat * m0 0%nat 5%nat + m2 1%nat 7%nat * m1 0%nat 5%nat * m0 2%nat 5%nat - m2 1%nat 5%nat * m1 2%nat 8%nat * m0 0%nat 4%nat - m2 1%nat 5%nat * m1 2%nat 7%nat * m0 0%nat 5%nat - m2 1%nat 5%nat * m1 2%nat 5%nat * m0 0%nat 7%nat - m2 1%nat 5%nat * m1 2%nat 4%nat * m0 0%nat 8%nat + m2 1%nat 5%nat * m1 0%nat 8%nat * m0 2%nat 4%nat + m2 1%nat 5%nat * m1 0%nat 7%nat * m0 2%nat 5%nat + m2 1%nat 5%nat * m1 0%nat 5%nat * m0 2%nat 7%nat + m2 1%nat 5%nat * m1 0%nat 4%nat * m0 2%nat 8%nat - m2 1%nat 4%nat * m1 2%nat 8%nat * m0 0%nat 5%nat - m2 1%nat 4%nat * m1 2%nat 5%nat * m0 0%nat 8%nat + m2 1%nat 4%nat * m1 0%nat 8%nat * m0 2%nat 5%nat + m2 1%nat 4%nat * m1 0%nat 5%nat * m0 2%nat 8%nat + m2 0%nat 8%nat * m1 2%nat 5%nat * m0 1%nat 4%nat + m2 0%nat 8%nat * m1 2%nat 4%nat * m0 1%nat 5%nat - m2 0%nat 8%nat * m1 1%nat 5%nat * m0 2%nat 4%nat - m2 0%nat 8%nat * m1 1%nat 4%nat * m0 2%nat 5%nat + m2 0%nat 7%nat * m1 2%nat 5%nat * m0 1%nat 5%nat - m2 0%nat 7%nat * m1 1%nat 5%nat * m0 2%nat 5%nat + m2 0%nat 5%nat * m1 2%nat 8%nat * m0 1%nat 4%nat + m2 0%nat 5%nat * m1 2%nat 7%nat * m0 1%nat 5%nat + m2 0%nat 5%nat * m1 2%nat 5%nat * m0 1%nat 7%nat + m2 0%nat 5%nat * m1 2%nat 4%nat * m0 1%nat 8%nat - m2 0%nat 5%nat * m1 1%nat 8%nat * m0 2%nat 4%nat - m2 0%nat 5%nat * m1 1%nat 7%nat * m0 2%nat 5%nat - m2 0%nat 5%nat * m1 1%nat 5%nat * m0 2%nat 7%nat - m2 0%nat 5%nat * m1 1%nat 4%nat * m0 2%nat 8%nat + m2 0%nat 4%nat * m1 2%nat 8%nat * m0 1%nat 5%nat + m2 0%nat 4%nat * m1 2%nat 5%nat * m0 1%nat 8%nat - m2 0%nat 4%nat * m1 1%nat 8%nat * m0 2%nat 5%nat - m2 0%nat 4%nat * m1 1%nat 5%nat * m0 2%nat 8%nat;
    m2 2%nat 8%nat * m1 1%nat 5%nat * m0 0%nat 5%nat - m2 2%nat 8%nat * m1 0%nat 5%nat * m0 1%nat 5%nat + m2 2%nat 5%nat * m1 1%nat 8%nat * m0 0%nat 5%nat + m2 2%nat 5%nat * m1 1%nat 5%nat * m0 0%nat 8%nat - m2 2%nat 5%nat * m1 0%nat 8%nat * m0 1%nat 5%nat - m2 2%nat 5%nat * m1 0%nat 5%nat * m0 1%nat 8%nat - m2 1%nat 8%nat * m1 2%nat 5%nat * m0 0%nat 5%nat + m2 1%nat 8%nat * m1 0%nat 5%nat * m0 2%nat 5%nat - m2 1%nat 5%nat * m1 2%nat 8%nat * m0 0%nat 5%nat - m2 1%nat 5%nat * m1 2%nat 5%nat * m0 0%nat 8%nat + m2 1%nat 5%nat * m1 0%nat 8%nat * m0 2%nat 5%nat + m2 1%nat 5%nat * m1 0%nat 5%nat * m0 2%nat 8%nat + m2 0%nat 8%nat * m1 2%nat 5%nat * m0 1%nat 5%nat - m2 0%nat 8%nat * m1 1%nat 5%nat * m0 2%nat 5%nat + m2 0%nat 5%nat * m1 2%nat 8%nat * m0 1%nat 5%nat + m2 0%nat 5%nat * m1 2%nat 5%nat * m0 1%nat 8%nat - m2 0%nat 5%nat * m1 1%nat 8%nat * m0 2%nat 5%nat - m2 0%nat 5%nat * m1 1%nat 5%nat * m0 2%nat 8%nat;
    m2 2%nat 9%nat * m1 1%nat 0%nat * m0 0%nat 0%nat - m2 2%nat 9%nat * m1 0%nat 0%nat * m0 1%nat 0%nat + m2 2%nat 6%nat * m1 1%nat 6%nat * m0 0%nat 0%nat + m2 2%nat 6%nat * m1 1%nat 0%nat * m0 0%nat 6%nat - m2 2%nat 6%nat * m1 0%nat 6%nat * m0 1%nat 0%nat - m2 2%nat 6%nat * m1 0%nat 0%nat * m0 1%nat 6%nat + m2 2%nat 0%nat * m1 1%nat 9%nat * m0 0%nat 0%nat + m2 2%nat 0%nat * m1 1%nat 6%nat * m0 0%nat 6%nat + m2 2%nat 0%nat * m1 1%nat 0%nat * m0 0%nat 9%nat - m2 2%nat 0%nat * m1 0%nat 9%nat * m0 1%nat 0%nat - m2 2%nat 0%nat * m1 0%nat 6%nat * m0 1%nat 6%nat - m2 2%nat 0%nat * m1 0%nat 0%nat * m0 1%nat 9%nat - m2 1%nat 9%nat * m1 2%nat 0%nat * m0 0%nat 0%nat + m2 1%nat 9%nat * m1 0%nat 0%nat * m0 2%nat 0%nat - m2 1%nat 6%nat * m1 2%nat 6%nat * m0 0%nat 0%nat - m2 1%nat 6%nat * m1 2%nat 0%nat * m0 0%nat 6%nat + m2 1%nat 6%nat * m1 0%nat 6%nat * m0 2%nat 0%nat + m2 1%nat 6%nat * m1 0%nat 0%nat * m0 2%nat 6%nat - m2 1%nat 0%nat * m1 2%nat 9%nat * m0 0%nat 0%nat - m2 1%nat 0%nat * m1 2%nat 6%nat * m0 0%nat 6%nat - m2 1%nat 0%nat * m1 2%nat 0%nat * m0 0%nat 9%nat + m2 1%nat 0%nat * m1 0%nat 9%nat * m0 2%nat 0%nat + m2 1%nat 0%nat * m1 0%nat 6%nat * m0 2%nat 6%nat + m2 1%nat 0%nat * m1 0%nat 0%nat * m0 2%nat 9%nat + m2 0%nat 9%nat * m1 2%nat 0%nat * m0 1%nat 0%nat - m2 0%nat 9%nat * m1 1%nat 0%nat * m0 2%nat 0%nat + m2 0%nat 6%nat * m1 2%nat 6%nat * m0 1%nat 0%nat + m2 0%nat 6%nat * m1 2%nat 0%nat * m0 1%nat 6%nat - m2 0%nat 6%nat * m1 1%nat 6%nat * m0 2%nat 0%nat - m2 0%nat 6%nat * m1 1%nat 0%nat * m0 2%nat 6%nat + m2 0%nat 0%nat * m1 2%nat 9%nat * m0 1%nat 0%nat + m2 0%nat 0%nat * m1 2%nat 6%nat * m0 1%nat 6%nat + m2 0%nat 0%nat * m1 2%nat 0%nat * m0 1%nat 9%nat - m2 0%nat 0%nat * m1 1%nat 9%nat * m0 2%nat 0%nat - m2 0%nat 0%nat * m1 1%nat 6%nat * m0 2%nat 6%nat - m2 0%nat 0%nat * m1 1%nat 0%nat * m0 2%nat 9%nat;
    m2 2%nat 9%nat * m1 1%nat 1%nat * m0 0%nat 0%nat + m2 2%nat 9%nat * m1 1%nat 0%nat * m0 0%nat 1%nat - m2 2%nat 9%nat * m1 0%nat 1%nat * m0 1%nat 0%nat - m2 2%nat 9%nat * m1 0%nat 0%nat * m0 1%nat 1%nat + m2 2%nat 7%nat * m1 1%nat 6%nat * m0 0%nat 0%nat + m2 2%nat 7%nat * m1 1%nat 0%nat * m0 0%nat 6%nat - m2 2%nat 7%nat * m1 0%nat 6%nat * m0 1%nat 0%nat - m2 2%nat 7%nat * m1 0%nat 0%nat * m0 1%nat 6%nat + m2 2%nat 6%nat * m1 1%nat 7%nat * m0 0%nat 0%nat + m2 2%nat 6%nat * m1 1%nat 6%nat * m0 0%nat 1%nat + m2 2%nat 6%nat * m1 1%nat 1%nat * m0 0%nat 6%nat + m2 2%nat 6%nat * m1 1%nat 0%nat * m0 0%nat 7%nat - m2 2%nat 6%nat * m1 0%nat 7%nat * m0 1%nat 0%nat - m2 2%nat 6%nat * m1 0%nat 6%nat * m0 1%nat 1%nat - m2 2%nat 6%nat * m1 0%nat 1%nat * m0 1%nat 6%nat - m2 2%nat 6%nat * m1 0%nat 0%nat * m0 1%nat 7%nat + m2 2%nat 1%nat * m1 1%nat 9%nat * m0 0%nat 0%nat + m2 2%nat 1%nat * m1 1%nat 6%nat * m0 0%nat 6%nat + m2 2%nat 1%nat * m1 1%nat 0%nat * m0 0%nat 9%nat - m2 2%nat 1%nat * m1 0%nat 9%nat * m0 1%nat 0%nat - m2 2%nat 1%nat * m1 0%nat 6%nat * m0 1%nat 6%nat - m2 2%nat 1%nat * m1 0%nat 0%nat * m0 1%nat 9%nat + m2 2%nat 0%nat * m1 1%nat 9%nat * m0 0%nat 1%nat + m2 2%nat 0%nat * m1 1%nat 7%nat * m0 0%nat 6%nat + m2 2%nat 0%nat * m1 1%nat 6%nat * m0 0%nat 7%nat + m2 2%nat 0%nat * m1 1%nat 1%nat * m0 0%nat 9%nat - m2 2%nat 0%nat * m1 0%nat 9%nat * m0 1%nat 1%nat - m2 2%nat 0%nat * m1 0%nat 7%nat * m0 1%nat 6%nat - m2 2%nat 0%nat * m1 0%nat 6%nat * m0 1%nat 7%nat - m2 2%nat 0%nat * m1 0%nat 1%nat * m0 1%nat 9%nat - m2 1%nat 9%nat * m1 2%nat 1%nat * m0 0%nat 0%nat - m2 1%nat 9%nat * m1 2%nat 0%nat * m0 0%nat 1%nat + m2 1%nat 9%nat * m1 0%nat 1%nat * m0 2%nat 0%nat + m2 1%nat 9%nat * m1 0%nat 0%nat * m0 2%nat 1%nat - m2 1%nat 7%nat * m1 2%nat 6%nat * m0 0%nat 0%nat - m2 1%nat 7%nat * m1 2%nat 0%nat * m0 0%nat 6%nat + m2 1%nat 7%nat * m1 0%nat 6%nat * m0 2%nat 0%nat + m2 1%nat 7%nat * m1 0%nat 0%nat * m0 2%nat 6%nat - m2 1%nat 6%nat * m1 2%nat 7%nat * m0 0%nat 0%nat - m2 1%nat 6%nat * m1 2%nat 6%nat * m0 0%nat 1%nat - m2 1%nat 6%nat * m1 2%nat 1%nat * m0 0%nat 6%nat - m2 1%nat 6%nat * m1 2%nat 0%nat * m0 0%nat 7%nat + m2 1%nat 6%nat * m1 0%nat 7%nat * m0 2%nat 0%nat + m2 1%nat 6%nat * m1 0%nat 6%nat * m0 2%nat 1%nat + m2 1%nat 6%nat * m1 0%nat 1%nat * m0 2%nat 6%nat + m2 1%nat 6%nat * m1 0%nat 0%nat * m0 2%nat 7%nat - m2 1%nat 1%nat * m1 2%nat 9%nat * m0 0%nat 0%nat - m2 1%nat 1%nat * m1 2%nat 6%nat * m0 0%nat 6%nat - m2 1%nat 1%nat * m1 2%nat 0%nat * m0 0%nat 9%nat + m2 1%nat 1%nat * m1 0%nat 9%nat * m0 2%nat 0%nat + m2 1%nat 1%nat * m1 0%nat 6%nat * m0 2%nat 6%nat + m2 1%nat 1%nat * m1 0%nat 0%nat * m0 2%nat 9%nat - m2 1%nat 0%nat * m1 2%nat 9%nat * m0 0%nat 1%nat - m2 1%nat 0%nat * m1 2%nat 7%nat * m0 0%nat 6%nat - m2 1%nat 0%nat * m1 2%nat 6%nat * m0 0%nat 7%nat - m2 1%nat 0%nat * m1 2%nat 1%nat * m0 0%nat 9%nat + m2 1%nat 0%nat * m1 0%nat 9%nat * m0 2%nat 1%nat + m2 1%nat 0%nat * m1 0%nat 7%nat * m0 2%nat 6%nat + m2 1%nat 0%nat * m1 0%nat 6%nat * m0 2%nat 7%nat + m2 1%nat 0%nat * m1 0%nat 1%nat * m0 2%nat 9%nat + m2 0%nat 9%nat * m1 2%nat 1%nat * m0 1%nat 0%nat + m2 0%nat 9%nat * m1 2%nat 0%nat * m0 1%nat 1%nat - m2 0%nat 9%nat * m1 1%nat 1%nat * m0 2%nat 0%nat - m2 0%nat 9%nat * m1 1%nat 0%nat * m0 2%nat 1%nat + m2 0%nat 7%nat * m1 2%nat 6%nat * m0 1%nat 0%nat + m2 0%nat 7%nat * m1 2%nat 0%nat * m0 1%nat 6%nat - m2 0%nat 7%nat * m1 1%nat 6%nat * m0 2%nat 0%nat - m2 0%nat 7%nat * m1 1%nat 0%nat * m0 2%nat 6%nat + m2 0%nat 6%nat * m1 2%nat 7%nat * m0 1%nat 0%nat + m2 0%nat 6%nat * m1 2%nat 6%nat * m0 1%nat 1%nat + m2 0%nat 6%nat * m1 2%nat 1%nat * m0 1%nat 6%nat + m2 0%nat 6%nat * m1 2%nat 0%nat * m0 1%nat 7%nat - m2 0%nat 6%nat * m1 1%nat 7%nat * m0 2%nat 0%nat - m2 0%nat 6%nat * m1 1%nat 6%nat * m0 2%nat 1%nat - m2 0%nat 6%nat * m1 1%nat 1%nat * m0 2%nat 6%nat - m2 0%nat 6%nat * m1 1%nat 0%nat * m0 2%nat 7%nat + m2 0%nat 1%nat * m1 2%nat 9%nat * m0 1%nat 0%nat + m2 0%nat 1%nat * m1 2%nat 6%nat * m0 1%nat 6%nat + m2 0%nat 1%nat * m1 2%nat 0%nat * m0 1%nat 9%nat - m2 0%nat 1%nat * m1 1%nat 9%nat * m0 2%nat 0%nat - m2 0%nat 1%nat * m1 1%nat 6%nat * m0 2%nat 6%nat - m2 0%nat 1%nat * m1 1%nat 0%nat * m0 2%nat 9%nat + m2 0%nat 0%nat * m1 2%nat 9%nat * m0 1%nat 1%nat + m2 0%nat 0%nat * m1 2%nat 7%nat * m0 1%nat 6%nat + m2 0%nat 0%nat * m1 2%nat 6%nat * m0 1%nat 7%nat + m2 0%nat 0%nat * m1 2%nat 1%nat * m0 1%nat 9%nat - m2 0%nat 0%nat * m1 1%nat 9%nat * m0 2%nat 1%nat - m2 0%nat 0%nat * m1 1%nat 7%nat * m0 2%nat 6%nat - m2 0%nat 0%nat * m1 1%nat 6%nat * m0 2%nat 7%nat - m2 0%nat 0%nat * m1 1%nat 1%nat * m0 2%nat 9%nat;
    m2 2%nat 9%nat * m1 1%nat 2%nat * m0 0%nat 0%nat + m2 2%nat 9%nat * m1 1%nat 1%nat * m0 0%nat 1%nat + m2 2%nat 9%nat * m1 1%nat 0%nat * m0 0%nat 2%nat - m2 2%nat 9%nat * m1 0%nat 2%nat * m0 1%nat 0%nat - m2 2%nat 9%nat * m1 0%nat 1%nat * m0 1%nat 1%nat - m2 2%nat 9%nat * m1 0%nat 0%nat * m0 1%nat 2%nat + m2 2%nat 7%nat * m1 1%nat 7%nat * m0 0%nat 0%nat + m2 2%nat 7%nat * m1 1%nat 6%nat * m0 0%nat 1%nat + m2 2%nat 7%nat * m1 1%nat 1%nat * m0 0%nat 6%nat + m2 2%nat 7%nat * m1 1%nat 0%nat * m0 0%nat 7%nat - m2 2%nat 7%nat * m1 0%nat 7%nat * m0 1%nat 0%nat - m2 2%nat 7%nat * m1 0%nat 6%nat * m0 1%nat 1%nat - m2 2%nat 7%nat * m1 0%nat 1%nat * m0 1%nat 6%nat - m2 2%nat 7%nat * m1 0%nat 0%nat * m0 1%nat 7%nat + m2 2%nat 6%nat * m1 1%nat 7%nat * m0 0%nat 1%nat + m2 2%nat 6%nat * m1 1%nat 6%nat * m0 0%nat 2%nat + m2 2%nat 6%nat * m1 1%nat 2%nat * m0 0%nat 6%nat + m2 2%nat 6%nat * m1 1%nat 1%nat * m0 0%nat 7%nat - m2 2%nat 6%nat * m1 0%nat 7%nat * m0 1%nat 1%nat - m2 2%nat 6%nat * m1 0%nat 6%nat * m0 1%nat 2%nat - m2 2%nat 6%nat * m1 0%nat 2%nat * m0 1%nat 6%nat - m2 2%nat 6%nat * m1 0%nat 1%nat * m0 1%nat 7%nat + m2 2%nat 2%nat * m1 1%nat 9%nat * m0 0%nat 0%nat + m2 2%nat 2%nat * m1 1%nat 6%nat * m0 0%nat 6%nat + m2 2%nat 2%nat * m1 1%nat 0%nat * m0 0%nat 9%nat - m2 2%nat 2%nat * m1 0%nat 9%nat * m0 1%nat 0%nat - m2 2%nat 2%nat * m1 0%nat 6%nat * m0 1%nat 6%nat - m2 2%nat 2%nat * m1 0%nat 0%nat * m0 1%nat 9%nat + m2 2%nat 1%nat * m1 1%nat 9%nat * m0 0%nat 1%nat + m2 2%nat 1%nat * m1 1%nat 7%nat * m0 0%nat 6%nat + m2 2%nat 1%nat * m1 1%nat 6%nat * m0 0%nat 7%nat + m2 2%nat 1%nat * m1 1%nat 1%nat * m0 0%nat 9%nat - m2 2%nat 1%nat * m1 0%nat 9%nat * m0 1%nat 1%nat - m2 2%nat 1%nat * m1 0%nat 7%nat * m0 1%nat 6%nat - m2 2%nat 1%nat * m1 0%nat 6%nat * m0 1%nat 7%nat - m2 2%nat 1%nat * m1 0%nat 1%nat * m0 1%nat 9%nat + m2 2%nat 0%nat * m1 1%nat 9%nat * m0 0%nat 2%nat + m2 2%nat 0%nat * m1 1%nat 7%nat * m0 0%nat 7%nat + m2 2%nat 0%nat * m1 1%nat 2%nat * m0 0%nat 9%nat - m2 2%nat 0%nat * m1 0%nat 9%nat * m0 1%nat 2%nat - m2 2%nat 0%nat * m1 0%nat 7%nat * m0 1%nat 7%nat - m2 2%nat 0%nat * m1 0%nat 2%nat * m0 1%nat 9%nat - m2 1%nat 9%nat * m1 2%nat 2%nat * m0 0%nat 0%nat - m2 1%nat 9%nat * m1 2%nat 1%nat * m0 0%nat 1%nat - m2 1%nat 9%nat * m1 2%nat 0%nat * m0 0%nat 2%nat + m2 1%nat 9%nat * m1 0%nat 2%nat * m0 2%nat 0%nat + m2 1%nat 9%nat * m1 0%nat 1%nat * m0 2%nat 1%nat + m2 1%nat 9%nat * m1 0%nat 0%nat * m0 2%nat 2%nat - m2 1%nat 7%nat * m1 2%nat 7%nat * m0 0%nat 0%nat - m2 1%nat 7%nat * m1 2%nat 6%nat * m0 0%nat 1%nat - m2 1%nat 7%nat * m1 2%nat 1%nat * m0 0%nat 6%nat - m2 1%nat 7%nat * m1 2%nat 0%nat * m0 0%nat 7%nat + m2 1%nat 7%nat * m1 0%nat 7%nat * m0 2%nat 0%nat + m2 1%nat 7%nat * m1 0%nat 6%nat * m0 2%nat 1%nat + m2 1%nat 7%nat * m1 0%nat 1%nat * m0 2%nat 6%nat + m2 1%nat 7%nat * m1 0%nat 0%nat * m0 2%nat 7%nat - m2 1%nat 6%nat * m1 2%nat 7%nat * m0 0%nat 1%nat - m2 1%nat 6%nat * m1 2%nat 6%nat * m0 0%nat 2%nat - m2 1%nat 6%nat * m1 2%nat 2%nat * m0 0%nat 6%nat - m2 1%nat 6%nat * m1 2%nat 1%nat * m0 0%nat 7%nat + m2 1%nat 6%nat * m1 0%nat 7%nat * m0 2%nat 1%nat + m2 1%nat 6%nat * m1 0%nat 6%nat * m0 2%nat 2%nat + m2 1%nat 6%nat * m1 0%nat 2%nat * m0 2%nat 6%nat + m2 1%nat 6%nat * m1 0%nat 1%nat * m0 2%nat 7%nat - m2 1%nat 2%nat * m1 2%nat 9%nat * m0 0%nat 0%nat - m2 1%nat 2%nat * m1 2%nat 6%nat * m0 0%nat 6%nat - m2 1%nat 2%nat * m1 2%nat 0%nat * m0 0%nat 9%nat + m2 1%nat 2%nat * m1 0%nat 9%nat * m0 2%nat 0%nat + m2 1%nat 2%nat * m1 0%nat 6%nat * m0 2%nat 6%nat + m2 1%nat 2%nat * m1 0%nat 0%nat * m0 2%nat 9%nat - m2 1%nat 1%nat * m1 2%nat 9%nat * m0 0%nat 1%nat - m2 1%nat 1%nat * m1 2%nat 7%nat * m0 0%nat 6%nat - m2 1%nat 1%nat * m1 2%nat 6%nat * m0 0%nat 7%nat - m2 1%nat 1%nat * m1 2%nat 1%nat * m0 0%nat 9%nat + m2 1%nat 1%nat * m1 0%nat 9%nat * m0 2%nat 1%nat + m2 1%nat 1%nat * m1 0%nat 7%nat * m0 2%nat 6%nat + m2 1%nat 1%nat * m1 0%nat 6%nat * m0 2%nat 7%nat + m2 1%nat 1%nat * m1 0%nat 1%nat * m0 2%nat 9%nat - m2 1%nat 0%nat * m1 2%nat 9%nat * m0 0%nat 2%nat - m2 1%nat 0%nat * m1 2%nat 7%nat * m0 0%nat 7%nat - m2 1%nat 0%nat * m1 2%nat 2%nat * m0 0%nat 9%nat + m2 1%nat 0%nat * m1 0%nat 9%nat * m0 2%nat 2%nat + m2 1%nat 0%nat * m1 0%nat 7%nat * m0 2%nat 7%nat + m2 1%nat 0%nat * m1 0%nat 2%nat * m0 2%nat 9%nat + m2 0%nat 9%nat * m1 2%nat 2%nat * m0 1%nat 0%nat + m2 0%nat 9%nat * m1 2%nat 1%nat * m0 1%nat 1%nat + m2 0%nat 9%nat * m1 2%nat 0%nat * m0 1%nat 2%nat - m2 0%nat 9%nat * m1 1%nat 2%nat * m0 2%nat 0%nat - m2 0%nat 9%nat * m1 1%nat 1%nat * m0 2%nat 1%nat - m2 0%nat 9%nat * m1 1%nat 0%nat * m0 2%nat 2%nat + m2 0%nat 7%nat * m1 2%nat 7%nat * m0 1%nat 0%nat + m2 0%nat 7%nat * m1 2%nat 6%nat * m0 1%nat 1%nat + m2 0%nat 7%nat * m1 2%nat 1%nat * m0 1%nat 6%nat + m2 0%nat 7%nat * m1 2%nat 0%nat * m0 1%nat 7%nat - m2 0%nat 7%nat * m1 1%nat 7%nat * m0 2%nat 0%nat - m2 0%nat 7%nat * m1 1%nat 6%nat * m0 2%nat 1%nat - m2 0%nat 7%nat * m1 1%nat 1%nat * m0 2%nat 6%nat - m2 0%nat 7%nat * m1 1%nat 0%nat * m0 2%nat 7%nat + m2 0%nat 6%nat * m1 2%nat 7%nat * m0 1%nat 1%nat + m2 0%nat 6%nat * m1 2%nat 6%nat * m0 1%nat 2%nat + m2 0%nat 6%nat * m1 2%nat 2%nat * m0 1%nat 6%nat + m2 0%nat 6%nat * m1 2%nat 1%nat * m0 1%nat 7%nat - m2 0%nat 6%nat * m1 1%nat 7%nat * m0 2%nat 1%nat - m2 0%nat 6%nat * m1 1%nat 6%nat * m0 2%nat 2%nat - m2 0%nat 6%nat * m1 1%nat 2%nat * m0 2%nat 6%nat - m2 0%nat 6%nat * m1 1%nat 1%nat * m0 2%nat 7%nat + m2 0%nat 2%nat * m1 2%nat 9%nat * m0 1%nat 0%nat + m2 0%nat 2%nat * m1 2%nat 6%nat * m0 1%nat 6%nat + m2 0%nat 2%nat * m1 2%nat 0%nat * m0 1%nat 9%nat - m2 0%nat 2%nat * m1 1%nat 9%nat * m0 2%nat 0%nat - m2 0%nat 2%nat * m1 1%nat 6%nat * m0 2%nat 6%nat - m2 0%nat 2%nat * m1 1%nat 0%nat * m0 2%nat 9%nat + m2 0%nat 1%nat * m1 2%nat 9%nat * m0 1%nat 1%nat + m2 0%nat 1%nat * m1 2%nat 7%nat * m0 1%nat 6%nat + m2 0%nat 1%nat * m1 2%nat 6%nat * m0 1%nat 7%nat + m2 0%nat 1%nat * m1 2%nat 1%nat * m0 1%nat 9%nat - m2 0%nat 1%nat * m1 1%nat 9%nat * m0 2%nat 1%nat - m2 0%nat 1%nat * m1 1%nat 7%nat * m0 2%nat 6%nat - m2 0%nat 1%nat * m1 1%nat 6%nat * m0 2%nat 7%nat - m2 0%nat 1%nat * m1 1%nat 1%nat * m0 2%nat 9%nat + m2 0%nat 0%nat * m1 2%nat 9%nat * m0 1%nat 2%nat + m2 0%nat 0%nat * m1 2%nat 7%nat * m0 1%nat 7%nat + m2 0%nat 0%nat * m1 2%nat 2%nat * m0 1%nat 9%nat - m2 0%nat 0%nat * m1 1%nat 9%nat * m0 2%nat 2%nat - m2 0%nat 0%nat * m1 1%nat 7%nat * m0 2%nat 7%nat - m2 0%nat 0%nat * m1 1%nat 2%nat * m0 2%nat 9%nat;
    m2 2%nat 9%nat * m1 1%nat 2%nat * m0 0%nat 1%nat + m2 2%nat 9%nat * m1 1%nat 1%nat * m0 0%nat 2%nat - m2 2%nat 9%nat * m1 0%nat 2%nat * m0 1%nat 1%nat - m2 2%nat 9%nat * m1 0%nat 1%nat * m0 1%nat 2%nat + m2 2%nat 7%nat * m1 1%nat 7%nat * m0 0%nat 1%nat + m2 2%nat 7%nat * m1 1%nat 6%nat * m0 0%nat 2%nat + m2 2%nat 7%nat * m1 1%nat 2%nat * m0 0%nat 6%nat + m2 2%nat 7%nat * m1 1%nat 1%nat * m0 0%nat 7%nat - m2 2%nat 7%nat * m1 0%nat 7%nat * m0 1%nat 1%nat - m2 2%nat 7%nat * m1 0%nat 6%nat * m0 1%nat 2%nat - m2 2%nat 7%nat * m1 0%nat 2%nat * m0 1%nat 6%nat - m2 2%nat 7%nat * m1 0%nat 1%nat * m0 1%nat 7%nat + m2 2%nat 6%nat * m1 1%nat 7%nat * m0 0%nat 2%nat + m2 2%nat 6%nat * m1 1%nat 2%nat * m0 0%nat 7%nat - m2 2%nat 6%nat * m1 0%nat 7%nat * m0 1%nat 2%nat - m2 2%nat 6%nat * m1 0%nat 2%nat * m0 1%nat 7%nat + m2 2%nat 2%nat * m1 1%nat 9%nat * m0 0%nat 1%nat + m2 2%nat 2%nat * m1 1%nat 7%nat * m0 0%nat 6%nat + m2 2%nat 2%nat * m1 1%nat 6%nat * m0 0%nat 7%nat + m2 2%nat 2%nat * m1 1%nat 1%nat * m0 0%nat 9%nat - m2 2%nat 2%nat * m1 0%nat 9%nat * m0 1%nat 1%nat - m2 2%nat 2%nat * m1 0%nat 7%nat * m0 1%nat 6%nat - m2 2%nat 2%nat * m1 0%nat 6%nat * m0 1%nat 7%nat - m2 2%nat 2%nat * m1 0%nat 1%nat * m0 1%nat 9%nat + m2 2%nat 1%nat * m1 1%nat 9%nat * m0 0%nat 2%nat + m2 2%nat 1%nat * m1 1%nat 7%nat * m0 0%nat 7%nat + m2 2%nat 1%nat * m1 1%nat 2%nat * m0 0%nat 9%nat - m2 2%nat 1%nat * m1 0%nat 9%nat * m0 1%nat 2%nat - m2 2%nat 1%nat * m1 0%nat 7%nat * m0 1%nat 7%nat - m2 2%nat 1%nat * m1 0%nat 2%nat * m0 1%nat 9%nat - m2 1%nat 9%nat * m1 2%nat 2%nat * m0 0%nat 1%nat - m2 1%nat 9%nat * m1 2%nat 1%nat * m0 0%nat 2%nat + m2 1%nat 9%nat * m1 0%nat 2%nat * m0 2%nat 1%nat + m2 1%nat 9%nat * m1 0%nat 1%nat * m0 2%nat 2%nat - m2 1%nat 7%nat * m1 2%nat 7%nat * m0 0%nat 1%nat - m2 1%nat 7%nat * m1 2%nat 6%nat * m0 0%nat 2%nat - m2 1%nat 7%nat * m1 2%nat 2%nat * m0 0%nat 6%nat - m2 1%nat 7%nat * m1 2%nat 1%nat * m0 0%nat 7%nat + m2 1%nat 7%nat * m1 0%nat 7%nat * m0 2%nat 1%nat + m2 1%nat 7%nat * m1 0%nat 6%nat * m0 2%nat 2%nat + m2 1%nat 7%nat * m1 0%nat 2%nat * m0 2%nat 6%nat + m2 1%nat 7%nat * m1 0%nat 1%nat * m0 2%nat 7%nat - m2 1%nat 6%nat * m1 2%nat 7%nat * m0 0%nat 2%nat - m2 1%nat 6%nat * m1 2%nat 2%nat * m0 0%nat 7%nat + m2 1%nat 6%nat * m1 0%nat 7%nat * m0 2%nat 2%nat + m2 1%nat 6%nat * m1 0%nat 2%nat * m0 2%nat 7%nat - m2 1%nat 2%nat * m1 2%nat 9%nat * m0 0%nat 1%nat - m2 1%nat 2%nat * m1 2%nat 7%nat * m0 0%nat 6%nat - m2 1%nat 2%nat * m1 2%nat 6%nat * m0 0%nat 7%nat - m2 1%nat 2%nat * m1 2%nat 1%nat * m0 0%nat 9%nat + m2 1%nat 2%nat * m1 0%nat 9%nat * m0 2%nat 1%nat + m2 1%nat 2%nat * m1 0%nat 7%nat * m0 2%nat 6%nat + m2 1%nat 2%nat * m1 0%nat 6%nat * m0 2%nat 7%nat + m2 1%nat 2%nat * m1 0%nat 1%nat * m0 2%nat 9%nat - m2 1%nat 1%nat * m1 2%nat 9%nat * m0 0%nat 2%nat - m2 1%nat 1%nat * m1 2%nat 7%nat * m0 0%nat 7%nat - m2 1%nat 1%nat * m1 2%nat 2%nat * m0 0%nat 9%nat + m2 1%nat 1%nat * m1 0%nat 9%nat * m0 2%nat 2%nat + m2 1%nat 1%nat * m1 0%nat 7%nat * m0 2%nat 7%nat + m2 1%nat 1%nat * m1 0%nat 2%nat * m0 2%nat 9%nat + m2 0%nat 9%nat * m1 2%nat 2%nat * m0 1%nat 1%nat + m2 0%nat 9%nat * m1 2%nat 1%nat * m0 1%nat 2%nat - m2 0%nat 9%nat * m1 1%nat 2%nat * m0 2%nat 1%nat - m2 0%nat 9%nat * m1 1%nat 1%nat * m0 2%nat 2%nat + m2 0%nat 7%nat * m1 2%nat 7%nat * m0 1%nat 1%nat + m2 0%nat 7%nat * m1 2%nat 6%nat * m0 1%nat 2%nat + m2 0%nat 7%nat * m1 2%nat 2%nat * m0 1%nat 6%nat + m2 0%nat 7%nat * m1 2%nat 1%nat * m0 1%nat 7%nat - m2 0%nat 7%nat * m1 1%nat 7%nat * m0 2%nat 1%nat - m2 0%nat 7%nat * m1 1%nat 6%nat * m0 2%nat 2%nat - m2 0%nat 7%nat * m1 1%nat 2%nat * m0 2%nat 6%nat - m2 0%nat 7%nat * m1 1%nat 1%nat * m0 2%nat 7%nat + m2 0%nat 6%nat * m1 2%nat 7%nat * m0 1%nat 2%nat + m2 0%nat 6%nat * m1 2%nat 2%nat * m0 1%nat 7%nat - m2 0%nat 6%nat * m1 1%nat 7%nat * m0 2%nat 2%nat - m2 0%nat 6%nat * m1 1%nat 2%nat * m0 2%nat 7%nat + m2 0%nat 2%nat * m1 2%nat 9%nat * m0 1%nat 1%nat + m2 0%nat 2%nat * m1 2%nat 7%nat * m0 1%nat 6%nat + m2 0%nat 2%nat * m1 2%nat 6%nat * m0 1%nat 7%nat + m2 0%nat 2%nat * m1 2%nat 1%nat * m0 1%nat 9%nat - m2 0%nat 2%nat * m1 1%nat 9%nat * m0 2%nat 1%nat - m2 0%nat 2%nat * m1 1%nat 7%nat * m0 2%nat 6%nat - m2 0%nat 2%nat * m1 1%nat 6%nat * m0 2%nat 7%nat - m2 0%nat 2%nat * m1 1%nat 1%nat * m0 2%nat 9%nat + m2 0%nat 1%nat * m1 2%nat 9%nat * m0 1%nat 2%nat + m2 0%nat 1%nat * m1 2%nat 7%nat * m0 1%nat 7%nat + m2 0%nat 1%nat * m1 2%nat 2%nat * m0 1%nat 9%nat - m2 0%nat 1%nat * m1 1%nat 9%nat * m0 2%nat 2%nat - m2 0%nat 1%nat * m1 1%nat 7%nat * m0 2%nat 7%nat - m2 0%nat 1%nat * m1 1%nat 2%nat * m0 2%nat 9%nat;
    m2 2%nat 9%nat * m1 1%nat 2%nat * m0 0%nat 2%nat - m2 2%nat 9%nat * m1 0%nat 2%nat * m0 1%nat 2%nat + m2 2%nat 7%nat * m1 1%nat 7%nat * m0 0%nat 2%nat + m2 2%nat 7%nat * m1 1%nat 2%nat * m0 0%nat 7%nat - m2 2%nat 7%nat * m1 0%nat 7%nat * m0 1%nat 2%nat - m2 2%nat 7%nat * m1 0%nat 2%nat * m0 1%nat 7%nat + m2 2%nat 2%nat * m1 1%nat 9%nat * m0 0%nat 2%nat + m2 2%nat 2%nat * m1 1%nat 7%nat * m0 0%nat 7%nat + m2 2%nat 2%nat * m1 1%nat 2%nat * m0 0%nat 9%nat - m2 2%nat 2%nat * m1 0%nat 9%nat * m0 1%nat 2%nat - m2 2%nat 2%nat * m1 0%nat 7%nat * m0 1%nat 7%nat - m2 2%nat 2%nat * m1 0%nat 2%nat * m0 1%nat 9%nat - m2 1%nat 9%nat * m1 2%nat 2%nat * m0 0%nat 2%nat + m2 1%nat 9%nat * m1 0%nat 2%nat * m0 2%nat 2%nat - m2 1%nat 7%nat * m1 2%nat 7%nat * m0 0%nat 2%nat - m2 1%nat 7%nat * m1 2%nat 2%nat * m0 0%nat 7%nat + m2 1%nat 7%nat * m1 0%nat 7%nat * m0 2%nat 2%nat + m2 1%nat 7%nat * m1 0%nat 2%nat * m0 2%nat 7%nat - m2 1%nat 2%nat * m1 2%nat 9%nat * m0 0%nat 2%nat - m2 1%nat 2%nat * m1 2%nat 7%nat * m0 0%nat 7%nat - m2 1%nat 2%nat * m1 2%nat 2%nat * m0 0%nat 9%nat + m2 1%nat 2%nat * m1 0%nat 9%nat * m0 2%nat 2%nat + m2 1%nat 2%nat * m1 0%nat 7%nat * m0 2%nat 7%nat + m2 1%nat 2%nat * m1 0%nat 2%nat * m0 2%nat 9%nat + m2 0%nat 9%nat * m1 2%nat 2%nat * m0 1%nat 2%nat - m2 0%nat 9%nat * m1 1%nat 2%nat * m0 2%nat 2%nat + m2 0%nat 7%nat * m1 2%nat 7%nat * m0 1%nat 2%nat + m2 0%nat 7%nat * m1 2%nat 2%nat * m0 1%nat 7%nat - m2 0%nat 7%nat * m1 1%nat 7%nat * m0 2%nat 2%nat - m2 0%nat 7%nat * m1 1%nat 2%nat * m0 2%nat 7%nat + m2 0%nat 2%nat * m1 2%nat 9%nat * m0 1%nat 2%nat + m2 0%nat 2%nat * m1 2%nat 7%nat * m0 1%nat 7%nat + m2 0%nat 2%nat * m1 2%nat 2%nat * m0 1%nat 9%nat - m2 0%nat 2%nat * m1 1%nat 9%nat * m0 2%nat 2%nat - m2 0%nat 2%nat * m1 1%nat 7%nat * m0 2%nat 7%nat - m2 0%nat 2%nat * m1 1%nat 2%nat * m0 2%nat 9%nat;
    m2 2%nat 9%nat * m1 1%nat 3%nat * m0 0%nat 0%nat + m2 2%nat 9%nat * m1 1%nat 0%nat * m0 0%nat 3%nat - m2 2%nat 9%nat * m1 0%nat 3%nat * m0 1%nat 0%nat - m2 2%nat 9%nat * m1 0%nat 0%nat * m0 1%nat 3%nat + m2 2%nat 8%nat * m1 1%nat 6%nat * m0 0%nat 0%nat + m2 2%nat 8%nat * m1 1%nat 0%nat * m0 0%nat 6%nat - m2 2%nat 8%nat * m1 0%nat 6%nat * m0 1%nat 0%nat - m2 2%nat 8%nat * m1 0%nat 0%nat * m0 1%nat 6%nat + m2 2%nat 6%nat * m1 1%nat 8%nat * m0 0%nat 0%nat + m2 2%nat 6%nat * m1 1%nat 6%nat * m0 0%nat 3%nat + m2 2%nat 6%nat * m1 1%nat 3%nat * m0 0%nat 6%nat + m2 2%nat 6%nat * m1 1%nat 0%nat * m0 0%nat 8%nat - m2 2%nat 6%nat * m1 0%nat 8%nat * m0 1%nat 0%nat - m2 2%nat 6%nat * m1 0%nat 6%nat * m0 1%nat 3%nat - m2 2%nat 6%nat * m1 0%nat 3%nat * m0 1%nat 6%nat - m2 2%nat 6%nat * m1 0%nat 0%nat * m0 1%nat 8%nat + m2 2%nat 3%nat * m1 1%nat 9%nat * m0 0%nat 0%nat + m2 2%nat 3%nat * m1 1%nat 6%nat * m0 0%nat 6%nat + m2 2%nat 3%nat * m1 1%nat 0%nat * m0 0%nat 9%nat - m2 2%nat 3%nat * m1 0%nat 9%nat * m0 1%nat 0%nat - m2 2%nat 3%nat * m1 0%nat 6%nat * m0 1%nat 6%nat - m2 2%nat 3%nat * m1 0%nat 0%nat * m0 1%nat 9%nat + m2 2%nat 0%nat * m1 1%nat 9%nat * m0 0%nat 3%nat + m2 2%nat 0%nat * m1 1%nat 8%nat * m0 0%nat 6%nat + m2 2%nat 0%nat * m1 1%nat 6%nat * m0 0%nat 8%nat + m2 2%nat 0%nat * m1 1%nat 3%nat * m0 0%nat 9%nat - m2 2%nat 0%nat * m1 0%nat 9%nat * m0 1%nat 3%nat - m2 2%nat 0%nat * m1 0%nat 8%nat * m0 1%nat 6%nat - m2 2%nat 0%nat * m1 0%nat 6%nat * m0 1%nat 8%nat - m2 2%nat 0%nat * m1 0%nat 3%nat * m0 1%nat 9%nat - m2 1%nat 9%nat * m1 2%nat 3%nat * m0 0%nat 0%nat - m2 1%nat 9%nat * m1 2%nat 0%nat * m0 0%nat 3%nat + m2 1%nat 9%nat * m1 0%nat 3%nat * m0 2%nat 0%nat + m2 1%nat 9%nat * m1 0%nat 0%nat * m0 2%nat 3%nat - m2 1%nat 8%nat * m1 2%nat 6%nat * m0 0%nat 0%nat - m2 1%nat 8%nat * m1 2%nat 0%nat * m0 0%nat 6%nat + m2 1%nat 8%nat * m1 0%nat 6%nat * m0 2%nat 0%nat + m2 1%nat 8%nat * m1 0%nat 0%nat * m0 2%nat 6%nat - m2 1%nat 6%nat * m1 2%nat 8%nat * m0 0%nat 0%nat - m2 1%nat 6%nat * m1 2%nat 6%nat * m0 0%nat 3%nat - m2 1%nat 6%nat * m1 2%nat 3%nat * m0 0%nat 6%nat - m2 1%nat 6%nat * m1 2%nat 0%nat * m0 0%nat 8%nat + m2 1%nat 6%nat * m1 0%nat 8%nat * m0 2%nat 0%nat + m2 1%nat 6%nat * m1 0%nat 6%nat * m0 2%nat 3%nat + m2 1%nat 6%nat * m1 0%nat 3%nat * m0 2%nat 6%nat + m2 1%nat 6%nat * m1 0%nat 0%nat * m0 2%nat 8%nat - m2 1%nat 3%nat * m1 2%nat 9%nat * m0 0%nat 0%nat - m2 1%nat 3%nat * m1 2%nat 6%nat * m0 0%nat 6%nat - m2 1%nat 3%nat * m1 2%nat 0%nat * m0 0%nat 9%nat + m2 1%nat 3%nat * m1 0%nat 9%nat * m0 2%nat 0%nat + m2 1%nat 3%nat * m1 0%nat 6%nat * m0 2%nat 6%nat + m2 1%nat 3%nat * m1 0%nat 0%nat * m0 2%nat 9%nat - m2 1%nat 0%nat * m1 2%nat 9%nat * m0 0%nat 3%nat - m2 1%nat 0%nat * m1 2%nat 8%nat * m0 0%nat 6%nat - m2 1%nat 0%nat * m1 2%nat 6%nat * m0 0%nat 8%nat - m2 1%nat 0%nat * m1 2%nat 3%nat * m0 0%nat 9%nat + m2 1%nat 0%nat * m1 0%nat 9%nat * m0 2%nat 3%nat + m2 1%nat 0%nat * m1 0%nat 8%nat * m0 2%nat 6%nat + m2 1%nat 0%nat * m1 0%nat 6%nat * m0 2%nat 8%nat + m2 1%nat 0%nat * m1 0%nat 3%nat * m0 2%nat 9%nat + m2 0%nat 9%nat * m1 2%nat 3%nat * m0 1%nat 0%nat + m2 0%nat 9%nat * m1 2%nat 0%nat * m0 1%nat 3%nat - m2 0%nat 9%nat * m1 1%nat 3%nat * m0 2%nat 0%nat - m2 0%nat 9%nat * m1 1%nat 0%nat * m0 2%nat 3%nat + m2 0%nat 8%nat * m1 2%nat 6%nat * m0 1%nat 0%nat + m2 0%nat 8%nat * m1 2%nat 0%nat * m0 1%nat 6%nat - m2 0%nat 8%nat * m1 1%nat 6%nat * m0 2%nat 0%nat - m2 0%nat 8%nat * m1 1%nat 0%nat * m0 2%nat 6%nat + m2 0%nat 6%nat * m1 2%nat 8%nat * m0 1%nat 0%nat + m2 0%nat 6%nat * m1 2%nat 6%nat * m0 1%nat 3%nat + m2 0%nat 6%nat * m1 2%nat 3%nat * m0 1%nat 6%nat + m2 0%nat 6%nat * m1 2%nat 0%nat * m0 1%nat 8%nat - m2 0%nat 6%nat * m1 1%nat 8%nat * m0 2%nat 0%nat - m2 0%nat 6%nat * m1 1%nat 6%nat * m0 2%nat 3%nat - m2 0%nat 6%nat * m1 1%nat 3%nat * m0 2%nat 6%nat - m2 0%nat 6%nat * m1 1%nat 0%nat * m0 2%nat 8%nat + m2 0%nat 3%nat * m1 2%nat 9%nat * m0 1%nat 0%nat + m2 0%nat 3%nat * m1 2%nat 6%nat * m0 1%nat 6%nat + m2 0%nat 3%nat * m1 2%nat 0%nat * m0 1%nat 9%nat - m2 0%nat 3%nat * m1 1%nat 9%nat * m0 2%nat 0%nat - m2 0%nat 3%nat * m1 1%nat 6%nat * m0 2%nat 6%nat - m2 0%nat 3%nat * m1 1%nat 0%nat * m0 2%nat 9%nat + m2 0%nat 0%nat * m1 2%nat 9%nat * m0 1%nat 3%nat + m2 0%nat 0%nat * m1 2%nat 8%nat * m0 1%nat 6%nat + m2 0%nat 0%nat * m1 2%nat 6%nat * m0 1%nat 8%nat + m2 0%nat 0%nat * m1 2%nat 3%nat * m0 1%nat 9%nat - m2 0%nat 0%nat * m1 1%nat 9%nat * m0 2%nat 3%nat - m2 0%nat 0%nat * m1 1%nat 8%nat * m0 2%nat 6%nat - m2 0%nat 0%nat * m1 1%nat 6%nat * m0 2%nat 8%nat - m2 0%nat 0%nat * m1 1%nat 3%nat * m0 2%nat 9%nat;
    m2 2%nat 9%nat * m1 1%nat 4%nat * m0 0%nat 0%nat + m2 2%nat 9%nat * m1 1%nat 3%nat * m0 0%nat 1%nat + m2 2%nat 9%nat * m1 1%nat 1%nat * m0 0%nat 3%nat + m2 2%nat 9%nat * m1 1%nat 0%nat * m0 0%nat 4%nat - m2 2%nat 9%nat * m1 0%nat 4%nat * m0 1%nat 0%nat - m2 2%nat 9%nat * m1 0%nat 3%nat * m0 1%nat 1%nat - m2 2%nat 9%nat * m1 0%nat 1%nat * m0 1%nat 3%nat - m2 2%nat 9%nat * m1 0%nat 0%nat * m0 1%nat 4%nat + m2 2%nat 8%nat * m1 1%nat 7%nat * m0 0%nat 0%nat + m2 2%nat 8%nat * m1 1%nat 6%nat * m0 0%nat 1%nat + m2 2%nat 8%nat * m1 1%nat 1%nat * m0 0%nat 6%nat + m2 2%nat 8%nat * m1 1%nat 0%nat * m0 0%nat 7%nat - m2 2%nat 8%nat * m1 0%nat 7%nat * m0 1%nat 0%nat - m2 2%nat 8%nat * m1 0%nat 6%nat * m0 1%nat 1%nat - m2 2%nat 8%nat * m1 0%nat 1%nat * m0 1%nat 6%nat - m2 2%nat 8%nat * m1 0%nat 0%nat * m0 1%nat 7%nat + m2 2%nat 7%nat * m1 1%nat 8%nat * m0 0%nat 0%nat + m2 2%nat 7%nat * m1 1%nat 6%nat * m0 0%nat 3%nat + m2 2%nat 7%nat * m1 1%nat 3%nat * m0 0%nat 6%nat + m2 2%nat 7%nat * m1 1%nat 0%nat * m0 0%nat 8%nat - m2 2%nat 7%nat * m1 0%nat 8%nat * m0 1%nat 0%nat - m2 2%nat 7%nat * m1 0%nat 6%nat * m0 1%nat 3%nat - m2 2%nat 7%nat * m1 0%nat 3%nat * m0 1%nat 6%nat - m2 2%nat 7%nat * m1 0%nat 0%nat * m0 1%nat 8%nat + m2 2%nat 6%nat * m1 1%nat 8%nat * m0 0%nat 1%nat + m2 2%nat 6%nat * m1 1%nat 7%nat * m0 0%nat 3%nat + m2 2%nat 6%nat * m1 1%nat 6%nat * m0 0%nat 4%nat + m2 2%nat 6%nat * m1 1%nat 4%nat * m0 0%nat 6%nat + m2 2%nat 6%nat * m1 1%nat 3%nat * m0 0%nat 7%nat + m2 2%nat 6%nat * m1 1%nat 1%nat * m0 0%nat 8%nat - m2 2%nat 6%nat * m1 0%nat 8%nat * m0 1%nat 1%nat - m2 2%nat 6%nat * m1 0%nat 7%nat * m0 1%nat 3%nat - m2 2%nat 6%nat * m1 0%nat 6%nat * m0 1%nat 4%nat - m2 2%nat 6%nat * m1 0%nat 4%nat * m0 1%nat 6%nat - m2 2%nat 6%nat * m1 0%nat 3%nat * m0 1%nat 7%nat - m2 2%nat 6%nat * m1 0%nat 1%nat * m0 1%nat 8%nat + m2 2%nat 4%nat * m1 1%nat 9%nat * m0 0%nat 0%nat + m2 2%nat 4%nat * m1 1%nat 6%nat * m0 0%nat 6%nat + m2 2%nat 4%nat * m1 1%nat 0%nat * m0 0%nat 9%nat - m2 2%nat 4%nat * m1 0%nat 9%nat * m0 1%nat 0%nat - m2 2%nat 4%nat * m1 0%nat 6%nat * m0 1%nat 6%nat - m2 2%nat 4%nat * m1 0%nat 0%nat * m0 1%nat 9%nat + m2 2%nat 3%nat * m1 1%nat 9%nat * m0 0%nat 1%nat + m2 2%nat 3%nat * m1 1%nat 7%nat * m0 0%nat 6%nat + m2 2%nat 3%nat * m1 1%nat 6%nat * m0 0%nat 7%nat + m2 2%nat 3%nat * m1 1%nat 1%nat * m0 0%nat 9%nat - m2 2%nat 3%nat * m1 0%nat 9%nat * m0 1%nat 1%nat - m2 2%nat 3%nat * m1 0%nat 7%nat * m0 1%nat 6%nat - m2 2%nat 3%nat * m1 0%nat 6%nat * m0 1%nat 7%nat - m2 2%nat 3%nat * m1 0%nat 1%nat * m0 1%nat 9%nat + m2 2%nat 1%nat * m1 1%nat 9%nat * m0 0%nat 3%nat + m2 2%nat 1%nat * m1 1%nat 8%nat * m0 0%nat 6%nat + m2 2%nat 1%nat * m1 1%nat 6%nat * m0 0%nat 8%nat + m2 2%nat 1%nat * m1 1%nat 3%nat * m0 0%nat 9%nat - m2 2%nat 1%nat * m1 0%nat 9%nat * m0 1%nat 3%nat - m2 2%nat 1%nat * m1 0%nat 8%nat * m0 1%nat 6%nat - m2 2%nat 1%nat * m1 0%nat 6%nat * m0 1%nat 8%nat - m2 2%nat 1%nat * m1 0%nat 3%nat * m0 1%nat 9%nat + m2 2%nat 0%nat * m1 1%nat 9%nat * m0 0%nat 4%nat + m2 2%nat 0%nat * m1 1%nat 8%nat * m0 0%nat 7%nat + m2 2%nat 0%nat * m1 1%nat 7%nat * m0 0%nat 8%nat + m2 2%nat 0%nat * m1 1%nat 4%nat * m0 0%nat 9%nat - m2 2%nat 0%nat * m1 0%nat 9%nat * m0 1%nat 4%nat - m2 2%nat 0%nat * m1 0%nat 8%nat * m0 1%nat 7%nat - m2 2%nat 0%nat * m1 0%nat 7%nat * m0 1%nat 8%nat - m2 2%nat 0%nat * m1 0%nat 4%nat * m0 1%nat 9%nat - m2 1%nat 9%nat * m1 2%nat 4%nat * m0 0%nat 0%nat - m2 1%nat 9%nat * m1 2%nat 3%nat * m0 0%nat 1%nat - m2 1%nat 9%nat * m1 2%nat 1%nat * m0 0%nat 3%nat - m2 1%nat 9%nat * m1 2%nat 0%nat * m0 0%nat 4%nat + m2 1%nat 9%nat * m1 0%nat 4%nat * m0 2%nat 0%nat + m2 1%nat 9%nat * m1 0%nat 3%nat * m0 2%nat 1%nat + m2 1%nat 9%nat * m1 0%nat 1%nat * m0 2%nat 3%nat + m2 1%nat 9%nat * m1 0%nat 0%nat * m0 2%nat 4%nat - m2 1%nat 8%nat * m1 2%nat 7%nat * m0 0%nat 0%nat - m2 1%nat 8%nat * m1 2%nat 6%nat * m0 0%nat 1%nat - m2 1%nat 8%nat * m1 2%nat 1%nat * m0 0%nat 6%nat - m2 1%nat 8%nat * m1 2%nat 0%nat * m0 0%nat 7%nat + m2 1%nat 8%nat * m1 0%nat 7%nat * m0 2%nat 0%nat + m2 1%nat 8%nat * m1 0%nat 6%nat * m0 2%nat 1%nat + m2 1%nat 8%nat * m1 0%nat 1%nat * m0 2%nat 6%nat + m2 1%nat 8%nat * m1 0%nat 0%nat * m0 2%nat 7%nat - m2 1%nat 7%nat * m1 2%nat 8%nat * m0 0%nat 0%nat - m2 1%nat 7%nat * m1 2%nat 6%nat * m0 0%nat 3%nat - m2 1%nat 7%nat * m1 2%nat 3%nat * m0 0%nat 6%nat - m2 1%nat 7%nat * m1 2%nat 0%nat * m0 0%nat 8%nat + m2 1%nat 7%nat * m1 0%nat 8%nat * m0 2%nat 0%nat + m2 1%nat 7%nat * m1 0%nat 6%nat * m0 2%nat 3%nat + m2 1%nat 7%nat * m1 0%nat 3%nat * m0 2%nat 6%nat + m2 1%nat 7%nat * m1 0%nat 0%nat * m0 2%nat 8%nat - m2 1%nat 6%nat * m1 2%nat 8%nat * m0 0%nat 1%nat - m2 1%nat 6%nat * m1 2%nat 7%nat * m0 0%nat 3%nat - m2 1%nat 6%nat * m1 2%nat 6%nat * m0 0%nat 4%nat - m2 1%nat 6%nat * m1 2%nat 4%nat * m0 0%nat 6%nat - m2 1%nat 6%nat * m1 2%nat 3%nat * m0 0%nat 7%nat - m2 1%nat 6%nat * m1 2%nat 1%nat * m0 0%nat 8%nat + m2 1%nat 6%nat * m1 0%nat 8%nat * m0 2%nat 1%nat + m2 1%nat 6%nat * m1 0%nat 7%nat * m0 2%nat 3%nat + m2 1%nat 6%nat * m1 0%nat 6%nat * m0 2%nat 4%nat + m2 1%nat 6%nat * m1 0%nat 4%nat * m0 2%nat 6%nat + m2 1%nat 6%nat * m1 0%nat 3%nat * m0 2%nat 7%nat + m2 1%nat 6%nat * m1 0%nat 1%nat * m0 2%nat 8%nat - m2 1%nat 4%nat * m1 2%nat 9%nat * m0 0%nat 0%nat - m2 1%nat 4%nat * m1 2%nat 6%nat * m0 0%nat 6%nat - m2 1%nat 4%nat * m1 2%nat 0%nat * m0 0%nat 9%nat + m2 1%nat 4%nat * m1 0%nat 9%nat * m0 2%nat 0%nat + m2 1%nat 4%nat * m1 0%nat 6%nat * m0 2%nat 6%nat + m2 1%nat 4%nat * m1 0%nat 0%nat * m0 2%nat 9%nat - m2 1%nat 3%nat * m1 2%nat 9%nat * m0 0%nat 1%nat - m2 1%nat 3%nat * m1 2%nat 7%nat * m0 0%nat 6%nat - m2 1%nat 3%nat * m1 2%nat 6%nat * m0 0%nat 7%nat - m2 1%nat 3%nat * m1 2%nat 1%nat * m0 0%nat 9%nat + m2 1%nat 3%nat * m1 0%nat 9%nat * m0 2%nat 1%nat + m2 1%nat 3%nat * m1 0%nat 7%nat * m0 2%nat 6%nat + m2 1%nat 3%nat * m1 0%nat 6%nat * m0 2%nat 7%nat + m2 1%nat 3%nat * m1 0%nat 1%nat * m0 2%nat 9%nat - m2 1%nat 1%nat * m1 2%nat 9%nat * m0 0%nat 3%nat - m2 1%nat 1%nat * m1 2%nat 8%nat * m0 0%nat 6%nat - m2 1%nat 1%nat * m1 2%nat 6%nat * m0 0%nat 8%nat - m2 1%nat 1%nat * m1 2%nat 3%nat * m0 0%nat 9%nat + m2 1%nat 1%nat * m1 0%nat 9%nat * m0 2%nat 3%nat + m2 1%nat 1%nat * m1 0%nat 8%nat * m0 2%nat 6%nat + m2 1%nat 1%nat * m1 0%nat 6%nat * m0 2%nat 8%nat + m2 1%nat 1%nat * m1 0%nat 3%nat * m0 2%nat 9%nat - m2 1%nat 0%nat * m1 2%nat 9%nat * m0 0%nat 4%nat - m2 1%nat 0%nat * m1 2%nat 8%nat * m0 0%nat 7%nat - m2 1%nat 0%nat * m1 2%nat 7%nat * m0 0%nat 8%nat - m2 1%nat 0%nat * m1 2%nat 4%nat * m0 0%nat 9%nat + m2 1%nat 0%nat * m1 0%nat 9%nat * m0 2%nat 4%nat + m2 1%nat 0%nat * m1 0%nat 8%nat * m0 2%nat 7%nat + m2 1%nat 0%nat * m1 0%nat 7%nat * m0 2%nat 8%nat + m2 1%nat 0%nat * m1 0%nat 4%nat * m0 2%nat 9%nat + m2 0%nat 9%nat * m1 2%nat 4%nat * m0 1%nat 0%nat + m2 0%nat 9%nat * m1 2%nat 3%nat * m0 1%nat 1%nat + m2 0%nat 9%nat * m1 2%nat 1%nat * m0 1%nat 3%nat + m2 0%nat 9%nat * m1 2%nat 0%nat * m0 1%nat 4%nat - m2 0%nat 9%nat * m1 1%nat 4%nat * m0 2%nat 0%nat - m2 0%nat 9%nat * m1 1%nat 3%nat * m0 2%nat 1%nat - m2 0%nat 9%nat * m1 1%nat 1%nat * m0 2%nat 3%nat - m2 0%nat 9%nat * m1 1%nat 0%nat * m0 2%nat 4%nat + m2 0%nat 8%nat * m1 2%nat 7%nat * m0 1%nat 0%nat + m2 0%nat 8%nat * m1 2%nat 6%nat * m0 1%nat 1%nat + m2 0%nat 8%nat * m1 2%nat 1%nat * m0 1%nat 6%nat + m2 0%nat 8%nat * m1 2%nat 0%nat * m0 1%nat 7%nat - m2 0%nat 8%nat * m1 1%nat 7%nat * m0 2%nat 0%nat - m2 0%nat 8%nat * m1 1%nat 6%nat * m0 2%nat 1%nat - m2 0%nat 8%nat * m1 1%nat 1%nat * m0 2%nat 6%nat - m2 0%nat 8%nat * m1 1%nat 0%nat * m0 2%nat 7%nat + m2 0%nat 7%nat * m1 2%nat 8%nat * m0 1%nat 0%nat + m2 0%nat 7%nat * m1 2%nat 6%nat * m0 1%nat 3%nat + m2 0%nat 7%nat * m1 2%nat 3%nat * m0 1%nat 6%nat + m2 0%nat 7%nat * m1 2%nat 0%nat * m0 1%nat 8%nat - m2 0%nat 7%nat * m1 1%nat 8%nat * m0 2%nat 0%nat - m2 0%nat 7%nat * m1 1%nat 6%nat * m0 2%nat 3%nat - m2 0%nat 7%nat * m1 1%nat 3%nat * m0 2%nat 6%nat - m2 0%nat 7%nat * m1 1%nat 0%nat * m0 2%nat 8%nat + m2 0%nat 6%nat * m1 2%nat 8%nat * m0 1%nat 1%nat + m2 0%nat 6%nat * m1 2%nat 7%nat * m0 1%nat 3%nat + m2 0%nat 6%nat * m1 2%nat 6%nat * m0 1%nat 4%nat + m2 0%nat 6%nat * m1 2%nat 4%nat * m0 1%nat 6%nat + m2 0%nat 6%nat * m1 2%nat 3%nat * m0 1%nat 7%nat + m2 0%nat 6%nat * m1 2%nat 1%nat * m0 1%nat 8%nat - m2 0%nat 6%nat * m1 1%nat 8%nat * m0 2%nat 1%nat - m2 0%nat 6%nat * m1 1%nat 7%nat * m0 2%nat 3%nat - m2 0%nat 6%nat * m1 1%nat 6%nat * m0 2%nat 4%nat - m2 0%nat 6%nat * m1 1%nat 4%nat * m0 2%nat 6%nat - m2 0%nat 6%nat * m1 1%nat 3%nat * m0 2%nat 7%nat - m2 0%nat 6%nat * m1 1%nat 1%nat * m0 2%nat 8%nat + m2 0%nat 4%nat * m1 2%nat 9%nat * m0 1%nat 0%nat + m2 0%nat 4%nat * m1 2%nat 6%nat * m0 1%nat 6%nat + m2 0%nat 4%nat * m1 2%nat 0%nat * m0 1%nat 9%nat - m2 0%nat 4%nat * m1 1%nat 9%nat * m0 2%nat 0%nat - m2 0%nat 4%nat * m1 1%nat 6%nat * m0 2%nat 6%nat - m2 0%nat 4%nat * m1 1%nat 0%nat * m0 2%nat 9%nat + m2 0%nat 3%nat * m1 2%nat 9%nat * m0 1%nat 1%nat + m2 0%nat 3%nat * m1 2%nat 7%nat * m0 1%nat 6%nat + m2 0%nat 3%nat * m1 2%nat 6%nat * m0 1%nat 7%nat + m2 0%nat 3%nat * m1 2%nat 1%nat * m0 1%nat 9%nat - m2 0%nat 3%nat * m1 1%nat 9%nat * m0 2%nat 1%nat - m2 0%nat 3%nat * m1 1%nat 7%nat * m0 2%nat 6%nat - m2 0%nat 3%nat * m1 1%nat 6%nat * m0 2%nat 7%nat - m2 0%nat 3%nat * m1 1%nat 1%nat * m0 2%nat 9%nat + m2 0%nat 1%nat * m1 2%nat 9%nat * m0 1%nat 3%nat + m2 0%nat 1%nat * m1 2%nat 8%nat * m0 1%nat 6%nat + m2 0%nat 1%nat * m1 2%nat 6%nat * m0 1%nat 8%nat + m2 0%nat 1%nat * m1 2%nat 3%nat * m0 1%nat 9%nat - m2 0%nat 1%nat * m1 1%nat 9%nat * m0 2%nat 3%nat - m2 0%nat 1%nat * m1 1%nat 8%nat * m0 2%nat 6%nat - m2 0%nat 1%nat * m1 1%nat 6%nat * m0 2%nat 8%nat - m2 0%nat 1%nat * m1 1%nat 3%nat * m0 2%nat 9%nat + m2 0%nat 0%nat * m1 2%nat 9%nat * m0 1%nat 4%nat + m2 0%nat 0%nat * m1 2%nat 8%nat * m0 1%nat 7%nat + m2 0%nat 0%nat * m1 2%nat 7%nat * m0 1%nat 8%nat + m2 0%nat 0%nat * m1 2%nat 4%nat * m0 1%nat 9%nat - m2 0%nat 0%nat * m1 1%nat 9%nat * m0 2%nat 4%nat - m2 0%nat 0%nat * m1 1%nat 8%nat * m0 2%nat 7%nat - m2 0%nat 0%nat * m1 1%nat 7%nat * m0 2%nat 8%nat - m2 0%nat 0%nat * m1 1%nat 4%nat * m0 2%nat 9%nat;
    m2 2%nat 9%nat * m1 1%nat 4%nat * m0 0%nat 1%nat + m2 2%nat 9%nat * m1 1%nat 3%nat * m0 0%nat 2%nat + m2 2%nat 9%nat * m1 1%nat 2%nat * m0 0%nat 3%nat + m2 2%nat 9%nat * m1 1%nat 1%nat * m0 0%nat 4%nat - m2 2%nat 9%nat * m1 0%nat 4%nat * m0 1%nat 1%nat - m2 2%nat 9%nat * m1 0%nat 3%nat * m0 1%nat 2%nat - m2 2%nat 9%nat * m1 0%nat 2%nat * m0 1%nat 3%nat - m2 2%nat 9%nat * m1 0%nat 1%nat * m0 1%nat 4%nat + m2 2%nat 8%nat * m1 1%nat 7%nat * m0 0%nat 1%nat + m2 2%nat 8%nat * m1 1%nat 6%nat * m0 0%nat 2%nat + m2 2%nat 8%nat * m1 1%nat 2%nat * m0 0%nat 6%nat + m2 2%nat 8%nat * m1 1%nat 1%nat * m0 0%nat 7%nat - m2 2%nat 8%nat * m1 0%nat 7%nat * m0 1%nat 1%nat - m2 2%nat 8%nat * m1 0%nat 6%nat * m0 1%nat 2%nat - m2 2%nat 8%nat * m1 0%nat 2%nat * m0 1%nat 6%nat - m2 2%nat 8%nat * m1 0%nat 1%nat * m0 1%nat 7%nat + m2 2%nat 7%nat * m1 1%nat 8%nat * m0 0%nat 1%nat + m2 2%nat 7%nat * m1 1%nat 7%nat * m0 0%nat 3%nat + m2 2%nat 7%nat * m1 1%nat 6%nat * m0 0%nat 4%nat + m2 2%nat 7%nat * m1 1%nat 4%nat * m0 0%nat 6%nat + m2 2%nat 7%nat * m1 1%nat 3%nat * m0 0%nat 7%nat + m2 2%nat 7%nat * m1 1%nat 1%nat * m0 0%nat 8%nat - m2 2%nat 7%nat * m1 0%nat 8%nat * m0 1%nat 1%nat - m2 2%nat 7%nat * m1 0%nat 7%nat * m0 1%nat 3%nat - m2 2%nat 7%nat * m1 0%nat 6%nat * m0 1%nat 4%nat - m2 2%nat 7%nat * m1 0%nat 4%nat * m0 1%nat 6%nat - m2 2%nat 7%nat * m1 0%nat 3%nat * m0 1%nat 7%nat - m2 2%nat 7%nat * m1 0%nat 1%nat * m0 1%nat 8%nat + m2 2%nat 6%nat * m1 1%nat 8%nat * m0 0%nat 2%nat + m2 2%nat 6%nat * m1 1%nat 7%nat * m0 0%nat 4%nat + m2 2%nat 6%nat * m1 1%nat 4%nat * m0 0%nat 7%nat + m2 2%nat 6%nat * m1 1%nat 2%nat * m0 0%nat 8%nat - m2 2%nat 6%nat * m1 0%nat 8%nat * m0 1%nat 2%nat - m2 2%nat 6%nat * m1 0%nat 7%nat * m0 1%nat 4%nat - m2 2%nat 6%nat * m1 0%nat 4%nat * m0 1%nat 7%nat - m2 2%nat 6%nat * m1 0%nat 2%nat * m0 1%nat 8%nat + m2 2%nat 4%nat * m1 1%nat 9%nat * m0 0%nat 1%nat + m2 2%nat 4%nat * m1 1%nat 7%nat * m0 0%nat 6%nat + m2 2%nat 4%nat * m1 1%nat 6%nat * m0 0%nat 7%nat + m2 2%nat 4%nat * m1 1%nat 1%nat * m0 0%nat 9%nat - m2 2%nat 4%nat * m1 0%nat 9%nat * m0 1%nat 1%nat - m2 2%nat 4%nat * m1 0%nat 7%nat * m0 1%nat 6%nat - m2 2%nat 4%nat * m1 0%nat 6%nat * m0 1%nat 7%nat - m2 2%nat 4%nat * m1 0%nat 1%nat * m0 1%nat 9%nat + m2 2%nat 3%nat * m1 1%nat 9%nat * m0 0%nat 2%nat + m2 2%nat 3%nat * m1 1%nat 7%nat * m0 0%nat 7%nat + m2 2%nat 3%nat * m1 1%nat 2%nat * m0 0%nat 9%nat - m2 2%nat 3%nat * m1 0%nat 9%nat * m0 1%nat 2%nat - m2 2%nat 3%nat * m1 0%nat 7%nat * m0 1%nat 7%nat - m2 2%nat 3%nat * m1 0%nat 2%nat * m0 1%nat 9%nat + m2 2%nat 2%nat * m1 1%nat 9%nat * m0 0%nat 3%nat + m2 2%nat 2%nat * m1 1%nat 8%nat * m0 0%nat 6%nat + m2 2%nat 2%nat * m1 1%nat 6%nat * m0 0%nat 8%nat + m2 2%nat 2%nat * m1 1%nat 3%nat * m0 0%nat 9%nat - m2 2%nat 2%nat * m1 0%nat 9%nat * m0 1%nat 3%nat - m2 2%nat 2%nat * m1 0%nat 8%nat * m0 1%nat 6%nat - m2 2%nat 2%nat * m1 0%nat 6%nat * m0 1%nat 8%nat - m2 2%nat 2%nat * m1 0%nat 3%nat * m0 1%nat 9%nat + m2 2%nat 1%nat * m1 1%nat 9%nat * m0 0%nat 4%nat + m2 2%nat 1%nat * m1 1%nat 8%nat * m0 0%nat 7%nat + m2 2%nat 1%nat * m1 1%nat 7%nat * m0 0%nat 8%nat + m2 2%nat 1%nat * m1 1%nat 4%nat * m0 0%nat 9%nat - m2 2%nat 1%nat * m1 0%nat 9%nat * m0 1%nat 4%nat - m2 2%nat 1%nat * m1 0%nat 8%nat * m0 1%nat 7%nat - m2 2%nat 1%nat * m1 0%nat 7%nat * m0 1%nat 8%nat - m2 2%nat 1%nat * m1 0%nat 4%nat * m0 1%nat 9%nat - m2 1%nat 9%nat * m1 2%nat 4%nat * m0 0%nat 1%nat - m2 1%nat 9%nat * m1 2%nat 3%nat * m0 0%nat 2%nat - m2 1%nat 9%nat * m1 2%nat 2%nat * m0 0%nat 3%nat - m2 1%nat 9%nat * m1 2%nat 1%nat * m0 0%nat 4%nat + m2 1%nat 9%nat * m1 0%nat 4%nat * m0 2%nat 1%nat + m2 1%nat 9%nat * m1 0%nat 3%nat * m0 2%nat 2%nat + m2 1%nat 9%nat * m1 0%nat 2%nat * m0 2%nat 3%nat + m2 1%nat 9%nat * m1 0%nat 1%nat * m0 2%nat 4%nat - m2 1%nat 8%nat * m1 2%nat 7%nat * m0 0%nat 1%nat - m2 1%nat 8%nat * m1 2%nat 6%nat * m0 0%nat 2%nat - m2 1%nat 8%nat * m1 2%nat 2%nat * m0 0%nat 6%nat - m2 1%nat 8%nat * m1 2%nat 1%nat * m0 0%nat 7%nat + m2 1%nat 8%nat * m1 0%nat 7%nat * m0 2%nat 1%nat + m2 1%nat 8%nat * m1 0%nat 6%nat * m0 2%nat 2%nat + m2 1%nat 8%nat * m1 0%nat 2%nat * m0 2%nat 6%nat + m2 1%nat 8%nat * m1 0%nat 1%nat * m0 2%nat 7%nat - m2 1%nat 7%nat * m1 2%nat 8%nat * m0 0%nat 1%nat - m2 1%nat 7%nat * m1 2%nat 7%nat * m0 0%nat 3%nat - m2 1%nat 7%nat * m1 2%nat 6%nat * m0 0%nat 4%nat - m2 1%nat 7%nat * m1 2%nat 4%nat * m0 0%nat 6%nat - m2 1%nat 7%nat * m1 2%nat 3%nat * m0 0%nat 7%nat - m2 1%nat 7%nat * m1 2%nat 1%nat * m0 0%nat 8%nat + m2 1%nat 7%nat * m1 0%nat 8%nat * m0 2%nat 1%nat + m2 1%nat 7%nat * m1 0%nat 7%nat * m0 2%nat 3%nat + m2 1%nat 7%nat * m1 0%nat 6%nat * m0 2%nat 4%nat + m2 1%nat 7%nat * m1 0%nat 4%nat * m0 2%nat 6%nat + m2 1%nat 7%nat * m1 0%nat 3%nat * m0 2%nat 7%nat + m2 1%nat 7%nat * m1 0%nat 1%nat * m0 2%nat 8%nat - m2 1%nat 6%nat * m1 2%nat 8%nat * m0 0%nat 2%nat - m2 1%nat 6%nat * m1 2%nat 7%nat * m0 0%nat 4%nat - m2 1%nat 6%nat * m1 2%nat 4%nat * m0 0%nat 7%nat - m2 1%nat 6%nat * m1 2%nat 2%nat * m0 0%nat 8%nat + m2 1%nat 6%nat * m1 0%nat 8%nat * m0 2%nat 2%nat + m2 1%nat 6%nat * m1 0%nat 7%nat * m0 2%nat 4%nat + m2 1%nat 6%nat * m1 0%nat 4%nat * m0 2%nat 7%nat + m2 1%nat 6%nat * m1 0%nat 2%nat * m0 2%nat 8%nat - m2 1%nat 4%nat * m1 2%nat 9%nat * m0 0%nat 1%nat - m2 1%nat 4%nat * m1 2%nat 7%nat * m0 0%nat 6%nat - m2 1%nat 4%nat * m1 2%nat 6%nat * m0 0%nat 7%nat - m2 1%nat 4%nat * m1 2%nat 1%nat * m0 0%nat 9%nat + m2 1%nat 4%nat * m1 0%nat 9%nat * m0 2%nat 1%nat + m2 1%nat 4%nat * m1 0%nat 7%nat * m0 2%nat 6%nat + m2 1%nat 4%nat * m1 0%nat 6%nat * m0 2%nat 7%nat + m2 1%nat 4%nat * m1 0%nat 1%nat * m0 2%nat 9%nat - m2 1%nat 3%nat * m1 2%nat 9%nat * m0 0%nat 2%nat - m2 1%nat 3%nat * m1 2%nat 7%nat * m0 0%nat 7%nat - m2 1%nat 3%nat * m1 2%nat 2%nat * m0 0%nat 9%nat + m2 1%nat 3%nat * m1 0%nat 9%nat * m0 2%nat 2%nat + m2 1%nat 3%nat * m1 0%nat 7%nat * m0 2%nat 7%nat + m2 1%nat 3%nat * m1 0%nat 2%nat * m0 2%nat 9%nat - m2 1%nat 2%nat * m1 2%nat 9%nat * m0 0%nat 3%nat - m2 1%nat 2%nat * m1 2%nat 8%nat * m0 0%nat 6%nat - m2 1%nat 2%nat * m1 2%nat 6%nat * m0 0%nat 8%nat - m2 1%nat 2%nat * m1 2%nat 3%nat * m0 0%nat 9%nat + m2 1%nat 2%nat * m1 0%nat 9%nat * m0 2%nat 3%nat + m2 1%nat 2%nat * m1 0%nat 8%nat * m0 2%nat 6%nat + m2 1%nat 2%nat * m1 0%nat 6%nat * m0 2%nat 8%nat + m2 1%nat 2%nat * m1 0%nat 3%nat * m0 2%nat 9%nat - m2 1%nat 1%nat * m1 2%nat 9%nat * m0 0%nat 4%nat - m2 1%nat 1%nat * m1 2%nat 8%nat * m0 0%nat 7%nat - m2 1%nat 1%nat * m1 2%nat 7%nat * m0 0%nat 8%nat - m2 1%nat 1%nat * m1 2%nat 4%nat * m0 0%nat 9%nat + m2 1%nat 1%nat * m1 0%nat 9%nat * m0 2%nat 4%nat + m2 1%nat 1%nat * m1 0%nat 8%nat * m0 2%nat 7%nat + m2 1%nat 1%nat * m1 0%nat 7%nat * m0 2%nat 8%nat + m2 1%nat 1%nat * m1 0%nat 4%nat * m0 2%nat 9%nat + m2 0%nat 9%nat * m1 2%nat 4%nat * m0 1%nat 1%nat + m2 0%nat 9%nat * m1 2%nat 3%nat * m0 1%nat 2%nat + m2 0%nat 9%nat * m1 2%nat 2%nat * m0 1%nat 3%nat + m2 0%nat 9%nat * m1 2%nat 1%nat * m0 1%nat 4%nat - m2 0%nat 9%nat * m1 1%nat 4%nat * m0 2%nat 1%nat - m2 0%nat 9%nat * m1 1%nat 3%nat * m0 2%nat 2%nat - m2 0%nat 9%nat * m1 1%nat 2%nat * m0 2%nat 3%nat - m2 0%nat 9%nat * m1 1%nat 1%nat * m0 2%nat 4%nat + m2 0%nat 8%nat * m1 2%nat 7%nat * m0 1%nat 1%nat + m2 0%nat 8%nat * m1 2%nat 6%nat * m0 1%nat 2%nat + m2 0%nat 8%nat * m1 2%nat 2%nat * m0 1%nat 6%nat + m2 0%nat 8%nat * m1 2%nat 1%nat * m0 1%nat 7%nat - m2 0%nat 8%nat * m1 1%nat 7%nat * m0 2%nat 1%nat - m2 0%nat 8%nat * m1 1%nat 6%nat * m0 2%nat 2%nat - m2 0%nat 8%nat * m1 1%nat 2%nat * m0 2%nat 6%nat - m2 0%nat 8%nat * m1 1%nat 1%nat * m0 2%nat 7%nat + m2 0%nat 7%nat * m1 2%nat 8%nat * m0 1%nat 1%nat + m2 0%nat 7%nat * m1 2%nat 7%nat * m0 1%nat 3%nat + m2 0%nat 7%nat * m1 2%nat 6%nat * m0 1%nat 4%nat + m2 0%nat 7%nat * m1 2%nat 4%nat * m0 1%nat 6%nat + m2 0%nat 7%nat * m1 2%nat 3%nat * m0 1%nat 7%nat + m2 0%nat 7%nat * m1 2%nat 1%nat * m0 1%nat 8%nat - m2 0%nat 7%nat * m1 1%nat 8%nat * m0 2%nat 1%nat - m2 0%nat 7%nat * m1 1%nat 7%nat * m0 2%nat 3%nat - m2 0%nat 7%nat * m1 1%nat 6%nat * m0 2%nat 4%nat - m2 0%nat 7%nat * m1 1%nat 4%nat * m0 2%nat 6%nat - m2 0%nat 7%nat * m1 1%nat 3%nat * m0 2%nat 7%nat - m2 0%nat 7%nat * m1 1%nat 1%nat * m0 2%nat 8%nat + m2 0%nat 6%nat * m1 2%nat 8%nat * m0 1%nat 2%nat + m2 0%nat 6%nat * m1 2%nat 7%nat * m0 1%nat 4%nat + m2 0%nat 6%nat * m1 2%nat 4%nat * m0 1%nat 7%nat + m2 0%nat 6%nat * m1 2%nat 2%nat * m0 1%nat 8%nat - m2 0%nat 6%nat * m1 1%nat 8%nat * m0 2%nat 2%nat - m2 0%nat 6%nat * m1 1%nat 7%nat * m0 2%nat 4%nat - m2 0%nat 6%nat * m1 1%nat 4%nat * m0 2%nat 7%nat - m2 0%nat 6%nat * m1 1%nat 2%nat * m0 2%nat 8%nat + m2 0%nat 4%nat * m1 2%nat 9%nat * m0 1%nat 1%nat + m2 0%nat 4%nat * m1 2%nat 7%nat * m0 1%nat 6%nat + m2 0%nat 4%nat * m1 2%nat 6%nat * m0 1%nat 7%nat + m2 0%nat 4%nat * m1 2%nat 1%nat * m0 1%nat 9%nat - m2 0%nat 4%nat * m1 1%nat 9%nat * m0 2%nat 1%nat - m2 0%nat 4%nat * m1 1%nat 7%nat * m0 2%nat 6%nat - m2 0%nat 4%nat * m1 1%nat 6%nat * m0 2%nat 7%nat - m2 0%nat 4%nat * m1 1%nat 1%nat * m0 2%nat 9%nat + m2 0%nat 3%nat * m1 2%nat 9%nat * m0 1%nat 2%nat + m2 0%nat 3%nat * m1 2%nat 7%nat * m0 1%nat 7%nat + m2 0%nat 3%nat * m1 2%nat 2%nat * m0 1%nat 9%nat - m2 0%nat 3%nat * m1 1%nat 9%nat * m0 2%nat 2%nat - m2 0%nat 3%nat * m1 1%nat 7%nat * m0 2%nat 7%nat - m2 0%nat 3%nat * m1 1%nat 2%nat * m0 2%nat 9%nat + m2 0%nat 2%nat * m1 2%nat 9%nat * m0 1%nat 3%nat + m2 0%nat 2%nat * m1 2%nat 8%nat * m0 1%nat 6%nat + m2 0%nat 2%nat * m1 2%nat 6%nat * m0 1%nat 8%nat + m2 0%nat 2%nat * m1 2%nat 3%nat * m0 1%nat 9%nat - m2 0%nat 2%nat * m1 1%nat 9%nat * m0 2%nat 3%nat - m2 0%nat 2%nat * m1 1%nat 8%nat * m0 2%nat 6%nat - m2 0%nat 2%nat * m1 1%nat 6%nat * m0 2%nat 8%nat - m2 0%nat 2%nat * m1 1%nat 3%nat * m0 2%nat 9%nat + m2 0%nat 1%nat * m1 2%nat 9%nat * m0 1%nat 4%nat + m2 0%nat 1%nat * m1 2%nat 8%nat * m0 1%nat 7%nat + m2 0%nat 1%nat * m1 2%nat 7%nat * m0 1%nat 8%nat + m2 0%nat 1%nat * m1 2%nat 4%nat * m0 1%nat 9%nat - m2 0%nat 1%nat * m1 1%nat 9%nat * m0 2%nat 4%nat - m2 0%nat 1%nat * m1 1%nat 8%nat * m0 2%nat 7%nat - m2 0%nat 1%nat * m1 1%nat 7%nat * m0 2%nat 8%nat - m2 0%nat 1%nat * m1 1%nat 4%nat * m0 2%nat 9%nat;
    m2 2%nat 9%nat * m1 1%nat 4%nat * m0 0%nat 2%nat + m2 2%nat 9%nat * m1 1%nat 2%nat * m0 0%nat 4%nat - m2 2%nat 9%nat * m1 0%nat 4%nat * m0 1%nat 2%nat - m2 2%nat 9%nat * m1 0%nat 2%nat * m0 1%nat 4%nat + m2 2%nat 8%nat * m1 1%nat 7%nat * m0 0%nat 2%nat + m2 2%nat 8%nat * m1 1%nat 2%nat * m0 0%nat 7%nat - m2 2%nat 8%nat * m1 0%nat 7%nat * m0 1%nat 2%nat - m2 2%nat 8%nat * m1 0%nat 2%nat * m0 1%nat 7%nat + m2 2%nat 7%nat * m1 1%nat 8%nat * m0 0%nat 2%nat + m2 2%nat 7%nat * m1 1%nat 7%nat * m0 0%nat 4%nat + m2 2%nat 7%nat * m1 1%nat 4%nat * m0 0%nat 7%nat + m2 2%nat 7%nat * m1 1%nat 2%nat * m0 0%nat 8%nat - m2 2%nat 7%nat * m1 0%nat 8%nat * m0 1%nat 2%nat - m2 2%nat 7%nat * m1 0%nat 7%nat * m0 1%nat 4%nat - m2 2%nat 7%nat * m1 0%nat 4%nat * m0 1%nat 7%nat - m2 2%nat 7%nat * m1 0%nat 2%nat * m0 1%nat 8%nat + m2 2%nat 4%nat * m1 1%nat 9%nat * m0 0%nat 2%nat + m2 2%nat 4%nat * m1 1%nat 7%nat * m0 0%nat 7%nat + m2 2%nat 4%nat * m1 1%nat 2%nat * m0 0%nat 9%nat - m2 2%nat 4%nat * m1 0%nat 9%nat * m0 1%nat 2%nat - m2 2%nat 4%nat * m1 0%nat 7%nat * m0 1%nat 7%nat - m2 2%nat 4%nat * m1 0%nat 2%nat * m0 1%nat 9%nat + m2 2%nat 2%nat * m1 1%nat 9%nat * m0 0%nat 4%nat + m2 2%nat 2%nat * m1 1%nat 8%nat * m0 0%nat 7%nat + m2 2%nat 2%nat * m1 1%nat 7%nat * m0 0%nat 8%nat + m2 2%nat 2%nat * m1 1%nat 4%nat * m0 0%nat 9%nat - m2 2%nat 2%nat * m1 0%nat 9%nat * m0 1%nat 4%nat - m2 2%nat 2%nat * m1 0%nat 8%nat * m0 1%nat 7%nat - m2 2%nat 2%nat * m1 0%nat 7%nat * m0 1%nat 8%nat - m2 2%nat 2%nat * m1 0%nat 4%nat * m0 1%nat 9%nat - m2 1%nat 9%nat * m1 2%nat 4%nat * m0 0%nat 2%nat - m2 1%nat 9%nat * m1 2%nat 2%nat * m0 0%nat 4%nat + m2 1%nat 9%nat * m1 0%nat 4%nat * m0 2%nat 2%nat + m2 1%nat 9%nat * m1 0%nat 2%nat * m0 2%nat 4%nat - m2 1%nat 8%nat * m1 2%nat 7%nat * m0 0%nat 2%nat - m2 1%nat 8%nat * m1 2%nat 2%nat * m0 0%nat 7%nat + m2 1%nat 8%nat * m1 0%nat 7%nat * m0 2%nat 2%nat + m2 1%nat 8%nat * m1 0%nat 2%nat * m0 2%nat 7%nat - m2 1%nat 7%nat * m1 2%nat 8%nat * m0 0%nat 2%nat - m2 1%nat 7%nat * m1 2%nat 7%nat * m0 0%nat 4%nat - m2 1%nat 7%nat * m1 2%nat 4%nat * m0 0%nat 7%nat - m2 1%nat 7%nat * m1 2%nat 2%nat * m0 0%nat 8%nat + m2 1%nat 7%nat * m1 0%nat 8%nat * m0 2%nat 2%nat + m2 1%nat 7%nat * m1 0%nat 7%nat * m0 2%nat 4%nat + m2 1%nat 7%nat * m1 0%nat 4%nat * m0 2%nat 7%nat + m2 1%nat 7%nat * m1 0%nat 2%nat * m0 2%nat 8%nat - m2 1%nat 4%nat * m1 2%nat 9%nat * m0 0%nat 2%nat - m2 1%nat 4%nat * m1 2%nat 7%nat * m0 0%nat 7%nat - m2 1%nat 4%nat * m1 2%nat 2%nat * m0 0%nat 9%nat + m2 1%nat 4%nat * m1 0%nat 9%nat * m0 2%nat 2%nat + m2 1%nat 4%nat * m1 0%nat 7%nat * m0 2%nat 7%nat + m2 1%nat 4%nat * m1 0%nat 2%nat * m0 2%nat 9%nat - m2 1%nat 2%nat * m1 2%nat 9%nat * m0 0%nat 4%nat - m2 1%nat 2%nat * m1 2%nat 8%nat * m0 0%nat 7%nat - m2 1%nat 2%nat * m1 2%nat 7%nat * m0 0%nat 8%nat - m2 1%nat 2%nat * m1 2%nat 4%nat * m0 0%nat 9%nat + m2 1%nat 2%nat * m1 0%nat 9%nat * m0 2%nat 4%nat + m2 1%nat 2%nat * m1 0%nat 8%nat * m0 2%nat 7%nat + m2 1%nat 2%nat * m1 0%nat 7%nat * m0 2%nat 8%nat + m2 1%nat 2%nat * m1 0%nat 4%nat * m0 2%nat 9%nat + m2 0%nat 9%nat * m1 2%nat 4%nat * m0 1%nat 2%nat + m2 0%nat 9%nat * m1 2%nat 2%nat * m0 1%nat 4%nat - m2 0%nat 9%nat * m1 1%nat 4%nat * m0 2%nat 2%nat - m2 0%nat 9%nat * m1 1%nat 2%nat * m0 2%nat 4%nat + m2 0%nat 8%nat * m1 2%nat 7%nat * m0 1%nat 2%nat + m2 0%nat 8%nat * m1 2%nat 2%nat * m0 1%nat 7%nat - m2 0%nat 8%nat * m1 1%nat 7%nat * m0 2%nat 2%nat - m2 0%nat 8%nat * m1 1%nat 2%nat * m0 2%nat 7%nat + m2 0%nat 7%nat * m1 2%nat 8%nat * m0 1%nat 2%nat + m2 0%nat 7%nat * m1 2%nat 7%nat * m0 1%nat 4%nat + m2 0%nat 7%nat * m1 2%nat 4%nat * m0 1%nat 7%nat + m2 0%nat 7%nat * m1 2%nat 2%nat * m0 1%nat 8%nat - m2 0%nat 7%nat * m1 1%nat 8%nat * m0 2%nat 2%nat - m2 0%nat 7%nat * m1 1%nat 7%nat * m0 2%nat 4%nat - m2 0%nat 7%nat * m1 1%nat 4%nat * m0 2%nat 7%nat - m2 0%nat 7%nat * m1 1%nat 2%nat * m0 2%nat 8%nat + m2 0%nat 4%nat * m1 2%nat 9%nat * m0 1%nat 2%nat + m2 0%nat 4%nat * m1 2%nat 7%nat * m0 1%nat 7%nat + m2 0%nat 4%nat * m1 2%nat 2%nat * m0 1%nat 9%nat - m2 0%nat 4%nat * m1 1%nat 9%nat * m0 2%nat 2%nat - m2 0%nat 4%nat * m1 1%nat 7%nat * m0 2%nat 7%nat - m2 0%nat 4%nat * m1 1%nat 2%nat * m0 2%nat 9%nat + m2 0%nat 2%nat * m1 2%nat 9%nat * m0 1%nat 4%nat + m2 0%nat 2%nat * m1 2%nat 8%nat * m0 1%nat 7%nat + m2 0%nat 2%nat * m1 2%nat 7%nat * m0 1%nat 8%nat + m2 0%nat 2%nat * m1 2%nat 4%nat * m0 1%nat 9%nat - m2 0%nat 2%nat * m1 1%nat 9%nat * m0 2%nat 4%nat - m2 0%nat 2%nat * m1 1%nat 8%nat * m0 2%nat 7%nat - m2 0%nat 2%nat * m1 1%nat 7%nat * m0 2%nat 8%nat - m2 0%nat 2%nat * m1 1%nat 4%nat * m0 2%nat 9%nat;
    m2 2%nat 9%nat * m1 1%nat 5%nat * m0 0%nat 0%nat + m2 2%nat 9%nat * m1 1%nat 3%nat * m0 0%nat 3%nat + m2 2%nat 9%nat * m1 1%nat 0%nat * m0 0%nat 5%nat - m2 2%nat 9%nat * m1 0%nat 5%nat * m0 1%nat 0%nat - m2 2%nat 9%nat * m1 0%nat 3%nat * m0 1%nat 3%nat - m2 2%nat 9%nat * m1 0%nat 0%nat * m0 1%nat 5%nat + m2 2%nat 8%nat * m1 1%nat 8%nat * m0 0%nat 0%nat + m2 2%nat 8%nat * m1 1%nat 6%nat * m0 0%nat 3%nat + m2 2%nat 8%nat * m1 1%nat 3%nat * m0 0%nat 6%nat + m2 2%nat 8%nat * m1 1%nat 0%nat * m0 0%nat 8%nat - m2 2%nat 8%nat * m1 0%nat 8%nat * m0 1%nat 0%nat - m2 2%nat 8%nat * m1 0%nat 6%nat * m0 1%nat 3%nat - m2 2%nat 8%nat * m1 0%nat 3%nat * m0 1%nat 6%nat - m2 2%nat 8%nat * m1 0%nat 0%nat * m0 1%nat 8%nat + m2 2%nat 6%nat * m1 1%nat 8%nat * m0 0%nat 3%nat + m2 2%nat 6%nat * m1 1%nat 6%nat * m0 0%nat 5%nat + m2 2%nat 6%nat * m1 1%nat 5%nat * m0 0%nat 6%nat + m2 2%nat 6%nat * m1 1%nat 3%nat * m0 0%nat 8%nat - m2 2%nat 6%nat * m1 0%nat 8%nat * m0 1%nat 3%nat - m2 2%nat 6%nat * m1 0%nat 6%nat * m0 1%nat 5%nat - m2 2%nat 6%nat * m1 0%nat 5%nat * m0 1%nat 6%nat - m2 2%nat 6%nat * m1 0%nat 3%nat * m0 1%nat 8%nat + m2 2%nat 5%nat * m1 1%nat 9%nat * m0 0%nat 0%nat + m2 2%nat 5%nat * m1 1%nat 6%nat * m0 0%nat 6%nat + m2 2%nat 5%nat * m1 1%nat 0%nat * m0 0%nat 9%nat - m2 2%nat 5%nat * m1 0%nat 9%nat * m0 1%nat 0%nat - m2 2%nat 5%nat * m1 0%nat 6%nat * m0 1%nat 6%nat - m2 2%nat 5%nat * m1 0%nat 0%nat * m0 1%nat 9%nat + m2 2%nat 3%nat * m1 1%nat 9%nat * m0 0%nat 3%nat + m2 2%nat 3%nat * m1 1%nat 8%nat * m0 0%nat 6%nat + m2 2%nat 3%nat * m1 1%nat 6%nat * m0 0%nat 8%nat + m2 2%nat 3%nat * m1 1%nat 3%nat * m0 0%nat 9%nat - m2 2%nat 3%nat * m1 0%nat 9%nat * m0 1%nat 3%nat - m2 2%nat 3%nat * m1 0%nat 8%nat * m0 1%nat 6%nat - m2 2%nat 3%nat * m1 0%nat 6%nat * m0 1%nat 8%nat - m2 2%nat 3%nat * m1 0%nat 3%nat * m0 1%nat 9%nat + m2 2%nat 0%nat * m1 1%nat 9%nat * m0 0%nat 5%nat + m2 2%nat 0%nat * m1 1%nat 8%nat * m0 0%nat 8%nat + m2 2%nat 0%nat * m1 1%nat 5%nat * m0 0%nat 9%nat - m2 2%nat 0%nat * m1 0%nat 9%nat * m0 1%nat 5%nat - m2 2%nat 0%nat * m1 0%nat 8%nat * m0 1%nat 8%nat - m2 2%nat 0%nat * m1 0%nat 5%nat * m0 1%nat 9%nat - m2 1%nat 9%nat * m1 2%nat 5%nat * m0 0%nat 0%nat - m2 1%nat 9%nat * m1 2%nat 3%nat * m0 0%nat 3%nat - m2 1%nat 9%nat * m1 2%nat 0%nat * m0 0%nat 5%nat + m2 1%nat 9%nat * m1 0%nat 5%nat * m0 2%nat 0%nat + m2 1%nat 9%nat * m1 0%nat 3%nat * m0 2%nat 3%nat + m2 1%nat 9%nat * m1 0%nat 0%nat * m0 2%nat 5%nat - m2 1%nat 8%nat * m1 2%nat 8%nat * m0 0%nat 0%nat - m2 1%nat 8%nat * m1 2%nat 6%nat * m0 0%nat 3%nat - m2 1%nat 8%nat * m1 2%nat 3%nat * m0 0%nat 6%nat - m2 1%nat 8%nat * m1 2%nat 0%nat * m0 0%nat 8%nat + m2 1%nat 8%nat * m1 0%nat 8%nat * m0 2%nat 0%nat + m2 1%nat 8%nat * m1 0%nat 6%nat * m0 2%nat 3%nat + m2 1%nat 8%nat * m1 0%nat 3%nat * m0 2%nat 6%nat + m2 1%nat 8%nat * m1 0%nat 0%nat * m0 2%nat 8%nat - m2 1%nat 6%nat * m1 2%nat 8%nat * m0 0%nat 3%nat - m2 1%nat 6%nat * m1 2%nat 6%nat * m0 0%nat 5%nat - m2 1%nat 6%nat * m1 2%nat 5%nat * m0 0%nat 6%nat - m2 1%nat 6%nat * m1 2%nat 3%nat * m0 0%nat 8%nat + m2 1%nat 6%nat * m1 0%nat 8%nat * m0 2%nat 3%nat + m2 1%nat 6%nat * m1 0%nat 6%nat * m0 2%nat 5%nat + m2 1%nat 6%nat * m1 0%nat 5%nat * m0 2%nat 6%nat + m2 1%nat 6%nat * m1 0%nat 3%nat * m0 2%nat 8%nat - m2 1%nat 5%nat * m1 2%nat 9%nat * m0 0%nat 0%nat - m2 1%nat 5%nat * m1 2%nat 6%nat * m0 0%nat 6%nat - m2 1%nat 5%nat * m1 2%nat 0%nat * m0 0%nat 9%nat + m2 1%nat 5%nat * m1 0%nat 9%nat * m0 2%nat 0%nat + m2 1%nat 5%nat * m1 0%nat 6%nat * m0 2%nat 6%nat + m2 1%nat 5%nat * m1 0%nat 0%nat * m0 2%nat 9%nat - m2 1%nat 3%nat * m1 2%nat 9%nat * m0 0%nat 3%nat - m2 1%nat 3%nat * m1 2%nat 8%nat * m0 0%nat 6%nat - m2 1%nat 3%nat * m1 2%nat 6%nat * m0 0%nat 8%nat - m2 1%nat 3%nat * m1 2%nat 3%nat * m0 0%nat 9%nat + m2 1%nat 3%nat * m1 0%nat 9%nat * m0 2%nat 3%nat + m2 1%nat 3%nat * m1 0%nat 8%nat * m0 2%nat 6%nat + m2 1%nat 3%nat * m1 0%nat 6%nat * m0 2%nat 8%nat + m2 1%nat 3%nat * m1 0%nat 3%nat * m0 2%nat 9%nat - m2 1%nat 0%nat * m1 2%nat 9%nat * m0 0%nat 5%nat - m2 1%nat 0%nat * m1 2%nat 8%nat * m0 0%nat 8%nat - m2 1%nat 0%nat * m1 2%nat 5%nat * m0 0%nat 9%nat + m2 1%nat 0%nat * m1 0%nat 9%nat * m0 2%nat 5%nat + m2 1%nat 0%nat * m1 0%nat 8%nat * m0 2%nat 8%nat + m2 1%nat 0%nat * m1 0%nat 5%nat * m0 2%nat 9%nat + m2 0%nat 9%nat * m1 2%nat 5%nat * m0 1%nat 0%nat + m2 0%nat 9%nat * m1 2%nat 3%nat * m0 1%nat 3%nat + m2 0%nat 9%nat * m1 2%nat 0%nat * m0 1%nat 5%nat - m2 0%nat 9%nat * m1 1%nat 5%nat * m0 2%nat 0%nat - m2 0%nat 9%nat * m1 1%nat 3%nat * m0 2%nat 3%nat - m2 0%nat 9%nat * m1 1%nat 0%nat * m0 2%nat 5%nat + m2 0%nat 8%nat * m1 2%nat 8%nat * m0 1%nat 0%nat + m2 0%nat 8%nat * m1 2%nat 6%nat * m0 1%nat 3%nat + m2 0%nat 8%nat * m1 2%nat 3%nat * m0 1%nat 6%nat + m2 0%nat 8%nat * m1 2%nat 0%nat * m0 1%nat 8%nat - m2 0%nat 8%nat * m1 1%nat 8%nat * m0 2%nat 0%nat - m2 0%nat 8%nat * m1 1%nat 6%nat * m0 2%nat 3%nat - m2 0%nat 8%nat * m1 1%nat 3%nat * m0 2%nat 6%nat - m2 0%nat 8%nat * m1 1%nat 0%nat * m0 2%nat 8%nat + m2 0%nat 6%nat * m1 2%nat 8%nat * m0 1%nat 3%nat + m2 0%nat 6%nat * m1 2%nat 6%nat * m0 1%nat 5%nat + m2 0%nat 6%nat * m1 2%nat 5%nat * m0 1%nat 6%nat + m2 0%nat 6%nat * m1 2%nat 3%nat * m0 1%nat 8%nat - m2 0%nat 6%nat * m1 1%nat 8%nat * m0 2%nat 3%nat - m2 0%nat 6%nat * m1 1%nat 6%nat * m0 2%nat 5%nat - m2 0%nat 6%nat * m1 1%nat 5%nat * m0 2%nat 6%nat - m2 0%nat 6%nat * m1 1%nat 3%nat * m0 2%nat 8%nat + m2 0%nat 5%nat * m1 2%nat 9%nat * m0 1%nat 0%nat + m2 0%nat 5%nat * m1 2%nat 6%nat * m0 1%nat 6%nat + m2 0%nat 5%nat * m1 2%nat 0%nat * m0 1%nat 9%nat - m2 0%nat 5%nat * m1 1%nat 9%nat * m0 2%nat 0%nat - m2 0%nat 5%nat * m1 1%nat 6%nat * m0 2%nat 6%nat - m2 0%nat 5%nat * m1 1%nat 0%nat * m0 2%nat 9%nat + m2 0%nat 3%nat * m1 2%nat 9%nat * m0 1%nat 3%nat + m2 0%nat 3%nat * m1 2%nat 8%nat * m0 1%nat 6%nat + m2 0%nat 3%nat * m1 2%nat 6%nat * m0 1%nat 8%nat + m2 0%nat 3%nat * m1 2%nat 3%nat * m0 1%nat 9%nat - m2 0%nat 3%nat * m1 1%nat 9%nat * m0 2%nat 3%nat - m2 0%nat 3%nat * m1 1%nat 8%nat * m0 2%nat 6%nat - m2 0%nat 3%nat * m1 1%nat 6%nat * m0 2%nat 8%nat - m2 0%nat 3%nat * m1 1%nat 3%nat * m0 2%nat 9%nat + m2 0%nat 0%nat * m1 2%nat 9%nat * m0 1%nat 5%nat + m2 0%nat 0%nat * m1 2%nat 8%nat * m0 1%nat 8%nat + m2 0%nat 0%nat * m1 2%nat 5%nat * m0 1%nat 9%nat - m2 0%nat 0%nat * m1 1%nat 9%nat * m0 2%nat 5%nat - m2 0%nat 0%nat * m1 1%nat 8%nat * m0 2%nat 8%nat - m2 0%nat 0%nat * m1 1%nat 5%nat * m0 2%nat 9%nat;
    m2 2%nat 9%nat * m1 1%nat 5%nat * m0 0%nat 1%nat + m2 2%nat 9%nat * m1 1%nat 4%nat * m0 0%nat 3%nat + m2 2%nat 9%nat * m1 1%nat 3%nat * m0 0%nat 4%nat + m2 2%nat 9%nat * m1 1%nat 1%nat * m0 0%nat 5%nat - m2 2%nat 9%nat * m1 0%nat 5%nat * m0 1%nat 1%nat - m2 2%nat 9%nat * m1 0%nat 4%nat * m0 1%nat 3%nat - m2 2%nat 9%nat * m1 0%nat 3%nat * m0 1%nat 4%nat - m2 2%nat 9%nat * m1 0%nat 1%nat * m0 1%nat 5%nat + m2 2%nat 8%nat * m1 1%nat 8%nat * m0 0%nat 1%nat + m2 2%nat 8%nat * m1 1%nat 7%nat * m0 0%nat 3%nat + m2 2%nat 8%nat * m1 1%nat 6%nat * m0 0%nat 4%nat + m2 2%nat 8%nat * m1 1%nat 4%nat * m0 0%nat 6%nat + m2 2%nat 8%nat * m1 1%nat 3%nat * m0 0%nat 7%nat + m2 2%nat 8%nat * m1 1%nat 1%nat * m0 0%nat 8%nat - m2 2%nat 8%nat * m1 0%nat 8%nat * m0 1%nat 1%nat - m2 2%nat 8%nat * m1 0%nat 7%nat * m0 1%nat 3%nat - m2 2%nat 8%nat * m1 0%nat 6%nat * m0 1%nat 4%nat - m2 2%nat 8%nat * m1 0%nat 4%nat * m0 1%nat 6%nat - m2 2%nat 8%nat * m1 0%nat 3%nat * m0 1%nat 7%nat - m2 2%nat 8%nat * m1 0%nat 1%nat * m0 1%nat 8%nat + m2 2%nat 7%nat * m1 1%nat 8%nat * m0 0%nat 3%nat + m2 2%nat 7%nat * m1 1%nat 6%nat * m0 0%nat 5%nat + m2 2%nat 7%nat * m1 1%nat 5%nat * m0 0%nat 6%nat + m2 2%nat 7%nat * m1 1%nat 3%nat * m0 0%nat 8%nat - m2 2%nat 7%nat * m1 0%nat 8%nat * m0 1%nat 3%nat - m2 2%nat 7%nat * m1 0%nat 6%nat * m0 1%nat 5%nat - m2 2%nat 7%nat * m1 0%nat 5%nat * m0 1%nat 6%nat - m2 2%nat 7%nat * m1 0%nat 3%nat * m0 1%nat 8%nat + m2 2%nat 6%nat * m1 1%nat 8%nat * m0 0%nat 4%nat + m2 2%nat 6%nat * m1 1%nat 7%nat * m0 0%nat 5%nat + m2 2%nat 6%nat * m1 1%nat 5%nat * m0 0%nat 7%nat + m2 2%nat 6%nat * m1 1%nat 4%nat * m0 0%nat 8%nat - m2 2%nat 6%nat * m1 0%nat 8%nat * m0 1%nat 4%nat - m2 2%nat 6%nat * m1 0%nat 7%nat * m0 1%nat 5%nat - m2 2%nat 6%nat * m1 0%nat 5%nat * m0 1%nat 7%nat - m2 2%nat 6%nat * m1 0%nat 4%nat * m0 1%nat 8%nat + m2 2%nat 5%nat * m1 1%nat 9%nat * m0 0%nat 1%nat + m2 2%nat 5%nat * m1 1%nat 7%nat * m0 0%nat 6%nat + m2 2%nat 5%nat * m1 1%nat 6%nat * m0 0%nat 7%nat + m2 2%nat 5%nat * m1 1%nat 1%nat * m0 0%nat 9%nat - m2 2%nat 5%nat * m1 0%nat 9%nat * m0 1%nat 1%nat - m2 2%nat 5%nat * m1 0%nat 7%nat * m0 1%nat 6%nat - m2 2%nat 5%nat * m1 0%nat 6%nat * m0 1%nat 7%nat - m2 2%nat 5%nat * m1 0%nat 1%nat * m0 1%nat 9%nat + m2 2%nat 4%nat * m1 1%nat 9%nat * m0 0%nat 3%nat + m2 2%nat 4%nat * m1 1%nat 8%nat * m0 0%nat 6%nat + m2 2%nat 4%nat * m1 1%nat 6%nat * m0 0%nat 8%nat + m2 2%nat 4%nat * m1 1%nat 3%nat * m0 0%nat 9%nat - m2 2%nat 4%nat * m1 0%nat 9%nat * m0 1%nat 3%nat - m2 2%nat 4%nat * m1 0%nat 8%nat * m0 1%nat 6%nat - m2 2%nat 4%nat * m1 0%nat 6%nat * m0 1%nat 8%nat - m2 2%nat 4%nat * m1 0%nat 3%nat * m0 1%nat 9%nat + m2 2%nat 3%nat * m1 1%nat 9%nat * m0 0%nat 4%nat + m2 2%nat 3%nat * m1 1%nat 8%nat * m0 0%nat 7%nat + m2 2%nat 3%nat * m1 1%nat 7%nat * m0 0%nat 8%nat + m2 2%nat 3%nat * m1 1%nat 4%nat * m0 0%nat 9%nat - m2 2%nat 3%nat * m1 0%nat 9%nat * m0 1%nat 4%nat - m2 2%nat 3%nat * m1 0%nat 8%nat * m0 1%nat 7%nat - m2 2%nat 3%nat * m1 0%nat 7%nat * m0 1%nat 8%nat - m2 2%nat 3%nat * m1 0%nat 4%nat * m0 1%nat 9%nat + m2 2%nat 1%nat * m1 1%nat 9%nat * m0 0%nat 5%nat + m2 2%nat 1%nat * m1 1%nat 8%nat * m0 0%nat 8%nat + m2 2%nat 1%nat * m1 1%nat 5%nat * m0 0%nat 9%nat - m2 2%nat 1%nat * m1 0%nat 9%nat * m0 1%nat 5%nat - m2 2%nat 1%nat * m1 0%nat 8%nat * m0 1%nat 8%nat - m2 2%nat 1%nat * m1 0%nat 5%nat * m0 1%nat 9%nat - m2 1%nat 9%nat * m1 2%nat 5%nat * m0 0%nat 1%nat - m2 1%nat 9%nat * m1 2%nat 4%nat * m0 0%nat 3%nat - m2 1%nat 9%nat * m1 2%nat 3%nat * m0 0%nat 4%nat - m2 1%nat 9%nat * m1 2%nat 1%nat * m0 0%nat 5%nat + m2 1%nat 9%nat * m1 0%nat 5%nat * m0 2%nat 1%nat + m2 1%nat 9%nat * m1 0%nat 4%nat * m0 2%nat 3%nat + m2 1%nat 9%nat * m1 0%nat 3%nat * m0 2%nat 4%nat + m2 1%nat 9%nat * m1 0%nat 1%nat * m0 2%nat 5%nat - m2 1%nat 8%nat * m1 2%nat 8%nat * m0 0%nat 1%nat - m2 1%nat 8%nat * m1 2%nat 7%nat * m0 0%nat 3%nat - m2 1%nat 8%nat * m1 2%nat 6%nat * m0 0%nat 4%nat - m2 1%nat 8%nat * m1 2%nat 4%nat * m0 0%nat 6%nat - m2 1%nat 8%nat * m1 2%nat 3%nat * m0 0%nat 7%nat - m2 1%nat 8%nat * m1 2%nat 1%nat * m0 0%nat 8%nat + m2 1%nat 8%nat * m1 0%nat 8%nat * m0 2%nat 1%nat + m2 1%nat 8%nat * m1 0%nat 7%nat * m0 2%nat 3%nat + m2 1%nat 8%nat * m1 0%nat 6%nat * m0 2%nat 4%nat + m2 1%nat 8%nat * m1 0%nat 4%nat * m0 2%nat 6%nat + m2 1%nat 8%nat * m1 0%nat 3%nat * m0 2%nat 7%nat + m2 1%nat 8%nat * m1 0%nat 1%nat * m0 2%nat 8%nat - m2 1%nat 7%nat * m1 2%nat 8%nat * m0 0%nat 3%nat - m2 1%nat 7%nat * m1 2%nat 6%nat * m0 0%nat 5%nat - m2 1%nat 7%nat * m1 2%nat 5%nat * m0 0%nat 6%nat - m2 1%nat 7%nat * m1 2%nat 3%nat * m0 0%nat 8%nat + m2 1%nat 7%nat * m1 0%nat 8%nat * m0 2%nat 3%nat + m2 1%nat 7%nat * m1 0%nat 6%nat * m0 2%nat 5%nat + m2 1%nat 7%nat * m1 0%nat 5%nat * m0 2%nat 6%nat + m2 1%nat 7%nat * m1 0%nat 3%nat * m0 2%nat 8%nat - m2 1%nat 6%nat * m1 2%nat 8%nat * m0 0%nat 4%nat - m2 1%nat 6%nat * m1 2%nat 7%nat * m0 0%nat 5%nat - m2 1%nat 6%nat * m1 2%nat 5%nat * m0 0%nat 7%nat - m2 1%nat 6%nat * m1 2%nat 4%nat * m0 0%nat 8%nat + m2 1%nat 6%nat * m1 0%nat 8%nat * m0 2%nat 4%nat + m2 1%nat 6%nat * m1 0%nat 7%nat * m0 2%nat 5%nat + m2 1%nat 6%nat * m1 0%nat 5%nat * m0 2%nat 7%nat + m2 1%nat 6%nat * m1 0%nat 4%nat * m0 2%nat 8%nat - m2 1%nat 5%nat * m1 2%nat 9%nat * m0 0%nat 1%nat - m2 1%nat 5%nat * m1 2%nat 7%nat * m0 0%nat 6%nat - m2 1%nat 5%nat * m1 2%nat 6%nat * m0 0%nat 7%nat - m2 1%nat 5%nat * m1 2%nat 1%nat * m0 0%nat 9%nat + m2 1%nat 5%nat * m1 0%nat 9%nat * m0 2%nat 1%nat + m2 1%nat 5%nat * m1 0%nat 7%nat * m0 2%nat 6%nat + m2 1%nat 5%nat * m1 0%nat 6%nat * m0 2%nat 7%nat + m2 1%nat 5%nat * m1 0%nat 1%nat * m0 2%nat 9%nat - m2 1%nat 4%nat * m1 2%nat 9%nat * m0 0%nat 3%nat - m2 1%nat 4%nat * m1 2%nat 8%nat * m0 0%nat 6%nat - m2 1%nat 4%nat * m1 2%nat 6%nat * m0 0%nat 8%nat - m2 1%nat 4%nat * m1 2%nat 3%nat * m0 0%nat 9%nat + m2 1%nat 4%nat * m1 0%nat 9%nat * m0 2%nat 3%nat + m2 1%nat 4%nat * m1 0%nat 8%nat * m0 2%nat 6%nat + m2 1%nat 4%nat * m1 0%nat 6%nat * m0 2%nat 8%nat + m2 1%nat 4%nat * m1 0%nat 3%nat * m0 2%nat 9%nat - m2 1%nat 3%nat * m1 2%nat 9%nat * m0 0%nat 4%nat - m2 1%nat 3%nat * m1 2%nat 8%nat * m0 0%nat 7%nat - m2 1%nat 3%nat * m1 2%nat 7%nat * m0 0%nat 8%nat - m2 1%nat 3%nat * m1 2%nat 4%nat * m0 0%nat 9%nat + m2 1%nat 3%nat * m1 0%nat 9%nat * m0 2%nat 4%nat + m2 1%nat 3%nat * m1 0%nat 8%nat * m0 2%nat 7%nat + m2 1%nat 3%nat * m1 0%nat 7%nat * m0 2%nat 8%nat + m2 1%nat 3%nat * m1 0%nat 4%nat * m0 2%nat 9%nat - m2 1%nat 1%nat * m1 2%nat 9%nat * m0 0%nat 5%nat - m2 1%nat 1%nat * m1 2%nat 8%nat * m0 0%nat 8%nat - m2 1%nat 1%nat * m1 2%nat 5%nat * m0 0%nat 9%nat + m2 1%nat 1%nat * m1 0%nat 9%nat * m0 2%nat 5%nat + m2 1%nat 1%nat * m1 0%nat 8%nat * m0 2%nat 8%nat + m2 1%nat 1%nat * m1 0%nat 5%nat * m0 2%nat 9%nat + m2 0%nat 9%nat * m1 2%nat 5%nat * m0 1%nat 1%nat + m2 0%nat 9%nat * m1 2%nat 4%nat * m0 1%nat 3%nat + m2 0%nat 9%nat * m1 2%nat 3%nat * m0 1%nat 4%nat + m2 0%nat 9%nat * m1 2%nat 1%nat * m0 1%nat 5%nat - m2 0%nat 9%nat * m1 1%nat 5%nat * m0 2%nat 1%nat - m2 0%nat 9%nat * m1 1%nat 4%nat * m0 2%nat 3%nat - m2 0%nat 9%nat * m1 1%nat 3%nat * m0 2%nat 4%nat - m2 0%nat 9%nat * m1 1%nat 1%nat * m0 2%nat 5%nat + m2 0%nat 8%nat * m1 2%nat 8%nat * m0 1%nat 1%nat + m2 0%nat 8%nat * m1 2%nat 7%nat * m0 1%nat 3%nat + m2 0%nat 8%nat * m1 2%nat 6%nat * m0 1%nat 4%nat + m2 0%nat 8%nat * m1 2%nat 4%nat * m0 1%nat 6%nat + m2 0%nat 8%nat * m1 2%nat 3%nat * m0 1%nat 7%nat + m2 0%nat 8%nat * m1 2%nat 1%nat * m0 1%nat 8%nat - m2 0%nat 8%nat * m1 1%nat 8%nat * m0 2%nat 1%nat - m2 0%nat 8%nat * m1 1%nat 7%nat * m0 2%nat 3%nat - m2 0%nat 8%nat * m1 1%nat 6%nat * m0 2%nat 4%nat - m2 0%nat 8%nat * m1 1%nat 4%nat * m0 2%nat 6%nat - m2 0%nat 8%nat * m1 1%nat 3%nat * m0 2%nat 7%nat - m2 0%nat 8%nat * m1 1%nat 1%nat * m0 2%nat 8%nat + m2 0%nat 7%nat * m1 2%nat 8%nat * m0 1%nat 3%nat + m2 0%nat 7%nat * m1 2%nat 6%nat * m0 1%nat 5%nat + m2 0%nat 7%nat * m1 2%nat 5%nat * m0 1%nat 6%nat + m2 0%nat 7%nat * m1 2%nat 3%nat * m0 1%nat 8%nat - m2 0%nat 7%nat * m1 1%nat 8%nat * m0 2%nat 3%nat - m2 0%nat 7%nat * m1 1%nat 6%nat * m0 2%nat 5%nat - m2 0%nat 7%nat * m1 1%nat 5%nat * m0 2%nat 6%nat - m2 0%nat 7%nat * m1 1%nat 3%nat * m0 2%nat 8%nat + m2 0%nat 6%nat * m1 2%nat 8%nat * m0 1%nat 4%nat + m2 0%nat 6%nat * m1 2%nat 7%nat * m0 1%nat 5%nat + m2 0%nat 6%nat * m1 2%nat 5%nat * m0 1%nat 7%nat + m2 0%nat 6%nat * m1 2%nat 4%nat * m0 1%nat 8%nat - m2 0%nat 6%nat * m1 1%nat 8%nat * m0 2%nat 4%nat - m2 0%nat 6%nat * m1 1%nat 7%nat * m0 2%nat 5%nat - m2 0%nat 6%nat * m1 1%nat 5%nat * m0 2%nat 7%nat - m2 0%nat 6%nat * m1 1%nat 4%nat * m0 2%nat 8%nat + m2 0%nat 5%nat * m1 2%nat 9%nat * m0 1%nat 1%nat + m2 0%nat 5%nat * m1 2%nat 7%nat * m0 1%nat 6%nat + m2 0%nat 5%nat * m1 2%nat 6%nat * m0 1%nat 7%nat + m2 0%nat 5%nat * m1 2%nat 1%nat * m0 1%nat 9%nat - m2 0%nat 5%nat * m1 1%nat 9%nat * m0 2%nat 1%nat - m2 0%nat 5%nat * m1 1%nat 7%nat * m0 2%nat 6%nat - m2 0%nat 5%nat * m1 1%nat 6%nat * m0 2%nat 7%nat - m2 0%nat 5%nat * m1 1%nat 1%nat * m0 2%nat 9%nat + m2 0%nat 4%nat * m1 2%nat 9%nat * m0 1%nat 3%nat + m2 0%nat 4%nat * m1 2%nat 8%nat * m0 1%nat 6%nat + m2 0%nat 4%nat * m1 2%nat 6%nat * m0 1%nat 8%nat + m2 0%nat 4%nat * m1 2%nat 3%nat * m0 1%nat 9%nat - m2 0%nat 4%nat * m1 1%nat 9%nat * m0 2%nat 3%nat - m2 0%nat 4%nat * m1 1%nat 8%nat * m0 2%nat 6%nat - m2 0%nat 4%nat * m1 1%nat 6%nat * m0 2%nat 8%nat - m2 0%nat 4%nat * m1 1%nat 3%nat * m0 2%nat 9%nat + m2 0%nat 3%nat * m1 2%nat 9%nat * m0 1%nat 4%nat + m2 0%nat 3%nat * m1 2%nat 8%nat * m0 1%nat 7%nat + m2 0%nat 3%nat * m1 2%nat 7%nat * m0 1%nat 8%nat + m2 0%nat 3%nat * m1 2%nat 4%nat * m0 1%nat 9%nat - m2 0%nat 3%nat * m1 1%nat 9%nat * m0 2%nat 4%nat - m2 0%nat 3%nat * m1 1%nat 8%nat * m0 2%nat 7%nat - m2 0%nat 3%nat * m1 1%nat 7%nat * m0 2%nat 8%nat - m2 0%nat 3%nat * m1 1%nat 4%nat * m0 2%nat 9%nat + m2 0%nat 1%nat * m1 2%nat 9%nat * m0 1%nat 5%nat + m2 0%nat 1%nat * m1 2%nat 8%nat * m0 1%nat 8%nat + m2 0%nat 1%nat * m1 2%nat 5%nat * m0 1%nat 9%nat - m2 0%nat 1%nat * m1 1%nat 9%nat * m0 2%nat 5%nat - m2 0%nat 1%nat * m1 1%nat 8%nat * m0 2%nat 8%nat - m2 0%nat 1%nat * m1 1%nat 5%nat * m0 2%nat 9%nat;
    m2 2%nat 9%nat * m1 1%nat 5%nat * m0 0%nat 2%nat + m2 2%nat 9%nat * m1 1%nat 4%nat * m0 0%nat 4%nat + m2 2%nat 9%nat * m1 1%nat 2%nat * m0 0%nat 5%nat - m2 2%nat 9%nat * m1 0%nat 5%nat * m0 1%nat 2%nat - m2 2%nat 9%nat * m1 0%nat 4%nat * m0 1%nat 4%nat - m2 2%nat 9%nat * m1 0%nat 2%nat * m0 1%nat 5%nat + m2 2%nat 8%nat * m1 1%nat 8%nat * m0 0%nat 2%nat + m2 2%nat 8%nat * m1 1%nat 7%nat * m0 0%nat 4%nat + m2 2%nat 8%nat * m1 1%nat 4%nat * m0 0%nat 7%nat + m2 2%nat 8%nat * m1 1%nat 2%nat * m0 0%nat 8%nat - m2 2%nat 8%nat * m1 0%nat 8%nat * m0 1%nat 2%nat - m2 2%nat 8%nat * m1 0%nat 7%nat * m0 1%nat 4%nat - m2 2%nat 8%nat * m1 0%nat 4%nat * m0 1%nat 7%nat - m2 2%nat 8%nat * m1 0%nat 2%nat * m0 1%nat 8%nat + m2 2%nat 7%nat * m1 1%nat 8%nat * m0 0%nat 4%nat + m2 2%nat 7%nat * m1 1%nat 7%nat * m0 0%nat 5%nat + m2 2%nat 7%nat * m1 1%nat 5%nat * m0 0%nat 7%nat + m2 2%nat 7%nat * m1 1%nat 4%nat * m0 0%nat 8%nat - m2 2%nat 7%nat * m1 0%nat 8%nat * m0 1%nat 4%nat - m2 2%nat 7%nat * m1 0%nat 7%nat * m0 1%nat 5%nat - m2 2%nat 7%nat * m1 0%nat 5%nat * m0 1%nat 7%nat - m2 2%nat 7%nat * m1 0%nat 4%nat * m0 1%nat 8%nat + m2 2%nat 5%nat * m1 1%nat 9%nat * m0 0%nat 2%nat + m2 2%nat 5%nat * m1 1%nat 7%nat * m0 0%nat 7%nat + m2 2%nat 5%nat * m1 1%nat 2%nat * m0 0%nat 9%nat - m2 2%nat 5%nat * m1 0%nat 9%nat * m0 1%nat 2%nat - m2 2%nat 5%nat * m1 0%nat 7%nat * m0 1%nat 7%nat - m2 2%nat 5%nat * m1 0%nat 2%nat * m0 1%nat 9%nat + m2 2%nat 4%nat * m1 1%nat 9%nat * m0 0%nat 4%nat + m2 2%nat 4%nat * m1 1%nat 8%nat * m0 0%nat 7%nat + m2 2%nat 4%nat * m1 1%nat 7%nat * m0 0%nat 8%nat + m2 2%nat 4%nat * m1 1%nat 4%nat * m0 0%nat 9%nat - m2 2%nat 4%nat * m1 0%nat 9%nat * m0 1%nat 4%nat - m2 2%nat 4%nat * m1 0%nat 8%nat * m0 1%nat 7%nat - m2 2%nat 4%nat * m1 0%nat 7%nat * m0 1%nat 8%nat - m2 2%nat 4%nat * m1 0%nat 4%nat * m0 1%nat 9%nat + m2 2%nat 2%nat * m1 1%nat 9%nat * m0 0%nat 5%nat + m2 2%nat 2%nat * m1 1%nat 8%nat * m0 0%nat 8%nat + m2 2%nat 2%nat * m1 1%nat 5%nat * m0 0%nat 9%nat - m2 2%nat 2%nat * m1 0%nat 9%nat * m0 1%nat 5%nat - m2 2%nat 2%nat * m1 0%nat 8%nat * m0 1%nat 8%nat - m2 2%nat 2%nat * m1 0%nat 5%nat * m0 1%nat 9%nat - m2 1%nat 9%nat * m1 2%nat 5%nat * m0 0%nat 2%nat - m2 1%nat 9%nat * m1 2%nat 4%nat * m0 0%nat 4%nat - m2 1%nat 9%nat * m1 2%nat 2%nat * m0 0%nat 5%nat + m2 1%nat 9%nat * m1 0%nat 5%nat * m0 2%nat 2%nat + m2 1%nat 9%nat * m1 0%nat 4%nat * m0 2%nat 4%nat + m2 1%nat 9%nat * m1 0%nat 2%nat * m0 2%nat 5%nat - m2 1%nat 8%nat * m1 2%nat 8%nat * m0 0%nat 2%nat - m2 1%nat 8%nat * m1 2%nat 7%nat * m0 0%nat 4%nat - m2 1%nat 8%nat * m1 2%nat 4%nat * m0 0%nat 7%nat - m2 1%nat 8%nat * m1 2%nat 2%nat * m0 0%nat 8%nat + m2 1%nat 8%nat * m1 0%nat 8%nat * m0 2%nat 2%nat + m2 1%nat 8%nat * m1 0%nat 7%nat * m0 2%nat 4%nat + m2 1%nat 8%nat * m1 0%nat 4%nat * m0 2%nat 7%nat + m2 1%nat 8%nat * m1 0%nat 2%nat * m0 2%nat 8%nat - m2 1%nat 7%nat * m1 2%nat 8%nat * m0 0%nat 4%nat - m2 1%nat 7%nat * m1 2%nat 7%nat * m0 0%nat 5%nat - m2 1%nat 7%nat * m1 2%nat 5%nat * m0 0%nat 7%nat - m2 1%nat 7%nat * m1 2%nat 4%nat * m0 0%nat 8%nat + m2 1%nat 7%nat * m1 0%nat 8%nat * m0 2%nat 4%nat + m2 1%nat 7%nat * m1 0%nat 7%nat * m0 2%nat 5%nat + m2 1%nat 7%nat * m1 0%nat 5%nat * m0 2%nat 7%nat + m2 1%nat 7%nat * m1 0%nat 4%nat * m0 2%nat 8%nat - m2 1%nat 5%nat * m1 2%nat 9%nat * m0 0%nat 2%nat - m2 1%nat 5%nat * m1 2%nat 7%nat * m0 0%nat 7%nat - m2 1%nat 5%nat * m1 2%nat 2%nat * m0 0%nat 9%nat + m2 1%nat 5%nat * m1 0%nat 9%nat * m0 2%nat 2%nat + m2 1%nat 5%nat * m1 0%nat 7%nat * m0 2%nat 7%nat + m2 1%nat 5%nat * m1 0%nat 2%nat * m0 2%nat 9%nat - m2 1%nat 4%nat * m1 2%nat 9%nat * m0 0%nat 4%nat - m2 1%nat 4%nat * m1 2%nat 8%nat * m0 0%nat 7%nat - m2 1%nat 4%nat * m1 2%nat 7%nat * m0 0%nat 8%nat - m2 1%nat 4%nat * m1 2%nat 4%nat * m0 0%nat 9%nat + m2 1%nat 4%nat * m1 0%nat 9%nat * m0 2%nat 4%nat + m2 1%nat 4%nat * m1 0%nat 8%nat * m0 2%nat 7%nat + m2 1%nat 4%nat * m1 0%nat 7%nat * m0 2%nat 8%nat + m2 1%nat 4%nat * m1 0%nat 4%nat * m0 2%nat 9%nat - m2 1%nat 2%nat * m1 2%nat 9%nat * m0 0%nat 5%nat - m2 1%nat 2%nat * m1 2%nat 8%nat * m0 0%nat 8%nat - m2 1%nat 2%nat * m1 2%nat 5%nat * m0 0%nat 9%nat + m2 1%nat 2%nat * m1 0%nat 9%nat * m0 2%nat 5%nat + m2 1%nat 2%nat * m1 0%nat 8%nat * m0 2%nat 8%nat + m2 1%nat 2%nat * m1 0%nat 5%nat * m0 2%nat 9%nat + m2 0%nat 9%nat * m1 2%nat 5%nat * m0 1%nat 2%nat + m2 0%nat 9%nat * m1 2%nat 4%nat * m0 1%nat 4%nat + m2 0%nat 9%nat * m1 2%nat 2%nat * m0 1%nat 5%nat - m2 0%nat 9%nat * m1 1%nat 5%nat * m0 2%nat 2%nat - m2 0%nat 9%nat * m1 1%nat 4%nat * m0 2%nat 4%nat - m2 0%nat 9%nat * m1 1%nat 2%nat * m0 2%nat 5%nat + m2 0%nat 8%nat * m1 2%nat 8%nat * m0 1%nat 2%nat + m2 0%nat 8%nat * m1 2%nat 7%nat * m0 1%nat 4%nat + m2 0%nat 8%nat * m1 2%nat 4%nat * m0 1%nat 7%nat + m2 0%nat 8%nat * m1 2%nat 2%nat * m0 1%nat 8%nat - m2 0%nat 8%nat * m1 1%nat 8%nat * m0 2%nat 2%nat - m2 0%nat 8%nat * m1 1%nat 7%nat * m0 2%nat 4%nat - m2 0%nat 8%nat * m1 1%nat 4%nat * m0 2%nat 7%nat - m2 0%nat 8%nat * m1 1%nat 2%nat * m0 2%nat 8%nat + m2 0%nat 7%nat * m1 2%nat 8%nat * m0 1%nat 4%nat + m2 0%nat 7%nat * m1 2%nat 7%nat * m0 1%nat 5%nat + m2 0%nat 7%nat * m1 2%nat 5%nat * m0 1%nat 7%nat + m2 0%nat 7%nat * m1 2%nat 4%nat * m0 1%nat 8%nat - m2 0%nat 7%nat * m1 1%nat 8%nat * m0 2%nat 4%nat - m2 0%nat 7%nat * m1 1%nat 7%nat * m0 2%nat 5%nat - m2 0%nat 7%nat * m1 1%nat 5%nat * m0 2%nat 7%nat - m2 0%nat 7%nat * m1 1%nat 4%nat * m0 2%nat 8%nat + m2 0%nat 5%nat * m1 2%nat 9%nat * m0 1%nat 2%nat + m2 0%nat 5%nat * m1 2%nat 7%nat * m0 1%nat 7%nat + m2 0%nat 5%nat * m1 2%nat 2%nat * m0 1%nat 9%nat - m2 0%nat 5%nat * m1 1%nat 9%nat * m0 2%nat 2%nat - m2 0%nat 5%nat * m1 1%nat 7%nat * m0 2%nat 7%nat - m2 0%nat 5%nat * m1 1%nat 2%nat * m0 2%nat 9%nat + m2 0%nat 4%nat * m1 2%nat 9%nat * m0 1%nat 4%nat + m2 0%nat 4%nat * m1 2%nat 8%nat * m0 1%nat 7%nat + m2 0%nat 4%nat * m1 2%nat 7%nat * m0 1%nat 8%nat + m2 0%nat 4%nat * m1 2%nat 4%nat * m0 1%nat 9%nat - m2 0%nat 4%nat * m1 1%nat 9%nat * m0 2%nat 4%nat - m2 0%nat 4%nat * m1 1%nat 8%nat * m0 2%nat 7%nat - m2 0%nat 4%nat * m1 1%nat 7%nat * m0 2%nat 8%nat - m2 0%nat 4%nat * m1 1%nat 4%nat * m0 2%nat 9%nat + m2 0%nat 2%nat * m1 2%nat 9%nat * m0 1%nat 5%nat + m2 0%nat 2%nat * m1 2%nat 8%nat * m0 1%nat 8%nat + m2 0%nat 2%nat * m1 2%nat 5%nat * m0 1%nat 9%nat - m2 0%nat 2%nat * m1 1%nat 9%nat * m0 2%nat 5%nat - m2 0%nat 2%nat * m1 1%nat 8%nat * m0 2%nat 8%nat - m2 0%nat 2%nat * m1 1%nat 5%nat * m0 2%nat 9%nat;
    m2 2%nat 9%nat * m1 1%nat 5%nat * m0 0%nat 3%nat + m2 2%nat 9%nat * m1 1%nat 3%nat * m0 0%nat 5%nat - m2 2%nat 9%nat * m1 0%nat 5%nat * m0 1%nat 3%nat - m2 2%nat 9%nat * m1 0%nat 3%nat * m0 1%nat 5%nat + m2 2%nat 8%nat * m1 1%nat 8%nat * m0 0%nat 3%nat + m2 2%nat 8%nat * m1 1%nat 6%nat * m0 0%nat 5%nat + m2 2%nat 8%nat * m1 1%nat 5%nat * m0 0%nat 6%nat + m2 2%nat 8%nat * m1 1%nat 3%nat * m0 0%nat 8%nat - m2 2%nat 8%nat * m1 0%nat 8%nat * m0 1%nat 3%nat - m2 2%nat 8%nat * m1 0%nat 6%nat * m0 1%nat 5%nat - m2 2%nat 8%nat * m1 0%nat 5%nat * m0 1%nat 6%nat - m2 2%nat 8%nat * m1 0%nat 3%nat * m0 1%nat 8%nat + m2 2%nat 6%nat * m1 1%nat 8%nat * m0 0%nat 5%nat + m2 2%nat 6%nat * m1 1%nat 5%nat * m0 0%nat 8%nat - m2 2%nat 6%nat * m1 0%nat 8%nat * m0 1%nat 5%nat - m2 2%nat 6%nat * m1 0%nat 5%nat * m0 1%nat 8%nat + m2 2%nat 5%nat * m1 1%nat 9%nat * m0 0%nat 3%nat + m2 2%nat 5%nat * m1 1%nat 8%nat * m0 0%nat 6%nat + m2 2%nat 5%nat * m1 1%nat 6%nat * m0 0%nat 8%nat + m2 2%nat 5%nat * m1 1%nat 3%nat * m0 0%nat 9%nat - m2 2%nat 5%nat * m1 0%nat 9%nat * m0 1%nat 3%nat - m2 2%nat 5%nat * m1 0%nat 8%nat * m0 1%nat 6%nat - m2 2%nat 5%nat * m1 0%nat 6%nat * m0 1%nat 8%nat - m2 2%nat 5%nat * m1 0%nat 3%nat * m0 1%nat 9%nat + m2 2%nat 3%nat * m1 1%nat 9%nat * m0 0%nat 5%nat + m2 2%nat 3%nat * m1 1%nat 8%nat * m0 0%nat 8%nat + m2 2%nat 3%nat * m1 1%nat 5%nat * m0 0%nat 9%nat - m2 2%nat 3%nat * m1 0%nat 9%nat * m0 1%nat 5%nat - m2 2%nat 3%nat * m1 0%nat 8%nat * m0 1%nat 8%nat - m2 2%nat 3%nat * m1 0%nat 5%nat * m0 1%nat 9%nat - m2 1%nat 9%nat * m1 2%nat 5%nat * m0 0%nat 3%nat - m2 1%nat 9%nat * m1 2%nat 3%nat * m0 0%nat 5%nat + m2 1%nat 9%nat * m1 0%nat 5%nat * m0 2%nat 3%nat + m2 1%nat 9%nat * m1 0%nat 3%nat * m0 2%nat 5%nat - m2 1%nat 8%nat * m1 2%nat 8%nat * m0 0%nat 3%nat - m2 1%nat 8%nat * m1 2%nat 6%nat * m0 0%nat 5%nat - m2 1%nat 8%nat * m1 2%nat 5%nat * m0 0%nat 6%nat - m2 1%nat 8%nat * m1 2%nat 3%nat * m0 0%nat 8%nat + m2 1%nat 8%nat * m1 0%nat 8%nat * m0 2%nat 3%nat + m2 1%nat 8%nat * m1 0%nat 6%nat * m0 2%nat 5%nat + m2 1%nat 8%nat * m1 0%nat 5%nat * m0 2%nat 6%nat + m2 1%nat 8%nat * m1 0%nat 3%nat * m0 2%nat 8%nat - m2 1%nat 6%nat * m1 2%nat 8%nat * m0 0%nat 5%nat - m2 1%nat 6%nat * m1 2%nat 5%nat * m0 0%nat 8%nat + m2 1%nat 6%nat * m1 0%nat 8%nat * m0 2%nat 5%nat + m2 1%nat 6%nat * m1 0%nat 5%nat * m0 2%nat 8%nat - m2 1%nat 5%nat * m1 2%nat 9%nat * m0 0%nat 3%nat - m2 1%nat 5%nat * m1 2%nat 8%nat * m0 0%nat 6%nat - m2 1%nat 5%nat * m1 2%nat 6%nat * m0 0%nat 8%nat - m2 1%nat 5%nat * m1 2%nat 3%nat * m0 0%nat 9%nat + m2 1%nat 5%nat * m1 0%nat 9%nat * m0 2%nat 3%nat + m2 1%nat 5%nat * m1 0%nat 8%nat * m0 2%nat 6%nat + m2 1%nat 5%nat * m1 0%nat 6%nat * m0 2%nat 8%nat + m2 1%nat 5%nat * m1 0%nat 3%nat * m0 2%nat 9%nat - m2 1%nat 3%nat * m1 2%nat 9%nat * m0 0%nat 5%nat - m2 1%nat 3%nat * m1 2%nat 8%nat * m0 0%nat 8%nat - m2 1%nat 3%nat * m1 2%nat 5%nat * m0 0%nat 9%nat + m2 1%nat 3%nat * m1 0%nat 9%nat * m0 2%nat 5%nat + m2 1%nat 3%nat * m1 0%nat 8%nat * m0 2%nat 8%nat + m2 1%nat 3%nat * m1 0%nat 5%nat * m0 2%nat 9%nat + m2 0%nat 9%nat * m1 2%nat 5%nat * m0 1%nat 3%nat + m2 0%nat 9%nat * m1 2%nat 3%nat * m0 1%nat 5%nat - m2 0%nat 9%nat * m1 1%nat 5%nat * m0 2%nat 3%nat - m2 0%nat 9%nat * m1 1%nat 3%nat * m0 2%nat 5%nat + m2 0%nat 8%nat * m1 2%nat 8%nat * m0 1%nat 3%nat + m2 0%nat 8%nat * m1 2%nat 6%nat * m0 1%nat 5%nat + m2 0%nat 8%nat * m1 2%nat 5%nat * m0 1%nat 6%nat + m2 0%nat 8%nat * m1 2%nat 3%nat * m0 1%nat 8%nat - m2 0%nat 8%nat * m1 1%nat 8%nat * m0 2%nat 3%nat - m2 0%nat 8%nat * m1 1%nat 6%nat * m0 2%nat 5%nat - m2 0%nat 8%nat * m1 1%nat 5%nat * m0 2%nat 6%nat - m2 0%nat 8%nat * m1 1%nat 3%nat * m0 2%nat 8%nat + m2 0%nat 6%nat * m1 2%nat 8%nat * m0 1%nat 5%nat + m2 0%nat 6%nat * m1 2%nat 5%nat * m0 1%nat 8%nat - m2 0%nat 6%nat * m1 1%nat 8%nat * m0 2%nat 5%nat - m2 0%nat 6%nat * m1 1%nat 5%nat * m0 2%nat 8%nat + m2 0%nat 5%nat * m1 2%nat 9%nat * m0 1%nat 3%nat + m2 0%nat 5%nat * m1 2%nat 8%nat * m0 1%nat 6%nat + m2 0%nat 5%nat * m1 2%nat 6%nat * m0 1%nat 8%nat + m2 0%nat 5%nat * m1 2%nat 3%nat * m0 1%nat 9%nat - m2 0%nat 5%nat * m1 1%nat 9%nat * m0 2%nat 3%nat - m2 0%nat 5%nat * m1 1%nat 8%nat * m0 2%nat 6%nat - m2 0%nat 5%nat * m1 1%nat 6%nat * m0 2%nat 8%nat - m2 0%nat 5%nat * m1 1%nat 3%nat * m0 2%nat 9%nat + m2 0%nat 3%nat * m1 2%nat 9%nat * m0 1%nat 5%nat + m2 0%nat 3%nat * m1 2%nat 8%nat * m0 1%nat 8%nat + m2 0%nat 3%nat * m1 2%nat 5%nat * m0 1%nat 9%nat - m2 0%nat 3%nat * m1 1%nat 9%nat * m0 2%nat 5%nat - m2 0%nat 3%nat * m1 1%nat 8%nat * m0 2%nat 8%nat - m2 0%nat 3%nat * m1 1%nat 5%nat * m0 2%nat 9%nat;
    m2 2%nat 9%nat * m1 1%nat 5%nat * m0 0%nat 4%nat + m2 2%nat 9%nat * m1 1%nat 4%nat * m0 0%nat 5%nat - m2 2%nat 9%nat * m1 0%nat 5%nat * m0 1%nat 4%nat - m2 2%nat 9%nat * m1 0%nat 4%nat * m0 1%nat 5%nat + m2 2%nat 8%nat * m1 1%nat 8%nat * m0 0%nat 4%nat + m2 2%nat 8%nat * m1 1%nat 7%nat * m0 0%nat 5%nat + m2 2%nat 8%nat * m1 1%nat 5%nat * m0 0%nat 7%nat + m2 2%nat 8%nat * m1 1%nat 4%nat * m0 0%nat 8%nat - m2 2%nat 8%nat * m1 0%nat 8%nat * m0 1%nat 4%nat - m2 2%nat 8%nat * m1 0%nat 7%nat * m0 1%nat 5%nat - m2 2%nat 8%nat * m1 0%nat 5%nat * m0 1%nat 7%nat - m2 2%nat 8%nat * m1 0%nat 4%nat * m0 1%nat 8%nat + m2 2%nat 7%nat * m1 1%nat 8%nat * m0 0%nat 5%nat + m2 2%nat 7%nat * m1 1%nat 5%nat * m0 0%nat 8%nat - m2 2%nat 7%nat * m1 0%nat 8%nat * m0 1%nat 5%nat - m2 2%nat 7%nat * m1 0%nat 5%nat * m0 1%nat 8%nat + m2 2%nat 5%nat * m1 1%nat 9%nat * m0 0%nat 4%nat + m2 2%nat 5%nat * m1 1%nat 8%nat * m0 0%nat 7%nat + m2 2%nat 5%nat * m1 1%nat 7%nat * m0 0%nat 8%nat + m2 2%nat 5%nat * m1 1%nat 4%nat * m0 0%nat 9%nat - m2 2%nat 5%nat * m1 0%nat 9%nat * m0 1%nat 4%nat - m2 2%nat 5%nat * m1 0%nat 8%nat * m0 1%nat 7%nat - m2 2%nat 5%nat * m1 0%nat 7%nat * m0 1%nat 8%nat - m2 2%nat 5%nat * m1 0%nat 4%nat * m0 1%nat 9%nat + m2 2%nat 4%nat * m1 1%nat 9%nat * m0 0%nat 5%nat + m2 2%nat 4%nat * m1 1%nat 8%nat * m0 0%nat 8%nat + m2 2%nat 4%nat * m1 1%nat 5%nat * m0 0%nat 9%nat - m2 2%nat 4%nat * m1 0%nat 9%nat * m0 1%nat 5%nat - m2 2%nat 4%nat * m1 0%nat 8%nat * m0 1%nat 8%nat - m2 2%nat 4%nat * m1 0%nat 5%nat * m0 1%nat 9%nat - m2 1%nat 9%nat * m1 2%nat 5%nat * m0 0%nat 4%nat - m2 1%nat 9%nat * m1 2%nat 4%nat * m0 0%nat 5%nat + m2 1%nat 9%nat * m1 0%nat 5%nat * m0 2%nat 4%nat + m2 1%nat 9%nat * m1 0%nat 4%nat * m0 2%nat 5%nat - m2 1%nat 8%nat * m1 2%nat 8%nat * m0 0%nat 4%nat - m2 1%nat 8%nat * m1 2%nat 7%nat * m0 0%nat 5%nat - m2 1%nat 8%nat * m1 2%nat 5%nat * m0 0%nat 7%nat - m2 1%nat 8%nat * m1 2%nat 4%nat * m0 0%nat 8%nat + m2 1%nat 8%nat * m1 0%nat 8%nat * m0 2%nat 4%nat + m2 1%nat 8%nat * m1 0%nat 7%nat * m0 2%nat 5%nat + m2 1%nat 8%nat * m1 0%nat 5%nat * m0 2%nat 7%nat + m2 1%nat 8%nat * m1 0%nat 4%nat * m0 2%nat 8%nat - m2 1%nat 7%nat * m1 2%nat 8%nat * m0 0%nat 5%nat - m2 1%nat 7%nat * m1 2%nat 5%nat * m0 0%nat 8%nat + m2 1%nat 7%nat * m1 0%nat 8%nat * m0 2%nat 5%nat + m2 1%nat 7%nat * m1 0%nat 5%nat * m0 2%nat 8%nat - m2 1%nat 5%nat * m1 2%nat 9%nat * m0 0%nat 4%nat - m2 1%nat 5%nat * m1 2%nat 8%nat * m0 0%nat 7%nat - m2 1%nat 5%nat * m1 2%nat 7%nat * m0 0%nat 8%nat - m2 1%nat 5%nat * m1 2%nat 4%nat * m0 0%nat 9%nat + m2 1%nat 5%nat * m1 0%nat 9%nat * m0 2%nat 4%nat + m2 1%nat 5%nat * m1 0%nat 8%nat * m0 2%nat 7%nat + m2 1%nat 5%nat * m1 0%nat 7%nat * m0 2%nat 8%nat + m2 1%nat 5%nat * m1 0%nat 4%nat * m0 2%nat 9%nat - m2 1%nat 4%nat * m1 2%nat 9%nat * m0 0%nat 5%nat - m2 1%nat 4%nat * m1 2%nat 8%nat * m0 0%nat 8%nat - m2 1%nat 4%nat * m1 2%nat 5%nat * m0 0%nat 9%nat + m2 1%nat 4%nat * m1 0%nat 9%nat * m0 2%nat 5%nat + m2 1%nat 4%nat * m1 0%nat 8%nat * m0 2%nat 8%nat + m2 1%nat 4%nat * m1 0%nat 5%nat * m0 2%nat 9%nat + m2 0%nat 9%nat * m1 2%nat 5%nat * m0 1%nat 4%nat + m2 0%nat 9%nat * m1 2%nat 4%nat * m0 1%nat 5%nat - m2 0%nat 9%nat * m1 1%nat 5%nat * m0 2%nat 4%nat - m2 0%nat 9%nat * m1 1%nat 4%nat * m0 2%nat 5%nat + m2 0%nat 8%nat * m1 2%nat 8%nat * m0 1%nat 4%nat + m2 0%nat 8%nat * m1 2%nat 7%nat * m0 1%nat 5%nat + m2 0%nat 8%nat * m1 2%nat 5%nat * m0 1%nat 7%nat + m2 0%nat 8%nat * m1 2%nat 4%nat * m0 1%nat 8%nat - m2 0%nat 8%nat * m1 1%nat 8%nat * m0 2%nat 4%nat - m2 0%nat 8%nat * m1 1%nat 7%nat * m0 2%nat 5%nat - m2 0%nat 8%nat * m1 1%nat 5%nat * m0 2%nat 7%nat - m2 0%nat 8%nat * m1 1%nat 4%nat * m0 2%nat 8%nat + m2 0%nat 7%nat * m1 2%nat 8%nat * m0 1%nat 5%nat + m2 0%nat 7%nat * m1 2%nat 5%nat * m0 1%nat 8%nat - m2 0%nat 7%nat * m1 1%nat 8%nat * m0 2%nat 5%nat - m2 0%nat 7%nat * m1 1%nat 5%nat * m0 2%nat 8%nat + m2 0%nat 5%nat * m1 2%nat 9%nat * m0 1%nat 4%nat + m2 0%nat 5%nat * m1 2%nat 8%nat * m0 1%nat 7%nat + m2 0%nat 5%nat * m1 2%nat 7%nat * m0 1%nat 8%nat + m2 0%nat 5%nat * m1 2%nat 4%nat * m0 1%nat 9%nat - m2 0%nat 5%nat * m1 1%nat 9%nat * m0 2%nat 4%nat - m2 0%nat 5%nat * m1 1%nat 8%nat * m0 2%nat 7%nat - m2 0%nat 5%nat * m1 1%nat 7%nat * m0 2%nat 8%nat - m2 0%nat 5%nat * m1 1%nat 4%nat * m0 2%nat 9%nat + m2 0%nat 4%nat * m1 2%nat 9%nat * m0 1%nat 5%nat + m2 0%nat 4%nat * m1 2%nat 8%nat * m0 1%nat 8%nat + m2 0%nat 4%nat * m1 2%nat 5%nat * m0 1%nat 9%nat - m2 0%nat 4%nat * m1 1%nat 9%nat * m0 2%nat 5%nat - m2 0%nat 4%nat * m1 1%nat 8%nat * m0 2%nat 8%nat - m2 0%nat 4%nat * m1 1%nat 5%nat * m0 2%nat 9%nat;
    m2 2%nat 9%nat * m1 1%nat 5%nat * m0 0%nat 5%nat - m2 2%nat 9%nat * m1 0%nat 5%nat * m0 1%nat 5%nat + m2 2%nat 8%nat * m1 1%nat 8%nat * m0 0%nat 5%nat + m2 2%nat 8%nat * m1 1%nat 5%nat * m0 0%nat 8%nat - m2 2%nat 8%nat * m1 0%nat 8%nat * m0 1%nat 5%nat - m2 2%nat 8%nat * m1 0%nat 5%nat * m0 1%nat 8%nat + m2 2%nat 5%nat * m1 1%nat 9%nat * m0 0%nat 5%nat + m2 2%nat 5%nat * m1 1%nat 8%nat * m0 0%nat 8%nat + m2 2%nat 5%nat * m1 1%nat 5%nat * m0 0%nat 9%nat - m2 2%nat 5%nat * m1 0%nat 9%nat * m0 1%nat 5%nat - m2 2%nat 5%nat * m1 0%nat 8%nat * m0 1%nat 8%nat - m2 2%nat 5%nat * m1 0%nat 5%nat * m0 1%nat 9%nat - m2 1%nat 9%nat * m1 2%nat 5%nat * m0 0%nat 5%nat + m2 1%nat 9%nat * m1 0%nat 5%nat * m0 2%nat 5%nat - m2 1%nat 8%nat * m1 2%nat 8%nat * m0 0%nat 5%nat - m2 1%nat 8%nat * m1 2%nat 5%nat * m0 0%nat 8%nat + m2 1%nat 8%nat * m1 0%nat 8%nat * m0 2%nat 5%nat + m2 1%nat 8%nat * m1 0%nat 5%nat * m0 2%nat 8%nat - m2 1%nat 5%nat * m1 2%nat 9%nat * m0 0%nat 5%nat - m2 1%nat 5%nat * m1 2%nat 8%nat * m0 0%nat 8%nat - m2 1%nat 5%nat * m1 2%nat 5%nat * m0 0%nat 9%nat + m2 1%nat 5%nat * m1 0%nat 9%nat * m0 2%nat 5%nat + m2 1%nat 5%nat * m1 0%nat 8%nat * m0 2%nat 8%nat + m2 1%nat 5%nat * m1 0%nat 5%nat * m0 2%nat 9%nat + m2 0%nat 9%nat * m1 2%nat 5%nat * m0 1%nat 5%nat - m2 0%nat 9%nat * m1 1%nat 5%nat * m0 2%nat 5%nat + m2 0%nat 8%nat * m1 2%nat 8%nat * m0 1%nat 5%nat + m2 0%nat 8%nat * m1 2%nat 5%nat * m0 1%nat 8%nat - m2 0%nat 8%nat * m1 1%nat 8%nat * m0 2%nat 5%nat - m2 0%nat 8%nat * m1 1%nat 5%nat * m0 2%nat 8%nat + m2 0%nat 5%nat * m1 2%nat 9%nat * m0 1%nat 5%nat + m2 0%nat 5%nat * m1 2%nat 8%nat * m0 1%nat 8%nat + m2 0%nat 5%nat * m1 2%nat 5%nat * m0 1%nat 9%nat - m2 0%nat 5%nat * m1 1%nat 9%nat * m0 2%nat 5%nat - m2 0%nat 5%nat * m1 1%nat 8%nat * m0 2%nat 8%nat - m2 0%nat 5%nat * m1 1%nat 5%nat * m0 2%nat 9%nat;
    m2 2%nat 9%nat * m1 1%nat 6%nat * m0 0%nat 0%nat + m2 2%nat 9%nat * m1 1%nat 0%nat * m0 0%nat 6%nat - m2 2%nat 9%nat * m1 0%nat 6%nat * m0 1%nat 0%nat - m2 2%nat 9%nat * m1 0%nat 0%nat * m0 1%nat 6%nat + m2 2%nat 6%nat * m1 1%nat 9%nat * m0 0%nat 0%nat + m2 2%nat 6%nat * m1 1%nat 6%nat * m0 0%nat 6%nat + m2 2%nat 6%nat * m1 1%nat 0%nat * m0 0%nat 9%nat - m2 2%nat 6%nat * m1 0%nat 9%nat * m0 1%nat 0%nat - m2 2%nat 6%nat * m1 0%nat 6%nat * m0 1%nat 6%nat - m2 2%nat 6%nat * m1 0%nat 0%nat * m0 1%nat 9%nat + m2 2%nat 0%nat * m1 1%nat 9%nat * m0 0%nat 6%nat + m2 2%nat 0%nat * m1 1%nat 6%nat * m0 0%nat 9%nat - m2 2%nat 0%nat * m1 0%nat 9%nat * m0 1%nat 6%nat - m2 2%nat 0%nat * m1 0%nat 6%nat * m0 1%nat 9%nat - m2 1%nat 9%nat * m1 2%nat 6%nat * m0 0%nat 0%nat - m2 1%nat 9%nat * m1 2%nat 0%nat * m0 0%nat 6%nat + m2 1%nat 9%nat * m1 0%nat 6%nat * m0 2%nat 0%nat + m2 1%nat 9%nat * m1 0%nat 0%nat * m0 2%nat 6%nat - m2 1%nat 6%nat * m1 2%nat 9%nat * m0 0%nat 0%nat - m2 1%nat 6%nat * m1 2%nat 6%nat * m0 0%nat 6%nat - m2 1%nat 6%nat * m1 2%nat 0%nat * m0 0%nat 9%nat + m2 1%nat 6%nat * m1 0%nat 9%nat * m0 2%nat 0%nat + m2 1%nat 6%nat * m1 0%nat 6%nat * m0 2%nat 6%nat + m2 1%nat 6%nat * m1 0%nat 0%nat * m0 2%nat 9%nat - m2 1%nat 0%nat * m1 2%nat 9%nat * m0 0%nat 6%nat - m2 1%nat 0%nat * m1 2%nat 6%nat * m0 0%nat 9%nat + m2 1%nat 0%nat * m1 0%nat 9%nat * m0 2%nat 6%nat + m2 1%nat 0%nat * m1 0%nat 6%nat * m0 2%nat 9%nat + m2 0%nat 9%nat * m1 2%nat 6%nat * m0 1%nat 0%nat + m2 0%nat 9%nat * m1 2%nat 0%nat * m0 1%nat 6%nat - m2 0%nat 9%nat * m1 1%nat 6%nat * m0 2%nat 0%nat - m2 0%nat 9%nat * m1 1%nat 0%nat * m0 2%nat 6%nat + m2 0%nat 6%nat * m1 2%nat 9%nat * m0 1%nat 0%nat + m2 0%nat 6%nat * m1 2%nat 6%nat * m0 1%nat 6%nat + m2 0%nat 6%nat * m1 2%nat 0%nat * m0 1%nat 9%nat - m2 0%nat 6%nat * m1 1%nat 9%nat * m0 2%nat 0%nat - m2 0%nat 6%nat * m1 1%nat 6%nat * m0 2%nat 6%nat - m2 0%nat 6%nat * m1 1%nat 0%nat * m0 2%nat 9%nat + m2 0%nat 0%nat * m1 2%nat 9%nat * m0 1%nat 6%nat + m2 0%nat 0%nat * m1 2%nat 6%nat * m0 1%nat 9%nat - m2 0%nat 0%nat * m1 1%nat 9%nat * m0 2%nat 6%nat - m2 0%nat 0%nat * m1 1%nat 6%nat * m0 2%nat 9%nat;
    m2 2%nat 9%nat * m1 1%nat 7%nat * m0 0%nat 0%nat + m2 2%nat 9%nat * m1 1%nat 6%nat * m0 0%nat 1%nat + m2 2%nat 9%nat * m1 1%nat 1%nat * m0 0%nat 6%nat + m2 2%nat 9%nat * m1 1%nat 0%nat * m0 0%nat 7%nat - m2 2%nat 9%nat * m1 0%nat 7%nat * m0 1%nat 0%nat - m2 2%nat 9%nat * m1 0%nat 6%nat * m0 1%nat 1%nat - m2 2%nat 9%nat * m1 0%nat 1%nat * m0 1%nat 6%nat - m2 2%nat 9%nat * m1 0%nat 0%nat * m0 1%nat 7%nat + m2 2%nat 7%nat * m1 1%nat 9%nat * m0 0%nat 0%nat + m2 2%nat 7%nat * m1 1%nat 6%nat * m0 0%nat 6%nat + m2 2%nat 7%nat * m1 1%nat 0%nat * m0 0%nat 9%nat - m2 2%nat 7%nat * m1 0%nat 9%nat * m0 1%nat 0%nat - m2 2%nat 7%nat * m1 0%nat 6%nat * m0 1%nat 6%nat - m2 2%nat 7%nat * m1 0%nat 0%nat * m0 1%nat 9%nat + m2 2%nat 6%nat * m1 1%nat 9%nat * m0 0%nat 1%nat + m2 2%nat 6%nat * m1 1%nat 7%nat * m0 0%nat 6%nat + m2 2%nat 6%nat * m1 1%nat 6%nat * m0 0%nat 7%nat + m2 2%nat 6%nat * m1 1%nat 1%nat * m0 0%nat 9%nat - m2 2%nat 6%nat * m1 0%nat 9%nat * m0 1%nat 1%nat - m2 2%nat 6%nat * m1 0%nat 7%nat * m0 1%nat 6%nat - m2 2%nat 6%nat * m1 0%nat 6%nat * m0 1%nat 7%nat - m2 2%nat 6%nat * m1 0%nat 1%nat * m0 1%nat 9%nat + m2 2%nat 1%nat * m1 1%nat 9%nat * m0 0%nat 6%nat + m2 2%nat 1%nat * m1 1%nat 6%nat * m0 0%nat 9%nat - m2 2%nat 1%nat * m1 0%nat 9%nat * m0 1%nat 6%nat - m2 2%nat 1%nat * m1 0%nat 6%nat * m0 1%nat 9%nat + m2 2%nat 0%nat * m1 1%nat 9%nat * m0 0%nat 7%nat + m2 2%nat 0%nat * m1 1%nat 7%nat * m0 0%nat 9%nat - m2 2%nat 0%nat * m1 0%nat 9%nat * m0 1%nat 7%nat - m2 2%nat 0%nat * m1 0%nat 7%nat * m0 1%nat 9%nat - m2 1%nat 9%nat * m1 2%nat 7%nat * m0 0%nat 0%nat - m2 1%nat 9%nat * m1 2%nat 6%nat * m0 0%nat 1%nat - m2 1%nat 9%nat * m1 2%nat 1%nat * m0 0%nat 6%nat - m2 1%nat 9%nat * m1 2%nat 0%nat * m0 0%nat 7%nat + m2 1%nat 9%nat * m1 0%nat 7%nat * m0 2%nat 0%nat + m2 1%nat 9%nat * m1 0%nat 6%nat * m0 2%nat 1%nat + m2 1%nat 9%nat * m1 0%nat 1%nat * m0 2%nat 6%nat + m2 1%nat 9%nat * m1 0%nat 0%nat * m0 2%nat 7%nat - m2 1%nat 7%nat * m1 2%nat 9%nat * m0 0%nat 0%nat - m2 1%nat 7%nat * m1 2%nat 6%nat * m0 0%nat 6%nat - m2 1%nat 7%nat * m1 2%nat 0%nat * m0 0%nat 9%nat + m2 1%nat 7%nat * m1 0%nat 9%nat * m0 2%nat 0%nat + m2 1%nat 7%nat * m1 0%nat 6%nat * m0 2%nat 6%nat + m2 1%nat 7%nat * m1 0%nat 0%nat * m0 2%nat 9%nat - m2 1%nat 6%nat * m1 2%nat 9%nat * m0 0%nat 1%nat - m2 1%nat 6%nat * m1 2%nat 7%nat * m0 0%nat 6%nat - m2 1%nat 6%nat * m1 2%nat 6%nat * m0 0%nat 7%nat - m2 1%nat 6%nat * m1 2%nat 1%nat * m0 0%nat 9%nat + m2 1%nat 6%nat * m1 0%nat 9%nat * m0 2%nat 1%nat + m2 1%nat 6%nat * m1 0%nat 7%nat * m0 2%nat 6%nat + m2 1%nat 6%nat * m1 0%nat 6%nat * m0 2%nat 7%nat + m2 1%nat 6%nat * m1 0%nat 1%nat * m0 2%nat 9%nat - m2 1%nat 1%nat * m1 2%nat 9%nat * m0 0%nat 6%nat - m2 1%nat 1%nat * m1 2%nat 6%nat * m0 0%nat 9%nat + m2 1%nat 1%nat * m1 0%nat 9%nat * m0 2%nat 6%nat + m2 1%nat 1%nat * m1 0%nat 6%nat * m0 2%nat 9%nat - m2 1%nat 0%nat * m1 2%nat 9%nat * m0 0%nat 7%nat - m2 1%nat 0%nat * m1 2%nat 7%nat * m0 0%nat 9%nat + m2 1%nat 0%nat * m1 0%nat 9%nat * m0 2%nat 7%nat + m2 1%nat 0%nat * m1 0%nat 7%nat * m0 2%nat 9%nat + m2 0%nat 9%nat * m1 2%nat 7%nat * m0 1%nat 0%nat + m2 0%nat 9%nat * m1 2%nat 6%nat * m0 1%nat 1%nat + m2 0%nat 9%nat * m1 2%nat 1%nat * m0 1%nat 6%nat + m2 0%nat 9%nat * m1 2%nat 0%nat * m0 1%nat 7%nat - m2 0%nat 9%nat * m1 1%nat 7%nat * m0 2%nat 0%nat - m2 0%nat 9%nat * m1 1%nat 6%nat * m0 2%nat 1%nat - m2 0%nat 9%nat * m1 1%nat 1%nat * m0 2%nat 6%nat - m2 0%nat 9%nat * m1 1%nat 0%nat * m0 2%nat 7%nat + m2 0%nat 7%nat * m1 2%nat 9%nat * m0 1%nat 0%nat + m2 0%nat 7%nat * m1 2%nat 6%nat * m0 1%nat 6%nat + m2 0%nat 7%nat * m1 2%nat 0%nat * m0 1%nat 9%nat - m2 0%nat 7%nat * m1 1%nat 9%nat * m0 2%nat 0%nat - m2 0%nat 7%nat * m1 1%nat 6%nat * m0 2%nat 6%nat - m2 0%nat 7%nat * m1 1%nat 0%nat * m0 2%nat 9%nat + m2 0%nat 6%nat * m1 2%nat 9%nat * m0 1%nat 1%nat + m2 0%nat 6%nat * m1 2%nat 7%nat * m0 1%nat 6%nat + m2 0%nat 6%nat * m1 2%nat 6%nat * m0 1%nat 7%nat + m2 0%nat 6%nat * m1 2%nat 1%nat * m0 1%nat 9%nat - m2 0%nat 6%nat * m1 1%nat 9%nat * m0 2%nat 1%nat - m2 0%nat 6%nat * m1 1%nat 7%nat * m0 2%nat 6%nat - m2 0%nat 6%nat * m1 1%nat 6%nat * m0 2%nat 7%nat - m2 0%nat 6%nat * m1 1%nat 1%nat * m0 2%nat 9%nat + m2 0%nat 1%nat * m1 2%nat 9%nat * m0 1%nat 6%nat + m2 0%nat 1%nat * m1 2%nat 6%nat * m0 1%nat 9%nat - m2 0%nat 1%nat * m1 1%nat 9%nat * m0 2%nat 6%nat - m2 0%nat 1%nat * m1 1%nat 6%nat * m0 2%nat 9%nat + m2 0%nat 0%nat * m1 2%nat 9%nat * m0 1%nat 7%nat + m2 0%nat 0%nat * m1 2%nat 7%nat * m0 1%nat 9%nat - m2 0%nat 0%nat * m1 1%nat 9%nat * m0 2%nat 7%nat - m2 0%nat 0%nat * m1 1%nat 7%nat * m0 2%nat 9%nat;
    m2 2%nat 9%nat * m1 1%nat 7%nat * m0 0%nat 1%nat + m2 2%nat 9%nat * m1 1%nat 6%nat * m0 0%nat 2%nat + m2 2%nat 9%nat * m1 1%nat 2%nat * m0 0%nat 6%nat + m2 2%nat 9%nat * m1 1%nat 1%nat * m0 0%nat 7%nat - m2 2%nat 9%nat * m1 0%nat 7%nat * m0 1%nat 1%nat - m2 2%nat 9%nat * m1 0%nat 6%nat * m0 1%nat 2%nat - m2 2%nat 9%nat * m1 0%nat 2%nat * m0 1%nat 6%nat - m2 2%nat 9%nat * m1 0%nat 1%nat * m0 1%nat 7%nat + m2 2%nat 7%nat * m1 1%nat 9%nat * m0 0%nat 1%nat + m2 2%nat 7%nat * m1 1%nat 7%nat * m0 0%nat 6%nat + m2 2%nat 7%nat * m1 1%nat 6%nat * m0 0%nat 7%nat + m2 2%nat 7%nat * m1 1%nat 1%nat * m0 0%nat 9%nat - m2 2%nat 7%nat * m1 0%nat 9%nat * m0 1%nat 1%nat - m2 2%nat 7%nat * m1 0%nat 7%nat * m0 1%nat 6%nat - m2 2%nat 7%nat * m1 0%nat 6%nat * m0 1%nat 7%nat - m2 2%nat 7%nat * m1 0%nat 1%nat * m0 1%nat 9%nat + m2 2%nat 6%nat * m1 1%nat 9%nat * m0 0%nat 2%nat + m2 2%nat 6%nat * m1 1%nat 7%nat * m0 0%nat 7%nat + m2 2%nat 6%nat * m1 1%nat 2%nat * m0 0%nat 9%nat - m2 2%nat 6%nat * m1 0%nat 9%nat * m0 1%nat 2%nat - m2 2%nat 6%nat * m1 0%nat 7%nat * m0 1%nat 7%nat - m2 2%nat 6%nat * m1 0%nat 2%nat * m0 1%nat 9%nat + m2 2%nat 2%nat * m1 1%nat 9%nat * m0 0%nat 6%nat + m2 2%nat 2%nat * m1 1%nat 6%nat * m0 0%nat 9%nat - m2 2%nat 2%nat * m1 0%nat 9%nat * m0 1%nat 6%nat - m2 2%nat 2%nat * m1 0%nat 6%nat * m0 1%nat 9%nat + m2 2%nat 1%nat * m1 1%nat 9%nat * m0 0%nat 7%nat + m2 2%nat 1%nat * m1 1%nat 7%nat * m0 0%nat 9%nat - m2 2%nat 1%nat * m1 0%nat 9%nat * m0 1%nat 7%nat - m2 2%nat 1%nat * m1 0%nat 7%nat * m0 1%nat 9%nat - m2 1%nat 9%nat * m1 2%nat 7%nat * m0 0%nat 1%nat - m2 1%nat 9%nat * m1 2%nat 6%nat * m0 0%nat 2%nat - m2 1%nat 9%nat * m1 2%nat 2%nat * m0 0%nat 6%nat - m2 1%nat 9%nat * m1 2%nat 1%nat * m0 0%nat 7%nat + m2 1%nat 9%nat * m1 0%nat 7%nat * m0 2%nat 1%nat + m2 1%nat 9%nat * m1 0%nat 6%nat * m0 2%nat 2%nat + m2 1%nat 9%nat * m1 0%nat 2%nat * m0 2%nat 6%nat + m2 1%nat 9%nat * m1 0%nat 1%nat * m0 2%nat 7%nat - m2 1%nat 7%nat * m1 2%nat 9%nat * m0 0%nat 1%nat - m2 1%nat 7%nat * m1 2%nat 7%nat * m0 0%nat 6%nat - m2 1%nat 7%nat * m1 2%nat 6%nat * m0 0%nat 7%nat - m2 1%nat 7%nat * m1 2%nat 1%nat * m0 0%nat 9%nat + m2 1%nat 7%nat * m1 0%nat 9%nat * m0 2%nat 1%nat + m2 1%nat 7%nat * m1 0%nat 7%nat * m0 2%nat 6%nat + m2 1%nat 7%nat * m1 0%nat 6%nat * m0 2%nat 7%nat + m2 1%nat 7%nat * m1 0%nat 1%nat * m0 2%nat 9%nat - m2 1%nat 6%nat * m1 2%nat 9%nat * m0 0%nat 2%nat - m2 1%nat 6%nat * m1 2%nat 7%nat * m0 0%nat 7%nat - m2 1%nat 6%nat * m1 2%nat 2%nat * m0 0%nat 9%nat + m2 1%nat 6%nat * m1 0%nat 9%nat * m0 2%nat 2%nat + m2 1%nat 6%nat * m1 0%nat 7%nat * m0 2%nat 7%nat + m2 1%nat 6%nat * m1 0%nat 2%nat * m0 2%nat 9%nat - m2 1%nat 2%nat * m1 2%nat 9%nat * m0 0%nat 6%nat - m2 1%nat 2%nat * m1 2%nat 6%nat * m0 0%nat 9%nat + m2 1%nat 2%nat * m1 0%nat 9%nat * m0 2%nat 6%nat + m2 1%nat 2%nat * m1 0%nat 6%nat * m0 2%nat 9%nat - m2 1%nat 1%nat * m1 2%nat 9%nat * m0 0%nat 7%nat - m2 1%nat 1%nat * m1 2%nat 7%nat * m0 0%nat 9%nat + m2 1%nat 1%nat * m1 0%nat 9%nat * m0 2%nat 7%nat + m2 1%nat 1%nat * m1 0%nat 7%nat * m0 2%nat 9%nat + m2 0%nat 9%nat * m1 2%nat 7%nat * m0 1%nat 1%nat + m2 0%nat 9%nat * m1 2%nat 6%nat * m0 1%nat 2%nat + m2 0%nat 9%nat * m1 2%nat 2%nat * m0 1%nat 6%nat + m2 0%nat 9%nat * m1 2%nat 1%nat * m0 1%nat 7%nat - m2 0%nat 9%nat * m1 1%nat 7%nat * m0 2%nat 1%nat - m2 0%nat 9%nat * m1 1%nat 6%nat * m0 2%nat 2%nat - m2 0%nat 9%nat * m1 1%nat 2%nat * m0 2%nat 6%nat - m2 0%nat 9%nat * m1 1%nat 1%nat * m0 2%nat 7%nat + m2 0%nat 7%nat * m1 2%nat 9%nat * m0 1%nat 1%nat + m2 0%nat 7%nat * m1 2%nat 7%nat * m0 1%nat 6%nat + m2 0%nat 7%nat * m1 2%nat 6%nat * m0 1%nat 7%nat + m2 0%nat 7%nat * m1 2%nat 1%nat * m0 1%nat 9%nat - m2 0%nat 7%nat * m1 1%nat 9%nat * m0 2%nat 1%nat - m2 0%nat 7%nat * m1 1%nat 7%nat * m0 2%nat 6%nat - m2 0%nat 7%nat * m1 1%nat 6%nat * m0 2%nat 7%nat - m2 0%nat 7%nat * m1 1%nat 1%nat * m0 2%nat 9%nat + m2 0%nat 6%nat * m1 2%nat 9%nat * m0 1%nat 2%nat + m2 0%nat 6%nat * m1 2%nat 7%nat * m0 1%nat 7%nat + m2 0%nat 6%nat * m1 2%nat 2%nat * m0 1%nat 9%nat - m2 0%nat 6%nat * m1 1%nat 9%nat * m0 2%nat 2%nat - m2 0%nat 6%nat * m1 1%nat 7%nat * m0 2%nat 7%nat - m2 0%nat 6%nat * m1 1%nat 2%nat * m0 2%nat 9%nat + m2 0%nat 2%nat * m1 2%nat 9%nat * m0 1%nat 6%nat + m2 0%nat 2%nat * m1 2%nat 6%nat * m0 1%nat 9%nat - m2 0%nat 2%nat * m1 1%nat 9%nat * m0 2%nat 6%nat - m2 0%nat 2%nat * m1 1%nat 6%nat * m0 2%nat 9%nat + m2 0%nat 1%nat * m1 2%nat 9%nat * m0 1%nat 7%nat + m2 0%nat 1%nat * m1 2%nat 7%nat * m0 1%nat 9%nat - m2 0%nat 1%nat * m1 1%nat 9%nat * m0 2%nat 7%nat - m2 0%nat 1%nat * m1 1%nat 7%nat * m0 2%nat 9%nat;
    m2 2%nat 9%nat * m1 1%nat 7%nat * m0 0%nat 2%nat + m2 2%nat 9%nat * m1 1%nat 2%nat * m0 0%nat 7%nat - m2 2%nat 9%nat * m1 0%nat 7%nat * m0 1%nat 2%nat - m2 2%nat 9%nat * m1 0%nat 2%nat * m0 1%nat 7%nat + m2 2%nat 7%nat * m1 1%nat 9%nat * m0 0%nat 2%nat + m2 2%nat 7%nat * m1 1%nat 7%nat * m0 0%nat 7%nat + m2 2%nat 7%nat * m1 1%nat 2%nat * m0 0%nat 9%nat - m2 2%nat 7%nat * m1 0%nat 9%nat * m0 1%nat 2%nat - m2 2%nat 7%nat * m1 0%nat 7%nat * m0 1%nat 7%nat - m2 2%nat 7%nat * m1 0%nat 2%nat * m0 1%nat 9%nat + m2 2%nat 2%nat * m1 1%nat 9%nat * m0 0%nat 7%nat + m2 2%nat 2%nat * m1 1%nat 7%nat * m0 0%nat 9%nat - m2 2%nat 2%nat * m1 0%nat 9%nat * m0 1%nat 7%nat - m2 2%nat 2%nat * m1 0%nat 7%nat * m0 1%nat 9%nat - m2 1%nat 9%nat * m1 2%nat 7%nat * m0 0%nat 2%nat - m2 1%nat 9%nat * m1 2%nat 2%nat * m0 0%nat 7%nat + m2 1%nat 9%nat * m1 0%nat 7%nat * m0 2%nat 2%nat + m2 1%nat 9%nat * m1 0%nat 2%nat * m0 2%nat 7%nat - m2 1%nat 7%nat * m1 2%nat 9%nat * m0 0%nat 2%nat - m2 1%nat 7%nat * m1 2%nat 7%nat * m0 0%nat 7%nat - m2 1%nat 7%nat * m1 2%nat 2%nat * m0 0%nat 9%nat + m2 1%nat 7%nat * m1 0%nat 9%nat * m0 2%nat 2%nat + m2 1%nat 7%nat * m1 0%nat 7%nat * m0 2%nat 7%nat + m2 1%nat 7%nat * m1 0%nat 2%nat * m0 2%nat 9%nat - m2 1%nat 2%nat * m1 2%nat 9%nat * m0 0%nat 7%nat - m2 1%nat 2%nat * m1 2%nat 7%nat * m0 0%nat 9%nat + m2 1%nat 2%nat * m1 0%nat 9%nat * m0 2%nat 7%nat + m2 1%nat 2%nat * m1 0%nat 7%nat * m0 2%nat 9%nat + m2 0%nat 9%nat * m1 2%nat 7%nat * m0 1%nat 2%nat + m2 0%nat 9%nat * m1 2%nat 2%nat * m0 1%nat 7%nat - m2 0%nat 9%nat * m1 1%nat 7%nat * m0 2%nat 2%nat - m2 0%nat 9%nat * m1 1%nat 2%nat * m0 2%nat 7%nat + m2 0%nat 7%nat * m1 2%nat 9%nat * m0 1%nat 2%nat + m2 0%nat 7%nat * m1 2%nat 7%nat * m0 1%nat 7%nat + m2 0%nat 7%nat * m1 2%nat 2%nat * m0 1%nat 9%nat - m2 0%nat 7%nat * m1 1%nat 9%nat * m0 2%nat 2%nat - m2 0%nat 7%nat * m1 1%nat 7%nat * m0 2%nat 7%nat - m2 0%nat 7%nat * m1 1%nat 2%nat * m0 2%nat 9%nat + m2 0%nat 2%nat * m1 2%nat 9%nat * m0 1%nat 7%nat + m2 0%nat 2%nat * m1 2%nat 7%nat * m0 1%nat 9%nat - m2 0%nat 2%nat * m1 1%nat 9%nat * m0 2%nat 7%nat - m2 0%nat 2%nat * m1 1%nat 7%nat * m0 2%nat 9%nat;
    m2 2%nat 9%nat * m1 1%nat 8%nat * m0 0%nat 0%nat + m2 2%nat 9%nat * m1 1%nat 6%nat * m0 0%nat 3%nat + m2 2%nat 9%nat * m1 1%nat 3%nat * m0 0%nat 6%nat + m2 2%nat 9%nat * m1 1%nat 0%nat * m0 0%nat 8%nat - m2 2%nat 9%nat * m1 0%nat 8%nat * m0 1%nat 0%nat - m2 2%nat 9%nat * m1 0%nat 6%nat * m0 1%nat 3%nat - m2 2%nat 9%nat * m1 0%nat 3%nat * m0 1%nat 6%nat - m2 2%nat 9%nat * m1 0%nat 0%nat * m0 1%nat 8%nat + m2 2%nat 8%nat * m1 1%nat 9%nat * m0 0%nat 0%nat + m2 2%nat 8%nat * m1 1%nat 6%nat * m0 0%nat 6%nat + m2 2%nat 8%nat * m1 1%nat 0%nat * m0 0%nat 9%nat - m2 2%nat 8%nat * m1 0%nat 9%nat * m0 1%nat 0%nat - m2 2%nat 8%nat * m1 0%nat 6%nat * m0 1%nat 6%nat - m2 2%nat 8%nat * m1 0%nat 0%nat * m0 1%nat 9%nat + m2 2%nat 6%nat * m1 1%nat 9%nat * m0 0%nat 3%nat + m2 2%nat 6%nat * m1 1%nat 8%nat * m0 0%nat 6%nat + m2 2%nat 6%nat * m1 1%nat 6%nat * m0 0%nat 8%nat + m2 2%nat 6%nat * m1 1%nat 3%nat * m0 0%nat 9%nat - m2 2%nat 6%nat * m1 0%nat 9%nat * m0 1%nat 3%nat - m2 2%nat 6%nat * m1 0%nat 8%nat * m0 1%nat 6%nat - m2 2%nat 6%nat * m1 0%nat 6%nat * m0 1%nat 8%nat - m2 2%nat 6%nat * m1 0%nat 3%nat * m0 1%nat 9%nat + m2 2%nat 3%nat * m1 1%nat 9%nat * m0 0%nat 6%nat + m2 2%nat 3%nat * m1 1%nat 6%nat * m0 0%nat 9%nat - m2 2%nat 3%nat * m1 0%nat 9%nat * m0 1%nat 6%nat - m2 2%nat 3%nat * m1 0%nat 6%nat * m0 1%nat 9%nat + m2 2%nat 0%nat * m1 1%nat 9%nat * m0 0%nat 8%nat + m2 2%nat 0%nat * m1 1%nat 8%nat * m0 0%nat 9%nat - m2 2%nat 0%nat * m1 0%nat 9%nat * m0 1%nat 8%nat - m2 2%nat 0%nat * m1 0%nat 8%nat * m0 1%nat 9%nat - m2 1%nat 9%nat * m1 2%nat 8%nat * m0 0%nat 0%nat - m2 1%nat 9%nat * m1 2%nat 6%nat * m0 0%nat 3%nat - m2 1%nat 9%nat * m1 2%nat 3%nat * m0 0%nat 6%nat - m2 1%nat 9%nat * m1 2%nat 0%nat * m0 0%nat 8%nat + m2 1%nat 9%nat * m1 0%nat 8%nat * m0 2%nat 0%nat + m2 1%nat 9%nat * m1 0%nat 6%nat * m0 2%nat 3%nat + m2 1%nat 9%nat * m1 0%nat 3%nat * m0 2%nat 6%nat + m2 1%nat 9%nat * m1 0%nat 0%nat * m0 2%nat 8%nat - m2 1%nat 8%nat * m1 2%nat 9%nat * m0 0%nat 0%nat - m2 1%nat 8%nat * m1 2%nat 6%nat * m0 0%nat 6%nat - m2 1%nat 8%nat * m1 2%nat 0%nat * m0 0%nat 9%nat + m2 1%nat 8%nat * m1 0%nat 9%nat * m0 2%nat 0%nat + m2 1%nat 8%nat * m1 0%nat 6%nat * m0 2%nat 6%nat + m2 1%nat 8%nat * m1 0%nat 0%nat * m0 2%nat 9%nat - m2 1%nat 6%nat * m1 2%nat 9%nat * m0 0%nat 3%nat - m2 1%nat 6%nat * m1 2%nat 8%nat * m0 0%nat 6%nat - m2 1%nat 6%nat * m1 2%nat 6%nat * m0 0%nat 8%nat - m2 1%nat 6%nat * m1 2%nat 3%nat * m0 0%nat 9%nat + m2 1%nat 6%nat * m1 0%nat 9%nat * m0 2%nat 3%nat + m2 1%nat 6%nat * m1 0%nat 8%nat * m0 2%nat 6%nat + m2 1%nat 6%nat * m1 0%nat 6%nat * m0 2%nat 8%nat + m2 1%nat 6%nat * m1 0%nat 3%nat * m0 2%nat 9%nat - m2 1%nat 3%nat * m1 2%nat 9%nat * m0 0%nat 6%nat - m2 1%nat 3%nat * m1 2%nat 6%nat * m0 0%nat 9%nat + m2 1%nat 3%nat * m1 0%nat 9%nat * m0 2%nat 6%nat + m2 1%nat 3%nat * m1 0%nat 6%nat * m0 2%nat 9%nat - m2 1%nat 0%nat * m1 2%nat 9%nat * m0 0%nat 8%nat - m2 1%nat 0%nat * m1 2%nat 8%nat * m0 0%nat 9%nat + m2 1%nat 0%nat * m1 0%nat 9%nat * m0 2%nat 8%nat + m2 1%nat 0%nat * m1 0%nat 8%nat * m0 2%nat 9%nat + m2 0%nat 9%nat * m1 2%nat 8%nat * m0 1%nat 0%nat + m2 0%nat 9%nat * m1 2%nat 6%nat * m0 1%nat 3%nat + m2 0%nat 9%nat * m1 2%nat 3%nat * m0 1%nat 6%nat + m2 0%nat 9%nat * m1 2%nat 0%nat * m0 1%nat 8%nat - m2 0%nat 9%nat * m1 1%nat 8%nat * m0 2%nat 0%nat - m2 0%nat 9%nat * m1 1%nat 6%nat * m0 2%nat 3%nat - m2 0%nat 9%nat * m1 1%nat 3%nat * m0 2%nat 6%nat - m2 0%nat 9%nat * m1 1%nat 0%nat * m0 2%nat 8%nat + m2 0%nat 8%nat * m1 2%nat 9%nat * m0 1%nat 0%nat + m2 0%nat 8%nat * m1 2%nat 6%nat * m0 1%nat 6%nat + m2 0%nat 8%nat * m1 2%nat 0%nat * m0 1%nat 9%nat - m2 0%nat 8%nat * m1 1%nat 9%nat * m0 2%nat 0%nat - m2 0%nat 8%nat * m1 1%nat 6%nat * m0 2%nat 6%nat - m2 0%nat 8%nat * m1 1%nat 0%nat * m0 2%nat 9%nat + m2 0%nat 6%nat * m1 2%nat 9%nat * m0 1%nat 3%nat + m2 0%nat 6%nat * m1 2%nat 8%nat * m0 1%nat 6%nat + m2 0%nat 6%nat * m1 2%nat 6%nat * m0 1%nat 8%nat + m2 0%nat 6%nat * m1 2%nat 3%nat * m0 1%nat 9%nat - m2 0%nat 6%nat * m1 1%nat 9%nat * m0 2%nat 3%nat - m2 0%nat 6%nat * m1 1%nat 8%nat * m0 2%nat 6%nat - m2 0%nat 6%nat * m1 1%nat 6%nat * m0 2%nat 8%nat - m2 0%nat 6%nat * m1 1%nat 3%nat * m0 2%nat 9%nat + m2 0%nat 3%nat * m1 2%nat 9%nat * m0 1%nat 6%nat + m2 0%nat 3%nat * m1 2%nat 6%nat * m0 1%nat 9%nat - m2 0%nat 3%nat * m1 1%nat 9%nat * m0 2%nat 6%nat - m2 0%nat 3%nat * m1 1%nat 6%nat * m0 2%nat 9%nat + m2 0%nat 0%nat * m1 2%nat 9%nat * m0 1%nat 8%nat + m2 0%nat 0%nat * m1 2%nat 8%nat * m0 1%nat 9%nat - m2 0%nat 0%nat * m1 1%nat 9%nat * m0 2%nat 8%nat - m2 0%nat 0%nat * m1 1%nat 8%nat * m0 2%nat 9%nat;
    m2 2%nat 9%nat * m1 1%nat 8%nat * m0 0%nat 1%nat + m2 2%nat 9%nat * m1 1%nat 7%nat * m0 0%nat 3%nat + m2 2%nat 9%nat * m1 1%nat 6%nat * m0 0%nat 4%nat + m2 2%nat 9%nat * m1 1%nat 4%nat * m0 0%nat 6%nat + m2 2%nat 9%nat * m1 1%nat 3%nat * m0 0%nat 7%nat + m2 2%nat 9%nat * m1 1%nat 1%nat * m0 0%nat 8%nat - m2 2%nat 9%nat * m1 0%nat 8%nat * m0 1%nat 1%nat - m2 2%nat 9%nat * m1 0%nat 7%nat * m0 1%nat 3%nat - m2 2%nat 9%nat * m1 0%nat 6%nat * m0 1%nat 4%nat - m2 2%nat 9%nat * m1 0%nat 4%nat * m0 1%nat 6%nat - m2 2%nat 9%nat * m1 0%nat 3%nat * m0 1%nat 7%nat - m2 2%nat 9%nat * m1 0%nat 1%nat * m0 1%nat 8%nat + m2 2%nat 8%nat * m1 1%nat 9%nat * m0 0%nat 1%nat + m2 2%nat 8%nat * m1 1%nat 7%nat * m0 0%nat 6%nat + m2 2%nat 8%nat * m1 1%nat 6%nat * m0 0%nat 7%nat + m2 2%nat 8%nat * m1 1%nat 1%nat * m0 0%nat 9%nat - m2 2%nat 8%nat * m1 0%nat 9%nat * m0 1%nat 1%nat - m2 2%nat 8%nat * m1 0%nat 7%nat * m0 1%nat 6%nat - m2 2%nat 8%nat * m1 0%nat 6%nat * m0 1%nat 7%nat - m2 2%nat 8%nat * m1 0%nat 1%nat * m0 1%nat 9%nat + m2 2%nat 7%nat * m1 1%nat 9%nat * m0 0%nat 3%nat + m2 2%nat 7%nat * m1 1%nat 8%nat * m0 0%nat 6%nat + m2 2%nat 7%nat * m1 1%nat 6%nat * m0 0%nat 8%nat + m2 2%nat 7%nat * m1 1%nat 3%nat * m0 0%nat 9%nat - m2 2%nat 7%nat * m1 0%nat 9%nat * m0 1%nat 3%nat - m2 2%nat 7%nat * m1 0%nat 8%nat * m0 1%nat 6%nat - m2 2%nat 7%nat * m1 0%nat 6%nat * m0 1%nat 8%nat - m2 2%nat 7%nat * m1 0%nat 3%nat * m0 1%nat 9%nat + m2 2%nat 6%nat * m1 1%nat 9%nat * m0 0%nat 4%nat + m2 2%nat 6%nat * m1 1%nat 8%nat * m0 0%nat 7%nat + m2 2%nat 6%nat * m1 1%nat 7%nat * m0 0%nat 8%nat + m2 2%nat 6%nat * m1 1%nat 4%nat * m0 0%nat 9%nat - m2 2%nat 6%nat * m1 0%nat 9%nat * m0 1%nat 4%nat - m2 2%nat 6%nat * m1 0%nat 8%nat * m0 1%nat 7%nat - m2 2%nat 6%nat * m1 0%nat 7%nat * m0 1%nat 8%nat - m2 2%nat 6%nat * m1 0%nat 4%nat * m0 1%nat 9%nat + m2 2%nat 4%nat * m1 1%nat 9%nat * m0 0%nat 6%nat + m2 2%nat 4%nat * m1 1%nat 6%nat * m0 0%nat 9%nat - m2 2%nat 4%nat * m1 0%nat 9%nat * m0 1%nat 6%nat - m2 2%nat 4%nat * m1 0%nat 6%nat * m0 1%nat 9%nat + m2 2%nat 3%nat * m1 1%nat 9%nat * m0 0%nat 7%nat + m2 2%nat 3%nat * m1 1%nat 7%nat * m0 0%nat 9%nat - m2 2%nat 3%nat * m1 0%nat 9%nat * m0 1%nat 7%nat - m2 2%nat 3%nat * m1 0%nat 7%nat * m0 1%nat 9%nat + m2 2%nat 1%nat * m1 1%nat 9%nat * m0 0%nat 8%nat + m2 2%nat 1%nat * m1 1%nat 8%nat * m0 0%nat 9%nat - m2 2%nat 1%nat * m1 0%nat 9%nat * m0 1%nat 8%nat - m2 2%nat 1%nat * m1 0%nat 8%nat * m0 1%nat 9%nat - m2 1%nat 9%nat * m1 2%nat 8%nat * m0 0%nat 1%nat - m2 1%nat 9%nat * m1 2%nat 7%nat * m0 0%nat 3%nat - m2 1%nat 9%nat * m1 2%nat 6%nat * m0 0%nat 4%nat - m2 1%nat 9%nat * m1 2%nat 4%nat * m0 0%nat 6%nat - m2 1%nat 9%nat * m1 2%nat 3%nat * m0 0%nat 7%nat - m2 1%nat 9%nat * m1 2%nat 1%nat * m0 0%nat 8%nat + m2 1%nat 9%nat * m1 0%nat 8%nat * m0 2%nat 1%nat + m2 1%nat 9%nat * m1 0%nat 7%nat * m0 2%nat 3%nat + m2 1%nat 9%nat * m1 0%nat 6%nat * m0 2%nat 4%nat + m2 1%nat 9%nat * m1 0%nat 4%nat * m0 2%nat 6%nat + m2 1%nat 9%nat * m1 0%nat 3%nat * m0 2%nat 7%nat + m2 1%nat 9%nat * m1 0%nat 1%nat * m0 2%nat 8%nat - m2 1%nat 8%nat * m1 2%nat 9%nat * m0 0%nat 1%nat - m2 1%nat 8%nat * m1 2%nat 7%nat * m0 0%nat 6%nat - m2 1%nat 8%nat * m1 2%nat 6%nat * m0 0%nat 7%nat - m2 1%nat 8%nat * m1 2%nat 1%nat * m0 0%nat 9%nat + m2 1%nat 8%nat * m1 0%nat 9%nat * m0 2%nat 1%nat + m2 1%nat 8%nat * m1 0%nat 7%nat * m0 2%nat 6%nat + m2 1%nat 8%nat * m1 0%nat 6%nat * m0 2%nat 7%nat + m2 1%nat 8%nat * m1 0%nat 1%nat * m0 2%nat 9%nat - m2 1%nat 7%nat * m1 2%nat 9%nat * m0 0%nat 3%nat - m2 1%nat 7%nat * m1 2%nat 8%nat * m0 0%nat 6%nat - m2 1%nat 7%nat * m1 2%nat 6%nat * m0 0%nat 8%nat - m2 1%nat 7%nat * m1 2%nat 3%nat * m0 0%nat 9%nat + m2 1%nat 7%nat * m1 0%nat 9%nat * m0 2%nat 3%nat + m2 1%nat 7%nat * m1 0%nat 8%nat * m0 2%nat 6%nat + m2 1%nat 7%nat * m1 0%nat 6%nat * m0 2%nat 8%nat + m2 1%nat 7%nat * m1 0%nat 3%nat * m0 2%nat 9%nat - m2 1%nat 6%nat * m1 2%nat 9%nat * m0 0%nat 4%nat - m2 1%nat 6%nat * m1 2%nat 8%nat * m0 0%nat 7%nat - m2 1%nat 6%nat * m1 2%nat 7%nat * m0 0%nat 8%nat - m2 1%nat 6%nat * m1 2%nat 4%nat * m0 0%nat 9%nat + m2 1%nat 6%nat * m1 0%nat 9%nat * m0 2%nat 4%nat + m2 1%nat 6%nat * m1 0%nat 8%nat * m0 2%nat 7%nat + m2 1%nat 6%nat * m1 0%nat 7%nat * m0 2%nat 8%nat + m2 1%nat 6%nat * m1 0%nat 4%nat * m0 2%nat 9%nat - m2 1%nat 4%nat * m1 2%nat 9%nat * m0 0%nat 6%nat - m2 1%nat 4%nat * m1 2%nat 6%nat * m0 0%nat 9%nat + m2 1%nat 4%nat * m1 0%nat 9%nat * m0 2%nat 6%nat + m2 1%nat 4%nat * m1 0%nat 6%nat * m0 2%nat 9%nat - m2 1%nat 3%nat * m1 2%nat 9%nat * m0 0%nat 7%nat - m2 1%nat 3%nat * m1 2%nat 7%nat * m0 0%nat 9%nat + m2 1%nat 3%nat * m1 0%nat 9%nat * m0 2%nat 7%nat + m2 1%nat 3%nat * m1 0%nat 7%nat * m0 2%nat 9%nat - m2 1%nat 1%nat * m1 2%nat 9%nat * m0 0%nat 8%nat - m2 1%nat 1%nat * m1 2%nat 8%nat * m0 0%nat 9%nat + m2 1%nat 1%nat * m1 0%nat 9%nat * m0 2%nat 8%nat + m2 1%nat 1%nat * m1 0%nat 8%nat * m0 2%nat 9%nat + m2 0%nat 9%nat * m1 2%nat 8%nat * m0 1%nat 1%nat + m2 0%nat 9%nat * m1 2%nat 7%nat * m0 1%nat 3%nat + m2 0%nat 9%nat * m1 2%nat 6%nat * m0 1%nat 4%nat + m2 0%nat 9%nat * m1 2%nat 4%nat * m0 1%nat 6%nat + m2 0%nat 9%nat * m1 2%nat 3%nat * m0 1%nat 7%nat + m2 0%nat 9%nat * m1 2%nat 1%nat * m0 1%nat 8%nat - m2 0%nat 9%nat * m1 1%nat 8%nat * m0 2%nat 1%nat - m2 0%nat 9%nat * m1 1%nat 7%nat * m0 2%nat 3%nat - m2 0%nat 9%nat * m1 1%nat 6%nat * m0 2%nat 4%nat - m2 0%nat 9%nat * m1 1%nat 4%nat * m0 2%nat 6%nat - m2 0%nat 9%nat * m1 1%nat 3%nat * m0 2%nat 7%nat - m2 0%nat 9%nat * m1 1%nat 1%nat * m0 2%nat 8%nat + m2 0%nat 8%nat * m1 2%nat 9%nat * m0 1%nat 1%nat + m2 0%nat 8%nat * m1 2%nat 7%nat * m0 1%nat 6%nat + m2 0%nat 8%nat * m1 2%nat 6%nat * m0 1%nat 7%nat + m2 0%nat 8%nat * m1 2%nat 1%nat * m0 1%nat 9%nat - m2 0%nat 8%nat * m1 1%nat 9%nat * m0 2%nat 1%nat - m2 0%nat 8%nat * m1 1%nat 7%nat * m0 2%nat 6%nat - m2 0%nat 8%nat * m1 1%nat 6%nat * m0 2%nat 7%nat - m2 0%nat 8%nat * m1 1%nat 1%nat * m0 2%nat 9%nat + m2 0%nat 7%nat * m1 2%nat 9%nat * m0 1%nat 3%nat + m2 0%nat 7%nat * m1 2%nat 8%nat * m0 1%nat 6%nat + m2 0%nat 7%nat * m1 2%nat 6%nat * m0 1%nat 8%nat + m2 0%nat 7%nat * m1 2%nat 3%nat * m0 1%nat 9%nat - m2 0%nat 7%nat * m1 1%nat 9%nat * m0 2%nat 3%nat - m2 0%nat 7%nat * m1 1%nat 8%nat * m0 2%nat 6%nat - m2 0%nat 7%nat * m1 1%nat 6%nat * m0 2%nat 8%nat - m2 0%nat 7%nat * m1 1%nat 3%nat * m0 2%nat 9%nat + m2 0%nat 6%nat * m1 2%nat 9%nat * m0 1%nat 4%nat + m2 0%nat 6%nat * m1 2%nat 8%nat * m0 1%nat 7%nat + m2 0%nat 6%nat * m1 2%nat 7%nat * m0 1%nat 8%nat + m2 0%nat 6%nat * m1 2%nat 4%nat * m0 1%nat 9%nat - m2 0%nat 6%nat * m1 1%nat 9%nat * m0 2%nat 4%nat - m2 0%nat 6%nat * m1 1%nat 8%nat * m0 2%nat 7%nat - m2 0%nat 6%nat * m1 1%nat 7%nat * m0 2%nat 8%nat - m2 0%nat 6%nat * m1 1%nat 4%nat * m0 2%nat 9%nat + m2 0%nat 4%nat * m1 2%nat 9%nat * m0 1%nat 6%nat + m2 0%nat 4%nat * m1 2%nat 6%nat * m0 1%nat 9%nat - m2 0%nat 4%nat * m1 1%nat 9%nat * m0 2%nat 6%nat - m2 0%nat 4%nat * m1 1%nat 6%nat * m0 2%nat 9%nat + m2 0%nat 3%nat * m1 2%nat 9%nat * m0 1%nat 7%nat + m2 0%nat 3%nat * m1 2%nat 7%nat * m0 1%nat 9%nat - m2 0%nat 3%nat * m1 1%nat 9%nat * m0 2%nat 7%nat - m2 0%nat 3%nat * m1 1%nat 7%nat * m0 2%nat 9%nat + m2 0%nat 1%nat * m1 2%nat 9%nat * m0 1%nat 8%nat + m2 0%nat 1%nat * m1 2%nat 8%nat * m0 1%nat 9%nat - m2 0%nat 1%nat * m1 1%nat 9%nat * m0 2%nat 8%nat - m2 0%nat 1%nat * m1 1%nat 8%nat * m0 2%nat 9%nat;
    m2 2%nat 9%nat * m1 1%nat 8%nat * m0 0%nat 2%nat + m2 2%nat 9%nat * m1 1%nat 7%nat * m0 0%nat 4%nat + m2 2%nat 9%nat * m1 1%nat 4%nat * m0 0%nat 7%nat + m2 2%nat 9%nat * m1 1%nat 2%nat * m0 0%nat 8%nat - m2 2%nat 9%nat * m1 0%nat 8%nat * m0 1%nat 2%nat - m2 2%nat 9%nat * m1 0%nat 7%nat * m0 1%nat 4%nat - m2 2%nat 9%nat * m1 0%nat 4%nat * m0 1%nat 7%nat - m2 2%nat 9%nat * m1 0%nat 2%nat * m0 1%nat 8%nat + m2 2%nat 8%nat * m1 1%nat 9%nat * m0 0%nat 2%nat + m2 2%nat 8%nat * m1 1%nat 7%nat * m0 0%nat 7%nat + m2 2%nat 8%nat * m1 1%nat 2%nat * m0 0%nat 9%nat - m2 2%nat 8%nat * m1 0%nat 9%nat * m0 1%nat 2%nat - m2 2%nat 8%nat * m1 0%nat 7%nat * m0 1%nat 7%nat - m2 2%nat 8%nat * m1 0%nat 2%nat * m0 1%nat 9%nat + m2 2%nat 7%nat * m1 1%nat 9%nat * m0 0%nat 4%nat + m2 2%nat 7%nat * m1 1%nat 8%nat * m0 0%nat 7%nat + m2 2%nat 7%nat * m1 1%nat 7%nat * m0 0%nat 8%nat + m2 2%nat 7%nat * m1 1%nat 4%nat * m0 0%nat 9%nat - m2 2%nat 7%nat * m1 0%nat 9%nat * m0 1%nat 4%nat - m2 2%nat 7%nat * m1 0%nat 8%nat * m0 1%nat 7%nat - m2 2%nat 7%nat * m1 0%nat 7%nat * m0 1%nat 8%nat - m2 2%nat 7%nat * m1 0%nat 4%nat * m0 1%nat 9%nat + m2 2%nat 4%nat * m1 1%nat 9%nat * m0 0%nat 7%nat + m2 2%nat 4%nat * m1 1%nat 7%nat * m0 0%nat 9%nat - m2 2%nat 4%nat * m1 0%nat 9%nat * m0 1%nat 7%nat - m2 2%nat 4%nat * m1 0%nat 7%nat * m0 1%nat 9%nat + m2 2%nat 2%nat * m1 1%nat 9%nat * m0 0%nat 8%nat + m2 2%nat 2%nat * m1 1%nat 8%nat * m0 0%nat 9%nat - m2 2%nat 2%nat * m1 0%nat 9%nat * m0 1%nat 8%nat - m2 2%nat 2%nat * m1 0%nat 8%nat * m0 1%nat 9%nat - m2 1%nat 9%nat * m1 2%nat 8%nat * m0 0%nat 2%nat - m2 1%nat 9%nat * m1 2%nat 7%nat * m0 0%nat 4%nat - m2 1%nat 9%nat * m1 2%nat 4%nat * m0 0%nat 7%nat - m2 1%nat 9%nat * m1 2%nat 2%nat * m0 0%nat 8%nat + m2 1%nat 9%nat * m1 0%nat 8%nat * m0 2%nat 2%nat + m2 1%nat 9%nat * m1 0%nat 7%nat * m0 2%nat 4%nat + m2 1%nat 9%nat * m1 0%nat 4%nat * m0 2%nat 7%nat + m2 1%nat 9%nat * m1 0%nat 2%nat * m0 2%nat 8%nat - m2 1%nat 8%nat * m1 2%nat 9%nat * m0 0%nat 2%nat - m2 1%nat 8%nat * m1 2%nat 7%nat * m0 0%nat 7%nat - m2 1%nat 8%nat * m1 2%nat 2%nat * m0 0%nat 9%nat + m2 1%nat 8%nat * m1 0%nat 9%nat * m0 2%nat 2%nat + m2 1%nat 8%nat * m1 0%nat 7%nat * m0 2%nat 7%nat + m2 1%nat 8%nat * m1 0%nat 2%nat * m0 2%nat 9%nat - m2 1%nat 7%nat * m1 2%nat 9%nat * m0 0%nat 4%nat - m2 1%nat 7%nat * m1 2%nat 8%nat * m0 0%nat 7%nat - m2 1%nat 7%nat * m1 2%nat 7%nat * m0 0%nat 8%nat - m2 1%nat 7%nat * m1 2%nat 4%nat * m0 0%nat 9%nat + m2 1%nat 7%nat * m1 0%nat 9%nat * m0 2%nat 4%nat + m2 1%nat 7%nat * m1 0%nat 8%nat * m0 2%nat 7%nat + m2 1%nat 7%nat * m1 0%nat 7%nat * m0 2%nat 8%nat + m2 1%nat 7%nat * m1 0%nat 4%nat * m0 2%nat 9%nat - m2 1%nat 4%nat * m1 2%nat 9%nat * m0 0%nat 7%nat - m2 1%nat 4%nat * m1 2%nat 7%nat * m0 0%nat 9%nat + m2 1%nat 4%nat * m1 0%nat 9%nat * m0 2%nat 7%nat + m2 1%nat 4%nat * m1 0%nat 7%nat * m0 2%nat 9%nat - m2 1%nat 2%nat * m1 2%nat 9%nat * m0 0%nat 8%nat - m2 1%nat 2%nat * m1 2%nat 8%nat * m0 0%nat 9%nat + m2 1%nat 2%nat * m1 0%nat 9%nat * m0 2%nat 8%nat + m2 1%nat 2%nat * m1 0%nat 8%nat * m0 2%nat 9%nat + m2 0%nat 9%nat * m1 2%nat 8%nat * m0 1%nat 2%nat + m2 0%nat 9%nat * m1 2%nat 7%nat * m0 1%nat 4%nat + m2 0%nat 9%nat * m1 2%nat 4%nat * m0 1%nat 7%nat + m2 0%nat 9%nat * m1 2%nat 2%nat * m0 1%nat 8%nat - m2 0%nat 9%nat * m1 1%nat 8%nat * m0 2%nat 2%nat - m2 0%nat 9%nat * m1 1%nat 7%nat * m0 2%nat 4%nat - m2 0%nat 9%nat * m1 1%nat 4%nat * m0 2%nat 7%nat - m2 0%nat 9%nat * m1 1%nat 2%nat * m0 2%nat 8%nat + m2 0%nat 8%nat * m1 2%nat 9%nat * m0 1%nat 2%nat + m2 0%nat 8%nat * m1 2%nat 7%nat * m0 1%nat 7%nat + m2 0%nat 8%nat * m1 2%nat 2%nat * m0 1%nat 9%nat - m2 0%nat 8%nat * m1 1%nat 9%nat * m0 2%nat 2%nat - m2 0%nat 8%nat * m1 1%nat 7%nat * m0 2%nat 7%nat - m2 0%nat 8%nat * m1 1%nat 2%nat * m0 2%nat 9%nat + m2 0%nat 7%nat * m1 2%nat 9%nat * m0 1%nat 4%nat + m2 0%nat 7%nat * m1 2%nat 8%nat * m0 1%nat 7%nat + m2 0%nat 7%nat * m1 2%nat 7%nat * m0 1%nat 8%nat + m2 0%nat 7%nat * m1 2%nat 4%nat * m0 1%nat 9%nat - m2 0%nat 7%nat * m1 1%nat 9%nat * m0 2%nat 4%nat - m2 0%nat 7%nat * m1 1%nat 8%nat * m0 2%nat 7%nat - m2 0%nat 7%nat * m1 1%nat 7%nat * m0 2%nat 8%nat - m2 0%nat 7%nat * m1 1%nat 4%nat * m0 2%nat 9%nat + m2 0%nat 4%nat * m1 2%nat 9%nat * m0 1%nat 7%nat + m2 0%nat 4%nat * m1 2%nat 7%nat * m0 1%nat 9%nat - m2 0%nat 4%nat * m1 1%nat 9%nat * m0 2%nat 7%nat - m2 0%nat 4%nat * m1 1%nat 7%nat * m0 2%nat 9%nat + m2 0%nat 2%nat * m1 2%nat 9%nat * m0 1%nat 8%nat + m2 0%nat 2%nat * m1 2%nat 8%nat * m0 1%nat 9%nat - m2 0%nat 2%nat * m1 1%nat 9%nat * m0 2%nat 8%nat - m2 0%nat 2%nat * m1 1%nat 8%nat * m0 2%nat 9%nat;
    m2 2%nat 9%nat * m1 1%nat 8%nat * m0 0%nat 3%nat + m2 2%nat 9%nat * m1 1%nat 6%nat * m0 0%nat 5%nat + m2 2%nat 9%nat * m1 1%nat 5%nat * m0 0%nat 6%nat + m2 2%nat 9%nat * m1 1%nat 3%nat * m0 0%nat 8%nat - m2 2%nat 9%nat * m1 0%nat 8%nat * m0 1%nat 3%nat - m2 2%nat 9%nat * m1 0%nat 6%nat * m0 1%nat 5%nat - m2 2%nat 9%nat * m1 0%nat 5%nat * m0 1%nat 6%nat - m2 2%nat 9%nat * m1 0%nat 3%nat * m0 1%nat 8%nat + m2 2%nat 8%nat * m1 1%nat 9%nat * m0 0%nat 3%nat + m2 2%nat 8%nat * m1 1%nat 8%nat * m0 0%nat 6%nat + m2 2%nat 8%nat * m1 1%nat 6%nat * m0 0%nat 8%nat + m2 2%nat 8%nat * m1 1%nat 3%nat * m0 0%nat 9%nat - m2 2%nat 8%nat * m1 0%nat 9%nat * m0 1%nat 3%nat - m2 2%nat 8%nat * m1 0%nat 8%nat * m0 1%nat 6%nat - m2 2%nat 8%nat * m1 0%nat 6%nat * m0 1%nat 8%nat - m2 2%nat 8%nat * m1 0%nat 3%nat * m0 1%nat 9%nat + m2 2%nat 6%nat * m1 1%nat 9%nat * m0 0%nat 5%nat + m2 2%nat 6%nat * m1 1%nat 8%nat * m0 0%nat 8%nat + m2 2%nat 6%nat * m1 1%nat 5%nat * m0 0%nat 9%nat - m2 2%nat 6%nat * m1 0%nat 9%nat * m0 1%nat 5%nat - m2 2%nat 6%nat * m1 0%nat 8%nat * m0 1%nat 8%nat - m2 2%nat 6%nat * m1 0%nat 5%nat * m0 1%nat 9%nat + m2 2%nat 5%nat * m1 1%nat 9%nat * m0 0%nat 6%nat + m2 2%nat 5%nat * m1 1%nat 6%nat * m0 0%nat 9%nat - m2 2%nat 5%nat * m1 0%nat 9%nat * m0 1%nat 6%nat - m2 2%nat 5%nat * m1 0%nat 6%nat * m0 1%nat 9%nat + m2 2%nat 3%nat * m1 1%nat 9%nat * m0 0%nat 8%nat + m2 2%nat 3%nat * m1 1%nat 8%nat * m0 0%nat 9%nat - m2 2%nat 3%nat * m1 0%nat 9%nat * m0 1%nat 8%nat - m2 2%nat 3%nat * m1 0%nat 8%nat * m0 1%nat 9%nat - m2 1%nat 9%nat * m1 2%nat 8%nat * m0 0%nat 3%nat - m2 1%nat 9%nat * m1 2%nat 6%nat * m0 0%nat 5%nat - m2 1%nat 9%nat * m1 2%nat 5%nat * m0 0%nat 6%nat - m2 1%nat 9%nat * m1 2%nat 3%nat * m0 0%nat 8%nat + m2 1%nat 9%nat * m1 0%nat 8%nat * m0 2%nat 3%nat + m2 1%nat 9%nat * m1 0%nat 6%nat * m0 2%nat 5%nat + m2 1%nat 9%nat * m1 0%nat 5%nat * m0 2%nat 6%nat + m2 1%nat 9%nat * m1 0%nat 3%nat * m0 2%nat 8%nat - m2 1%nat 8%nat * m1 2%nat 9%nat * m0 0%nat 3%nat - m2 1%nat 8%nat * m1 2%nat 8%nat * m0 0%nat 6%nat - m2 1%nat 8%nat * m1 2%nat 6%nat * m0 0%nat 8%nat - m2 1%nat 8%nat * m1 2%nat 3%nat * m0 0%nat 9%nat + m2 1%nat 8%nat * m1 0%nat 9%nat * m0 2%nat 3%nat + m2 1%nat 8%nat * m1 0%nat 8%nat * m0 2%nat 6%nat + m2 1%nat 8%nat * m1 0%nat 6%nat * m0 2%nat 8%nat + m2 1%nat 8%nat * m1 0%nat 3%nat * m0 2%nat 9%nat - m2 1%nat 6%nat * m1 2%nat 9%nat * m0 0%nat 5%nat - m2 1%nat 6%nat * m1 2%nat 8%nat * m0 0%nat 8%nat - m2 1%nat 6%nat * m1 2%nat 5%nat * m0 0%nat 9%nat + m2 1%nat 6%nat * m1 0%nat 9%nat * m0 2%nat 5%nat + m2 1%nat 6%nat * m1 0%nat 8%nat * m0 2%nat 8%nat + m2 1%nat 6%nat * m1 0%nat 5%nat * m0 2%nat 9%nat - m2 1%nat 5%nat * m1 2%nat 9%nat * m0 0%nat 6%nat - m2 1%nat 5%nat * m1 2%nat 6%nat * m0 0%nat 9%nat + m2 1%nat 5%nat * m1 0%nat 9%nat * m0 2%nat 6%nat + m2 1%nat 5%nat * m1 0%nat 6%nat * m0 2%nat 9%nat - m2 1%nat 3%nat * m1 2%nat 9%nat * m0 0%nat 8%nat - m2 1%nat 3%nat * m1 2%nat 8%nat * m0 0%nat 9%nat + m2 1%nat 3%nat * m1 0%nat 9%nat * m0 2%nat 8%nat + m2 1%nat 3%nat * m1 0%nat 8%nat * m0 2%nat 9%nat + m2 0%nat 9%nat * m1 2%nat 8%nat * m0 1%nat 3%nat + m2 0%nat 9%nat * m1 2%nat 6%nat * m0 1%nat 5%nat + m2 0%nat 9%nat * m1 2%nat 5%nat * m0 1%nat 6%nat + m2 0%nat 9%nat * m1 2%nat 3%nat * m0 1%nat 8%nat - m2 0%nat 9%nat * m1 1%nat 8%nat * m0 2%nat 3%nat - m2 0%nat 9%nat * m1 1%nat 6%nat * m0 2%nat 5%nat - m2 0%nat 9%nat * m1 1%nat 5%nat * m0 2%nat 6%nat - m2 0%nat 9%nat * m1 1%nat 3%nat * m0 2%nat 8%nat + m2 0%nat 8%nat * m1 2%nat 9%nat * m0 1%nat 3%nat + m2 0%nat 8%nat * m1 2%nat 8%nat * m0 1%nat 6%nat + m2 0%nat 8%nat * m1 2%nat 6%nat * m0 1%nat 8%nat + m2 0%nat 8%nat * m1 2%nat 3%nat * m0 1%nat 9%nat - m2 0%nat 8%nat * m1 1%nat 9%nat * m0 2%nat 3%nat - m2 0%nat 8%nat * m1 1%nat 8%nat * m0 2%nat 6%nat - m2 0%nat 8%nat * m1 1%nat 6%nat * m0 2%nat 8%nat - m2 0%nat 8%nat * m1 1%nat 3%nat * m0 2%nat 9%nat + m2 0%nat 6%nat * m1 2%nat 9%nat * m0 1%nat 5%nat + m2 0%nat 6%nat * m1 2%nat 8%nat * m0 1%nat 8%nat + m2 0%nat 6%nat * m1 2%nat 5%nat * m0 1%nat 9%nat - m2 0%nat 6%nat * m1 1%nat 9%nat * m0 2%nat 5%nat - m2 0%nat 6%nat * m1 1%nat 8%nat * m0 2%nat 8%nat - m2 0%nat 6%nat * m1 1%nat 5%nat * m0 2%nat 9%nat + m2 0%nat 5%nat * m1 2%nat 9%nat * m0 1%nat 6%nat + m2 0%nat 5%nat * m1 2%nat 6%nat * m0 1%nat 9%nat - m2 0%nat 5%nat * m1 1%nat 9%nat * m0 2%nat 6%nat - m2 0%nat 5%nat * m1 1%nat 6%nat * m0 2%nat 9%nat + m2 0%nat 3%nat * m1 2%nat 9%nat * m0 1%nat 8%nat + m2 0%nat 3%nat * m1 2%nat 8%nat * m0 1%nat 9%nat - m2 0%nat 3%nat * m1 1%nat 9%nat * m0 2%nat 8%nat - m2 0%nat 3%nat * m1 1%nat 8%nat * m0 2%nat 9%nat;
    m2 2%nat 9%nat * m1 1%nat 8%nat * m0 0%nat 4%nat + m2 2%nat 9%nat * m1 1%nat 7%nat * m0 0%nat 5%nat + m2 2%nat 9%nat * m1 1%nat 5%nat * m0 0%nat 7%nat + m2 2%nat 9%nat * m1 1%nat 4%nat * m0 0%nat 8%nat - m2 2%nat 9%nat * m1 0%nat 8%nat * m0 1%nat 4%nat - m2 2%nat 9%nat * m1 0%nat 7%nat * m0 1%nat 5%nat - m2 2%nat 9%nat * m1 0%nat 5%nat * m0 1%nat 7%nat - m2 2%nat 9%nat * m1 0%nat 4%nat * m0 1%nat 8%nat + m2 2%nat 8%nat * m1 1%nat 9%nat * m0 0%nat 4%nat + m2 2%nat 8%nat * m1 1%nat 8%nat * m0 0%nat 7%nat + m2 2%nat 8%nat * m1 1%nat 7%nat * m0 0%nat 8%nat + m2 2%nat 8%nat * m1 1%nat 4%nat * m0 0%nat 9%nat - m2 2%nat 8%nat * m1 0%nat 9%nat * m0 1%nat 4%nat - m2 2%nat 8%nat * m1 0%nat 8%nat * m0 1%nat 7%nat - m2 2%nat 8%nat * m1 0%nat 7%nat * m0 1%nat 8%nat - m2 2%nat 8%nat * m1 0%nat 4%nat * m0 1%nat 9%nat + m2 2%nat 7%nat * m1 1%nat 9%nat * m0 0%nat 5%nat + m2 2%nat 7%nat * m1 1%nat 8%nat * m0 0%nat 8%nat + m2 2%nat 7%nat * m1 1%nat 5%nat * m0 0%nat 9%nat - m2 2%nat 7%nat * m1 0%nat 9%nat * m0 1%nat 5%nat - m2 2%nat 7%nat * m1 0%nat 8%nat * m0 1%nat 8%nat - m2 2%nat 7%nat * m1 0%nat 5%nat * m0 1%nat 9%nat + m2 2%nat 5%nat * m1 1%nat 9%nat * m0 0%nat 7%nat + m2 2%nat 5%nat * m1 1%nat 7%nat * m0 0%nat 9%nat - m2 2%nat 5%nat * m1 0%nat 9%nat * m0 1%nat 7%nat - m2 2%nat 5%nat * m1 0%nat 7%nat * m0 1%nat 9%nat + m2 2%nat 4%nat * m1 1%nat 9%nat * m0 0%nat 8%nat + m2 2%nat 4%nat * m1 1%nat 8%nat * m0 0%nat 9%nat - m2 2%nat 4%nat * m1 0%nat 9%nat * m0 1%nat 8%nat - m2 2%nat 4%nat * m1 0%nat 8%nat * m0 1%nat 9%nat - m2 1%nat 9%nat * m1 2%nat 8%nat * m0 0%nat 4%nat - m2 1%nat 9%nat * m1 2%nat 7%nat * m0 0%nat 5%nat - m2 1%nat 9%nat * m1 2%nat 5%nat * m0 0%nat 7%nat - m2 1%nat 9%nat * m1 2%nat 4%nat * m0 0%nat 8%nat + m2 1%nat 9%nat * m1 0%nat 8%nat * m0 2%nat 4%nat + m2 1%nat 9%nat * m1 0%nat 7%nat * m0 2%nat 5%nat + m2 1%nat 9%nat * m1 0%nat 5%nat * m0 2%nat 7%nat + m2 1%nat 9%nat * m1 0%nat 4%nat * m0 2%nat 8%nat - m2 1%nat 8%nat * m1 2%nat 9%nat * m0 0%nat 4%nat - m2 1%nat 8%nat * m1 2%nat 8%nat * m0 0%nat 7%nat - m2 1%nat 8%nat * m1 2%nat 7%nat * m0 0%nat 8%nat - m2 1%nat 8%nat * m1 2%nat 4%nat * m0 0%nat 9%nat + m2 1%nat 8%nat * m1 0%nat 9%nat * m0 2%nat 4%nat + m2 1%nat 8%nat * m1 0%nat 8%nat * m0 2%nat 7%nat + m2 1%nat 8%nat * m1 0%nat 7%nat * m0 2%nat 8%nat + m2 1%nat 8%nat * m1 0%nat 4%nat * m0 2%nat 9%nat - m2 1%nat 7%nat * m1 2%nat 9%nat * m0 0%nat 5%nat - m2 1%nat 7%nat * m1 2%nat 8%nat * m0 0%nat 8%nat - m2 1%nat 7%nat * m1 2%nat 5%nat * m0 0%nat 9%nat + m2 1%nat 7%nat * m1 0%nat 9%nat * m0 2%nat 5%nat + m2 1%nat 7%nat * m1 0%nat 8%nat * m0 2%nat 8%nat + m2 1%nat 7%nat * m1 0%nat 5%nat * m0 2%nat 9%nat - m2 1%nat 5%nat * m1 2%nat 9%nat * m0 0%nat 7%nat - m2 1%nat 5%nat * m1 2%nat 7%nat * m0 0%nat 9%nat + m2 1%nat 5%nat * m1 0%nat 9%nat * m0 2%nat 7%nat + m2 1%nat 5%nat * m1 0%nat 7%nat * m0 2%nat 9%nat - m2 1%nat 4%nat * m1 2%nat 9%nat * m0 0%nat 8%nat - m2 1%nat 4%nat * m1 2%nat 8%nat * m0 0%nat 9%nat + m2 1%nat 4%nat * m1 0%nat 9%nat * m0 2%nat 8%nat + m2 1%nat 4%nat * m1 0%nat 8%nat * m0 2%nat 9%nat + m2 0%nat 9%nat * m1 2%nat 8%nat * m0 1%nat 4%nat + m2 0%nat 9%nat * m1 2%nat 7%nat * m0 1%nat 5%nat + m2 0%nat 9%nat * m1 2%nat 5%nat * m0 1%nat 7%nat + m2 0%nat 9%nat * m1 2%nat 4%nat * m0 1%nat 8%nat - m2 0%nat 9%nat * m1 1%nat 8%nat * m0 2%nat 4%nat - m2 0%nat 9%nat * m1 1%nat 7%nat * m0 2%nat 5%nat - m2 0%nat 9%nat * m1 1%nat 5%nat * m0 2%nat 7%nat - m2 0%nat 9%nat * m1 1%nat 4%nat * m0 2%nat 8%nat + m2 0%nat 8%nat * m1 2%nat 9%nat * m0 1%nat 4%nat + m2 0%nat 8%nat * m1 2%nat 8%nat * m0 1%nat 7%nat + m2 0%nat 8%nat * m1 2%nat 7%nat * m0 1%nat 8%nat + m2 0%nat 8%nat * m1 2%nat 4%nat * m0 1%nat 9%nat - m2 0%nat 8%nat * m1 1%nat 9%nat * m0 2%nat 4%nat - m2 0%nat 8%nat * m1 1%nat 8%nat * m0 2%nat 7%nat - m2 0%nat 8%nat * m1 1%nat 7%nat * m0 2%nat 8%nat - m2 0%nat 8%nat * m1 1%nat 4%nat * m0 2%nat 9%nat + m2 0%nat 7%nat * m1 2%nat 9%nat * m0 1%nat 5%nat + m2 0%nat 7%nat * m1 2%nat 8%nat * m0 1%nat 8%nat + m2 0%nat 7%nat * m1 2%nat 5%nat * m0 1%nat 9%nat - m2 0%nat 7%nat * m1 1%nat 9%nat * m0 2%nat 5%nat - m2 0%nat 7%nat * m1 1%nat 8%nat * m0 2%nat 8%nat - m2 0%nat 7%nat * m1 1%nat 5%nat * m0 2%nat 9%nat + m2 0%nat 5%nat * m1 2%nat 9%nat * m0 1%nat 7%nat + m2 0%nat 5%nat * m1 2%nat 7%nat * m0 1%nat 9%nat - m2 0%nat 5%nat * m1 1%nat 9%nat * m0 2%nat 7%nat - m2 0%nat 5%nat * m1 1%nat 7%nat * m0 2%nat 9%nat + m2 0%nat 4%nat * m1 2%nat 9%nat * m0 1%nat 8%nat + m2 0%nat 4%nat * m1 2%nat 8%nat * m0 1%nat 9%nat - m2 0%nat 4%nat * m1 1%nat 9%nat * m0 2%nat 8%nat - m2 0%nat 4%nat * m1 1%nat 8%nat * m0 2%nat 9%nat;
    m2 2%nat 9%nat * m1 1%nat 8%nat * m0 0%nat 5%nat + m2 2%nat 9%nat * m1 1%nat 5%nat * m0 0%nat 8%nat - m2 2%nat 9%nat * m1 0%nat 8%nat * m0 1%nat 5%nat - m2 2%nat 9%nat * m1 0%nat 5%nat * m0 1%nat 8%nat + m2 2%nat 8%nat * m1 1%nat 9%nat * m0 0%nat 5%nat + m2 2%nat 8%nat * m1 1%nat 8%nat * m0 0%nat 8%nat + m2 2%nat 8%nat * m1 1%nat 5%nat * m0 0%nat 9%nat - m2 2%nat 8%nat * m1 0%nat 9%nat * m0 1%nat 5%nat - m2 2%nat 8%nat * m1 0%nat 8%nat * m0 1%nat 8%nat - m2 2%nat 8%nat * m1 0%nat 5%nat * m0 1%nat 9%nat + m2 2%nat 5%nat * m1 1%nat 9%nat * m0 0%nat 8%nat + m2 2%nat 5%nat * m1 1%nat 8%nat * m0 0%nat 9%nat - m2 2%nat 5%nat * m1 0%nat 9%nat * m0 1%nat 8%nat - m2 2%nat 5%nat * m1 0%nat 8%nat * m0 1%nat 9%nat - m2 1%nat 9%nat * m1 2%nat 8%nat * m0 0%nat 5%nat - m2 1%nat 9%nat * m1 2%nat 5%nat * m0 0%nat 8%nat + m2 1%nat 9%nat * m1 0%nat 8%nat * m0 2%nat 5%nat + m2 1%nat 9%nat * m1 0%nat 5%nat * m0 2%nat 8%nat - m2 1%nat 8%nat * m1 2%nat 9%nat * m0 0%nat 5%nat - m2 1%nat 8%nat * m1 2%nat 8%nat * m0 0%nat 8%nat - m2 1%nat 8%nat * m1 2%nat 5%nat * m0 0%nat 9%nat + m2 1%nat 8%nat * m1 0%nat 9%nat * m0 2%nat 5%nat + m2 1%nat 8%nat * m1 0%nat 8%nat * m0 2%nat 8%nat + m2 1%nat 8%nat * m1 0%nat 5%nat * m0 2%nat 9%nat - m2 1%nat 5%nat * m1 2%nat 9%nat * m0 0%nat 8%nat - m2 1%nat 5%nat * m1 2%nat 8%nat * m0 0%nat 9%nat + m2 1%nat 5%nat * m1 0%nat 9%nat * m0 2%nat 8%nat + m2 1%nat 5%nat * m1 0%nat 8%nat * m0 2%nat 9%nat + m2 0%nat 9%nat * m1 2%nat 8%nat * m0 1%nat 5%nat + m2 0%nat 9%nat * m1 2%nat 5%nat * m0 1%nat 8%nat - m2 0%nat 9%nat * m1 1%nat 8%nat * m0 2%nat 5%nat - m2 0%nat 9%nat * m1 1%nat 5%nat * m0 2%nat 8%nat + m2 0%nat 8%nat * m1 2%nat 9%nat * m0 1%nat 5%nat + m2 0%nat 8%nat * m1 2%nat 8%nat * m0 1%nat 8%nat + m2 0%nat 8%nat * m1 2%nat 5%nat * m0 1%nat 9%nat - m2 0%nat 8%nat * m1 1%nat 9%nat * m0 2%nat 5%nat - m2 0%nat 8%nat * m1 1%nat 8%nat * m0 2%nat 8%nat - m2 0%nat 8%nat * m1 1%nat 5%nat * m0 2%nat 9%nat + m2 0%nat 5%nat * m1 2%nat 9%nat * m0 1%nat 8%nat + m2 0%nat 5%nat * m1 2%nat 8%nat * m0 1%nat 9%nat - m2 0%nat 5%nat * m1 1%nat 9%nat * m0 2%nat 8%nat - m2 0%nat 5%nat * m1 1%nat 8%nat * m0 2%nat 9%nat;
    m2 2%nat 9%nat * m1 1%nat 9%nat * m0 0%nat 0%nat + m2 2%nat 9%nat * m1 1%nat 6%nat * m0 0%nat 6%nat + m2 2%nat 9%nat * m1 1%nat 0%nat * m0 0%nat 9%nat - m2 2%nat 9%nat * m1 0%nat 9%nat * m0 1%nat 0%nat - m2 2%nat 9%nat * m1 0%nat 6%nat * m0 1%nat 6%nat - m2 2%nat 9%nat * m1 0%nat 0%nat * m0 1%nat 9%nat + m2 2%nat 6%nat * m1 1%nat 9%nat * m0 0%nat 6%nat + m2 2%nat 6%nat * m1 1%nat 6%nat * m0 0%nat 9%nat - m2 2%nat 6%nat * m1 0%nat 9%nat * m0 1%nat 6%nat - m2 2%nat 6%nat * m1 0%nat 6%nat * m0 1%nat 9%nat + m2 2%nat 0%nat * m1 1%nat 9%nat * m0 0%nat 9%nat - m2 2%nat 0%nat * m1 0%nat 9%nat * m0 1%nat 9%nat - m2 1%nat 9%nat * m1 2%nat 9%nat * m0 0%nat 0%nat - m2 1%nat 9%nat * m1 2%nat 6%nat * m0 0%nat 6%nat - m2 1%nat 9%nat * m1 2%nat 0%nat * m0 0%nat 9%nat + m2 1%nat 9%nat * m1 0%nat 9%nat * m0 2%nat 0%nat + m2 1%nat 9%nat * m1 0%nat 6%nat * m0 2%nat 6%nat + m2 1%nat 9%nat * m1 0%nat 0%nat * m0 2%nat 9%nat - m2 1%nat 6%nat * m1 2%nat 9%nat * m0 0%nat 6%nat - m2 1%nat 6%nat * m1 2%nat 6%nat * m0 0%nat 9%nat + m2 1%nat 6%nat * m1 0%nat 9%nat * m0 2%nat 6%nat + m2 1%nat 6%nat * m1 0%nat 6%nat * m0 2%nat 9%nat - m2 1%nat 0%nat * m1 2%nat 9%nat * m0 0%nat 9%nat + m2 1%nat 0%nat * m1 0%nat 9%nat * m0 2%nat 9%nat + m2 0%nat 9%nat * m1 2%nat 9%nat * m0 1%nat 0%nat + m2 0%nat 9%nat * m1 2%nat 6%nat * m0 1%nat 6%nat + m2 0%nat 9%nat * m1 2%nat 0%nat * m0 1%nat 9%nat - m2 0%nat 9%nat * m1 1%nat 9%nat * m0 2%nat 0%nat - m2 0%nat 9%nat * m1 1%nat 6%nat * m0 2%nat 6%nat - m2 0%nat 9%nat * m1 1%nat 0%nat * m0 2%nat 9%nat + m2 0%nat 6%nat * m1 2%nat 9%nat * m0 1%nat 6%nat + m2 0%nat 6%nat * m1 2%nat 6%nat * m0 1%nat 9%nat - m2 0%nat 6%nat * m1 1%nat 9%nat * m0 2%nat 6%nat - m2 0%nat 6%nat * m1 1%nat 6%nat * m0 2%nat 9%nat + m2 0%nat 0%nat * m1 2%nat 9%nat * m0 1%nat 9%nat - m2 0%nat 0%nat * m1 1%nat 9%nat * m0 2%nat 9%nat;
    m2 2%nat 9%nat * m1 1%nat 9%nat * m0 0%nat 1%nat + m2 2%nat 9%nat * m1 1%nat 7%nat * m0 0%nat 6%nat + m2 2%nat 9%nat * m1 1%nat 6%nat * m0 0%nat 7%nat + m2 2%nat 9%nat * m1 1%nat 1%nat * m0 0%nat 9%nat - m2 2%nat 9%nat * m1 0%nat 9%nat * m0 1%nat 1%nat - m2 2%nat 9%nat * m1 0%nat 7%nat * m0 1%nat 6%nat - m2 2%nat 9%nat * m1 0%nat 6%nat * m0 1%nat 7%nat - m2 2%nat 9%nat * m1 0%nat 1%nat * m0 1%nat 9%nat + m2 2%nat 7%nat * m1 1%nat 9%nat * m0 0%nat 6%nat + m2 2%nat 7%nat * m1 1%nat 6%nat * m0 0%nat 9%nat - m2 2%nat 7%nat * m1 0%nat 9%nat * m0 1%nat 6%nat - m2 2%nat 7%nat * m1 0%nat 6%nat * m0 1%nat 9%nat + m2 2%nat 6%nat * m1 1%nat 9%nat * m0 0%nat 7%nat + m2 2%nat 6%nat * m1 1%nat 7%nat * m0 0%nat 9%nat - m2 2%nat 6%nat * m1 0%nat 9%nat * m0 1%nat 7%nat - m2 2%nat 6%nat * m1 0%nat 7%nat * m0 1%nat 9%nat + m2 2%nat 1%nat * m1 1%nat 9%nat * m0 0%nat 9%nat - m2 2%nat 1%nat * m1 0%nat 9%nat * m0 1%nat 9%nat - m2 1%nat 9%nat * m1 2%nat 9%nat * m0 0%nat 1%nat - m2 1%nat 9%nat * m1 2%nat 7%nat * m0 0%nat 6%nat - m2 1%nat 9%nat * m1 2%nat 6%nat * m0 0%nat 7%nat - m2 1%nat 9%nat * m1 2%nat 1%nat * m0 0%nat 9%nat + m2 1%nat 9%nat * m1 0%nat 9%nat * m0 2%nat 1%nat + m2 1%nat 9%nat * m1 0%nat 7%nat * m0 2%nat 6%nat + m2 1%nat 9%nat * m1 0%nat 6%nat * m0 2%nat 7%nat + m2 1%nat 9%nat * m1 0%nat 1%nat * m0 2%nat 9%nat - m2 1%nat 7%nat * m1 2%nat 9%nat * m0 0%nat 6%nat - m2 1%nat 7%nat * m1 2%nat 6%nat * m0 0%nat 9%nat + m2 1%nat 7%nat * m1 0%nat 9%nat * m0 2%nat 6%nat + m2 1%nat 7%nat * m1 0%nat 6%nat * m0 2%nat 9%nat - m2 1%nat 6%nat * m1 2%nat 9%nat * m0 0%nat 7%nat - m2 1%nat 6%nat * m1 2%nat 7%nat * m0 0%nat 9%nat + m2 1%nat 6%nat * m1 0%nat 9%nat * m0 2%nat 7%nat + m2 1%nat 6%nat * m1 0%nat 7%nat * m0 2%nat 9%nat - m2 1%nat 1%nat * m1 2%nat 9%nat * m0 0%nat 9%nat + m2 1%nat 1%nat * m1 0%nat 9%nat * m0 2%nat 9%nat + m2 0%nat 9%nat * m1 2%nat 9%nat * m0 1%nat 1%nat + m2 0%nat 9%nat * m1 2%nat 7%nat * m0 1%nat 6%nat + m2 0%nat 9%nat * m1 2%nat 6%nat * m0 1%nat 7%nat + m2 0%nat 9%nat * m1 2%nat 1%nat * m0 1%nat 9%nat - m2 0%nat 9%nat * m1 1%nat 9%nat * m0 2%nat 1%nat - m2 0%nat 9%nat * m1 1%nat 7%nat * m0 2%nat 6%nat - m2 0%nat 9%nat * m1 1%nat 6%nat * m0 2%nat 7%nat - m2 0%nat 9%nat * m1 1%nat 1%nat * m0 2%nat 9%nat + m2 0%nat 7%nat * m1 2%nat 9%nat * m0 1%nat 6%nat + m2 0%nat 7%nat * m1 2%nat 6%nat * m0 1%nat 9%nat - m2 0%nat 7%nat * m1 1%nat 9%nat * m0 2%nat 6%nat - m2 0%nat 7%nat * m1 1%nat 6%nat * m0 2%nat 9%nat + m2 0%nat 6%nat * m1 2%nat 9%nat * m0 1%nat 7%nat + m2 0%nat 6%nat * m1 2%nat 7%nat * m0 1%nat 9%nat - m2 0%nat 6%nat * m1 1%nat 9%nat * m0 2%nat 7%nat - m2 0%nat 6%nat * m1 1%nat 7%nat * m0 2%nat 9%nat + m2 0%nat 1%nat * m1 2%nat 9%nat * m0 1%nat 9%nat - m2 0%nat 1%nat * m1 1%nat 9%nat * m0 2%nat 9%nat;
    m2 2%nat 9%nat * m1 1%nat 9%nat * m0 0%nat 2%nat + m2 2%nat 9%nat * m1 1%nat 7%nat * m0 0%nat 7%nat + m2 2%nat 9%nat * m1 1%nat 2%nat * m0 0%nat 9%nat - m2 2%nat 9%nat * m1 0%nat 9%nat * m0 1%nat 2%nat - m2 2%nat 9%nat * m1 0%nat 7%nat * m0 1%nat 7%nat - m2 2%nat 9%nat * m1 0%nat 2%nat * m0 1%nat 9%nat + m2 2%nat 7%nat * m1 1%nat 9%nat * m0 0%nat 7%nat + m2 2%nat 7%nat * m1 1%nat 7%nat * m0 0%nat 9%nat - m2 2%nat 7%nat * m1 0%nat 9%nat * m0 1%nat 7%nat - m2 2%nat 7%nat * m1 0%nat 7%nat * m0 1%nat 9%nat + m2 2%nat 2%nat * m1 1%nat 9%nat * m0 0%nat 9%nat - m2 2%nat 2%nat * m1 0%nat 9%nat * m0 1%nat 9%nat - m2 1%nat 9%nat * m1 2%nat 9%nat * m0 0%nat 2%nat - m2 1%nat 9%nat * m1 2%nat 7%nat * m0 0%nat 7%nat - m2 1%nat 9%nat * m1 2%nat 2%nat * m0 0%nat 9%nat + m2 1%nat 9%nat * m1 0%nat 9%nat * m0 2%nat 2%nat + m2 1%nat 9%nat * m1 0%nat 7%nat * m0 2%nat 7%nat + m2 1%nat 9%nat * m1 0%nat 2%nat * m0 2%nat 9%nat - m2 1%nat 7%nat * m1 2%nat 9%nat * m0 0%nat 7%nat - m2 1%nat 7%nat * m1 2%nat 7%nat * m0 0%nat 9%nat + m2 1%nat 7%nat * m1 0%nat 9%nat * m0 2%nat 7%nat + m2 1%nat 7%nat * m1 0%nat 7%nat * m0 2%nat 9%nat - m2 1%nat 2%nat * m1 2%nat 9%nat * m0 0%nat 9%nat + m2 1%nat 2%nat * m1 0%nat 9%nat * m0 2%nat 9%nat + m2 0%nat 9%nat * m1 2%nat 9%nat * m0 1%nat 2%nat + m2 0%nat 9%nat * m1 2%nat 7%nat * m0 1%nat 7%nat + m2 0%nat 9%nat * m1 2%nat 2%nat * m0 1%nat 9%nat - m2 0%nat 9%nat * m1 1%nat 9%nat * m0 2%nat 2%nat - m2 0%nat 9%nat * m1 1%nat 7%nat * m0 2%nat 7%nat - m2 0%nat 9%nat * m1 1%nat 2%nat * m0 2%nat 9%nat + m2 0%nat 7%nat * m1 2%nat 9%nat * m0 1%nat 7%nat + m2 0%nat 7%nat * m1 2%nat 7%nat * m0 1%nat 9%nat - m2 0%nat 7%nat * m1 1%nat 9%nat * m0 2%nat 7%nat - m2 0%nat 7%nat * m1 1%nat 7%nat * m0 2%nat 9%nat + m2 0%nat 2%nat * m1 2%nat 9%nat * m0 1%nat 9%nat - m2 0%nat 2%nat * m1 1%nat 9%nat * m0 2%nat 9%nat;
    m2 2%nat 9%nat * m1 1%nat 9%nat * m0 0%nat 3%nat + m2 2%nat 9%nat * m1 1%nat 8%nat * m0 0%nat 6%nat + m2 2%nat 9%nat * m1 1%nat 6%nat * m0 0%nat 8%nat + m2 2%nat 9%nat * m1 1%nat 3%nat * m0 0%nat 9%nat - m2 2%nat 9%nat * m1 0%nat 9%nat * m0 1%nat 3%nat - m2 2%nat 9%nat * m1 0%nat 8%nat * m0 1%nat 6%nat - m2 2%nat 9%nat * m1 0%nat 6%nat * m0 1%nat 8%nat - m2 2%nat 9%nat * m1 0%nat 3%nat * m0 1%nat 9%nat + m2 2%nat 8%nat * m1 1%nat 9%nat * m0 0%nat 6%nat + m2 2%nat 8%nat * m1 1%nat 6%nat * m0 0%nat 9%nat - m2 2%nat 8%nat * m1 0%nat 9%nat * m0 1%nat 6%nat - m2 2%nat 8%nat * m1 0%nat 6%nat * m0 1%nat 9%nat + m2 2%nat 6%nat * m1 1%nat 9%nat * m0 0%nat 8%nat + m2 2%nat 6%nat * m1 1%nat 8%nat * m0 0%nat 9%nat - m2 2%nat 6%nat * m1 0%nat 9%nat * m0 1%nat 8%nat - m2 2%nat 6%nat * m1 0%nat 8%nat * m0 1%nat 9%nat + m2 2%nat 3%nat * m1 1%nat 9%nat * m0 0%nat 9%nat - m2 2%nat 3%nat * m1 0%nat 9%nat * m0 1%nat 9%nat - m2 1%nat 9%nat * m1 2%nat 9%nat * m0 0%nat 3%nat - m2 1%nat 9%nat * m1 2%nat 8%nat * m0 0%nat 6%nat - m2 1%nat 9%nat * m1 2%nat 6%nat * m0 0%nat 8%nat - m2 1%nat 9%nat * m1 2%nat 3%nat * m0 0%nat 9%nat + m2 1%nat 9%nat * m1 0%nat 9%nat * m0 2%nat 3%nat + m2 1%nat 9%nat * m1 0%nat 8%nat * m0 2%nat 6%nat + m2 1%nat 9%nat * m1 0%nat 6%nat * m0 2%nat 8%nat + m2 1%nat 9%nat * m1 0%nat 3%nat * m0 2%nat 9%nat - m2 1%nat 8%nat * m1 2%nat 9%nat * m0 0%nat 6%nat - m2 1%nat 8%nat * m1 2%nat 6%nat * m0 0%nat 9%nat + m2 1%nat 8%nat * m1 0%nat 9%nat * m0 2%nat 6%nat + m2 1%nat 8%nat * m1 0%nat 6%nat * m0 2%nat 9%nat - m2 1%nat 6%nat * m1 2%nat 9%nat * m0 0%nat 8%nat - m2 1%nat 6%nat * m1 2%nat 8%nat * m0 0%nat 9%nat + m2 1%nat 6%nat * m1 0%nat 9%nat * m0 2%nat 8%nat + m2 1%nat 6%nat * m1 0%nat 8%nat * m0 2%nat 9%nat - m2 1%nat 3%nat * m1 2%nat 9%nat * m0 0%nat 9%nat + m2 1%nat 3%nat * m1 0%nat 9%nat * m0 2%nat 9%nat + m2 0%nat 9%nat * m1 2%nat 9%nat * m0 1%nat 3%nat + m2 0%nat 9%nat * m1 2%nat 8%nat * m0 1%nat 6%nat + m2 0%nat 9%nat * m1 2%nat 6%nat * m0 1%nat 8%nat + m2 0%nat 9%nat * m1 2%nat 3%nat * m0 1%nat 9%nat - m2 0%nat 9%nat * m1 1%nat 9%nat * m0 2%nat 3%nat - m2 0%nat 9%nat * m1 1%nat 8%nat * m0 2%nat 6%nat - m2 0%nat 9%nat * m1 1%nat 6%nat * m0 2%nat 8%nat - m2 0%nat 9%nat * m1 1%nat 3%nat * m0 2%nat 9%nat + m2 0%nat 8%nat * m1 2%nat 9%nat * m0 1%nat 6%nat + m2 0%nat 8%nat * m1 2%nat 6%nat * m0 1%nat 9%nat - m2 0%nat 8%nat * m1 1%nat 9%nat * m0 2%nat 6%nat - m2 0%nat 8%nat * m1 1%nat 6%nat * m0 2%nat 9%nat + m2 0%nat 6%nat * m1 2%nat 9%nat * m0 1%nat 8%nat + m2 0%nat 6%nat * m1 2%nat 8%nat * m0 1%nat 9%nat - m2 0%nat 6%nat * m1 1%nat 9%nat * m0 2%nat 8%nat - m2 0%nat 6%nat * m1 1%nat 8%nat * m0 2%nat 9%nat + m2 0%nat 3%nat * m1 2%nat 9%nat * m0 1%nat 9%nat - m2 0%nat 3%nat * m1 1%nat 9%nat * m0 2%nat 9%nat;
    m2 2%nat 9%nat * m1 1%nat 9%nat * m0 0%nat 4%nat + m2 2%nat 9%nat * m1 1%nat 8%nat * m0 0%nat 7%nat + m2 2%nat 9%nat * m1 1%nat 7%nat * m0 0%nat 8%nat + m2 2%nat 9%nat * m1 1%nat 4%nat * m0 0%nat 9%nat - m2 2%nat 9%nat * m1 0%nat 9%nat * m0 1%nat 4%nat - m2 2%nat 9%nat * m1 0%nat 8%nat * m0 1%nat 7%nat - m2 2%nat 9%nat * m1 0%nat 7%nat * m0 1%nat 8%nat - m2 2%nat 9%nat * m1 0%nat 4%nat * m0 1%nat 9%nat + m2 2%nat 8%nat * m1 1%nat 9%nat * m0 0%nat 7%nat + m2 2%nat 8%nat * m1 1%nat 7%nat * m0 0%nat 9%nat - m2 2%nat 8%nat * m1 0%nat 9%nat * m0 1%nat 7%nat - m2 2%nat 8%nat * m1 0%nat 7%nat * m0 1%nat 9%nat + m2 2%nat 7%nat * m1 1%nat 9%nat * m0 0%nat 8%nat + m2 2%nat 7%nat * m1 1%nat 8%nat * m0 0%nat 9%nat - m2 2%nat 7%nat * m1 0%nat 9%nat * m0 1%nat 8%nat - m2 2%nat 7%nat * m1 0%nat 8%nat * m0 1%nat 9%nat + m2 2%nat 4%nat * m1 1%nat 9%nat * m0 0%nat 9%nat - m2 2%nat 4%nat * m1 0%nat 9%nat * m0 1%nat 9%nat - m2 1%nat 9%nat * m1 2%nat 9%nat * m0 0%nat 4%nat - m2 1%nat 9%nat * m1 2%nat 8%nat * m0 0%nat 7%nat - m2 1%nat 9%nat * m1 2%nat 7%nat * m0 0%nat 8%nat - m2 1%nat 9%nat * m1 2%nat 4%nat * m0 0%nat 9%nat + m2 1%nat 9%nat * m1 0%nat 9%nat * m0 2%nat 4%nat + m2 1%nat 9%nat * m1 0%nat 8%nat * m0 2%nat 7%nat + m2 1%nat 9%nat * m1 0%nat 7%nat * m0 2%nat 8%nat + m2 1%nat 9%nat * m1 0%nat 4%nat * m0 2%nat 9%nat - m2 1%nat 8%nat * m1 2%nat 9%nat * m0 0%nat 7%nat - m2 1%nat 8%nat * m1 2%nat 7%nat * m0 0%nat 9%nat + m2 1%nat 8%nat * m1 0%nat 9%nat * m0 2%nat 7%nat + m2 1%nat 8%nat * m1 0%nat 7%nat * m0 2%nat 9%nat - m2 1%nat 7%nat * m1 2%nat 9%nat * m0 0%nat 8%nat - m2 1%nat 7%nat * m1 2%nat 8%nat * m0 0%nat 9%nat + m2 1%nat 7%nat * m1 0%nat 9%nat * m0 2%nat 8%nat + m2 1%nat 7%nat * m1 0%nat 8%nat * m0 2%nat 9%nat - m2 1%nat 4%nat * m1 2%nat 9%nat * m0 0%nat 9%nat + m2 1%nat 4%nat * m1 0%nat 9%nat * m0 2%nat 9%nat + m2 0%nat 9%nat * m1 2%nat 9%nat * m0 1%nat 4%nat + m2 0%nat 9%nat * m1 2%nat 8%nat * m0 1%nat 7%nat + m2 0%nat 9%nat * m1 2%nat 7%nat * m0 1%nat 8%nat + m2 0%nat 9%nat * m1 2%nat 4%nat * m0 1%nat 9%nat - m2 0%nat 9%nat * m1 1%nat 9%nat * m0 2%nat 4%nat - m2 0%nat 9%nat * m1 1%nat 8%nat * m0 2%nat 7%nat - m2 0%nat 9%nat * m1 1%nat 7%nat * m0 2%nat 8%nat - m2 0%nat 9%nat * m1 1%nat 4%nat * m0 2%nat 9%nat + m2 0%nat 8%nat * m1 2%nat 9%nat * m0 1%nat 7%nat + m2 0%nat 8%nat * m1 2%nat 7%nat * m0 1%nat 9%nat - m2 0%nat 8%nat * m1 1%nat 9%nat * m0 2%nat 7%nat - m2 0%nat 8%nat * m1 1%nat 7%nat * m0 2%nat 9%nat + m2 0%nat 7%nat * m1 2%nat 9%nat * m0 1%nat 8%nat + m2 0%nat 7%nat * m1 2%nat 8%nat * m0 1%nat 9%nat - m2 0%nat 7%nat * m1 1%nat 9%nat * m0 2%nat 8%nat - m2 0%nat 7%nat * m1 1%nat 8%nat * m0 2%nat 9%nat + m2 0%nat 4%nat * m1 2%nat 9%nat * m0 1%nat 9%nat - m2 0%nat 4%nat * m1 1%nat 9%nat * m0 2%nat 9%nat;
    m2 2%nat 9%nat * m1 1%nat 9%nat * m0 0%nat 5%nat + m2 2%nat 9%nat * m1 1%nat 8%nat * m0 0%nat 8%nat + m2 2%nat 9%nat * m1 1%nat 5%nat * m0 0%nat 9%nat - m2 2%nat 9%nat * m1 0%nat 9%nat * m0 1%nat 5%nat - m2 2%nat 9%nat * m1 0%nat 8%nat * m0 1%nat 8%nat - m2 2%nat 9%nat * m1 0%nat 5%nat * m0 1%nat 9%nat + m2 2%nat 8%nat * m1 1%nat 9%nat * m0 0%nat 8%nat + m2 2%nat 8%nat * m1 1%nat 8%nat * m0 0%nat 9%nat - m2 2%nat 8%nat * m1 0%nat 9%nat * m0 1%nat 8%nat - m2 2%nat 8%nat * m1 0%nat 8%nat * m0 1%nat 9%nat + m2 2%nat 5%nat * m1 1%nat 9%nat * m0 0%nat 9%nat - m2 2%nat 5%nat * m1 0%nat 9%nat * m0 1%nat 9%nat - m2 1%nat 9%nat * m1 2%nat 9%nat * m0 0%nat 5%nat - m2 1%nat 9%nat * m1 2%nat 8%nat * m0 0%nat 8%nat - m2 1%nat 9%nat * m1 2%nat 5%nat * m0 0%nat 9%nat + m2 1%nat 9%nat * m1 0%nat 9%nat * m0 2%nat 5%nat + m2 1%nat 9%nat * m1 0%nat 8%nat * m0 2%nat 8%nat + m2 1%nat 9%nat * m1 0%nat 5%nat * m0 2%nat 9%nat - m2 1%nat 8%nat * m1 2%nat 9%nat * m0 0%nat 8%nat - m2 1%nat 8%nat * m1 2%nat 8%nat * m0 0%nat 9%nat + m2 1%nat 8%nat * m1 0%nat 9%nat * m0 2%nat 8%nat + m2 1%nat 8%nat * m1 0%nat 8%nat * m0 2%nat 9%nat - m2 1%nat 5%nat * m1 2%nat 9%nat * m0 0%nat 9%nat + m2 1%nat 5%nat * m1 0%nat 9%nat * m0 2%nat 9%nat + m2 0%nat 9%nat * m1 2%nat 9%nat * m0 1%nat 5%nat + m2 0%nat 9%nat * m1 2%nat 8%nat * m0 1%nat 8%nat + m2 0%nat 9%nat * m1 2%nat 5%nat * m0 1%nat 9%nat - m2 0%nat 9%nat * m1 1%nat 9%nat * m0 2%nat 5%nat - m2 0%nat 9%nat * m1 1%nat 8%nat * m0 2%nat 8%nat - m2 0%nat 9%nat * m1 1%nat 5%nat * m0 2%nat 9%nat + m2 0%nat 8%nat * m1 2%nat 9%nat * m0 1%nat 8%nat + m2 0%nat 8%nat * m1 2%nat 8%nat * m0 1%nat 9%nat - m2 0%nat 8%nat * m1 1%nat 9%nat * m0 2%nat 8%nat - m2 0%nat 8%nat * m1 1%nat 8%nat * m0 2%nat 9%nat + m2 0%nat 5%nat * m1 2%nat 9%nat * m0 1%nat 9%nat - m2 0%nat 5%nat * m1 1%nat 9%nat * m0 2%nat 9%nat;
    m2 2%nat 9%nat * m1 1%nat 9%nat * m0 0%nat 6%nat + m2 2%nat 9%nat * m1 1%nat 6%nat * m0 0%nat 9%nat - m2 2%nat 9%nat * m1 0%nat 9%nat * m0 1%nat 6%nat - m2 2%nat 9%nat * m1 0%nat 6%nat * m0 1%nat 9%nat + m2 2%nat 6%nat * m1 1%nat 9%nat * m0 0%nat 9%nat - m2 2%nat 6%nat * m1 0%nat 9%nat * m0 1%nat 9%nat - m2 1%nat 9%nat * m1 2%nat 9%nat * m0 0%nat 6%nat - m2 1%nat 9%nat * m1 2%nat 6%nat * m0 0%nat 9%nat + m2 1%nat 9%nat * m1 0%nat 9%nat * m0 2%nat 6%nat + m2 1%nat 9%nat * m1 0%nat 6%nat * m0 2%nat 9%nat - m2 1%nat 6%nat * m1 2%nat 9%nat * m0 0%nat 9%nat + m2 1%nat 6%nat * m1 0%nat 9%nat * m0 2%nat 9%nat + m2 0%nat 9%nat * m1 2%nat 9%nat * m0 1%nat 6%nat + m2 0%nat 9%nat * m1 2%nat 6%nat * m0 1%nat 9%nat - m2 0%nat 9%nat * m1 1%nat 9%nat * m0 2%nat 6%nat - m2 0%nat 9%nat * m1 1%nat 6%nat * m0 2%nat 9%nat + m2 0%nat 6%nat * m1 2%nat 9%nat * m0 1%nat 9%nat - m2 0%nat 6%nat * m1 1%nat 9%nat * m0 2%nat 9%nat;
    m2 2%nat 9%nat * m1 1%nat 9%nat * m0 0%nat 7%nat + m2 2%nat 9%nat * m1 1%nat 7%nat * m0 0%nat 9%nat - m2 2%nat 9%nat * m1 0%nat 9%nat * m0 1%nat 7%nat - m2 2%nat 9%nat * m1 0%nat 7%nat * m0 1%nat 9%nat + m2 2%nat 7%nat * m1 1%nat 9%nat * m0 0%nat 9%nat - m2 2%nat 7%nat * m1 0%nat 9%nat * m0 1%nat 9%nat - m2 1%nat 9%nat * m1 2%nat 9%nat * m0 0%nat 7%nat - m2 1%nat 9%nat * m1 2%nat 7%nat * m0 0%nat 9%nat + m2 1%nat 9%nat * m1 0%nat 9%nat * m0 2%nat 7%nat + m2 1%nat 9%nat * m1 0%nat 7%nat * m0 2%nat 9%nat - m2 1%nat 7%nat * m1 2%nat 9%nat * m0 0%nat 9%nat + m2 1%nat 7%nat * m1 0%nat 9%nat * m0 2%nat 9%nat + m2 0%nat 9%nat * m1 2%nat 9%nat * m0 1%nat 7%nat + m2 0%nat 9%nat * m1 2%nat 7%nat * m0 1%nat 9%nat - m2 0%nat 9%nat * m1 1%nat 9%nat * m0 2%nat 7%nat - m2 0%nat 9%nat * m1 1%nat 7%nat * m0 2%nat 9%nat + m2 0%nat 7%nat * m1 2%nat 9%nat * m0 1%nat 9%nat - m2 0%nat 7%nat * m1 1%nat 9%nat * m0 2%nat 9%nat;
    m2 2%nat 9%nat * m1 1%nat 9%nat * m0 0%nat 8%nat + m2 2%nat 9%nat * m1 1%nat 8%nat * m0 0%nat 9%nat - m2 2%nat 9%nat * m1 0%nat 9%nat * m0 1%nat 8%nat - m2 2%nat 9%nat * m1 0%nat 8%nat * m0 1%nat 9%nat + m2 2%nat 8%nat * m1 1%nat 9%nat * m0 0%nat 9%nat - m2 2%nat 8%nat * m1 0%nat 9%nat * m0 1%nat 9%nat - m2 1%nat 9%nat * m1 2%nat 9%nat * m0 0%nat 8%nat - m2 1%nat 9%nat * m1 2%nat 8%nat * m0 0%nat 9%nat + m2 1%nat 9%nat * m1 0%nat 9%nat * m0 2%nat 8%nat + m2 1%nat 9%nat * m1 0%nat 8%nat * m0 2%nat 9%nat - m2 1%nat 8%nat * m1 2%nat 9%nat * m0 0%nat 9%nat + m2 1%nat 8%nat * m1 0%nat 9%nat * m0 2%nat 9%nat + m2 0%nat 9%nat * m1 2%nat 9%nat * m0 1%nat 8%nat + m2 0%nat 9%nat * m1 2%nat 8%nat * m0 1%nat 9%nat - m2 0%nat 9%nat * m1 1%nat 9%nat * m0 2%nat 8%nat - m2 0%nat 9%nat * m1 1%nat 8%nat * m0 2%nat 9%nat + m2 0%nat 8%nat * m1 2%nat 9%nat * m0 1%nat 9%nat - m2 0%nat 8%nat * m1 1%nat 9%nat * m0 2%nat 9%nat;
    m2 2%nat 9%nat * m1 1%nat 9%nat * m0 0%nat 9%nat - m2 2%nat 9%nat * m1 0%nat 9%nat * m0 1%nat 9%nat - m2 1%nat 9%nat * m1 2%nat 9%nat * m0 0%nat 9%nat + m2 1%nat 9%nat * m1 0%nat 9%nat * m0 2%nat 9%nat + m2 0%nat 9%nat * m1 2%nat 9%nat * m0 1%nat 9%nat - m2 0%nat 9%nat * m1 1%nat 9%nat * m0 2%nat 9%nat ])%R.
(** the assignments to M2, src/relative_pose/modules/sixpt/modules2.cpp 263-355: for each row of M2 the
    row i of M1 and the pairs (column of M2, column of M1) *)
Definition six_rows : list (nat * list (N * N)) := [
  (14%nat, [(23,14);(24,15);(25,16);(26,17);(27,18);(28,19);(29,20);(30,21);(31,22);(32,23);(33,24);(34,25);(35,26);(36,27);(52,28);(53,29);(54,30);(55,31);(56,32);(57,33);(58,34);(59,35);(60,36);(61,37);(62,38);(63,39);(64,40);(65,41);(66,42);(67,43);(68,44);(69,45);(70,46);(71,47);(85,49);(86,50);(87,51);(88,52);(89,53);(90,54);(91,55);(92,56);(93,48);(94,57);(95,58);(96,59);(97,60);(98,61);(99,62);(100,63);(112,64);(113,65);(114,66);(115,67);(116,68);(117,69);(118,70);(119,71);(120,72);(121,73);(131,74);(132,75);(133,76);(134,77);(135,78);(136,79);(144,80);(145,81);(146,82);(152,83)]);
  (14%nat, [(18,14);(19,15);(20,16);(21,17);(23,18);(24,19);(25,20);(26,21);(28,22);(29,23);(30,24);(32,25);(33,26);(35,27);(46,28);(47,29);(48,30);(49,31);(50,32);(51,33);(53,34);(54,35);(55,36);(56,37);(57,38);(59,39);(60,40);(61,41);(62,42);(64,43);(65,44);(66,45);(68,46);(69,47);(71,48);(80,49);(81,50);(82,51);(83,52);(84,53);(86,54);(87,55);(88,56);(89,57);(91,58);(92,59);(94,60);(96,61);(97,62);(99,63);(108,64);(109,65);(110,66);(111,67);(113,68);(114,69);(115,70);(117,71);(118,72);(120,73);(128,74);(129,75);(130,76);(132,77);(133,78);(135,79);(142,80);(143,81);(145,82);(151,83)]);
  (8%nat, [(6,8);(13,15);(14,16);(15,17);(18,18);(19,19);(20,20);(21,21);(24,22);(25,23);(26,24);(29,25);(30,26);(33,27);(39,28);(40,29);(41,30);(42,31);(43,32);(44,33);(47,34);(48,35);(49,36);(50,37);(51,38);(54,39);(55,40);(56,41);(57,42);(60,43);(61,44);(62,45);(65,46);(66,47);(69,48);(74,49);(75,50);(76,51);(77,52);(78,53);(81,54);(82,55);(83,56);(84,57);(87,58);(88,59);(89,60);(92,61);(94,62);(97,63);(103,64);(104,65);(105,66);(106,67);(109,68);(110,69);(111,70);(114,71);(115,72);(118,73);(124,74);(125,75);(126,76);(129,77);(130,78);(133,79);(139,80);(140,81);(143,82);(149,83)]);
  (9%nat, [(7,9);(13,15);(14,16);(15,17);(18,18);(19,19);(20,20);(21,21);(24,22);(25,23);(26,24);(29,25);(30,26);(33,27);(39,28);(40,29);(41,30);(42,31);(43,32);(44,33);(47,34);(48,35);(49,36);(50,37);(51,38);(54,39);(55,40);(56,41);(57,42);(60,43);(61,44);(62,45);(65,46);(66,47);(69,48);(74,49);(75,50);(76,51);(77,52);(78,53);(81,54);(82,55);(83,56);(84,57);(87,58);(88,59);(89,60);(92,61);(94,62);(97,63);(103,64);(104,65);(105,66);(106,67);(109,68);(110,69);(111,70);(114,71);(115,72);(118,73);(124,74);(125,75);(126,76);(129,77);(130,78);(133,79);(139,80);(140,81);(143,82);(149,83)]);
  (10%nat, [(8,10);(13,15);(14,16);(15,17);(18,18);(19,19);(20,20);(21,21);(24,22);(25,23);(26,24);(29,25);(30,26);(33,27);(39,28);(40,29);(41,30);(42,31);(43,32);(44,33);(47,34);(48,35);(49,36);(50,37);(51,38);(54,39);(55,40);(56,41);(57,42);(60,43);(61,44);(62,45);(65,46);(66,47);(69,48);(74,49);(75,50);(76,51);(77,52);(78,53);(81,54);(82,55);(83,56);(84,57);(87,58);(88,59);(89,60);(92,61);(94,62);(97,63);(103,64);(104,65);(105,66);(106,67);(109,68);(110,69);(111,70);(114,71);(115,72);(118,73);(124,74);(125,75);(126,76);(129,77);(130,78);(133,79);(139,80);(140,81);(143,82);(149,83)]);
  (11%nat, [(9,11);(13,15);(14,16);(15,17);(18,18);(19,19);(20,20);(21,21);(24,22);(25,23);(26,24);(29,25);(30,26);(33,27);(39,28);(40,29);(41,30);(42,31);(43,32);(44,33);(47,34);(48,35);(49,36);(50,37);(51,38);(54,39);(55,40);(56,41);(57,42);(60,43);(61,44);(62,45);(65,46);(66,47);(69,48);(74,49);(75,50);(76,51);(77,52);(78,53);(81,54);(82,55);(83,56);(84,57);(87,58);(88,59);(89,60);(92,61);(94,62);(97,63);(103,64);(104,65);(105,66);(106,67);(109,68);(110,69);(111,70);(114,71);(115,72);(118,73);(124,74);(125,75);(126,76);(129,77);(130,78);(133,79);(139,80);(140,81);(143,82);(149,83)]);
  (13%nat, [(11,13);(13,15);(14,16);(15,17);(18,18);(19,19);(20,20);(21,21);(24,22);(25,23);(26,24);(29,25);(30,26);(33,27);(39,28);(40,29);(41,30);(42,31);(43,32);(44,33);(47,34);(48,35);(49,36);(50,37);(51,38);(54,39);(55,40);(56,41);(57,42);(60,43);(61,44);(62,45);(65,46);(66,47);(69,48);(74,49);(75,50);(76,51);(77,52);(78,53);(81,54);(82,55);(83,56);(84,57);(87,58);(88,59);(89,60);(92,61);(94,62);(97,63);(103,64);(104,65);(105,66);(106,67);(109,68);(110,69);(111,70);(114,71);(115,72);(118,73);(124,74);(125,75);(126,76);(129,77);(130,78);(133,79);(139,80);(140,81);(143,82);(149,83)]);
  (14%nat, [(12,14);(13,15);(14,16);(15,17);(18,18);(19,19);(20,20);(21,21);(24,22);(25,23);(26,24);(29,25);(30,26);(33,27);(39,28);(40,29);(41,30);(42,31);(43,32);(44,33);(47,34);(48,35);(49,36);(50,37);(51,38);(54,39);(55,40);(56,41);(57,42);(60,43);(61,44);(62,45);(65,46);(66,47);(69,48);(74,49);(75,50);(76,51);(77,52);(78,53);(81,54);(82,55);(83,56);(84,57);(87,58);(88,59);(89,60);(92,61);(94,62);(97,63);(103,64);(104,65);(105,66);(106,67);(109,68);(110,69);(111,70);(114,71);(115,72);(118,73);(124,74);(125,75);(126,76);(129,77);(130,78);(133,79);(139,80);(140,81);(143,82);(149,83)]);
  (8%nat, [(10,8);(18,15);(19,16);(20,17);(22,18);(23,19);(24,20);(25,21);(27,22);(28,23);(29,24);(31,25);(32,26);(34,27);(45,28);(46,29);(47,30);(48,31);(49,32);(50,33);(52,34);(53,35);(54,36);(55,37);(56,38);(58,39);(59,40);(60,41);(61,42);(63,43);(64,44);(65,45);(67,46);(68,47);(70,48);(79,49);(80,50);(81,51);(82,52);(83,53);(85,54);(86,55);(87,56);(88,57);(90,58);(91,59);(92,60);(95,61);(96,62);(98,63);(107,64);(108,65);(109,66);(110,67);(112,68);(113,69);(114,70);(116,71);(117,72);(119,73);(127,74);(128,75);(129,76);(131,77);(132,78);(134,79);(141,80);(142,81);(144,82);(150,83)]);
  (9%nat, [(11,9);(18,15);(19,16);(20,17);(22,18);(23,19);(24,20);(25,21);(27,22);(28,23);(29,24);(31,25);(32,26);(34,27);(45,28);(46,29);(47,30);(48,31);(49,32);(50,33);(52,34);(53,35);(54,36);(55,37);(56,38);(58,39);(59,40);(60,41);(61,42);(63,43);(64,44);(65,45);(67,46);(68,47);(70,48);(79,49);(80,50);(81,51);(82,52);(83,53);(85,54);(86,55);(87,56);(88,57);(90,58);(91,59);(92,60);(95,61);(96,62);(98,63);(107,64);(108,65);(109,66);(110,67);(112,68);(113,69);(114,70);(116,71);(117,72);(119,73);(127,74);(128,75);(129,76);(131,77);(132,78);(134,79);(141,80);(142,81);(144,82);(150,83)]);
  (10%nat, [(12,10);(18,15);(19,16);(20,17);(22,18);(23,19);(24,20);(25,21);(27,22);(28,23);(29,24);(31,25);(32,26);(34,27);(45,28);(46,29);(47,30);(48,31);(49,32);(50,33);(52,34);(53,35);(54,36);(55,37);(56,38);(58,39);(59,40);(60,41);(61,42);(63,43);(64,44);(65,45);(67,46);(68,47);(70,48);(79,49);(80,50);(81,51);(82,52);(83,53);(85,54);(86,55);(87,56);(88,57);(90,58);(91,59);(92,60);(95,61);(96,62);(98,63);(107,64);(108,65);(109,66);(110,67);(112,68);(113,69);(114,70);(116,71);(117,72);(119,73);(127,74);(128,75);(129,76);(131,77);(132,78);(134,79);(141,80);(142,81);(144,82);(150,83)]);
  (11%nat, [(13,11);(18,15);(19,16);(20,17);(22,18);(23,19);(24,20);(25,21);(27,22);(28,23);(29,24);(31,25);(32,26);(34,27);(45,28);(46,29);(47,30);(48,31);(49,32);(50,33);(52,34);(53,35);(54,36);(55,37);(56,38);(58,39);(59,40);(60,41);(61,42);(63,43);(64,44);(65,45);(67,46);(68,47);(70,48);(79,49);(80,50);(81,51);(82,52);(83,53);(85,54);(86,55);(87,56);(88,57);(90,58);(91,59);(92,60);(95,61);(96,62);(98,63);(107,64);(108,65);(109,66);(110,67);(112,68);(113,69);(114,70);(116,71);(117,72);(119,73);(127,74);(128,75);(129,76);(131,77);(132,78);(134,79);(141,80);(142,81);(144,82);(150,83)]);
  (12%nat, [(14,12);(18,15);(19,16);(20,17);(22,18);(23,19);(24,20);(25,21);(27,22);(28,23);(29,24);(31,25);(32,26);(34,27);(45,28);(46,29);(47,30);(48,31);(49,32);(50,33);(52,34);(53,35);(54,36);(55,37);(56,38);(58,39);(59,40);(60,41);(61,42);(63,43);(64,44);(65,45);(67,46);(68,47);(70,48);(79,49);(80,50);(81,51);(82,52);(83,53);(85,54);(86,55);(87,56);(88,57);(90,58);(91,59);(92,60);(95,61);(96,62);(98,63);(107,64);(108,65);(109,66);(110,67);(112,68);(113,69);(114,70);(116,71);(117,72);(119,73);(127,74);(128,75);(129,76);(131,77);(132,78);(134,79);(141,80);(142,81);(144,82);(150,83)]);
  (13%nat, [(16,13);(18,15);(19,16);(20,17);(22,18);(23,19);(24,20);(25,21);(27,22);(28,23);(29,24);(31,25);(32,26);(34,27);(45,28);(46,29);(47,30);(48,31);(49,32);(50,33);(52,34);(53,35);(54,36);(55,37);(56,38);(58,39);(59,40);(60,41);(61,42);(63,43);(64,44);(65,45);(67,46);(68,47);(70,48);(79,49);(80,50);(81,51);(82,52);(83,53);(85,54);(86,55);(87,56);(88,57);(90,58);(91,59);(92,60);(95,61);(96,62);(98,63);(107,64);(108,65);(109,66);(110,67);(112,68);(113,69);(114,70);(116,71);(117,72);(119,73);(127,74);(128,75);(129,76);(131,77);(132,78);(134,79);(141,80);(142,81);(144,82);(150,83)]);
  (14%nat, [(17,14);(18,15);(19,16);(20,17);(22,18);(23,19);(24,20);(25,21);(27,22);(28,23);(29,24);(31,25);(32,26);(34,27);(45,28);(46,29);(47,30);(48,31);(49,32);(50,33);(52,34);(53,35);(54,36);(55,37);(56,38);(58,39);(59,40);(60,41);(61,42);(63,43);(64,44);(65,45);(67,46);(68,47);(70,48);(79,49);(80,50);(81,51);(82,52);(83,53);(85,54);(86,55);(87,56);(88,57);(90,58);(91,59);(92,60);(95,61);(96,62);(98,63);(107,64);(108,65);(109,66);(110,67);(112,68);(113,69);(114,70);(116,71);(117,72);(119,73);(127,74);(128,75);(129,76);(131,77);(132,78);(134,79);(141,80);(142,81);(144,82);(150,83)]);
  (2%nat, [(0,2);(12,15);(13,16);(14,17);(17,18);(18,19);(19,20);(20,21);(23,22);(24,23);(25,24);(28,25);(29,26);(32,27);(38,28);(39,29);(40,30);(41,31);(42,32);(43,33);(46,34);(47,35);(48,36);(49,37);(50,38);(53,39);(54,40);(55,41);(56,42);(59,43);(60,44);(61,45);(64,46);(65,47);(68,48);(73,49);(74,50);(75,51);(76,52);(77,53);(80,54);(81,55);(82,56);(83,57);(86,58);(87,59);(88,60);(91,61);(92,62);(96,63);(102,64);(103,65);(104,66);(105,67);(108,68);(109,69);(110,70);(113,71);(114,72);(117,73);(123,74);(124,75);(125,76);(128,77);(129,78);(132,79);(138,80);(139,81);(142,82);(148,83)]);
  (3%nat, [(1,3);(12,15);(13,16);(14,17);(17,18);(18,19);(19,20);(20,21);(23,22);(24,23);(25,24);(28,25);(29,26);(32,27);(38,28);(39,29);(40,30);(41,31);(42,32);(43,33);(46,34);(47,35);(48,36);(49,37);(50,38);(53,39);(54,40);(55,41);(56,42);(59,43);(60,44);(61,45);(64,46);(65,47);(68,48);(73,49);(74,50);(75,51);(76,52);(77,53);(80,54);(81,55);(82,56);(83,57);(86,58);(87,59);(88,60);(91,61);(92,62);(96,63);(102,64);(103,65);(104,66);(105,67);(108,68);(109,69);(110,70);(113,71);(114,72);(117,73);(123,74);(124,75);(125,76);(128,77);(129,78);(132,79);(138,80);(139,81);(142,82);(148,83)]);
  (4%nat, [(2,4);(12,15);(13,16);(14,17);(17,18);(18,19);(19,20);(20,21);(23,22);(24,23);(25,24);(28,25);(29,26);(32,27);(38,28);(39,29);(40,30);(41,31);(42,32);(43,33);(46,34);(47,35);(48,36);(49,37);(50,38);(53,39);(54,40);(55,41);(56,42);(59,43);(60,44);(61,45);(64,46);(65,47);(68,48);(73,49);(74,50);(75,51);(76,52);(77,53);(80,54);(81,55);(82,56);(83,57);(86,58);(87,59);(88,60);(91,61);(92,62);(96,63);(102,64);(103,65);(104,66);(105,67);(108,68);(109,69);(110,70);(113,71);(114,72);(117,73);(123,74);(124,75);(125,76);(128,77);(129,78);(132,79);(138,80);(139,81);(142,82);(148,83)]);
  (5%nat, [(3,5);(12,15);(13,16);(14,17);(17,18);(18,19);(19,20);(20,21);(23,22);(24,23);(25,24);(28,25);(29,26);(32,27);(38,28);(39,29);(40,30);(41,31);(42,32);(43,33);(46,34);(47,35);(48,36);(49,37);(50,38);(53,39);(54,40);(55,41);(56,42);(59,43);(60,44);(61,45);(64,46);(65,47);(68,48);(73,49);(74,50);(75,51);(76,52);(77,53);(80,54);(81,55);(82,56);(83,57);(86,58);(87,59);(88,60);(91,61);(92,62);(96,63);(102,64);(103,65);(104,66);(105,67);(108,68);(109,69);(110,70);(113,71);(114,72);(117,73);(123,74);(124,75);(125,76);(128,77);(129,78);(132,79);(138,80);(139,81);(142,82);(148,83)]);
  (7%nat, [(4,7);(12,15);(13,16);(14,17);(17,18);(18,19);(19,20);(20,21);(23,22);(24,23);(25,24);(28,25);(29,26);(32,27);(38,28);(39,29);(40,30);(41,31);(42,32);(43,33);(46,34);(47,35);(48,36);(49,37);(50,38);(53,39);(54,40);(55,41);(56,42);(59,43);(60,44);(61,45);(64,46);(65,47);(68,48);(73,49);(74,50);(75,51);(76,52);(77,53);(80,54);(81,55);(82,56);(83,57);(86,58);(87,59);(88,60);(91,61);(92,62);(96,63);(102,64);(103,65);(104,66);(105,67);(108,68);(109,69);(110,70);(113,71);(114,72);(117,73);(123,74);(124,75);(125,76);(128,77);(129,78);(132,79);(138,80);(139,81);(142,82);(148,83)]);
  (8%nat, [(5,8);(12,15);(13,16);(14,17);(17,18);(18,19);(19,20);(20,21);(23,22);(24,23);(25,24);(28,25);(29,26);(32,27);(38,28);(39,29);(40,30);(41,31);(42,32);(43,33);(46,34);(47,35);(48,36);(49,37);(50,38);(53,39);(54,40);(55,41);(56,42);(59,43);(60,44);(61,45);(64,46);(65,47);(68,48);(73,49);(74,50);(75,51);(76,52);(77,53);(80,54);(81,55);(82,56);(83,57);(86,58);(87,59);(88,60);(91,61);(92,62);(96,63);(102,64);(103,65);(104,66);(105,67);(108,68);(109,69);(110,70);(113,71);(114,72);(117,73);(123,74);(124,75);(125,76);(128,77);(129,78);(132,79);(138,80);(139,81);(142,82);(148,83)]);
  (9%nat, [(6,9);(12,15);(13,16);(14,17);(17,18);(18,19);(19,20);(20,21);(23,22);(24,23);(25,24);(28,25);(29,26);(32,27);(38,28);(39,29);(40,30);(41,31);(42,32);(43,33);(46,34);(47,35);(48,36);(49,37);(50,38);(53,39);(54,40);(55,41);(56,42);(59,43);(60,44);(61,45);(64,46);(65,47);(68,48);(73,49);(74,50);(75,51);(76,52);(77,53);(80,54);(81,55);(82,56);(83,57);(86,58);(87,59);(88,60);(91,61);(92,62);(96,63);(102,64);(103,65);(104,66);(105,67);(108,68);(109,69);(110,70);(113,71);(114,72);(117,73);(123,74);(124,75);(125,76);(128,77);(129,78);(132,79);(138,80);(139,81);(142,82);(148,83)]);
  (10%nat, [(7,10);(12,15);(13,16);(14,17);(17,18);(18,19);(19,20);(20,21);(23,22);(24,23);(25,24);(28,25);(29,26);(32,27);(38,28);(39,29);(40,30);(41,31);(42,32);(43,33);(46,34);(47,35);(48,36);(49,37);(50,38);(53,39);(54,40);(55,41);(56,42);(59,43);(60,44);(61,45);(64,46);(65,47);(68,48);(73,49);(74,50);(75,51);(76,52);(77,53);(80,54);(81,55);(82,56);(83,57);(86,58);(87,59);(88,60);(91,61);(92,62);(96,63);(102,64);(103,65);(104,66);(105,67);(108,68);(109,69);(110,70);(113,71);(114,72);(117,73);(123,74);(124,75);(125,76);(128,77);(129,78);(132,79);(138,80);(139,81);(142,82);(148,83)]);
  (11%nat, [(8,11);(12,15);(13,16);(14,17);(17,18);(18,19);(19,20);(20,21);(23,22);(24,23);(25,24);(28,25);(29,26);(32,27);(38,28);(39,29);(40,30);(41,31);(42,32);(43,33);(46,34);(47,35);(48,36);(49,37);(50,38);(53,39);(54,40);(55,41);(56,42);(59,43);(60,44);(61,45);(64,46);(65,47);(68,48);(73,49);(74,50);(75,51);(76,52);(77,53);(80,54);(81,55);(82,56);(83,57);(86,58);(87,59);(88,60);(91,61);(92,62);(96,63);(102,64);(103,65);(104,66);(105,67);(108,68);(109,69);(110,70);(113,71);(114,72);(117,73);(123,74);(124,75);(125,76);(128,77);(129,78);(132,79);(138,80);(139,81);(142,82);(148,83)]);
  (12%nat, [(9,12);(12,15);(13,16);(14,17);(17,18);(18,19);(19,20);(20,21);(23,22);(24,23);(25,24);(28,25);(29,26);(32,27);(38,28);(39,29);(40,30);(41,31);(42,32);(43,33);(46,34);(47,35);(48,36);(49,37);(50,38);(53,39);(54,40);(55,41);(56,42);(59,43);(60,44);(61,45);(64,46);(65,47);(68,48);(73,49);(74,50);(75,51);(76,52);(77,53);(80,54);(81,55);(82,56);(83,57);(86,58);(87,59);(88,60);(91,61);(92,62);(96,63);(102,64);(103,65);(104,66);(105,67);(108,68);(109,69);(110,70);(113,71);(114,72);(117,73);(123,74);(124,75);(125,76);(128,77);(129,78);(132,79);(138,80);(139,81);(142,82);(148,83)]);
  (13%nat, [(10,13);(12,15);(13,16);(14,17);(17,18);(18,19);(19,20);(20,21);(23,22);(24,23);(25,24);(28,25);(29,26);(32,27);(38,28);(39,29);(40,30);(41,31);(42,32);(43,33);(46,34);(47,35);(48,36);(49,37);(50,38);(53,39);(54,40);(55,41);(56,42);(59,43);(60,44);(61,45);(64,46);(65,47);(68,48);(73,49);(74,50);(75,51);(76,52);(77,53);(80,54);(81,55);(82,56);(83,57);(86,58);(87,59);(88,60);(91,61);(92,62);(96,63);(102,64);(103,65);(104,66);(105,67);(108,68);(109,69);(110,70);(113,71);(114,72);(117,73);(123,74);(124,75);(125,76);(128,77);(129,78);(132,79);(138,80);(139,81);(142,82);(148,83)]);
  (14%nat, [(11,14);(12,15);(13,16);(14,17);(17,18);(18,19);(19,20);(20,21);(23,22);(24,23);(25,24);(28,25);(29,26);(32,27);(38,28);(39,29);(40,30);(41,31);(42,32);(43,33);(46,34);(47,35);(48,36);(49,37);(50,38);(53,39);(54,40);(55,41);(56,42);(59,43);(60,44);(61,45);(64,46);(65,47);(68,48);(73,49);(74,50);(75,51);(76,52);(77,53);(80,54);(81,55);(82,56);(83,57);(86,58);(87,59);(88,60);(91,61);(92,62);(96,63);(102,64);(103,65);(104,66);(105,67);(108,68);(109,69);(110,70);(113,71);(114,72);(117,73);(123,74);(124,75);(125,76);(128,77);(129,78);(132,79);(138,80);(139,81);(142,82);(148,83)]);
  (3%nat, [(0,3);(11,15);(12,16);(13,17);(16,18);(17,19);(18,20);(19,21);(22,22);(23,23);(24,24);(27,25);(28,26);(31,27);(37,28);(38,29);(39,30);(40,31);(41,32);(42,33);(45,34);(46,35);(47,36);(48,37);(49,38);(52,39);(53,40);(54,41);(55,42);(58,43);(59,44);(60,45);(63,46);(64,47);(67,48);(72,49);(73,50);(74,51);(75,52);(76,53);(79,54);(80,55);(81,56);(82,57);(85,58);(86,59);(87,60);(90,61);(91,62);(95,63);(101,64);(102,65);(103,66);(104,67);(107,68);(108,69);(109,70);(112,71);(113,72);(116,73);(122,74);(123,75);(124,76);(127,77);(128,78);(131,79);(137,80);(138,81);(141,82);(147,83)]);
  (4%nat, [(1,4);(11,15);(12,16);(13,17);(16,18);(17,19);(18,20);(19,21);(22,22);(23,23);(24,24);(27,25);(28,26);(31,27);(37,28);(38,29);(39,30);(40,31);(41,32);(42,33);(45,34);(46,35);(47,36);(48,37);(49,38);(52,39);(53,40);(54,41);(55,42);(58,43);(59,44);(60,45);(63,46);(64,47);(67,48);(72,49);(73,50);(74,51);(75,52);(76,53);(79,54);(80,55);(81,56);(82,57);(85,58);(86,59);(87,60);(90,61);(91,62);(95,63);(101,64);(102,65);(103,66);(104,67);(107,68);(108,69);(109,70);(112,71);(113,72);(116,73);(122,74);(123,75);(124,76);(127,77);(128,78);(131,79);(137,80);(138,81);(141,82);(147,83)]);
  (5%nat, [(2,5);(11,15);(12,16);(13,17);(16,18);(17,19);(18,20);(19,21);(22,22);(23,23);(24,24);(27,25);(28,26);(31,27);(37,28);(38,29);(39,30);(40,31);(41,32);(42,33);(45,34);(46,35);(47,36);(48,37);(49,38);(52,39);(53,40);(54,41);(55,42);(58,43);(59,44);(60,45);(63,46);(64,47);(67,48);(72,49);(73,50);(74,51);(75,52);(76,53);(79,54);(80,55);(81,56);(82,57);(85,58);(86,59);(87,60);(90,61);(91,62);(95,63);(101,64);(102,65);(103,66);(104,67);(107,68);(108,69);(109,70);(112,71);(113,72);(116,73);(122,74);(123,75);(124,76);(127,77);(128,78);(131,79);(137,80);(138,81);(141,82);(147,83)]);
  (6%nat, [(3,6);(11,15);(12,16);(13,17);(16,18);(17,19);(18,20);(19,21);(22,22);(23,23);(24,24);(27,25);(28,26);(31,27);(37,28);(38,29);(39,30);(40,31);(41,32);(42,33);(45,34);(46,35);(47,36);(48,37);(49,38);(52,39);(53,40);(54,41);(55,42);(58,43);(59,44);(60,45);(63,46);(64,47);(67,48);(72,49);(73,50);(74,51);(75,52);(76,53);(79,54);(80,55);(81,56);(82,57);(85,58);(86,59);(87,60);(90,61);(91,62);(95,63);(101,64);(102,65);(103,66);(104,67);(107,68);(108,69);(109,70);(112,71);(113,72);(116,73);(122,74);(123,75);(124,76);(127,77);(128,78);(131,79);(137,80);(138,81);(141,82);(147,83)]);
  (8%nat, [(4,8);(11,15);(12,16);(13,17);(16,18);(17,19);(18,20);(19,21);(22,22);(23,23);(24,24);(27,25);(28,26);(31,27);(37,28);(38,29);(39,30);(40,31);(41,32);(42,33);(45,34);(46,35);(47,36);(48,37);(49,38);(52,39);(53,40);(54,41);(55,42);(58,43);(59,44);(60,45);(63,46);(64,47);(67,48);(72,49);(73,50);(74,51);(75,52);(76,53);(79,54);(80,55);(81,56);(82,57);(85,58);(86,59);(87,60);(90,61);(91,62);(95,63);(101,64);(102,65);(103,66);(104,67);(107,68);(108,69);(109,70);(112,71);(113,72);(116,73);(122,74);(123,75);(124,76);(127,77);(128,78);(131,79);(137,80);(138,81);(141,82);(147,83)]);
  (9%nat, [(5,9);(11,15);(12,16);(13,17);(16,18);(17,19);(18,20);(19,21);(22,22);(23,23);(24,24);(27,25);(28,26);(31,27);(37,28);(38,29);(39,30);(40,31);(41,32);(42,33);(45,34);(46,35);(47,36);(48,37);(49,38);(52,39);(53,40);(54,41);(55,42);(58,43);(59,44);(60,45);(63,46);(64,47);(67,48);(72,49);(73,50);(74,51);(75,52);(76,53);(79,54);(80,55);(81,56);(82,57);(85,58);(86,59);(87,60);(90,61);(91,62);(95,63);(101,64);(102,65);(103,66);(104,67);(107,68);(108,69);(109,70);(112,71);(113,72);(116,73);(122,74);(123,75);(124,76);(127,77);(128,78);(131,79);(137,80);(138,81);(141,82);(147,83)]);
  (10%nat, [(6,10);(11,15);(12,16);(13,17);(16,18);(17,19);(18,20);(19,21);(22,22);(23,23);(24,24);(27,25);(28,26);(31,27);(37,28);(38,29);(39,30);(40,31);(41,32);(42,33);(45,34);(46,35);(47,36);(48,37);(49,38);(52,39);(53,40);(54,41);(55,42);(58,43);(59,44);(60,45);(63,46);(64,47);(67,48);(72,49);(73,50);(74,51);(75,52);(76,53);(79,54);(80,55);(81,56);(82,57);(85,58);(86,59);(87,60);(90,61);(91,62);(95,63);(101,64);(102,65);(103,66);(104,67);(107,68);(108,69);(109,70);(112,71);(113,72);(116,73);(122,74);(123,75);(124,76);(127,77);(128,78);(131,79);(137,80);(138,81);(141,82);(147,83)]);
  (11%nat, [(7,11);(11,15);(12,16);(13,17);(16,18);(17,19);(18,20);(19,21);(22,22);(23,23);(24,24);(27,25);(28,26);(31,27);(37,28);(38,29);(39,30);(40,31);(41,32);(42,33);(45,34);(46,35);(47,36);(48,37);(49,38);(52,39);(53,40);(54,41);(55,42);(58,43);(59,44);(60,45);(63,46);(64,47);(67,48);(72,49);(73,50);(74,51);(75,52);(76,53);(79,54);(80,55);(81,56);(82,57);(85,58);(86,59);(87,60);(90,61);(91,62);(95,63);(101,64);(102,65);(103,66);(104,67);(107,68);(108,69);(109,70);(112,71);(113,72);(116,73);(122,74);(123,75);(124,76);(127,77);(128,78);(131,79);(137,80);(138,81);(141,82);(147,83)]);
  (12%nat, [(8,12);(11,15);(12,16);(13,17);(16,18);(17,19);(18,20);(19,21);(22,22);(23,23);(24,24);(27,25);(28,26);(31,27);(37,28);(38,29);(39,30);(40,31);(41,32);(42,33);(45,34);(46,35);(47,36);(48,37);(49,38);(52,39);(53,40);(54,41);(55,42);(58,43);(59,44);(60,45);(63,46);(64,47);(67,48);(72,49);(73,50);(74,51);(75,52);(76,53);(79,54);(80,55);(81,56);(82,57);(85,58);(86,59);(87,60);(90,61);(91,62);(95,63);(101,64);(102,65);(103,66);(104,67);(107,68);(108,69);(109,70);(112,71);(113,72);(116,73);(122,74);(123,75);(124,76);(127,77);(128,78);(131,79);(137,80);(138,81);(141,82);(147,83)]);
  (14%nat, [(10,14);(11,15);(12,16);(13,17);(16,18);(17,19);(18,20);(19,21);(22,22);(23,23);(24,24);(27,25);(28,26);(31,27);(37,28);(38,29);(39,30);(40,31);(41,32);(42,33);(45,34);(46,35);(47,36);(48,37);(49,38);(52,39);(53,40);(54,41);(55,42);(58,43);(59,44);(60,45);(63,46);(64,47);(67,48);(72,49);(73,50);(74,51);(75,52);(76,53);(79,54);(80,55);(81,56);(82,57);(85,58);(86,59);(87,60);(90,61);(91,62);(95,63);(101,64);(102,65);(103,66);(104,67);(107,68);(108,69);(109,70);(112,71);(113,72);(116,73);(122,74);(123,75);(124,76);(127,77);(128,78);(131,79);(137,80);(138,81);(141,82);(147,83)]);
  (3%nat, [(48,3);(60,15);(61,16);(62,17);(63,18);(64,19);(65,20);(66,21);(67,22);(68,23);(69,24);(70,25);(71,26);(79,28);(80,29);(81,30);(82,31);(83,32);(84,33);(85,34);(86,35);(87,36);(88,37);(89,38);(90,39);(91,40);(92,41);(93,27);(94,42);(95,43);(96,44);(97,45);(98,46);(99,47);(100,48);(107,49);(108,50);(109,51);(110,52);(111,53);(112,54);(113,55);(114,56);(115,57);(116,58);(117,59);(118,60);(119,61);(120,62);(121,63);(127,64);(128,65);(129,66);(130,67);(131,68);(132,69);(133,70);(134,71);(135,72);(136,73);(141,74);(142,75);(143,76);(144,77);(145,78);(146,79);(150,80);(151,81);(152,82);(155,83)]);
  (4%nat, [(49,4);(60,15);(61,16);(62,17);(63,18);(64,19);(65,20);(66,21);(67,22);(68,23);(69,24);(70,25);(71,26);(79,28);(80,29);(81,30);(82,31);(83,32);(84,33);(85,34);(86,35);(87,36);(88,37);(89,38);(90,39);(91,40);(92,41);(93,27);(94,42);(95,43);(96,44);(97,45);(98,46);(99,47);(100,48);(107,49);(108,50);(109,51);(110,52);(111,53);(112,54);(113,55);(114,56);(115,57);(116,58);(117,59);(118,60);(119,61);(120,62);(121,63);(127,64);(128,65);(129,66);(130,67);(131,68);(132,69);(133,70);(134,71);(135,72);(136,73);(141,74);(142,75);(143,76);(144,77);(145,78);(146,79);(150,80);(151,81);(152,82);(155,83)]);
  (5%nat, [(50,5);(60,15);(61,16);(62,17);(63,18);(64,19);(65,20);(66,21);(67,22);(68,23);(69,24);(70,25);(71,26);(79,28);(80,29);(81,30);(82,31);(83,32);(84,33);(85,34);(86,35);(87,36);(88,37);(89,38);(90,39);(91,40);(92,41);(93,27);(94,42);(95,43);(96,44);(97,45);(98,46);(99,47);(100,48);(107,49);(108,50);(109,51);(110,52);(111,53);(112,54);(113,55);(114,56);(115,57);(116,58);(117,59);(118,60);(119,61);(120,62);(121,63);(127,64);(128,65);(129,66);(130,67);(131,68);(132,69);(133,70);(134,71);(135,72);(136,73);(141,74);(142,75);(143,76);(144,77);(145,78);(146,79);(150,80);(151,81);(152,82);(155,83)]);
  (6%nat, [(51,6);(60,15);(61,16);(62,17);(63,18);(64,19);(65,20);(66,21);(67,22);(68,23);(69,24);(70,25);(71,26);(79,28);(80,29);(81,30);(82,31);(83,32);(84,33);(85,34);(86,35);(87,36);(88,37);(89,38);(90,39);(91,40);(92,41);(93,27);(94,42);(95,43);(96,44);(97,45);(98,46);(99,47);(100,48);(107,49);(108,50);(109,51);(110,52);(111,53);(112,54);(113,55);(114,56);(115,57);(116,58);(117,59);(118,60);(119,61);(120,62);(121,63);(127,64);(128,65);(129,66);(130,67);(131,68);(132,69);(133,70);(134,71);(135,72);(136,73);(141,74);(142,75);(143,76);(144,77);(145,78);(146,79);(150,80);(151,81);(152,82);(155,83)]);
  (7%nat, [(52,7);(60,15);(61,16);(62,17);(63,18);(64,19);(65,20);(66,21);(67,22);(68,23);(69,24);(70,25);(71,26);(79,28);(80,29);(81,30);(82,31);(83,32);(84,33);(85,34);(86,35);(87,36);(88,37);(89,38);(90,39);(91,40);(92,41);(93,27);(94,42);(95,43);(96,44);(97,45);(98,46);(99,47);(100,48);(107,49);(108,50);(109,51);(110,52);(111,53);(112,54);(113,55);(114,56);(115,57);(116,58);(117,59);(118,60);(119,61);(120,62);(121,63);(127,64);(128,65);(129,66);(130,67);(131,68);(132,69);(133,70);(134,71);(135,72);(136,73);(141,74);(142,75);(143,76);(144,77);(145,78);(146,79);(150,80);(151,81);(152,82);(155,83)]);
  (8%nat, [(53,8);(60,15);(61,16);(62,17);(63,18);(64,19);(65,20);(66,21);(67,22);(68,23);(69,24);(70,25);(71,26);(79,28);(80,29);(81,30);(82,31);(83,32);(84,33);(85,34);(86,35);(87,36);(88,37);(89,38);(90,39);(91,40);(92,41);(93,27);(94,42);(95,43);(96,44);(97,45);(98,46);(99,47);(100,48);(107,49);(108,50);(109,51);(110,52);(111,53);(112,54);(113,55);(114,56);(115,57);(116,58);(117,59);(118,60);(119,61);(120,62);(121,63);(127,64);(128,65);(129,66);(130,67);(131,68);(132,69);(133,70);(134,71);(135,72);(136,73);(141,74);(142,75);(143,76);(144,77);(145,78);(146,79);(150,80);(151,81);(152,82);(155,83)]);
  (9%nat, [(54,9);(60,15);(61,16);(62,17);(63,18);(64,19);(65,20);(66,21);(67,22);(68,23);(69,24);(70,25);(71,26);(79,28);(80,29);(81,30);(82,31);(83,32);(84,33);(85,34);(86,35);(87,36);(88,37);(89,38);(90,39);(91,40);(92,41);(93,27);(94,42);(95,43);(96,44);(97,45);(98,46);(99,47);(100,48);(107,49);(108,50);(109,51);(110,52);(111,53);(112,54);(113,55);(114,56);(115,57);(116,58);(117,59);(118,60);(119,61);(120,62);(121,63);(127,64);(128,65);(129,66);(130,67);(131,68);(132,69);(133,70);(134,71);(135,72);(136,73);(141,74);(142,75);(143,76);(144,77);(145,78);(146,79);(150,80);(151,81);(152,82);(155,83)]);
  (10%nat, [(55,10);(60,15);(61,16);(62,17);(63,18);(64,19);(65,20);(66,21);(67,22);(68,23);(69,24);(70,25);(71,26);(79,28);(80,29);(81,30);(82,31);(83,32);(84,33);(85,34);(86,35);(87,36);(88,37);(89,38);(90,39);(91,40);(92,41);(93,27);(94,42);(95,43);(96,44);(97,45);(98,46);(99,47);(100,48);(107,49);(108,50);(109,51);(110,52);(111,53);(112,54);(113,55);(114,56);(115,57);(116,58);(117,59);(118,60);(119,61);(120,62);(121,63);(127,64);(128,65);(129,66);(130,67);(131,68);(132,69);(133,70);(134,71);(135,72);(136,73);(141,74);(142,75);(143,76);(144,77);(145,78);(146,79);(150,80);(151,81);(152,82);(155,83)]);
  (11%nat, [(56,11);(60,15);(61,16);(62,17);(63,18);(64,19);(65,20);(66,21);(67,22);(68,23);(69,24);(70,25);(71,26);(79,28);(80,29);(81,30);(82,31);(83,32);(84,33);(85,34);(86,35);(87,36);(88,37);(89,38);(90,39);(91,40);(92,41);(93,27);(94,42);(95,43);(96,44);(97,45);(98,46);(99,47);(100,48);(107,49);(108,50);(109,51);(110,52);(111,53);(112,54);(113,55);(114,56);(115,57);(116,58);(117,59);(118,60);(119,61);(120,62);(121,63);(127,64);(128,65);(129,66);(130,67);(131,68);(132,69);(133,70);(134,71);(135,72);(136,73);(141,74);(142,75);(143,76);(144,77);(145,78);(146,79);(150,80);(151,81);(152,82);(155,83)]);
  (12%nat, [(57,12);(60,15);(61,16);(62,17);(63,18);(64,19);(65,20);(66,21);(67,22);(68,23);(69,24);(70,25);(71,26);(79,28);(80,29);(81,30);(82,31);(83,32);(84,33);(85,34);(86,35);(87,36);(88,37);(89,38);(90,39);(91,40);(92,41);(93,27);(94,42);(95,43);(96,44);(97,45);(98,46);(99,47);(100,48);(107,49);(108,50);(109,51);(110,52);(111,53);(112,54);(113,55);(114,56);(115,57);(116,58);(117,59);(118,60);(119,61);(120,62);(121,63);(127,64);(128,65);(129,66);(130,67);(131,68);(132,69);(133,70);(134,71);(135,72);(136,73);(141,74);(142,75);(143,76);(144,77);(145,78);(146,79);(150,80);(151,81);(152,82);(155,83)]);
  (13%nat, [(58,13);(60,15);(61,16);(62,17);(63,18);(64,19);(65,20);(66,21);(67,22);(68,23);(69,24);(70,25);(71,26);(79,28);(80,29);(81,30);(82,31);(83,32);(84,33);(85,34);(86,35);(87,36);(88,37);(89,38);(90,39);(91,40);(92,41);(93,27);(94,42);(95,43);(96,44);(97,45);(98,46);(99,47);(100,48);(107,49);(108,50);(109,51);(110,52);(111,53);(112,54);(113,55);(114,56);(115,57);(116,58);(117,59);(118,60);(119,61);(120,62);(121,63);(127,64);(128,65);(129,66);(130,67);(131,68);(132,69);(133,70);(134,71);(135,72);(136,73);(141,74);(142,75);(143,76);(144,77);(145,78);(146,79);(150,80);(151,81);(152,82);(155,83)]);
  (14%nat, [(59,14);(60,15);(61,16);(62,17);(63,18);(64,19);(65,20);(66,21);(67,22);(68,23);(69,24);(70,25);(71,26);(79,28);(80,29);(81,30);(82,31);(83,32);(84,33);(85,34);(86,35);(87,36);(88,37);(89,38);(90,39);(91,40);(92,41);(93,27);(94,42);(95,43);(96,44);(97,45);(98,46);(99,47);(100,48);(107,49);(108,50);(109,51);(110,52);(111,53);(112,54);(113,55);(114,56);(115,57);(116,58);(117,59);(118,60);(119,61);(120,62);(121,63);(127,64);(128,65);(129,66);(130,67);(131,68);(132,69);(133,70);(134,71);(135,72);(136,73);(141,74);(142,75);(143,76);(144,77);(145,78);(146,79);(150,80);(151,81);(152,82);(155,83)]);
  (1%nat, [(39,1);(55,15);(56,16);(57,17);(59,18);(60,19);(61,20);(62,21);(64,22);(65,23);(66,24);(68,25);(69,26);(71,27);(73,28);(74,29);(75,30);(76,31);(77,32);(78,33);(80,34);(81,35);(82,36);(83,37);(84,38);(86,39);(87,40);(88,41);(89,42);(91,43);(92,44);(94,45);(96,46);(97,47);(99,48);(102,49);(103,50);(104,51);(105,52);(106,53);(108,54);(109,55);(110,56);(111,57);(113,58);(114,59);(115,60);(117,61);(118,62);(120,63);(123,64);(124,65);(125,66);(126,67);(128,68);(129,69);(130,70);(132,71);(133,72);(135,73);(138,74);(139,75);(140,76);(142,77);(143,78);(145,79);(148,80);(149,81);(151,82);(154,83)]);
  (2%nat, [(40,2);(55,15);(56,16);(57,17);(59,18);(60,19);(61,20);(62,21);(64,22);(65,23);(66,24);(68,25);(69,26);(71,27);(73,28);(74,29);(75,30);(76,31);(77,32);(78,33);(80,34);(81,35);(82,36);(83,37);(84,38);(86,39);(87,40);(88,41);(89,42);(91,43);(92,44);(94,45);(96,46);(97,47);(99,48);(102,49);(103,50);(104,51);(105,52);(106,53);(108,54);(109,55);(110,56);(111,57);(113,58);(114,59);(115,60);(117,61);(118,62);(120,63);(123,64);(124,65);(125,66);(126,67);(128,68);(129,69);(130,70);(132,71);(133,72);(135,73);(138,74);(139,75);(140,76);(142,77);(143,78);(145,79);(148,80);(149,81);(151,82);(154,83)]);
  (3%nat, [(41,3);(55,15);(56,16);(57,17);(59,18);(60,19);(61,20);(62,21);(64,22);(65,23);(66,24);(68,25);(69,26);(71,27);(73,28);(74,29);(75,30);(76,31);(77,32);(78,33);(80,34);(81,35);(82,36);(83,37);(84,38);(86,39);(87,40);(88,41);(89,42);(91,43);(92,44);(94,45);(96,46);(97,47);(99,48);(102,49);(103,50);(104,51);(105,52);(106,53);(108,54);(109,55);(110,56);(111,57);(113,58);(114,59);(115,60);(117,61);(118,62);(120,63);(123,64);(124,65);(125,66);(126,67);(128,68);(129,69);(130,70);(132,71);(133,72);(135,73);(138,74);(139,75);(140,76);(142,77);(143,78);(145,79);(148,80);(149,81);(151,82);(154,83)]);
  (4%nat, [(42,4);(55,15);(56,16);(57,17);(59,18);(60,19);(61,20);(62,21);(64,22);(65,23);(66,24);(68,25);(69,26);(71,27);(73,28);(74,29);(75,30);(76,31);(77,32);(78,33);(80,34);(81,35);(82,36);(83,37);(84,38);(86,39);(87,40);(88,41);(89,42);(91,43);(92,44);(94,45);(96,46);(97,47);(99,48);(102,49);(103,50);(104,51);(105,52);(106,53);(108,54);(109,55);(110,56);(111,57);(113,58);(114,59);(115,60);(117,61);(118,62);(120,63);(123,64);(124,65);(125,66);(126,67);(128,68);(129,69);(130,70);(132,71);(133,72);(135,73);(138,74);(139,75);(140,76);(142,77);(143,78);(145,79);(148,80);(149,81);(151,82);(154,83)]);
  (5%nat, [(43,5);(55,15);(56,16);(57,17);(59,18);(60,19);(61,20);(62,21);(64,22);(65,23);(66,24);(68,25);(69,26);(71,27);(73,28);(74,29);(75,30);(76,31);(77,32);(78,33);(80,34);(81,35);(82,36);(83,37);(84,38);(86,39);(87,40);(88,41);(89,42);(91,43);(92,44);(94,45);(96,46);(97,47);(99,48);(102,49);(103,50);(104,51);(105,52);(106,53);(108,54);(109,55);(110,56);(111,57);(113,58);(114,59);(115,60);(117,61);(118,62);(120,63);(123,64);(124,65);(125,66);(126,67);(128,68);(129,69);(130,70);(132,71);(133,72);(135,73);(138,74);(139,75);(140,76);(142,77);(143,78);(145,79);(148,80);(149,81);(151,82);(154,83)]);
  (6%nat, [(44,6);(55,15);(56,16);(57,17);(59,18);(60,19);(61,20);(62,21);(64,22);(65,23);(66,24);(68,25);(69,26);(71,27);(73,28);(74,29);(75,30);(76,31);(77,32);(78,33);(80,34);(81,35);(82,36);(83,37);(84,38);(86,39);(87,40);(88,41);(89,42);(91,43);(92,44);(94,45);(96,46);(97,47);(99,48);(102,49);(103,50);(104,51);(105,52);(106,53);(108,54);(109,55);(110,56);(111,57);(113,58);(114,59);(115,60);(117,61);(118,62);(120,63);(123,64);(124,65);(125,66);(126,67);(128,68);(129,69);(130,70);(132,71);(133,72);(135,73);(138,74);(139,75);(140,76);(142,77);(143,78);(145,79);(148,80);(149,81);(151,82);(154,83)]);
  (7%nat, [(46,7);(55,15);(56,16);(57,17);(59,18);(60,19);(61,20);(62,21);(64,22);(65,23);(66,24);(68,25);(69,26);(71,27);(73,28);(74,29);(75,30);(76,31);(77,32);(78,33);(80,34);(81,35);(82,36);(83,37);(84,38);(86,39);(87,40);(88,41);(89,42);(91,43);(92,44);(94,45);(96,46);(97,47);(99,48);(102,49);(103,50);(104,51);(105,52);(106,53);(108,54);(109,55);(110,56);(111,57);(113,58);(114,59);(115,60);(117,61);(118,62);(120,63);(123,64);(124,65);(125,66);(126,67);(128,68);(129,69);(130,70);(132,71);(133,72);(135,73);(138,74);(139,75);(140,76);(142,77);(143,78);(145,79);(148,80);(149,81);(151,82);(154,83)]);
  (8%nat, [(47,8);(55,15);(56,16);(57,17);(59,18);(60,19);(61,20);(62,21);(64,22);(65,23);(66,24);(68,25);(69,26);(71,27);(73,28);(74,29);(75,30);(76,31);(77,32);(78,33);(80,34);(81,35);(82,36);(83,37);(84,38);(86,39);(87,40);(88,41);(89,42);(91,43);(92,44);(94,45);(96,46);(97,47);(99,48);(102,49);(103,50);(104,51);(105,52);(106,53);(108,54);(109,55);(110,56);(111,57);(113,58);(114,59);(115,60);(117,61);(118,62);(120,63);(123,64);(124,65);(125,66);(126,67);(128,68);(129,69);(130,70);(132,71);(133,72);(135,73);(138,74);(139,75);(140,76);(142,77);(143,78);(145,79);(148,80);(149,81);(151,82);(154,83)]);
  (9%nat, [(48,9);(55,15);(56,16);(57,17);(59,18);(60,19);(61,20);(62,21);(64,22);(65,23);(66,24);(68,25);(69,26);(71,27);(73,28);(74,29);(75,30);(76,31);(77,32);(78,33);(80,34);(81,35);(82,36);(83,37);(84,38);(86,39);(87,40);(88,41);(89,42);(91,43);(92,44);(94,45);(96,46);(97,47);(99,48);(102,49);(103,50);(104,51);(105,52);(106,53);(108,54);(109,55);(110,56);(111,57);(113,58);(114,59);(115,60);(117,61);(118,62);(120,63);(123,64);(124,65);(125,66);(126,67);(128,68);(129,69);(130,70);(132,71);(133,72);(135,73);(138,74);(139,75);(140,76);(142,77);(143,78);(145,79);(148,80);(149,81);(151,82);(154,83)]);
  (10%nat, [(49,10);(55,15);(56,16);(57,17);(59,18);(60,19);(61,20);(62,21);(64,22);(65,23);(66,24);(68,25);(69,26);(71,27);(73,28);(74,29);(75,30);(76,31);(77,32);(78,33);(80,34);(81,35);(82,36);(83,37);(84,38);(86,39);(87,40);(88,41);(89,42);(91,43);(92,44);(94,45);(96,46);(97,47);(99,48);(102,49);(103,50);(104,51);(105,52);(106,53);(108,54);(109,55);(110,56);(111,57);(113,58);(114,59);(115,60);(117,61);(118,62);(120,63);(123,64);(124,65);(125,66);(126,67);(128,68);(129,69);(130,70);(132,71);(133,72);(135,73);(138,74);(139,75);(140,76);(142,77);(143,78);(145,79);(148,80);(149,81);(151,82);(154,83)]);
  (11%nat, [(50,11);(55,15);(56,16);(57,17);(59,18);(60,19);(61,20);(62,21);(64,22);(65,23);(66,24);(68,25);(69,26);(71,27);(73,28);(74,29);(75,30);(76,31);(77,32);(78,33);(80,34);(81,35);(82,36);(83,37);(84,38);(86,39);(87,40);(88,41);(89,42);(91,43);(92,44);(94,45);(96,46);(97,47);(99,48);(102,49);(103,50);(104,51);(105,52);(106,53);(108,54);(109,55);(110,56);(111,57);(113,58);(114,59);(115,60);(117,61);(118,62);(120,63);(123,64);(124,65);(125,66);(126,67);(128,68);(129,69);(130,70);(132,71);(133,72);(135,73);(138,74);(139,75);(140,76);(142,77);(143,78);(145,79);(148,80);(149,81);(151,82);(154,83)]);
  (12%nat, [(51,12);(55,15);(56,16);(57,17);(59,18);(60,19);(61,20);(62,21);(64,22);(65,23);(66,24);(68,25);(69,26);(71,27);(73,28);(74,29);(75,30);(76,31);(77,32);(78,33);(80,34);(81,35);(82,36);(83,37);(84,38);(86,39);(87,40);(88,41);(89,42);(91,43);(92,44);(94,45);(96,46);(97,47);(99,48);(102,49);(103,50);(104,51);(105,52);(106,53);(108,54);(109,55);(110,56);(111,57);(113,58);(114,59);(115,60);(117,61);(118,62);(120,63);(123,64);(124,65);(125,66);(126,67);(128,68);(129,69);(130,70);(132,71);(133,72);(135,73);(138,74);(139,75);(140,76);(142,77);(143,78);(145,79);(148,80);(149,81);(151,82);(154,83)]);
  (13%nat, [(53,13);(55,15);(56,16);(57,17);(59,18);(60,19);(61,20);(62,21);(64,22);(65,23);(66,24);(68,25);(69,26);(71,27);(73,28);(74,29);(75,30);(76,31);(77,32);(78,33);(80,34);(81,35);(82,36);(83,37);(84,38);(86,39);(87,40);(88,41);(89,42);(91,43);(92,44);(94,45);(96,46);(97,47);(99,48);(102,49);(103,50);(104,51);(105,52);(106,53);(108,54);(109,55);(110,56);(111,57);(113,58);(114,59);(115,60);(117,61);(118,62);(120,63);(123,64);(124,65);(125,66);(126,67);(128,68);(129,69);(130,70);(132,71);(133,72);(135,73);(138,74);(139,75);(140,76);(142,77);(143,78);(145,79);(148,80);(149,81);(151,82);(154,83)]);
  (14%nat, [(54,14);(55,15);(56,16);(57,17);(59,18);(60,19);(61,20);(62,21);(64,22);(65,23);(66,24);(68,25);(69,26);(71,27);(73,28);(74,29);(75,30);(76,31);(77,32);(78,33);(80,34);(81,35);(82,36);(83,37);(84,38);(86,39);(87,40);(88,41);(89,42);(91,43);(92,44);(94,45);(96,46);(97,47);(99,48);(102,49);(103,50);(104,51);(105,52);(106,53);(108,54);(109,55);(110,56);(111,57);(113,58);(114,59);(115,60);(117,61);(118,62);(120,63);(123,64);(124,65);(125,66);(126,67);(128,68);(129,69);(130,70);(132,71);(133,72);(135,73);(138,74);(139,75);(140,76);(142,77);(143,78);(145,79);(148,80);(149,81);(151,82);(154,83)]);
  (0%nat, [(37,0);(54,15);(55,16);(56,17);(58,18);(59,19);(60,20);(61,21);(63,22);(64,23);(65,24);(67,25);(68,26);(70,27);(72,28);(73,29);(74,30);(75,31);(76,32);(77,33);(79,34);(80,35);(81,36);(82,37);(83,38);(85,39);(86,40);(87,41);(88,42);(90,43);(91,44);(92,45);(95,46);(96,47);(98,48);(101,49);(102,50);(103,51);(104,52);(105,53);(107,54);(108,55);(109,56);(110,57);(112,58);(113,59);(114,60);(116,61);(117,62);(119,63);(122,64);(123,65);(124,66);(125,67);(127,68);(128,69);(129,70);(131,71);(132,72);(134,73);(137,74);(138,75);(139,76);(141,77);(142,78);(144,79);(147,80);(148,81);(150,82);(153,83)]);
  (1%nat, [(38,1);(54,15);(55,16);(56,17);(58,18);(59,19);(60,20);(61,21);(63,22);(64,23);(65,24);(67,25);(68,26);(70,27);(72,28);(73,29);(74,30);(75,31);(76,32);(77,33);(79,34);(80,35);(81,36);(82,37);(83,38);(85,39);(86,40);(87,41);(88,42);(90,43);(91,44);(92,45);(95,46);(96,47);(98,48);(101,49);(102,50);(103,51);(104,52);(105,53);(107,54);(108,55);(109,56);(110,57);(112,58);(113,59);(114,60);(116,61);(117,62);(119,63);(122,64);(123,65);(124,66);(125,67);(127,68);(128,69);(129,70);(131,71);(132,72);(134,73);(137,74);(138,75);(139,76);(141,77);(142,78);(144,79);(147,80);(148,81);(150,82);(153,83)]);
  (2%nat, [(39,2);(54,15);(55,16);(56,17);(58,18);(59,19);(60,20);(61,21);(63,22);(64,23);(65,24);(67,25);(68,26);(70,27);(72,28);(73,29);(74,30);(75,31);(76,32);(77,33);(79,34);(80,35);(81,36);(82,37);(83,38);(85,39);(86,40);(87,41);(88,42);(90,43);(91,44);(92,45);(95,46);(96,47);(98,48);(101,49);(102,50);(103,51);(104,52);(105,53);(107,54);(108,55);(109,56);(110,57);(112,58);(113,59);(114,60);(116,61);(117,62);(119,63);(122,64);(123,65);(124,66);(125,67);(127,68);(128,69);(129,70);(131,71);(132,72);(134,73);(137,74);(138,75);(139,76);(141,77);(142,78);(144,79);(147,80);(148,81);(150,82);(153,83)]);
  (3%nat, [(40,3);(54,15);(55,16);(56,17);(58,18);(59,19);(60,20);(61,21);(63,22);(64,23);(65,24);(67,25);(68,26);(70,27);(72,28);(73,29);(74,30);(75,31);(76,32);(77,33);(79,34);(80,35);(81,36);(82,37);(83,38);(85,39);(86,40);(87,41);(88,42);(90,43);(91,44);(92,45);(95,46);(96,47);(98,48);(101,49);(102,50);(103,51);(104,52);(105,53);(107,54);(108,55);(109,56);(110,57);(112,58);(113,59);(114,60);(116,61);(117,62);(119,63);(122,64);(123,65);(124,66);(125,67);(127,68);(128,69);(129,70);(131,71);(132,72);(134,73);(137,74);(138,75);(139,76);(141,77);(142,78);(144,79);(147,80);(148,81);(150,82);(153,83)]);
  (4%nat, [(41,4);(54,15);(55,16);(56,17);(58,18);(59,19);(60,20);(61,21);(63,22);(64,23);(65,24);(67,25);(68,26);(70,27);(72,28);(73,29);(74,30);(75,31);(76,32);(77,33);(79,34);(80,35);(81,36);(82,37);(83,38);(85,39);(86,40);(87,41);(88,42);(90,43);(91,44);(92,45);(95,46);(96,47);(98,48);(101,49);(102,50);(103,51);(104,52);(105,53);(107,54);(108,55);(109,56);(110,57);(112,58);(113,59);(114,60);(116,61);(117,62);(119,63);(122,64);(123,65);(124,66);(125,67);(127,68);(128,69);(129,70);(131,71);(132,72);(134,73);(137,74);(138,75);(139,76);(141,77);(142,78);(144,79);(147,80);(148,81);(150,82);(153,83)]);
  (5%nat, [(42,5);(54,15);(55,16);(56,17);(58,18);(59,19);(60,20);(61,21);(63,22);(64,23);(65,24);(67,25);(68,26);(70,27);(72,28);(73,29);(74,30);(75,31);(76,32);(77,33);(79,34);(80,35);(81,36);(82,37);(83,38);(85,39);(86,40);(87,41);(88,42);(90,43);(91,44);(92,45);(95,46);(96,47);(98,48);(101,49);(102,50);(103,51);(104,52);(105,53);(107,54);(108,55);(109,56);(110,57);(112,58);(113,59);(114,60);(116,61);(117,62);(119,63);(122,64);(123,65);(124,66);(125,67);(127,68);(128,69);(129,70);(131,71);(132,72);(134,73);(137,74);(138,75);(139,76);(141,77);(142,78);(144,79);(147,80);(148,81);(150,82);(153,83)]);
  (6%nat, [(43,6);(54,15);(55,16);(56,17);(58,18);(59,19);(60,20);(61,21);(63,22);(64,23);(65,24);(67,25);(68,26);(70,27);(72,28);(73,29);(74,30);(75,31);(76,32);(77,33);(79,34);(80,35);(81,36);(82,37);(83,38);(85,39);(86,40);(87,41);(88,42);(90,43);(91,44);(92,45);(95,46);(96,47);(98,48);(101,49);(102,50);(103,51);(104,52);(105,53);(107,54);(108,55);(109,56);(110,57);(112,58);(113,59);(114,60);(116,61);(117,62);(119,63);(122,64);(123,65);(124,66);(125,67);(127,68);(128,69);(129,70);(131,71);(132,72);(134,73);(137,74);(138,75);(139,76);(141,77);(142,78);(144,79);(147,80);(148,81);(150,82);(153,83)]);
  (7%nat, [(45,7);(54,15);(55,16);(56,17);(58,18);(59,19);(60,20);(61,21);(63,22);(64,23);(65,24);(67,25);(68,26);(70,27);(72,28);(73,29);(74,30);(75,31);(76,32);(77,33);(79,34);(80,35);(81,36);(82,37);(83,38);(85,39);(86,40);(87,41);(88,42);(90,43);(91,44);(92,45);(95,46);(96,47);(98,48);(101,49);(102,50);(103,51);(104,52);(105,53);(107,54);(108,55);(109,56);(110,57);(112,58);(113,59);(114,60);(116,61);(117,62);(119,63);(122,64);(123,65);(124,66);(125,67);(127,68);(128,69);(129,70);(131,71);(132,72);(134,73);(137,74);(138,75);(139,76);(141,77);(142,78);(144,79);(147,80);(148,81);(150,82);(153,83)]);
  (8%nat, [(46,8);(54,15);(55,16);(56,17);(58,18);(59,19);(60,20);(61,21);(63,22);(64,23);(65,24);(67,25);(68,26);(70,27);(72,28);(73,29);(74,30);(75,31);(76,32);(77,33);(79,34);(80,35);(81,36);(82,37);(83,38);(85,39);(86,40);(87,41);(88,42);(90,43);(91,44);(92,45);(95,46);(96,47);(98,48);(101,49);(102,50);(103,51);(104,52);(105,53);(107,54);(108,55);(109,56);(110,57);(112,58);(113,59);(114,60);(116,61);(117,62);(119,63);(122,64);(123,65);(124,66);(125,67);(127,68);(128,69);(129,70);(131,71);(132,72);(134,73);(137,74);(138,75);(139,76);(141,77);(142,78);(144,79);(147,80);(148,81);(150,82);(153,83)]);
  (9%nat, [(47,9);(54,15);(55,16);(56,17);(58,18);(59,19);(60,20);(61,21);(63,22);(64,23);(65,24);(67,25);(68,26);(70,27);(72,28);(73,29);(74,30);(75,31);(76,32);(77,33);(79,34);(80,35);(81,36);(82,37);(83,38);(85,39);(86,40);(87,41);(88,42);(90,43);(91,44);(92,45);(95,46);(96,47);(98,48);(101,49);(102,50);(103,51);(104,52);(105,53);(107,54);(108,55);(109,56);(110,57);(112,58);(113,59);(114,60);(116,61);(117,62);(119,63);(122,64);(123,65);(124,66);(125,67);(127,68);(128,69);(129,70);(131,71);(132,72);(134,73);(137,74);(138,75);(139,76);(141,77);(142,78);(144,79);(147,80);(148,81);(150,82);(153,83)]);
  (10%nat, [(48,10);(54,15);(55,16);(56,17);(58,18);(59,19);(60,20);(61,21);(63,22);(64,23);(65,24);(67,25);(68,26);(70,27);(72,28);(73,29);(74,30);(75,31);(76,32);(77,33);(79,34);(80,35);(81,36);(82,37);(83,38);(85,39);(86,40);(87,41);(88,42);(90,43);(91,44);(92,45);(95,46);(96,47);(98,48);(101,49);(102,50);(103,51);(104,52);(105,53);(107,54);(108,55);(109,56);(110,57);(112,58);(113,59);(114,60);(116,61);(117,62);(119,63);(122,64);(123,65);(124,66);(125,67);(127,68);(128,69);(129,70);(131,71);(132,72);(134,73);(137,74);(138,75);(139,76);(141,77);(142,78);(144,79);(147,80);(148,81);(150,82);(153,83)]);
  (11%nat, [(49,11);(54,15);(55,16);(56,17);(58,18);(59,19);(60,20);(61,21);(63,22);(64,23);(65,24);(67,25);(68,26);(70,27);(72,28);(73,29);(74,30);(75,31);(76,32);(77,33);(79,34);(80,35);(81,36);(82,37);(83,38);(85,39);(86,40);(87,41);(88,42);(90,43);(91,44);(92,45);(95,46);(96,47);(98,48);(101,49);(102,50);(103,51);(104,52);(105,53);(107,54);(108,55);(109,56);(110,57);(112,58);(113,59);(114,60);(116,61);(117,62);(119,63);(122,64);(123,65);(124,66);(125,67);(127,68);(128,69);(129,70);(131,71);(132,72);(134,73);(137,74);(138,75);(139,76);(141,77);(142,78);(144,79);(147,80);(148,81);(150,82);(153,83)]);
  (12%nat, [(50,12);(54,15);(55,16);(56,17);(58,18);(59,19);(60,20);(61,21);(63,22);(64,23);(65,24);(67,25);(68,26);(70,27);(72,28);(73,29);(74,30);(75,31);(76,32);(77,33);(79,34);(80,35);(81,36);(82,37);(83,38);(85,39);(86,40);(87,41);(88,42);(90,43);(91,44);(92,45);(95,46);(96,47);(98,48);(101,49);(102,50);(103,51);(104,52);(105,53);(107,54);(108,55);(109,56);(110,57);(112,58);(113,59);(114,60);(116,61);(117,62);(119,63);(122,64);(123,65);(124,66);(125,67);(127,68);(128,69);(129,70);(131,71);(132,72);(134,73);(137,74);(138,75);(139,76);(141,77);(142,78);(144,79);(147,80);(148,81);(150,82);(153,83)]);
  (13%nat, [(52,13);(54,15);(55,16);(56,17);(58,18);(59,19);(60,20);(61,21);(63,22);(64,23);(65,24);(67,25);(68,26);(70,27);(72,28);(73,29);(74,30);(75,31);(76,32);(77,33);(79,34);(80,35);(81,36);(82,37);(83,38);(85,39);(86,40);(87,41);(88,42);(90,43);(91,44);(92,45);(95,46);(96,47);(98,48);(101,49);(102,50);(103,51);(104,52);(105,53);(107,54);(108,55);(109,56);(110,57);(112,58);(113,59);(114,60);(116,61);(117,62);(119,63);(122,64);(123,65);(124,66);(125,67);(127,68);(128,69);(129,70);(131,71);(132,72);(134,73);(137,74);(138,75);(139,76);(141,77);(142,78);(144,79);(147,80);(148,81);(150,82);(153,83)]);
  (14%nat, [(53,14);(54,15);(55,16);(56,17);(58,18);(59,19);(60,20);(61,21);(63,22);(64,23);(65,24);(67,25);(68,26);(70,27);(72,28);(73,29);(74,30);(75,31);(76,32);(77,33);(79,34);(80,35);(81,36);(82,37);(83,38);(85,39);(86,40);(87,41);(88,42);(90,43);(91,44);(92,45);(95,46);(96,47);(98,48);(101,49);(102,50);(103,51);(104,52);(105,53);(107,54);(108,55);(109,56);(110,57);(112,58);(113,59);(114,60);(116,61);(117,62);(119,63);(122,64);(123,65);(124,66);(125,67);(127,68);(128,69);(129,70);(131,71);(132,72);(134,73);(137,74);(138,75);(139,76);(141,77);(142,78);(144,79);(147,80);(148,81);(150,82);(153,83)]);
  (0%nat, [(72,0);(87,15);(88,16);(89,17);(90,18);(91,19);(92,20);(94,21);(95,22);(96,23);(97,24);(98,25);(99,26);(100,27);(101,28);(102,29);(103,30);(104,31);(105,32);(106,33);(107,34);(108,35);(109,36);(110,37);(111,38);(112,39);(113,40);(114,41);(115,42);(116,43);(117,44);(118,45);(119,46);(120,47);(121,48);(122,49);(123,50);(124,51);(125,52);(126,53);(127,54);(128,55);(129,56);(130,57);(131,58);(132,59);(133,60);(134,61);(135,62);(136,63);(137,64);(138,65);(139,66);(140,67);(141,68);(142,69);(143,70);(144,71);(145,72);(146,73);(147,74);(148,75);(149,76);(150,77);(151,78);(152,79);(153,80);(154,81);(155,82);(156,83)]);
  (1%nat, [(73,1);(87,15);(88,16);(89,17);(90,18);(91,19);(92,20);(94,21);(95,22);(96,23);(97,24);(98,25);(99,26);(100,27);(101,28);(102,29);(103,30);(104,31);(105,32);(106,33);(107,34);(108,35);(109,36);(110,37);(111,38);(112,39);(113,40);(114,41);(115,42);(116,43);(117,44);(118,45);(119,46);(120,47);(121,48);(122,49);(123,50);(124,51);(125,52);(126,53);(127,54);(128,55);(129,56);(130,57);(131,58);(132,59);(133,60);(134,61);(135,62);(136,63);(137,64);(138,65);(139,66);(140,67);(141,68);(142,69);(143,70);(144,71);(145,72);(146,73);(147,74);(148,75);(149,76);(150,77);(151,78);(152,79);(153,80);(154,81);(155,82);(156,83)]);
  (2%nat, [(74,2);(87,15);(88,16);(89,17);(90,18);(91,19);(92,20);(94,21);(95,22);(96,23);(97,24);(98,25);(99,26);(100,27);(101,28);(102,29);(103,30);(104,31);(105,32);(106,33);(107,34);(108,35);(109,36);(110,37);(111,38);(112,39);(113,40);(114,41);(115,42);(116,43);(117,44);(118,45);(119,46);(120,47);(121,48);(122,49);(123,50);(124,51);(125,52);(126,53);(127,54);(128,55);(129,56);(130,57);(131,58);(132,59);(133,60);(134,61);(135,62);(136,63);(137,64);(138,65);(139,66);(140,67);(141,68);(142,69);(143,70);(144,71);(145,72);(146,73);(147,74);(148,75);(149,76);(150,77);(151,78);(152,79);(153,80);(154,81);(155,82);(156,83)]);
  (3%nat, [(75,3);(87,15);(88,16);(89,17);(90,18);(91,19);(92,20);(94,21);(95,22);(96,23);(97,24);(98,25);(99,26);(100,27);(101,28);(102,29);(103,30);(104,31);(105,32);(106,33);(107,34);(108,35);(109,36);(110,37);(111,38);(112,39);(113,40);(114,41);(115,42);(116,43);(117,44);(118,45);(119,46);(120,47);(121,48);(122,49);(123,50);(124,51);(125,52);(126,53);(127,54);(128,55);(129,56);(130,57);(131,58);(132,59);(133,60);(134,61);(135,62);(136,63);(137,64);(138,65);(139,66);(140,67);(141,68);(142,69);(143,70);(144,71);(145,72);(146,73);(147,74);(148,75);(149,76);(150,77);(151,78);(152,79);(153,80);(154,81);(155,82);(156,83)]);
  (4%nat, [(76,4);(87,15);(88,16);(89,17);(90,18);(91,19);(92,20);(94,21);(95,22);(96,23);(97,24);(98,25);(99,26);(100,27);(101,28);(102,29);(103,30);(104,31);(105,32);(106,33);(107,34);(108,35);(109,36);(110,37);(111,38);(112,39);(113,40);(114,41);(115,42);(116,43);(117,44);(118,45);(119,46);(120,47);(121,48);(122,49);(123,50);(124,51);(125,52);(126,53);(127,54);(128,55);(129,56);(130,57);(131,58);(132,59);(133,60);(134,61);(135,62);(136,63);(137,64);(138,65);(139,66);(140,67);(141,68);(142,69);(143,70);(144,71);(145,72);(146,73);(147,74);(148,75);(149,76);(150,77);(151,78);(152,79);(153,80);(154,81);(155,82);(156,83)]);
  (5%nat, [(77,5);(87,15);(88,16);(89,17);(90,18);(91,19);(92,20);(94,21);(95,22);(96,23);(97,24);(98,25);(99,26);(100,27);(101,28);(102,29);(103,30);(104,31);(105,32);(106,33);(107,34);(108,35);(109,36);(110,37);(111,38);(112,39);(113,40);(114,41);(115,42);(116,43);(117,44);(118,45);(119,46);(120,47);(121,48);(122,49);(123,50);(124,51);(125,52);(126,53);(127,54);(128,55);(129,56);(130,57);(131,58);(132,59);(133,60);(134,61);(135,62);(136,63);(137,64);(138,65);(139,66);(140,67);(141,68);(142,69);(143,70);(144,71);(145,72);(146,73);(147,74);(148,75);(149,76);(150,77);(151,78);(152,79);(153,80);(154,81);(155,82);(156,83)]);
  (6%nat, [(78,6);(87,15);(88,16);(89,17);(90,18);(91,19);(92,20);(94,21);(95,22);(96,23);(97,24);(98,25);(99,26);(100,27);(101,28);(102,29);(103,30);(104,31);(105,32);(106,33);(107,34);(108,35);(109,36);(110,37);(111,38);(112,39);(113,40);(114,41);(115,42);(116,43);(117,44);(118,45);(119,46);(120,47);(121,48);(122,49);(123,50);(124,51);(125,52);(126,53);(127,54);(128,55);(129,56);(130,57);(131,58);(132,59);(133,60);(134,61);(135,62);(136,63);(137,64);(138,65);(139,66);(140,67);(141,68);(142,69);(143,70);(144,71);(145,72);(146,73);(147,74);(148,75);(149,76);(150,77);(151,78);(152,79);(153,80);(154,81);(155,82);(156,83)]);
  (7%nat, [(79,7);(87,15);(88,16);(89,17);(90,18);(91,19);(92,20);(94,21);(95,22);(96,23);(97,24);(98,25);(99,26);(100,27);(101,28);(102,29);(103,30);(104,31);(105,32);(106,33);(107,34);(108,35);(109,36);(110,37);(111,38);(112,39);(113,40);(114,41);(115,42);(116,43);(117,44);(118,45);(119,46);(120,47);(121,48);(122,49);(123,50);(124,51);(125,52);(126,53);(127,54);(128,55);(129,56);(130,57);(131,58);(132,59);(133,60);(134,61);(135,62);(136,63);(137,64);(138,65);(139,66);(140,67);(141,68);(142,69);(143,70);(144,71);(145,72);(146,73);(147,74);(148,75);(149,76);(150,77);(151,78);(152,79);(153,80);(154,81);(155,82);(156,83)]);
  (8%nat, [(80,8);(87,15);(88,16);(89,17);(90,18);(91,19);(92,20);(94,21);(95,22);(96,23);(97,24);(98,25);(99,26);(100,27);(101,28);(102,29);(103,30);(104,31);(105,32);(106,33);(107,34);(108,35);(109,36);(110,37);(111,38);(112,39);(113,40);(114,41);(115,42);(116,43);(117,44);(118,45);(119,46);(120,47);(121,48);(122,49);(123,50);(124,51);(125,52);(126,53);(127,54);(128,55);(129,56);(130,57);(131,58);(132,59);(133,60);(134,61);(135,62);(136,63);(137,64);(138,65);(139,66);(140,67);(141,68);(142,69);(143,70);(144,71);(145,72);(146,73);(147,74);(148,75);(149,76);(150,77);(151,78);(152,79);(153,80);(154,81);(155,82);(156,83)]);
  (9%nat, [(81,9);(87,15);(88,16);(89,17);(90,18);(91,19);(92,20);(94,21);(95,22);(96,23);(97,24);(98,25);(99,26);(100,27);(101,28);(102,29);(103,30);(104,31);(105,32);(106,33);(107,34);(108,35);(109,36);(110,37);(111,38);(112,39);(113,40);(114,41);(115,42);(116,43);(117,44);(118,45);(119,46);(120,47);(121,48);(122,49);(123,50);(124,51);(125,52);(126,53);(127,54);(128,55);(129,56);(130,57);(131,58);(132,59);(133,60);(134,61);(135,62);(136,63);(137,64);(138,65);(139,66);(140,67);(141,68);(142,69);(143,70);(144,71);(145,72);(146,73);(147,74);(148,75);(149,76);(150,77);(151,78);(152,79);(153,80);(154,81);(155,82);(156,83)]);
  (10%nat, [(82,10);(87,15);(88,16);(89,17);(90,18);(91,19);(92,20);(94,21);(95,22);(96,23);(97,24);(98,25);(99,26);(100,27);(101,28);(102,29);(103,30);(104,31);(105,32);(106,33);(107,34);(108,35);(109,36);(110,37);(111,38);(112,39);(113,40);(114,41);(115,42);(116,43);(117,44);(118,45);(119,46);(120,47);(121,48);(122,49);(123,50);(124,51);(125,52);(126,53);(127,54);(128,55);(129,56);(130,57);(131,58);(132,59);(133,60);(134,61);(135,62);(136,63);(137,64);(138,65);(139,66);(140,67);(141,68);(142,69);(143,70);(144,71);(145,72);(146,73);(147,74);(148,75);(149,76);(150,77);(151,78);(152,79);(153,80);(154,81);(155,82);(156,83)]);
  (11%nat, [(83,11);(87,15);(88,16);(89,17);(90,18);(91,19);(92,20);(94,21);(95,22);(96,23);(97,24);(98,25);(99,26);(100,27);(101,28);(102,29);(103,30);(104,31);(105,32);(106,33);(107,34);(108,35);(109,36);(110,37);(111,38);(112,39);(113,40);(114,41);(115,42);(116,43);(117,44);(118,45);(119,46);(120,47);(121,48);(122,49);(123,50);(124,51);(125,52);(126,53);(127,54);(128,55);(129,56);(130,57);(131,58);(132,59);(133,60);(134,61);(135,62);(136,63);(137,64);(138,65);(139,66);(140,67);(141,68);(142,69);(143,70);(144,71);(145,72);(146,73);(147,74);(148,75);(149,76);(150,77);(151,78);(152,79);(153,80);(154,81);(155,82);(156,83)]);
  (12%nat, [(84,12);(87,15);(88,16);(89,17);(90,18);(91,19);(92,20);(94,21);(95,22);(96,23);(97,24);(98,25);(99,26);(100,27);(101,28);(102,29);(103,30);(104,31);(105,32);(106,33);(107,34);(108,35);(109,36);(110,37);(111,38);(112,39);(113,40);(114,41);(115,42);(116,43);(117,44);(118,45);(119,46);(120,47);(121,48);(122,49);(123,50);(124,51);(125,52);(126,53);(127,54);(128,55);(129,56);(130,57);(131,58);(132,59);(133,60);(134,61);(135,62);(136,63);(137,64);(138,65);(139,66);(140,67);(141,68);(142,69);(143,70);(144,71);(145,72);(146,73);(147,74);(148,75);(149,76);(150,77);(151,78);(152,79);(153,80);(154,81);(155,82);(156,83)]);
  (13%nat, [(85,13);(87,15);(88,16);(89,17);(90,18);(91,19);(92,20);(94,21);(95,22);(96,23);(97,24);(98,25);(99,26);(100,27);(101,28);(102,29);(103,30);(104,31);(105,32);(106,33);(107,34);(108,35);(109,36);(110,37);(111,38);(112,39);(113,40);(114,41);(115,42);(116,43);(117,44);(118,45);(119,46);(120,47);(121,48);(122,49);(123,50);(124,51);(125,52);(126,53);(127,54);(128,55);(129,56);(130,57);(131,58);(132,59);(133,60);(134,61);(135,62);(136,63);(137,64);(138,65);(139,66);(140,67);(141,68);(142,69);(143,70);(144,71);(145,72);(146,73);(147,74);(148,75);(149,76);(150,77);(151,78);(152,79);(153,80);(154,81);(155,82);(156,83)]);
  (14%nat, [(86,14);(87,15);(88,16);(89,17);(90,18);(91,19);(92,20);(94,21);(95,22);(96,23);(97,24);(98,25);(99,26);(100,27);(101,28);(102,29);(103,30);(104,31);(105,32);(106,33);(107,34);(108,35);(109,36);(110,37);(111,38);(112,39);(113,40);(114,41);(115,42);(116,43);(117,44);(118,45);(119,46);(120,47);(121,48);(122,49);(123,50);(124,51);(125,52);(126,53);(127,54);(128,55);(129,56);(130,57);(131,58);(132,59);(133,60);(134,61);(135,62);(136,63);(137,64);(138,65);(139,66);(140,67);(141,68);(142,69);(143,70);(144,71);(145,72);(146,73);(147,74);(148,75);(149,76);(150,77);(151,78);(152,79);(153,80);(154,81);(155,82);(156,83)]) ]%N.
(** a row of Action: minus a row of M3, or a one in a column *)
Inductive act_row := ActRow (k : nat) | ActOne (j : nat).
(** the assignments to Action, src/relative_pose/modules/sixpt/modules2.cpp 360-423 *)
Definition six_action_rows : list act_row :=
  [ ActRow 36; ActRow 66; ActRow 67; ActRow 68; ActRow 69; ActRow 70; ActRow 71; ActOne 0; ActRow 79; ActRow 80; ActRow 81; ActRow 82; ActRow 83; ActRow 84; ActRow 85; ActRow 86; ActRow 87; ActRow 88; ActRow 89; ActRow 90; ActRow 91; ActRow 92; ActOne 1; ActOne 2; ActOne 3; ActOne 4; ActOne 5; ActOne 6; ActOne 7; ActOne 14; ActOne 15; ActOne 16; ActOne 17; ActOne 18; ActOne 19; ActOne 20; ActOne 21; ActOne 22; ActOne 23; ActOne 24; ActOne 25; ActOne 26; ActOne 27; ActOne 28; ActOne 34; ActOne 35; ActOne 36; ActOne 37; ActOne 38; ActOne 39; ActOne 40; ActOne 41; ActOne 42; ActOne 43; ActOne 48; ActOne 49; ActOne 50; ActOne 51; ActOne 52; ActOne 53; ActOne 57; ActOne 58; ActOne 59; ActOne 62 ]%nat.
(** exponents of the three Cayley parameters in the monomials of the entries of
    c0, c1, c2, of the columns of M1 and of the columns of M2 *)
Definition six_mon : list (N * N * N) := [(2,0,0);(1,1,0);(0,2,0);(1,0,1);(0,1,1);(0,0,2);(1,0,0);(0,1,0);(0,0,1);(0,0,0)]%N.
Definition six_mon1 : list (N * N * N) := [(6,0,0);(5,1,0);(4,2,0);(3,3,0);(2,4,0);(1,5,0);(0,6,0);(5,0,1);(4,1,1);(3,2,1);(2,3,1);(1,4,1);(0,5,1);(4,0,2);(3,1,2);(2,2,2);(1,3,2);(0,4,2);(3,0,3);(2,1,3);(1,2,3);(0,3,3);(2,0,4);(1,1,4);(0,2,4);(1,0,5);(0,1,5);(0,0,6);(5,0,0);(4,1,0);(3,2,0);(2,3,0);(1,4,0);(0,5,0);(4,0,1);(3,1,1);(2,2,1);(1,3,1);(0,4,1);(3,0,2);(2,1,2);(1,2,2);(0,3,2);(2,0,3);(1,1,3);(0,2,3);(1,0,4);(0,1,4);(0,0,5);(4,0,0);(3,1,0);(2,2,0);(1,3,0);(0,4,0);(3,0,1);(2,1,1);(1,2,1);(0,3,1);(2,0,2);(1,1,2);(0,2,2);(1,0,3);(0,1,3);(0,0,4);(3,0,0);(2,1,0);(1,2,0);(0,3,0);(2,0,1);(1,1,1);(0,2,1);(1,0,2);(0,1,2);(0,0,3);(2,0,0);(1,1,0);(0,2,0);(1,0,1);(0,1,1);(0,0,2);(1,0,0);(0,1,0);(0,0,1);(0,0,0)]%N.
Definition six_mon2 : list (N * N * N) := [(5,3,0);(4,4,0);(3,5,0);(2,6,0);(6,1,1);(5,2,1);(4,3,1);(3,4,1);(2,5,1);(1,6,1);(5,1,2);(4,2,2);(3,3,2);(2,4,2);(1,5,2);(0,6,2);(5,0,3);(4,1,3);(3,2,3);(2,3,3);(1,4,3);(0,5,3);(4,0,4);(3,1,4);(2,2,4);(1,3,4);(0,4,4);(3,0,5);(2,1,5);(1,2,5);(0,3,5);(2,0,6);(1,1,6);(0,2,6);(1,0,7);(0,1,7);(0,0,8);(7,0,0);(6,1,0);(5,2,0);(4,3,0);(3,4,0);(2,5,0);(1,6,0);(0,7,0);(6,0,1);(5,1,1);(4,2,1);(3,3,1);(2,4,1);(1,5,1);(0,6,1);(5,0,2);(4,1,2);(3,2,2);(2,3,2);(1,4,2);(0,5,2);(4,0,3);(3,1,3);(2,2,3);(1,3,3);(0,4,3);(3,0,4);(2,1,4);(1,2,4);(0,3,4);(2,0,5);(1,1,5);(0,2,5);(1,0,6);(0,1,6);(6,0,0);(5,1,0);(4,2,0);(3,3,0);(2,4,0);(1,5,0);(0,6,0);(5,0,1);(4,1,1);(3,2,1);(2,3,1);(1,4,1);(0,5,1);(4,0,2);(3,1,2);(2,2,2);(1,3,2);(0,4,2);(3,0,3);(2,1,3);(1,2,3);(0,0,7);(0,3,3);(2,0,4);(1,1,4);(0,2,4);(1,0,5);(0,1,5);(0,0,6);(5,0,0);(4,1,0);(3,2,0);(2,3,0);(1,4,0);(0,5,0);(4,0,1);(3,1,1);(2,2,1);(1,3,1);(0,4,1);(3,0,2);(2,1,2);(1,2,2);(0,3,2);(2,0,3);(1,1,3);(0,2,3);(1,0,4);(0,1,4);(0,0,5);(4,0,0);(3,1,0);(2,2,0);(1,3,0);(0,4,0);(3,0,1);(2,1,1);(1,2,1);(0,3,1);(2,0,2);(1,1,2);(0,2,2);(1,0,3);(0,1,3);(0,0,4);(3,0,0);(2,1,0);(1,2,0);(0,3,0);(2,0,1);(1,1,1);(0,2,1);(1,0,2);(0,1,2);(0,0,3);(2,0,0);(1,1,0);(0,2,0);(1,0,1);(0,1,1);(0,0,2);(1,0,0);(0,1,0);(0,0,1);(0,0,0)]%N.
