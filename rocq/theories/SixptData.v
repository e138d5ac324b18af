(** Generated by tools/gen_sixpt_ex.py: values and pivots for the scene of
    SixptEx2.v (examples only). *)
From Coq Require Import List NArith ZArith.
Import ListNotations.

(** three times the directions, the points in view 1 and in view 2 *)
Definition s6_D1 : list (Z * Z * Z) := [(-2,2,-1); (0,3,0); (0,0,3); (0,0,3); (-2,1,2); (-2,-2,1)]%Z.
Definition s6_D2 : list (Z * Z * Z) := [(-2,2,-1); (-2,-2,-1); (2,1,2); (2,-1,-2); (3,0,0); (2,2,-1)]%Z.
Definition s6_X1 : list (Z * Z * Z) := [(9,-6,-3); (6,0,0); (6,0,6); (0,3,0); (0,-6,6); (-3,0,-3)]%Z.
Definition s6_X2 : list (Z * Z * Z) := [(-6,6,-3); (-3,3,3); (3,3,3); (-3,-3,6); (3,-3,-3); (-6,-6,3)]%Z.
(** the polynomials of fillRow1 for l = (d/3, m), times 27 *)
Record zline := ZL { z0 : Z; z1 : Z; z2 : Z; z3 : Z; z4 : Z; z5 : Z }.
Definition zfill_c0 (l01 l02 l11 l12 : zline) : list Z := (
  [ -z2 l12 * z1 l11 * z0 l01 + z2 l12 * z0 l11 * z1 l01 + z1 l12 * z2 l11 * z0 l01 - z1 l12 * z0 l11 * z2 l01 + z0 l12 * z2 l11 * z1 l01 - z0 l12 * z1 l11 * z2 l01;
    2 * z1 l12 * z2 l11 * z1 l01 - 2 * z1 l12 * z1 l11 * z2 l01 - 2 * z0 l12 * z2 l11 * z0 l01 + 2 * z0 l12 * z0 l11 * z2 l01;
    -z2 l12 * z1 l11 * z0 l01 + z2 l12 * z0 l11 * z1 l01 - z1 l12 * z2 l11 * z0 l01 + z1 l12 * z0 l11 * z2 l01 - z0 l12 * z2 l11 * z1 l01 + z0 l12 * z1 l11 * z2 l01;
    2 * z2 l12 * z2 l11 * z1 l01 - 2 * z2 l12 * z1 l11 * z2 l01 + 2 * z0 l12 * z1 l11 * z0 l01 - 2 * z0 l12 * z0 l11 * z1 l01;
    -2 * z2 l12 * z2 l11 * z0 l01 + 2 * z2 l12 * z0 l11 * z2 l01 + 2 * z1 l12 * z1 l11 * z0 l01 - 2 * z1 l12 * z0 l11 * z1 l01;
    z2 l12 * z1 l11 * z0 l01 - z2 l12 * z0 l11 * z1 l01 + z1 l12 * z2 l11 * z0 l01 - z1 l12 * z0 l11 * z2 l01 - z0 l12 * z2 l11 * z1 l01 + z0 l12 * z1 l11 * z2 l01;
    -2 * z2 l12 * z2 l11 * z0 l01 + 2 * z2 l12 * z0 l11 * z2 l01 - 2 * z1 l12 * z1 l11 * z0 l01 + 2 * z1 l12 * z0 l11 * z1 l01;
    -2 * z2 l12 * z2 l11 * z1 l01 + 2 * z2 l12 * z1 l11 * z2 l01 + 2 * z0 l12 * z1 l11 * z0 l01 - 2 * z0 l12 * z0 l11 * z1 l01;
    2 * z1 l12 * z2 l11 * z1 l01 - 2 * z1 l12 * z1 l11 * z2 l01 + 2 * z0 l12 * z2 l11 * z0 l01 - 2 * z0 l12 * z0 l11 * z2 l01;
    z2 l12 * z1 l11 * z0 l01 - z2 l12 * z0 l11 * z1 l01 - z1 l12 * z2 l11 * z0 l01 + z1 l12 * z0 l11 * z2 l01 + z0 l12 * z2 l11 * z1 l01 - z0 l12 * z1 l11 * z2 l01 ])%Z.
Definition zfill_c1 (l01 l02 l11 l12 : zline) : list Z := (
  [ z2 l12 * z1 l11 * z0 l02 + z2 l12 * z0 l11 * z1 l02 - z1 l12 * z2 l11 * z0 l02 - z1 l12 * z0 l11 * z2 l02 + z0 l12 * z2 l11 * z1 l02 - z0 l12 * z1 l11 * z2 l02;
    2 * z2 l12 * z1 l11 * z1 l02 - 2 * z2 l12 * z0 l11 * z0 l02 - 2 * z1 l12 * z1 l11 * z2 l02 + 2 * z0 l12 * z0 l11 * z2 l02;
    -z2 l12 * z1 l11 * z0 l02 - z2 l12 * z0 l11 * z1 l02 - z1 l12 * z2 l11 * z0 l02 + z1 l12 * z0 l11 * z2 l02 + z0 l12 * z2 l11 * z1 l02 + z0 l12 * z1 l11 * z2 l02;
    2 * z2 l12 * z2 l11 * z1 l02 - 2 * z1 l12 * z2 l11 * z2 l02 + 2 * z1 l12 * z0 l11 * z0 l02 - 2 * z0 l12 * z0 l11 * z1 l02;
    -2 * z2 l12 * z2 l11 * z0 l02 + 2 * z1 l12 * z1 l11 * z0 l02 + 2 * z0 l12 * z2 l11 * z2 l02 - 2 * z0 l12 * z1 l11 * z1 l02;
    z2 l12 * z1 l11 * z0 l02 - z2 l12 * z0 l11 * z1 l02 + z1 l12 * z2 l11 * z0 l02 + z1 l12 * z0 l11 * z2 l02 - z0 l12 * z2 l11 * z1 l02 - z0 l12 * z1 l11 * z2 l02;
    2 * z2 l12 * z2 l11 * z0 l02 + 2 * z1 l12 * z1 l11 * z0 l02 - 2 * z0 l12 * z2 l11 * z2 l02 - 2 * z0 l12 * z1 l11 * z1 l02;
    2 * z2 l12 * z2 l11 * z1 l02 - 2 * z1 l12 * z2 l11 * z2 l02 - 2 * z1 l12 * z0 l11 * z0 l02 + 2 * z0 l12 * z0 l11 * z1 l02;
    -2 * z2 l12 * z1 l11 * z1 l02 - 2 * z2 l12 * z0 l11 * z0 l02 + 2 * z1 l12 * z1 l11 * z2 l02 + 2 * z0 l12 * z0 l11 * z2 l02;
    -z2 l12 * z1 l11 * z0 l02 + z2 l12 * z0 l11 * z1 l02 + z1 l12 * z2 l11 * z0 l02 - z1 l12 * z0 l11 * z2 l02 - z0 l12 * z2 l11 * z1 l02 + z0 l12 * z1 l11 * z2 l02 ])%Z.
Definition zfill_c2 (l01 l02 l11 l12 : zline) : list Z := (
  [ -z2 l12 * z1 l11 * z5 l02 * z1 l02 + z2 l12 * z1 l11 * z4 l02 * z2 l02 + z2 l12 * z1 l11 * z5 l01 * z1 l01 - z2 l12 * z1 l11 * z4 l01 * z2 l01 + z2 l12 * z0 l11 * z5 l02 * z0 l02 - z2 l12 * z0 l11 * z3 l02 * z2 l02 + z2 l12 * z0 l11 * z5 l01 * z0 l01 - z2 l12 * z0 l11 * z3 l01 * z2 l01 + z1 l12 * z2 l11 * z5 l02 * z1 l02 - z1 l12 * z2 l11 * z4 l02 * z2 l02 - z1 l12 * z2 l11 * z5 l01 * z1 l01 + z1 l12 * z2 l11 * z4 l01 * z2 l01 + z1 l12 * z0 l11 * z4 l02 * z0 l02 - z1 l12 * z0 l11 * z3 l02 * z1 l02 + z1 l12 * z0 l11 * z4 l01 * z0 l01 - z1 l12 * z0 l11 * z3 l01 * z1 l01 + z0 l12 * z2 l11 * z5 l02 * z0 l02 - z0 l12 * z2 l11 * z3 l02 * z2 l02 + z0 l12 * z2 l11 * z5 l01 * z0 l01 - z0 l12 * z2 l11 * z3 l01 * z2 l01 + z0 l12 * z1 l11 * z4 l02 * z0 l02 - z0 l12 * z1 l11 * z3 l02 * z1 l02 + z0 l12 * z1 l11 * z4 l01 * z0 l01 - z0 l12 * z1 l11 * z3 l01 * z1 l01 - 9 * z5 l12 * z2 l11 - 9 * z4 l12 * z1 l11 + 9 * z3 l12 * z0 l11 - 9 * z2 l12 * z5 l11 - 9 * z1 l12 * z4 l11 + 9 * z0 l12 * z3 l11;
    2 * z2 l12 * z1 l11 * z5 l02 * z0 l02 - 2 * z2 l12 * z1 l11 * z3 l02 * z2 l02 + 2 * z2 l12 * z0 l11 * z5 l02 * z1 l02 - 2 * z2 l12 * z0 l11 * z4 l02 * z2 l02 + 2 * z1 l12 * z2 l11 * z5 l01 * z0 l01 - 2 * z1 l12 * z2 l11 * z3 l01 * z2 l01 + 2 * z1 l12 * z1 l11 * z4 l02 * z0 l02 - 2 * z1 l12 * z1 l11 * z3 l02 * z1 l02 + 2 * z1 l12 * z1 l11 * z4 l01 * z0 l01 - 2 * z1 l12 * z1 l11 * z3 l01 * z1 l01 + 2 * z0 l12 * z2 l11 * z5 l01 * z1 l01 - 2 * z0 l12 * z2 l11 * z4 l01 * z2 l01 - 2 * z0 l12 * z0 l11 * z4 l02 * z0 l02 + 2 * z0 l12 * z0 l11 * z3 l02 * z1 l02 - 2 * z0 l12 * z0 l11 * z4 l01 * z0 l01 + 2 * z0 l12 * z0 l11 * z3 l01 * z1 l01 + 9 * 2 * z4 l12 * z0 l11 + 9 * 2 * z3 l12 * z1 l11 + 9 * 2 * z1 l12 * z3 l11 + 9 * 2 * z0 l12 * z4 l11;
    z2 l12 * z1 l11 * z5 l02 * z1 l02 - z2 l12 * z1 l11 * z4 l02 * z2 l02 + z2 l12 * z1 l11 * z5 l01 * z1 l01 - z2 l12 * z1 l11 * z4 l01 * z2 l01 - z2 l12 * z0 l11 * z5 l02 * z0 l02 + z2 l12 * z0 l11 * z3 l02 * z2 l02 + z2 l12 * z0 l11 * z5 l01 * z0 l01 - z2 l12 * z0 l11 * z3 l01 * z2 l01 + z1 l12 * z2 l11 * z5 l02 * z1 l02 - z1 l12 * z2 l11 * z4 l02 * z2 l02 + z1 l12 * z2 l11 * z5 l01 * z1 l01 - z1 l12 * z2 l11 * z4 l01 * z2 l01 - z1 l12 * z0 l11 * z4 l02 * z0 l02 + z1 l12 * z0 l11 * z3 l02 * z1 l02 - z1 l12 * z0 l11 * z4 l01 * z0 l01 + z1 l12 * z0 l11 * z3 l01 * z1 l01 + z0 l12 * z2 l11 * z5 l02 * z0 l02 - z0 l12 * z2 l11 * z3 l02 * z2 l02 - z0 l12 * z2 l11 * z5 l01 * z0 l01 + z0 l12 * z2 l11 * z3 l01 * z2 l01 - z0 l12 * z1 l11 * z4 l02 * z0 l02 + z0 l12 * z1 l11 * z3 l02 * z1 l02 - z0 l12 * z1 l11 * z4 l01 * z0 l01 + z0 l12 * z1 l11 * z3 l01 * z1 l01 - 9 * z5 l12 * z2 l11 + 9 * z4 l12 * z1 l11 - 9 * z3 l12 * z0 l11 - 9 * z2 l12 * z5 l11 + 9 * z1 l12 * z4 l11 - 9 * z0 l12 * z3 l11;
    2 * z2 l12 * z2 l11 * z5 l02 * z0 l02 - 2 * z2 l12 * z2 l11 * z3 l02 * z2 l02 + 2 * z2 l12 * z2 l11 * z5 l01 * z0 l01 - 2 * z2 l12 * z2 l11 * z3 l01 * z2 l01 + 2 * z2 l12 * z1 l11 * z4 l01 * z0 l01 - 2 * z2 l12 * z1 l11 * z3 l01 * z1 l01 + 2 * z1 l12 * z2 l11 * z4 l02 * z0 l02 - 2 * z1 l12 * z2 l11 * z3 l02 * z1 l02 - 2 * z1 l12 * z0 l11 * z5 l02 * z1 l02 + 2 * z1 l12 * z0 l11 * z4 l02 * z2 l02 - 2 * z0 l12 * z1 l11 * z5 l01 * z1 l01 + 2 * z0 l12 * z1 l11 * z4 l01 * z2 l01 - 2 * z0 l12 * z0 l11 * z5 l02 * z0 l02 + 2 * z0 l12 * z0 l11 * z3 l02 * z2 l02 - 2 * z0 l12 * z0 l11 * z5 l01 * z0 l01 + 2 * z0 l12 * z0 l11 * z3 l01 * z2 l01 + 9 * 2 * z5 l12 * z0 l11 + 9 * 2 * z3 l12 * z2 l11 + 9 * 2 * z2 l12 * z3 l11 + 9 * 2 * z0 l12 * z5 l11;
    2 * z2 l12 * z2 l11 * z5 l02 * z1 l02 - 2 * z2 l12 * z2 l11 * z4 l02 * z2 l02 + 2 * z2 l12 * z2 l11 * z5 l01 * z1 l01 - 2 * z2 l12 * z2 l11 * z4 l01 * z2 l01 - 2 * z2 l12 * z0 l11 * z4 l01 * z0 l01 + 2 * z2 l12 * z0 l11 * z3 l01 * z1 l01 - 2 * z1 l12 * z1 l11 * z5 l02 * z1 l02 + 2 * z1 l12 * z1 l11 * z4 l02 * z2 l02 - 2 * z1 l12 * z1 l11 * z5 l01 * z1 l01 + 2 * z1 l12 * z1 l11 * z4 l01 * z2 l01 - 2 * z1 l12 * z0 l11 * z5 l01 * z0 l01 + 2 * z1 l12 * z0 l11 * z3 l01 * z2 l01 - 2 * z0 l12 * z2 l11 * z4 l02 * z0 l02 + 2 * z0 l12 * z2 l11 * z3 l02 * z1 l02 - 2 * z0 l12 * z1 l11 * z5 l02 * z0 l02 + 2 * z0 l12 * z1 l11 * z3 l02 * z2 l02 + 9 * 2 * z5 l12 * z1 l11 + 9 * 2 * z4 l12 * z2 l11 + 9 * 2 * z2 l12 * z4 l11 + 9 * 2 * z1 l12 * z5 l11;
    -z2 l12 * z1 l11 * z5 l02 * z1 l02 + z2 l12 * z1 l11 * z4 l02 * z2 l02 - z2 l12 * z1 l11 * z5 l01 * z1 l01 + z2 l12 * z1 l11 * z4 l01 * z2 l01 - z2 l12 * z0 l11 * z5 l02 * z0 l02 + z2 l12 * z0 l11 * z3 l02 * z2 l02 - z2 l12 * z0 l11 * z5 l01 * z0 l01 + z2 l12 * z0 l11 * z3 l01 * z2 l01 - z1 l12 * z2 l11 * z5 l02 * z1 l02 + z1 l12 * z2 l11 * z4 l02 * z2 l02 - z1 l12 * z2 l11 * z5 l01 * z1 l01 + z1 l12 * z2 l11 * z4 l01 * z2 l01 - z1 l12 * z0 l11 * z4 l02 * z0 l02 + z1 l12 * z0 l11 * z3 l02 * z1 l02 + z1 l12 * z0 l11 * z4 l01 * z0 l01 - z1 l12 * z0 l11 * z3 l01 * z1 l01 - z0 l12 * z2 l11 * z5 l02 * z0 l02 + z0 l12 * z2 l11 * z3 l02 * z2 l02 - z0 l12 * z2 l11 * z5 l01 * z0 l01 + z0 l12 * z2 l11 * z3 l01 * z2 l01 + z0 l12 * z1 l11 * z4 l02 * z0 l02 - z0 l12 * z1 l11 * z3 l02 * z1 l02 - z0 l12 * z1 l11 * z4 l01 * z0 l01 + z0 l12 * z1 l11 * z3 l01 * z1 l01 + 9 * z5 l12 * z2 l11 - 9 * z4 l12 * z1 l11 - 9 * z3 l12 * z0 l11 + 9 * z2 l12 * z5 l11 - 9 * z1 l12 * z4 l11 - 9 * z0 l12 * z3 l11;
    -2 * z2 l12 * z2 l11 * z5 l02 * z1 l02 + 2 * z2 l12 * z2 l11 * z4 l02 * z2 l02 + 2 * z2 l12 * z2 l11 * z5 l01 * z1 l01 - 2 * z2 l12 * z2 l11 * z4 l01 * z2 l01 - 2 * z2 l12 * z0 l11 * z4 l01 * z0 l01 + 2 * z2 l12 * z0 l11 * z3 l01 * z1 l01 - 2 * z1 l12 * z1 l11 * z5 l02 * z1 l02 + 2 * z1 l12 * z1 l11 * z4 l02 * z2 l02 + 2 * z1 l12 * z1 l11 * z5 l01 * z1 l01 - 2 * z1 l12 * z1 l11 * z4 l01 * z2 l01 + 2 * z1 l12 * z0 l11 * z5 l01 * z0 l01 - 2 * z1 l12 * z0 l11 * z3 l01 * z2 l01 + 2 * z0 l12 * z2 l11 * z4 l02 * z0 l02 - 2 * z0 l12 * z2 l11 * z3 l02 * z1 l02 - 2 * z0 l12 * z1 l11 * z5 l02 * z0 l02 + 2 * z0 l12 * z1 l11 * z3 l02 * z2 l02 + 9 * 2 * z5 l12 * z1 l11 - 9 * 2 * z4 l12 * z2 l11 + 9 * 2 * z2 l12 * z4 l11 - 9 * 2 * z1 l12 * z5 l11;
    2 * z2 l12 * z2 l11 * z5 l02 * z0 l02 - 2 * z2 l12 * z2 l11 * z3 l02 * z2 l02 - 2 * z2 l12 * z2 l11 * z5 l01 * z0 l01 + 2 * z2 l12 * z2 l11 * z3 l01 * z2 l01 - 2 * z2 l12 * z1 l11 * z4 l01 * z0 l01 + 2 * z2 l12 * z1 l11 * z3 l01 * z1 l01 + 2 * z1 l12 * z2 l11 * z4 l02 * z0 l02 - 2 * z1 l12 * z2 l11 * z3 l02 * z1 l02 + 2 * z1 l12 * z0 l11 * z5 l02 * z1 l02 - 2 * z1 l12 * z0 l11 * z4 l02 * z2 l02 - 2 * z0 l12 * z1 l11 * z5 l01 * z1 l01 + 2 * z0 l12 * z1 l11 * z4 l01 * z2 l01 + 2 * z0 l12 * z0 l11 * z5 l02 * z0 l02 - 2 * z0 l12 * z0 l11 * z3 l02 * z2 l02 - 2 * z0 l12 * z0 l11 * z5 l01 * z0 l01 + 2 * z0 l12 * z0 l11 * z3 l01 * z2 l01 - 9 * 2 * z5 l12 * z0 l11 + 9 * 2 * z3 l12 * z2 l11 - 9 * 2 * z2 l12 * z3 l11 + 9 * 2 * z0 l12 * z5 l11;
    -2 * z2 l12 * z1 l11 * z5 l02 * z0 l02 + 2 * z2 l12 * z1 l11 * z3 l02 * z2 l02 + 2 * z2 l12 * z0 l11 * z5 l02 * z1 l02 - 2 * z2 l12 * z0 l11 * z4 l02 * z2 l02 + 2 * z1 l12 * z2 l11 * z5 l01 * z0 l01 - 2 * z1 l12 * z2 l11 * z3 l01 * z2 l01 - 2 * z1 l12 * z1 l11 * z4 l02 * z0 l02 + 2 * z1 l12 * z1 l11 * z3 l02 * z1 l02 + 2 * z1 l12 * z1 l11 * z4 l01 * z0 l01 - 2 * z1 l12 * z1 l11 * z3 l01 * z1 l01 - 2 * z0 l12 * z2 l11 * z5 l01 * z1 l01 + 2 * z0 l12 * z2 l11 * z4 l01 * z2 l01 - 2 * z0 l12 * z0 l11 * z4 l02 * z0 l02 + 2 * z0 l12 * z0 l11 * z3 l02 * z1 l02 + 2 * z0 l12 * z0 l11 * z4 l01 * z0 l01 - 2 * z0 l12 * z0 l11 * z3 l01 * z1 l01 + 9 * 2 * z4 l12 * z0 l11 - 9 * 2 * z3 l12 * z1 l11 + 9 * 2 * z1 l12 * z3 l11 - 9 * 2 * z0 l12 * z4 l11;
    z2 l12 * z1 l11 * z5 l02 * z1 l02 - z2 l12 * z1 l11 * z4 l02 * z2 l02 - z2 l12 * z1 l11 * z5 l01 * z1 l01 + z2 l12 * z1 l11 * z4 l01 * z2 l01 + z2 l12 * z0 l11 * z5 l02 * z0 l02 - z2 l12 * z0 l11 * z3 l02 * z2 l02 - z2 l12 * z0 l11 * z5 l01 * z0 l01 + z2 l12 * z0 l11 * z3 l01 * z2 l01 - z1 l12 * z2 l11 * z5 l02 * z1 l02 + z1 l12 * z2 l11 * z4 l02 * z2 l02 + z1 l12 * z2 l11 * z5 l01 * z1 l01 - z1 l12 * z2 l11 * z4 l01 * z2 l01 + z1 l12 * z0 l11 * z4 l02 * z0 l02 - z1 l12 * z0 l11 * z3 l02 * z1 l02 - z1 l12 * z0 l11 * z4 l01 * z0 l01 + z1 l12 * z0 l11 * z3 l01 * z1 l01 - z0 l12 * z2 l11 * z5 l02 * z0 l02 + z0 l12 * z2 l11 * z3 l02 * z2 l02 + z0 l12 * z2 l11 * z5 l01 * z0 l01 - z0 l12 * z2 l11 * z3 l01 * z2 l01 - z0 l12 * z1 l11 * z4 l02 * z0 l02 + z0 l12 * z1 l11 * z3 l02 * z1 l02 + z0 l12 * z1 l11 * z4 l01 * z0 l01 - z0 l12 * z1 l11 * z3 l01 * z1 l01 + 9 * z5 l12 * z2 l11 + 9 * z4 l12 * z1 l11 + 9 * z3 l12 * z0 l11 + 9 * z2 l12 * z5 l11 + 9 * z1 l12 * z4 l11 + 9 * z0 l12 * z3 l11 ])%Z.
(** 27^3 M1p *)
Definition s6_M1p : list (list Z) := [
  [58320;116640;-104976;-97200;116640;-136080;46656;75816;309096;264384;-192456;-546264;248832;-58320;-60264;851472;143856;-447120;-188568;-75816;217728;186624;-69984;-31104;-31104;25272;-15552;11664;-241056;-223560;717336;-124416;-476280;173016;-163296;314928;-657072;-797040;493776;752328;-484056;-1384128;536544;484056;276048;-610416;-169128;277992;-108864;-435456;136080;241056;425736;-34992;-902016;342144;1176120;-662904;-404352;-1185840;625968;458784;-554040;244944;-357696;832032;141912;-581256;579312;206064;254664;371304;-241056;-3888;-73872;-11664;85536;-36936;9720;0;54432;68040;27216;0];
  [-23328;13608;95256;-56376;9720;-73872;34992;-66096;76788;116640;-51516;0;-33048;221616;15552;-729000;686232;-132192;419904;-267300;11664;-108864;-279936;336312;132192;-97200;-138024;58320;-202176;-390744;218700;814536;-405324;0;-1078920;-1337472;1141128;209952;-7776;-1223748;-1242216;1041984;-50544;824256;684288;-760104;327564;-81648;-134136;-182736;386856;958392;-606528;3888;75816;1166400;-297432;485028;732888;-184680;-993384;25272;300348;-149688;-108864;-379080;-160380;202176;-281880;-629856;-108864;232308;427680;173016;34992;213840;31104;215784;-30132;99144;-62208;-77760;-31104;0];
  [15552;51840;-51840;-186624;98496;134784;-62208;88128;15552;-305856;46656;134784;-20736;-60912;2592;66096;-163296;67392;-104976;-139968;77760;62208;76464;-64800;-145152;20736;82944;-15552;-222912;-383616;357696;575424;331776;-285120;-505440;-596160;1389312;1301184;-562464;616896;115344;-1073088;741312;95904;-57024;-391392;-114048;57024;20736;-347328;-298080;66096;438048;-278640;-1508544;-62208;1432080;-648000;6480;-471744;514512;482112;-559872;72576;-295488;378432;108864;-156816;-168480;-295488;453600;155520;-274752;82944;-114048;-23328;149040;-46656;72576;5184;0;0;0;0];
  [-56376;-25272;143856;-7776;-153576;110808;-11664;-30132;-206064;-215784;196344;533628;-332424;162324;-433512;-871884;674568;223560;-235224;1944;114696;-346032;-32076;-7776;-69984;90396;87480;13608;-163296;-259524;303264;742608;-489888;-63180;-116640;-233280;124416;-730944;1034208;1370520;2604960;-1141128;-1432728;277992;1065312;604584;-157464;-549180;25272;851472;445176;-1948860;386856;370332;1605744;-425736;-1236384;-474336;636660;-1446336;1892484;-878688;-548208;-451008;-423792;-645408;1143072;-231336;-1366632;505440;-215784;-1028376;1067256;-225504;246888;163296;-418932;531684;-36936;204120;-66096;-82620;-33048;0];
  [5184;-62208;-186624;20736;243648;41472;-62208;-108864;-336960;-36288;181440;41472;41472;-68688;31104;-270864;-196992;46656;213840;204768;-41472;-233280;79056;155520;134784;-46656;15552;-15552;-114048;207360;435456;31104;-321408;41472;787968;241056;-134784;-360288;259200;-541728;491184;51840;-57024;-513216;-396576;-145152;212544;-176256;114048;-544320;948672;-369360;-1041984;610416;1980288;-927936;-1696464;251424;1530576;844992;-1284336;-191808;673920;-196992;-352512;305856;-90720;-14256;-82944;-749088;388800;274752;-497664;114048;82944;46656;-71280;93312;36288;25920;0;0;0;0];
  [12960;57024;-88128;-186624;137376;129600;-62208;114048;-49248;-336960;90720;150336;-41472;-21384;-185328;88776;37584;-25920;-515808;142560;272160;-57024;243000;-416016;-121824;121824;202176;-59616;-90720;285120;466560;-391392;-282528;106272;395280;1095120;487296;356400;-400464;1088640;-355104;1472256;305856;-846288;-55728;-1159920;-235872;142560;202176;-868320;-649296;1564920;-680400;49896;-2102112;-671328;-495072;1228608;-315576;565056;-1825416;881280;-383616;311040;298080;435456;-764640;381024;1097712;-670032;364176;526176;-329184;25920;-233280;-81648;262440;-163296;46656;-23328;0;0;0;0];
  [-79704;-62208;83592;48600;-46656;130248;-73872;-197316;-360612;-89424;280908;446148;-215784;65124;-594864;-496692;312984;173016;256608;172044;-402408;-326592;12636;241056;225504;-51516;-25272;-5832;398520;166212;-848556;11664;372276;74844;1069200;274104;-1063368;332424;17496;345060;828144;1755432;-1514376;-431568;822312;437400;-319788;-683316;151632;-221616;351864;512244;-1080864;193428;-1304424;826200;-73872;354780;-2011068;-379080;588060;902016;-1542564;351864;46656;227448;-529740;54432;429624;-589032;528768;430596;474336;17496;169128;-40824;-189540;-154548;-2916;221616;-1944;-59292;-114696;0];
  [20736;10368;-10368;103680;-72576;-114048;62208;20736;93312;342144;-103680;-238464;-20736;-88128;235872;422496;106272;-295488;-67392;-101088;191808;279936;20736;-116640;-67392;15552;0;0;-165888;254016;-202176;-300672;368064;46656;184032;-474336;-751680;313632;308448;743904;-959040;-1000512;36288;173664;85536;-743904;-88128;445824;-62208;-46656;-235872;365472;422496;-622080;-1249344;1404864;1270080;-1272672;406944;-554688;889056;300672;-352512;20736;217728;-181440;38880;88128;-557280;520992;142560;15552;-383616;145152;98496;-23328;88128;-46656;331776;-82944;0;0;0;0];
  [12960;62208;-98496;-114048;137376;51840;-51840;124416;-28512;-352512;111456;238464;-103680;139320;-336960;65448;168480;-85536;-176256;287712;-228096;54432;-4536;-33696;46656;36288;-2592;-7776;-362880;-443232;650592;474336;178848;-124416;-1651104;-549504;1863648;1337472;-368064;-1018656;305856;-64800;-95904;1954368;-1669248;-1124928;-165888;982368;-171072;233280;-254016;-981720;557280;235224;917568;-1886976;-98496;-10368;1018008;386208;-1905768;-77760;1518912;-378432;0;-204768;233280;181440;-266976;653184;318816;373248;116640;-160704;-116640;-93312;29160;-186624;-116640;116640;0;0;0;0];
  [-12960;-72576;-150336;-10368;277344;82944;-114048;-145152;-479520;-352512;469152;342144;-51840;-160056;-531360;-324648;0;199584;264384;222912;-526176;-373248;71928;329184;254016;-57024;-36288;-7776;-142560;212544;852768;-425088;-710208;492480;697248;1684800;-466560;-1653696;329184;1954368;1855872;-1067904;-1023840;-531360;1321920;1715904;-653184;-902016;114048;181440;-601344;-153576;531360;-167832;158112;-552096;-829440;463968;-1588248;-1254528;1599912;-383616;-741312;5184;-246240;64800;572832;-648000;855360;430272;-1023840;-445824;1731456;-528768;-116640;116640;-169128;233280;-466560;209952;0;0;0;0];
  [-58320;-116640;104976;97200;-116640;136080;-46656;-75816;-309096;-264384;192456;546264;-248832;58320;60264;-851472;-143856;447120;188568;75816;-217728;-186624;69984;31104;31104;-25272;15552;-11664;241056;223560;-717336;124416;476280;-173016;163296;-314928;657072;797040;-493776;-752328;484056;1384128;-536544;-484056;-276048;610416;169128;-277992;108864;435456;-136080;-241056;-425736;34992;902016;-342144;-1176120;662904;404352;1185840;-625968;-458784;554040;-244944;357696;-832032;-141912;581256;-579312;-206064;-254664;-371304;241056;3888;73872;11664;-85536;36936;-9720;0;-54432;-68040;-27216;0];
  [23328;-13608;-95256;56376;-9720;73872;-34992;66096;-76788;-116640;51516;0;33048;-221616;-15552;729000;-686232;132192;-419904;267300;-11664;108864;279936;-336312;-132192;97200;138024;-58320;202176;390744;-218700;-814536;405324;0;1078920;1337472;-1141128;-209952;7776;1223748;1242216;-1041984;50544;-824256;-684288;760104;-327564;81648;134136;182736;-386856;-958392;606528;-3888;-75816;-1166400;297432;-485028;-732888;184680;993384;-25272;-300348;149688;108864;379080;160380;-202176;281880;629856;108864;-232308;-427680;-173016;-34992;-213840;-31104;-215784;30132;-99144;62208;77760;31104;0];
  [-15552;-51840;51840;186624;-98496;-134784;62208;-88128;-15552;305856;-46656;-134784;20736;60912;-2592;-66096;163296;-67392;104976;139968;-77760;-62208;-76464;64800;145152;-20736;-82944;15552;222912;383616;-357696;-575424;-331776;285120;505440;596160;-1389312;-1301184;562464;-616896;-115344;1073088;-741312;-95904;57024;391392;114048;-57024;-20736;347328;298080;-66096;-438048;278640;1508544;62208;-1432080;648000;-6480;471744;-514512;-482112;559872;-72576;295488;-378432;-108864;156816;168480;295488;-453600;-155520;274752;-82944;114048;23328;-149040;46656;-72576;-5184;0;0;0;0];
  [56376;25272;-143856;7776;153576;-110808;11664;30132;206064;215784;-196344;-533628;332424;-162324;433512;871884;-674568;-223560;235224;-1944;-114696;346032;32076;7776;69984;-90396;-87480;-13608;163296;259524;-303264;-742608;489888;63180;116640;233280;-124416;730944;-1034208;-1370520;-2604960;1141128;1432728;-277992;-1065312;-604584;157464;549180;-25272;-851472;-445176;1948860;-386856;-370332;-1605744;425736;1236384;474336;-636660;1446336;-1892484;878688;548208;451008;423792;645408;-1143072;231336;1366632;-505440;215784;1028376;-1067256;225504;-246888;-163296;418932;-531684;36936;-204120;66096;82620;33048;0];
  [-5184;62208;186624;-20736;-243648;-41472;62208;108864;336960;36288;-181440;-41472;-41472;68688;-31104;270864;196992;-46656;-213840;-204768;41472;233280;-79056;-155520;-134784;46656;-15552;15552;114048;-207360;-435456;-31104;321408;-41472;-787968;-241056;134784;360288;-259200;541728;-491184;-51840;57024;513216;396576;145152;-212544;176256;-114048;544320;-948672;369360;1041984;-610416;-1980288;927936;1696464;-251424;-1530576;-844992;1284336;191808;-673920;196992;352512;-305856;90720;14256;82944;749088;-388800;-274752;497664;-114048;-82944;-46656;71280;-93312;-36288;-25920;0;0;0;0];
  [-12960;-57024;88128;186624;-137376;-129600;62208;-114048;49248;336960;-90720;-150336;41472;21384;185328;-88776;-37584;25920;515808;-142560;-272160;57024;-243000;416016;121824;-121824;-202176;59616;90720;-285120;-466560;391392;282528;-106272;-395280;-1095120;-487296;-356400;400464;-1088640;355104;-1472256;-305856;846288;55728;1159920;235872;-142560;-202176;868320;649296;-1564920;680400;-49896;2102112;671328;495072;-1228608;315576;-565056;1825416;-881280;383616;-311040;-298080;-435456;764640;-381024;-1097712;670032;-364176;-526176;329184;-25920;233280;81648;-262440;163296;-46656;23328;0;0;0;0];
  [-37908;-34992;104976;-64152;17496;87480;-37908;-160380;-347004;-58320;224532;160380;-87480;-2916;-472392;-953532;944784;-119556;291600;148716;402408;-303264;2916;460728;-32076;-142884;-215784;49572;227448;335340;-457812;81648;-236196;84564;723168;1428840;-134136;-1312200;379080;43740;-338256;-221616;437400;-612360;-624024;-268272;387828;84564;-17496;-481140;-1026432;1350108;-495720;183708;-309096;-1597968;711504;-20412;1145988;-833976;-562788;-11664;1210140;-110808;349920;495720;-125388;-244944;653184;1113912;-262440;-696924;128304;-110808;-405324;314928;-78732;-137052;8748;-209952;122472;55404;23328;37908];
  [-42768;-77760;112752;190512;0;-42768;0;5832;-110808;62208;686232;239112;-241056;27216;336312;120528;-89424;276048;13608;-176904;-62208;-77760;0;-139968;-186624;17496;116640;-11664;108864;79704;-604584;-668736;573480;-68040;-209952;-812592;-571536;-120528;19440;-1944;355752;-1174176;209952;569592;314928;-3888;-29160;-87480;-54432;482112;-3888;-342144;713448;-322704;124416;-147744;258552;425736;-964224;-416016;353808;318816;-647352;307152;373248;-23328;-526824;289656;1092528;-3888;-515160;223560;396576;-151632;104976;-237168;77760;1944;-106920;7776;93312;-64152;58320;0];
  [27216;9720;-134136;-33048;180792;46656;-50544;110808;-2916;-318816;70956;235224;-44712;-93312;0;215784;-91368;-11664;-311040;146772;349920;-15552;353808;-250776;-194400;-110808;91368;7776;11664;-3888;14580;-437400;144828;17496;-227448;-878688;-266328;-513216;221616;-638604;-1273320;229392;-93312;31104;1531872;-293544;527796;-243000;-176904;587088;1008936;-1199448;-31104;190512;1230552;2655504;-2194776;105948;-639576;694008;923400;-21384;-728028;71928;-171072;-149688;4860;62208;-157464;-839808;248832;-2916;-264384;429624;365472;-124416;-139968;314928;-70956;83592;-27216;-9720;-73872;0];
  [44712;-33048;-202176;19440;208008;13608;-50544;-98172;-126360;-219672;-478224;-24300;246888;-319788;-417960;-230364;-200232;-196344;542376;69984;-165240;112752;-39852;575424;225504;-175932;-235224;52488;104976;387828;266328;-466560;-519048;350892;357696;1158624;1769040;-645408;-727056;209952;1951776;534600;410184;-126360;-762048;336312;31104;-302292;-106920;-493776;-17496;-498636;1148904;-500580;-1458000;-1829304;1625184;215784;1200420;-2531088;123444;-346032;550152;-548208;128304;-202176;635688;-293544;-1502712;1726272;-29160;-816480;192456;120528;122472;-314928;218700;599724;-423792;246888;-171072;117612;-106920;0];
  [58320;116640;-104976;-97200;116640;-136080;46656;75816;309096;264384;-192456;-546264;248832;-58320;-60264;851472;143856;-447120;-188568;-75816;217728;186624;-69984;-31104;-31104;25272;-15552;11664;-241056;-223560;717336;-124416;-476280;173016;-163296;314928;-657072;-797040;493776;752328;-484056;-1384128;536544;484056;276048;-610416;-169128;277992;-108864;-435456;136080;241056;425736;-34992;-902016;342144;1176120;-662904;-404352;-1185840;625968;458784;-554040;244944;-357696;832032;141912;-581256;579312;206064;254664;371304;-241056;-3888;-73872;-11664;85536;-36936;9720;0;54432;68040;27216;0];
  [-23328;13608;95256;-56376;9720;-73872;34992;-66096;76788;116640;-51516;0;-33048;221616;15552;-729000;686232;-132192;419904;-267300;11664;-108864;-279936;336312;132192;-97200;-138024;58320;-202176;-390744;218700;814536;-405324;0;-1078920;-1337472;1141128;209952;-7776;-1223748;-1242216;1041984;-50544;824256;684288;-760104;327564;-81648;-134136;-182736;386856;958392;-606528;3888;75816;1166400;-297432;485028;732888;-184680;-993384;25272;300348;-149688;-108864;-379080;-160380;202176;-281880;-629856;-108864;232308;427680;173016;34992;213840;31104;215784;-30132;99144;-62208;-77760;-31104;0];
  [15552;51840;-51840;-186624;98496;134784;-62208;88128;15552;-305856;46656;134784;-20736;-60912;2592;66096;-163296;67392;-104976;-139968;77760;62208;76464;-64800;-145152;20736;82944;-15552;-222912;-383616;357696;575424;331776;-285120;-505440;-596160;1389312;1301184;-562464;616896;115344;-1073088;741312;95904;-57024;-391392;-114048;57024;20736;-347328;-298080;66096;438048;-278640;-1508544;-62208;1432080;-648000;6480;-471744;514512;482112;-559872;72576;-295488;378432;108864;-156816;-168480;-295488;453600;155520;-274752;82944;-114048;-23328;149040;-46656;72576;5184;0;0;0;0];
  [79704;62208;-83592;-48600;46656;-130248;73872;197316;360612;89424;-280908;-446148;215784;-65124;594864;496692;-312984;-173016;-256608;-172044;402408;326592;-12636;-241056;-225504;51516;25272;5832;-398520;-166212;848556;-11664;-372276;-74844;-1069200;-274104;1063368;-332424;-17496;-345060;-828144;-1755432;1514376;431568;-822312;-437400;319788;683316;-151632;221616;-351864;-512244;1080864;-193428;1304424;-826200;73872;-354780;2011068;379080;-588060;-902016;1542564;-351864;-46656;-227448;529740;-54432;-429624;589032;-528768;-430596;-474336;-17496;-169128;40824;189540;154548;2916;-221616;1944;59292;114696;0];
  [-20736;-10368;10368;-103680;72576;114048;-62208;-20736;-93312;-342144;103680;238464;20736;88128;-235872;-422496;-106272;295488;67392;101088;-191808;-279936;-20736;116640;67392;-15552;0;0;165888;-254016;202176;300672;-368064;-46656;-184032;474336;751680;-313632;-308448;-743904;959040;1000512;-36288;-173664;-85536;743904;88128;-445824;62208;46656;235872;-365472;-422496;622080;1249344;-1404864;-1270080;1272672;-406944;554688;-889056;-300672;352512;-20736;-217728;181440;-38880;-88128;557280;-520992;-142560;-15552;383616;-145152;-98496;23328;-88128;46656;-331776;82944;0;0;0;0];
  [-12960;-62208;98496;114048;-137376;-51840;51840;-124416;28512;352512;-111456;-238464;103680;-139320;336960;-65448;-168480;85536;176256;-287712;228096;-54432;4536;33696;-46656;-36288;2592;7776;362880;443232;-650592;-474336;-178848;124416;1651104;549504;-1863648;-1337472;368064;1018656;-305856;64800;95904;-1954368;1669248;1124928;165888;-982368;171072;-233280;254016;981720;-557280;-235224;-917568;1886976;98496;10368;-1018008;-386208;1905768;77760;-1518912;378432;0;204768;-233280;-181440;266976;-653184;-318816;-373248;-116640;160704;116640;93312;-29160;186624;116640;-116640;0;0;0;0];
  [37908;34992;-104976;64152;-17496;-87480;37908;160380;347004;58320;-224532;-160380;87480;2916;472392;953532;-944784;119556;-291600;-148716;-402408;303264;-2916;-460728;32076;142884;215784;-49572;-227448;-335340;457812;-81648;236196;-84564;-723168;-1428840;134136;1312200;-379080;-43740;338256;221616;-437400;612360;624024;268272;-387828;-84564;17496;481140;1026432;-1350108;495720;-183708;309096;1597968;-711504;20412;-1145988;833976;562788;11664;-1210140;110808;-349920;-495720;125388;244944;-653184;-1113912;262440;696924;-128304;110808;405324;-314928;78732;137052;-8748;209952;-122472;-55404;-23328;-37908];
  [42768;77760;-112752;-190512;0;42768;0;-5832;110808;-62208;-686232;-239112;241056;-27216;-336312;-120528;89424;-276048;-13608;176904;62208;77760;0;139968;186624;-17496;-116640;11664;-108864;-79704;604584;668736;-573480;68040;209952;812592;571536;120528;-19440;1944;-355752;1174176;-209952;-569592;-314928;3888;29160;87480;54432;-482112;3888;342144;-713448;322704;-124416;147744;-258552;-425736;964224;416016;-353808;-318816;647352;-307152;-373248;23328;526824;-289656;-1092528;3888;515160;-223560;-396576;151632;-104976;237168;-77760;-1944;106920;-7776;-93312;64152;-58320;0];
  [-27216;-9720;134136;33048;-180792;-46656;50544;-110808;2916;318816;-70956;-235224;44712;93312;0;-215784;91368;11664;311040;-146772;-349920;15552;-353808;250776;194400;110808;-91368;-7776;-11664;3888;-14580;437400;-144828;-17496;227448;878688;266328;513216;-221616;638604;1273320;-229392;93312;-31104;-1531872;293544;-527796;243000;176904;-587088;-1008936;1199448;31104;-190512;-1230552;-2655504;2194776;-105948;639576;-694008;-923400;21384;728028;-71928;171072;149688;-4860;-62208;157464;839808;-248832;2916;264384;-429624;-365472;124416;139968;-314928;70956;-83592;27216;9720;73872;0];
  [71928;27216;-95256;-103032;-97200;5832;50544;113724;253692;-147744;-745524;-257580;211896;-179820;377136;-84564;-445176;-87480;-101088;-426708;643464;272160;125388;81648;-116640;-35964;-25272;5832;-332424;80676;597780;684288;-389772;-154548;-396576;40824;2004264;659016;-729000;757188;-353808;845640;433512;-470448;993384;-149688;-234252;-799956;194400;198288;-686232;-249804;287712;177876;-491832;336312;-2352240;1062396;-1738908;-266328;-34020;797040;-1122660;297432;-54432;-204120;286740;-62208;1428840;-977832;139968;492804;789264;-71928;-184680;-71928;-18468;12636;-407268;311040;-71928;6804;-130248;0];
  [-58320;-116640;104976;97200;-116640;136080;-46656;-75816;-309096;-264384;192456;546264;-248832;58320;60264;-851472;-143856;447120;188568;75816;-217728;-186624;69984;31104;31104;-25272;15552;-11664;241056;223560;-717336;124416;476280;-173016;163296;-314928;657072;797040;-493776;-752328;484056;1384128;-536544;-484056;-276048;610416;169128;-277992;108864;435456;-136080;-241056;-425736;34992;902016;-342144;-1176120;662904;404352;1185840;-625968;-458784;554040;-244944;357696;-832032;-141912;581256;-579312;-206064;-254664;-371304;241056;3888;73872;11664;-85536;36936;-9720;0;-54432;-68040;-27216;0];
  [-56376;-25272;143856;-7776;-153576;110808;-11664;-30132;-206064;-215784;196344;533628;-332424;162324;-433512;-871884;674568;223560;-235224;1944;114696;-346032;-32076;-7776;-69984;90396;87480;13608;-163296;-259524;303264;742608;-489888;-63180;-116640;-233280;124416;-730944;1034208;1370520;2604960;-1141128;-1432728;277992;1065312;604584;-157464;-549180;25272;851472;445176;-1948860;386856;370332;1605744;-425736;-1236384;-474336;636660;-1446336;1892484;-878688;-548208;-451008;-423792;-645408;1143072;-231336;-1366632;505440;-215784;-1028376;1067256;-225504;246888;163296;-418932;531684;-36936;204120;-66096;-82620;-33048;0];
  [5184;-62208;-186624;20736;243648;41472;-62208;-108864;-336960;-36288;181440;41472;41472;-68688;31104;-270864;-196992;46656;213840;204768;-41472;-233280;79056;155520;134784;-46656;15552;-15552;-114048;207360;435456;31104;-321408;41472;787968;241056;-134784;-360288;259200;-541728;491184;51840;-57024;-513216;-396576;-145152;212544;-176256;114048;-544320;948672;-369360;-1041984;610416;1980288;-927936;-1696464;251424;1530576;844992;-1284336;-191808;673920;-196992;-352512;305856;-90720;-14256;-82944;-749088;388800;274752;-497664;114048;82944;46656;-71280;93312;36288;25920;0;0;0;0];
  [-79704;-62208;83592;48600;-46656;130248;-73872;-197316;-360612;-89424;280908;446148;-215784;65124;-594864;-496692;312984;173016;256608;172044;-402408;-326592;12636;241056;225504;-51516;-25272;-5832;398520;166212;-848556;11664;372276;74844;1069200;274104;-1063368;332424;17496;345060;828144;1755432;-1514376;-431568;822312;437400;-319788;-683316;151632;-221616;351864;512244;-1080864;193428;-1304424;826200;-73872;354780;-2011068;-379080;588060;902016;-1542564;351864;46656;227448;-529740;54432;429624;-589032;528768;430596;474336;17496;169128;-40824;-189540;-154548;-2916;221616;-1944;-59292;-114696;0];
  [20736;10368;-10368;103680;-72576;-114048;62208;20736;93312;342144;-103680;-238464;-20736;-88128;235872;422496;106272;-295488;-67392;-101088;191808;279936;20736;-116640;-67392;15552;0;0;-165888;254016;-202176;-300672;368064;46656;184032;-474336;-751680;313632;308448;743904;-959040;-1000512;36288;173664;85536;-743904;-88128;445824;-62208;-46656;-235872;365472;422496;-622080;-1249344;1404864;1270080;-1272672;406944;-554688;889056;300672;-352512;20736;217728;-181440;38880;88128;-557280;520992;142560;15552;-383616;145152;98496;-23328;88128;-46656;331776;-82944;0;0;0;0];
  [12960;72576;150336;10368;-277344;-82944;114048;145152;479520;352512;-469152;-342144;51840;160056;531360;324648;0;-199584;-264384;-222912;526176;373248;-71928;-329184;-254016;57024;36288;7776;142560;-212544;-852768;425088;710208;-492480;-697248;-1684800;466560;1653696;-329184;-1954368;-1855872;1067904;1023840;531360;-1321920;-1715904;653184;902016;-114048;-181440;601344;153576;-531360;167832;-158112;552096;829440;-463968;1588248;1254528;-1599912;383616;741312;-5184;246240;-64800;-572832;648000;-855360;-430272;1023840;445824;-1731456;528768;116640;-116640;169128;-233280;466560;-209952;0;0;0;0];
  [-37908;-34992;104976;-64152;17496;87480;-37908;-160380;-347004;-58320;224532;160380;-87480;-2916;-472392;-953532;944784;-119556;291600;148716;402408;-303264;2916;460728;-32076;-142884;-215784;49572;227448;335340;-457812;81648;-236196;84564;723168;1428840;-134136;-1312200;379080;43740;-338256;-221616;437400;-612360;-624024;-268272;387828;84564;-17496;-481140;-1026432;1350108;-495720;183708;-309096;-1597968;711504;-20412;1145988;-833976;-562788;-11664;1210140;-110808;349920;495720;-125388;-244944;653184;1113912;-262440;-696924;128304;-110808;-405324;314928;-78732;-137052;8748;-209952;122472;55404;23328;37908];
  [-42768;-77760;112752;190512;0;-42768;0;5832;-110808;62208;686232;239112;-241056;27216;336312;120528;-89424;276048;13608;-176904;-62208;-77760;0;-139968;-186624;17496;116640;-11664;108864;79704;-604584;-668736;573480;-68040;-209952;-812592;-571536;-120528;19440;-1944;355752;-1174176;209952;569592;314928;-3888;-29160;-87480;-54432;482112;-3888;-342144;713448;-322704;124416;-147744;258552;425736;-964224;-416016;353808;318816;-647352;307152;373248;-23328;-526824;289656;1092528;-3888;-515160;223560;396576;-151632;104976;-237168;77760;1944;-106920;7776;93312;-64152;58320;0];
  [-44712;33048;202176;-19440;-208008;-13608;50544;98172;126360;219672;478224;24300;-246888;319788;417960;230364;200232;196344;-542376;-69984;165240;-112752;39852;-575424;-225504;175932;235224;-52488;-104976;-387828;-266328;466560;519048;-350892;-357696;-1158624;-1769040;645408;727056;-209952;-1951776;-534600;-410184;126360;762048;-336312;-31104;302292;106920;493776;17496;498636;-1148904;500580;1458000;1829304;-1625184;-215784;-1200420;2531088;-123444;346032;-550152;548208;-128304;202176;-635688;293544;1502712;-1726272;29160;816480;-192456;-120528;-122472;314928;-218700;-599724;423792;-246888;171072;-117612;106920;0];
  [-71928;-27216;95256;103032;97200;-5832;-50544;-113724;-253692;147744;745524;257580;-211896;179820;-377136;84564;445176;87480;101088;426708;-643464;-272160;-125388;-81648;116640;35964;25272;-5832;332424;-80676;-597780;-684288;389772;154548;396576;-40824;-2004264;-659016;729000;-757188;353808;-845640;-433512;470448;-993384;149688;234252;799956;-194400;-198288;686232;249804;-287712;-177876;491832;-336312;2352240;-1062396;1738908;266328;34020;-797040;1122660;-297432;54432;204120;-286740;62208;-1428840;977832;-139968;-492804;-789264;71928;184680;71928;18468;-12636;407268;-311040;71928;-6804;130248;0];
  [23328;-13608;-95256;56376;-9720;73872;-34992;66096;-76788;-116640;51516;0;33048;-221616;-15552;729000;-686232;132192;-419904;267300;-11664;108864;279936;-336312;-132192;97200;138024;-58320;202176;390744;-218700;-814536;405324;0;1078920;1337472;-1141128;-209952;7776;1223748;1242216;-1041984;50544;-824256;-684288;760104;-327564;81648;134136;182736;-386856;-958392;606528;-3888;-75816;-1166400;297432;-485028;-732888;184680;993384;-25272;-300348;149688;108864;379080;160380;-202176;281880;629856;108864;-232308;-427680;-173016;-34992;-213840;-31104;-215784;30132;-99144;62208;77760;31104;0];
  [56376;25272;-143856;7776;153576;-110808;11664;30132;206064;215784;-196344;-533628;332424;-162324;433512;871884;-674568;-223560;235224;-1944;-114696;346032;32076;7776;69984;-90396;-87480;-13608;163296;259524;-303264;-742608;489888;63180;116640;233280;-124416;730944;-1034208;-1370520;-2604960;1141128;1432728;-277992;-1065312;-604584;157464;549180;-25272;-851472;-445176;1948860;-386856;-370332;-1605744;425736;1236384;474336;-636660;1446336;-1892484;878688;548208;451008;423792;645408;-1143072;231336;1366632;-505440;215784;1028376;-1067256;225504;-246888;-163296;418932;-531684;36936;-204120;66096;82620;33048;0];
  [12960;57024;-88128;-186624;137376;129600;-62208;114048;-49248;-336960;90720;150336;-41472;-21384;-185328;88776;37584;-25920;-515808;142560;272160;-57024;243000;-416016;-121824;121824;202176;-59616;-90720;285120;466560;-391392;-282528;106272;395280;1095120;487296;356400;-400464;1088640;-355104;1472256;305856;-846288;-55728;-1159920;-235872;142560;202176;-868320;-649296;1564920;-680400;49896;-2102112;-671328;-495072;1228608;-315576;565056;-1825416;881280;-383616;311040;298080;435456;-764640;381024;1097712;-670032;364176;526176;-329184;25920;-233280;-81648;262440;-163296;46656;-23328;0;0;0;0];
  [79704;62208;-83592;-48600;46656;-130248;73872;197316;360612;89424;-280908;-446148;215784;-65124;594864;496692;-312984;-173016;-256608;-172044;402408;326592;-12636;-241056;-225504;51516;25272;5832;-398520;-166212;848556;-11664;-372276;-74844;-1069200;-274104;1063368;-332424;-17496;-345060;-828144;-1755432;1514376;431568;-822312;-437400;319788;683316;-151632;221616;-351864;-512244;1080864;-193428;1304424;-826200;73872;-354780;2011068;379080;-588060;-902016;1542564;-351864;-46656;-227448;529740;-54432;-429624;589032;-528768;-430596;-474336;-17496;-169128;40824;189540;154548;2916;-221616;1944;59292;114696;0];
  [12960;62208;-98496;-114048;137376;51840;-51840;124416;-28512;-352512;111456;238464;-103680;139320;-336960;65448;168480;-85536;-176256;287712;-228096;54432;-4536;-33696;46656;36288;-2592;-7776;-362880;-443232;650592;474336;178848;-124416;-1651104;-549504;1863648;1337472;-368064;-1018656;305856;-64800;-95904;1954368;-1669248;-1124928;-165888;982368;-171072;233280;-254016;-981720;557280;235224;917568;-1886976;-98496;-10368;1018008;386208;-1905768;-77760;1518912;-378432;0;-204768;233280;181440;-266976;653184;318816;373248;116640;-160704;-116640;-93312;29160;-186624;-116640;116640;0;0;0;0];
  [-12960;-72576;-150336;-10368;277344;82944;-114048;-145152;-479520;-352512;469152;342144;-51840;-160056;-531360;-324648;0;199584;264384;222912;-526176;-373248;71928;329184;254016;-57024;-36288;-7776;-142560;212544;852768;-425088;-710208;492480;697248;1684800;-466560;-1653696;329184;1954368;1855872;-1067904;-1023840;-531360;1321920;1715904;-653184;-902016;114048;181440;-601344;-153576;531360;-167832;158112;-552096;-829440;463968;-1588248;-1254528;1599912;-383616;-741312;5184;-246240;64800;572832;-648000;855360;430272;-1023840;-445824;1731456;-528768;-116640;116640;-169128;233280;-466560;209952;0;0;0;0];
  [37908;34992;-104976;64152;-17496;-87480;37908;160380;347004;58320;-224532;-160380;87480;2916;472392;953532;-944784;119556;-291600;-148716;-402408;303264;-2916;-460728;32076;142884;215784;-49572;-227448;-335340;457812;-81648;236196;-84564;-723168;-1428840;134136;1312200;-379080;-43740;338256;221616;-437400;612360;624024;268272;-387828;-84564;17496;481140;1026432;-1350108;495720;-183708;309096;1597968;-711504;20412;-1145988;833976;562788;11664;-1210140;110808;-349920;-495720;125388;244944;-653184;-1113912;262440;696924;-128304;110808;405324;-314928;78732;137052;-8748;209952;-122472;-55404;-23328;-37908];
  [27216;9720;-134136;-33048;180792;46656;-50544;110808;-2916;-318816;70956;235224;-44712;-93312;0;215784;-91368;-11664;-311040;146772;349920;-15552;353808;-250776;-194400;-110808;91368;7776;11664;-3888;14580;-437400;144828;17496;-227448;-878688;-266328;-513216;221616;-638604;-1273320;229392;-93312;31104;1531872;-293544;527796;-243000;-176904;587088;1008936;-1199448;-31104;190512;1230552;2655504;-2194776;105948;-639576;694008;923400;-21384;-728028;71928;-171072;-149688;4860;62208;-157464;-839808;248832;-2916;-264384;429624;365472;-124416;-139968;314928;-70956;83592;-27216;-9720;-73872;0];
  [44712;-33048;-202176;19440;208008;13608;-50544;-98172;-126360;-219672;-478224;-24300;246888;-319788;-417960;-230364;-200232;-196344;542376;69984;-165240;112752;-39852;575424;225504;-175932;-235224;52488;104976;387828;266328;-466560;-519048;350892;357696;1158624;1769040;-645408;-727056;209952;1951776;534600;410184;-126360;-762048;336312;31104;-302292;-106920;-493776;-17496;-498636;1148904;-500580;-1458000;-1829304;1625184;215784;1200420;-2531088;123444;-346032;550152;-548208;128304;-202176;635688;-293544;-1502712;1726272;-29160;-816480;192456;120528;122472;-314928;218700;599724;-423792;246888;-171072;117612;-106920;0];
  [71928;27216;-95256;-103032;-97200;5832;50544;113724;253692;-147744;-745524;-257580;211896;-179820;377136;-84564;-445176;-87480;-101088;-426708;643464;272160;125388;81648;-116640;-35964;-25272;5832;-332424;80676;597780;684288;-389772;-154548;-396576;40824;2004264;659016;-729000;757188;-353808;845640;433512;-470448;993384;-149688;-234252;-799956;194400;198288;-686232;-249804;287712;177876;-491832;336312;-2352240;1062396;-1738908;-266328;-34020;797040;-1122660;297432;-54432;-204120;286740;-62208;1428840;-977832;139968;492804;789264;-71928;-184680;-71928;-18468;12636;-407268;311040;-71928;6804;-130248;0];
  [-15552;-51840;51840;186624;-98496;-134784;62208;-88128;-15552;305856;-46656;-134784;20736;60912;-2592;-66096;163296;-67392;104976;139968;-77760;-62208;-76464;64800;145152;-20736;-82944;15552;222912;383616;-357696;-575424;-331776;285120;505440;596160;-1389312;-1301184;562464;-616896;-115344;1073088;-741312;-95904;57024;391392;114048;-57024;-20736;347328;298080;-66096;-438048;278640;1508544;62208;-1432080;648000;-6480;471744;-514512;-482112;559872;-72576;295488;-378432;-108864;156816;168480;295488;-453600;-155520;274752;-82944;114048;23328;-149040;46656;-72576;-5184;0;0;0;0];
  [-5184;62208;186624;-20736;-243648;-41472;62208;108864;336960;36288;-181440;-41472;-41472;68688;-31104;270864;196992;-46656;-213840;-204768;41472;233280;-79056;-155520;-134784;46656;-15552;15552;114048;-207360;-435456;-31104;321408;-41472;-787968;-241056;134784;360288;-259200;541728;-491184;-51840;57024;513216;396576;145152;-212544;176256;-114048;544320;-948672;369360;1041984;-610416;-1980288;927936;1696464;-251424;-1530576;-844992;1284336;191808;-673920;196992;352512;-305856;90720;14256;82944;749088;-388800;-274752;497664;-114048;-82944;-46656;71280;-93312;-36288;-25920;0;0;0;0];
  [-12960;-57024;88128;186624;-137376;-129600;62208;-114048;49248;336960;-90720;-150336;41472;21384;185328;-88776;-37584;25920;515808;-142560;-272160;57024;-243000;416016;121824;-121824;-202176;59616;90720;-285120;-466560;391392;282528;-106272;-395280;-1095120;-487296;-356400;400464;-1088640;355104;-1472256;-305856;846288;55728;1159920;235872;-142560;-202176;868320;649296;-1564920;680400;-49896;2102112;671328;495072;-1228608;315576;-565056;1825416;-881280;383616;-311040;-298080;-435456;764640;-381024;-1097712;670032;-364176;-526176;329184;-25920;233280;81648;-262440;163296;-46656;23328;0;0;0;0];
  [-20736;-10368;10368;-103680;72576;114048;-62208;-20736;-93312;-342144;103680;238464;20736;88128;-235872;-422496;-106272;295488;67392;101088;-191808;-279936;-20736;116640;67392;-15552;0;0;165888;-254016;202176;300672;-368064;-46656;-184032;474336;751680;-313632;-308448;-743904;959040;1000512;-36288;-173664;-85536;743904;88128;-445824;62208;46656;235872;-365472;-422496;622080;1249344;-1404864;-1270080;1272672;-406944;554688;-889056;-300672;352512;-20736;-217728;181440;-38880;-88128;557280;-520992;-142560;-15552;383616;-145152;-98496;23328;-88128;46656;-331776;82944;0;0;0;0];
  [-12960;-62208;98496;114048;-137376;-51840;51840;-124416;28512;352512;-111456;-238464;103680;-139320;336960;-65448;-168480;85536;176256;-287712;228096;-54432;4536;33696;-46656;-36288;2592;7776;362880;443232;-650592;-474336;-178848;124416;1651104;549504;-1863648;-1337472;368064;1018656;-305856;64800;95904;-1954368;1669248;1124928;165888;-982368;171072;-233280;254016;981720;-557280;-235224;-917568;1886976;98496;10368;-1018008;-386208;1905768;77760;-1518912;378432;0;204768;-233280;-181440;266976;-653184;-318816;-373248;-116640;160704;116640;93312;-29160;186624;116640;-116640;0;0;0;0];
  [12960;72576;150336;10368;-277344;-82944;114048;145152;479520;352512;-469152;-342144;51840;160056;531360;324648;0;-199584;-264384;-222912;526176;373248;-71928;-329184;-254016;57024;36288;7776;142560;-212544;-852768;425088;710208;-492480;-697248;-1684800;466560;1653696;-329184;-1954368;-1855872;1067904;1023840;531360;-1321920;-1715904;653184;902016;-114048;-181440;601344;153576;-531360;167832;-158112;552096;829440;-463968;1588248;1254528;-1599912;383616;741312;-5184;246240;-64800;-572832;648000;-855360;-430272;1023840;445824;-1731456;528768;116640;-116640;169128;-233280;466560;-209952;0;0;0;0];
  [42768;77760;-112752;-190512;0;42768;0;-5832;110808;-62208;-686232;-239112;241056;-27216;-336312;-120528;89424;-276048;-13608;176904;62208;77760;0;139968;186624;-17496;-116640;11664;-108864;-79704;604584;668736;-573480;68040;209952;812592;571536;120528;-19440;1944;-355752;1174176;-209952;-569592;-314928;3888;29160;87480;54432;-482112;3888;342144;-713448;322704;-124416;147744;-258552;-425736;964224;416016;-353808;-318816;647352;-307152;-373248;23328;526824;-289656;-1092528;3888;515160;-223560;-396576;151632;-104976;237168;-77760;-1944;106920;-7776;-93312;64152;-58320;0];
  [-27216;-9720;134136;33048;-180792;-46656;50544;-110808;2916;318816;-70956;-235224;44712;93312;0;-215784;91368;11664;311040;-146772;-349920;15552;-353808;250776;194400;110808;-91368;-7776;-11664;3888;-14580;437400;-144828;-17496;227448;878688;266328;513216;-221616;638604;1273320;-229392;93312;-31104;-1531872;293544;-527796;243000;176904;-587088;-1008936;1199448;31104;-190512;-1230552;-2655504;2194776;-105948;639576;-694008;-923400;21384;728028;-71928;171072;149688;-4860;-62208;157464;839808;-248832;2916;264384;-429624;-365472;124416;139968;-314928;70956;-83592;27216;9720;73872;0];
  [-44712;33048;202176;-19440;-208008;-13608;50544;98172;126360;219672;478224;24300;-246888;319788;417960;230364;200232;196344;-542376;-69984;165240;-112752;39852;-575424;-225504;175932;235224;-52488;-104976;-387828;-266328;466560;519048;-350892;-357696;-1158624;-1769040;645408;727056;-209952;-1951776;-534600;-410184;126360;762048;-336312;-31104;302292;106920;493776;17496;498636;-1148904;500580;1458000;1829304;-1625184;-215784;-1200420;2531088;-123444;346032;-550152;548208;-128304;202176;-635688;293544;1502712;-1726272;29160;816480;-192456;-120528;-122472;314928;-218700;-599724;423792;-246888;171072;-117612;106920;0];
  [-71928;-27216;95256;103032;97200;-5832;-50544;-113724;-253692;147744;745524;257580;-211896;179820;-377136;84564;445176;87480;101088;426708;-643464;-272160;-125388;-81648;116640;35964;25272;-5832;332424;-80676;-597780;-684288;389772;154548;396576;-40824;-2004264;-659016;729000;-757188;353808;-845640;-433512;470448;-993384;149688;234252;799956;-194400;-198288;686232;249804;-287712;-177876;491832;-336312;2352240;-1062396;1738908;266328;34020;-797040;1122660;-297432;54432;204120;-286740;62208;-1428840;977832;-139968;-492804;-789264;71928;184680;71928;18468;-12636;407268;-311040;71928;-6804;130248;0]]%Z.
Definition s6_d : Z := 88637038979572915887120.
(** s6_d M1 *)
Definition s6_M1 : list (list Z) := [
  [88637038979572915887120;0;0;0;0;0;0;0;0;0;0;0;0;0;0;-74774717138835956902764;3904650591286793783365216;-1816707458504551089245912;-650501176729414819088670;1928650507854354002926363;8084445178189430847427085;-951325733266069257707065;3588736335602537533646687;1483926009460389021698821;-2378600505911166910567272;-3135014187156003546001270;-1637403540796148033656657;655139944437420965216746;3362107875223378632650455;-1061846782946241659610451;-10467523664103749562301762;1856928763714353192075511;6623115654051072522473699;-2626867642358204449951500;-326165571604894646411553;-11818736965201718191731013;-17521025637533990695679491;-10182967973055594154711663;8339133196364115275085228;-25438889315481394935781469;-36188125210492893565222698;2410038613911190607480707;-880155868843343472421496;2114720446499053275519936;15792616272824896316442189;-2556210478701819839539705;11111437352941629343482362;-2448822957749477887151561;-2693192478255874072894598;10500028437583771134371752;10821780046419713067676629;-12465543387800080845496021;-11891963112008242707633709;11292523700183773535715409;35254835023464413070325443;37901016631856308041403695;-36730505906425487130899834;-4172009379524852984866293;-18030788763144295046122643;19062708947516832484026231;11088437639418599190043456;4412505423474967304677022;-3175322353281248354938156;4631268373607307806740236;-2406023215806546291290049;5049617887459951811410834;-2854973632368522497377441;-2973100947800898992553320;15696264573019787671367466;-13598988462571974477751333;6237902512141861898974975;4314231777377871884864290;-4396562222508792842357943;4793083155609232019841422;1671597641060344280316670;1975352835801256794743172;-5927460015761502829993278;-3174585397205839284623592;-133800759864984872300771;-579259432663405788529118;1865050826175407293947732;209216560085547856681320;-1082392209536279200394264;326431290507205511200456];
  [0;88637038979572915887120;0;0;0;0;0;0;0;0;0;0;0;0;0;-849202305598904568897866;-5402760036938845365411466;2779336765851436544130062;3877745736940304446560630;-3372396005052135442489238;-13041651880764196777386290;2139177894732233447854020;-7348619950040750694296012;1718297616204991331916324;2864500108701455939842502;3928450546324985346112680;890100996257562737303992;-377822371022828895694256;-7842660260536463808916760;-6678712998994534589300024;18502579518405311107277112;8994721580430852259465004;-6264835795535673548997044;-509672229691209149203140;-12229621302116253743922442;2708870635327055073081398;37841762387757147850831596;18253584467004945973574818;-7768163368478216045942138;29441570428941012811208584;71027805283190154661226458;-45476559431657297907750362;6698948419796136616877546;14214117717300977640657554;-37173038257238881153837544;9904220147797230449059040;-13189733397750312921141672;8881652143254556156935836;712325494241772079591688;-7402213776977806466307862;-9821347662091074956546814;-12754089814417017062333714;34722163358737428414314424;-16175879644483278206484144;-23467492039075968314126898;-71888588376296115761069950;74494981845419528782358014;-21113091564290880969867632;54357055132423436618916008;-42589552900369607201287816;4506668118803666907815644;-20981937275563528969400712;20005211250770829719925996;-15378402065118602063504256;-4609493585648947117217796;-8735205332617481224891734;21143414735543820972933806;-3529883892407138804731630;-47918782187531953928327996;36970176968431753442209828;-8489037332503885328366190;-17279070435722605605181880;4384017389435365497879468;-7735550057759845589064032;-1221189190592567383860110;-1758212432234548540102492;6221118099797031712903648;7515646247154252033235752;836980261963082273431016;330592217825064702899968;-2542298387868526177583352;178270812336004403802960;2185531460981569855723624;-403465282074646444300856];
  [0;0;88637038979572915887120;0;0;0;0;0;0;0;0;0;0;0;0;-294714843467751998617884;512645549933657343088876;-229866754762576509858092;281838050625475791663240;149119461569077718926948;467371321697798348492540;124387474420863665199320;47107508437390691378432;291664324719634455155536;-206941889158368897060732;-245323494601823022779080;-271100274389611268334352;75746143981721919482656;367247164858688987909200;23953888605241415113664;-1194588847997396642332912;-62133785810811170426984;856807029513326506340504;-270276807068782434264120;-673293440670742853034228;-624939017853034054801948;640054297361689585967144;93731645948380216161212;-298430113631046603199332;-2815942503394509817749824;-2477040735278402382338808;-172190938512273171627908;1587123710989645372930564;735344075769114909573276;-1906236177298247733274896;-1133855186485056822434920;1164336506464032496625672;1099006784691284852639824;-392287177058688888200768;43233298550732382682252;-371974748464859643586476;328543215596313175642964;133085883160634662049216;-50941315606648600768016;647194611338173773864588;-416219904587331825396060;1651263680668996604091376;-824858859437113291027728;2263656460026668417872552;541540526415805073710176;-1210424707336967371158464;-250949211450536850616528;2492910451143322823967344;-318538651175568756027744;564904562062665851596776;148852366695599709791764;-338135946442098439457956;180334618688018184724480;-508762507960645278256224;1329460033056171707591912;188491955557106497643740;-537219406139196295729160;-1239768836959207475423208;406591105474125144538112;-171501502234500640596740;63507310797625751046672;79915632674924688932472;-235800633967158341017752;177105730913358305035384;-381488120263383035608688;120432653078980234011312;93980898412603343964360;28255956999338158610176;36363409586578431104176];
  [0;0;0;88637038979572915887120;0;0;0;0;0;0;0;0;0;0;0;-144628450135767597329146;-1066232048399584852565826;449520817596339566331942;998755177472259509817810;-754605629115802795422728;-2091521003734094434489920;482675355368795328696610;-1449097775248461786277662;772653863216547446280734;400529155674404207080222;593220011340236830868140;26605605912321070638102;-24712649030462383349276;-1321480205739806085731690;-1538047580892190312417134;2719046084348760771492772;2222797895115822215792874;-402296693067994659924654;-607782591858870548553180;-3175145660338135762418372;-735398569135912089666892;8739622903299663969707686;4578684795463283266160508;-1998953599729769834734858;3292827774753069388728334;14506203129239189940709358;-8886579365436094613749052;2091062198550944534258946;4665081819459047271580714;-8896071613034029876792654;515898568995715570706030;-2160331106517951213918932;1884830476696296496972506;-33587513561651929744692;-1234726056542076783226542;-1039065364094910356569884;-4598624145168024718390644;7025529619310065026557854;-2176000647402406197341134;-2987347329097048044524148;-16466115690865284171728120;13926456410368695517249954;-3627273022978564124393482;10104759410981476956428898;-9159300795873707399890346;-729735648770644644620276;-2752473899722097755311212;4132893380705834863954036;-2753153099299612941461736;-837721697722298265318966;-898040827569720161097034;3679892496765682358272196;-677140494800755731632790;-7759169248206375510267736;7207196220580330135555338;-367162293141863725690360;-2249129750196316155872180;493878969928485168834318;-1400537047825813480267092;-158858336670782418180410;-824437201828947988059572;1097089498135066662109988;1163615162070714657670632;-216792155683982786587854;380649147363366119772388;-363267110799049910028432;75012467667670513794720;305290896320699353416184;-58372432443493587780296];
  [0;0;0;0;88637038979572915887120;0;0;0;0;0;0;0;0;0;0;-265070636903338547903404;437786746730367408300216;-230231941796667923102112;43848753872782043831730;-95341103016371938415807;835534312674454435275495;-66343987216539599116595;125653599957349212856557;171475626535382668489031;-218913087619265923519232;-172219060913719793525090;-62030938808211970662987;43804573445000586897886;254452565191546242472525;210563631588600055264959;-725753880843994553406422;-158305544760936731166099;129499858059710788963329;-152315391492917825238660;33561837267637257467197;-606356779369871771118343;539527736149807736511679;-200499335082465279671253;-162243288835009225114372;-1763728077772048692441839;-1239067781507595499436938;1680758307457026281075737;879335394167776177561344;338587098488764711218856;-72655214061604089602281;-2025857989043784988994515;763277044320793313239342;-92314012449695943846291;-102392872635215623028418;-499616701158611893307568;850985770425758638571919;197008728647483960305449;-920238910754599481344079;724537937954792613313859;54807108225243303795993;-201393019029107977862195;-1416725320867422253399754;1363718685279782291589497;-95085394979725100611833;-273807200903386137513539;-2116548677773158906247424;1409761858630118077643242;-216295441001551662421316;389490967537675192575396;322376289912979664501301;724650286312561239568814;-1085547668006459696949811;359238201115930846953780;1603941155721527941654766;-838644513697243675891983;1014932125584609651923885;899444230546018691575750;-691292392445217883086573;454452429078852623594202;92701186930218682406290;-282995042150261396584868;56513987099866358384582;-25009931866290435198312;-161469625928768847710721;143792457273612147832102;74686171214153509109052;13791463464684691789560;-112117558896620241060104;21293157745239546098296];
  [0;0;0;0;0;88637038979572915887120;0;0;0;0;0;0;0;0;0;-190663964310842555539906;388810936274634762532674;-125277498371841352432758;-239215585010725324637760;-189571140035081780228903;1831760413325698875151095;-347219742724449537906125;382630008187606425380883;362054834177983089959129;-585462149620251908966558;-317719190004408301781990;-30251685168059760611673;82723934649730181533114;456784884966013436837695;-398990649775361685274059;-1285676423483612384837738;1040370714283477159036779;476501119805685881784231;-857996876098075197828600;426545531701314658193233;-2063750514627397521267067;-822637690376991513568799;-1051980847777591801530657;1147777864004104000200302;-2978393777341021963814501;-238050601043560955020072;-199984387035120580107707;491023965140672266571046;822596553663722794542094;1475793894259749891188261;-1737571553895101175138865;1378417661500756231945978;-1309218827675779571690829;-115552930429536613750782;639841696176441095585118;3418100965545402982683531;-4249751352148028905215219;-1718710233236534123858741;2974331668631105000719841;5324383410027735891948237;517430781370676291599765;-5932678268456114730387836;808209470480122368174443;-2442576087681284586736227;-378721633280428613497361;260536033768373901145804;2276045772991345675223158;-2312270033012796140141984;992774359630086926814204;-954257894500315857019341;2103485768630024413840016;-587755080684996642522199;-600625035582239181916710;3505472392268941900200734;-2863010216597982593010057;2665624944029795437821005;1718879522760579355884130;-895396263182888125646547;642650652924227099676798;496644363425873030429020;-378228286398094276434152;-837332920544758592904742;-115984544545624606417848;-424426219930760719874019;505777640829661127256418;281302806374353958906028;17206728719360514220560;-267053792355201350943296;42835563438030989589184];
  [0;0;0;0;0;0;88637038979572915887120;0;0;0;0;0;0;0;0;-1357523063505575567706004;-1782854147844550475194704;1475574111094920042868488;662261574691748923303470;-2209498426599178428416027;-3600558697042783646062605;-61055013957135723439895;-3016771412147617393956783;515000528400071871494651;709570455416867825506168;1919815771223147276586790;893467495076932527781953;-155562770564839527727514;-3696738930789136754628455;-2685976903271082312164541;10016108931588695189385058;4216245126456745686227001;-6484244710009603184201811;49982853082695294345900;-2962935896194279632078143;2673662998899808568197157;14920352586762096964420819;1575010798147281912687087;-221061125432092541487772;17050426450466201952926221;37561424799866392406887802;-20588631561435287513960483;1467834451243789742352264;3964038491447451874089856;-10096273101809996715497101;4877165744965653217425305;-5742929260162908894507338;-161039445666131226862071;890133470071574225018022;-2759098794049498762470648;-470849742343319962409301;-10059855945412576157806731;13964930309037606475847581;-3977618613578749883969041;-4765834342596532671420867;-32977264944598116738440015;22090926098816198052133546;-4976769439604928050555323;21227049950721113888582307;-22797705672087782419324679;4218315423940261343975536;-8673796627990176842538878;3318268251400283815185244;-5971509086885439863840844;-3653940041992990240883919;-2683945329206791953219586;10183196537028616013988929;-2555539672700130978008520;-17525223826363806350727994;12695774494755959854372677;-3425750753124449048219215;-7525587816085301162818130;4166972327927859242315847;-3674099837195149962101358;208835237411112462063730;-1015356782685164697762548;1832080335949512377540942;5049918296238959523077208;-718709111178238931565021;1161849536119227594497662;-1157680657667091690609108;-43682750984426092213560;771367469178421403998936;-182723691643918466174744];
  [0;0;0;0;0;0;0;88637038979572915887120;0;0;0;0;0;0;0;417966083913998575357580;588925599382238287233260;-353310474577299258384220;-1173129205190600903476080;1064103381154826167306320;1305609898685083670811880;-192853906513578674681260;1154804163062946873614620;-1239634378869843546921740;-299304878156099349234860;-215900632680915418862920;134621517130323943896940;-54108678277126391577240;1348092703713876486871980;2050288201008972327882100;-2354972497637311237273720;-3388554373292312177562700;228116098192488010614100;818788408875657878209800;3255195034838335940463160;2637408079428457317724320;-6749000793047091630773620;-3438420382329190502733200;906502741221167599788140;-2569587274503301126520940;-10748359676710018941154720;8851211941892185553029440;-775791421746674508280180;-4623542839424085900941780;3535348615858261301154020;-1289829520839052224999660;1763583169235111474755160;112947976984718096013380;85647270775374882104120;-131391952126890721192420;-186962608335945963472200;5585404853889646338932080;-5437877630778329651553220;921708266312015197949980;256976769326680000860960;9321372024701668053127960;-8048294943411604131774840;3504109726952845175951540;-3799906587132033100957420;8361152683757739120792940;-3092253431794585170417360;1081261948831406107217480;-207541797676390897151080;1475888601480465133595760;1844625124614071695582500;148911447073300225732660;-3571921021407111711194520;1606034649962700074398880;3980672427520536430014680;-3589106720786822888555180;-108013251095998293785960;840436078726086792093240;-2084008373263636497273060;1164463505906421333105880;-40560641568970244810940;422214128588504695211680;-185421190515133851193240;-898177506972719108522880;616984901549958306906980;-812798221845300902444760;188077853840245592503200;24104544890501917617600;-67185495222614489556240;35524845470199922920720];
  [0;0;0;0;0;0;0;0;88637038979572915887120;0;0;0;0;0;0;281103256648989313050940;839288493739332390344380;-458673505888711900054820;-501137912836283574943830;259582000405292285243445;2335325252547040830265415;-357610598176306304853935;1169598861289291411891205;-3605179166090102703565;-550646916996625233613300;-746782318524443484380450;-177757092277914099610495;95332962863047823467350;1240857036511009771056585;572370109910507543372315;-3209343071197380032553710;-752289552203905602157895;1386880571512287709617605;-237320027657031666365580;1398233001129932101547165;-1945753426930198804205295;-5778438946361655070399325;-2429306102791975543099765;1271946324752930485489000;-5282999775048218708901975;-11073695145165771669169970;6654574520484620585010225;-1218453168290521036042100;-1185260449030753646384140;7108130850410057845793755;-1803228574536988166094255;2117087754785519741815390;-2121266480397576866016815;-189695281859944553733770;1631186524378024329607060;2622673479929163583768215;378501691268706079506185;-5399702001288601233566075;3166492034022007804798235;4429549755812817502270065;12522108006664969466442125;-12936299290508893608309690;3350554779195820333094305;-11122934060664928605723725;5727220742782805652668945;557185641040535375415660;4551931477276714499201890;-5122266136076483927328500;2971158113303328418232580;212468753531004291936825;2014336437146972475006290;-3387974698129679576313015;165557440607001212893900;9015562864601145277039390;-7022230872795106761477475;2191805032553667956567165;3729593950850269763762070;-253594951666895416805145;1325834884806984711691970;422167989489330624017070;64474709288464914408860;-1250610248085201540623450;-1245646353622774005148080;-439537875268671696395285;335248397255913211304190;468803308241738849989980;-58943142142810939285680;-477769610680912701080040;67408716252436989866280];
  [0;0;0;0;0;0;0;0;0;88637038979572915887120;0;0;0;0;0;194589827096043663214380;562647682567818113842860;-251297142085237557315660;-575147676930957967846740;606771856651549274009220;1086651272376538681294260;-239754611911177459187400;772236025812359116701000;-498609646107441121137600;-282887701425752783225340;-320679925314711158902560;-16559758708235788518480;28782504300971228105760;838500403612628777645520;668692250874542633972640;-1703885565184192689844320;-1223289187064925391518120;447433851479145307276440;196658672905224741003960;1841215804496552342139900;-136400103079046759008980;-5307656874490991734952520;-2822339380454783974272780;1640661898251013909254300;-2578500293450441933768520;-7288079353901196201677820;3294422221716430107198180;-877724136907551215105700;-2372193100874265694417380;3847438951988946988804200;-47892288917262305139720;1731144168554557632338880;-457351894947985339659480;-180795033369065067767760;848841384750605409999420;1579404670609406421896340;1047442946275634145002220;-3496993876918634033626080;1201899933155245501679280;3311635473174975333674100;8721723112669061083811340;-6232920961444357541172180;252808705360836709939320;-2659456028308513625857320;5047627155074316062664960;1308689007103741394823360;217385701029801898166400;-973579530724800240272280;862908553818480311066400;132953002964523141497640;344734846925450886583260;-1327866399370495107514740;207308360573432904218340;1630202801036477955462480;-2944843399237272016313040;435357058068427840389900;227260711135208059381920;-1460854944330340898054280;1058693980467597660847680;376844942666365914736620;488413960174738725150240;-675271460205167413991520;-334151439951625783536480;480717082845430811290800;-450461025485599570216800;173970452495062082952720;4831173977475627218880;-102294484723259738899440;31597777809096797578800];
  [0;0;0;0;0;0;0;0;0;0;88637038979572915887120;0;0;0;0;72436808178891620420220;-86380084193560058129580;103412055184359071342580;-49059724942358852516010;-46267774129480197581625;-71871547015629219707115;-77284500232384374961725;-38195390880264199645065;4792134796988733774105;-18931889868895857920700;35628131193700188457530;38752901368996648543635;-135529860722356776510;-100656270162723780864405;-241451885430782583868335;335302813770030275363430;224488937973567895541355;-197492329265478048881265;-33483180708237869676900;-33121133899123989132345;-73682325799501925313165;-326085552754428678076695;-513322980246536550042735;430265945267259095249160;573095371289838588503715;1061017033733268044878770;-1436322338998400927879085;-221635263273319235417340;100649079062701664661900;466935469796693745183345;755249893023532250252835;-127947497421196092869430;-281151132710278153478925;1487138261122924656930;360199415250280238222460;318144585870565641798405;-1059942371815030965769365;427217017530449274288495;140316105582331673751945;1058010146893553366486835;-144182698271217815970585;-186853185435346660397670;-482824113170967240086805;-164324943548351851497735;-506217276096051600122445;1323252371599265346769260;-440567011594533351127290;-370371752712864041312460;-65331050702506348619700;-423421628087422396143525;68185784044256773628310;566590256814532717409475;-394811570365911232443300;-219606386747832592371510;52126447040195228332455;-195922677581826954698265;-285675979595200747802670;339131699338699584485685;-156942295608275669688570;68004031946369800806090;56721599306796666484500;-158821657729455455890350;153022385553527901425520;-65033554141372541717535;42866214656681190480570;11238111346787553594420;-5123906599116705997200;27002378576649697070280;-3726911634879193355400];
  [0;0;0;0;0;0;0;0;0;0;0;88637038979572915887120;0;0;0;-102369918194122089930180;-479120058799299050211180;408387676883808480255180;58845503406731939746020;-6909684259304555246310;-1370386563093150295325970;23858375077947841819710;-539946796860989763303210;-254771174468423513699070;255695925728666471287740;403922473890296820189780;185226768089892282624150;-35004845790958398220860;-634216937787518653226970;-636397269248535110222430;2055576355920207263856540;400988620199544329230590;-1182347223798287136530010;243877408444828889358240;-317613101623558339154070;461031646110698482977210;1094677423325774649068730;-592543678545230259844770;706105811788839346004700;3308250649459875850377270;6101803684124788437393180;-5428857096729424865960790;-209223385432823247786060;-236114913087147432662700;-1597103558340808178814990;2934432410080146567308670;-639115313489172866970300;619478104330549519962510;-54681123944557690618860;84180213176696324013300;137680845054683559037470;-2028051554890417906478070;3008734874045967911094750;-1705759161539996031670590;357502292837719220986410;-3265121855604295581242310;6065046912377698362477300;-3587542798122747886338330;6990351821175603115465170;-2638398354408625681273050;3641112301741352163579120;-4521707804947033186946820;2311744758355212251862000;-2102298525198419748165480;-1034331497370882563560770;-1681297298780136592594920;3139300064156984757513690;-679158724876085361432120;-7700083791747919497248940;3606446317777042040026950;-1737704955658722387297270;-3580214988728128024921260;-86081783461873137664590;-414361029372926358805140;304786093690550018683200;316449543319775124616920;267005337201741182867940;1406787981667422207905040;529883542221882764221170;-367001119016672545866540;-346068760893286206556200;14947233917111409286320;308589248100360731857440;-49438608548493087050400];
  [0;0;0;0;0;0;0;0;0;0;0;0;88637038979572915887120;0;0;-75451844982743989351620;-1162656472502725015059900;745847053813172987768340;248498265454536200585850;-131540331119687377408365;-2630428768179830608424775;144502826676494079455775;-1151887155458643257065125;-303642250161791506588275;560620420787427723384420;831983406630080291804850;319493514437206848312735;-101911966364513815849110;-1109942284648489048372905;-868187462697690896309355;3723472436289278057754030;541571213642000305058295;-2132317630373522647915845;423344083296007372303500;-675748334712098318519565;2191643168560532712886455;3744295043130154042689405;240505008828425743124445;-73293501137798139933720;6085846398284651569500735;12403392246243985427973870;-8213363559501199576807905;479675897202109160783940;-12029159229149885594580;-5313226505049056117700915;4251730674406927458675615;-1868697742159375605391950;1428341056355531757588495;153940014084367878892170;-899998981698736515865620;-1156835165443975001770215;-2117260151862486964035105;5543810112677112790907115;-3018361570434166561170075;-1821454370185872478309905;-10644881859661335243685725;12163199996946885420722550;-4370336397450145921678665;11784794754921901956231285;-5386682002648718264097345;2802320524179650138307180;-6660479598137314865427810;4666015945458418085835060;-3382788607086752587371780;-1133780050461867430061865;-2358266556691584619803810;4590680711625788300793135;-807744472644847644093960;-11350332060965753593159950;6855973153799504238925035;-2910641949820532965368285;-5215377247106907514210230;144287256248980749237705;-1238731249169917913274210;12654233651063994818130;186660497457407648281140;930174271039607678990490;1956119556171198108035040;572737203808924646773845;-499053273906175889019870;-560175003641338803544620;62916266598085389470400;565284452857476403857480;-87463167247721503372680];
  [0;0;0;0;0;0;0;0;0;0;0;0;0;88637038979572915887120;0;-58066868362426401988880;346266535959251581263520;-161929008824133247587680;-62965393720991565310560;234815207034852045643080;736953183474253515379640;-125243996632539618593720;317602392021541812966680;129933633522499664848280;-166457287643368443374560;-280523418030708993149840;-145335476352838919563960;49618319600965420747440;370250737907287185314760;-67760881139683760457640;-1081735438693975964969840;226985680341728471405320;643732961538874503915560;-289013228274560089744800;-148396038153578491393240;-1111661388135440134702680;-1360637514504172100858600;-468559764200786543537800;502195684142610824439040;-3223806341395798529106840;-3660505631919546116801120;1656432855105785696462280;-148277494908332701775840;417402951228405797749280;941347772515861293848440;-800973078456992110418040;1036121590608945296664880;-125416902873771034691960;-190906341293072614842320;765490788533864392199200;1133536346509188821000760;-824443984173704929351720;-1795929662080589804875160;1459241193573764396341160;3577273929394804579681800;2843671564580212164082280;-4390085650259970626637600;571734133562082035391400;-1954177263661787138866040;2607710139045410943020360;-749332741664525138207280;882001706897127153951760;-20501785836152435894240;582307714678455585465120;-64563662803802866180920;598336288830047251269200;-819236621752142070245400;35075576644708885816240;2305232459978664559784560;-1849819473571001143632760;893691553755785418527720;1070147853591831357579120;-515293595632164755132040;441455296916848472930960;95838541312994885650800;106468334352178738919840;-520164312889569032540960;-517806379970049480714240;-82193353777731274481960;11787474756998561829360;191845394716011995376480;3741168646760705112000;-122964385519075760105280;29800362848806909270080];
  [0;0;0;0;0;0;0;0;0;0;0;0;0;0;88637038979572915887120;-92629311124634456013120;-476875771419407165604960;238661525803765226449680;329864418054349065197400;-286869802507520152021140;-1020941359768783268246700;178164714038132073139980;-556001352286123314982980;115424535024488898009780;226909721239589676034320;296218297738418882908680;72447589718650853765580;-32868126768347711999160;-612403570931591765496660;-488061394353750856644060;1393642140621093376918200;697393782588624827279340;-420519386846135285197860;-51044204659046679956400;-961134600510650843580660;94681826418548065727580;2976704098789503044917380;1595141494385843902374420;-725407499204312561451120;2154173558391816986217180;5066400138694955756035080;-3252291535321879819455540;569264167653223605611280;969520664193692068452960;-2770200360577082161014540;752842250163608016504060;-996659440111226433191160;667338829107069639763020;74803199067315642516360;-602001279679559395755600;-840435737600315913753180;-681955913205351666076260;2531147546643819234557580;-1311218225150600341953660;-1923195519612196915184820;-5201291247543973504391460;5597211707846568300280680;-1512387741666603219568740;4090793317145043492973620;-2928874872113563176079380;173217398623336245901920;-1564119693119319183762600;1534280649508930412312400;-1143216691736486682301200;-304203660089361922030740;-742554110528825126929320;1500720941223641633516220;-176136476716127007850320;-3583218146233544918373480;2611743827638388247811980;-701333533732007188362420;-1239036117010469044084440;318212653416156890445780;-568174696784003783834280;-115521084064464745180440;-112170857033548112106720;509487562365592306796040;538184543213732008241760;86476344167547876430020;4094632145580626333160;-199769513945528055130800;2993111399768975261760;169975565360345737164000;-32050957414372134170400]]%Z.
Definition s6_P : Z := 29.
Definition s6_res : list (list Z) := [
  [1;0;0;0;0;0;0;0;0;0;0;0;0;0;0;25;1;13;19;7;4;15;9;11;12;21;5;8;16;7;13;18;28;7;20;5;16;0;18;3;17;22;13;14;17;28;21;20;22;10;2;4;17;3;26;3;6;12;28;22;1;28;12;24;21;26;28;9;25;6;26;27;17;5;4;10;23;18;22;24;26;12;18;23];
  [0;1;0;0;0;0;0;0;0;0;0;0;0;0;0;19;4;28;4;18;14;24;15;6;17;26;19;10;3;8;4;9;12;27;13;9;5;21;17;21;2;26;9;25;10;27;28;1;2;9;0;10;14;24;14;8;11;19;28;19;12;19;23;1;18;22;7;28;14;24;5;24;12;21;6;14;19;18;2;15;16;15;6;5];
  [0;0;1;0;0;0;0;0;0;0;0;0;0;0;0;10;18;21;7;1;2;3;13;23;0;9;18;18;5;19;3;20;24;24;19;23;12;2;1;13;26;16;11;15;14;1;5;26;8;14;22;9;21;17;13;9;23;18;7;2;27;16;17;25;23;11;7;10;8;19;23;10;14;0;3;10;0;4;0;25;8;22;17;14];
  [0;0;0;1;0;0;0;0;0;0;0;0;0;0;0;21;22;1;24;20;21;26;12;13;28;0;10;11;22;13;1;27;24;28;22;3;7;2;7;27;24;8;28;1;5;27;6;16;10;13;3;24;24;13;3;9;22;19;10;4;12;27;17;19;12;16;2;1;13;6;1;25;4;26;6;9;26;26;24;4;3;16;13;16];
  [0;0;0;0;1;0;0;0;0;0;0;0;0;0;0;22;5;22;17;27;9;9;2;13;16;25;12;24;21;20;22;15;6;8;3;25;22;16;21;26;19;11;15;28;10;12;1;17;6;14;6;24;14;27;5;28;0;8;28;27;23;10;7;22;0;0;12;14;9;3;18;8;28;1;24;26;11;20;28;6;23;17;13;12];
  [0;0;0;0;0;1;0;0;0;0;0;0;0;0;0;14;17;2;27;10;8;9;27;2;24;24;4;13;11;18;7;23;9;19;24;0;8;27;12;18;10;7;17;1;0;27;15;23;4;17;22;27;13;7;10;1;22;26;14;21;23;11;14;3;7;13;25;4;17;28;4;26;1;0;8;12;18;18;3;14;20;10;12;24];
  [0;0;0;0;0;0;1;0;0;0;0;0;0;0;0;13;27;8;26;12;2;25;5;2;19;10;12;10;2;13;10;10;2;0;11;0;1;14;6;9;3;17;20;16;5;11;20;9;26;23;1;23;12;14;3;5;25;22;23;24;3;21;5;0;1;21;7;21;10;12;27;2;23;15;27;20;7;12;25;4;18;10;9;18];
  [0;0;0;0;0;0;0;1;0;0;0;0;0;0;0;5;14;19;23;0;15;4;12;9;22;12;19;5;2;13;6;15;4;9;7;5;21;10;2;3;18;17;26;7;7;5;4;20;25;22;12;19;17;4;22;26;12;18;27;6;28;0;3;22;0;20;16;28;16;1;4;12;24;5;14;10;8;3;15;1;5;16;22;26];
  [0;0;0;0;0;0;0;0;1;0;0;0;0;0;0;26;14;13;23;12;4;27;24;14;23;2;6;23;20;20;23;10;28;10;5;18;27;26;28;16;27;23;15;4;14;20;20;18;14;20;5;5;0;6;26;2;7;17;26;26;14;0;20;4;26;24;16;7;22;27;15;6;7;10;9;27;7;7;2;15;3;4;20;14];
  [0;0;0;0;0;0;0;0;0;1;0;0;0;0;0;12;20;7;12;23;14;21;13;20;18;0;1;17;8;22;4;3;1;25;18;7;18;2;2;26;13;16;19;20;20;19;12;4;25;10;2;6;8;19;17;28;20;24;23;12;22;7;15;22;2;6;12;25;17;5;20;22;20;0;22;24;18;23;9;21;9;5;14;14];
  [0;0;0;0;0;0;0;0;0;0;1;0;0;0;0;1;18;21;20;9;18;14;7;20;23;25;4;8;27;18;25;17;7;5;11;13;5;12;9;20;16;13;28;13;1;14;15;10;16;6;24;19;15;19;27;15;20;2;7;11;16;18;27;11;9;22;0;4;8;2;14;1;14;9;25;28;20;9;4;26;28;0;9;4];
  [0;0;0;0;0;0;0;0;0;0;0;1;0;0;0;26;3;21;5;24;4;18;23;8;22;27;17;6;4;14;14;12;11;19;23;0;9;11;27;12;22;9;28;1;25;18;11;13;9;5;24;6;9;18;5;0;14;6;21;15;6;12;5;14;1;23;8;0;3;4;6;11;1;11;13;5;19;9;16;19;22;15;27;0];
  [0;0;0;0;0;0;0;0;0;0;0;0;1;0;0;19;19;19;27;7;3;9;8;12;12;25;10;24;0;7;19;28;9;12;13;26;6;4;20;24;2;18;23;4;18;21;1;0;1;27;0;10;16;18;6;17;25;15;23;24;12;11;9;8;21;12;14;5;8;19;4;12;23;25;18;16;22;22;18;3;11;1;21;10];
  [0;0;0;0;0;0;0;0;0;0;0;0;0;1;0;27;21;12;16;20;15;3;24;9;25;13;15;0;24;0;1;13;23;6;1;18;20;24;9;7;26;16;28;15;15;10;15;3;25;26;25;2;19;2;22;24;5;20;5;22;10;26;10;6;20;1;8;6;0;14;16;1;23;17;5;11;7;4;13;1;21;22;25;18];
  [0;0;0;0;0;0;0;0;0;0;0;0;0;0;1;27;14;25;23;25;8;5;3;5;4;6;7;27;21;11;5;5;8;22;25;28;20;23;11;1;22;11;19;28;11;9;12;1;19;24;18;16;14;5;2;3;7;25;24;10;26;1;7;16;18;17;18;20;13;24;10;27;14;5;28;0;13;6;20;11;9;3;18;22]]%Z.
Definition s6_brs : list nat := [17;18;6;1;2;0;3;4;29;7;9;5;8;16;19].
Definition s6_bcs : list nat := [11;5;10;0;6;3;7;8;2;1;9;4;12;13;14].
Definition s6_rs : list nat := [0;1;5;18;19;20;29;15;16;2;8;35;3;84;78;90;40;54;85;12;63;79;80;82;83;81;91;7;6;21;22;24;65;53;86;64;88;66;51;52;92;87;89;41;70;37;55;72;38;39;42;13;9;11;14;31;23;10;17;4;25;34;28;27;26;33;30;36;32;47;43;46;45;56;76;58;59;73;60;74;44;68;50;49;57;48;61;62;67;69;71;75;77].
Definition s6_cs : list N := [36;35;9;3;4;5;2;0;1;6;10;8;7;78;72;84;51;44;79;34;37;73;74;76;77;75;85;33;15;30;21;26;39;43;80;38;82;40;41;42;86;88;87;52;45;48;46;47;49;50;53;16;11;13;17;19;23;12;18;25;27;29;14;20;22;24;32;28;31;58;54;57;56;69;59;81;61;90;67;91;65;63;64;83;60;89;68;55;66;71;62;70;92]%N.
Definition s6_ers : list nat := [156;155;152;146;136;121;100;93;99;154;153;98;140;149;94;106;97;126;101;122;137;147;151;145;135;120;95;107;130;134;150;118;143;133;111;115;0;119;144;148;5;127;125;141;116;28;131;27;29;30;123;31;32;102;138;139;96;105;112;103;104;108;124;142;132;128;117;129;113;110;114;109;35;8;2;3;54;40;63;12;1;6;7;22;21;84;46;69;41;65;64;66;67;68;78;37;39;13;38;42;70;11;72;55;14;79;4;20;36;16;26;17;9;15;10;25;33;19;23;24;18;47;81;80;82;43;83;56;71;34;61;73;60;49;58;45;77;57;88;74;59;48;90;53;89;85;62;44;50;51;52;91;75;87;76;86].
Definition s6_ecs : list N := [155;152;146;136;121;100;93;36;71;154;153;70;140;149;66;84;69;126;101;122;137;147;151;145;135;99;67;85;130;134;150;97;143;133;111;115;35;98;119;148;9;127;125;141;116;1;95;0;2;3;123;4;5;102;138;139;68;105;90;103;104;86;124;142;132;128;96;129;113;110;114;109;8;10;6;7;44;51;37;34;33;15;21;26;30;78;57;43;52;39;38;40;41;42;72;48;50;16;49;53;45;13;47;46;17;73;11;23;12;19;29;31;20;14;18;22;24;28;25;27;32;58;75;74;76;54;77;56;55;65;61;63;60;59;62;64;87;80;79;83;88;81;82;89;107;118;131;91;92;94;106;112;108;117;120;144]%N.
