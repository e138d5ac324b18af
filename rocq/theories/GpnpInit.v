(** Generated by tools/gen_gb.py from src/absolute_pose/modules/gpnp1 ...
    gpnp5, init.cpp: the coefficient matrices as functions of the particular
    solution, the null space vectors and the world control points.
    Definitions only. *)
From Coq Require Import Reals List.
From Verif Require Import Lin GbModel.
Import ListNotations.
Local Open Scope R_scope.

(** gpnp1::init, src/absolute_pose/modules/gpnp1/init.cpp 36-61. *)
Definition g1_cells (a n : nat -> R) (c0 c1 c2 c3 : vec3) : list (nat * nat * R) :=
  let c01w := norm (vsub c0 c1) * norm (vsub c0 c1) in
  let c02w := norm (vsub c0 c2) * norm (vsub c0 c2) in
  let c03w := norm (vsub c0 c3) * norm (vsub c0 c3) in
  [ (0%nat, 0%nat, - 2 * n 0%nat * n 3%nat - 2 * n 1%nat * n 4%nat - 2 * n 2%nat * n 5%nat + n 0%nat ^ 2 + n 3%nat ^ 2 + n 1%nat ^ 2 + n 4%nat ^ 2 + n 2%nat ^ 2 + n 5%nat ^ 2);
    (0%nat, 1%nat, 2 * a 0%nat * n 0%nat - 2 * a 0%nat * n 3%nat - 2 * n 0%nat * a 3%nat + 2 * a 3%nat * n 3%nat + 2 * a 1%nat * n 1%nat - 2 * a 1%nat * n 4%nat - 2 * n 1%nat * a 4%nat + 2 * a 4%nat * n 4%nat + 2 * a 2%nat * n 2%nat - 2 * a 2%nat * n 5%nat - 2 * n 2%nat * a 5%nat + 2 * a 5%nat * n 5%nat);
    (0%nat, 2%nat, - c01w + a 0%nat ^ 2 - 2 * a 0%nat * a 3%nat + a 3%nat ^ 2 + a 1%nat ^ 2 - 2 * a 1%nat * a 4%nat + a 4%nat ^ 2 + a 2%nat ^ 2 - 2 * a 2%nat * a 5%nat + a 5%nat ^ 2);
    (1%nat, 0%nat, - 2 * n 0%nat * n 6%nat - 2 * n 1%nat * n 7%nat - 2 * n 2%nat * n 8%nat + n 0%nat ^ 2 + n 1%nat ^ 2 + n 2%nat ^ 2 + n 6%nat ^ 2 + n 7%nat ^ 2 + n 8%nat ^ 2);
    (1%nat, 1%nat, 2 * a 0%nat * n 0%nat + 2 * a 1%nat * n 1%nat + 2 * a 2%nat * n 2%nat - 2 * a 0%nat * n 6%nat - 2 * n 0%nat * a 6%nat + 2 * a 6%nat * n 6%nat - 2 * a 1%nat * n 7%nat - 2 * n 1%nat * a 7%nat + 2 * a 7%nat * n 7%nat - 2 * a 2%nat * n 8%nat - 2 * n 2%nat * a 8%nat + 2 * a 8%nat * n 8%nat);
    (1%nat, 2%nat, - c02w + a 0%nat ^ 2 + a 1%nat ^ 2 + a 2%nat ^ 2 - 2 * a 0%nat * a 6%nat + a 6%nat ^ 2 - 2 * a 1%nat * a 7%nat + a 7%nat ^ 2 - 2 * a 2%nat * a 8%nat + a 8%nat ^ 2);
    (2%nat, 0%nat, - 2 * n 0%nat * n 9%nat - 2 * n 1%nat * n 10%nat - 2 * n 2%nat * n 11%nat + n 0%nat ^ 2 + n 1%nat ^ 2 + n 2%nat ^ 2 + n 9%nat ^ 2 + n 10%nat ^ 2 + n 11%nat ^ 2);
    (2%nat, 1%nat, 2 * a 0%nat * n 0%nat + 2 * a 1%nat * n 1%nat + 2 * a 2%nat * n 2%nat - 2 * a 0%nat * n 9%nat - 2 * n 0%nat * a 9%nat + 2 * a 9%nat * n 9%nat - 2 * a 1%nat * n 10%nat - 2 * n 1%nat * a 10%nat + 2 * a 10%nat * n 10%nat - 2 * a 2%nat * n 11%nat - 2 * n 2%nat * a 11%nat + 2 * a 11%nat * n 11%nat);
    (2%nat, 2%nat, - c03w + a 0%nat ^ 2 + a 1%nat ^ 2 + a 2%nat ^ 2 - 2 * a 0%nat * a 9%nat + a 9%nat ^ 2 - 2 * a 1%nat * a 10%nat + a 10%nat ^ 2 - 2 * a 2%nat * a 11%nat + a 11%nat ^ 2) ].
Definition g1_init (a n : nat -> R) (c0 c1 c2 c3 : vec3) : gmat := gcells (g1_cells a n c0 c1 c2 c3).

(** gpnp2::init, src/absolute_pose/modules/gpnp2/init.cpp 36-87. *)
Definition g2_cells (a n m : nat -> R) (c0 c1 c2 c3 : vec3) : list (nat * nat * R) :=
  let c01w := norm (vsub c0 c1) * norm (vsub c0 c1) in
  let c02w := norm (vsub c0 c2) * norm (vsub c0 c2) in
  let c03w := norm (vsub c0 c3) * norm (vsub c0 c3) in
  let c12w := norm (vsub c1 c2) * norm (vsub c1 c2) in
  let c13w := norm (vsub c1 c3) * norm (vsub c1 c3) in
  [ (0%nat, 0%nat, (((((((( - 2 * m 0%nat * m 3%nat - 2 * m 1%nat * m 4%nat) - 2 * m 2%nat * m 5%nat) + m 0%nat ^ 2) + m 3%nat ^ 2) + m 1%nat ^ 2) + m 4%nat ^ 2) + m 2%nat ^ 2) + m 5%nat ^ 2));
    (0%nat, 1%nat, (((((((((((2 * n 0%nat * m 0%nat - 2 * n 0%nat * m 3%nat) - 2 * m 0%nat * n 3%nat) + 2 * n 3%nat * m 3%nat) + 2 * n 1%nat * m 1%nat) - 2 * n 1%nat * m 4%nat) - 2 * m 1%nat * n 4%nat) + 2 * n 4%nat * m 4%nat) + 2 * n 2%nat * m 2%nat) - 2 * n 2%nat * m 5%nat) - 2 * m 2%nat * n 5%nat) + 2 * n 5%nat * m 5%nat));
    (0%nat, 2%nat, (((((((( - 2 * n 0%nat * n 3%nat - 2 * n 1%nat * n 4%nat) - 2 * n 2%nat * n 5%nat) + n 0%nat ^ 2) + n 3%nat ^ 2) + n 1%nat ^ 2) + n 4%nat ^ 2) + n 2%nat ^ 2) + n 5%nat ^ 2));
    (0%nat, 3%nat, (((((((((((2 * a 0%nat * m 0%nat - 2 * a 0%nat * m 3%nat) - 2 * m 0%nat * a 3%nat) + 2 * a 3%nat * m 3%nat) + 2 * a 1%nat * m 1%nat) - 2 * a 1%nat * m 4%nat) - 2 * m 1%nat * a 4%nat) + 2 * a 4%nat * m 4%nat) + 2 * a 2%nat * m 2%nat) - 2 * a 2%nat * m 5%nat) - 2 * m 2%nat * a 5%nat) + 2 * a 5%nat * m 5%nat));
    (0%nat, 4%nat, (((((((((((2 * a 0%nat * n 0%nat - 2 * a 0%nat * n 3%nat) - 2 * n 0%nat * a 3%nat) + 2 * a 3%nat * n 3%nat) + 2 * a 1%nat * n 1%nat) - 2 * a 1%nat * n 4%nat) - 2 * n 1%nat * a 4%nat) + 2 * a 4%nat * n 4%nat) + 2 * a 2%nat * n 2%nat) - 2 * a 2%nat * n 5%nat) - 2 * n 2%nat * a 5%nat) + 2 * a 5%nat * n 5%nat));
    (0%nat, 5%nat, ((((((((( - c01w + a 0%nat ^ 2) - 2 * a 0%nat * a 3%nat) + a 3%nat ^ 2) + a 1%nat ^ 2) - 2 * a 1%nat * a 4%nat) + a 4%nat ^ 2) + a 2%nat ^ 2) - 2 * a 2%nat * a 5%nat) + a 5%nat ^ 2));
    (1%nat, 0%nat, (((((((( - 2 * m 0%nat * m 6%nat - 2 * m 1%nat * m 7%nat) - 2 * m 2%nat * m 8%nat) + m 0%nat ^ 2) + m 1%nat ^ 2) + m 2%nat ^ 2) + m 6%nat ^ 2) + m 7%nat ^ 2) + m 8%nat ^ 2));
    (1%nat, 1%nat, (((((((((((2 * n 0%nat * m 0%nat + 2 * n 1%nat * m 1%nat) + 2 * n 2%nat * m 2%nat) - 2 * n 0%nat * m 6%nat) - 2 * m 0%nat * n 6%nat) + 2 * n 6%nat * m 6%nat) - 2 * n 1%nat * m 7%nat) - 2 * m 1%nat * n 7%nat) + 2 * n 7%nat * m 7%nat) - 2 * n 2%nat * m 8%nat) - 2 * m 2%nat * n 8%nat) + 2 * n 8%nat * m 8%nat));
    (1%nat, 2%nat, (((((((( - 2 * n 0%nat * n 6%nat - 2 * n 1%nat * n 7%nat) - 2 * n 2%nat * n 8%nat) + n 0%nat ^ 2) + n 1%nat ^ 2) + n 2%nat ^ 2) + n 6%nat ^ 2) + n 7%nat ^ 2) + n 8%nat ^ 2));
    (1%nat, 3%nat, (((((((((((2 * a 0%nat * m 0%nat + 2 * a 1%nat * m 1%nat) + 2 * a 2%nat * m 2%nat) - 2 * a 0%nat * m 6%nat) - 2 * m 0%nat * a 6%nat) + 2 * a 6%nat * m 6%nat) - 2 * a 1%nat * m 7%nat) - 2 * m 1%nat * a 7%nat) + 2 * a 7%nat * m 7%nat) - 2 * a 2%nat * m 8%nat) - 2 * m 2%nat * a 8%nat) + 2 * a 8%nat * m 8%nat));
    (1%nat, 4%nat, (((((((((((2 * a 0%nat * n 0%nat + 2 * a 1%nat * n 1%nat) + 2 * a 2%nat * n 2%nat) - 2 * a 0%nat * n 6%nat) - 2 * n 0%nat * a 6%nat) + 2 * a 6%nat * n 6%nat) - 2 * a 1%nat * n 7%nat) - 2 * n 1%nat * a 7%nat) + 2 * a 7%nat * n 7%nat) - 2 * a 2%nat * n 8%nat) - 2 * n 2%nat * a 8%nat) + 2 * a 8%nat * n 8%nat));
    (1%nat, 5%nat, ((((((((( - c02w + a 0%nat ^ 2) + a 1%nat ^ 2) + a 2%nat ^ 2) - 2 * a 0%nat * a 6%nat) + a 6%nat ^ 2) - 2 * a 1%nat * a 7%nat) + a 7%nat ^ 2) - 2 * a 2%nat * a 8%nat) + a 8%nat ^ 2));
    (2%nat, 0%nat, (((((((( - 2 * m 0%nat * m 9%nat - 2 * m 1%nat * m 10%nat) - 2 * m 2%nat * m 11%nat) + m 0%nat ^ 2) + m 1%nat ^ 2) + m 2%nat ^ 2) + m 9%nat ^ 2) + m 10%nat ^ 2) + m 11%nat ^ 2));
    (2%nat, 1%nat, (((((((((((2 * n 0%nat * m 0%nat + 2 * n 1%nat * m 1%nat) + 2 * n 2%nat * m 2%nat) - 2 * n 0%nat * m 9%nat) - 2 * m 0%nat * n 9%nat) + 2 * n 9%nat * m 9%nat) - 2 * n 1%nat * m 10%nat) - 2 * m 1%nat * n 10%nat) + 2 * n 10%nat * m 10%nat) - 2 * n 2%nat * m 11%nat) - 2 * m 2%nat * n 11%nat) + 2 * n 11%nat * m 11%nat));
    (2%nat, 2%nat, (((((((( - 2 * n 0%nat * n 9%nat - 2 * n 1%nat * n 10%nat) - 2 * n 2%nat * n 11%nat) + n 0%nat ^ 2) + n 1%nat ^ 2) + n 2%nat ^ 2) + n 9%nat ^ 2) + n 10%nat ^ 2) + n 11%nat ^ 2));
    (2%nat, 3%nat, (((((((((((2 * a 0%nat * m 0%nat + 2 * a 1%nat * m 1%nat) + 2 * a 2%nat * m 2%nat) - 2 * a 0%nat * m 9%nat) - 2 * m 0%nat * a 9%nat) + 2 * a 9%nat * m 9%nat) - 2 * a 1%nat * m 10%nat) - 2 * m 1%nat * a 10%nat) + 2 * a 10%nat * m 10%nat) - 2 * a 2%nat * m 11%nat) - 2 * m 2%nat * a 11%nat) + 2 * a 11%nat * m 11%nat));
    (2%nat, 4%nat, (((((((((((2 * a 0%nat * n 0%nat + 2 * a 1%nat * n 1%nat) + 2 * a 2%nat * n 2%nat) - 2 * a 0%nat * n 9%nat) - 2 * n 0%nat * a 9%nat) + 2 * a 9%nat * n 9%nat) - 2 * a 1%nat * n 10%nat) - 2 * n 1%nat * a 10%nat) + 2 * a 10%nat * n 10%nat) - 2 * a 2%nat * n 11%nat) - 2 * n 2%nat * a 11%nat) + 2 * a 11%nat * n 11%nat));
    (2%nat, 5%nat, ((((((((( - c03w + a 0%nat ^ 2) + a 1%nat ^ 2) + a 2%nat ^ 2) - 2 * a 0%nat * a 9%nat) + a 9%nat ^ 2) - 2 * a 1%nat * a 10%nat) + a 10%nat ^ 2) - 2 * a 2%nat * a 11%nat) + a 11%nat ^ 2));
    (3%nat, 0%nat, (((((((( - 2 * m 3%nat * m 6%nat - 2 * m 4%nat * m 7%nat) - 2 * m 5%nat * m 8%nat) + m 3%nat ^ 2) + m 4%nat ^ 2) + m 5%nat ^ 2) + m 6%nat ^ 2) + m 7%nat ^ 2) + m 8%nat ^ 2));
    (3%nat, 1%nat, (((((((((((2 * n 3%nat * m 3%nat + 2 * n 4%nat * m 4%nat) + 2 * n 5%nat * m 5%nat) + 2 * n 6%nat * m 6%nat) + 2 * n 7%nat * m 7%nat) + 2 * n 8%nat * m 8%nat) - 2 * n 3%nat * m 6%nat) - 2 * m 3%nat * n 6%nat) - 2 * n 4%nat * m 7%nat) - 2 * m 4%nat * n 7%nat) - 2 * n 5%nat * m 8%nat) - 2 * m 5%nat * n 8%nat));
    (3%nat, 2%nat, (((((((( - 2 * n 3%nat * n 6%nat - 2 * n 4%nat * n 7%nat) - 2 * n 5%nat * n 8%nat) + n 3%nat ^ 2) + n 4%nat ^ 2) + n 5%nat ^ 2) + n 6%nat ^ 2) + n 7%nat ^ 2) + n 8%nat ^ 2));
    (3%nat, 3%nat, (((((((((((2 * a 3%nat * m 3%nat + 2 * a 4%nat * m 4%nat) + 2 * a 5%nat * m 5%nat) + 2 * a 6%nat * m 6%nat) + 2 * a 7%nat * m 7%nat) + 2 * a 8%nat * m 8%nat) - 2 * a 3%nat * m 6%nat) - 2 * m 3%nat * a 6%nat) - 2 * a 4%nat * m 7%nat) - 2 * m 4%nat * a 7%nat) - 2 * a 5%nat * m 8%nat) - 2 * m 5%nat * a 8%nat));
    (3%nat, 4%nat, (((((((((((2 * a 3%nat * n 3%nat + 2 * a 4%nat * n 4%nat) + 2 * a 5%nat * n 5%nat) + 2 * a 6%nat * n 6%nat) + 2 * a 7%nat * n 7%nat) + 2 * a 8%nat * n 8%nat) - 2 * a 3%nat * n 6%nat) - 2 * n 3%nat * a 6%nat) - 2 * a 4%nat * n 7%nat) - 2 * n 4%nat * a 7%nat) - 2 * a 5%nat * n 8%nat) - 2 * n 5%nat * a 8%nat));
    (3%nat, 5%nat, ((((((((( - c12w + a 3%nat ^ 2) + a 4%nat ^ 2) + a 5%nat ^ 2) + a 6%nat ^ 2) + a 7%nat ^ 2) + a 8%nat ^ 2) - 2 * a 3%nat * a 6%nat) - 2 * a 4%nat * a 7%nat) - 2 * a 5%nat * a 8%nat));
    (4%nat, 0%nat, (((((((( - 2 * m 3%nat * m 9%nat - 2 * m 4%nat * m 10%nat) - 2 * m 5%nat * m 11%nat) + m 3%nat ^ 2) + m 4%nat ^ 2) + m 5%nat ^ 2) + m 9%nat ^ 2) + m 10%nat ^ 2) + m 11%nat ^ 2));
    (4%nat, 1%nat, (((((((((((2 * n 3%nat * m 3%nat + 2 * n 4%nat * m 4%nat) + 2 * n 5%nat * m 5%nat) + 2 * n 9%nat * m 9%nat) + 2 * n 10%nat * m 10%nat) + 2 * n 11%nat * m 11%nat) - 2 * n 3%nat * m 9%nat) - 2 * m 3%nat * n 9%nat) - 2 * n 4%nat * m 10%nat) - 2 * m 4%nat * n 10%nat) - 2 * n 5%nat * m 11%nat) - 2 * m 5%nat * n 11%nat));
    (4%nat, 2%nat, (((((((( - 2 * n 3%nat * n 9%nat - 2 * n 4%nat * n 10%nat) - 2 * n 5%nat * n 11%nat) + n 3%nat ^ 2) + n 4%nat ^ 2) + n 5%nat ^ 2) + n 9%nat ^ 2) + n 10%nat ^ 2) + n 11%nat ^ 2));
    (4%nat, 3%nat, (((((((((((2 * a 3%nat * m 3%nat + 2 * a 4%nat * m 4%nat) + 2 * a 5%nat * m 5%nat) + 2 * a 9%nat * m 9%nat) + 2 * a 10%nat * m 10%nat) + 2 * a 11%nat * m 11%nat) - 2 * a 3%nat * m 9%nat) - 2 * m 3%nat * a 9%nat) - 2 * a 4%nat * m 10%nat) - 2 * m 4%nat * a 10%nat) - 2 * a 5%nat * m 11%nat) - 2 * m 5%nat * a 11%nat));
    (4%nat, 4%nat, (((((((((((2 * a 3%nat * n 3%nat + 2 * a 4%nat * n 4%nat) + 2 * a 5%nat * n 5%nat) + 2 * a 9%nat * n 9%nat) + 2 * a 10%nat * n 10%nat) + 2 * a 11%nat * n 11%nat) - 2 * a 3%nat * n 9%nat) - 2 * n 3%nat * a 9%nat) - 2 * a 4%nat * n 10%nat) - 2 * n 4%nat * a 10%nat) - 2 * a 5%nat * n 11%nat) - 2 * n 5%nat * a 11%nat));
    (4%nat, 5%nat, ((((((((( - c13w + a 3%nat ^ 2) + a 4%nat ^ 2) + a 5%nat ^ 2) + a 9%nat ^ 2) + a 10%nat ^ 2) + a 11%nat ^ 2) - 2 * a 3%nat * a 9%nat) - 2 * a 4%nat * a 10%nat) - 2 * a 5%nat * a 11%nat)) ].
Definition g2_init (a n m : nat -> R) (c0 c1 c2 c3 : vec3) : gmat := gcells (g2_cells a n m c0 c1 c2 c3).

(** gpnp3::init, src/absolute_pose/modules/gpnp3/init.cpp 36-96. *)
Definition g3_cells (a n m k : nat -> R) (c0 c1 c2 c3 : vec3) : list (nat * nat * R) :=
  let c01w := norm (vsub c0 c1) * norm (vsub c0 c1) in
  let c02w := norm (vsub c0 c2) * norm (vsub c0 c2) in
  let c03w := norm (vsub c0 c3) * norm (vsub c0 c3) in
  let c12w := norm (vsub c1 c2) * norm (vsub c1 c2) in
  [ (0%nat, 8%nat, (((((((( - 2 * k 0%nat * k 3%nat - 2 * k 1%nat * k 4%nat) - 2 * k 2%nat * k 5%nat) + k 0%nat ^ 2) + k 3%nat ^ 2) + k 1%nat ^ 2) + k 4%nat ^ 2) + k 2%nat ^ 2) + k 5%nat ^ 2));
    (0%nat, 9%nat, (((((((((((2 * m 0%nat * k 0%nat - 2 * m 0%nat * k 3%nat) - 2 * k 0%nat * m 3%nat) + 2 * m 3%nat * k 3%nat) + 2 * m 1%nat * k 1%nat) - 2 * m 1%nat * k 4%nat) - 2 * k 1%nat * m 4%nat) + 2 * m 4%nat * k 4%nat) + 2 * m 2%nat * k 2%nat) - 2 * m 2%nat * k 5%nat) - 2 * k 2%nat * m 5%nat) + 2 * m 5%nat * k 5%nat));
    (0%nat, 10%nat, (((((((( - 2 * m 0%nat * m 3%nat - 2 * m 1%nat * m 4%nat) - 2 * m 2%nat * m 5%nat) + m 0%nat ^ 2) + m 3%nat ^ 2) + m 1%nat ^ 2) + m 4%nat ^ 2) + m 2%nat ^ 2) + m 5%nat ^ 2));
    (0%nat, 11%nat, (((((((((((2 * n 0%nat * k 0%nat - 2 * n 0%nat * k 3%nat) - 2 * k 0%nat * n 3%nat) + 2 * n 3%nat * k 3%nat) + 2 * n 1%nat * k 1%nat) - 2 * n 1%nat * k 4%nat) - 2 * k 1%nat * n 4%nat) + 2 * n 4%nat * k 4%nat) + 2 * n 2%nat * k 2%nat) - 2 * n 2%nat * k 5%nat) - 2 * k 2%nat * n 5%nat) + 2 * n 5%nat * k 5%nat));
    (0%nat, 12%nat, (((((((((((2 * n 0%nat * m 0%nat - 2 * n 0%nat * m 3%nat) - 2 * m 0%nat * n 3%nat) + 2 * n 3%nat * m 3%nat) + 2 * n 1%nat * m 1%nat) - 2 * n 1%nat * m 4%nat) - 2 * m 1%nat * n 4%nat) + 2 * n 4%nat * m 4%nat) + 2 * n 2%nat * m 2%nat) - 2 * n 2%nat * m 5%nat) - 2 * m 2%nat * n 5%nat) + 2 * n 5%nat * m 5%nat));
    (0%nat, 13%nat, (((((((( - 2 * n 0%nat * n 3%nat - 2 * n 1%nat * n 4%nat) - 2 * n 2%nat * n 5%nat) + n 0%nat ^ 2) + n 3%nat ^ 2) + n 1%nat ^ 2) + n 4%nat ^ 2) + n 2%nat ^ 2) + n 5%nat ^ 2));
    (0%nat, 14%nat, (((((((((((2 * a 0%nat * k 0%nat - 2 * a 0%nat * k 3%nat) - 2 * k 0%nat * a 3%nat) + 2 * a 3%nat * k 3%nat) + 2 * a 1%nat * k 1%nat) - 2 * a 1%nat * k 4%nat) - 2 * k 1%nat * a 4%nat) + 2 * a 4%nat * k 4%nat) + 2 * a 2%nat * k 2%nat) - 2 * a 2%nat * k 5%nat) - 2 * k 2%nat * a 5%nat) + 2 * a 5%nat * k 5%nat));
    (0%nat, 15%nat, (((((((((((2 * a 0%nat * m 0%nat - 2 * a 0%nat * m 3%nat) - 2 * m 0%nat * a 3%nat) + 2 * a 3%nat * m 3%nat) + 2 * a 1%nat * m 1%nat) - 2 * a 1%nat * m 4%nat) - 2 * m 1%nat * a 4%nat) + 2 * a 4%nat * m 4%nat) + 2 * a 2%nat * m 2%nat) - 2 * a 2%nat * m 5%nat) - 2 * m 2%nat * a 5%nat) + 2 * a 5%nat * m 5%nat));
    (0%nat, 16%nat, (((((((((((2 * a 0%nat * n 0%nat - 2 * a 0%nat * n 3%nat) - 2 * n 0%nat * a 3%nat) + 2 * a 3%nat * n 3%nat) + 2 * a 1%nat * n 1%nat) - 2 * a 1%nat * n 4%nat) - 2 * n 1%nat * a 4%nat) + 2 * a 4%nat * n 4%nat) + 2 * a 2%nat * n 2%nat) - 2 * a 2%nat * n 5%nat) - 2 * n 2%nat * a 5%nat) + 2 * a 5%nat * n 5%nat));
    (0%nat, 17%nat, ((((((((( - c01w + a 0%nat ^ 2) - 2 * a 0%nat * a 3%nat) + a 3%nat ^ 2) + a 1%nat ^ 2) - 2 * a 1%nat * a 4%nat) + a 4%nat ^ 2) + a 2%nat ^ 2) - 2 * a 2%nat * a 5%nat) + a 5%nat ^ 2));
    (1%nat, 8%nat, (((((((( - 2 * k 0%nat * k 6%nat - 2 * k 1%nat * k 7%nat) - 2 * k 2%nat * k 8%nat) + k 0%nat ^ 2) + k 1%nat ^ 2) + k 2%nat ^ 2) + k 6%nat ^ 2) + k 7%nat ^ 2) + k 8%nat ^ 2));
    (1%nat, 9%nat, (((((((((((2 * m 0%nat * k 0%nat + 2 * m 1%nat * k 1%nat) + 2 * m 2%nat * k 2%nat) - 2 * m 0%nat * k 6%nat) - 2 * k 0%nat * m 6%nat) + 2 * m 6%nat * k 6%nat) - 2 * m 1%nat * k 7%nat) - 2 * k 1%nat * m 7%nat) + 2 * m 7%nat * k 7%nat) - 2 * m 2%nat * k 8%nat) - 2 * k 2%nat * m 8%nat) + 2 * m 8%nat * k 8%nat));
    (1%nat, 10%nat, (((((((( - 2 * m 0%nat * m 6%nat - 2 * m 1%nat * m 7%nat) - 2 * m 2%nat * m 8%nat) + m 0%nat ^ 2) + m 1%nat ^ 2) + m 2%nat ^ 2) + m 6%nat ^ 2) + m 7%nat ^ 2) + m 8%nat ^ 2));
    (1%nat, 11%nat, (((((((((((2 * n 0%nat * k 0%nat + 2 * n 1%nat * k 1%nat) + 2 * n 2%nat * k 2%nat) - 2 * n 0%nat * k 6%nat) - 2 * k 0%nat * n 6%nat) + 2 * n 6%nat * k 6%nat) - 2 * n 1%nat * k 7%nat) - 2 * k 1%nat * n 7%nat) + 2 * n 7%nat * k 7%nat) - 2 * n 2%nat * k 8%nat) - 2 * k 2%nat * n 8%nat) + 2 * n 8%nat * k 8%nat));
    (1%nat, 12%nat, (((((((((((2 * n 0%nat * m 0%nat + 2 * n 1%nat * m 1%nat) + 2 * n 2%nat * m 2%nat) - 2 * n 0%nat * m 6%nat) - 2 * m 0%nat * n 6%nat) + 2 * n 6%nat * m 6%nat) - 2 * n 1%nat * m 7%nat) - 2 * m 1%nat * n 7%nat) + 2 * n 7%nat * m 7%nat) - 2 * n 2%nat * m 8%nat) - 2 * m 2%nat * n 8%nat) + 2 * n 8%nat * m 8%nat));
    (1%nat, 13%nat, (((((((( - 2 * n 0%nat * n 6%nat - 2 * n 1%nat * n 7%nat) - 2 * n 2%nat * n 8%nat) + n 0%nat ^ 2) + n 1%nat ^ 2) + n 2%nat ^ 2) + n 6%nat ^ 2) + n 7%nat ^ 2) + n 8%nat ^ 2));
    (1%nat, 14%nat, (((((((((((2 * a 0%nat * k 0%nat + 2 * a 1%nat * k 1%nat) + 2 * a 2%nat * k 2%nat) - 2 * a 0%nat * k 6%nat) - 2 * k 0%nat * a 6%nat) + 2 * a 6%nat * k 6%nat) - 2 * a 1%nat * k 7%nat) - 2 * k 1%nat * a 7%nat) + 2 * a 7%nat * k 7%nat) - 2 * a 2%nat * k 8%nat) - 2 * k 2%nat * a 8%nat) + 2 * a 8%nat * k 8%nat));
    (1%nat, 15%nat, (((((((((((2 * a 0%nat * m 0%nat + 2 * a 1%nat * m 1%nat) + 2 * a 2%nat * m 2%nat) - 2 * a 0%nat * m 6%nat) - 2 * m 0%nat * a 6%nat) + 2 * a 6%nat * m 6%nat) - 2 * a 1%nat * m 7%nat) - 2 * m 1%nat * a 7%nat) + 2 * a 7%nat * m 7%nat) - 2 * a 2%nat * m 8%nat) - 2 * m 2%nat * a 8%nat) + 2 * a 8%nat * m 8%nat));
    (1%nat, 16%nat, (((((((((((2 * a 0%nat * n 0%nat + 2 * a 1%nat * n 1%nat) + 2 * a 2%nat * n 2%nat) - 2 * a 0%nat * n 6%nat) - 2 * n 0%nat * a 6%nat) + 2 * a 6%nat * n 6%nat) - 2 * a 1%nat * n 7%nat) - 2 * n 1%nat * a 7%nat) + 2 * a 7%nat * n 7%nat) - 2 * a 2%nat * n 8%nat) - 2 * n 2%nat * a 8%nat) + 2 * a 8%nat * n 8%nat));
    (1%nat, 17%nat, ((((((((( - c02w + a 0%nat ^ 2) + a 1%nat ^ 2) + a 2%nat ^ 2) - 2 * a 0%nat * a 6%nat) + a 6%nat ^ 2) - 2 * a 1%nat * a 7%nat) + a 7%nat ^ 2) - 2 * a 2%nat * a 8%nat) + a 8%nat ^ 2));
    (2%nat, 8%nat, ((((((((k 0%nat ^ 2 + k 1%nat ^ 2) + k 2%nat ^ 2) + k 9%nat ^ 2) + k 10%nat ^ 2) + k 11%nat ^ 2) - 2 * k 0%nat * k 9%nat) - 2 * k 1%nat * k 10%nat) - 2 * k 2%nat * k 11%nat));
    (2%nat, 9%nat, (((((((((((2 * m 0%nat * k 0%nat + 2 * m 1%nat * k 1%nat) + 2 * m 2%nat * k 2%nat) - 2 * m 0%nat * k 9%nat) - 2 * k 0%nat * m 9%nat) + 2 * m 9%nat * k 9%nat) - 2 * m 1%nat * k 10%nat) - 2 * k 1%nat * m 10%nat) + 2 * m 10%nat * k 10%nat) - 2 * m 2%nat * k 11%nat) - 2 * k 2%nat * m 11%nat) + 2 * m 11%nat * k 11%nat));
    (2%nat, 10%nat, ((((((((m 0%nat ^ 2 + m 1%nat ^ 2) + m 2%nat ^ 2) + m 9%nat ^ 2) + m 10%nat ^ 2) + m 11%nat ^ 2) - 2 * m 0%nat * m 9%nat) - 2 * m 1%nat * m 10%nat) - 2 * m 2%nat * m 11%nat));
    (2%nat, 11%nat, (((((((((((2 * n 0%nat * k 0%nat + 2 * n 1%nat * k 1%nat) + 2 * n 2%nat * k 2%nat) - 2 * n 0%nat * k 9%nat) - 2 * k 0%nat * n 9%nat) + 2 * n 9%nat * k 9%nat) - 2 * n 1%nat * k 10%nat) - 2 * k 1%nat * n 10%nat) + 2 * n 10%nat * k 10%nat) - 2 * n 2%nat * k 11%nat) - 2 * k 2%nat * n 11%nat) + 2 * n 11%nat * k 11%nat));
    (2%nat, 12%nat, (((((((((((2 * n 0%nat * m 0%nat + 2 * n 1%nat * m 1%nat) + 2 * n 2%nat * m 2%nat) - 2 * n 0%nat * m 9%nat) - 2 * m 0%nat * n 9%nat) + 2 * n 9%nat * m 9%nat) - 2 * n 1%nat * m 10%nat) - 2 * m 1%nat * n 10%nat) + 2 * n 10%nat * m 10%nat) - 2 * n 2%nat * m 11%nat) - 2 * m 2%nat * n 11%nat) + 2 * n 11%nat * m 11%nat));
    (2%nat, 13%nat, ((((((((n 0%nat ^ 2 + n 1%nat ^ 2) + n 2%nat ^ 2) + n 9%nat ^ 2) + n 10%nat ^ 2) + n 11%nat ^ 2) - 2 * n 0%nat * n 9%nat) - 2 * n 1%nat * n 10%nat) - 2 * n 2%nat * n 11%nat));
    (2%nat, 14%nat, (((((((((((2 * a 0%nat * k 0%nat + 2 * a 1%nat * k 1%nat) + 2 * a 2%nat * k 2%nat) - 2 * a 0%nat * k 9%nat) - 2 * k 0%nat * a 9%nat) + 2 * a 9%nat * k 9%nat) - 2 * a 1%nat * k 10%nat) - 2 * k 1%nat * a 10%nat) + 2 * a 10%nat * k 10%nat) - 2 * a 2%nat * k 11%nat) - 2 * k 2%nat * a 11%nat) + 2 * a 11%nat * k 11%nat));
    (2%nat, 15%nat, (((((((((((2 * a 0%nat * m 0%nat + 2 * a 1%nat * m 1%nat) + 2 * a 2%nat * m 2%nat) - 2 * a 0%nat * m 9%nat) - 2 * m 0%nat * a 9%nat) + 2 * a 9%nat * m 9%nat) - 2 * a 1%nat * m 10%nat) - 2 * m 1%nat * a 10%nat) + 2 * a 10%nat * m 10%nat) - 2 * a 2%nat * m 11%nat) - 2 * m 2%nat * a 11%nat) + 2 * a 11%nat * m 11%nat));
    (2%nat, 16%nat, (((((((((((2 * a 0%nat * n 0%nat + 2 * a 1%nat * n 1%nat) + 2 * a 2%nat * n 2%nat) - 2 * a 0%nat * n 9%nat) - 2 * n 0%nat * a 9%nat) + 2 * a 9%nat * n 9%nat) - 2 * a 1%nat * n 10%nat) - 2 * n 1%nat * a 10%nat) + 2 * a 10%nat * n 10%nat) - 2 * a 2%nat * n 11%nat) - 2 * n 2%nat * a 11%nat) + 2 * a 11%nat * n 11%nat));
    (2%nat, 17%nat, ((((((((( - c03w + a 0%nat ^ 2) + a 1%nat ^ 2) + a 2%nat ^ 2) - 2 * a 0%nat * a 9%nat) + a 9%nat ^ 2) - 2 * a 1%nat * a 10%nat) + a 10%nat ^ 2) - 2 * a 2%nat * a 11%nat) + a 11%nat ^ 2));
    (3%nat, 8%nat, ((((((((k 3%nat ^ 2 + k 4%nat ^ 2) + k 5%nat ^ 2) + k 6%nat ^ 2) + k 7%nat ^ 2) + k 8%nat ^ 2) - 2 * k 3%nat * k 6%nat) - 2 * k 4%nat * k 7%nat) - 2 * k 5%nat * k 8%nat));
    (3%nat, 9%nat, (((((((((((2 * m 3%nat * k 3%nat + 2 * m 4%nat * k 4%nat) + 2 * m 5%nat * k 5%nat) + 2 * m 6%nat * k 6%nat) + 2 * m 7%nat * k 7%nat) + 2 * m 8%nat * k 8%nat) - 2 * m 3%nat * k 6%nat) - 2 * k 3%nat * m 6%nat) - 2 * m 4%nat * k 7%nat) - 2 * k 4%nat * m 7%nat) - 2 * m 5%nat * k 8%nat) - 2 * k 5%nat * m 8%nat));
    (3%nat, 10%nat, ((((((((m 3%nat ^ 2 + m 4%nat ^ 2) + m 5%nat ^ 2) + m 6%nat ^ 2) + m 7%nat ^ 2) + m 8%nat ^ 2) - 2 * m 3%nat * m 6%nat) - 2 * m 4%nat * m 7%nat) - 2 * m 5%nat * m 8%nat));
    (3%nat, 11%nat, (((((((((((2 * n 3%nat * k 3%nat + 2 * n 4%nat * k 4%nat) + 2 * n 5%nat * k 5%nat) + 2 * n 6%nat * k 6%nat) + 2 * n 7%nat * k 7%nat) + 2 * n 8%nat * k 8%nat) - 2 * n 3%nat * k 6%nat) - 2 * k 3%nat * n 6%nat) - 2 * n 4%nat * k 7%nat) - 2 * k 4%nat * n 7%nat) - 2 * n 5%nat * k 8%nat) - 2 * k 5%nat * n 8%nat));
    (3%nat, 12%nat, (((((((((((2 * n 3%nat * m 3%nat + 2 * n 4%nat * m 4%nat) + 2 * n 5%nat * m 5%nat) + 2 * n 6%nat * m 6%nat) + 2 * n 7%nat * m 7%nat) + 2 * n 8%nat * m 8%nat) - 2 * n 3%nat * m 6%nat) - 2 * m 3%nat * n 6%nat) - 2 * n 4%nat * m 7%nat) - 2 * m 4%nat * n 7%nat) - 2 * n 5%nat * m 8%nat) - 2 * m 5%nat * n 8%nat));
    (3%nat, 13%nat, ((((((((n 3%nat ^ 2 + n 4%nat ^ 2) + n 5%nat ^ 2) + n 6%nat ^ 2) + n 7%nat ^ 2) + n 8%nat ^ 2) - 2 * n 3%nat * n 6%nat) - 2 * n 4%nat * n 7%nat) - 2 * n 5%nat * n 8%nat));
    (3%nat, 14%nat, (((((((((((2 * a 3%nat * k 3%nat + 2 * a 4%nat * k 4%nat) + 2 * a 5%nat * k 5%nat) + 2 * a 6%nat * k 6%nat) + 2 * a 7%nat * k 7%nat) + 2 * a 8%nat * k 8%nat) - 2 * a 3%nat * k 6%nat) - 2 * k 3%nat * a 6%nat) - 2 * a 4%nat * k 7%nat) - 2 * k 4%nat * a 7%nat) - 2 * a 5%nat * k 8%nat) - 2 * k 5%nat * a 8%nat));
    (3%nat, 15%nat, (((((((((((2 * a 3%nat * m 3%nat + 2 * a 4%nat * m 4%nat) + 2 * a 5%nat * m 5%nat) + 2 * a 6%nat * m 6%nat) + 2 * a 7%nat * m 7%nat) + 2 * a 8%nat * m 8%nat) - 2 * a 3%nat * m 6%nat) - 2 * m 3%nat * a 6%nat) - 2 * a 4%nat * m 7%nat) - 2 * m 4%nat * a 7%nat) - 2 * a 5%nat * m 8%nat) - 2 * m 5%nat * a 8%nat));
    (3%nat, 16%nat, (((((((((((2 * a 3%nat * n 3%nat + 2 * a 4%nat * n 4%nat) + 2 * a 5%nat * n 5%nat) + 2 * a 6%nat * n 6%nat) + 2 * a 7%nat * n 7%nat) + 2 * a 8%nat * n 8%nat) - 2 * a 3%nat * n 6%nat) - 2 * n 3%nat * a 6%nat) - 2 * a 4%nat * n 7%nat) - 2 * n 4%nat * a 7%nat) - 2 * a 5%nat * n 8%nat) - 2 * n 5%nat * a 8%nat));
    (3%nat, 17%nat, ((((((((( - c12w + a 3%nat ^ 2) + a 4%nat ^ 2) + a 5%nat ^ 2) + a 6%nat ^ 2) + a 7%nat ^ 2) + a 8%nat ^ 2) - 2 * a 3%nat * a 6%nat) - 2 * a 4%nat * a 7%nat) - 2 * a 5%nat * a 8%nat)) ].
Definition g3_init (a n m k : nat -> R) (c0 c1 c2 c3 : vec3) : gmat := gcells (g3_cells a n m k c0 c1 c2 c3).

(** gpnp4::init, src/absolute_pose/modules/gpnp4/init.cpp 36-134. *)
Definition g4_cells (a n m k l : nat -> R) (c0 c1 c2 c3 : vec3) : list (nat * nat * R) :=
  let c01w := norm (vsub c0 c1) * norm (vsub c0 c1) in
  let c02w := norm (vsub c0 c2) * norm (vsub c0 c2) in
  let c03w := norm (vsub c0 c3) * norm (vsub c0 c3) in
  let c12w := norm (vsub c1 c2) * norm (vsub c1 c2) in
  let c13w := norm (vsub c1 c3) * norm (vsub c1 c3) in
  [ (0%nat, 22%nat, (((((((( - 2 * l 0%nat * l 3%nat - 2 * l 1%nat * l 4%nat) - 2 * l 2%nat * l 5%nat) + l 0%nat ^ 2) + l 3%nat ^ 2) + l 1%nat ^ 2) + l 4%nat ^ 2) + l 2%nat ^ 2) + l 5%nat ^ 2));
    (0%nat, 23%nat, (((((((((((2 * k 0%nat * l 0%nat - 2 * k 0%nat * l 3%nat) - 2 * l 0%nat * k 3%nat) + 2 * k 3%nat * l 3%nat) + 2 * k 1%nat * l 1%nat) - 2 * k 1%nat * l 4%nat) - 2 * l 1%nat * k 4%nat) + 2 * k 4%nat * l 4%nat) + 2 * k 2%nat * l 2%nat) - 2 * k 2%nat * l 5%nat) - 2 * l 2%nat * k 5%nat) + 2 * k 5%nat * l 5%nat));
    (0%nat, 24%nat, (((((((( - 2 * k 0%nat * k 3%nat - 2 * k 1%nat * k 4%nat) - 2 * k 2%nat * k 5%nat) + k 0%nat ^ 2) + k 3%nat ^ 2) + k 1%nat ^ 2) + k 4%nat ^ 2) + k 2%nat ^ 2) + k 5%nat ^ 2));
    (0%nat, 25%nat, (((((((((((2 * m 2%nat * l 2%nat + 2 * m 0%nat * l 0%nat) - 2 * m 0%nat * l 3%nat) - 2 * l 0%nat * m 3%nat) + 2 * m 3%nat * l 3%nat) + 2 * m 1%nat * l 1%nat) - 2 * m 1%nat * l 4%nat) - 2 * l 1%nat * m 4%nat) + 2 * m 4%nat * l 4%nat) - 2 * m 2%nat * l 5%nat) - 2 * l 2%nat * m 5%nat) + 2 * m 5%nat * l 5%nat));
    (0%nat, 26%nat, (((((((((((2 * m 2%nat * k 2%nat + 2 * m 0%nat * k 0%nat) - 2 * m 0%nat * k 3%nat) - 2 * k 0%nat * m 3%nat) + 2 * m 3%nat * k 3%nat) + 2 * m 1%nat * k 1%nat) - 2 * m 1%nat * k 4%nat) - 2 * k 1%nat * m 4%nat) + 2 * m 4%nat * k 4%nat) - 2 * m 2%nat * k 5%nat) - 2 * k 2%nat * m 5%nat) + 2 * m 5%nat * k 5%nat));
    (0%nat, 27%nat, (((((((( - 2 * m 0%nat * m 3%nat - 2 * m 1%nat * m 4%nat) - 2 * m 2%nat * m 5%nat) + m 0%nat ^ 2) + m 3%nat ^ 2) + m 1%nat ^ 2) + m 4%nat ^ 2) + m 2%nat ^ 2) + m 5%nat ^ 2));
    (0%nat, 28%nat, (((((((((((2 * n 0%nat * l 0%nat - 2 * n 0%nat * l 3%nat) - 2 * l 0%nat * n 3%nat) + 2 * n 3%nat * l 3%nat) + 2 * n 1%nat * l 1%nat) - 2 * n 1%nat * l 4%nat) - 2 * l 1%nat * n 4%nat) + 2 * n 4%nat * l 4%nat) + 2 * n 2%nat * l 2%nat) - 2 * n 2%nat * l 5%nat) - 2 * l 2%nat * n 5%nat) + 2 * n 5%nat * l 5%nat));
    (0%nat, 29%nat, (((((((((((2 * n 0%nat * k 0%nat - 2 * n 0%nat * k 3%nat) - 2 * k 0%nat * n 3%nat) + 2 * n 3%nat * k 3%nat) + 2 * n 1%nat * k 1%nat) - 2 * n 1%nat * k 4%nat) - 2 * k 1%nat * n 4%nat) + 2 * n 4%nat * k 4%nat) + 2 * n 2%nat * k 2%nat) - 2 * n 2%nat * k 5%nat) - 2 * k 2%nat * n 5%nat) + 2 * n 5%nat * k 5%nat));
    (0%nat, 30%nat, (((((((((((2 * n 0%nat * m 0%nat - 2 * n 0%nat * m 3%nat) - 2 * m 0%nat * n 3%nat) + 2 * n 3%nat * m 3%nat) + 2 * n 1%nat * m 1%nat) - 2 * n 1%nat * m 4%nat) - 2 * m 1%nat * n 4%nat) + 2 * n 4%nat * m 4%nat) + 2 * n 2%nat * m 2%nat) - 2 * n 2%nat * m 5%nat) - 2 * m 2%nat * n 5%nat) + 2 * n 5%nat * m 5%nat));
    (0%nat, 31%nat, (((((((( - 2 * n 0%nat * n 3%nat - 2 * n 1%nat * n 4%nat) - 2 * n 2%nat * n 5%nat) + n 0%nat ^ 2) + n 3%nat ^ 2) + n 1%nat ^ 2) + n 4%nat ^ 2) + n 2%nat ^ 2) + n 5%nat ^ 2));
    (0%nat, 32%nat, (((((((((((2 * a 0%nat * l 0%nat - 2 * a 0%nat * l 3%nat) - 2 * l 0%nat * a 3%nat) + 2 * a 3%nat * l 3%nat) + 2 * a 1%nat * l 1%nat) - 2 * a 1%nat * l 4%nat) - 2 * l 1%nat * a 4%nat) + 2 * a 4%nat * l 4%nat) + 2 * a 2%nat * l 2%nat) - 2 * a 2%nat * l 5%nat) - 2 * l 2%nat * a 5%nat) + 2 * a 5%nat * l 5%nat));
    (0%nat, 33%nat, (((((((((((2 * a 0%nat * k 0%nat - 2 * a 0%nat * k 3%nat) - 2 * k 0%nat * a 3%nat) + 2 * a 3%nat * k 3%nat) + 2 * a 1%nat * k 1%nat) - 2 * a 1%nat * k 4%nat) - 2 * k 1%nat * a 4%nat) + 2 * a 4%nat * k 4%nat) + 2 * a 2%nat * k 2%nat) - 2 * a 2%nat * k 5%nat) - 2 * k 2%nat * a 5%nat) + 2 * a 5%nat * k 5%nat));
    (0%nat, 34%nat, (((((((((((2 * a 0%nat * m 0%nat - 2 * a 0%nat * m 3%nat) - 2 * m 0%nat * a 3%nat) + 2 * a 3%nat * m 3%nat) + 2 * a 1%nat * m 1%nat) - 2 * a 1%nat * m 4%nat) - 2 * m 1%nat * a 4%nat) + 2 * a 4%nat * m 4%nat) + 2 * a 2%nat * m 2%nat) - 2 * a 2%nat * m 5%nat) - 2 * m 2%nat * a 5%nat) + 2 * a 5%nat * m 5%nat));
    (0%nat, 35%nat, (((((((((((2 * a 0%nat * n 0%nat - 2 * a 0%nat * n 3%nat) - 2 * n 0%nat * a 3%nat) + 2 * a 3%nat * n 3%nat) + 2 * a 1%nat * n 1%nat) - 2 * a 1%nat * n 4%nat) - 2 * n 1%nat * a 4%nat) + 2 * a 4%nat * n 4%nat) + 2 * a 2%nat * n 2%nat) - 2 * a 2%nat * n 5%nat) - 2 * n 2%nat * a 5%nat) + 2 * a 5%nat * n 5%nat));
    (0%nat, 36%nat, ((((((((( - c01w + a 0%nat ^ 2) - 2 * a 0%nat * a 3%nat) + a 3%nat ^ 2) + a 1%nat ^ 2) - 2 * a 1%nat * a 4%nat) + a 4%nat ^ 2) + a 2%nat ^ 2) - 2 * a 2%nat * a 5%nat) + a 5%nat ^ 2));
    (1%nat, 22%nat, (((((((( - 2 * l 0%nat * l 6%nat - 2 * l 1%nat * l 7%nat) - 2 * l 2%nat * l 8%nat) + l 0%nat ^ 2) + l 1%nat ^ 2) + l 2%nat ^ 2) + l 6%nat ^ 2) + l 7%nat ^ 2) + l 8%nat ^ 2));
    (1%nat, 23%nat, (((((((((((2 * k 0%nat * l 0%nat + 2 * k 1%nat * l 1%nat) + 2 * k 2%nat * l 2%nat) - 2 * k 0%nat * l 6%nat) - 2 * l 0%nat * k 6%nat) + 2 * k 6%nat * l 6%nat) - 2 * k 1%nat * l 7%nat) - 2 * l 1%nat * k 7%nat) + 2 * k 7%nat * l 7%nat) - 2 * k 2%nat * l 8%nat) - 2 * l 2%nat * k 8%nat) + 2 * k 8%nat * l 8%nat));
    (1%nat, 24%nat, (((((((( - 2 * k 0%nat * k 6%nat - 2 * k 1%nat * k 7%nat) - 2 * k 2%nat * k 8%nat) + k 0%nat ^ 2) + k 1%nat ^ 2) + k 2%nat ^ 2) + k 6%nat ^ 2) + k 7%nat ^ 2) + k 8%nat ^ 2));
    (1%nat, 25%nat, (((((((((((2 * m 2%nat * l 2%nat + 2 * m 0%nat * l 0%nat) + 2 * m 1%nat * l 1%nat) - 2 * m 0%nat * l 6%nat) - 2 * l 0%nat * m 6%nat) + 2 * m 6%nat * l 6%nat) - 2 * m 1%nat * l 7%nat) - 2 * l 1%nat * m 7%nat) + 2 * m 7%nat * l 7%nat) - 2 * m 2%nat * l 8%nat) - 2 * l 2%nat * m 8%nat) + 2 * m 8%nat * l 8%nat));
    (1%nat, 26%nat, (((((((((((2 * m 2%nat * k 2%nat + 2 * m 0%nat * k 0%nat) + 2 * m 1%nat * k 1%nat) - 2 * m 0%nat * k 6%nat) - 2 * k 0%nat * m 6%nat) + 2 * m 6%nat * k 6%nat) - 2 * m 1%nat * k 7%nat) - 2 * k 1%nat * m 7%nat) + 2 * m 7%nat * k 7%nat) - 2 * m 2%nat * k 8%nat) - 2 * k 2%nat * m 8%nat) + 2 * m 8%nat * k 8%nat));
    (1%nat, 27%nat, (((((((( - 2 * m 0%nat * m 6%nat - 2 * m 1%nat * m 7%nat) - 2 * m 2%nat * m 8%nat) + m 0%nat ^ 2) + m 1%nat ^ 2) + m 2%nat ^ 2) + m 6%nat ^ 2) + m 7%nat ^ 2) + m 8%nat ^ 2));
    (1%nat, 28%nat, (((((((((((2 * n 0%nat * l 0%nat + 2 * n 1%nat * l 1%nat) + 2 * n 2%nat * l 2%nat) - 2 * n 0%nat * l 6%nat) - 2 * l 0%nat * n 6%nat) + 2 * n 6%nat * l 6%nat) - 2 * n 1%nat * l 7%nat) - 2 * l 1%nat * n 7%nat) + 2 * n 7%nat * l 7%nat) - 2 * n 2%nat * l 8%nat) - 2 * l 2%nat * n 8%nat) + 2 * n 8%nat * l 8%nat));
    (1%nat, 29%nat, (((((((((((2 * n 0%nat * k 0%nat + 2 * n 1%nat * k 1%nat) + 2 * n 2%nat * k 2%nat) - 2 * n 0%nat * k 6%nat) - 2 * k 0%nat * n 6%nat) + 2 * n 6%nat * k 6%nat) - 2 * n 1%nat * k 7%nat) - 2 * k 1%nat * n 7%nat) + 2 * n 7%nat * k 7%nat) - 2 * n 2%nat * k 8%nat) - 2 * k 2%nat * n 8%nat) + 2 * n 8%nat * k 8%nat));
    (1%nat, 30%nat, (((((((((((2 * n 0%nat * m 0%nat + 2 * n 1%nat * m 1%nat) + 2 * n 2%nat * m 2%nat) - 2 * n 0%nat * m 6%nat) - 2 * m 0%nat * n 6%nat) + 2 * n 6%nat * m 6%nat) - 2 * n 1%nat * m 7%nat) - 2 * m 1%nat * n 7%nat) + 2 * n 7%nat * m 7%nat) - 2 * n 2%nat * m 8%nat) - 2 * m 2%nat * n 8%nat) + 2 * n 8%nat * m 8%nat));
    (1%nat, 31%nat, (((((((( - 2 * n 0%nat * n 6%nat - 2 * n 1%nat * n 7%nat) - 2 * n 2%nat * n 8%nat) + n 0%nat ^ 2) + n 1%nat ^ 2) + n 2%nat ^ 2) + n 6%nat ^ 2) + n 7%nat ^ 2) + n 8%nat ^ 2));
    (1%nat, 32%nat, ((((((((((( - 2 * a 0%nat * l 6%nat + 2 * a 0%nat * l 0%nat) + 2 * a 1%nat * l 1%nat) + 2 * a 2%nat * l 2%nat) - 2 * l 0%nat * a 6%nat) + 2 * a 6%nat * l 6%nat) - 2 * a 1%nat * l 7%nat) - 2 * l 1%nat * a 7%nat) + 2 * a 7%nat * l 7%nat) - 2 * a 2%nat * l 8%nat) - 2 * l 2%nat * a 8%nat) + 2 * a 8%nat * l 8%nat));
    (1%nat, 33%nat, ((((((((((( - 2 * a 0%nat * k 6%nat + 2 * a 0%nat * k 0%nat) + 2 * a 1%nat * k 1%nat) + 2 * a 2%nat * k 2%nat) - 2 * k 0%nat * a 6%nat) + 2 * a 6%nat * k 6%nat) - 2 * a 1%nat * k 7%nat) - 2 * k 1%nat * a 7%nat) + 2 * a 7%nat * k 7%nat) - 2 * a 2%nat * k 8%nat) - 2 * k 2%nat * a 8%nat) + 2 * a 8%nat * k 8%nat));
    (1%nat, 34%nat, ((((((((((( - 2 * a 0%nat * m 6%nat - 2 * m 0%nat * a 6%nat) + 2 * a 0%nat * m 0%nat) + 2 * a 1%nat * m 1%nat) + 2 * a 2%nat * m 2%nat) + 2 * a 6%nat * m 6%nat) - 2 * a 1%nat * m 7%nat) - 2 * m 1%nat * a 7%nat) + 2 * a 7%nat * m 7%nat) - 2 * a 2%nat * m 8%nat) - 2 * m 2%nat * a 8%nat) + 2 * a 8%nat * m 8%nat));
    (1%nat, 35%nat, ((((((((((( - 2 * a 0%nat * n 6%nat - 2 * n 0%nat * a 6%nat) + 2 * a 0%nat * n 0%nat) + 2 * a 1%nat * n 1%nat) + 2 * a 2%nat * n 2%nat) + 2 * a 6%nat * n 6%nat) - 2 * a 1%nat * n 7%nat) - 2 * n 1%nat * a 7%nat) + 2 * a 7%nat * n 7%nat) - 2 * a 2%nat * n 8%nat) - 2 * n 2%nat * a 8%nat) + 2 * a 8%nat * n 8%nat));
    (1%nat, 36%nat, ((((((((( - c02w + a 0%nat ^ 2) + a 1%nat ^ 2) + a 2%nat ^ 2) - 2 * a 0%nat * a 6%nat) + a 6%nat ^ 2) - 2 * a 1%nat * a 7%nat) + a 7%nat ^ 2) - 2 * a 2%nat * a 8%nat) + a 8%nat ^ 2));
    (2%nat, 22%nat, ((((((((l 0%nat ^ 2 + l 1%nat ^ 2) + l 2%nat ^ 2) - 2 * l 0%nat * l 9%nat) - 2 * l 1%nat * l 10%nat) - 2 * l 2%nat * l 11%nat) + l 9%nat ^ 2) + l 10%nat ^ 2) + l 11%nat ^ 2));
    (2%nat, 23%nat, (((((((((((2 * k 0%nat * l 0%nat + 2 * k 1%nat * l 1%nat) + 2 * k 2%nat * l 2%nat) - 2 * k 0%nat * l 9%nat) - 2 * l 0%nat * k 9%nat) + 2 * k 9%nat * l 9%nat) - 2 * k 1%nat * l 10%nat) - 2 * l 1%nat * k 10%nat) + 2 * k 10%nat * l 10%nat) - 2 * k 2%nat * l 11%nat) - 2 * l 2%nat * k 11%nat) + 2 * k 11%nat * l 11%nat));
    (2%nat, 24%nat, ((((((((k 0%nat ^ 2 + k 1%nat ^ 2) + k 2%nat ^ 2) - 2 * k 0%nat * k 9%nat) - 2 * k 1%nat * k 10%nat) - 2 * k 2%nat * k 11%nat) + k 9%nat ^ 2) + k 10%nat ^ 2) + k 11%nat ^ 2));
    (2%nat, 25%nat, (((((((((((2 * m 2%nat * l 2%nat + 2 * m 0%nat * l 0%nat) + 2 * m 1%nat * l 1%nat) - 2 * m 0%nat * l 9%nat) - 2 * l 0%nat * m 9%nat) + 2 * m 9%nat * l 9%nat) - 2 * m 1%nat * l 10%nat) - 2 * l 1%nat * m 10%nat) + 2 * m 10%nat * l 10%nat) - 2 * m 2%nat * l 11%nat) - 2 * l 2%nat * m 11%nat) + 2 * m 11%nat * l 11%nat));
    (2%nat, 26%nat, (((((((((((2 * m 2%nat * k 2%nat + 2 * m 0%nat * k 0%nat) + 2 * m 1%nat * k 1%nat) - 2 * m 0%nat * k 9%nat) - 2 * k 0%nat * m 9%nat) + 2 * m 9%nat * k 9%nat) - 2 * m 1%nat * k 10%nat) - 2 * k 1%nat * m 10%nat) + 2 * m 10%nat * k 10%nat) - 2 * m 2%nat * k 11%nat) - 2 * k 2%nat * m 11%nat) + 2 * m 11%nat * k 11%nat));
    (2%nat, 27%nat, ((((((((m 0%nat ^ 2 + m 1%nat ^ 2) + m 2%nat ^ 2) - 2 * m 0%nat * m 9%nat) - 2 * m 1%nat * m 10%nat) - 2 * m 2%nat * m 11%nat) + m 9%nat ^ 2) + m 10%nat ^ 2) + m 11%nat ^ 2));
    (2%nat, 28%nat, (((((((((((2 * n 0%nat * l 0%nat + 2 * n 1%nat * l 1%nat) + 2 * n 2%nat * l 2%nat) - 2 * n 0%nat * l 9%nat) - 2 * l 0%nat * n 9%nat) + 2 * n 9%nat * l 9%nat) - 2 * n 1%nat * l 10%nat) - 2 * l 1%nat * n 10%nat) + 2 * n 10%nat * l 10%nat) - 2 * n 2%nat * l 11%nat) - 2 * l 2%nat * n 11%nat) + 2 * n 11%nat * l 11%nat));
    (2%nat, 29%nat, (((((((((((2 * n 0%nat * k 0%nat + 2 * n 1%nat * k 1%nat) + 2 * n 2%nat * k 2%nat) - 2 * n 0%nat * k 9%nat) - 2 * k 0%nat * n 9%nat) + 2 * n 9%nat * k 9%nat) - 2 * n 1%nat * k 10%nat) - 2 * k 1%nat * n 10%nat) + 2 * n 10%nat * k 10%nat) - 2 * n 2%nat * k 11%nat) - 2 * k 2%nat * n 11%nat) + 2 * n 11%nat * k 11%nat));
    (2%nat, 30%nat, (((((((((((2 * n 0%nat * m 0%nat + 2 * n 1%nat * m 1%nat) + 2 * n 2%nat * m 2%nat) - 2 * n 0%nat * m 9%nat) - 2 * m 0%nat * n 9%nat) + 2 * n 9%nat * m 9%nat) - 2 * n 1%nat * m 10%nat) - 2 * m 1%nat * n 10%nat) + 2 * n 10%nat * m 10%nat) - 2 * n 2%nat * m 11%nat) - 2 * m 2%nat * n 11%nat) + 2 * n 11%nat * m 11%nat));
    (2%nat, 31%nat, ((((((((n 0%nat ^ 2 + n 1%nat ^ 2) + n 2%nat ^ 2) - 2 * n 0%nat * n 9%nat) - 2 * n 1%nat * n 10%nat) - 2 * n 2%nat * n 11%nat) + n 9%nat ^ 2) + n 10%nat ^ 2) + n 11%nat ^ 2));
    (2%nat, 32%nat, (((((((((((2 * a 0%nat * l 0%nat + 2 * a 1%nat * l 1%nat) + 2 * a 2%nat * l 2%nat) - 2 * a 0%nat * l 9%nat) - 2 * l 0%nat * a 9%nat) + 2 * a 9%nat * l 9%nat) - 2 * a 1%nat * l 10%nat) - 2 * l 1%nat * a 10%nat) + 2 * a 10%nat * l 10%nat) - 2 * a 2%nat * l 11%nat) - 2 * l 2%nat * a 11%nat) + 2 * a 11%nat * l 11%nat));
    (2%nat, 33%nat, (((((((((((2 * a 0%nat * k 0%nat + 2 * a 1%nat * k 1%nat) + 2 * a 2%nat * k 2%nat) - 2 * a 0%nat * k 9%nat) - 2 * k 0%nat * a 9%nat) + 2 * a 9%nat * k 9%nat) - 2 * a 1%nat * k 10%nat) - 2 * k 1%nat * a 10%nat) + 2 * a 10%nat * k 10%nat) - 2 * a 2%nat * k 11%nat) - 2 * k 2%nat * a 11%nat) + 2 * a 11%nat * k 11%nat));
    (2%nat, 34%nat, (((((((((((2 * a 0%nat * m 0%nat + 2 * a 1%nat * m 1%nat) + 2 * a 2%nat * m 2%nat) - 2 * a 0%nat * m 9%nat) - 2 * m 0%nat * a 9%nat) + 2 * a 9%nat * m 9%nat) - 2 * a 1%nat * m 10%nat) - 2 * m 1%nat * a 10%nat) + 2 * a 10%nat * m 10%nat) - 2 * a 2%nat * m 11%nat) - 2 * m 2%nat * a 11%nat) + 2 * a 11%nat * m 11%nat));
    (2%nat, 35%nat, (((((((((((2 * a 0%nat * n 0%nat + 2 * a 1%nat * n 1%nat) + 2 * a 2%nat * n 2%nat) - 2 * a 0%nat * n 9%nat) - 2 * n 0%nat * a 9%nat) + 2 * a 9%nat * n 9%nat) - 2 * a 1%nat * n 10%nat) - 2 * n 1%nat * a 10%nat) + 2 * a 10%nat * n 10%nat) - 2 * a 2%nat * n 11%nat) - 2 * n 2%nat * a 11%nat) + 2 * a 11%nat * n 11%nat));
    (2%nat, 36%nat, ((((((((( - c03w + a 0%nat ^ 2) + a 1%nat ^ 2) + a 2%nat ^ 2) - 2 * a 0%nat * a 9%nat) + a 9%nat ^ 2) - 2 * a 1%nat * a 10%nat) + a 10%nat ^ 2) - 2 * a 2%nat * a 11%nat) + a 11%nat ^ 2));
    (3%nat, 22%nat, ((((((((l 3%nat ^ 2 + l 4%nat ^ 2) + l 5%nat ^ 2) + l 6%nat ^ 2) + l 7%nat ^ 2) + l 8%nat ^ 2) - 2 * l 3%nat * l 6%nat) - 2 * l 4%nat * l 7%nat) - 2 * l 5%nat * l 8%nat));
    (3%nat, 23%nat, (((((((((((2 * k 3%nat * l 3%nat + 2 * k 4%nat * l 4%nat) - 2 * k 4%nat * l 7%nat) - 2 * l 4%nat * k 7%nat) + 2 * k 5%nat * l 5%nat) + 2 * k 6%nat * l 6%nat) + 2 * k 7%nat * l 7%nat) + 2 * k 8%nat * l 8%nat) - 2 * k 3%nat * l 6%nat) - 2 * l 3%nat * k 6%nat) - 2 * k 5%nat * l 8%nat) - 2 * l 5%nat * k 8%nat));
    (3%nat, 24%nat, ((((((((k 3%nat ^ 2 + k 4%nat ^ 2) + k 5%nat ^ 2) + k 6%nat ^ 2) + k 7%nat ^ 2) + k 8%nat ^ 2) - 2 * k 3%nat * k 6%nat) - 2 * k 4%nat * k 7%nat) - 2 * k 5%nat * k 8%nat));
    (3%nat, 25%nat, (((((((((((2 * m 3%nat * l 3%nat + 2 * m 4%nat * l 4%nat) - 2 * m 4%nat * l 7%nat) - 2 * l 4%nat * m 7%nat) + 2 * m 5%nat * l 5%nat) + 2 * m 6%nat * l 6%nat) + 2 * m 7%nat * l 7%nat) + 2 * m 8%nat * l 8%nat) - 2 * m 3%nat * l 6%nat) - 2 * l 3%nat * m 6%nat) - 2 * m 5%nat * l 8%nat) - 2 * l 5%nat * m 8%nat));
    (3%nat, 26%nat, (((((((((((2 * m 3%nat * k 3%nat + 2 * m 4%nat * k 4%nat) - 2 * m 4%nat * k 7%nat) - 2 * k 4%nat * m 7%nat) + 2 * m 5%nat * k 5%nat) + 2 * m 6%nat * k 6%nat) + 2 * m 7%nat * k 7%nat) + 2 * m 8%nat * k 8%nat) - 2 * m 3%nat * k 6%nat) - 2 * k 3%nat * m 6%nat) - 2 * m 5%nat * k 8%nat) - 2 * k 5%nat * m 8%nat));
    (3%nat, 27%nat, ((((((((m 3%nat ^ 2 + m 4%nat ^ 2) + m 5%nat ^ 2) + m 6%nat ^ 2) + m 7%nat ^ 2) + m 8%nat ^ 2) - 2 * m 3%nat * m 6%nat) - 2 * m 4%nat * m 7%nat) - 2 * m 5%nat * m 8%nat));
    (3%nat, 28%nat, (((((((((((2 * n 3%nat * l 3%nat + 2 * n 4%nat * l 4%nat) - 2 * l 4%nat * n 7%nat) + 2 * n 5%nat * l 5%nat) + 2 * n 6%nat * l 6%nat) + 2 * n 7%nat * l 7%nat) + 2 * n 8%nat * l 8%nat) - 2 * n 3%nat * l 6%nat) - 2 * l 3%nat * n 6%nat) - 2 * n 4%nat * l 7%nat) - 2 * n 5%nat * l 8%nat) - 2 * l 5%nat * n 8%nat));
    (3%nat, 29%nat, (((((((((((2 * n 3%nat * k 3%nat + 2 * n 4%nat * k 4%nat) - 2 * k 4%nat * n 7%nat) + 2 * n 5%nat * k 5%nat) + 2 * n 6%nat * k 6%nat) + 2 * n 7%nat * k 7%nat) + 2 * n 8%nat * k 8%nat) - 2 * n 3%nat * k 6%nat) - 2 * k 3%nat * n 6%nat) - 2 * n 4%nat * k 7%nat) - 2 * n 5%nat * k 8%nat) - 2 * k 5%nat * n 8%nat));
    (3%nat, 30%nat, (((((((((((2 * n 3%nat * m 3%nat + 2 * n 4%nat * m 4%nat) - 2 * m 4%nat * n 7%nat) + 2 * n 5%nat * m 5%nat) + 2 * n 6%nat * m 6%nat) + 2 * n 7%nat * m 7%nat) + 2 * n 8%nat * m 8%nat) - 2 * n 3%nat * m 6%nat) - 2 * m 3%nat * n 6%nat) - 2 * n 4%nat * m 7%nat) - 2 * n 5%nat * m 8%nat) - 2 * m 5%nat * n 8%nat));
    (3%nat, 31%nat, (((((((( - 2 * n 3%nat * n 6%nat + n 3%nat ^ 2) + n 4%nat ^ 2) + n 5%nat ^ 2) + n 6%nat ^ 2) + n 7%nat ^ 2) + n 8%nat ^ 2) - 2 * n 4%nat * n 7%nat) - 2 * n 5%nat * n 8%nat));
    (3%nat, 32%nat, ((((((((((( - 2 * a 3%nat * l 6%nat + 2 * a 3%nat * l 3%nat) + 2 * a 4%nat * l 4%nat) + 2 * a 5%nat * l 5%nat) + 2 * a 6%nat * l 6%nat) + 2 * a 7%nat * l 7%nat) + 2 * a 8%nat * l 8%nat) - 2 * l 3%nat * a 6%nat) - 2 * a 4%nat * l 7%nat) - 2 * l 4%nat * a 7%nat) - 2 * a 5%nat * l 8%nat) - 2 * l 5%nat * a 8%nat));
    (3%nat, 33%nat, ((((((((((( - 2 * a 3%nat * k 6%nat + 2 * a 3%nat * k 3%nat) + 2 * a 4%nat * k 4%nat) + 2 * a 5%nat * k 5%nat) + 2 * a 6%nat * k 6%nat) + 2 * a 7%nat * k 7%nat) + 2 * a 8%nat * k 8%nat) - 2 * k 3%nat * a 6%nat) - 2 * a 4%nat * k 7%nat) - 2 * k 4%nat * a 7%nat) - 2 * a 5%nat * k 8%nat) - 2 * k 5%nat * a 8%nat));
    (3%nat, 34%nat, ((((((((((( - 2 * a 3%nat * m 6%nat + 2 * a 3%nat * m 3%nat) + 2 * a 4%nat * m 4%nat) + 2 * a 5%nat * m 5%nat) + 2 * a 6%nat * m 6%nat) + 2 * a 7%nat * m 7%nat) + 2 * a 8%nat * m 8%nat) - 2 * m 3%nat * a 6%nat) - 2 * a 4%nat * m 7%nat) - 2 * m 4%nat * a 7%nat) - 2 * a 5%nat * m 8%nat) - 2 * m 5%nat * a 8%nat));
    (3%nat, 35%nat, ((((((((((( - 2 * n 3%nat * a 6%nat - 2 * a 3%nat * n 6%nat) + 2 * a 3%nat * n 3%nat) + 2 * a 4%nat * n 4%nat) + 2 * a 5%nat * n 5%nat) + 2 * a 6%nat * n 6%nat) + 2 * a 7%nat * n 7%nat) + 2 * a 8%nat * n 8%nat) - 2 * a 4%nat * n 7%nat) - 2 * n 4%nat * a 7%nat) - 2 * a 5%nat * n 8%nat) - 2 * n 5%nat * a 8%nat));
    (3%nat, 36%nat, ((((((((( - c12w + a 3%nat ^ 2) + a 4%nat ^ 2) + a 5%nat ^ 2) + a 6%nat ^ 2) + a 7%nat ^ 2) + a 8%nat ^ 2) - 2 * a 3%nat * a 6%nat) - 2 * a 4%nat * a 7%nat) - 2 * a 5%nat * a 8%nat));
    (4%nat, 22%nat, ((((((((l 3%nat ^ 2 + l 4%nat ^ 2) + l 5%nat ^ 2) - 2 * l 3%nat * l 9%nat) - 2 * l 4%nat * l 10%nat) - 2 * l 5%nat * l 11%nat) + l 9%nat ^ 2) + l 10%nat ^ 2) + l 11%nat ^ 2));
    (4%nat, 23%nat, (((((((((((2 * k 3%nat * l 3%nat + 2 * k 4%nat * l 4%nat) + 2 * k 5%nat * l 5%nat) + 2 * k 9%nat * l 9%nat) + 2 * k 10%nat * l 10%nat) + 2 * k 11%nat * l 11%nat) - 2 * k 3%nat * l 9%nat) - 2 * l 3%nat * k 9%nat) - 2 * k 4%nat * l 10%nat) - 2 * l 4%nat * k 10%nat) - 2 * k 5%nat * l 11%nat) - 2 * l 5%nat * k 11%nat));
    (4%nat, 24%nat, ((((((((k 3%nat ^ 2 + k 4%nat ^ 2) + k 5%nat ^ 2) - 2 * k 3%nat * k 9%nat) - 2 * k 4%nat * k 10%nat) - 2 * k 5%nat * k 11%nat) + k 9%nat ^ 2) + k 10%nat ^ 2) + k 11%nat ^ 2));
    (4%nat, 25%nat, (((((((((((2 * m 3%nat * l 3%nat + 2 * m 4%nat * l 4%nat) + 2 * m 5%nat * l 5%nat) + 2 * m 9%nat * l 9%nat) + 2 * m 10%nat * l 10%nat) + 2 * m 11%nat * l 11%nat) - 2 * m 3%nat * l 9%nat) - 2 * l 3%nat * m 9%nat) - 2 * m 4%nat * l 10%nat) - 2 * l 4%nat * m 10%nat) - 2 * m 5%nat * l 11%nat) - 2 * l 5%nat * m 11%nat));
    (4%nat, 26%nat, (((((((((((2 * m 3%nat * k 3%nat + 2 * m 4%nat * k 4%nat) + 2 * m 5%nat * k 5%nat) + 2 * m 9%nat * k 9%nat) + 2 * m 10%nat * k 10%nat) + 2 * m 11%nat * k 11%nat) - 2 * m 3%nat * k 9%nat) - 2 * k 3%nat * m 9%nat) - 2 * m 4%nat * k 10%nat) - 2 * k 4%nat * m 10%nat) - 2 * m 5%nat * k 11%nat) - 2 * k 5%nat * m 11%nat));
    (4%nat, 27%nat, ((((((((m 3%nat ^ 2 + m 4%nat ^ 2) + m 5%nat ^ 2) - 2 * m 3%nat * m 9%nat) - 2 * m 4%nat * m 10%nat) - 2 * m 5%nat * m 11%nat) + m 9%nat ^ 2) + m 10%nat ^ 2) + m 11%nat ^ 2));
    (4%nat, 28%nat, (((((((((((2 * n 3%nat * l 3%nat + 2 * n 4%nat * l 4%nat) + 2 * n 5%nat * l 5%nat) + 2 * n 9%nat * l 9%nat) + 2 * n 10%nat * l 10%nat) + 2 * n 11%nat * l 11%nat) - 2 * n 3%nat * l 9%nat) - 2 * l 3%nat * n 9%nat) - 2 * n 4%nat * l 10%nat) - 2 * l 4%nat * n 10%nat) - 2 * n 5%nat * l 11%nat) - 2 * l 5%nat * n 11%nat));
    (4%nat, 29%nat, (((((((((((2 * n 3%nat * k 3%nat + 2 * n 4%nat * k 4%nat) + 2 * n 5%nat * k 5%nat) + 2 * n 9%nat * k 9%nat) + 2 * n 10%nat * k 10%nat) + 2 * n 11%nat * k 11%nat) - 2 * n 3%nat * k 9%nat) - 2 * k 3%nat * n 9%nat) - 2 * n 4%nat * k 10%nat) - 2 * k 4%nat * n 10%nat) - 2 * n 5%nat * k 11%nat) - 2 * k 5%nat * n 11%nat));
    (4%nat, 30%nat, (((((((((((2 * n 3%nat * m 3%nat + 2 * n 4%nat * m 4%nat) + 2 * n 5%nat * m 5%nat) + 2 * n 9%nat * m 9%nat) + 2 * n 10%nat * m 10%nat) + 2 * n 11%nat * m 11%nat) - 2 * n 3%nat * m 9%nat) - 2 * m 3%nat * n 9%nat) - 2 * n 4%nat * m 10%nat) - 2 * m 4%nat * n 10%nat) - 2 * n 5%nat * m 11%nat) - 2 * m 5%nat * n 11%nat));
    (4%nat, 31%nat, ((((((((n 3%nat ^ 2 + n 4%nat ^ 2) + n 5%nat ^ 2) - 2 * n 3%nat * n 9%nat) - 2 * n 4%nat * n 10%nat) - 2 * n 5%nat * n 11%nat) + n 9%nat ^ 2) + n 10%nat ^ 2) + n 11%nat ^ 2));
    (4%nat, 32%nat, (((((((((((2 * a 3%nat * l 3%nat + 2 * a 4%nat * l 4%nat) + 2 * a 5%nat * l 5%nat) + 2 * a 9%nat * l 9%nat) + 2 * a 10%nat * l 10%nat) + 2 * a 11%nat * l 11%nat) - 2 * a 3%nat * l 9%nat) - 2 * l 3%nat * a 9%nat) - 2 * a 4%nat * l 10%nat) - 2 * l 4%nat * a 10%nat) - 2 * a 5%nat * l 11%nat) - 2 * l 5%nat * a 11%nat));
    (4%nat, 33%nat, (((((((((((2 * a 3%nat * k 3%nat + 2 * a 4%nat * k 4%nat) + 2 * a 5%nat * k 5%nat) + 2 * a 9%nat * k 9%nat) + 2 * a 10%nat * k 10%nat) + 2 * a 11%nat * k 11%nat) - 2 * a 3%nat * k 9%nat) - 2 * k 3%nat * a 9%nat) - 2 * a 4%nat * k 10%nat) - 2 * k 4%nat * a 10%nat) - 2 * a 5%nat * k 11%nat) - 2 * k 5%nat * a 11%nat));
    (4%nat, 34%nat, (((((((((((2 * a 3%nat * m 3%nat + 2 * a 4%nat * m 4%nat) + 2 * a 5%nat * m 5%nat) + 2 * a 9%nat * m 9%nat) + 2 * a 10%nat * m 10%nat) + 2 * a 11%nat * m 11%nat) - 2 * a 3%nat * m 9%nat) - 2 * m 3%nat * a 9%nat) - 2 * a 4%nat * m 10%nat) - 2 * m 4%nat * a 10%nat) - 2 * a 5%nat * m 11%nat) - 2 * m 5%nat * a 11%nat));
    (4%nat, 35%nat, (((((((((((2 * a 3%nat * n 3%nat + 2 * a 4%nat * n 4%nat) + 2 * a 5%nat * n 5%nat) + 2 * a 9%nat * n 9%nat) + 2 * a 10%nat * n 10%nat) + 2 * a 11%nat * n 11%nat) - 2 * a 3%nat * n 9%nat) - 2 * n 3%nat * a 9%nat) - 2 * a 4%nat * n 10%nat) - 2 * n 4%nat * a 10%nat) - 2 * a 5%nat * n 11%nat) - 2 * n 5%nat * a 11%nat));
    (4%nat, 36%nat, ((((((((( - c13w + a 3%nat ^ 2) + a 4%nat ^ 2) + a 5%nat ^ 2) + a 9%nat ^ 2) + a 10%nat ^ 2) + a 11%nat ^ 2) - 2 * a 3%nat * a 9%nat) - 2 * a 4%nat * a 10%nat) - 2 * a 5%nat * a 11%nat)) ].
Definition g4_init (a n m k l : nat -> R) (c0 c1 c2 c3 : vec3) : gmat := gcells (g4_cells a n m k l c0 c1 c2 c3).

(** gpnp5::init, src/absolute_pose/modules/gpnp5/init.cpp 36-188. *)
Definition g5_cells (a n m k l p : nat -> R) (c0 c1 c2 c3 : vec3) : list (nat * nat * R) :=
  let c01w := norm (vsub c0 c1) * norm (vsub c0 c1) in
  let c02w := norm (vsub c0 c2) * norm (vsub c0 c2) in
  let c03w := norm (vsub c0 c3) * norm (vsub c0 c3) in
  let c12w := norm (vsub c1 c2) * norm (vsub c1 c2) in
  let c13w := norm (vsub c1 c3) * norm (vsub c1 c3) in
  let c23w := norm (vsub c2 c3) * norm (vsub c2 c3) in
  [ (0%nat, 59%nat, (((((((( - 2 * p 0%nat * p 3%nat + p 1%nat ^ 2) + p 4%nat ^ 2) + p 2%nat ^ 2) + p 5%nat ^ 2) + p 0%nat ^ 2) + p 3%nat ^ 2) - 2 * p 1%nat * p 4%nat) - 2 * p 2%nat * p 5%nat));
    (0%nat, 60%nat, (((((((((((2 * l 1%nat * p 1%nat - 2 * l 1%nat * p 4%nat) - 2 * p 1%nat * l 4%nat) + 2 * l 4%nat * p 4%nat) + 2 * l 2%nat * p 2%nat) - 2 * l 2%nat * p 5%nat) - 2 * p 2%nat * l 5%nat) + 2 * l 5%nat * p 5%nat) + 2 * l 0%nat * p 0%nat) - 2 * l 0%nat * p 3%nat) - 2 * p 0%nat * l 3%nat) + 2 * l 3%nat * p 3%nat));
    (0%nat, 61%nat, (((((((( - 2 * l 0%nat * l 3%nat + l 1%nat ^ 2) + l 4%nat ^ 2) + l 2%nat ^ 2) + l 5%nat ^ 2) + l 0%nat ^ 2) + l 3%nat ^ 2) - 2 * l 1%nat * l 4%nat) - 2 * l 2%nat * l 5%nat));
    (0%nat, 62%nat, (((((((((((2 * k 1%nat * p 1%nat - 2 * k 1%nat * p 4%nat) - 2 * p 1%nat * k 4%nat) + 2 * k 4%nat * p 4%nat) + 2 * k 2%nat * p 2%nat) - 2 * k 2%nat * p 5%nat) - 2 * p 2%nat * k 5%nat) + 2 * k 5%nat * p 5%nat) + 2 * k 0%nat * p 0%nat) - 2 * k 0%nat * p 3%nat) - 2 * p 0%nat * k 3%nat) + 2 * k 3%nat * p 3%nat));
    (0%nat, 63%nat, (((((((((((2 * k 1%nat * l 1%nat - 2 * k 1%nat * l 4%nat) - 2 * l 1%nat * k 4%nat) + 2 * k 4%nat * l 4%nat) + 2 * k 2%nat * l 2%nat) - 2 * k 2%nat * l 5%nat) - 2 * l 2%nat * k 5%nat) + 2 * k 5%nat * l 5%nat) + 2 * k 0%nat * l 0%nat) - 2 * k 0%nat * l 3%nat) - 2 * l 0%nat * k 3%nat) + 2 * k 3%nat * l 3%nat));
    (0%nat, 64%nat, (((((((( - 2 * k 0%nat * k 3%nat + k 1%nat ^ 2) + k 4%nat ^ 2) + k 2%nat ^ 2) + k 5%nat ^ 2) + k 0%nat ^ 2) + k 3%nat ^ 2) - 2 * k 1%nat * k 4%nat) - 2 * k 2%nat * k 5%nat));
    (0%nat, 65%nat, (((((((((((2 * m 1%nat * p 1%nat - 2 * m 1%nat * p 4%nat) - 2 * p 1%nat * m 4%nat) + 2 * m 4%nat * p 4%nat) + 2 * m 2%nat * p 2%nat) - 2 * m 2%nat * p 5%nat) - 2 * p 2%nat * m 5%nat) + 2 * m 5%nat * p 5%nat) + 2 * m 0%nat * p 0%nat) - 2 * m 0%nat * p 3%nat) - 2 * p 0%nat * m 3%nat) + 2 * m 3%nat * p 3%nat));
    (0%nat, 66%nat, (((((((((((2 * m 1%nat * l 1%nat - 2 * m 1%nat * l 4%nat) - 2 * l 1%nat * m 4%nat) + 2 * m 4%nat * l 4%nat) + 2 * m 2%nat * l 2%nat) - 2 * m 2%nat * l 5%nat) - 2 * l 2%nat * m 5%nat) + 2 * m 5%nat * l 5%nat) + 2 * m 0%nat * l 0%nat) - 2 * m 0%nat * l 3%nat) - 2 * l 0%nat * m 3%nat) + 2 * m 3%nat * l 3%nat));
    (0%nat, 67%nat, (((((((((((2 * m 1%nat * k 1%nat - 2 * m 1%nat * k 4%nat) - 2 * k 1%nat * m 4%nat) + 2 * m 4%nat * k 4%nat) + 2 * m 2%nat * k 2%nat) - 2 * m 2%nat * k 5%nat) - 2 * k 2%nat * m 5%nat) + 2 * m 5%nat * k 5%nat) + 2 * m 0%nat * k 0%nat) - 2 * m 0%nat * k 3%nat) - 2 * k 0%nat * m 3%nat) + 2 * m 3%nat * k 3%nat));
    (0%nat, 68%nat, (((((((( - 2 * m 0%nat * m 3%nat + m 1%nat ^ 2) + m 4%nat ^ 2) + m 2%nat ^ 2) + m 5%nat ^ 2) + m 0%nat ^ 2) + m 3%nat ^ 2) - 2 * m 1%nat * m 4%nat) - 2 * m 2%nat * m 5%nat));
    (0%nat, 69%nat, ((((((((((( - 2 * p 1%nat * n 4%nat + 2 * n 4%nat * p 4%nat) + 2 * n 2%nat * p 2%nat) - 2 * n 2%nat * p 5%nat) - 2 * p 2%nat * n 5%nat) + 2 * n 5%nat * p 5%nat) + 2 * n 0%nat * p 0%nat) - 2 * n 0%nat * p 3%nat) - 2 * p 0%nat * n 3%nat) + 2 * n 3%nat * p 3%nat) + 2 * n 1%nat * p 1%nat) - 2 * n 1%nat * p 4%nat));
    (0%nat, 70%nat, ((((((((((( - 2 * l 1%nat * n 4%nat + 2 * n 4%nat * l 4%nat) + 2 * n 2%nat * l 2%nat) - 2 * n 2%nat * l 5%nat) - 2 * l 2%nat * n 5%nat) + 2 * n 5%nat * l 5%nat) + 2 * n 0%nat * l 0%nat) - 2 * n 0%nat * l 3%nat) - 2 * l 0%nat * n 3%nat) + 2 * n 3%nat * l 3%nat) + 2 * n 1%nat * l 1%nat) - 2 * n 1%nat * l 4%nat));
    (0%nat, 71%nat, ((((((((((( - 2 * k 1%nat * n 4%nat + 2 * n 4%nat * k 4%nat) + 2 * n 2%nat * k 2%nat) - 2 * n 2%nat * k 5%nat) - 2 * k 2%nat * n 5%nat) + 2 * n 5%nat * k 5%nat) + 2 * n 0%nat * k 0%nat) - 2 * n 0%nat * k 3%nat) - 2 * k 0%nat * n 3%nat) + 2 * n 3%nat * k 3%nat) + 2 * n 1%nat * k 1%nat) - 2 * n 1%nat * k 4%nat));
    (0%nat, 72%nat, ((((((((((( - 2 * m 1%nat * n 4%nat + 2 * n 4%nat * m 4%nat) + 2 * n 2%nat * m 2%nat) - 2 * n 2%nat * m 5%nat) - 2 * m 2%nat * n 5%nat) + 2 * n 5%nat * m 5%nat) + 2 * n 0%nat * m 0%nat) - 2 * n 0%nat * m 3%nat) - 2 * m 0%nat * n 3%nat) + 2 * n 3%nat * m 3%nat) + 2 * n 1%nat * m 1%nat) - 2 * n 1%nat * m 4%nat));
    (0%nat, 73%nat, (((((((( - 2 * n 0%nat * n 3%nat + n 1%nat ^ 2) + n 4%nat ^ 2) + n 2%nat ^ 2) + n 5%nat ^ 2) + n 0%nat ^ 2) + n 3%nat ^ 2) - 2 * n 1%nat * n 4%nat) - 2 * n 2%nat * n 5%nat));
    (0%nat, 74%nat, (((((((((((2 * a 0%nat * p 0%nat - 2 * a 0%nat * p 3%nat) - 2 * p 0%nat * a 3%nat) + 2 * a 3%nat * p 3%nat) + 2 * a 1%nat * p 1%nat) - 2 * a 1%nat * p 4%nat) - 2 * p 1%nat * a 4%nat) + 2 * a 4%nat * p 4%nat) + 2 * a 2%nat * p 2%nat) - 2 * a 2%nat * p 5%nat) - 2 * p 2%nat * a 5%nat) + 2 * a 5%nat * p 5%nat));
    (0%nat, 75%nat, (((((((((((2 * a 0%nat * l 0%nat - 2 * a 0%nat * l 3%nat) - 2 * l 0%nat * a 3%nat) + 2 * a 3%nat * l 3%nat) + 2 * a 1%nat * l 1%nat) - 2 * a 1%nat * l 4%nat) - 2 * l 1%nat * a 4%nat) + 2 * a 4%nat * l 4%nat) + 2 * a 2%nat * l 2%nat) - 2 * a 2%nat * l 5%nat) - 2 * l 2%nat * a 5%nat) + 2 * a 5%nat * l 5%nat));
    (0%nat, 76%nat, (((((((((((2 * a 0%nat * k 0%nat - 2 * a 0%nat * k 3%nat) - 2 * k 0%nat * a 3%nat) + 2 * a 3%nat * k 3%nat) + 2 * a 1%nat * k 1%nat) - 2 * a 1%nat * k 4%nat) - 2 * k 1%nat * a 4%nat) + 2 * a 4%nat * k 4%nat) + 2 * a 2%nat * k 2%nat) - 2 * a 2%nat * k 5%nat) - 2 * k 2%nat * a 5%nat) + 2 * a 5%nat * k 5%nat));
    (0%nat, 77%nat, (((((((((((2 * a 0%nat * m 0%nat - 2 * a 0%nat * m 3%nat) - 2 * m 0%nat * a 3%nat) + 2 * a 3%nat * m 3%nat) + 2 * a 1%nat * m 1%nat) - 2 * a 1%nat * m 4%nat) - 2 * m 1%nat * a 4%nat) + 2 * a 4%nat * m 4%nat) + 2 * a 2%nat * m 2%nat) - 2 * a 2%nat * m 5%nat) - 2 * m 2%nat * a 5%nat) + 2 * a 5%nat * m 5%nat));
    (0%nat, 78%nat, (((((((((((2 * a 0%nat * n 0%nat - 2 * a 0%nat * n 3%nat) - 2 * n 0%nat * a 3%nat) + 2 * a 3%nat * n 3%nat) + 2 * a 1%nat * n 1%nat) - 2 * a 1%nat * n 4%nat) - 2 * n 1%nat * a 4%nat) + 2 * a 4%nat * n 4%nat) + 2 * a 2%nat * n 2%nat) - 2 * a 2%nat * n 5%nat) - 2 * n 2%nat * a 5%nat) + 2 * a 5%nat * n 5%nat));
    (0%nat, 79%nat, ((((((((( - c01w + a 4%nat ^ 2) + a 2%nat ^ 2) - 2 * a 2%nat * a 5%nat) + a 5%nat ^ 2) + a 0%nat ^ 2) - 2 * a 0%nat * a 3%nat) + a 3%nat ^ 2) + a 1%nat ^ 2) - 2 * a 1%nat * a 4%nat));
    (1%nat, 59%nat, ((((((((p 1%nat ^ 2 + p 2%nat ^ 2) + p 6%nat ^ 2) + p 7%nat ^ 2) + p 8%nat ^ 2) + p 0%nat ^ 2) - 2 * p 0%nat * p 6%nat) - 2 * p 1%nat * p 7%nat) - 2 * p 2%nat * p 8%nat));
    (1%nat, 60%nat, (((((((((((2 * l 1%nat * p 1%nat + 2 * l 2%nat * p 2%nat) - 2 * l 0%nat * p 6%nat) - 2 * p 0%nat * l 6%nat) + 2 * l 6%nat * p 6%nat) - 2 * l 1%nat * p 7%nat) - 2 * p 1%nat * l 7%nat) + 2 * l 7%nat * p 7%nat) - 2 * l 2%nat * p 8%nat) - 2 * p 2%nat * l 8%nat) + 2 * l 8%nat * p 8%nat) + 2 * l 0%nat * p 0%nat));
    (1%nat, 61%nat, ((((((((l 1%nat ^ 2 + l 2%nat ^ 2) + l 6%nat ^ 2) + l 7%nat ^ 2) + l 8%nat ^ 2) + l 0%nat ^ 2) - 2 * l 0%nat * l 6%nat) - 2 * l 1%nat * l 7%nat) - 2 * l 2%nat * l 8%nat));
    (1%nat, 62%nat, (((((((((((2 * k 1%nat * p 1%nat + 2 * k 2%nat * p 2%nat) - 2 * k 0%nat * p 6%nat) - 2 * p 0%nat * k 6%nat) + 2 * k 6%nat * p 6%nat) - 2 * k 1%nat * p 7%nat) - 2 * p 1%nat * k 7%nat) + 2 * k 7%nat * p 7%nat) - 2 * k 2%nat * p 8%nat) - 2 * p 2%nat * k 8%nat) + 2 * k 8%nat * p 8%nat) + 2 * k 0%nat * p 0%nat));
    (1%nat, 63%nat, (((((((((((2 * k 1%nat * l 1%nat + 2 * k 2%nat * l 2%nat) - 2 * k 0%nat * l 6%nat) - 2 * l 0%nat * k 6%nat) + 2 * k 6%nat * l 6%nat) - 2 * k 1%nat * l 7%nat) - 2 * l 1%nat * k 7%nat) + 2 * k 7%nat * l 7%nat) - 2 * k 2%nat * l 8%nat) - 2 * l 2%nat * k 8%nat) + 2 * k 8%nat * l 8%nat) + 2 * k 0%nat * l 0%nat));
    (1%nat, 64%nat, ((((((((k 1%nat ^ 2 + k 2%nat ^ 2) + k 6%nat ^ 2) + k 7%nat ^ 2) + k 8%nat ^ 2) + k 0%nat ^ 2) - 2 * k 0%nat * k 6%nat) - 2 * k 1%nat * k 7%nat) - 2 * k 2%nat * k 8%nat));
    (1%nat, 65%nat, (((((((((((2 * m 1%nat * p 1%nat + 2 * m 2%nat * p 2%nat) - 2 * m 0%nat * p 6%nat) - 2 * p 0%nat * m 6%nat) + 2 * m 6%nat * p 6%nat) - 2 * m 1%nat * p 7%nat) - 2 * p 1%nat * m 7%nat) + 2 * m 7%nat * p 7%nat) - 2 * m 2%nat * p 8%nat) - 2 * p 2%nat * m 8%nat) + 2 * m 8%nat * p 8%nat) + 2 * m 0%nat * p 0%nat));
    (1%nat, 66%nat, (((((((((((2 * m 1%nat * l 1%nat + 2 * m 2%nat * l 2%nat) - 2 * m 0%nat * l 6%nat) - 2 * l 0%nat * m 6%nat) + 2 * m 6%nat * l 6%nat) - 2 * m 1%nat * l 7%nat) - 2 * l 1%nat * m 7%nat) + 2 * m 7%nat * l 7%nat) - 2 * m 2%nat * l 8%nat) - 2 * l 2%nat * m 8%nat) + 2 * m 8%nat * l 8%nat) + 2 * m 0%nat * l 0%nat));
    (1%nat, 67%nat, (((((((((((2 * m 1%nat * k 1%nat + 2 * m 2%nat * k 2%nat) - 2 * m 0%nat * k 6%nat) - 2 * k 0%nat * m 6%nat) + 2 * m 6%nat * k 6%nat) - 2 * m 1%nat * k 7%nat) - 2 * k 1%nat * m 7%nat) + 2 * m 7%nat * k 7%nat) - 2 * m 2%nat * k 8%nat) - 2 * k 2%nat * m 8%nat) + 2 * m 8%nat * k 8%nat) + 2 * m 0%nat * k 0%nat));
    (1%nat, 68%nat, ((((((((m 1%nat ^ 2 + m 2%nat ^ 2) + m 6%nat ^ 2) + m 7%nat ^ 2) + m 8%nat ^ 2) + m 0%nat ^ 2) - 2 * m 0%nat * m 6%nat) - 2 * m 1%nat * m 7%nat) - 2 * m 2%nat * m 8%nat));
    (1%nat, 69%nat, (((((((((((2 * n 2%nat * p 2%nat - 2 * n 0%nat * p 6%nat) - 2 * p 0%nat * n 6%nat) + 2 * n 6%nat * p 6%nat) - 2 * n 1%nat * p 7%nat) - 2 * p 1%nat * n 7%nat) + 2 * n 7%nat * p 7%nat) - 2 * n 2%nat * p 8%nat) - 2 * p 2%nat * n 8%nat) + 2 * n 8%nat * p 8%nat) + 2 * n 0%nat * p 0%nat) + 2 * n 1%nat * p 1%nat));
    (1%nat, 70%nat, (((((((((((2 * n 2%nat * l 2%nat - 2 * n 0%nat * l 6%nat) - 2 * l 0%nat * n 6%nat) + 2 * n 6%nat * l 6%nat) - 2 * n 1%nat * l 7%nat) - 2 * l 1%nat * n 7%nat) + 2 * n 7%nat * l 7%nat) - 2 * n 2%nat * l 8%nat) - 2 * l 2%nat * n 8%nat) + 2 * n 8%nat * l 8%nat) + 2 * n 0%nat * l 0%nat) + 2 * n 1%nat * l 1%nat));
    (1%nat, 71%nat, (((((((((((2 * n 2%nat * k 2%nat - 2 * n 0%nat * k 6%nat) - 2 * k 0%nat * n 6%nat) + 2 * n 6%nat * k 6%nat) - 2 * n 1%nat * k 7%nat) - 2 * k 1%nat * n 7%nat) + 2 * n 7%nat * k 7%nat) - 2 * n 2%nat * k 8%nat) - 2 * k 2%nat * n 8%nat) + 2 * n 8%nat * k 8%nat) + 2 * n 0%nat * k 0%nat) + 2 * n 1%nat * k 1%nat));
    (1%nat, 72%nat, (((((((((((2 * n 2%nat * m 2%nat - 2 * n 0%nat * m 6%nat) - 2 * m 0%nat * n 6%nat) + 2 * n 6%nat * m 6%nat) - 2 * n 1%nat * m 7%nat) - 2 * m 1%nat * n 7%nat) + 2 * n 7%nat * m 7%nat) - 2 * n 2%nat * m 8%nat) - 2 * m 2%nat * n 8%nat) + 2 * n 8%nat * m 8%nat) + 2 * n 0%nat * m 0%nat) + 2 * n 1%nat * m 1%nat));
    (1%nat, 73%nat, ((((((((n 1%nat ^ 2 + n 2%nat ^ 2) + n 6%nat ^ 2) + n 7%nat ^ 2) + n 8%nat ^ 2) + n 0%nat ^ 2) - 2 * n 0%nat * n 6%nat) - 2 * n 1%nat * n 7%nat) - 2 * n 2%nat * n 8%nat));
    (1%nat, 74%nat, ((((((((((( - 2 * a 0%nat * p 6%nat + 2 * a 0%nat * p 0%nat) + 2 * a 1%nat * p 1%nat) + 2 * a 2%nat * p 2%nat) - 2 * p 0%nat * a 6%nat) + 2 * a 6%nat * p 6%nat) - 2 * a 1%nat * p 7%nat) - 2 * p 1%nat * a 7%nat) + 2 * a 7%nat * p 7%nat) - 2 * a 2%nat * p 8%nat) - 2 * p 2%nat * a 8%nat) + 2 * a 8%nat * p 8%nat));
    (1%nat, 75%nat, (((((((((((2 * a 0%nat * l 0%nat + 2 * a 1%nat * l 1%nat) + 2 * a 2%nat * l 2%nat) - 2 * l 0%nat * a 6%nat) + 2 * a 6%nat * l 6%nat) - 2 * a 1%nat * l 7%nat) - 2 * l 1%nat * a 7%nat) + 2 * a 7%nat * l 7%nat) - 2 * a 2%nat * l 8%nat) - 2 * l 2%nat * a 8%nat) + 2 * a 8%nat * l 8%nat) - 2 * a 0%nat * l 6%nat));
    (1%nat, 76%nat, ((((((((((( - 2 * a 0%nat * k 6%nat + 2 * a 0%nat * k 0%nat) + 2 * a 1%nat * k 1%nat) + 2 * a 2%nat * k 2%nat) - 2 * k 0%nat * a 6%nat) + 2 * a 6%nat * k 6%nat) - 2 * a 1%nat * k 7%nat) - 2 * k 1%nat * a 7%nat) + 2 * a 7%nat * k 7%nat) - 2 * a 2%nat * k 8%nat) - 2 * k 2%nat * a 8%nat) + 2 * a 8%nat * k 8%nat));
    (1%nat, 77%nat, (((((((((((2 * a 0%nat * m 0%nat + 2 * a 1%nat * m 1%nat) + 2 * a 2%nat * m 2%nat) - 2 * m 0%nat * a 6%nat) + 2 * a 6%nat * m 6%nat) - 2 * a 1%nat * m 7%nat) - 2 * m 1%nat * a 7%nat) + 2 * a 7%nat * m 7%nat) - 2 * a 2%nat * m 8%nat) - 2 * m 2%nat * a 8%nat) + 2 * a 8%nat * m 8%nat) - 2 * a 0%nat * m 6%nat));
    (1%nat, 78%nat, (((((((((((2 * a 0%nat * n 0%nat + 2 * a 1%nat * n 1%nat) + 2 * a 2%nat * n 2%nat) - 2 * n 0%nat * a 6%nat) + 2 * a 6%nat * n 6%nat) - 2 * a 1%nat * n 7%nat) - 2 * n 1%nat * a 7%nat) + 2 * a 7%nat * n 7%nat) - 2 * a 2%nat * n 8%nat) - 2 * n 2%nat * a 8%nat) + 2 * a 8%nat * n 8%nat) - 2 * a 0%nat * n 6%nat));
    (1%nat, 79%nat, ((((((((( - c02w + a 2%nat ^ 2) - 2 * a 0%nat * a 6%nat) + a 6%nat ^ 2) - 2 * a 1%nat * a 7%nat) + a 7%nat ^ 2) - 2 * a 2%nat * a 8%nat) + a 8%nat ^ 2) + a 0%nat ^ 2) + a 1%nat ^ 2));
    (2%nat, 59%nat, ((((((((p 1%nat ^ 2 + p 2%nat ^ 2) + p 9%nat ^ 2) + p 10%nat ^ 2) + p 11%nat ^ 2) + p 0%nat ^ 2) - 2 * p 0%nat * p 9%nat) - 2 * p 1%nat * p 10%nat) - 2 * p 2%nat * p 11%nat));
    (2%nat, 60%nat, (((((((((((2 * l 1%nat * p 1%nat + 2 * l 2%nat * p 2%nat) - 2 * l 0%nat * p 9%nat) - 2 * p 0%nat * l 9%nat) + 2 * l 9%nat * p 9%nat) - 2 * l 1%nat * p 10%nat) - 2 * p 1%nat * l 10%nat) + 2 * l 10%nat * p 10%nat) - 2 * l 2%nat * p 11%nat) - 2 * p 2%nat * l 11%nat) + 2 * l 11%nat * p 11%nat) + 2 * l 0%nat * p 0%nat));
    (2%nat, 61%nat, ((((((((l 1%nat ^ 2 + l 2%nat ^ 2) + l 9%nat ^ 2) + l 10%nat ^ 2) + l 11%nat ^ 2) + l 0%nat ^ 2) - 2 * l 0%nat * l 9%nat) - 2 * l 1%nat * l 10%nat) - 2 * l 2%nat * l 11%nat));
    (2%nat, 62%nat, (((((((((((2 * k 1%nat * p 1%nat + 2 * k 2%nat * p 2%nat) - 2 * k 0%nat * p 9%nat) - 2 * p 0%nat * k 9%nat) + 2 * k 9%nat * p 9%nat) - 2 * k 1%nat * p 10%nat) - 2 * p 1%nat * k 10%nat) + 2 * k 10%nat * p 10%nat) - 2 * k 2%nat * p 11%nat) - 2 * p 2%nat * k 11%nat) + 2 * k 11%nat * p 11%nat) + 2 * k 0%nat * p 0%nat));
    (2%nat, 63%nat, (((((((((((2 * k 1%nat * l 1%nat + 2 * k 2%nat * l 2%nat) - 2 * k 0%nat * l 9%nat) - 2 * l 0%nat * k 9%nat) + 2 * k 9%nat * l 9%nat) - 2 * k 1%nat * l 10%nat) - 2 * l 1%nat * k 10%nat) + 2 * k 10%nat * l 10%nat) - 2 * k 2%nat * l 11%nat) - 2 * l 2%nat * k 11%nat) + 2 * k 11%nat * l 11%nat) + 2 * k 0%nat * l 0%nat));
    (2%nat, 64%nat, (((((((( - 2 * k 0%nat * k 9%nat + k 1%nat ^ 2) + k 2%nat ^ 2) + k 9%nat ^ 2) + k 10%nat ^ 2) + k 11%nat ^ 2) + k 0%nat ^ 2) - 2 * k 1%nat * k 10%nat) - 2 * k 2%nat * k 11%nat));
    (2%nat, 65%nat, ((((((((((( - 2 * m 0%nat * p 9%nat + 2 * m 1%nat * p 1%nat) + 2 * m 2%nat * p 2%nat) - 2 * p 0%nat * m 9%nat) + 2 * m 9%nat * p 9%nat) - 2 * m 1%nat * p 10%nat) - 2 * p 1%nat * m 10%nat) + 2 * m 10%nat * p 10%nat) - 2 * m 2%nat * p 11%nat) - 2 * p 2%nat * m 11%nat) + 2 * m 11%nat * p 11%nat) + 2 * m 0%nat * p 0%nat));
    (2%nat, 66%nat, ((((((((((( - 2 * m 0%nat * l 9%nat + 2 * m 1%nat * l 1%nat) + 2 * m 2%nat * l 2%nat) - 2 * l 0%nat * m 9%nat) + 2 * m 9%nat * l 9%nat) - 2 * m 1%nat * l 10%nat) - 2 * l 1%nat * m 10%nat) + 2 * m 10%nat * l 10%nat) - 2 * m 2%nat * l 11%nat) - 2 * l 2%nat * m 11%nat) + 2 * m 11%nat * l 11%nat) + 2 * m 0%nat * l 0%nat));
    (2%nat, 67%nat, ((((((((((( - 2 * m 0%nat * k 9%nat + 2 * m 1%nat * k 1%nat) + 2 * m 2%nat * k 2%nat) - 2 * k 0%nat * m 9%nat) + 2 * m 9%nat * k 9%nat) - 2 * m 1%nat * k 10%nat) - 2 * k 1%nat * m 10%nat) + 2 * m 10%nat * k 10%nat) - 2 * m 2%nat * k 11%nat) - 2 * k 2%nat * m 11%nat) + 2 * m 11%nat * k 11%nat) + 2 * m 0%nat * k 0%nat));
    (2%nat, 68%nat, ((((((((m 1%nat ^ 2 + m 2%nat ^ 2) + m 9%nat ^ 2) + m 10%nat ^ 2) + m 11%nat ^ 2) + m 0%nat ^ 2) - 2 * m 1%nat * m 10%nat) - 2 * m 2%nat * m 11%nat) - 2 * m 0%nat * m 9%nat));
    (2%nat, 69%nat, ((((((((((( - 2 * n 0%nat * p 9%nat + 2 * n 2%nat * p 2%nat) - 2 * p 0%nat * n 9%nat) + 2 * n 9%nat * p 9%nat) - 2 * n 1%nat * p 10%nat) - 2 * p 1%nat * n 10%nat) + 2 * n 10%nat * p 10%nat) - 2 * n 2%nat * p 11%nat) - 2 * p 2%nat * n 11%nat) + 2 * n 11%nat * p 11%nat) + 2 * n 0%nat * p 0%nat) + 2 * n 1%nat * p 1%nat));
    (2%nat, 70%nat, ((((((((((( - 2 * n 0%nat * l 9%nat + 2 * n 2%nat * l 2%nat) - 2 * l 0%nat * n 9%nat) + 2 * n 9%nat * l 9%nat) - 2 * n 1%nat * l 10%nat) - 2 * l 1%nat * n 10%nat) + 2 * n 10%nat * l 10%nat) - 2 * n 2%nat * l 11%nat) - 2 * l 2%nat * n 11%nat) + 2 * n 11%nat * l 11%nat) + 2 * n 0%nat * l 0%nat) + 2 * n 1%nat * l 1%nat));
    (2%nat, 71%nat, ((((((((((( - 2 * n 0%nat * k 9%nat + 2 * n 2%nat * k 2%nat) - 2 * k 0%nat * n 9%nat) + 2 * n 9%nat * k 9%nat) - 2 * n 1%nat * k 10%nat) - 2 * k 1%nat * n 10%nat) + 2 * n 10%nat * k 10%nat) - 2 * n 2%nat * k 11%nat) - 2 * k 2%nat * n 11%nat) + 2 * n 11%nat * k 11%nat) + 2 * n 0%nat * k 0%nat) + 2 * n 1%nat * k 1%nat));
    (2%nat, 72%nat, ((((((((((( - 2 * n 0%nat * m 9%nat - 2 * m 0%nat * n 9%nat) + 2 * n 2%nat * m 2%nat) + 2 * n 9%nat * m 9%nat) - 2 * n 1%nat * m 10%nat) - 2 * m 1%nat * n 10%nat) + 2 * n 10%nat * m 10%nat) - 2 * n 2%nat * m 11%nat) - 2 * m 2%nat * n 11%nat) + 2 * n 11%nat * m 11%nat) + 2 * n 0%nat * m 0%nat) + 2 * n 1%nat * m 1%nat));
    (2%nat, 73%nat, ((((((((n 1%nat ^ 2 + n 2%nat ^ 2) + n 9%nat ^ 2) + n 10%nat ^ 2) + n 11%nat ^ 2) + n 0%nat ^ 2) - 2 * n 1%nat * n 10%nat) - 2 * n 2%nat * n 11%nat) - 2 * n 0%nat * n 9%nat));
    (2%nat, 74%nat, ((((((((((( - 2 * a 0%nat * p 9%nat + 2 * a 0%nat * p 0%nat) + 2 * a 1%nat * p 1%nat) + 2 * a 2%nat * p 2%nat) - 2 * p 0%nat * a 9%nat) + 2 * a 9%nat * p 9%nat) - 2 * a 1%nat * p 10%nat) - 2 * p 1%nat * a 10%nat) + 2 * a 10%nat * p 10%nat) - 2 * a 2%nat * p 11%nat) - 2 * p 2%nat * a 11%nat) + 2 * a 11%nat * p 11%nat));
    (2%nat, 75%nat, ((((((((((( - 2 * a 0%nat * l 9%nat + 2 * a 0%nat * l 0%nat) + 2 * a 1%nat * l 1%nat) + 2 * a 2%nat * l 2%nat) - 2 * l 0%nat * a 9%nat) + 2 * a 9%nat * l 9%nat) - 2 * a 1%nat * l 10%nat) - 2 * l 1%nat * a 10%nat) + 2 * a 10%nat * l 10%nat) - 2 * a 2%nat * l 11%nat) - 2 * l 2%nat * a 11%nat) + 2 * a 11%nat * l 11%nat));
    (2%nat, 76%nat, (((((((((((2 * a 0%nat * k 0%nat + 2 * a 1%nat * k 1%nat) + 2 * a 2%nat * k 2%nat) + 2 * a 9%nat * k 9%nat) - 2 * a 1%nat * k 10%nat) - 2 * k 1%nat * a 10%nat) + 2 * a 10%nat * k 10%nat) - 2 * a 2%nat * k 11%nat) - 2 * k 2%nat * a 11%nat) + 2 * a 11%nat * k 11%nat) - 2 * k 0%nat * a 9%nat) - 2 * a 0%nat * k 9%nat));
    (2%nat, 77%nat, (((((((((((2 * a 0%nat * m 0%nat + 2 * a 1%nat * m 1%nat) + 2 * a 2%nat * m 2%nat) + 2 * a 9%nat * m 9%nat) - 2 * a 1%nat * m 10%nat) - 2 * m 1%nat * a 10%nat) + 2 * a 10%nat * m 10%nat) - 2 * a 2%nat * m 11%nat) - 2 * m 2%nat * a 11%nat) + 2 * a 11%nat * m 11%nat) - 2 * m 0%nat * a 9%nat) - 2 * a 0%nat * m 9%nat));
    (2%nat, 78%nat, ((((((((((( - 2 * a 0%nat * n 9%nat + 2 * a 0%nat * n 0%nat) + 2 * a 1%nat * n 1%nat) + 2 * a 2%nat * n 2%nat) + 2 * a 9%nat * n 9%nat) - 2 * a 1%nat * n 10%nat) - 2 * n 1%nat * a 10%nat) + 2 * a 10%nat * n 10%nat) - 2 * a 2%nat * n 11%nat) - 2 * n 2%nat * a 11%nat) + 2 * a 11%nat * n 11%nat) - 2 * n 0%nat * a 9%nat));
    (2%nat, 79%nat, ((((((((( - c03w + a 2%nat ^ 2) - 2 * a 0%nat * a 9%nat) + a 9%nat ^ 2) - 2 * a 1%nat * a 10%nat) + a 10%nat ^ 2) - 2 * a 2%nat * a 11%nat) + a 11%nat ^ 2) + a 0%nat ^ 2) + a 1%nat ^ 2));
    (3%nat, 59%nat, ((((((((p 4%nat ^ 2 + p 5%nat ^ 2) + p 6%nat ^ 2) + p 7%nat ^ 2) + p 8%nat ^ 2) + p 3%nat ^ 2) - 2 * p 3%nat * p 6%nat) - 2 * p 4%nat * p 7%nat) - 2 * p 5%nat * p 8%nat));
    (3%nat, 60%nat, (((((((((((2 * l 4%nat * p 4%nat + 2 * l 5%nat * p 5%nat) + 2 * l 6%nat * p 6%nat) + 2 * l 7%nat * p 7%nat) + 2 * l 8%nat * p 8%nat) - 2 * l 4%nat * p 7%nat) - 2 * p 4%nat * l 7%nat) - 2 * l 3%nat * p 6%nat) - 2 * p 3%nat * l 6%nat) - 2 * l 5%nat * p 8%nat) - 2 * p 5%nat * l 8%nat) + 2 * l 3%nat * p 3%nat));
    (3%nat, 61%nat, ((((((((l 4%nat ^ 2 + l 5%nat ^ 2) + l 6%nat ^ 2) + l 7%nat ^ 2) + l 8%nat ^ 2) + l 3%nat ^ 2) - 2 * l 3%nat * l 6%nat) - 2 * l 4%nat * l 7%nat) - 2 * l 5%nat * l 8%nat));
    (3%nat, 62%nat, (((((((((((2 * k 4%nat * p 4%nat + 2 * k 5%nat * p 5%nat) + 2 * k 6%nat * p 6%nat) + 2 * k 7%nat * p 7%nat) + 2 * k 8%nat * p 8%nat) - 2 * k 5%nat * p 8%nat) - 2 * k 4%nat * p 7%nat) - 2 * p 4%nat * k 7%nat) - 2 * k 3%nat * p 6%nat) - 2 * p 3%nat * k 6%nat) - 2 * p 5%nat * k 8%nat) + 2 * k 3%nat * p 3%nat));
    (3%nat, 63%nat, (((((((((((2 * k 4%nat * l 4%nat + 2 * k 5%nat * l 5%nat) + 2 * k 6%nat * l 6%nat) + 2 * k 7%nat * l 7%nat) + 2 * k 8%nat * l 8%nat) - 2 * k 5%nat * l 8%nat) - 2 * k 4%nat * l 7%nat) - 2 * l 4%nat * k 7%nat) - 2 * k 3%nat * l 6%nat) - 2 * l 3%nat * k 6%nat) - 2 * l 5%nat * k 8%nat) + 2 * k 3%nat * l 3%nat));
    (3%nat, 64%nat, ((((((((k 4%nat ^ 2 + k 5%nat ^ 2) + k 6%nat ^ 2) + k 7%nat ^ 2) + k 8%nat ^ 2) + k 3%nat ^ 2) - 2 * k 5%nat * k 8%nat) - 2 * k 3%nat * k 6%nat) - 2 * k 4%nat * k 7%nat));
    (3%nat, 65%nat, (((((((((((2 * m 4%nat * p 4%nat + 2 * m 5%nat * p 5%nat) + 2 * m 6%nat * p 6%nat) + 2 * m 7%nat * p 7%nat) + 2 * m 8%nat * p 8%nat) - 2 * m 4%nat * p 7%nat) - 2 * p 4%nat * m 7%nat) - 2 * m 5%nat * p 8%nat) - 2 * m 3%nat * p 6%nat) - 2 * p 3%nat * m 6%nat) - 2 * p 5%nat * m 8%nat) + 2 * m 3%nat * p 3%nat));
    (3%nat, 66%nat, (((((((((((2 * m 4%nat * l 4%nat + 2 * m 5%nat * l 5%nat) + 2 * m 6%nat * l 6%nat) + 2 * m 7%nat * l 7%nat) + 2 * m 8%nat * l 8%nat) - 2 * m 4%nat * l 7%nat) - 2 * l 4%nat * m 7%nat) - 2 * m 5%nat * l 8%nat) - 2 * m 3%nat * l 6%nat) - 2 * l 3%nat * m 6%nat) - 2 * l 5%nat * m 8%nat) + 2 * m 3%nat * l 3%nat));
    (3%nat, 67%nat, (((((((((((2 * m 4%nat * k 4%nat + 2 * m 5%nat * k 5%nat) + 2 * m 6%nat * k 6%nat) + 2 * m 7%nat * k 7%nat) + 2 * m 8%nat * k 8%nat) - 2 * k 5%nat * m 8%nat) - 2 * m 4%nat * k 7%nat) - 2 * k 4%nat * m 7%nat) - 2 * m 5%nat * k 8%nat) - 2 * m 3%nat * k 6%nat) - 2 * k 3%nat * m 6%nat) + 2 * m 3%nat * k 3%nat));
    (3%nat, 68%nat, ((((((((m 4%nat ^ 2 + m 5%nat ^ 2) + m 6%nat ^ 2) + m 7%nat ^ 2) + m 8%nat ^ 2) + m 3%nat ^ 2) - 2 * m 3%nat * m 6%nat) - 2 * m 4%nat * m 7%nat) - 2 * m 5%nat * m 8%nat));
    (3%nat, 69%nat, (((((((((((2 * n 4%nat * p 4%nat + 2 * n 5%nat * p 5%nat) + 2 * n 6%nat * p 6%nat) + 2 * n 7%nat * p 7%nat) + 2 * n 8%nat * p 8%nat) - 2 * p 4%nat * n 7%nat) - 2 * n 5%nat * p 8%nat) - 2 * n 3%nat * p 6%nat) - 2 * p 3%nat * n 6%nat) - 2 * n 4%nat * p 7%nat) - 2 * p 5%nat * n 8%nat) + 2 * n 3%nat * p 3%nat));
    (3%nat, 70%nat, (((((((((((2 * n 4%nat * l 4%nat + 2 * n 5%nat * l 5%nat) + 2 * n 6%nat * l 6%nat) + 2 * n 7%nat * l 7%nat) + 2 * n 8%nat * l 8%nat) - 2 * l 4%nat * n 7%nat) - 2 * n 5%nat * l 8%nat) - 2 * n 3%nat * l 6%nat) - 2 * l 3%nat * n 6%nat) - 2 * n 4%nat * l 7%nat) - 2 * l 5%nat * n 8%nat) + 2 * n 3%nat * l 3%nat));
    (3%nat, 71%nat, (((((((((((2 * n 4%nat * k 4%nat + 2 * n 5%nat * k 5%nat) + 2 * n 6%nat * k 6%nat) + 2 * n 7%nat * k 7%nat) + 2 * n 8%nat * k 8%nat) - 2 * k 5%nat * n 8%nat) - 2 * k 4%nat * n 7%nat) - 2 * n 5%nat * k 8%nat) - 2 * n 3%nat * k 6%nat) - 2 * k 3%nat * n 6%nat) - 2 * n 4%nat * k 7%nat) + 2 * n 3%nat * k 3%nat));
    (3%nat, 72%nat, (((((((((((2 * n 4%nat * m 4%nat + 2 * n 5%nat * m 5%nat) + 2 * n 6%nat * m 6%nat) + 2 * n 7%nat * m 7%nat) + 2 * n 8%nat * m 8%nat) - 2 * m 4%nat * n 7%nat) - 2 * n 5%nat * m 8%nat) - 2 * m 5%nat * n 8%nat) - 2 * n 3%nat * m 6%nat) - 2 * m 3%nat * n 6%nat) - 2 * n 4%nat * m 7%nat) + 2 * n 3%nat * m 3%nat));
    (3%nat, 73%nat, ((((((((n 4%nat ^ 2 + n 5%nat ^ 2) + n 6%nat ^ 2) + n 7%nat ^ 2) + n 8%nat ^ 2) + n 3%nat ^ 2) - 2 * n 3%nat * n 6%nat) - 2 * n 4%nat * n 7%nat) - 2 * n 5%nat * n 8%nat));
    (3%nat, 74%nat, ((((((((((( - 2 * a 3%nat * p 6%nat + 2 * a 3%nat * p 3%nat) + 2 * a 4%nat * p 4%nat) + 2 * a 5%nat * p 5%nat) + 2 * a 6%nat * p 6%nat) + 2 * a 7%nat * p 7%nat) + 2 * a 8%nat * p 8%nat) - 2 * p 3%nat * a 6%nat) - 2 * a 4%nat * p 7%nat) - 2 * p 4%nat * a 7%nat) - 2 * a 5%nat * p 8%nat) - 2 * p 5%nat * a 8%nat));
    (3%nat, 75%nat, (((((((((((2 * a 3%nat * l 3%nat + 2 * a 4%nat * l 4%nat) + 2 * a 5%nat * l 5%nat) + 2 * a 6%nat * l 6%nat) + 2 * a 7%nat * l 7%nat) + 2 * a 8%nat * l 8%nat) - 2 * l 3%nat * a 6%nat) - 2 * a 4%nat * l 7%nat) - 2 * l 4%nat * a 7%nat) - 2 * a 5%nat * l 8%nat) - 2 * l 5%nat * a 8%nat) - 2 * a 3%nat * l 6%nat));
    (3%nat, 76%nat, (((((((((((2 * a 3%nat * k 3%nat - 2 * k 5%nat * a 8%nat) + 2 * a 4%nat * k 4%nat) + 2 * a 5%nat * k 5%nat) + 2 * a 6%nat * k 6%nat) + 2 * a 7%nat * k 7%nat) + 2 * a 8%nat * k 8%nat) - 2 * k 3%nat * a 6%nat) - 2 * a 4%nat * k 7%nat) - 2 * k 4%nat * a 7%nat) - 2 * a 5%nat * k 8%nat) - 2 * a 3%nat * k 6%nat));
    (3%nat, 77%nat, (((((((((((2 * a 3%nat * m 3%nat + 2 * a 4%nat * m 4%nat) + 2 * a 5%nat * m 5%nat) + 2 * a 6%nat * m 6%nat) + 2 * a 7%nat * m 7%nat) + 2 * a 8%nat * m 8%nat) - 2 * m 3%nat * a 6%nat) - 2 * a 4%nat * m 7%nat) - 2 * m 4%nat * a 7%nat) - 2 * a 5%nat * m 8%nat) - 2 * m 5%nat * a 8%nat) - 2 * a 3%nat * m 6%nat));
    (3%nat, 78%nat, (((((((((((2 * a 3%nat * n 3%nat + 2 * a 4%nat * n 4%nat) + 2 * a 5%nat * n 5%nat) + 2 * a 6%nat * n 6%nat) + 2 * a 7%nat * n 7%nat) + 2 * a 8%nat * n 8%nat) - 2 * n 3%nat * a 6%nat) - 2 * a 4%nat * n 7%nat) - 2 * n 4%nat * a 7%nat) - 2 * a 5%nat * n 8%nat) - 2 * n 5%nat * a 8%nat) - 2 * a 3%nat * n 6%nat));
    (3%nat, 79%nat, ((((((((( - c12w + a 4%nat ^ 2) + a 5%nat ^ 2) + a 6%nat ^ 2) + a 7%nat ^ 2) + a 8%nat ^ 2) - 2 * a 3%nat * a 6%nat) - 2 * a 4%nat * a 7%nat) + a 3%nat ^ 2) - 2 * a 5%nat * a 8%nat));
    (4%nat, 59%nat, ((((((((p 4%nat ^ 2 + p 5%nat ^ 2) + p 9%nat ^ 2) + p 10%nat ^ 2) + p 11%nat ^ 2) + p 3%nat ^ 2) - 2 * p 3%nat * p 9%nat) - 2 * p 4%nat * p 10%nat) - 2 * p 5%nat * p 11%nat));
    (4%nat, 60%nat, (((((((((((2 * l 4%nat * p 4%nat + 2 * l 5%nat * p 5%nat) + 2 * l 9%nat * p 9%nat) + 2 * l 10%nat * p 10%nat) + 2 * l 11%nat * p 11%nat) - 2 * l 3%nat * p 9%nat) - 2 * p 3%nat * l 9%nat) - 2 * l 4%nat * p 10%nat) - 2 * p 4%nat * l 10%nat) - 2 * l 5%nat * p 11%nat) - 2 * p 5%nat * l 11%nat) + 2 * l 3%nat * p 3%nat));
    (4%nat, 61%nat, ((((((((l 4%nat ^ 2 + l 5%nat ^ 2) + l 9%nat ^ 2) + l 10%nat ^ 2) + l 11%nat ^ 2) + l 3%nat ^ 2) - 2 * l 3%nat * l 9%nat) - 2 * l 4%nat * l 10%nat) - 2 * l 5%nat * l 11%nat));
    (4%nat, 62%nat, (((((((((((2 * k 4%nat * p 4%nat + 2 * k 5%nat * p 5%nat) + 2 * k 9%nat * p 9%nat) + 2 * k 10%nat * p 10%nat) + 2 * k 11%nat * p 11%nat) - 2 * k 3%nat * p 9%nat) - 2 * p 3%nat * k 9%nat) - 2 * k 4%nat * p 10%nat) - 2 * p 4%nat * k 10%nat) - 2 * k 5%nat * p 11%nat) - 2 * p 5%nat * k 11%nat) + 2 * k 3%nat * p 3%nat));
    (4%nat, 63%nat, (((((((((((2 * k 4%nat * l 4%nat + 2 * k 5%nat * l 5%nat) + 2 * k 9%nat * l 9%nat) + 2 * k 10%nat * l 10%nat) + 2 * k 11%nat * l 11%nat) - 2 * k 3%nat * l 9%nat) - 2 * l 3%nat * k 9%nat) - 2 * k 4%nat * l 10%nat) - 2 * l 4%nat * k 10%nat) - 2 * k 5%nat * l 11%nat) - 2 * l 5%nat * k 11%nat) + 2 * k 3%nat * l 3%nat));
    (4%nat, 64%nat, ((((((((k 4%nat ^ 2 + k 5%nat ^ 2) + k 9%nat ^ 2) + k 10%nat ^ 2) + k 11%nat ^ 2) + k 3%nat ^ 2) - 2 * k 3%nat * k 9%nat) - 2 * k 4%nat * k 10%nat) - 2 * k 5%nat * k 11%nat));
    (4%nat, 65%nat, (((((((((((2 * m 4%nat * p 4%nat + 2 * m 5%nat * p 5%nat) + 2 * m 9%nat * p 9%nat) + 2 * m 10%nat * p 10%nat) + 2 * m 11%nat * p 11%nat) - 2 * m 3%nat * p 9%nat) - 2 * p 3%nat * m 9%nat) - 2 * m 4%nat * p 10%nat) - 2 * p 4%nat * m 10%nat) - 2 * m 5%nat * p 11%nat) - 2 * p 5%nat * m 11%nat) + 2 * m 3%nat * p 3%nat));
    (4%nat, 66%nat, (((((((((((2 * m 4%nat * l 4%nat + 2 * m 5%nat * l 5%nat) + 2 * m 9%nat * l 9%nat) + 2 * m 10%nat * l 10%nat) + 2 * m 11%nat * l 11%nat) - 2 * m 3%nat * l 9%nat) - 2 * l 3%nat * m 9%nat) - 2 * m 4%nat * l 10%nat) - 2 * l 4%nat * m 10%nat) - 2 * m 5%nat * l 11%nat) - 2 * l 5%nat * m 11%nat) + 2 * m 3%nat * l 3%nat));
    (4%nat, 67%nat, (((((((((((2 * m 4%nat * k 4%nat + 2 * m 5%nat * k 5%nat) + 2 * m 9%nat * k 9%nat) + 2 * m 10%nat * k 10%nat) + 2 * m 11%nat * k 11%nat) - 2 * m 3%nat * k 9%nat) - 2 * k 3%nat * m 9%nat) - 2 * m 4%nat * k 10%nat) - 2 * k 4%nat * m 10%nat) - 2 * m 5%nat * k 11%nat) - 2 * k 5%nat * m 11%nat) + 2 * m 3%nat * k 3%nat));
    (4%nat, 68%nat, ((((((((m 4%nat ^ 2 + m 5%nat ^ 2) + m 9%nat ^ 2) + m 10%nat ^ 2) + m 11%nat ^ 2) + m 3%nat ^ 2) - 2 * m 3%nat * m 9%nat) - 2 * m 4%nat * m 10%nat) - 2 * m 5%nat * m 11%nat));
    (4%nat, 69%nat, (((((((((((2 * n 4%nat * p 4%nat + 2 * n 5%nat * p 5%nat) + 2 * n 9%nat * p 9%nat) + 2 * n 10%nat * p 10%nat) + 2 * n 11%nat * p 11%nat) - 2 * n 3%nat * p 9%nat) - 2 * p 3%nat * n 9%nat) - 2 * n 4%nat * p 10%nat) - 2 * p 4%nat * n 10%nat) - 2 * n 5%nat * p 11%nat) - 2 * p 5%nat * n 11%nat) + 2 * n 3%nat * p 3%nat));
    (4%nat, 70%nat, (((((((((((2 * n 4%nat * l 4%nat + 2 * n 5%nat * l 5%nat) + 2 * n 9%nat * l 9%nat) + 2 * n 10%nat * l 10%nat) + 2 * n 11%nat * l 11%nat) - 2 * n 3%nat * l 9%nat) - 2 * l 3%nat * n 9%nat) - 2 * n 4%nat * l 10%nat) - 2 * l 4%nat * n 10%nat) - 2 * n 5%nat * l 11%nat) - 2 * l 5%nat * n 11%nat) + 2 * n 3%nat * l 3%nat));
    (4%nat, 71%nat, (((((((((((2 * n 4%nat * k 4%nat + 2 * n 5%nat * k 5%nat) + 2 * n 9%nat * k 9%nat) + 2 * n 10%nat * k 10%nat) + 2 * n 11%nat * k 11%nat) - 2 * n 3%nat * k 9%nat) - 2 * k 3%nat * n 9%nat) - 2 * n 4%nat * k 10%nat) - 2 * k 4%nat * n 10%nat) - 2 * n 5%nat * k 11%nat) - 2 * k 5%nat * n 11%nat) + 2 * n 3%nat * k 3%nat));
    (4%nat, 72%nat, (((((((((((2 * n 4%nat * m 4%nat + 2 * n 5%nat * m 5%nat) + 2 * n 9%nat * m 9%nat) + 2 * n 10%nat * m 10%nat) + 2 * n 11%nat * m 11%nat) - 2 * n 3%nat * m 9%nat) - 2 * m 3%nat * n 9%nat) - 2 * n 4%nat * m 10%nat) - 2 * m 4%nat * n 10%nat) - 2 * n 5%nat * m 11%nat) - 2 * m 5%nat * n 11%nat) + 2 * n 3%nat * m 3%nat));
    (4%nat, 73%nat, ((((((((n 4%nat ^ 2 + n 5%nat ^ 2) + n 9%nat ^ 2) + n 10%nat ^ 2) + n 11%nat ^ 2) + n 3%nat ^ 2) - 2 * n 3%nat * n 9%nat) - 2 * n 4%nat * n 10%nat) - 2 * n 5%nat * n 11%nat));
    (4%nat, 74%nat, (((((((((((2 * a 3%nat * p 3%nat + 2 * a 4%nat * p 4%nat) + 2 * a 5%nat * p 5%nat) + 2 * a 9%nat * p 9%nat) + 2 * a 10%nat * p 10%nat) + 2 * a 11%nat * p 11%nat) - 2 * a 3%nat * p 9%nat) - 2 * p 3%nat * a 9%nat) - 2 * a 4%nat * p 10%nat) - 2 * p 4%nat * a 10%nat) - 2 * a 5%nat * p 11%nat) - 2 * p 5%nat * a 11%nat));
    (4%nat, 75%nat, (((((((((((2 * a 3%nat * l 3%nat + 2 * a 4%nat * l 4%nat) + 2 * a 5%nat * l 5%nat) + 2 * a 9%nat * l 9%nat) + 2 * a 10%nat * l 10%nat) + 2 * a 11%nat * l 11%nat) - 2 * a 3%nat * l 9%nat) - 2 * l 3%nat * a 9%nat) - 2 * a 4%nat * l 10%nat) - 2 * l 4%nat * a 10%nat) - 2 * a 5%nat * l 11%nat) - 2 * l 5%nat * a 11%nat));
    (4%nat, 76%nat, (((((((((((2 * a 3%nat * k 3%nat + 2 * a 4%nat * k 4%nat) + 2 * a 5%nat * k 5%nat) + 2 * a 9%nat * k 9%nat) + 2 * a 10%nat * k 10%nat) + 2 * a 11%nat * k 11%nat) - 2 * a 3%nat * k 9%nat) - 2 * k 3%nat * a 9%nat) - 2 * a 4%nat * k 10%nat) - 2 * k 4%nat * a 10%nat) - 2 * a 5%nat * k 11%nat) - 2 * k 5%nat * a 11%nat));
    (4%nat, 77%nat, (((((((((((2 * a 3%nat * m 3%nat + 2 * a 4%nat * m 4%nat) + 2 * a 5%nat * m 5%nat) + 2 * a 9%nat * m 9%nat) + 2 * a 10%nat * m 10%nat) + 2 * a 11%nat * m 11%nat) - 2 * a 3%nat * m 9%nat) - 2 * m 3%nat * a 9%nat) - 2 * a 4%nat * m 10%nat) - 2 * m 4%nat * a 10%nat) - 2 * a 5%nat * m 11%nat) - 2 * m 5%nat * a 11%nat));
    (4%nat, 78%nat, (((((((((((2 * a 3%nat * n 3%nat + 2 * a 4%nat * n 4%nat) + 2 * a 5%nat * n 5%nat) + 2 * a 9%nat * n 9%nat) + 2 * a 10%nat * n 10%nat) + 2 * a 11%nat * n 11%nat) - 2 * a 3%nat * n 9%nat) - 2 * n 3%nat * a 9%nat) - 2 * a 4%nat * n 10%nat) - 2 * n 4%nat * a 10%nat) - 2 * a 5%nat * n 11%nat) - 2 * n 5%nat * a 11%nat));
    (4%nat, 79%nat, ((((((((( - c13w + a 4%nat ^ 2) + a 5%nat ^ 2) + a 9%nat ^ 2) + a 10%nat ^ 2) + a 11%nat ^ 2) + a 3%nat ^ 2) - 2 * a 3%nat * a 9%nat) - 2 * a 4%nat * a 10%nat) - 2 * a 5%nat * a 11%nat));
    (5%nat, 59%nat, ((((((((p 6%nat ^ 2 + p 7%nat ^ 2) + p 8%nat ^ 2) + p 9%nat ^ 2) + p 10%nat ^ 2) + p 11%nat ^ 2) - 2 * p 8%nat * p 11%nat) - 2 * p 6%nat * p 9%nat) - 2 * p 7%nat * p 10%nat));
    (5%nat, 60%nat, (((((((((((2 * l 6%nat * p 6%nat + 2 * l 7%nat * p 7%nat) + 2 * l 8%nat * p 8%nat) + 2 * l 9%nat * p 9%nat) + 2 * l 10%nat * p 10%nat) + 2 * l 11%nat * p 11%nat) - 2 * l 6%nat * p 9%nat) - 2 * p 6%nat * l 9%nat) - 2 * l 7%nat * p 10%nat) - 2 * p 7%nat * l 10%nat) - 2 * l 8%nat * p 11%nat) - 2 * p 8%nat * l 11%nat));
    (5%nat, 61%nat, ((((((((l 6%nat ^ 2 + l 7%nat ^ 2) + l 8%nat ^ 2) + l 9%nat ^ 2) + l 10%nat ^ 2) + l 11%nat ^ 2) - 2 * l 8%nat * l 11%nat) - 2 * l 6%nat * l 9%nat) - 2 * l 7%nat * l 10%nat));
    (5%nat, 62%nat, (((((((((((2 * k 6%nat * p 6%nat + 2 * k 7%nat * p 7%nat) + 2 * k 8%nat * p 8%nat) + 2 * k 9%nat * p 9%nat) + 2 * k 10%nat * p 10%nat) + 2 * k 11%nat * p 11%nat) - 2 * k 7%nat * p 10%nat) - 2 * k 6%nat * p 9%nat) - 2 * p 6%nat * k 9%nat) - 2 * p 7%nat * k 10%nat) - 2 * k 8%nat * p 11%nat) - 2 * p 8%nat * k 11%nat));
    (5%nat, 63%nat, (((((((((((2 * k 6%nat * l 6%nat + 2 * k 7%nat * l 7%nat) + 2 * k 8%nat * l 8%nat) + 2 * k 9%nat * l 9%nat) + 2 * k 10%nat * l 10%nat) + 2 * k 11%nat * l 11%nat) - 2 * k 7%nat * l 10%nat) - 2 * l 7%nat * k 10%nat) - 2 * k 6%nat * l 9%nat) - 2 * l 6%nat * k 9%nat) - 2 * k 8%nat * l 11%nat) - 2 * l 8%nat * k 11%nat));
    (5%nat, 64%nat, ((((((((k 6%nat ^ 2 + k 7%nat ^ 2) + k 8%nat ^ 2) + k 9%nat ^ 2) + k 10%nat ^ 2) + k 11%nat ^ 2) - 2 * k 8%nat * k 11%nat) - 2 * k 6%nat * k 9%nat) - 2 * k 7%nat * k 10%nat));
    (5%nat, 65%nat, (((((((((((2 * m 6%nat * p 6%nat + 2 * m 7%nat * p 7%nat) + 2 * m 8%nat * p 8%nat) + 2 * m 9%nat * p 9%nat) + 2 * m 10%nat * p 10%nat) + 2 * m 11%nat * p 11%nat) - 2 * m 6%nat * p 9%nat) - 2 * p 6%nat * m 9%nat) - 2 * m 7%nat * p 10%nat) - 2 * p 7%nat * m 10%nat) - 2 * m 8%nat * p 11%nat) - 2 * p 8%nat * m 11%nat));
    (5%nat, 66%nat, (((((((((((2 * m 6%nat * l 6%nat + 2 * m 7%nat * l 7%nat) + 2 * m 8%nat * l 8%nat) + 2 * m 9%nat * l 9%nat) + 2 * m 10%nat * l 10%nat) + 2 * m 11%nat * l 11%nat) - 2 * l 7%nat * m 10%nat) - 2 * m 6%nat * l 9%nat) - 2 * l 6%nat * m 9%nat) - 2 * m 7%nat * l 10%nat) - 2 * m 8%nat * l 11%nat) - 2 * l 8%nat * m 11%nat));
    (5%nat, 67%nat, (((((((((((2 * m 6%nat * k 6%nat + 2 * m 7%nat * k 7%nat) + 2 * m 8%nat * k 8%nat) + 2 * m 9%nat * k 9%nat) + 2 * m 10%nat * k 10%nat) + 2 * m 11%nat * k 11%nat) - 2 * k 7%nat * m 10%nat) - 2 * m 6%nat * k 9%nat) - 2 * k 6%nat * m 9%nat) - 2 * m 7%nat * k 10%nat) - 2 * m 8%nat * k 11%nat) - 2 * k 8%nat * m 11%nat));
    (5%nat, 68%nat, ((((((((m 6%nat ^ 2 + m 7%nat ^ 2) + m 8%nat ^ 2) + m 9%nat ^ 2) + m 10%nat ^ 2) + m 11%nat ^ 2) - 2 * m 8%nat * m 11%nat) - 2 * m 6%nat * m 9%nat) - 2 * m 7%nat * m 10%nat));
    (5%nat, 69%nat, (((((((((((2 * n 6%nat * p 6%nat + 2 * n 7%nat * p 7%nat) + 2 * n 8%nat * p 8%nat) + 2 * n 9%nat * p 9%nat) + 2 * n 10%nat * p 10%nat) + 2 * n 11%nat * p 11%nat) - 2 * n 6%nat * p 9%nat) - 2 * p 6%nat * n 9%nat) - 2 * n 7%nat * p 10%nat) - 2 * p 7%nat * n 10%nat) - 2 * n 8%nat * p 11%nat) - 2 * p 8%nat * n 11%nat));
    (5%nat, 70%nat, (((((((((((2 * n 6%nat * l 6%nat + 2 * n 7%nat * l 7%nat) + 2 * n 8%nat * l 8%nat) + 2 * n 9%nat * l 9%nat) + 2 * n 10%nat * l 10%nat) + 2 * n 11%nat * l 11%nat) - 2 * l 7%nat * n 10%nat) - 2 * n 6%nat * l 9%nat) - 2 * l 6%nat * n 9%nat) - 2 * n 7%nat * l 10%nat) - 2 * n 8%nat * l 11%nat) - 2 * l 8%nat * n 11%nat));
    (5%nat, 71%nat, (((((((((((2 * n 6%nat * k 6%nat + 2 * n 7%nat * k 7%nat) + 2 * n 8%nat * k 8%nat) + 2 * n 9%nat * k 9%nat) + 2 * n 10%nat * k 10%nat) + 2 * n 11%nat * k 11%nat) - 2 * k 7%nat * n 10%nat) - 2 * n 6%nat * k 9%nat) - 2 * k 6%nat * n 9%nat) - 2 * n 7%nat * k 10%nat) - 2 * n 8%nat * k 11%nat) - 2 * k 8%nat * n 11%nat));
    (5%nat, 72%nat, (((((((((((2 * n 6%nat * m 6%nat + 2 * n 7%nat * m 7%nat) + 2 * n 8%nat * m 8%nat) + 2 * n 9%nat * m 9%nat) + 2 * n 10%nat * m 10%nat) + 2 * n 11%nat * m 11%nat) - 2 * n 6%nat * m 9%nat) - 2 * m 6%nat * n 9%nat) - 2 * n 7%nat * m 10%nat) - 2 * m 7%nat * n 10%nat) - 2 * n 8%nat * m 11%nat) - 2 * m 8%nat * n 11%nat));
    (5%nat, 73%nat, ((((((((n 6%nat ^ 2 + n 7%nat ^ 2) + n 8%nat ^ 2) + n 9%nat ^ 2) + n 10%nat ^ 2) + n 11%nat ^ 2) - 2 * n 8%nat * n 11%nat) - 2 * n 6%nat * n 9%nat) - 2 * n 7%nat * n 10%nat));
    (5%nat, 74%nat, (((((((((((2 * a 6%nat * p 6%nat + 2 * a 7%nat * p 7%nat) + 2 * a 8%nat * p 8%nat) + 2 * a 9%nat * p 9%nat) + 2 * a 10%nat * p 10%nat) + 2 * a 11%nat * p 11%nat) - 2 * a 8%nat * p 11%nat) - 2 * p 8%nat * a 11%nat) - 2 * a 6%nat * p 9%nat) - 2 * p 6%nat * a 9%nat) - 2 * a 7%nat * p 10%nat) - 2 * p 7%nat * a 10%nat));
    (5%nat, 75%nat, (((((((((((2 * a 6%nat * l 6%nat + 2 * a 7%nat * l 7%nat) + 2 * a 8%nat * l 8%nat) + 2 * a 9%nat * l 9%nat) + 2 * a 10%nat * l 10%nat) + 2 * a 11%nat * l 11%nat) - 2 * a 8%nat * l 11%nat) - 2 * l 8%nat * a 11%nat) - 2 * a 6%nat * l 9%nat) - 2 * l 6%nat * a 9%nat) - 2 * a 7%nat * l 10%nat) - 2 * l 7%nat * a 10%nat));
    (5%nat, 76%nat, (((((((((((2 * a 6%nat * k 6%nat + 2 * a 7%nat * k 7%nat) + 2 * a 8%nat * k 8%nat) + 2 * a 9%nat * k 9%nat) + 2 * a 10%nat * k 10%nat) + 2 * a 11%nat * k 11%nat) - 2 * a 8%nat * k 11%nat) - 2 * k 8%nat * a 11%nat) - 2 * a 6%nat * k 9%nat) - 2 * k 6%nat * a 9%nat) - 2 * a 7%nat * k 10%nat) - 2 * k 7%nat * a 10%nat));
    (5%nat, 77%nat, (((((((((((2 * a 6%nat * m 6%nat + 2 * a 7%nat * m 7%nat) + 2 * a 8%nat * m 8%nat) + 2 * a 9%nat * m 9%nat) + 2 * a 10%nat * m 10%nat) + 2 * a 11%nat * m 11%nat) - 2 * a 8%nat * m 11%nat) - 2 * m 8%nat * a 11%nat) - 2 * a 6%nat * m 9%nat) - 2 * m 6%nat * a 9%nat) - 2 * a 7%nat * m 10%nat) - 2 * m 7%nat * a 10%nat));
    (5%nat, 78%nat, (((((((((((2 * a 6%nat * n 6%nat + 2 * a 7%nat * n 7%nat) + 2 * a 8%nat * n 8%nat) + 2 * a 9%nat * n 9%nat) + 2 * a 10%nat * n 10%nat) + 2 * a 11%nat * n 11%nat) - 2 * a 8%nat * n 11%nat) - 2 * n 8%nat * a 11%nat) - 2 * a 6%nat * n 9%nat) - 2 * n 6%nat * a 9%nat) - 2 * a 7%nat * n 10%nat) - 2 * n 7%nat * a 10%nat));
    (5%nat, 79%nat, ((((((((( - c23w + a 6%nat ^ 2) + a 7%nat ^ 2) + a 8%nat ^ 2) + a 9%nat ^ 2) + a 10%nat ^ 2) + a 11%nat ^ 2) - 2 * a 6%nat * a 9%nat) - 2 * a 7%nat * a 10%nat) - 2 * a 8%nat * a 11%nat)) ].
Definition g5_init (a n m k l p : nat -> R) (c0 c1 c2 c3 : vec3) : gmat := gcells (g5_cells a n m k l p c0 c1 c2 c3).

