(** Generated by tools/gen_gp3p.py from src/absolute_pose/modules/gp3p, init.cpp:
    the coefficient matrix as a function of the unrotated bearing vectors, the
    camera offsets and the world points (the columns of f, v and p).
    Definitions only. *)
From Coq Require Import Reals List.
From Verif Require Import Lin GbModel.
Import ListNotations.
Local Open Scope R_scope.

(** gp3p::init, src/absolute_pose/modules/gp3p/init.cpp 36-186. *)
Definition gp_cells (f v p : nat -> vec3) : list (nat * nat * R) :=
  [ (0%nat, 20%nat, - 1 * vx (f 1%nat));
    (0%nat, 21%nat, vx (f 0%nat));
    (0%nat, 32%nat, - 1 * vx (f 1%nat));
    (0%nat, 33%nat, vx (f 0%nat));
    (0%nat, 52%nat, - 1 * vx (f 1%nat));
    (0%nat, 53%nat, vx (f 0%nat));
    (0%nat, 66%nat, (((vx (v 0%nat) - vx (v 1%nat)) + vx (p 0%nat)) - vx (p 1%nat)));
    (0%nat, 71%nat, (((vx (v 0%nat) - vx (v 1%nat)) + vx (p 0%nat)) - vx (p 1%nat)));
    (0%nat, 75%nat, (- 2 * vz (p 0%nat) + 2 * vz (p 1%nat)));
    (0%nat, 76%nat, (- 2 * vy (p 0%nat) + 2 * vy (p 1%nat)));
    (0%nat, 77%nat, (((vx (v 0%nat) - vx (v 1%nat)) - vx (p 0%nat)) + vx (p 1%nat)));
    (0%nat, 79%nat, - 1 * vx (f 1%nat));
    (0%nat, 80%nat, vx (f 0%nat));
    (0%nat, 81%nat, (2 * vy (p 0%nat) - 2 * vy (p 1%nat)));
    (0%nat, 82%nat, (- 2 * vz (p 0%nat) + 2 * vz (p 1%nat)));
    (0%nat, 84%nat, (((- vx (p 0%nat) + vx (p 1%nat)) + vx (v 0%nat)) - vx (v 1%nat)));
    (1%nat, 20%nat, - 1 * vy (f 1%nat));
    (1%nat, 21%nat, vy (f 0%nat));
    (1%nat, 32%nat, - 1 * vy (f 1%nat));
    (1%nat, 33%nat, vy (f 0%nat));
    (1%nat, 52%nat, - 1 * vy (f 1%nat));
    (1%nat, 53%nat, vy (f 0%nat));
    (1%nat, 66%nat, (((vy (v 0%nat) - vy (v 1%nat)) + vy (p 0%nat)) - vy (p 1%nat)));
    (1%nat, 70%nat, (- 2 * vz (p 0%nat) + 2 * vz (p 1%nat)));
    (1%nat, 71%nat, (((vy (v 0%nat) - vy (v 1%nat)) - vy (p 0%nat)) + vy (p 1%nat)));
    (1%nat, 76%nat, (2 * vx (p 1%nat) - 2 * vx (p 0%nat)));
    (1%nat, 77%nat, (((vy (v 0%nat) - vy (v 1%nat)) + vy (p 0%nat)) - vy (p 1%nat)));
    (1%nat, 79%nat, - 1 * vy (f 1%nat));
    (1%nat, 80%nat, vy (f 0%nat));
    (1%nat, 81%nat, (- 2 * vx (p 0%nat) + 2 * vx (p 1%nat)));
    (1%nat, 83%nat, (2 * vz (p 0%nat) - 2 * vz (p 1%nat)));
    (1%nat, 84%nat, (((- vy (p 0%nat) + vy (p 1%nat)) + vy (v 0%nat)) - vy (v 1%nat)));
    (2%nat, 20%nat, - 1 * vz (f 1%nat));
    (2%nat, 21%nat, vz (f 0%nat));
    (2%nat, 32%nat, - 1 * vz (f 1%nat));
    (2%nat, 33%nat, vz (f 0%nat));
    (2%nat, 52%nat, - 1 * vz (f 1%nat));
    (2%nat, 53%nat, vz (f 0%nat));
    (2%nat, 66%nat, (((vz (v 0%nat) - vz (v 1%nat)) - vz (p 0%nat)) + vz (p 1%nat)));
    (2%nat, 70%nat, (- 2 * vy (p 0%nat) + 2 * vy (p 1%nat)));
    (2%nat, 71%nat, (((vz (v 0%nat) - vz (v 1%nat)) + vz (p 0%nat)) - vz (p 1%nat)));
    (2%nat, 75%nat, (- 2 * vx (p 0%nat) + 2 * vx (p 1%nat)));
    (2%nat, 77%nat, (((vz (v 0%nat) - vz (v 1%nat)) + vz (p 0%nat)) - vz (p 1%nat)));
    (2%nat, 79%nat, - 1 * vz (f 1%nat));
    (2%nat, 80%nat, vz (f 0%nat));
    (2%nat, 82%nat, (2 * vx (p 0%nat) - 2 * vx (p 1%nat)));
    (2%nat, 83%nat, (- 2 * vy (p 0%nat) + 2 * vy (p 1%nat)));
    (2%nat, 84%nat, (((- vz (p 0%nat) + vz (p 1%nat)) + vz (v 0%nat)) - vz (v 1%nat)));
    (3%nat, 19%nat, - 1 * vx (f 2%nat));
    (3%nat, 20%nat, vx (f 1%nat));
    (3%nat, 31%nat, - 1 * vx (f 2%nat));
    (3%nat, 32%nat, vx (f 1%nat));
    (3%nat, 51%nat, - 1 * vx (f 2%nat));
    (3%nat, 52%nat, vx (f 1%nat));
    (3%nat, 66%nat, (((vx (v 1%nat) + vx (p 1%nat)) - vx (v 2%nat)) - vx (p 2%nat)));
    (3%nat, 71%nat, (((vx (v 1%nat) + vx (p 1%nat)) - vx (v 2%nat)) - vx (p 2%nat)));
    (3%nat, 75%nat, (- 2 * vz (p 1%nat) + 2 * vz (p 2%nat)));
    (3%nat, 76%nat, (- 2 * vy (p 1%nat) + 2 * vy (p 2%nat)));
    (3%nat, 77%nat, (((vx (v 1%nat) - vx (p 1%nat)) - vx (v 2%nat)) + vx (p 2%nat)));
    (3%nat, 78%nat, - 1 * vx (f 2%nat));
    (3%nat, 79%nat, vx (f 1%nat));
    (3%nat, 81%nat, (2 * vy (p 1%nat) - 2 * vy (p 2%nat)));
    (3%nat, 82%nat, (- 2 * vz (p 1%nat) + 2 * vz (p 2%nat)));
    (3%nat, 84%nat, (((- vx (p 1%nat) + vx (p 2%nat)) - vx (v 2%nat)) + vx (v 1%nat)));
    (4%nat, 19%nat, - 1 * vy (f 2%nat));
    (4%nat, 20%nat, vy (f 1%nat));
    (4%nat, 31%nat, - 1 * vy (f 2%nat));
    (4%nat, 32%nat, vy (f 1%nat));
    (4%nat, 51%nat, - 1 * vy (f 2%nat));
    (4%nat, 52%nat, vy (f 1%nat));
    (4%nat, 66%nat, (((vy (v 1%nat) + vy (p 1%nat)) - vy (v 2%nat)) - vy (p 2%nat)));
    (4%nat, 70%nat, (2 * vz (p 2%nat) - 2 * vz (p 1%nat)));
    (4%nat, 71%nat, (((vy (v 1%nat) - vy (p 1%nat)) - vy (v 2%nat)) + vy (p 2%nat)));
    (4%nat, 76%nat, (- 2 * vx (p 1%nat) + 2 * vx (p 2%nat)));
    (4%nat, 77%nat, (((vy (v 1%nat) + vy (p 1%nat)) - vy (v 2%nat)) - vy (p 2%nat)));
    (4%nat, 78%nat, - 1 * vy (f 2%nat));
    (4%nat, 79%nat, vy (f 1%nat));
    (4%nat, 81%nat, (- 2 * vx (p 1%nat) + 2 * vx (p 2%nat)));
    (4%nat, 83%nat, (2 * vz (p 1%nat) - 2 * vz (p 2%nat)));
    (4%nat, 84%nat, (((- vy (p 1%nat) + vy (p 2%nat)) - vy (v 2%nat)) + vy (v 1%nat)));
    (5%nat, 19%nat, - 1 * vz (f 2%nat));
    (5%nat, 20%nat, vz (f 1%nat));
    (5%nat, 31%nat, - 1 * vz (f 2%nat));
    (5%nat, 32%nat, vz (f 1%nat));
    (5%nat, 51%nat, - 1 * vz (f 2%nat));
    (5%nat, 52%nat, vz (f 1%nat));
    (5%nat, 66%nat, (((vz (v 1%nat) - vz (p 1%nat)) - vz (v 2%nat)) + vz (p 2%nat)));
    (5%nat, 70%nat, (- 2 * vy (p 1%nat) + 2 * vy (p 2%nat)));
    (5%nat, 71%nat, (((vz (v 1%nat) + vz (p 1%nat)) - vz (v 2%nat)) - vz (p 2%nat)));
    (5%nat, 75%nat, (- 2 * vx (p 1%nat) + 2 * vx (p 2%nat)));
    (5%nat, 77%nat, (((vz (v 1%nat) + vz (p 1%nat)) - vz (v 2%nat)) - vz (p 2%nat)));
    (5%nat, 78%nat, - 1 * vz (f 2%nat));
    (5%nat, 79%nat, vz (f 1%nat));
    (5%nat, 82%nat, (2 * vx (p 1%nat) - 2 * vx (p 2%nat)));
    (5%nat, 83%nat, (- 2 * vy (p 1%nat) + 2 * vy (p 2%nat)));
    (5%nat, 84%nat, (((- vz (p 1%nat) + vz (p 2%nat)) - vz (v 2%nat)) + vz (v 1%nat)));
    (6%nat, 19%nat, vx (f 2%nat));
    (6%nat, 21%nat, - 1 * vx (f 0%nat));
    (6%nat, 31%nat, vx (f 2%nat));
    (6%nat, 33%nat, - 1 * vx (f 0%nat));
    (6%nat, 51%nat, vx (f 2%nat));
    (6%nat, 53%nat, - 1 * vx (f 0%nat));
    (6%nat, 66%nat, (((- vx (v 0%nat) - vx (p 0%nat)) + vx (v 2%nat)) + vx (p 2%nat)));
    (6%nat, 71%nat, (((- vx (v 0%nat) - vx (p 0%nat)) + vx (v 2%nat)) + vx (p 2%nat)));
    (6%nat, 75%nat, (2 * vz (p 0%nat) - 2 * vz (p 2%nat)));
    (6%nat, 76%nat, (2 * vy (p 0%nat) - 2 * vy (p 2%nat)));
    (6%nat, 77%nat, (((- vx (v 0%nat) + vx (p 0%nat)) + vx (v 2%nat)) - vx (p 2%nat)));
    (6%nat, 78%nat, vx (f 2%nat));
    (6%nat, 80%nat, - 1 * vx (f 0%nat));
    (6%nat, 81%nat, (- 2 * vy (p 0%nat) + 2 * vy (p 2%nat)));
    (6%nat, 82%nat, (2 * vz (p 0%nat) - 2 * vz (p 2%nat)));
    (6%nat, 84%nat, (((vx (p 0%nat) - vx (p 2%nat)) - vx (v 0%nat)) + vx (v 2%nat)));
    (7%nat, 19%nat, vy (f 2%nat));
    (7%nat, 21%nat, - 1 * vy (f 0%nat));
    (7%nat, 31%nat, vy (f 2%nat));
    (7%nat, 33%nat, - 1 * vy (f 0%nat));
    (7%nat, 51%nat, vy (f 2%nat));
    (7%nat, 53%nat, - 1 * vy (f 0%nat));
    (7%nat, 66%nat, (((- vy (v 0%nat) - vy (p 0%nat)) + vy (v 2%nat)) + vy (p 2%nat)));
    (7%nat, 70%nat, (- 2 * vz (p 2%nat) + 2 * vz (p 0%nat)));
    (7%nat, 71%nat, (((- vy (v 0%nat) + vy (p 0%nat)) + vy (v 2%nat)) - vy (p 2%nat)));
    (7%nat, 76%nat, (2 * vx (p 0%nat) - 2 * vx (p 2%nat)));
    (7%nat, 77%nat, (((- vy (v 0%nat) - vy (p 0%nat)) + vy (v 2%nat)) + vy (p 2%nat)));
    (7%nat, 78%nat, vy (f 2%nat));
    (7%nat, 80%nat, - 1 * vy (f 0%nat));
    (7%nat, 81%nat, (2 * vx (p 0%nat) - 2 * vx (p 2%nat)));
    (7%nat, 83%nat, (- 2 * vz (p 0%nat) + 2 * vz (p 2%nat)));
    (7%nat, 84%nat, (((vy (p 0%nat) - vy (p 2%nat)) - vy (v 0%nat)) + vy (v 2%nat)));
    (8%nat, 19%nat, vz (f 2%nat));
    (8%nat, 21%nat, - 1 * vz (f 0%nat));
    (8%nat, 31%nat, vz (f 2%nat));
    (8%nat, 33%nat, - 1 * vz (f 0%nat));
    (8%nat, 51%nat, vz (f 2%nat));
    (8%nat, 53%nat, - 1 * vz (f 0%nat));
    (8%nat, 66%nat, (((- vz (v 0%nat) + vz (p 0%nat)) + vz (v 2%nat)) - vz (p 2%nat)));
    (8%nat, 70%nat, (2 * vy (p 0%nat) - 2 * vy (p 2%nat)));
    (8%nat, 71%nat, (((- vz (v 0%nat) - vz (p 0%nat)) + vz (v 2%nat)) + vz (p 2%nat)));
    (8%nat, 75%nat, (2 * vx (p 0%nat) - 2 * vx (p 2%nat)));
    (8%nat, 77%nat, (((- vz (v 0%nat) - vz (p 0%nat)) + vz (v 2%nat)) + vz (p 2%nat)));
    (8%nat, 78%nat, vz (f 2%nat));
    (8%nat, 80%nat, - 1 * vz (f 0%nat));
    (8%nat, 82%nat, (- 2 * vx (p 0%nat) + 2 * vx (p 2%nat)));
    (8%nat, 83%nat, (2 * vy (p 0%nat) - 2 * vy (p 2%nat)));
    (8%nat, 84%nat, (((vz (p 0%nat) - vz (p 2%nat)) - vz (v 0%nat)) + vz (v 2%nat))) ].
Definition gp_init (f v p : nat -> vec3) : gmat := gcells (gp_cells f v p).
