(** Generated by tools/gen_kneip_ex.py: the rows of fivept_kneip/init.cpp over the
    integers (examples only). *)
From Coq Require Import ZArith List.
Import ListNotations.
Local Open Scope Z_scope.
Record z33 := Z33 { z00 : Z; z01 : Z; z02 : Z; z10 : Z; z11 : Z; z12 : Z; z20 : Z; z21 : Z; z22 : Z }.
Definition zkn_row (p0 p1 p2 q0 q1 q2 : z33) : list (nat * Z) :=
  [ (0%nat, - z00 p1 * z12 q2 + z00 p1 * z21 q2 + z01 p0 * z12 q2 - z01 p0 * z22 q1 - z10 p0 * z21 q2 + z10 p0 * z22 q1);
    (1%nat, - z00 p1 * z12 q1 + z00 p1 * z21 q1 + z01 p0 * z11 q2 - z01 p0 * z21 q1 - z10 p0 * z11 q2 + z10 p0 * z12 q1);
    (2%nat, - z00 p1 * z02 q2 + z00 p1 * z20 q2 + z01 p0 * z02 q2 - z01 p0 * z22 q0 - z10 p0 * z20 q2 + z10 p0 * z22 q0);
    (3%nat, - z00 p1 * z02 q1 - z00 p1 * z12 q0 + z00 p1 * z20 q1 + z00 p1 * z21 q0 + z01 p0 * z01 q2 + z01 p0 * z10 q2 - z01 p0 * z20 q1 - z01 p0 * z21 q0 - z10 p0 * z01 q2 + z10 p0 * z02 q1 - z10 p0 * z10 q2 + z10 p0 * z12 q0);
    (4%nat, - z00 p1 * z02 q0 + z00 p1 * z20 q0 + z01 p0 * z00 q2 - z01 p0 * z20 q0 - z10 p0 * z00 q2 + z10 p0 * z02 q0);
    (5%nat, z00 p2 * z12 q2 - z00 p2 * z21 q2 - z02 p0 * z12 q2 + z02 p0 * z22 q1 + z20 p0 * z21 q2 - z20 p0 * z22 q1);
    (6%nat, z00 p2 * z02 q2 - z00 p2 * z20 q2 - z02 p0 * z02 q2 + z02 p0 * z22 q0 + z20 p0 * z20 q2 - z20 p0 * z22 q0);
    (7%nat, z00 p1 * z12 q2 - z00 p1 * z21 q2 - z01 p0 * z12 q2 + z01 p0 * z22 q1 + z10 p0 * z21 q2 - z10 p0 * z22 q1);
    (8%nat, z00 p1 * z12 q1 - z00 p1 * z21 q1 - z01 p0 * z11 q2 + z01 p0 * z21 q1 + z10 p0 * z11 q2 - z10 p0 * z12 q1);
    (10%nat, - z00 p1 * z01 q2 + z00 p1 * z10 q2 + z00 p1 * z12 q0 - z00 p1 * z21 q0 + z01 p0 * z02 q1 - z01 p0 * z10 q2 - z01 p0 * z12 q0 + z01 p0 * z20 q1 + z10 p0 * z01 q2 - z10 p0 * z02 q1 - z10 p0 * z20 q1 + z10 p0 * z21 q0);
    (11%nat, - z00 p1 * z01 q1 + z00 p1 * z10 q1 + z01 p0 * z01 q1 - z01 p0 * z11 q0 - z10 p0 * z10 q1 + z10 p0 * z11 q0);
    (12%nat, - z00 p1 * z01 q0 + z00 p1 * z10 q0 + z01 p0 * z00 q1 - z01 p0 * z10 q0 - z10 p0 * z00 q1 + z10 p0 * z01 q0);
    (13%nat, - z00 p2 * z12 q2 + z00 p2 * z21 q2 + z02 p0 * z12 q2 - z02 p0 * z22 q1 - z20 p0 * z21 q2 + z20 p0 * z22 q1);
    (14%nat, z00 p2 * z12 q1 - z00 p2 * z21 q1 - z02 p0 * z11 q2 + z02 p0 * z21 q1 + z20 p0 * z11 q2 - z20 p0 * z12 q1);
    (15%nat, z00 p2 * z01 q2 + z00 p2 * z02 q1 - z00 p2 * z10 q2 - z00 p2 * z20 q1 - z02 p0 * z01 q2 - z02 p0 * z02 q1 + z02 p0 * z12 q0 + z02 p0 * z21 q0 + z20 p0 * z10 q2 - z20 p0 * z12 q0 + z20 p0 * z20 q1 - z20 p0 * z21 q0);
    (16%nat, - z00 p2 * z12 q1 + z00 p2 * z21 q1 + z02 p0 * z11 q2 - z02 p0 * z21 q1 - z20 p0 * z11 q2 + z20 p0 * z12 q1);
    (18%nat, z00 p2 * z01 q1 - z00 p2 * z10 q1 - z02 p0 * z01 q1 + z02 p0 * z11 q0 + z20 p0 * z10 q1 - z20 p0 * z11 q0);
    (19%nat, z00 p1 * z02 q2 - z00 p1 * z20 q2 - z01 p0 * z02 q2 + z01 p0 * z22 q0 + z10 p0 * z20 q2 - z10 p0 * z22 q0);
    (20%nat, z00 p1 * z01 q2 + z00 p1 * z02 q1 - z00 p1 * z10 q2 - z00 p1 * z20 q1 - z01 p0 * z01 q2 - z01 p0 * z02 q1 + z01 p0 * z12 q0 + z01 p0 * z21 q0 + z10 p0 * z10 q2 - z10 p0 * z12 q0 + z10 p0 * z20 q1 - z10 p0 * z21 q0);
    (21%nat, z00 p1 * z01 q1 - z00 p1 * z10 q1 - z01 p0 * z01 q1 + z01 p0 * z11 q0 + z10 p0 * z10 q1 - z10 p0 * z11 q0);
    (22%nat, z00 p1 * z02 q0 - z00 p1 * z20 q0 - z01 p0 * z00 q2 + z01 p0 * z20 q0 + z10 p0 * z00 q2 - z10 p0 * z02 q0);
    (23%nat, z00 p1 * z01 q0 - z00 p1 * z10 q0 - z01 p0 * z00 q1 + z01 p0 * z10 q0 + z10 p0 * z00 q1 - z10 p0 * z01 q0);
    (25%nat, - z00 p2 * z02 q2 + z00 p2 * z20 q2 + z02 p0 * z02 q2 - z02 p0 * z22 q0 - z20 p0 * z20 q2 + z20 p0 * z22 q0);
    (26%nat, - z00 p2 * z01 q2 + z00 p2 * z10 q2 + z00 p2 * z12 q0 - z00 p2 * z21 q0 + z02 p0 * z02 q1 - z02 p0 * z10 q2 - z02 p0 * z12 q0 + z02 p0 * z20 q1 + z20 p0 * z01 q2 - z20 p0 * z02 q1 - z20 p0 * z20 q1 + z20 p0 * z21 q0);
    (27%nat, z00 p2 * z02 q0 - z00 p2 * z20 q0 - z02 p0 * z00 q2 + z02 p0 * z20 q0 + z20 p0 * z00 q2 - z20 p0 * z02 q0);
    (28%nat, - z00 p2 * z02 q1 - z00 p2 * z12 q0 + z00 p2 * z20 q1 + z00 p2 * z21 q0 + z02 p0 * z01 q2 + z02 p0 * z10 q2 - z02 p0 * z20 q1 - z02 p0 * z21 q0 - z20 p0 * z01 q2 + z20 p0 * z02 q1 - z20 p0 * z10 q2 + z20 p0 * z12 q0);
    (29%nat, - z00 p2 * z01 q1 + z00 p2 * z10 q1 + z02 p0 * z01 q1 - z02 p0 * z11 q0 - z20 p0 * z10 q1 + z20 p0 * z11 q0);
    (30%nat, z00 p2 * z01 q0 - z00 p2 * z10 q0 - z02 p0 * z00 q1 + z02 p0 * z10 q0 + z20 p0 * z00 q1 - z20 p0 * z01 q0);
    (33%nat, - z00 p2 * z02 q0 + z00 p2 * z20 q0 + z02 p0 * z00 q2 - z02 p0 * z20 q0 - z20 p0 * z00 q2 + z20 p0 * z02 q0);
    (34%nat, - z00 p2 * z01 q0 + z00 p2 * z10 q0 + z02 p0 * z00 q1 - z02 p0 * z10 q0 - z20 p0 * z00 q1 + z20 p0 * z01 q0);
    (39%nat, - z01 p1 * z21 q2 + z01 p1 * z22 q1 + z10 p1 * z12 q2 - z10 p1 * z22 q1 - z11 p0 * z12 q2 + z11 p0 * z21 q2);
    (40%nat, - z01 p1 * z11 q2 + z01 p1 * z12 q1 + z10 p1 * z11 q2 - z10 p1 * z21 q1 - z11 p0 * z12 q1 + z11 p0 * z21 q1);
    (41%nat, - z01 p1 * z20 q2 + z01 p1 * z22 q0 + z10 p1 * z02 q2 - z10 p1 * z22 q0 - z11 p0 * z02 q2 + z11 p0 * z20 q2);
    (42%nat, - z01 p1 * z01 q2 + z01 p1 * z02 q1 - z01 p1 * z10 q2 + z01 p1 * z12 q0 + z10 p1 * z01 q2 + z10 p1 * z10 q2 - z10 p1 * z20 q1 - z10 p1 * z21 q0 - z11 p0 * z02 q1 - z11 p0 * z12 q0 + z11 p0 * z20 q1 + z11 p0 * z21 q0);
    (43%nat, - z01 p1 * z00 q2 + z01 p1 * z02 q0 + z10 p1 * z00 q2 - z10 p1 * z20 q0 - z11 p0 * z02 q0 + z11 p0 * z20 q0);
    (44%nat, - z01 p2 * z12 q2 + z01 p2 * z21 q2 + z02 p1 * z12 q2 - z02 p1 * z22 q1 - z10 p2 * z12 q2 + z10 p2 * z21 q2 + z12 p0 * z12 q2 - z12 p0 * z22 q1 - z20 p1 * z21 q2 + z20 p1 * z22 q1 - z21 p0 * z21 q2 + z21 p0 * z22 q1);
    (45%nat, - z01 p2 * z02 q2 + z01 p2 * z20 q2 + z02 p1 * z02 q2 - z02 p1 * z22 q0 - z10 p2 * z02 q2 + z10 p2 * z20 q2 + z12 p0 * z02 q2 - z12 p0 * z22 q0 - z20 p1 * z20 q2 + z20 p1 * z22 q0 - z21 p0 * z20 q2 + z21 p0 * z22 q0);
    (46%nat, z01 p2 * z12 q2 - z01 p2 * z22 q1 - z02 p1 * z12 q2 + z02 p1 * z21 q2 - z10 p2 * z21 q2 + z10 p2 * z22 q1 - z12 p0 * z21 q2 + z12 p0 * z22 q1 - z20 p1 * z12 q2 + z20 p1 * z21 q2 + z21 p0 * z12 q2 - z21 p0 * z22 q1);
    (47%nat, z01 p2 * z11 q2 - z01 p2 * z12 q1 + z02 p1 * z11 q2 - z02 p1 * z12 q1 - z10 p2 * z11 q2 + z10 p2 * z21 q1 + z12 p0 * z12 q1 - z12 p0 * z21 q1 - z20 p1 * z11 q2 + z20 p1 * z21 q1 + z21 p0 * z12 q1 - z21 p0 * z21 q1);
    (48%nat, - z01 p2 * z02 q1 + z01 p2 * z10 q2 + z02 p1 * z01 q2 - z02 p1 * z12 q0 - z10 p2 * z01 q2 + z10 p2 * z20 q1 + z12 p0 * z02 q1 - z12 p0 * z21 q0 - z20 p1 * z10 q2 + z20 p1 * z21 q0 + z21 p0 * z12 q0 - z21 p0 * z20 q1);
    (49%nat, - z02 p2 * z21 q2 + z02 p2 * z22 q1 + z20 p2 * z12 q2 - z20 p2 * z22 q1 - z22 p0 * z12 q2 + z22 p0 * z21 q2);
    (50%nat, - z02 p2 * z11 q2 + z02 p2 * z12 q1 + z20 p2 * z11 q2 - z20 p2 * z21 q1 - z22 p0 * z12 q1 + z22 p0 * z21 q1);
    (51%nat, z01 p2 * z02 q2 - z01 p2 * z22 q0 - z02 p1 * z02 q2 + z02 p1 * z20 q2 - z10 p2 * z20 q2 + z10 p2 * z22 q0 - z12 p0 * z20 q2 + z12 p0 * z22 q0 - z20 p1 * z02 q2 + z20 p1 * z20 q2 + z21 p0 * z02 q2 - z21 p0 * z22 q0);
    (52%nat, z01 p2 * z01 q2 - z01 p2 * z12 q0 - z02 p1 * z02 q1 + z02 p1 * z10 q2 - z10 p2 * z10 q2 + z10 p2 * z21 q0 + z12 p0 * z12 q0 - z12 p0 * z20 q1 - z20 p1 * z01 q2 + z20 p1 * z20 q1 + z21 p0 * z02 q1 - z21 p0 * z21 q0);
    (53%nat, z01 p2 * z00 q2 - z01 p2 * z02 q0 + z02 p1 * z00 q2 - z02 p1 * z02 q0 - z10 p2 * z00 q2 + z10 p2 * z20 q0 + z12 p0 * z02 q0 - z12 p0 * z20 q0 - z20 p1 * z00 q2 + z20 p1 * z20 q0 + z21 p0 * z02 q0 - z21 p0 * z20 q0);
    (54%nat, - z02 p2 * z20 q2 + z02 p2 * z22 q0 + z20 p2 * z02 q2 - z20 p2 * z22 q0 - z22 p0 * z02 q2 + z22 p0 * z20 q2);
    (55%nat, - z02 p2 * z01 q2 + z02 p2 * z02 q1 - z02 p2 * z10 q2 + z02 p2 * z12 q0 + z20 p2 * z01 q2 + z20 p2 * z10 q2 - z20 p2 * z20 q1 - z20 p2 * z21 q0 - z22 p0 * z02 q1 - z22 p0 * z12 q0 + z22 p0 * z20 q1 + z22 p0 * z21 q0);
    (56%nat, - z02 p2 * z00 q2 + z02 p2 * z02 q0 + z20 p2 * z00 q2 - z20 p2 * z20 q0 - z22 p0 * z02 q0 + z22 p0 * z20 q0);
    (57%nat, z11 p2 * z12 q2 - z11 p2 * z21 q2 - z12 p1 * z12 q2 + z12 p1 * z22 q1 + z21 p1 * z21 q2 - z21 p1 * z22 q1);
    (58%nat, z11 p2 * z02 q2 - z11 p2 * z20 q2 - z12 p1 * z02 q2 + z12 p1 * z22 q0 + z21 p1 * z20 q2 - z21 p1 * z22 q0);
    (59%nat, z12 p2 * z21 q2 - z12 p2 * z22 q1 - z21 p2 * z12 q2 + z21 p2 * z22 q1 + z22 p1 * z12 q2 - z22 p1 * z21 q2);
    (60%nat, z12 p2 * z20 q2 - z12 p2 * z22 q0 - z21 p2 * z02 q2 + z21 p2 * z22 q0 + z22 p1 * z02 q2 - z22 p1 * z20 q2);
    (61%nat, z01 p1 * z21 q2 - z01 p1 * z22 q1 - z10 p1 * z12 q2 + z10 p1 * z22 q1 + z11 p0 * z12 q2 - z11 p0 * z21 q2);
    (62%nat, z01 p1 * z11 q2 - z01 p1 * z12 q1 - z10 p1 * z11 q2 + z10 p1 * z21 q1 + z11 p0 * z12 q1 - z11 p0 * z21 q1);
    (64%nat, z01 p1 * z01 q2 - z01 p1 * z02 q1 - z01 p1 * z20 q1 + z01 p1 * z21 q0 + z10 p1 * z02 q1 - z10 p1 * z10 q2 - z10 p1 * z12 q0 + z10 p1 * z20 q1 - z11 p0 * z01 q2 + z11 p0 * z10 q2 + z11 p0 * z12 q0 - z11 p0 * z21 q0);
    (65%nat, - z01 p1 * z10 q1 + z01 p1 * z11 q0 + z10 p1 * z01 q1 - z10 p1 * z11 q0 - z11 p0 * z01 q1 + z11 p0 * z10 q1);
    (66%nat, - z01 p1 * z00 q1 + z01 p1 * z01 q0 + z10 p1 * z00 q1 - z10 p1 * z10 q0 - z11 p0 * z01 q0 + z11 p0 * z10 q0);
    (67%nat, - z01 p2 * z21 q2 + z01 p2 * z22 q1 - z02 p1 * z21 q2 + z02 p1 * z22 q1 + z10 p2 * z12 q2 - z10 p2 * z22 q1 - z12 p0 * z12 q2 + z12 p0 * z21 q2 + z20 p1 * z12 q2 - z20 p1 * z22 q1 - z21 p0 * z12 q2 + z21 p0 * z21 q2);
    (68%nat, - z01 p2 * z11 q2 + z01 p2 * z21 q1 + z02 p1 * z12 q1 - z02 p1 * z21 q1 + z10 p2 * z11 q2 - z10 p2 * z12 q1 + z12 p0 * z11 q2 - z12 p0 * z12 q1 + z20 p1 * z12 q1 - z20 p1 * z21 q1 - z21 p0 * z11 q2 + z21 p0 * z21 q1);
    (69%nat, - z01 p2 * z01 q2 + z01 p2 * z20 q1 + z02 p1 * z02 q1 - z02 p1 * z21 q0 - z10 p2 * z02 q1 + z10 p2 * z10 q2 + z12 p0 * z01 q2 - z12 p0 * z12 q0 + z20 p1 * z12 q0 - z20 p1 * z20 q1 - z21 p0 * z10 q2 + z21 p0 * z21 q0);
    (70%nat, z02 p2 * z21 q2 - z02 p2 * z22 q1 - z20 p2 * z12 q2 + z20 p2 * z22 q1 + z22 p0 * z12 q2 - z22 p0 * z21 q2);
    (71%nat, z01 p2 * z12 q1 - z01 p2 * z21 q1 - z02 p1 * z11 q2 + z02 p1 * z21 q1 + z10 p2 * z12 q1 - z10 p2 * z21 q1 - z12 p0 * z11 q2 + z12 p0 * z21 q1 + z20 p1 * z11 q2 - z20 p1 * z12 q1 + z21 p0 * z11 q2 - z21 p0 * z12 q1);
    (73%nat, - z01 p2 * z01 q1 + z01 p2 * z10 q1 + z02 p1 * z01 q1 - z02 p1 * z11 q0 - z10 p2 * z01 q1 + z10 p2 * z10 q1 + z12 p0 * z01 q1 - z12 p0 * z11 q0 - z20 p1 * z10 q1 + z20 p1 * z11 q0 - z21 p0 * z10 q1 + z21 p0 * z11 q0);
    (74%nat, z02 p2 * z11 q2 - z02 p2 * z12 q1 - z20 p2 * z11 q2 + z20 p2 * z21 q1 + z22 p0 * z12 q1 - z22 p0 * z21 q1);
    (76%nat, z01 p2 * z02 q1 - z01 p2 * z21 q0 - z02 p1 * z01 q2 + z02 p1 * z20 q1 + z10 p2 * z12 q0 - z10 p2 * z20 q1 - z12 p0 * z10 q2 + z12 p0 * z21 q0 - z20 p1 * z02 q1 + z20 p1 * z10 q2 + z21 p0 * z01 q2 - z21 p0 * z12 q0);
    (77%nat, z01 p2 * z01 q1 - z01 p2 * z11 q0 - z02 p1 * z01 q1 + z02 p1 * z10 q1 - z10 p2 * z10 q1 + z10 p2 * z11 q0 - z12 p0 * z10 q1 + z12 p0 * z11 q0 - z20 p1 * z01 q1 + z20 p1 * z10 q1 + z21 p0 * z01 q1 - z21 p0 * z11 q0);
    (78%nat, z01 p2 * z00 q1 - z01 p2 * z01 q0 + z02 p1 * z00 q1 - z02 p1 * z01 q0 - z10 p2 * z00 q1 + z10 p2 * z10 q0 + z12 p0 * z01 q0 - z12 p0 * z10 q0 - z20 p1 * z00 q1 + z20 p1 * z10 q0 + z21 p0 * z01 q0 - z21 p0 * z10 q0);
    (79%nat, z02 p2 * z01 q2 - z02 p2 * z02 q1 - z02 p2 * z20 q1 + z02 p2 * z21 q0 + z20 p2 * z02 q1 - z20 p2 * z10 q2 - z20 p2 * z12 q0 + z20 p2 * z20 q1 - z22 p0 * z01 q2 + z22 p0 * z10 q2 + z22 p0 * z12 q0 - z22 p0 * z21 q0);
    (80%nat, - z02 p2 * z10 q1 + z02 p2 * z11 q0 + z20 p2 * z01 q1 - z20 p2 * z11 q0 - z22 p0 * z01 q1 + z22 p0 * z10 q1);
    (81%nat, z02 p2 * z01 q0 - z02 p2 * z00 q1 + z20 p2 * z00 q1 - z20 p2 * z10 q0 - z22 p0 * z01 q0 + z22 p0 * z10 q0);
    (82%nat, - z11 p2 * z12 q2 + z11 p2 * z21 q2 + z12 p1 * z12 q2 - z12 p1 * z22 q1 - z21 p1 * z21 q2 + z21 p1 * z22 q1);
    (83%nat, z11 p2 * z12 q1 - z11 p2 * z21 q1 - z12 p1 * z11 q2 + z12 p1 * z21 q1 + z21 p1 * z11 q2 - z21 p1 * z12 q1);
    (84%nat, z11 p2 * z01 q2 + z11 p2 * z02 q1 - z11 p2 * z10 q2 - z11 p2 * z20 q1 - z12 p1 * z01 q2 - z12 p1 * z02 q1 + z12 p1 * z12 q0 + z12 p1 * z21 q0 + z21 p1 * z10 q2 - z21 p1 * z12 q0 + z21 p1 * z20 q1 - z21 p1 * z21 q0);
    (85%nat, - z12 p2 * z21 q2 + z12 p2 * z22 q1 + z21 p2 * z12 q2 - z21 p2 * z22 q1 - z22 p1 * z12 q2 + z22 p1 * z21 q2);
    (86%nat, z12 p2 * z11 q2 - z12 p2 * z12 q1 - z21 p2 * z11 q2 + z21 p2 * z21 q1 + z22 p1 * z12 q1 - z22 p1 * z21 q1);
    (87%nat, z12 p2 * z10 q2 - z12 p2 * z12 q0 + z12 p2 * z20 q1 - z12 p2 * z21 q0 - z21 p2 * z01 q2 - z21 p2 * z02 q1 + z21 p2 * z12 q0 + z21 p2 * z21 q0 + z22 p1 * z01 q2 + z22 p1 * z02 q1 - z22 p1 * z10 q2 - z22 p1 * z20 q1);
    (89%nat, - z11 p2 * z12 q1 + z11 p2 * z21 q1 + z12 p1 * z11 q2 - z12 p1 * z21 q1 - z21 p1 * z11 q2 + z21 p1 * z12 q1);
    (91%nat, z11 p2 * z01 q1 - z11 p2 * z10 q1 - z12 p1 * z01 q1 + z12 p1 * z11 q0 + z21 p1 * z10 q1 - z21 p1 * z11 q0);
    (92%nat, - z12 p2 * z11 q2 + z12 p2 * z12 q1 + z21 p2 * z11 q2 - z21 p2 * z21 q1 - z22 p1 * z12 q1 + z22 p1 * z21 q1);
    (94%nat, z12 p2 * z10 q1 - z12 p2 * z11 q0 - z21 p2 * z01 q1 + z21 p2 * z11 q0 + z22 p1 * z01 q1 - z22 p1 * z10 q1);
    (97%nat, z01 p1 * z20 q2 - z01 p1 * z22 q0 - z10 p1 * z02 q2 + z10 p1 * z22 q0 + z11 p0 * z02 q2 - z11 p0 * z20 q2);
    (98%nat, z01 p1 * z10 q2 - z01 p1 * z12 q0 + z01 p1 * z20 q1 - z01 p1 * z21 q0 - z10 p1 * z01 q2 - z10 p1 * z02 q1 + z10 p1 * z12 q0 + z10 p1 * z21 q0 + z11 p0 * z01 q2 + z11 p0 * z02 q1 - z11 p0 * z10 q2 - z11 p0 * z20 q1);
    (99%nat, z01 p1 * z10 q1 - z01 p1 * z11 q0 - z10 p1 * z01 q1 + z10 p1 * z11 q0 + z11 p0 * z01 q1 - z11 p0 * z10 q1);
    (100%nat, z01 p1 * z00 q2 - z01 p1 * z02 q0 - z10 p1 * z00 q2 + z10 p1 * z20 q0 + z11 p0 * z02 q0 - z11 p0 * z20 q0);
    (101%nat, z01 p1 * z00 q1 - z01 p1 * z01 q0 - z10 p1 * z00 q1 + z10 p1 * z10 q0 + z11 p0 * z01 q0 - z11 p0 * z10 q0);
    (103%nat, - z01 p2 * z20 q2 + z01 p2 * z22 q0 - z02 p1 * z20 q2 + z02 p1 * z22 q0 + z10 p2 * z02 q2 - z10 p2 * z22 q0 - z12 p0 * z02 q2 + z12 p0 * z20 q2 + z20 p1 * z02 q2 - z20 p1 * z22 q0 - z21 p0 * z02 q2 + z21 p0 * z20 q2);
    (104%nat, - z01 p2 * z10 q2 + z01 p2 * z21 q0 + z02 p1 * z12 q0 - z02 p1 * z20 q1 + z10 p2 * z01 q2 - z10 p2 * z12 q0 - z12 p0 * z02 q1 + z12 p0 * z10 q2 + z20 p1 * z02 q1 - z20 p1 * z21 q0 - z21 p0 * z01 q2 + z21 p0 * z20 q1);
    (105%nat, - z01 p2 * z00 q2 + z01 p2 * z20 q0 + z02 p1 * z02 q0 - z02 p1 * z20 q0 + z10 p2 * z00 q2 - z10 p2 * z02 q0 + z12 p0 * z00 q2 - z12 p0 * z02 q0 + z20 p1 * z02 q0 - z20 p1 * z20 q0 - z21 p0 * z00 q2 + z21 p0 * z20 q0);
    (106%nat, z02 p2 * z20 q2 - z02 p2 * z22 q0 - z20 p2 * z02 q2 + z20 p2 * z22 q0 + z22 p0 * z02 q2 - z22 p0 * z20 q2);
    (107%nat, z01 p2 * z12 q0 - z01 p2 * z20 q1 - z02 p1 * z10 q2 + z02 p1 * z21 q0 + z10 p2 * z02 q1 - z10 p2 * z21 q0 - z12 p0 * z01 q2 + z12 p0 * z20 q1 + z20 p1 * z01 q2 - z20 p1 * z12 q0 - z21 p0 * z02 q1 + z21 p0 * z10 q2);
    (108%nat, - z01 p2 * z10 q1 + z01 p2 * z11 q0 - z02 p1 * z10 q1 + z02 p1 * z11 q0 + z10 p2 * z01 q1 - z10 p2 * z11 q0 - z12 p0 * z01 q1 + z12 p0 * z10 q1 + z20 p1 * z01 q1 - z20 p1 * z11 q0 - z21 p0 * z01 q1 + z21 p0 * z10 q1);
    (109%nat, - z01 p2 * z00 q1 + z01 p2 * z10 q0 + z02 p1 * z01 q0 - z02 p1 * z10 q0 + z10 p2 * z00 q1 - z10 p2 * z01 q0 + z12 p0 * z00 q1 - z12 p0 * z01 q0 + z20 p1 * z01 q0 - z20 p1 * z10 q0 - z21 p0 * z00 q1 + z21 p0 * z10 q0);
    (110%nat, z02 p2 * z10 q2 - z02 p2 * z12 q0 + z02 p2 * z20 q1 - z02 p2 * z21 q0 - z20 p2 * z01 q2 - z20 p2 * z02 q1 + z20 p2 * z12 q0 + z20 p2 * z21 q0 + z22 p0 * z01 q2 + z22 p0 * z02 q1 - z22 p0 * z10 q2 - z22 p0 * z20 q1);
    (111%nat, z02 p2 * z10 q1 - z02 p2 * z11 q0 - z20 p2 * z01 q1 + z20 p2 * z11 q0 + z22 p0 * z01 q1 - z22 p0 * z10 q1);
    (112%nat, z01 p2 * z02 q0 - z01 p2 * z20 q0 - z02 p1 * z00 q2 + z02 p1 * z20 q0 + z10 p2 * z02 q0 - z10 p2 * z20 q0 - z12 p0 * z00 q2 + z12 p0 * z20 q0 + z20 p1 * z00 q2 - z20 p1 * z02 q0 + z21 p0 * z00 q2 - z21 p0 * z02 q0);
    (113%nat, z01 p2 * z01 q0 - z01 p2 * z10 q0 - z02 p1 * z00 q1 + z02 p1 * z10 q0 + z10 p2 * z01 q0 - z10 p2 * z10 q0 - z12 p0 * z00 q1 + z12 p0 * z10 q0 + z20 p1 * z00 q1 - z20 p1 * z01 q0 + z21 p0 * z00 q1 - z21 p0 * z01 q0);
    (115%nat, z02 p2 * z00 q2 - z02 p2 * z02 q0 - z20 p2 * z00 q2 + z20 p2 * z20 q0 + z22 p0 * z02 q0 - z22 p0 * z20 q0);
    (116%nat, z02 p2 * z00 q1 - z02 p2 * z01 q0 - z20 p2 * z00 q1 + z20 p2 * z10 q0 + z22 p0 * z01 q0 - z22 p0 * z10 q0);
    (118%nat, - z11 p2 * z02 q2 + z11 p2 * z20 q2 + z12 p1 * z02 q2 - z12 p1 * z22 q0 - z21 p1 * z20 q2 + z21 p1 * z22 q0);
    (119%nat, - z11 p2 * z01 q2 + z11 p2 * z10 q2 + z11 p2 * z12 q0 - z11 p2 * z21 q0 + z12 p1 * z02 q1 - z12 p1 * z10 q2 - z12 p1 * z12 q0 + z12 p1 * z20 q1 + z21 p1 * z01 q2 - z21 p1 * z02 q1 - z21 p1 * z20 q1 + z21 p1 * z21 q0);
    (120%nat, z11 p2 * z02 q0 - z11 p2 * z20 q0 - z12 p1 * z00 q2 + z12 p1 * z20 q0 + z21 p1 * z00 q2 - z21 p1 * z02 q0);
    (121%nat, - z12 p2 * z20 q2 + z12 p2 * z22 q0 + z21 p2 * z02 q2 - z21 p2 * z22 q0 - z22 p1 * z02 q2 + z22 p1 * z20 q2);
    (122%nat, z12 p2 * z01 q2 - z12 p2 * z02 q1 - z12 p2 * z20 q1 + z12 p2 * z21 q0 + z21 p2 * z02 q1 - z21 p2 * z10 q2 - z21 p2 * z12 q0 + z21 p2 * z20 q1 - z22 p1 * z01 q2 + z22 p1 * z10 q2 + z22 p1 * z12 q0 - z22 p1 * z21 q0);
    (123%nat, z12 p2 * z00 q2 - z12 p2 * z02 q0 - z21 p2 * z00 q2 + z21 p2 * z20 q0 + z22 p1 * z02 q0 - z22 p1 * z20 q0);
    (125%nat, - z11 p2 * z02 q1 - z11 p2 * z12 q0 + z11 p2 * z20 q1 + z11 p2 * z21 q0 + z12 p1 * z01 q2 + z12 p1 * z10 q2 - z12 p1 * z20 q1 - z12 p1 * z21 q0 - z21 p1 * z01 q2 + z21 p1 * z02 q1 - z21 p1 * z10 q2 + z21 p1 * z12 q0);
    (126%nat, - z11 p2 * z01 q1 + z11 p2 * z10 q1 + z12 p1 * z01 q1 - z12 p1 * z11 q0 - z21 p1 * z10 q1 + z21 p1 * z11 q0);
    (127%nat, z11 p2 * z01 q0 - z11 p2 * z10 q0 - z12 p1 * z00 q1 + z12 p1 * z10 q0 + z21 p1 * z00 q1 - z21 p1 * z01 q0);
    (128%nat, - z12 p2 * z01 q2 + z12 p2 * z02 q1 - z12 p2 * z10 q2 + z12 p2 * z12 q0 + z21 p2 * z01 q2 + z21 p2 * z10 q2 - z21 p2 * z20 q1 - z21 p2 * z21 q0 - z22 p1 * z02 q1 - z22 p1 * z12 q0 + z22 p1 * z20 q1 + z22 p1 * z21 q0);
    (129%nat, - z12 p2 * z10 q1 + z12 p2 * z11 q0 + z21 p2 * z01 q1 - z21 p2 * z11 q0 - z22 p1 * z01 q1 + z22 p1 * z10 q1);
    (130%nat, z12 p2 * z00 q1 - z12 p2 * z01 q0 - z21 p2 * z00 q1 + z21 p2 * z10 q0 + z22 p1 * z01 q0 - z22 p1 * z10 q0);
    (133%nat, - z11 p2 * z02 q0 + z11 p2 * z20 q0 + z12 p1 * z00 q2 - z12 p1 * z20 q0 - z21 p1 * z00 q2 + z21 p1 * z02 q0);
    (134%nat, - z11 p2 * z01 q0 + z11 p2 * z10 q0 + z12 p1 * z00 q1 - z12 p1 * z10 q0 - z21 p1 * z00 q1 + z21 p1 * z01 q0);
    (136%nat, - z12 p2 * z00 q2 + z12 p2 * z02 q0 + z21 p2 * z00 q2 - z21 p2 * z20 q0 - z22 p1 * z02 q0 + z22 p1 * z20 q0);
    (137%nat, - z12 p2 * z00 q1 + z12 p2 * z01 q0 + z21 p2 * z00 q1 - z21 p2 * z10 q0 - z22 p1 * z01 q0 + z22 p1 * z10 q0) ].
