(** GENERATED by tools/gen_eig.py from src/relative_pose/modules/ge/modules.cpp: do not edit. *)
From Coq Require Import Reals List.
From Verif Require Import Lin RotModel EigSums EigGen GeSums.
Import ListNotations.
Local Open Scope R_scope.
(** the return value of composeG, ge/modules.cpp 334-460 *)
Definition composeG (S : gsums) (c : vec3) : nat -> nat -> R :=
  let R := cayley2rot_reduced c in
  fun i j => nth j (nth i
    [[bf 3 3 (rw R 2) (mget (yyF S)) (rw R 2) + - (2) * bf 3 3 (rw R 2) (mget (yzF S)) (rw R 1) + bf 3 3 (rw R 1) (mget (zzF S)) (rw R 1);
      bf 3 3 (rw R 2) (mget (yzF S)) (rw R 0) + - (1) * bf 3 3 (rw R 2) (mget (xyF S)) (rw R 2) + - (1) * bf 3 3 (rw R 1) (mget (zzF S)) (rw R 0) + bf 3 3 (rw R 1) (mget (zxF S)) (rw R 2);
      bf 3 3 (rw R 2) (mget (xyF S)) (rw R 1) + - (1) * bf 3 3 (rw R 2) (mget (yyF S)) (rw R 0) + - (1) * bf 3 3 (rw R 1) (mget (zxF S)) (rw R 1) + bf 3 3 (rw R 1) (mget (yzF S)) (rw R 0);
      bf 3 9 (rw R 2) (y1P S) (cols9 R) + bf 3 9 (rw R 2) (y2P S) (rows9 R) + - (1) * bf 3 9 (rw R 1) (z1P S) (cols9 R) + - (1) * bf 3 9 (rw R 1) (z2P S) (rows9 R)];
     [bf 3 3 (rw R 2) (mget (yzF S)) (rw R 0) + - (1) * bf 3 3 (rw R 2) (mget (xyF S)) (rw R 2) + - (1) * bf 3 3 (rw R 1) (mget (zzF S)) (rw R 0) + bf 3 3 (rw R 1) (mget (zxF S)) (rw R 2);
      bf 3 3 (rw R 0) (mget (zzF S)) (rw R 0) + - (2) * bf 3 3 (rw R 0) (mget (zxF S)) (rw R 2) + bf 3 3 (rw R 2) (mget (xxF S)) (rw R 2);
      bf 3 3 (rw R 0) (mget (zxF S)) (rw R 1) + - (1) * bf 3 3 (rw R 0) (mget (yzF S)) (rw R 0) + - (1) * bf 3 3 (rw R 2) (mget (xxF S)) (rw R 1) + bf 3 3 (rw R 0) (mget (xyF S)) (rw R 2);
      bf 3 9 (rw R 0) (z1P S) (cols9 R) + bf 3 9 (rw R 0) (z2P S) (rows9 R) + - (1) * bf 3 9 (rw R 2) (x1P S) (cols9 R) + - (1) * bf 3 9 (rw R 2) (x2P S) (rows9 R)];
     [bf 3 3 (rw R 2) (mget (xyF S)) (rw R 1) + - (1) * bf 3 3 (rw R 2) (mget (yyF S)) (rw R 0) + - (1) * bf 3 3 (rw R 1) (mget (zxF S)) (rw R 1) + bf 3 3 (rw R 1) (mget (yzF S)) (rw R 0);
      bf 3 3 (rw R 0) (mget (zxF S)) (rw R 1) + - (1) * bf 3 3 (rw R 0) (mget (yzF S)) (rw R 0) + - (1) * bf 3 3 (rw R 2) (mget (xxF S)) (rw R 1) + bf 3 3 (rw R 0) (mget (xyF S)) (rw R 2);
      bf 3 3 (rw R 1) (mget (xxF S)) (rw R 1) + - (2) * bf 3 3 (rw R 0) (mget (xyF S)) (rw R 1) + bf 3 3 (rw R 0) (mget (yyF S)) (rw R 0);
      bf 3 9 (rw R 1) (x1P S) (cols9 R) + bf 3 9 (rw R 1) (x2P S) (rows9 R) + - (1) * bf 3 9 (rw R 0) (y1P S) (cols9 R) + - (1) * bf 3 9 (rw R 0) (y2P S) (rows9 R)];
     [bf 3 9 (rw R 2) (y1P S) (cols9 R) + bf 3 9 (rw R 2) (y2P S) (rows9 R) + - (1) * bf 3 9 (rw R 1) (z1P S) (cols9 R) + - (1) * bf 3 9 (rw R 1) (z2P S) (rows9 R);
      bf 3 9 (rw R 0) (z1P S) (cols9 R) + bf 3 9 (rw R 0) (z2P S) (rows9 R) + - (1) * bf 3 9 (rw R 2) (x1P S) (cols9 R) + - (1) * bf 3 9 (rw R 2) (x2P S) (rows9 R);
      bf 3 9 (rw R 1) (x1P S) (cols9 R) + bf 3 9 (rw R 1) (x2P S) (rows9 R) + - (1) * bf 3 9 (rw R 0) (y1P S) (cols9 R) + - (1) * bf 3 9 (rw R 0) (y2P S) (rows9 R);
      - (1) * bf 9 9 (cols9 R) (m11P S) (cols9 R) + - (1) * bf 9 9 (rows9 R) (m22P S) (rows9 R) + - (2) * bf 9 9 (rows9 R) (m12P S) (cols9 R)]] []) 0.
(** the return value of composeGwithJacobians, ge/modules.cpp 483-1032 *)
Definition composeGJ (S : gsums) (c : vec3) : nat -> nat -> R :=
  let R := cayley2rot_reduced c in let R_jac1 := R_jac1 c in let R_jac2 := R_jac2 c in let R_jac3 := R_jac3 c in
  fun i j => nth j (nth i
    [[bf 3 3 (rw R 2) (mget (yyF S)) (rw R 2) + - (2) * bf 3 3 (rw R 2) (mget (yzF S)) (rw R 1) + bf 3 3 (rw R 1) (mget (zzF S)) (rw R 1);
      bf 3 3 (rw R 2) (mget (yzF S)) (rw R 0) + - (1) * bf 3 3 (rw R 2) (mget (xyF S)) (rw R 2) + - (1) * bf 3 3 (rw R 1) (mget (zzF S)) (rw R 0) + bf 3 3 (rw R 1) (mget (zxF S)) (rw R 2);
      bf 3 3 (rw R 2) (mget (xyF S)) (rw R 1) + - (1) * bf 3 3 (rw R 2) (mget (yyF S)) (rw R 0) + - (1) * bf 3 3 (rw R 1) (mget (zxF S)) (rw R 1) + bf 3 3 (rw R 1) (mget (yzF S)) (rw R 0);
      bf 3 9 (rw R 2) (y1P S) (cols9 R) + bf 3 9 (rw R 2) (y2P S) (rows9 R) + - (1) * bf 3 9 (rw R 1) (z1P S) (cols9 R) + - (1) * bf 3 9 (rw R 1) (z2P S) (rows9 R)];
     [bf 3 3 (rw R 2) (mget (yzF S)) (rw R 0) + - (1) * bf 3 3 (rw R 2) (mget (xyF S)) (rw R 2) + - (1) * bf 3 3 (rw R 1) (mget (zzF S)) (rw R 0) + bf 3 3 (rw R 1) (mget (zxF S)) (rw R 2);
      bf 3 3 (rw R 0) (mget (zzF S)) (rw R 0) + - (2) * bf 3 3 (rw R 0) (mget (zxF S)) (rw R 2) + bf 3 3 (rw R 2) (mget (xxF S)) (rw R 2);
      bf 3 3 (rw R 0) (mget (zxF S)) (rw R 1) + - (1) * bf 3 3 (rw R 0) (mget (yzF S)) (rw R 0) + - (1) * bf 3 3 (rw R 2) (mget (xxF S)) (rw R 1) + bf 3 3 (rw R 2) (mget (xyF S)) (rw R 0);
      bf 3 9 (rw R 0) (z1P S) (cols9 R) + bf 3 9 (rw R 0) (z2P S) (rows9 R) + - (1) * bf 3 9 (rw R 2) (x1P S) (cols9 R) + - (1) * bf 3 9 (rw R 2) (x2P S) (rows9 R)];
     [bf 3 3 (rw R 2) (mget (xyF S)) (rw R 1) + - (1) * bf 3 3 (rw R 2) (mget (yyF S)) (rw R 0) + - (1) * bf 3 3 (rw R 1) (mget (zxF S)) (rw R 1) + bf 3 3 (rw R 1) (mget (yzF S)) (rw R 0);
      bf 3 3 (rw R 0) (mget (zxF S)) (rw R 1) + - (1) * bf 3 3 (rw R 0) (mget (yzF S)) (rw R 0) + - (1) * bf 3 3 (rw R 2) (mget (xxF S)) (rw R 1) + bf 3 3 (rw R 2) (mget (xyF S)) (rw R 0);
      bf 3 3 (rw R 1) (mget (xxF S)) (rw R 1) + - (2) * bf 3 3 (rw R 0) (mget (xyF S)) (rw R 1) + bf 3 3 (rw R 0) (mget (yyF S)) (rw R 0);
      bf 3 9 (rw R 1) (x1P S) (cols9 R) + bf 3 9 (rw R 1) (x2P S) (rows9 R) + - (1) * bf 3 9 (rw R 0) (y1P S) (cols9 R) + - (1) * bf 3 9 (rw R 0) (y2P S) (rows9 R)];
     [bf 3 9 (rw R 2) (y1P S) (cols9 R) + bf 3 9 (rw R 2) (y2P S) (rows9 R) + - (1) * bf 3 9 (rw R 1) (z1P S) (cols9 R) + - (1) * bf 3 9 (rw R 1) (z2P S) (rows9 R);
      bf 3 9 (rw R 0) (z1P S) (cols9 R) + bf 3 9 (rw R 0) (z2P S) (rows9 R) + - (1) * bf 3 9 (rw R 2) (x1P S) (cols9 R) + - (1) * bf 3 9 (rw R 2) (x2P S) (rows9 R);
      bf 3 9 (rw R 1) (x1P S) (cols9 R) + bf 3 9 (rw R 1) (x2P S) (rows9 R) + - (1) * bf 3 9 (rw R 0) (y1P S) (cols9 R) + - (1) * bf 3 9 (rw R 0) (y2P S) (rows9 R);
      - (1) * bf 9 9 (cols9 R) (m11P S) (cols9 R) + - (1) * bf 9 9 (rows9 R) (m22P S) (rows9 R) + - (2) * bf 9 9 (rows9 R) (m12P S) (cols9 R)]] []) 0.
(** G_jac1 of composeGwithJacobians, ge/modules.cpp 483-1032 *)
Definition G_jac1 (S : gsums) (c : vec3) : nat -> nat -> R :=
  let R := cayley2rot_reduced c in let R_jac1 := R_jac1 c in let R_jac2 := R_jac2 c in let R_jac3 := R_jac3 c in
  fun i j => nth j (nth i
    [[2 * bf 3 3 (rw R_jac1 2) (mget (yyF S)) (rw R 2) + - (2) * bf 3 3 (rw R_jac1 2) (mget (yzF S)) (rw R 1) + - (2) * bf 3 3 (rw R 2) (mget (yzF S)) (rw R_jac1 1) + 2 * bf 3 3 (rw R_jac1 1) (mget (zzF S)) (rw R 1);
      bf 3 3 (rw R_jac1 2) (mget (yzF S)) (rw R 0) + bf 3 3 (rw R 2) (mget (yzF S)) (rw R_jac1 0) + - (2) * bf 3 3 (rw R_jac1 2) (mget (xyF S)) (rw R 2) + - (1) * bf 3 3 (rw R_jac1 1) (mget (zzF S)) (rw R 0) + - (1) * bf 3 3 (rw R 1) (mget (zzF S)) (rw R_jac1 0) + bf 3 3 (rw R_jac1 1) (mget (zxF S)) (rw R 2) + bf 3 3 (rw R 1) (mget (zxF S)) (rw R_jac1 2);
      bf 3 3 (rw R_jac1 2) (mget (xyF S)) (rw R 1) + bf 3 3 (rw R 2) (mget (xyF S)) (rw R_jac1 1) + - (1) * bf 3 3 (rw R_jac1 2) (mget (yyF S)) (rw R 0) + - (1) * bf 3 3 (rw R 2) (mget (yyF S)) (rw R_jac1 0) + - (2) * bf 3 3 (rw R_jac1 1) (mget (zxF S)) (rw R 1) + bf 3 3 (rw R_jac1 1) (mget (yzF S)) (rw R 0) + bf 3 3 (rw R 1) (mget (yzF S)) (rw R_jac1 0);
      bf 3 9 (rw R_jac1 2) (y1P S) (cols9 R) + bf 3 9 (rw R 2) (y1P S) (cols9 R_jac1) + bf 3 9 (rw R_jac1 2) (y2P S) (rows9 R) + bf 3 9 (rw R 2) (y2P S) (rows9 R_jac1) + - (1) * bf 3 9 (rw R_jac1 1) (z1P S) (cols9 R) + - (1) * bf 3 9 (rw R 1) (z1P S) (cols9 R_jac1) + - (1) * bf 3 9 (rw R_jac1 1) (z2P S) (rows9 R) + - (1) * bf 3 9 (rw R 1) (z2P S) (rows9 R_jac1)];
     [bf 3 3 (rw R_jac1 2) (mget (yzF S)) (rw R 0) + bf 3 3 (rw R 2) (mget (yzF S)) (rw R_jac1 0) + - (2) * bf 3 3 (rw R_jac1 2) (mget (xyF S)) (rw R 2) + - (1) * bf 3 3 (rw R_jac1 1) (mget (zzF S)) (rw R 0) + - (1) * bf 3 3 (rw R 1) (mget (zzF S)) (rw R_jac1 0) + bf 3 3 (rw R_jac1 1) (mget (zxF S)) (rw R 2) + bf 3 3 (rw R 1) (mget (zxF S)) (rw R_jac1 2);
      2 * bf 3 3 (rw R_jac1 0) (mget (zzF S)) (rw R 0) + - (2) * bf 3 3 (rw R_jac1 0) (mget (zxF S)) (rw R 2) + - (2) * bf 3 3 (rw R 0) (mget (zxF S)) (rw R_jac1 2) + 2 * bf 3 3 (rw R_jac1 2) (mget (xxF S)) (rw R 2);
      bf 3 3 (rw R_jac1 0) (mget (zxF S)) (rw R 1) + bf 3 3 (rw R 0) (mget (zxF S)) (rw R_jac1 1) + - (2) * bf 3 3 (rw R_jac1 0) (mget (yzF S)) (rw R 0) + - (1) * bf 3 3 (rw R_jac1 2) (mget (xxF S)) (rw R 1) + - (1) * bf 3 3 (rw R 2) (mget (xxF S)) (rw R_jac1 1) + bf 3 3 (rw R_jac1 2) (mget (xyF S)) (rw R 0) + bf 3 3 (rw R 2) (mget (xyF S)) (rw R_jac1 0);
      bf 3 9 (rw R_jac1 0) (z1P S) (cols9 R) + bf 3 9 (rw R 0) (z1P S) (cols9 R_jac1) + bf 3 9 (rw R_jac1 0) (z2P S) (rows9 R) + bf 3 9 (rw R 0) (z2P S) (rows9 R_jac1) + - (1) * bf 3 9 (rw R_jac1 2) (x1P S) (cols9 R) + - (1) * bf 3 9 (rw R 2) (x1P S) (cols9 R_jac1) + - (1) * bf 3 9 (rw R_jac1 2) (x2P S) (rows9 R) + - (1) * bf 3 9 (rw R 2) (x2P S) (rows9 R_jac1)];
     [bf 3 3 (rw R_jac1 2) (mget (xyF S)) (rw R 1) + bf 3 3 (rw R 2) (mget (xyF S)) (rw R_jac1 1) + - (1) * bf 3 3 (rw R_jac1 2) (mget (yyF S)) (rw R 0) + - (1) * bf 3 3 (rw R 2) (mget (yyF S)) (rw R_jac1 0) + - (2) * bf 3 3 (rw R_jac1 1) (mget (zxF S)) (rw R 1) + bf 3 3 (rw R_jac1 1) (mget (yzF S)) (rw R 0) + bf 3 3 (rw R 1) (mget (yzF S)) (rw R_jac1 0);
      bf 3 3 (rw R_jac1 0) (mget (zxF S)) (rw R 1) + bf 3 3 (rw R 0) (mget (zxF S)) (rw R_jac1 1) + - (2) * bf 3 3 (rw R_jac1 0) (mget (yzF S)) (rw R 0) + - (1) * bf 3 3 (rw R_jac1 2) (mget (xxF S)) (rw R 1) + - (1) * bf 3 3 (rw R 2) (mget (xxF S)) (rw R_jac1 1) + bf 3 3 (rw R_jac1 2) (mget (xyF S)) (rw R 0) + bf 3 3 (rw R 2) (mget (xyF S)) (rw R_jac1 0);
      2 * bf 3 3 (rw R_jac1 1) (mget (xxF S)) (rw R 1) + - (2) * bf 3 3 (rw R_jac1 0) (mget (xyF S)) (rw R 1) + - (2) * bf 3 3 (rw R 0) (mget (xyF S)) (rw R_jac1 1) + 2 * bf 3 3 (rw R_jac1 0) (mget (yyF S)) (rw R 0);
      bf 3 9 (rw R_jac1 1) (x1P S) (cols9 R) + bf 3 9 (rw R 1) (x1P S) (cols9 R_jac1) + bf 3 9 (rw R_jac1 1) (x2P S) (rows9 R) + bf 3 9 (rw R 1) (x2P S) (rows9 R_jac1) + - (1) * bf 3 9 (rw R_jac1 0) (y1P S) (cols9 R) + - (1) * bf 3 9 (rw R 0) (y1P S) (cols9 R_jac1) + - (1) * bf 3 9 (rw R_jac1 0) (y2P S) (rows9 R) + - (1) * bf 3 9 (rw R 0) (y2P S) (rows9 R_jac1)];
     [bf 3 9 (rw R_jac1 2) (y1P S) (cols9 R) + bf 3 9 (rw R 2) (y1P S) (cols9 R_jac1) + bf 3 9 (rw R_jac1 2) (y2P S) (rows9 R) + bf 3 9 (rw R 2) (y2P S) (rows9 R_jac1) + - (1) * bf 3 9 (rw R_jac1 1) (z1P S) (cols9 R) + - (1) * bf 3 9 (rw R 1) (z1P S) (cols9 R_jac1) + - (1) * bf 3 9 (rw R_jac1 1) (z2P S) (rows9 R) + - (1) * bf 3 9 (rw R 1) (z2P S) (rows9 R_jac1);
      bf 3 9 (rw R_jac1 0) (z1P S) (cols9 R) + bf 3 9 (rw R 0) (z1P S) (cols9 R_jac1) + bf 3 9 (rw R_jac1 0) (z2P S) (rows9 R) + bf 3 9 (rw R 0) (z2P S) (rows9 R_jac1) + - (1) * bf 3 9 (rw R_jac1 2) (x1P S) (cols9 R) + - (1) * bf 3 9 (rw R 2) (x1P S) (cols9 R_jac1) + - (1) * bf 3 9 (rw R_jac1 2) (x2P S) (rows9 R) + - (1) * bf 3 9 (rw R 2) (x2P S) (rows9 R_jac1);
      bf 3 9 (rw R_jac1 1) (x1P S) (cols9 R) + bf 3 9 (rw R 1) (x1P S) (cols9 R_jac1) + bf 3 9 (rw R_jac1 1) (x2P S) (rows9 R) + bf 3 9 (rw R 1) (x2P S) (rows9 R_jac1) + - (1) * bf 3 9 (rw R_jac1 0) (y1P S) (cols9 R) + - (1) * bf 3 9 (rw R 0) (y1P S) (cols9 R_jac1) + - (1) * bf 3 9 (rw R_jac1 0) (y2P S) (rows9 R) + - (1) * bf 3 9 (rw R 0) (y2P S) (rows9 R_jac1);
      - (2) * bf 9 9 (cols9 R) (m11P S) (cols9 R_jac1) + - (2) * bf 9 9 (rows9 R_jac1) (m22P S) (rows9 R) + - (2) * bf 9 9 (rows9 R_jac1) (m12P S) (cols9 R) + - (2) * bf 9 9 (rows9 R) (m12P S) (cols9 R_jac1)]] []) 0.
(** G_jac2 of composeGwithJacobians, ge/modules.cpp 483-1032 *)
Definition G_jac2 (S : gsums) (c : vec3) : nat -> nat -> R :=
  let R := cayley2rot_reduced c in let R_jac1 := R_jac1 c in let R_jac2 := R_jac2 c in let R_jac3 := R_jac3 c in
  fun i j => nth j (nth i
    [[2 * bf 3 3 (rw R_jac2 2) (mget (yyF S)) (rw R 2) + - (2) * bf 3 3 (rw R_jac2 2) (mget (yzF S)) (rw R 1) + - (2) * bf 3 3 (rw R 2) (mget (yzF S)) (rw R_jac2 1) + 2 * bf 3 3 (rw R_jac2 1) (mget (zzF S)) (rw R 1);
      bf 3 3 (rw R_jac2 2) (mget (yzF S)) (rw R 0) + bf 3 3 (rw R 2) (mget (yzF S)) (rw R_jac2 0) + - (2) * bf 3 3 (rw R_jac2 2) (mget (xyF S)) (rw R 2) + - (1) * bf 3 3 (rw R_jac2 1) (mget (zzF S)) (rw R 0) + - (1) * bf 3 3 (rw R 1) (mget (zzF S)) (rw R_jac2 0) + bf 3 3 (rw R_jac2 1) (mget (zxF S)) (rw R 2) + bf 3 3 (rw R 1) (mget (zxF S)) (rw R_jac2 2);
      bf 3 3 (rw R_jac2 2) (mget (xyF S)) (rw R 1) + bf 3 3 (rw R 2) (mget (xyF S)) (rw R_jac2 1) + - (1) * bf 3 3 (rw R_jac2 2) (mget (yyF S)) (rw R 0) + - (1) * bf 3 3 (rw R 2) (mget (yyF S)) (rw R_jac2 0) + - (2) * bf 3 3 (rw R_jac2 1) (mget (zxF S)) (rw R 1) + bf 3 3 (rw R_jac2 1) (mget (yzF S)) (rw R 0) + bf 3 3 (rw R 1) (mget (yzF S)) (rw R_jac2 0);
      bf 3 9 (rw R_jac2 2) (y1P S) (cols9 R) + bf 3 9 (rw R 2) (y1P S) (cols9 R_jac2) + bf 3 9 (rw R_jac2 2) (y2P S) (rows9 R) + bf 3 9 (rw R 2) (y2P S) (rows9 R_jac2) + - (1) * bf 3 9 (rw R_jac2 1) (z1P S) (cols9 R) + - (1) * bf 3 9 (rw R 1) (z1P S) (cols9 R_jac2) + - (1) * bf 3 9 (rw R_jac2 1) (z2P S) (rows9 R) + - (1) * bf 3 9 (rw R 1) (z2P S) (rows9 R_jac2)];
     [bf 3 3 (rw R_jac2 2) (mget (yzF S)) (rw R 0) + bf 3 3 (rw R 2) (mget (yzF S)) (rw R_jac2 0) + - (2) * bf 3 3 (rw R_jac2 2) (mget (xyF S)) (rw R 2) + - (1) * bf 3 3 (rw R_jac2 1) (mget (zzF S)) (rw R 0) + - (1) * bf 3 3 (rw R 1) (mget (zzF S)) (rw R_jac2 0) + bf 3 3 (rw R_jac2 1) (mget (zxF S)) (rw R 2) + bf 3 3 (rw R 1) (mget (zxF S)) (rw R_jac2 2);
      2 * bf 3 3 (rw R_jac2 0) (mget (zzF S)) (rw R 0) + - (2) * bf 3 3 (rw R_jac2 0) (mget (zxF S)) (rw R 2) + - (2) * bf 3 3 (rw R 0) (mget (zxF S)) (rw R_jac2 2) + 2 * bf 3 3 (rw R_jac2 2) (mget (xxF S)) (rw R 2);
      bf 3 3 (rw R_jac2 0) (mget (zxF S)) (rw R 1) + bf 3 3 (rw R 0) (mget (zxF S)) (rw R_jac2 1) + - (2) * bf 3 3 (rw R_jac2 0) (mget (yzF S)) (rw R 0) + - (1) * bf 3 3 (rw R_jac2 2) (mget (xxF S)) (rw R 1) + - (1) * bf 3 3 (rw R 2) (mget (xxF S)) (rw R_jac2 1) + bf 3 3 (rw R_jac2 2) (mget (xyF S)) (rw R 0) + bf 3 3 (rw R 2) (mget (xyF S)) (rw R_jac2 0);
      bf 3 9 (rw R_jac2 0) (z1P S) (cols9 R) + bf 3 9 (rw R 0) (z1P S) (cols9 R_jac2) + bf 3 9 (rw R_jac2 0) (z2P S) (rows9 R) + bf 3 9 (rw R 0) (z2P S) (rows9 R_jac2) + - (1) * bf 3 9 (rw R_jac2 2) (x1P S) (cols9 R) + - (1) * bf 3 9 (rw R 2) (x1P S) (cols9 R_jac2) + - (1) * bf 3 9 (rw R_jac2 2) (x2P S) (rows9 R) + - (1) * bf 3 9 (rw R 2) (x2P S) (rows9 R_jac2)];
     [bf 3 3 (rw R_jac2 2) (mget (xyF S)) (rw R 1) + bf 3 3 (rw R 2) (mget (xyF S)) (rw R_jac2 1) + - (1) * bf 3 3 (rw R_jac2 2) (mget (yyF S)) (rw R 0) + - (1) * bf 3 3 (rw R 2) (mget (yyF S)) (rw R_jac2 0) + - (2) * bf 3 3 (rw R_jac2 1) (mget (zxF S)) (rw R 1) + bf 3 3 (rw R_jac2 1) (mget (yzF S)) (rw R 0) + bf 3 3 (rw R 1) (mget (yzF S)) (rw R_jac2 0);
      bf 3 3 (rw R_jac2 0) (mget (zxF S)) (rw R 1) + bf 3 3 (rw R 0) (mget (zxF S)) (rw R_jac2 1) + - (2) * bf 3 3 (rw R_jac2 0) (mget (yzF S)) (rw R 0) + - (1) * bf 3 3 (rw R_jac2 2) (mget (xxF S)) (rw R 1) + - (1) * bf 3 3 (rw R 2) (mget (xxF S)) (rw R_jac2 1) + bf 3 3 (rw R_jac2 2) (mget (xyF S)) (rw R 0) + bf 3 3 (rw R 2) (mget (xyF S)) (rw R_jac2 0);
      2 * bf 3 3 (rw R_jac2 1) (mget (xxF S)) (rw R 1) + - (2) * bf 3 3 (rw R_jac2 0) (mget (xyF S)) (rw R 1) + - (2) * bf 3 3 (rw R 0) (mget (xyF S)) (rw R_jac2 1) + 2 * bf 3 3 (rw R_jac2 0) (mget (yyF S)) (rw R 0);
      bf 3 9 (rw R_jac2 1) (x1P S) (cols9 R) + bf 3 9 (rw R 1) (x1P S) (cols9 R_jac2) + bf 3 9 (rw R_jac2 1) (x2P S) (rows9 R) + bf 3 9 (rw R 1) (x2P S) (rows9 R_jac2) + - (1) * bf 3 9 (rw R_jac2 0) (y1P S) (cols9 R) + - (1) * bf 3 9 (rw R 0) (y1P S) (cols9 R_jac2) + - (1) * bf 3 9 (rw R_jac2 0) (y2P S) (rows9 R) + - (1) * bf 3 9 (rw R 0) (y2P S) (rows9 R_jac2)];
     [bf 3 9 (rw R_jac2 2) (y1P S) (cols9 R) + bf 3 9 (rw R 2) (y1P S) (cols9 R_jac2) + bf 3 9 (rw R_jac2 2) (y2P S) (rows9 R) + bf 3 9 (rw R 2) (y2P S) (rows9 R_jac2) + - (1) * bf 3 9 (rw R_jac2 1) (z1P S) (cols9 R) + - (1) * bf 3 9 (rw R 1) (z1P S) (cols9 R_jac2) + - (1) * bf 3 9 (rw R_jac2 1) (z2P S) (rows9 R) + - (1) * bf 3 9 (rw R 1) (z2P S) (rows9 R_jac2);
      bf 3 9 (rw R_jac2 0) (z1P S) (cols9 R) + bf 3 9 (rw R 0) (z1P S) (cols9 R_jac2) + bf 3 9 (rw R_jac2 0) (z2P S) (rows9 R) + bf 3 9 (rw R 0) (z2P S) (rows9 R_jac2) + - (1) * bf 3 9 (rw R_jac2 2) (x1P S) (cols9 R) + - (1) * bf 3 9 (rw R 2) (x1P S) (cols9 R_jac2) + - (1) * bf 3 9 (rw R_jac2 2) (x2P S) (rows9 R) + - (1) * bf 3 9 (rw R 2) (x2P S) (rows9 R_jac2);
      bf 3 9 (rw R_jac2 1) (x1P S) (cols9 R) + bf 3 9 (rw R 1) (x1P S) (cols9 R_jac2) + bf 3 9 (rw R_jac2 1) (x2P S) (rows9 R) + bf 3 9 (rw R 1) (x2P S) (rows9 R_jac2) + - (1) * bf 3 9 (rw R_jac2 0) (y1P S) (cols9 R) + - (1) * bf 3 9 (rw R 0) (y1P S) (cols9 R_jac2) + - (1) * bf 3 9 (rw R_jac2 0) (y2P S) (rows9 R) + - (1) * bf 3 9 (rw R 0) (y2P S) (rows9 R_jac2);
      - (2) * bf 9 9 (cols9 R) (m11P S) (cols9 R_jac2) + - (2) * bf 9 9 (rows9 R_jac2) (m22P S) (rows9 R) + - (2) * bf 9 9 (rows9 R_jac2) (m12P S) (cols9 R) + - (2) * bf 9 9 (rows9 R) (m12P S) (cols9 R_jac2)]] []) 0.
(** G_jac3 of composeGwithJacobians, ge/modules.cpp 483-1032 *)
Definition G_jac3 (S : gsums) (c : vec3) : nat -> nat -> R :=
  let R := cayley2rot_reduced c in let R_jac1 := R_jac1 c in let R_jac2 := R_jac2 c in let R_jac3 := R_jac3 c in
  fun i j => nth j (nth i
    [[2 * bf 3 3 (rw R_jac3 2) (mget (yyF S)) (rw R 2) + - (2) * bf 3 3 (rw R_jac3 2) (mget (yzF S)) (rw R 1) + - (2) * bf 3 3 (rw R 2) (mget (yzF S)) (rw R_jac3 1) + 2 * bf 3 3 (rw R_jac3 1) (mget (zzF S)) (rw R 1);
      bf 3 3 (rw R_jac3 2) (mget (yzF S)) (rw R 0) + bf 3 3 (rw R 2) (mget (yzF S)) (rw R_jac3 0) + - (2) * bf 3 3 (rw R_jac3 2) (mget (xyF S)) (rw R 2) + - (1) * bf 3 3 (rw R_jac3 1) (mget (zzF S)) (rw R 0) + - (1) * bf 3 3 (rw R 1) (mget (zzF S)) (rw R_jac3 0) + bf 3 3 (rw R_jac3 1) (mget (zxF S)) (rw R 2) + bf 3 3 (rw R 1) (mget (zxF S)) (rw R_jac3 2);
      bf 3 3 (rw R_jac3 2) (mget (xyF S)) (rw R 1) + bf 3 3 (rw R 2) (mget (xyF S)) (rw R_jac3 1) + - (1) * bf 3 3 (rw R_jac3 2) (mget (yyF S)) (rw R 0) + - (1) * bf 3 3 (rw R 2) (mget (yyF S)) (rw R_jac3 0) + - (2) * bf 3 3 (rw R_jac3 1) (mget (zxF S)) (rw R 1) + bf 3 3 (rw R_jac3 1) (mget (yzF S)) (rw R 0) + bf 3 3 (rw R 1) (mget (yzF S)) (rw R_jac3 0);
      bf 3 9 (rw R_jac3 2) (y1P S) (cols9 R) + bf 3 9 (rw R 2) (y1P S) (cols9 R_jac3) + bf 3 9 (rw R_jac3 2) (y2P S) (rows9 R) + bf 3 9 (rw R 2) (y2P S) (rows9 R_jac3) + - (1) * bf 3 9 (rw R_jac3 1) (z1P S) (cols9 R) + - (1) * bf 3 9 (rw R 1) (z1P S) (cols9 R_jac3) + - (1) * bf 3 9 (rw R_jac3 1) (z2P S) (rows9 R) + - (1) * bf 3 9 (rw R 1) (z2P S) (rows9 R_jac3)];
     [bf 3 3 (rw R_jac3 2) (mget (yzF S)) (rw R 0) + bf 3 3 (rw R 2) (mget (yzF S)) (rw R_jac3 0) + - (2) * bf 3 3 (rw R_jac3 2) (mget (xyF S)) (rw R 2) + - (1) * bf 3 3 (rw R_jac3 1) (mget (zzF S)) (rw R 0) + - (1) * bf 3 3 (rw R 1) (mget (zzF S)) (rw R_jac3 0) + bf 3 3 (rw R_jac3 1) (mget (zxF S)) (rw R 2) + bf 3 3 (rw R 1) (mget (zxF S)) (rw R_jac3 2);
      2 * bf 3 3 (rw R_jac3 0) (mget (zzF S)) (rw R 0) + - (2) * bf 3 3 (rw R_jac3 0) (mget (zxF S)) (rw R 2) + - (2) * bf 3 3 (rw R 0) (mget (zxF S)) (rw R_jac3 2) + 2 * bf 3 3 (rw R_jac3 2) (mget (xxF S)) (rw R 2);
      bf 3 3 (rw R_jac3 0) (mget (zxF S)) (rw R 1) + bf 3 3 (rw R 0) (mget (zxF S)) (rw R_jac3 1) + - (2) * bf 3 3 (rw R_jac3 0) (mget (yzF S)) (rw R 0) + - (1) * bf 3 3 (rw R_jac3 2) (mget (xxF S)) (rw R 1) + - (1) * bf 3 3 (rw R 2) (mget (xxF S)) (rw R_jac3 1) + bf 3 3 (rw R_jac3 2) (mget (xyF S)) (rw R 0) + bf 3 3 (rw R 2) (mget (xyF S)) (rw R_jac3 0);
      bf 3 9 (rw R_jac3 0) (z1P S) (cols9 R) + bf 3 9 (rw R 0) (z1P S) (cols9 R_jac3) + bf 3 9 (rw R_jac3 0) (z2P S) (rows9 R) + bf 3 9 (rw R 0) (z2P S) (rows9 R_jac3) + - (1) * bf 3 9 (rw R_jac3 2) (x1P S) (cols9 R) + - (1) * bf 3 9 (rw R 2) (x1P S) (cols9 R_jac3) + - (1) * bf 3 9 (rw R_jac3 2) (x2P S) (rows9 R) + - (1) * bf 3 9 (rw R 2) (x2P S) (rows9 R_jac3)];
     [bf 3 3 (rw R_jac3 2) (mget (xyF S)) (rw R 1) + bf 3 3 (rw R 2) (mget (xyF S)) (rw R_jac3 1) + - (1) * bf 3 3 (rw R_jac3 2) (mget (yyF S)) (rw R 0) + - (1) * bf 3 3 (rw R 2) (mget (yyF S)) (rw R_jac3 0) + - (2) * bf 3 3 (rw R_jac3 1) (mget (zxF S)) (rw R 1) + bf 3 3 (rw R_jac3 1) (mget (yzF S)) (rw R 0) + bf 3 3 (rw R 1) (mget (yzF S)) (rw R_jac3 0);
      bf 3 3 (rw R_jac3 0) (mget (zxF S)) (rw R 1) + bf 3 3 (rw R 0) (mget (zxF S)) (rw R_jac3 1) + - (2) * bf 3 3 (rw R_jac3 0) (mget (yzF S)) (rw R 0) + - (1) * bf 3 3 (rw R_jac3 2) (mget (xxF S)) (rw R 1) + - (1) * bf 3 3 (rw R 2) (mget (xxF S)) (rw R_jac3 1) + bf 3 3 (rw R_jac3 2) (mget (xyF S)) (rw R 0) + bf 3 3 (rw R 2) (mget (xyF S)) (rw R_jac3 0);
      2 * bf 3 3 (rw R_jac3 1) (mget (xxF S)) (rw R 1) + - (2) * bf 3 3 (rw R_jac3 0) (mget (xyF S)) (rw R 1) + - (2) * bf 3 3 (rw R 0) (mget (xyF S)) (rw R_jac3 1) + 2 * bf 3 3 (rw R_jac3 0) (mget (yyF S)) (rw R 0);
      bf 3 9 (rw R_jac3 1) (x1P S) (cols9 R) + bf 3 9 (rw R 1) (x1P S) (cols9 R_jac3) + bf 3 9 (rw R_jac3 1) (x2P S) (rows9 R) + bf 3 9 (rw R 1) (x2P S) (rows9 R_jac3) + - (1) * bf 3 9 (rw R_jac3 0) (y1P S) (cols9 R) + - (1) * bf 3 9 (rw R 0) (y1P S) (cols9 R_jac3) + - (1) * bf 3 9 (rw R_jac3 0) (y2P S) (rows9 R) + - (1) * bf 3 9 (rw R 0) (y2P S) (rows9 R_jac3)];
     [bf 3 9 (rw R_jac3 2) (y1P S) (cols9 R) + bf 3 9 (rw R 2) (y1P S) (cols9 R_jac3) + bf 3 9 (rw R_jac3 2) (y2P S) (rows9 R) + bf 3 9 (rw R 2) (y2P S) (rows9 R_jac3) + - (1) * bf 3 9 (rw R_jac3 1) (z1P S) (cols9 R) + - (1) * bf 3 9 (rw R 1) (z1P S) (cols9 R_jac3) + - (1) * bf 3 9 (rw R_jac3 1) (z2P S) (rows9 R) + - (1) * bf 3 9 (rw R 1) (z2P S) (rows9 R_jac3);
      bf 3 9 (rw R_jac3 0) (z1P S) (cols9 R) + bf 3 9 (rw R 0) (z1P S) (cols9 R_jac3) + bf 3 9 (rw R_jac3 0) (z2P S) (rows9 R) + bf 3 9 (rw R 0) (z2P S) (rows9 R_jac3) + - (1) * bf 3 9 (rw R_jac3 2) (x1P S) (cols9 R) + - (1) * bf 3 9 (rw R 2) (x1P S) (cols9 R_jac3) + - (1) * bf 3 9 (rw R_jac3 2) (x2P S) (rows9 R) + - (1) * bf 3 9 (rw R 2) (x2P S) (rows9 R_jac3);
      bf 3 9 (rw R_jac3 1) (x1P S) (cols9 R) + bf 3 9 (rw R 1) (x1P S) (cols9 R_jac3) + bf 3 9 (rw R_jac3 1) (x2P S) (rows9 R) + bf 3 9 (rw R 1) (x2P S) (rows9 R_jac3) + - (1) * bf 3 9 (rw R_jac3 0) (y1P S) (cols9 R) + - (1) * bf 3 9 (rw R 0) (y1P S) (cols9 R_jac3) + - (1) * bf 3 9 (rw R_jac3 0) (y2P S) (rows9 R) + - (1) * bf 3 9 (rw R 0) (y2P S) (rows9 R_jac3);
      - (2) * bf 9 9 (cols9 R) (m11P S) (cols9 R_jac3) + - (2) * bf 9 9 (rows9 R_jac3) (m22P S) (rows9 R) + - (2) * bf 9 9 (rows9 R_jac3) (m12P S) (cols9 R) + - (2) * bf 9 9 (rows9 R) (m12P S) (cols9 R_jac3)]] []) 0.
