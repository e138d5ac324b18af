(** GENERATED by tools/gen_eig.py from src/relative_pose/modules/eigensolver/modules.cpp: do not edit. *)
From Coq Require Import Reals List.
From Verif Require Import Lin RotModel EigSums.
Import ListNotations.
Local Open Scope R_scope.
(** the return value of composeM, eigensolver/modules.cpp 199-258 *)
Definition composeM (S : fsums) (c : vec3) : mat3 :=
  let R := cayley2rot_reduced c in
  M3
     (bf 3 3 (rw R 2) (mget (yyF S)) (rw R 2) + - (2) * bf 3 3 (rw R 2) (mget (yzF S)) (rw R 1) + bf 3 3 (rw R 1) (mget (zzF S)) (rw R 1))
     (bf 3 3 (rw R 2) (mget (yzF S)) (rw R 0) + - (1) * bf 3 3 (rw R 2) (mget (xyF S)) (rw R 2) + - (1) * bf 3 3 (rw R 1) (mget (zzF S)) (rw R 0) + bf 3 3 (rw R 1) (mget (zxF S)) (rw R 2))
     (bf 3 3 (rw R 2) (mget (xyF S)) (rw R 1) + - (1) * bf 3 3 (rw R 2) (mget (yyF S)) (rw R 0) + - (1) * bf 3 3 (rw R 1) (mget (zxF S)) (rw R 1) + bf 3 3 (rw R 1) (mget (yzF S)) (rw R 0))
     (bf 3 3 (rw R 2) (mget (yzF S)) (rw R 0) + - (1) * bf 3 3 (rw R 2) (mget (xyF S)) (rw R 2) + - (1) * bf 3 3 (rw R 1) (mget (zzF S)) (rw R 0) + bf 3 3 (rw R 1) (mget (zxF S)) (rw R 2))
     (bf 3 3 (rw R 0) (mget (zzF S)) (rw R 0) + - (2) * bf 3 3 (rw R 0) (mget (zxF S)) (rw R 2) + bf 3 3 (rw R 2) (mget (xxF S)) (rw R 2))
     (bf 3 3 (rw R 0) (mget (zxF S)) (rw R 1) + - (1) * bf 3 3 (rw R 0) (mget (yzF S)) (rw R 0) + - (1) * bf 3 3 (rw R 2) (mget (xxF S)) (rw R 1) + bf 3 3 (rw R 2) (mget (xyF S)) (rw R 0))
     (bf 3 3 (rw R 2) (mget (xyF S)) (rw R 1) + - (1) * bf 3 3 (rw R 2) (mget (yyF S)) (rw R 0) + - (1) * bf 3 3 (rw R 1) (mget (zxF S)) (rw R 1) + bf 3 3 (rw R 1) (mget (yzF S)) (rw R 0))
     (bf 3 3 (rw R 0) (mget (zxF S)) (rw R 1) + - (1) * bf 3 3 (rw R 0) (mget (yzF S)) (rw R 0) + - (1) * bf 3 3 (rw R 2) (mget (xxF S)) (rw R 1) + bf 3 3 (rw R 2) (mget (xyF S)) (rw R 0))
     (bf 3 3 (rw R 1) (mget (xxF S)) (rw R 1) + - (2) * bf 3 3 (rw R 0) (mget (xyF S)) (rw R 1) + bf 3 3 (rw R 0) (mget (yyF S)) (rw R 0)).
(** R_jac1, eigensolver/modules.cpp 272-569 *)
Definition R_jac1 (c : vec3) : mat3 := M3 (2 * vx c) (2 * vy c) (2 * vz c) (2 * vy c) (- (2) * vx c) (- (2)) (2 * vz c) (2) (- (2) * vx c).
(** R_jac2, eigensolver/modules.cpp 272-569 *)
Definition R_jac2 (c : vec3) : mat3 := M3 (- (2) * vy c) (2 * vx c) (2) (2 * vx c) (2 * vy c) (2 * vz c) (- (2)) (2 * vz c) (- (2) * vy c).
(** R_jac3, eigensolver/modules.cpp 272-569 *)
Definition R_jac3 (c : vec3) : mat3 := M3 (- (2) * vz c) (- (2)) (2 * vx c) (2) (- (2) * vz c) (2 * vy c) (2 * vx c) (2 * vy c) (2 * vz c).
(** the return value of composeMwithJacobians, eigensolver/modules.cpp 272-569 *)
Definition composeMJ (S : fsums) (c : vec3) : mat3 :=
  let R := cayley2rot_reduced c in let R_jac1 := R_jac1 c in let R_jac2 := R_jac2 c in let R_jac3 := R_jac3 c in
  M3
     (bf 3 3 (rw R 2) (mget (yyF S)) (rw R 2) + - (2) * bf 3 3 (rw R 2) (mget (yzF S)) (rw R 1) + bf 3 3 (rw R 1) (mget (zzF S)) (rw R 1))
     (bf 3 3 (rw R 2) (mget (yzF S)) (rw R 0) + - (1) * bf 3 3 (rw R 2) (mget (xyF S)) (rw R 2) + - (1) * bf 3 3 (rw R 1) (mget (zzF S)) (rw R 0) + bf 3 3 (rw R 1) (mget (zxF S)) (rw R 2))
     (bf 3 3 (rw R 2) (mget (xyF S)) (rw R 1) + - (1) * bf 3 3 (rw R 2) (mget (yyF S)) (rw R 0) + - (1) * bf 3 3 (rw R 1) (mget (zxF S)) (rw R 1) + bf 3 3 (rw R 1) (mget (yzF S)) (rw R 0))
     (bf 3 3 (rw R 2) (mget (yzF S)) (rw R 0) + - (1) * bf 3 3 (rw R 2) (mget (xyF S)) (rw R 2) + - (1) * bf 3 3 (rw R 1) (mget (zzF S)) (rw R 0) + bf 3 3 (rw R 1) (mget (zxF S)) (rw R 2))
     (bf 3 3 (rw R 0) (mget (zzF S)) (rw R 0) + - (2) * bf 3 3 (rw R 0) (mget (zxF S)) (rw R 2) + bf 3 3 (rw R 2) (mget (xxF S)) (rw R 2))
     (bf 3 3 (rw R 0) (mget (zxF S)) (rw R 1) + - (1) * bf 3 3 (rw R 0) (mget (yzF S)) (rw R 0) + - (1) * bf 3 3 (rw R 2) (mget (xxF S)) (rw R 1) + bf 3 3 (rw R 2) (mget (xyF S)) (rw R 0))
     (bf 3 3 (rw R 2) (mget (xyF S)) (rw R 1) + - (1) * bf 3 3 (rw R 2) (mget (yyF S)) (rw R 0) + - (1) * bf 3 3 (rw R 1) (mget (zxF S)) (rw R 1) + bf 3 3 (rw R 1) (mget (yzF S)) (rw R 0))
     (bf 3 3 (rw R 0) (mget (zxF S)) (rw R 1) + - (1) * bf 3 3 (rw R 0) (mget (yzF S)) (rw R 0) + - (1) * bf 3 3 (rw R 2) (mget (xxF S)) (rw R 1) + bf 3 3 (rw R 2) (mget (xyF S)) (rw R 0))
     (bf 3 3 (rw R 1) (mget (xxF S)) (rw R 1) + - (2) * bf 3 3 (rw R 0) (mget (xyF S)) (rw R 1) + bf 3 3 (rw R 0) (mget (yyF S)) (rw R 0)).
(** M_jac1 of composeMwithJacobians, eigensolver/modules.cpp 272-569 *)
Definition M_jac1 (S : fsums) (c : vec3) : mat3 :=
  let R := cayley2rot_reduced c in let R_jac1 := R_jac1 c in let R_jac2 := R_jac2 c in let R_jac3 := R_jac3 c in
  M3
     (2 * bf 3 3 (rw R_jac1 2) (mget (yyF S)) (rw R 2) + - (2) * bf 3 3 (rw R_jac1 2) (mget (yzF S)) (rw R 1) + - (2) * bf 3 3 (rw R 2) (mget (yzF S)) (rw R_jac1 1) + 2 * bf 3 3 (rw R_jac1 1) (mget (zzF S)) (rw R 1))
     (bf 3 3 (rw R_jac1 2) (mget (yzF S)) (rw R 0) + bf 3 3 (rw R 2) (mget (yzF S)) (rw R_jac1 0) + - (2) * bf 3 3 (rw R_jac1 2) (mget (xyF S)) (rw R 2) + - (1) * bf 3 3 (rw R_jac1 1) (mget (zzF S)) (rw R 0) + - (1) * bf 3 3 (rw R 1) (mget (zzF S)) (rw R_jac1 0) + bf 3 3 (rw R_jac1 1) (mget (zxF S)) (rw R 2) + bf 3 3 (rw R 1) (mget (zxF S)) (rw R_jac1 2))
     (bf 3 3 (rw R_jac1 2) (mget (xyF S)) (rw R 1) + bf 3 3 (rw R 2) (mget (xyF S)) (rw R_jac1 1) + - (1) * bf 3 3 (rw R_jac1 2) (mget (yyF S)) (rw R 0) + - (1) * bf 3 3 (rw R 2) (mget (yyF S)) (rw R_jac1 0) + - (2) * bf 3 3 (rw R_jac1 1) (mget (zxF S)) (rw R 1) + bf 3 3 (rw R_jac1 1) (mget (yzF S)) (rw R 0) + bf 3 3 (rw R 1) (mget (yzF S)) (rw R_jac1 0))
     (bf 3 3 (rw R_jac1 2) (mget (yzF S)) (rw R 0) + bf 3 3 (rw R 2) (mget (yzF S)) (rw R_jac1 0) + - (2) * bf 3 3 (rw R_jac1 2) (mget (xyF S)) (rw R 2) + - (1) * bf 3 3 (rw R_jac1 1) (mget (zzF S)) (rw R 0) + - (1) * bf 3 3 (rw R 1) (mget (zzF S)) (rw R_jac1 0) + bf 3 3 (rw R_jac1 1) (mget (zxF S)) (rw R 2) + bf 3 3 (rw R 1) (mget (zxF S)) (rw R_jac1 2))
     (2 * bf 3 3 (rw R_jac1 0) (mget (zzF S)) (rw R 0) + - (2) * bf 3 3 (rw R_jac1 0) (mget (zxF S)) (rw R 2) + - (2) * bf 3 3 (rw R 0) (mget (zxF S)) (rw R_jac1 2) + 2 * bf 3 3 (rw R_jac1 2) (mget (xxF S)) (rw R 2))
     (bf 3 3 (rw R_jac1 0) (mget (zxF S)) (rw R 1) + bf 3 3 (rw R 0) (mget (zxF S)) (rw R_jac1 1) + - (2) * bf 3 3 (rw R_jac1 0) (mget (yzF S)) (rw R 0) + - (1) * bf 3 3 (rw R_jac1 2) (mget (xxF S)) (rw R 1) + - (1) * bf 3 3 (rw R 2) (mget (xxF S)) (rw R_jac1 1) + bf 3 3 (rw R_jac1 2) (mget (xyF S)) (rw R 0) + bf 3 3 (rw R 2) (mget (xyF S)) (rw R_jac1 0))
     (bf 3 3 (rw R_jac1 2) (mget (xyF S)) (rw R 1) + bf 3 3 (rw R 2) (mget (xyF S)) (rw R_jac1 1) + - (1) * bf 3 3 (rw R_jac1 2) (mget (yyF S)) (rw R 0) + - (1) * bf 3 3 (rw R 2) (mget (yyF S)) (rw R_jac1 0) + - (2) * bf 3 3 (rw R_jac1 1) (mget (zxF S)) (rw R 1) + bf 3 3 (rw R_jac1 1) (mget (yzF S)) (rw R 0) + bf 3 3 (rw R 1) (mget (yzF S)) (rw R_jac1 0))
     (bf 3 3 (rw R_jac1 0) (mget (zxF S)) (rw R 1) + bf 3 3 (rw R 0) (mget (zxF S)) (rw R_jac1 1) + - (2) * bf 3 3 (rw R_jac1 0) (mget (yzF S)) (rw R 0) + - (1) * bf 3 3 (rw R_jac1 2) (mget (xxF S)) (rw R 1) + - (1) * bf 3 3 (rw R 2) (mget (xxF S)) (rw R_jac1 1) + bf 3 3 (rw R_jac1 2) (mget (xyF S)) (rw R 0) + bf 3 3 (rw R 2) (mget (xyF S)) (rw R_jac1 0))
     (2 * bf 3 3 (rw R_jac1 1) (mget (xxF S)) (rw R 1) + - (2) * bf 3 3 (rw R_jac1 0) (mget (xyF S)) (rw R 1) + - (2) * bf 3 3 (rw R 0) (mget (xyF S)) (rw R_jac1 1) + 2 * bf 3 3 (rw R_jac1 0) (mget (yyF S)) (rw R 0)).
(** M_jac2 of composeMwithJacobians, eigensolver/modules.cpp 272-569 *)
Definition M_jac2 (S : fsums) (c : vec3) : mat3 :=
  let R := cayley2rot_reduced c in let R_jac1 := R_jac1 c in let R_jac2 := R_jac2 c in let R_jac3 := R_jac3 c in
  M3
     (2 * bf 3 3 (rw R_jac2 2) (mget (yyF S)) (rw R 2) + - (2) * bf 3 3 (rw R_jac2 2) (mget (yzF S)) (rw R 1) + - (2) * bf 3 3 (rw R 2) (mget (yzF S)) (rw R_jac2 1) + 2 * bf 3 3 (rw R_jac2 1) (mget (zzF S)) (rw R 1))
     (bf 3 3 (rw R_jac2 2) (mget (yzF S)) (rw R 0) + bf 3 3 (rw R 2) (mget (yzF S)) (rw R_jac2 0) + - (2) * bf 3 3 (rw R_jac2 2) (mget (xyF S)) (rw R 2) + - (1) * bf 3 3 (rw R_jac2 1) (mget (zzF S)) (rw R 0) + - (1) * bf 3 3 (rw R 1) (mget (zzF S)) (rw R_jac2 0) + bf 3 3 (rw R_jac2 1) (mget (zxF S)) (rw R 2) + bf 3 3 (rw R 1) (mget (zxF S)) (rw R_jac2 2))
     (bf 3 3 (rw R_jac2 2) (mget (xyF S)) (rw R 1) + bf 3 3 (rw R 2) (mget (xyF S)) (rw R_jac2 1) + - (1) * bf 3 3 (rw R_jac2 2) (mget (yyF S)) (rw R 0) + - (1) * bf 3 3 (rw R 2) (mget (yyF S)) (rw R_jac2 0) + - (2) * bf 3 3 (rw R_jac2 1) (mget (zxF S)) (rw R 1) + bf 3 3 (rw R_jac2 1) (mget (yzF S)) (rw R 0) + bf 3 3 (rw R 1) (mget (yzF S)) (rw R_jac2 0))
     (bf 3 3 (rw R_jac2 2) (mget (yzF S)) (rw R 0) + bf 3 3 (rw R 2) (mget (yzF S)) (rw R_jac2 0) + - (2) * bf 3 3 (rw R_jac2 2) (mget (xyF S)) (rw R 2) + - (1) * bf 3 3 (rw R_jac2 1) (mget (zzF S)) (rw R 0) + - (1) * bf 3 3 (rw R 1) (mget (zzF S)) (rw R_jac2 0) + bf 3 3 (rw R_jac2 1) (mget (zxF S)) (rw R 2) + bf 3 3 (rw R 1) (mget (zxF S)) (rw R_jac2 2))
     (2 * bf 3 3 (rw R_jac2 0) (mget (zzF S)) (rw R 0) + - (2) * bf 3 3 (rw R_jac2 0) (mget (zxF S)) (rw R 2) + - (2) * bf 3 3 (rw R 0) (mget (zxF S)) (rw R_jac2 2) + 2 * bf 3 3 (rw R_jac2 2) (mget (xxF S)) (rw R 2))
     (bf 3 3 (rw R_jac2 0) (mget (zxF S)) (rw R 1) + bf 3 3 (rw R 0) (mget (zxF S)) (rw R_jac2 1) + - (2) * bf 3 3 (rw R_jac2 0) (mget (yzF S)) (rw R 0) + - (1) * bf 3 3 (rw R_jac2 2) (mget (xxF S)) (rw R 1) + - (1) * bf 3 3 (rw R 2) (mget (xxF S)) (rw R_jac2 1) + bf 3 3 (rw R_jac2 2) (mget (xyF S)) (rw R 0) + bf 3 3 (rw R 2) (mget (xyF S)) (rw R_jac2 0))
     (bf 3 3 (rw R_jac2 2) (mget (xyF S)) (rw R 1) + bf 3 3 (rw R 2) (mget (xyF S)) (rw R_jac2 1) + - (1) * bf 3 3 (rw R_jac2 2) (mget (yyF S)) (rw R 0) + - (1) * bf 3 3 (rw R 2) (mget (yyF S)) (rw R_jac2 0) + - (2) * bf 3 3 (rw R_jac2 1) (mget (zxF S)) (rw R 1) + bf 3 3 (rw R_jac2 1) (mget (yzF S)) (rw R 0) + bf 3 3 (rw R 1) (mget (yzF S)) (rw R_jac2 0))
     (bf 3 3 (rw R_jac2 0) (mget (zxF S)) (rw R 1) + bf 3 3 (rw R 0) (mget (zxF S)) (rw R_jac2 1) + - (2) * bf 3 3 (rw R_jac2 0) (mget (yzF S)) (rw R 0) + - (1) * bf 3 3 (rw R_jac2 2) (mget (xxF S)) (rw R 1) + - (1) * bf 3 3 (rw R 2) (mget (xxF S)) (rw R_jac2 1) + bf 3 3 (rw R_jac2 2) (mget (xyF S)) (rw R 0) + bf 3 3 (rw R 2) (mget (xyF S)) (rw R_jac2 0))
     (2 * bf 3 3 (rw R_jac2 1) (mget (xxF S)) (rw R 1) + - (2) * bf 3 3 (rw R_jac2 0) (mget (xyF S)) (rw R 1) + - (2) * bf 3 3 (rw R 0) (mget (xyF S)) (rw R_jac2 1) + 2 * bf 3 3 (rw R_jac2 0) (mget (yyF S)) (rw R 0)).
(** M_jac3 of composeMwithJacobians, eigensolver/modules.cpp 272-569 *)
Definition M_jac3 (S : fsums) (c : vec3) : mat3 :=
  let R := cayley2rot_reduced c in let R_jac1 := R_jac1 c in let R_jac2 := R_jac2 c in let R_jac3 := R_jac3 c in
  M3
     (2 * bf 3 3 (rw R_jac3 2) (mget (yyF S)) (rw R 2) + - (2) * bf 3 3 (rw R_jac3 2) (mget (yzF S)) (rw R 1) + - (2) * bf 3 3 (rw R 2) (mget (yzF S)) (rw R_jac3 1) + 2 * bf 3 3 (rw R_jac3 1) (mget (zzF S)) (rw R 1))
     (bf 3 3 (rw R_jac3 2) (mget (yzF S)) (rw R 0) + bf 3 3 (rw R 2) (mget (yzF S)) (rw R_jac3 0) + - (2) * bf 3 3 (rw R_jac3 2) (mget (xyF S)) (rw R 2) + - (1) * bf 3 3 (rw R_jac3 1) (mget (zzF S)) (rw R 0) + - (1) * bf 3 3 (rw R 1) (mget (zzF S)) (rw R_jac3 0) + bf 3 3 (rw R_jac3 1) (mget (zxF S)) (rw R 2) + bf 3 3 (rw R 1) (mget (zxF S)) (rw R_jac3 2))
     (bf 3 3 (rw R_jac3 2) (mget (xyF S)) (rw R 1) + bf 3 3 (rw R 2) (mget (xyF S)) (rw R_jac3 1) + - (1) * bf 3 3 (rw R_jac3 2) (mget (yyF S)) (rw R 0) + - (1) * bf 3 3 (rw R 2) (mget (yyF S)) (rw R_jac3 0) + - (2) * bf 3 3 (rw R_jac3 1) (mget (zxF S)) (rw R 1) + bf 3 3 (rw R_jac3 1) (mget (yzF S)) (rw R 0) + bf 3 3 (rw R 1) (mget (yzF S)) (rw R_jac3 0))
     (bf 3 3 (rw R_jac3 2) (mget (yzF S)) (rw R 0) + bf 3 3 (rw R 2) (mget (yzF S)) (rw R_jac3 0) + - (2) * bf 3 3 (rw R_jac3 2) (mget (xyF S)) (rw R 2) + - (1) * bf 3 3 (rw R_jac3 1) (mget (zzF S)) (rw R 0) + - (1) * bf 3 3 (rw R 1) (mget (zzF S)) (rw R_jac3 0) + bf 3 3 (rw R_jac3 1) (mget (zxF S)) (rw R 2) + bf 3 3 (rw R 1) (mget (zxF S)) (rw R_jac3 2))
     (2 * bf 3 3 (rw R_jac3 0) (mget (zzF S)) (rw R 0) + - (2) * bf 3 3 (rw R_jac3 0) (mget (zxF S)) (rw R 2) + - (2) * bf 3 3 (rw R 0) (mget (zxF S)) (rw R_jac3 2) + 2 * bf 3 3 (rw R_jac3 2) (mget (xxF S)) (rw R 2))
     (bf 3 3 (rw R_jac3 0) (mget (zxF S)) (rw R 1) + bf 3 3 (rw R 0) (mget (zxF S)) (rw R_jac3 1) + - (2) * bf 3 3 (rw R_jac3 0) (mget (yzF S)) (rw R 0) + - (1) * bf 3 3 (rw R_jac3 2) (mget (xxF S)) (rw R 1) + - (1) * bf 3 3 (rw R 2) (mget (xxF S)) (rw R_jac3 1) + bf 3 3 (rw R_jac3 2) (mget (xyF S)) (rw R 0) + bf 3 3 (rw R 2) (mget (xyF S)) (rw R_jac3 0))
     (bf 3 3 (rw R_jac3 2) (mget (xyF S)) (rw R 1) + bf 3 3 (rw R 2) (mget (xyF S)) (rw R_jac3 1) + - (1) * bf 3 3 (rw R_jac3 2) (mget (yyF S)) (rw R 0) + - (1) * bf 3 3 (rw R 2) (mget (yyF S)) (rw R_jac3 0) + - (2) * bf 3 3 (rw R_jac3 1) (mget (zxF S)) (rw R 1) + bf 3 3 (rw R_jac3 1) (mget (yzF S)) (rw R 0) + bf 3 3 (rw R 1) (mget (yzF S)) (rw R_jac3 0))
     (bf 3 3 (rw R_jac3 0) (mget (zxF S)) (rw R 1) + bf 3 3 (rw R 0) (mget (zxF S)) (rw R_jac3 1) + - (2) * bf 3 3 (rw R_jac3 0) (mget (yzF S)) (rw R 0) + - (1) * bf 3 3 (rw R_jac3 2) (mget (xxF S)) (rw R 1) + - (1) * bf 3 3 (rw R 2) (mget (xxF S)) (rw R_jac3 1) + bf 3 3 (rw R_jac3 2) (mget (xyF S)) (rw R 0) + bf 3 3 (rw R 2) (mget (xyF S)) (rw R_jac3 0))
     (2 * bf 3 3 (rw R_jac3 1) (mget (xxF S)) (rw R 1) + - (2) * bf 3 3 (rw R_jac3 0) (mget (xyF S)) (rw R 1) + - (2) * bf 3 3 (rw R 0) (mget (xyF S)) (rw R_jac3 1) + 2 * bf 3 3 (rw R_jac3 0) (mget (yyF S)) (rw R 0)).
