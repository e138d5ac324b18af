(** Summation terms of the eigensolver and the generalized eigensolver,
    src/relative_pose/methods.cpp 496-540 and 655-770, over the reals. *)
From Coq Require Import Reals List.
From Verif Require Import Lin GenLin.
Local Open Scope R_scope.

(** row i of a 3x3 matrix; u^T A v for m x n A (the code's u*A*v with row
    vectors, which is evaluated from the left in the code) *)
Definition rw (M : mat3) (i : nat) : nat -> R := mget M i.
Definition bf (m n : nat) (u : nat -> R) (A : nat -> nat -> R) (v : nat -> R) : R :=
  sumn m (fun i => u i * sumn n (fun j => A i j * v j)).
(** Rows and Cols, ge/modules.cpp 401-411 *)
Definition rows9 (M : mat3) (k : nat) : R := mget M (Nat.div k 3) (Nat.modulo k 3).
Definition cols9 (M : mat3) (k : nat) : R := mget M (Nat.modulo k 3) (Nat.div k 3).

(** the six 3x3 sums *)
Record fsums := FS { xxF : mat3; yyF : mat3; zzF : mat3; xyF : mat3; yzF : mat3; zxF : mat3 }.
Definition fs0 : fsums := FS mzero mzero mzero mzero mzero mzero.
(** one step of the accumulation loop, methods.cpp 518-534 (ge: 693-712);
    a correspondence is (weight, f1, f2) *)
Definition fs_step (S : fsums) (q : R * (vec3 * vec3)) : fsums :=
  let '(w, (f1, f2)) := q in
  let F := outer f2 f2 in
  FS (madd (xxF S) (mscale (w * vx f1 * vx f1) F)) (madd (yyF S) (mscale (w * vy f1 * vy f1) F))
     (madd (zzF S) (mscale (w * vz f1 * vz f1) F)) (madd (xyF S) (mscale (w * vx f1 * vy f1) F))
     (madd (yzF S) (mscale (w * vy f1 * vz f1) F)) (madd (zxF S) (mscale (w * vz f1 * vx f1) F)).
Definition fs_accumulate (l : list (R * (vec3 * vec3))) : fsums := fold_left fs_step l fs0.
