(** Model of triangulate, src/triangulation/methods.cpp 33-66, over the reals. *)
From Coq Require Import Reals.
From Verif Require Import Lin GenLin.
Local Open Scope R_scope.

(** the k-th entry of a 3-vector *)
Definition ventry (v : vec3) (k : nat) : R := match k with O => vx v | 1%nat => vy v | _ => vz v end.
Definition mrow3 (M : mat3) (i : nat) : vec3 := match i with O => V3 (m00 M) (m01 M) (m02 M) | 1%nat => V3 (m10 M) (m11 M) (m12 M) | _ => V3 (m20 M) (m21 M) (m22 M) end.
(** the 3x4 projection matrix [M | p] *)
Definition proj (M : mat3) (p : vec3) (i j : nat) : R := if Nat.eqb j 3 then ventry p i else ventry (mrow3 M i) j.
(** P1 = [I | 0], P2 = [R12^T | -R12^T t12], lines 38-45 *)
Definition P1 : nat -> nat -> R := proj mid v0.
Definition P2 (R12 : mat3) (t12 : vec3) : nat -> nat -> R := proj (mT R12) (vneg (mv (mT R12) t12)).
(** the matrix A, lines 49-53 *)
Definition triA (R12 : mat3) (t12 f1 f2 : vec3) (i j : nat) : R :=
  match i with
  | O => vx f1 * P1 2 j - vz f1 * P1 0 j
  | 1%nat => vy f1 * P1 2 j - vz f1 * P1 1 j
  | 2%nat => vx f2 * P2 R12 t12 2 j - vz f2 * P2 R12 t12 0 j
  | _ => vy f2 * P2 R12 t12 2 j - vz f2 * P2 R12 t12 1 j
  end.
(** lines 55-62; [svdV] is matrixV() of the JacobiSVD of A.  [None]: V(3,3) = 0,
    so that the result is infinite or NaN. *)
Definition triangulate (svdV : (nat -> nat -> R) -> nat -> nat -> R) (R12 : mat3) (t12 f1 f2 : vec3) : option vec3 :=
  let V := svdV (triA R12 t12 f1 f2) in
  if Req_EM_T (V 3%nat 3%nat) 0 then None
  else Some (vdivs (V3 (V 0%nat 3%nat) (V 1%nat 3%nat) (V 2%nat 3%nat)) (V 3%nat 3%nat)).
