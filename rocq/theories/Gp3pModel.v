(** Model of gp3p, /repo/src/absolute_pose/methods.cpp 190-232, and of gp3p_main,
    /repo/src/absolute_pose/modules/main.cpp 376-436, over the exact reals.
    Definitions only.  The coefficient matrix and the elimination template are in
    Gp3pInit.v and Gp3pData.v.  The EigenSolver is the argument [eig]: the
    eigenvalues and the eigenvectors (column by column) of an 8x8 matrix. *)
From Coq Require Import Reals List Arith.
From Verif Require Import Lin GenLin Cplx RotModel GeoModel GbModel Gp3pData Gp3pInit.
Import ListNotations.
Local Open Scope R_scope.

(** M, main.cpp 388-391 *)
Definition gp_M (G : gmat) : nat -> nat -> R := fun i j =>
  if Nat.ltb i 6 then - G (36 + i)%nat (77 + j)%nat
  else if Nat.eqb i 6 then delta j 0 else delta j 6.
(** 404-412: cay and depth.  The code fills cayley[2-i] from row i+4 and n[2-i]
    from row i+1. *)
Definition gp_cayley (w : nat -> cx) : vec3 :=
  V3 (re (cdiv (w 6%nat) (w 7%nat))) (re (cdiv (w 5%nat) (w 7%nat))) (re (cdiv (w 4%nat) (w 7%nat))).
Definition gp_depth (w : nat -> cx) (i : nat) : R := re (cdiv (w (3 - i)%nat) (w 7%nat)).
(** 414-434: the pose of one eigenvector *)
Definition gp_pose (f v p : nat -> vec3) (cayley : vec3) (n : nat -> R) : pose :=
  let rotation := mT (cayley2rot cayley) in
  let temp i := mv rotation (vadd (vscale (n i) (f i)) (v i)) in
  let center_cam := vscale (1 / 3) (vadd (vadd (vadd v0 (temp 0%nat)) (temp 1%nat)) (temp 2%nat)) in
  let center_world := vscale (1 / 3) (vadd (vadd (vadd v0 (p 0%nat)) (p 1%nat)) (p 2%nat)) in
  Pose rotation (vsub center_world center_cam).
(** 397-435, one column: nothing is pushed when the test fails; [None] stands for
    a pose that is not a number (division by a zero last component). *)
Definition gp_column (f v p : nat -> vec3) (lam : cx) (w : nat -> cx) : list (option pose) :=
  if Rlt_dec (im lam) (1 / 10000)
  then [if ceqb (w 7%nat) c0 then None else Some (gp_pose f v p (gp_cayley w) (gp_depth w))]
  else [].
(** gp3p_main, 376-436; [None]: the elimination divides by zero *)
Definition gp3p_main (eig : (nat -> nat -> R) -> (nat -> cx) * (nat -> nat -> cx)) (f v p : nat -> vec3)
    : option (list (option pose)) :=
  match grun gp_compute (gp_init f v p) with
  | None => None
  | Some G =>
      let D := fst (eig (gp_M G)) in
      let V := snd (eig (gp_M G)) in
      Some (flat_map (fun c => gp_column f v p (D c) (fun i => V i c)) (seq 0 8))
  end.

(** What gp3p reads of one correspondence: getBearingVector, getCamRotation,
    getCamOffset, getPoint. *)
Record gcorr := GC { gc_f : vec3; gc_R : mat3; gc_v : vec3; gc_p : vec3 }.
(** gp3p, methods.cpp 190-216; [None]: fewer than three indices (the assert) or
    gp3p_main *)
Definition gp3p eig (corrs : nat -> gcorr) (indices : list nat) : option (list (option pose)) :=
  if Nat.ltb 2 (length indices) then
    let at' i := corrs (nth i indices 0%nat) in
    gp3p_main eig (fun i => mv (gc_R (at' i)) (gc_f (at' i))) (fun i => gc_v (at' i)) (fun i => gc_p (at' i))
  else None.
(** gp3p with three indices, 218-232 *)
Definition gp3p3 eig corrs (index0 index1 index2 : nat) := gp3p eig corrs [index0; index1; index2].
