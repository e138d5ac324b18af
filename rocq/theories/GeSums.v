(** Summation terms of the generalized eigensolver,
    src/relative_pose/methods.cpp 655-770, over the reals. *)
From Coq Require Import Reals List.
From Verif Require Import Lin GenLin EigSums.
Local Open Scope R_scope.

(** the fifteen accumulated matrices *)
Record gsums := GS { gf :> fsums;
  x1P : nat -> nat -> R; y1P : nat -> nat -> R; z1P : nat -> nat -> R;
  x2P : nat -> nat -> R; y2P : nat -> nat -> R; z2P : nat -> nat -> R;
  m11P : nat -> nat -> R; m12P : nat -> nat -> R; m22P : nat -> nat -> R }.
Definition zero2 : nat -> nat -> R := fun _ _ => 0.
Definition gs0 : gsums := GS fs0 zero2 zero2 zero2 zero2 zero2 zero2 zero2 zero2 zero2.
Definition add2 (A B : nat -> nat -> R) : nat -> nat -> R := fun i j => A i j + B i j.
Definition sub2 (A B : nat -> nat -> R) : nat -> nat -> R := fun i j => A i j - B i j.
(** column times row *)
Definition outer2 (u v : nat -> R) : nat -> nat -> R := fun i j => u i * v j.
(** f2_19 and f1_19, 717-741: the three blocks are [b] scaled by the entries of
    a x t *)
Definition v19 (a t b : vec3) (k : nat) : R :=
  vget b (Nat.modulo k 3) *
  match Nat.div k 3 with
  | O => vy a * vz t - vz a * vy t
  | 1%nat => vz a * vx t - vx a * vz t
  | _ => vx a * vy t - vy a * vx t
  end.
(** A correspondence: weight and, per camera, the bearing vector rotated into
    the body frame (getCamRotation * getBearingVector) and getCamOffset. *)
Record gcorr := GC { gw : R; gf1 : vec3; gt1 : vec3; gf2 : vec3; gt2 : vec3 }.
(** one step of the loop, 688-770 (the branch without weights is the one with
    weight 1) *)
Definition gs_step (S : gsums) (q : gcorr) : gsums :=
  let w := gw q in let f1 := gf1 q in let f2 := gf2 q in
  let f2_19 := v19 f1 (gt1 q) f2 in
  let f1_19 := v19 f2 (gt2 q) f1 in
  GS (fs_step S (w, (f1, f2)))
     (add2 (x1P S) (outer2 (fun i => w * vx f1 * vget f2 i) f1_19))
     (add2 (y1P S) (outer2 (fun i => w * vy f1 * vget f2 i) f1_19))
     (add2 (z1P S) (outer2 (fun i => w * vz f1 * vget f2 i) f1_19))
     (add2 (x2P S) (outer2 (fun i => w * vx f1 * vget f2 i) f2_19))
     (add2 (y2P S) (outer2 (fun i => w * vy f1 * vget f2 i) f2_19))
     (add2 (z2P S) (outer2 (fun i => w * vz f1 * vget f2 i) f2_19))
     (sub2 (m11P S) (outer2 (fun i => w * f1_19 i) f1_19))
     (sub2 (m12P S) (outer2 (fun i => w * f2_19 i) f1_19))
     (sub2 (m22P S) (outer2 (fun i => w * f2_19 i) f2_19)).
Definition gs_accumulate (l : list gcorr) : gsums := fold_left gs_step l gs0.
