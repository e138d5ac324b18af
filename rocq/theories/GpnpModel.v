(** Model of gpnp (src/absolute_pose/methods.cpp 307-438) and gpnp_main,
    gpnp_evaluate, gpnp_optimize (src/absolute_pose/modules/main.cpp 438-705)
    over the reals.  Eigen's singular value decompositions are arguments, and so
    is the Levenberg-Marquardt search, of which nothing is assumed.  A value
    that is NaN in the code is [None].  The adapter's correspondences selected by
    the index list are the list argument.  Definitions only. *)
From Coq Require Import Reals List Arith.
From Verif Require Import Lin GenLin ArunModel GbModel GpnpData GpnpInit.
Import ListNotations.
Local Open Scope R_scope.

(** x / y, [None] when the code divides by zero *)
Definition odiv (x y : R) : option R := if Req_EM_T y 0 then None else Some (x / y).
Definition obind {A B} (o : option A) (f : A -> option B) : option B := match o with Some a => f a | None => None end.
Notation "'do' x <- o ; e" := (obind o (fun x => e)) (at level 60, x name, right associativity).

(** * gpnp_main: the factors read off the five templates *)
(** main.cpp 474 *)
Definition g1_back (G : gmat) : option (list R) :=
  do f0 <- odiv (- G 3 2)%nat (G 3 1)%nat; Some [f0].
(** main.cpp 489-492 *)
Definition g2_back (G : gmat) : option (list R) :=
  do f0 <- odiv (- G 8 5)%nat (G 8 4)%nat;
  do f1 <- odiv (- (G 7%nat 4%nat * f0 + G 7%nat 5%nat)) (G 7%nat 3%nat); Some [f0; f1].
(** main.cpp 506-512 *)
Definition g3_back (G : gmat) : option (list R) :=
  do f0 <- odiv (- G 13%nat 17%nat) (G 13%nat 16%nat);
  do f1 <- odiv (- (G 12%nat 16%nat * f0 + G 12%nat 17%nat)) (G 12%nat 15%nat);
  do f2 <- odiv (- (G 11%nat 15%nat * f1 + G 11%nat 16%nat * f0 + G 11%nat 17%nat)) (G 11%nat 14%nat);
  Some [f0; f1; f2].
(** main.cpp 526-536 *)
Definition g4_back (G : gmat) : option (list R) :=
  do f0 <- odiv (- G 23%nat 36%nat) (G 23%nat 35%nat);
  do f1 <- odiv (- (G 22%nat 35%nat * f0 + G 22%nat 36%nat)) (G 22%nat 34%nat);
  do f2 <- odiv (- (G 21%nat 34%nat * f1 + G 21%nat 35%nat * f0 + G 21%nat 36%nat)) (G 21%nat 33%nat);
  do f3 <- odiv (- (G 20%nat 33%nat * f2 + G 20%nat 34%nat * f1 + G 20%nat 35%nat * f0 + G 20%nat 36%nat)) (G 20%nat 32%nat);
  Some [f0; f1; f2; f3].
(** main.cpp 550-565; the second product of the last factor uses factors[1]. *)
Definition g5_back (G : gmat) : option (list R) :=
  do f0 <- odiv (- G 42%nat 79%nat) (G 42%nat 78%nat);
  do f1 <- odiv (- (G 41%nat 78%nat * f0 + G 41%nat 79%nat)) (G 41%nat 77%nat);
  do f2 <- odiv (- (G 40%nat 77%nat * f1 + G 40%nat 78%nat * f0 + G 40%nat 79%nat)) (G 40%nat 76%nat);
  do f3 <- odiv (- (G 39%nat 76%nat * f2 + G 39%nat 77%nat * f1 + G 39%nat 78%nat * f0 + G 39%nat 79%nat)) (G 39%nat 75%nat);
  do f4 <- odiv (- (G 38%nat 75%nat * f3 + G 38%nat 76%nat * f1 + G 38%nat 77%nat * f1 + G 38%nat 78%nat * f0 + G 38%nat 79%nat)) (G 38%nat 74%nat);
  Some [f0; f1; f2; f3; f4].

(** init, compute and the back substitution for 1..5 null space vectors,
    main.cpp 470-565 *)
Definition g1_factors (a n : nat -> R) (c0 c1 c2 c3 : vec3) : option (list R) :=
  obind (grun g1_compute (g1_init a n c0 c1 c2 c3)) g1_back.
Definition g2_factors (a n m : nat -> R) (c0 c1 c2 c3 : vec3) : option (list R) :=
  obind (grun g2_compute (g2_init a n m c0 c1 c2 c3)) g2_back.
Definition g3_factors (a n m k : nat -> R) (c0 c1 c2 c3 : vec3) : option (list R) :=
  obind (grun g3_compute (g3_init a n m k c0 c1 c2 c3)) g3_back.
Definition g4_factors (a n m k l : nat -> R) (c0 c1 c2 c3 : vec3) : option (list R) :=
  obind (grun g4_compute (g4_init a n m k l c0 c1 c2 c3)) g4_back.
Definition g5_factors (a n m k l p : nat -> R) (c0 c1 c2 c3 : vec3) : option (list R) :=
  obind (grun g5_compute (g5_init a n m k l p c0 c1 c2 c3)) g5_back.

(** * gpnp_evaluate, main.cpp 591-617 *)
(** solution.block<3,1>(i*3,0) *)
Definition cpoint (s : nat -> R) (i : nat) : vec3 := V3 (s (3 * i)%nat) (s (3 * i + 1)%nat) (s (3 * i + 2)%nat).
(** the rotation and translation, main.cpp 598-604 *)
Definition gpnp_align (svd : svd_t) (solution : nat -> R) (c : nat -> vec3) : mat3 * vec3 :=
  arun_complete svd (map (fun i => (c i, cpoint solution i)) (seq 0 4)).
(** one summand of the error, main.cpp 608-613: 0/0 when a norm vanishes *)
Definition eval_term (T : mat3 * vec3) (ci ccam : vec3) : option R :=
  let r := mv (mT (fst T)) (vsub ci (snd T)) in
  do q <- odiv (dot r ccam) (norm ccam * norm r); Some (1 - q).
Definition gpnp_error (T : mat3 * vec3) (solution : nat -> R) (c : nat -> vec3) : option R :=
  fold_left (fun acc i => do e <- acc; do d <- eval_term T (c i) (cpoint solution i); Some (e + d)) (seq 0 4) (Some 0).

(** * gpnp_main, main.cpp 438-589 *)
(** solution = a + sum_i factors[i]*V.col(12-n+i), main.cpp 477-478 *)
Definition combine (a : nat -> R) (V : nat -> nat -> R) (fs : list R) : nat -> R :=
  fun j => a j + sumn (length fs) (fun i => nth i fs 0 * V j (12 - length fs + i)%nat).
(** The starting factors of the five stages.  c0..c3 are all c[0], main.cpp
    452-455. *)
Definition stage (a : nat -> R) (V : nat -> nat -> R) (c : nat -> vec3) (k : nat) : option (list R) :=
  let v i := gcol V i in
  match k with
  | 1%nat => g1_factors a (v 11%nat) (c 0%nat) (c 0%nat) (c 0%nat) (c 0%nat)
  | 2%nat => g2_factors a (v 10%nat) (v 11%nat) (c 0%nat) (c 0%nat) (c 0%nat) (c 0%nat)
  | 3%nat => g3_factors a (v 9%nat) (v 10%nat) (v 11%nat) (c 0%nat) (c 0%nat) (c 0%nat) (c 0%nat)
  | 4%nat => g4_factors a (v 8%nat) (v 9%nat) (v 10%nat) (v 11%nat) (c 0%nat) (c 0%nat) (c 0%nat) (c 0%nat)
  | _ => g5_factors a (v 7%nat) (v 8%nat) (v 9%nat) (v 10%nat) (v 11%nat) (c 0%nat) (c 0%nat) (c 0%nat) (c 0%nat)
  end.
(** One candidate: its transformation and its error.  [lm] is gpnp_optimize,
    main.cpp 680-705.  When the starting factors are NaN the error is NaN
    (simplification: the transformation of such a candidate, which no
    comparison can select, is not modelled). *)
Definition candidate (svd : svd_t) (lm : list R -> list R) (a : nat -> R) (V : nat -> nat -> R) (c : nat -> vec3) (k : nat)
  : (mat3 * vec3) * option R :=
  match k with
  | O => let T := gpnp_align svd a c in (T, gpnp_error T a c)
  | _ => match stage a V c k with
         | None => ((mid, v0), None)
         | Some fs => let s := combine a V (lm fs) in let T := gpnp_align svd s c in (T, gpnp_error T s c)
         end
  end.
(** errors.at(i) < smallestError; a comparison with NaN is false *)
Definition better (e best : option R) : bool :=
  match e, best with Some x, Some y => if Rlt_dec x y then true else false | _, _ => false end.
(** the selection loop, main.cpp 575-588 *)
Definition gpnp_main (svd : svd_t) (lm : list R -> list R) (a : nat -> R) (V : nat -> nat -> R) (c : nat -> vec3) : mat3 * vec3 :=
  fst (fold_left (fun best i => let r := candidate svd lm a V c i in if better (snd r) (snd best) then r else best)
         (seq 1 5) (candidate svd lm a V c 0%nat)).

(** * gpnp, methods.cpp 307-421 *)
(** one correspondence: world point, camera offset, camera rotation times
    bearing vector (methods.cpp 358-361) *)
Record gcorr := GCorr { g_p : vec3; g_off : vec3; g_f : vec3 }.
(** methods.cpp 314-317 *)
Definition centroid (l : list gcorr) : vec3 := vdivs (fold_left (fun s g => vadd s (g_p g)) l v0) (INR (length l)).
(** methods.cpp 330-337; U is SVD.matrixU() of the centred points *)
Definition control (c0 : vec3) (U : mat3) (i : nat) : vec3 :=
  match i with O => c0 | S k => vadd c0 (vscale 15 (col U k)) end.
(** methods.cpp 347-355 *)
Definition weight (c0 : vec3) (U : mat3) (p : vec3) (k : nat) : R :=
  let w k := let e := vsub (control c0 U k) c0 in dot (vsub p c0) e / dot e e in
  match k with O => 1 - (w 1%nat + w 2%nat + w 3%nat) | _ => w k end.
(** methods.cpp 357-388: rows 2i and 2i+1 of A, and of b *)
Definition gpnp_A (c0 : vec3) (U : mat3) (l : list gcorr) (d : gcorr) : nat -> nat -> R := fun r k =>
  let g := nth (Nat.div2 r) l d in
  let f := g_f g in
  let w := weight c0 U (g_p g) (k / 3)%nat in
  if Nat.even r
  then match (k mod 3)%nat with 0%nat => w * vz f | 1%nat => 0 | _ => - (w * vx f) end
  else match (k mod 3)%nat with 0%nat => 0 | 1%nat => w * vz f | _ => - (w * vy f) end.
Definition gpnp_b (l : list gcorr) (d : gcorr) : nat -> R := fun r =>
  let g := nth (Nat.div2 r) l d in
  let f := g_f g in let o := g_off g in
  if Nat.even r then vz f * vx o - vx f * vz o else vz f * vy o - vy f * vz o.
(** methods.cpp 391-412: a = V invD U^T b, with the 1e-6 cut-off *)
Definition inv_cut (s : R) : R := if Rlt_dec (/ 1000000) s then 1 / s else 0.
Definition intercept (n : nat) (U2 : nat -> nat -> R) (D : nat -> R) (V : nat -> nat -> R) (b : nat -> R) : nat -> R := fun j =>
  sumn 12 (fun k => V j k * (inv_cut (D k) * vdot n (gcol U2 k) b)).

(** [svd3] is JacobiSVD inside arun, [svdP] returns U for the centred points,
    [svdA] returns (U, singular values, V) for the 2n x 12 matrix. *)
Definition gpnp (svd3 : svd_t) (svdP : list vec3 -> mat3)
    (svdA : nat -> (nat -> nat -> R) -> (nat -> nat -> R) * (nat -> R) * (nat -> nat -> R))
    (lm : list R -> list R) (l : list gcorr) : mat3 * vec3 :=
  let d := GCorr v0 v0 v0 in
  let c0 := centroid l in
  let U := svdP (map (fun g => vsub (g_p g) c0) l) in
  let A := gpnp_A c0 U l d in
  let b := gpnp_b l d in
  let '(U2, D, V) := svdA (2 * length l)%nat A in
  gpnp_main svd3 lm (intercept (2 * length l) U2 D V b) V (control c0 U).
