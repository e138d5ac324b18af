(** Model of Epnp (src/absolute_pose/modules/Epnp.cpp 42-826) and epnp
    (src/absolute_pose/methods.cpp 239-286) over the reals, with uc = vc = 0 and
    fu = fv = 1 as set by the constructor (53-56).  Eigen's singular value
    decompositions and SVD.solve are arguments.  [None] is a result that is NaN
    in the code.  The correspondences selected through adapter and indices are
    the list argument.  Definitions only. *)
From Coq Require Import Reals List Arith Bool.
From Verif Require Import Lin GenLin ArunModel QrModel.
Import ListNotations.
Local Open Scope R_scope.

(** one correspondence: world point and bearing vector, methods.cpp 251-256 *)
Record ecorr := EC { e_p : vec3; e_f : vec3 }.
(** add_correspondence, Epnp.cpp 95-118 *)
Definition e_u (c : ecorr) : R := vx (e_f c) / vz (e_f c).
Definition e_v (c : ecorr) : R := vy (e_f c) / vz (e_f c).
Definition e_sign (c : ecorr) : Z := if Rlt_dec 0 (vz (e_f c)) then 1%Z else (-1)%Z.

(** * choose_control_points, Epnp.cpp 120-153 *)
Definition e_c0 (l : list ecorr) : vec3 := center (map e_p l).
(** PW0^T PW0 *)
Definition e_cov (l : list ecorr) : mat3 :=
  cross_cov (map (fun c => (e_p c, e_p c)) l) (e_c0 l) (e_c0 l).
Definition e_cw (svd3 : svd_t) (l : list ecorr) (i : nat) : vec3 :=
  let '(U, D, _) := svd3 (e_cov l) in
  match i with
  | O => e_c0 l
  | S k => vadd (e_c0 l) (vscale (sqrt (vget D k / INR (length l))) (col U k))
  end.

(** * compute_barycentric_coordinates, Epnp.cpp 155-179, for control points cw *)
Definition e_CC (cw : nat -> vec3) : mat3 :=
  of_cols (vsub (cw 1%nat) (cw 0%nat)) (vsub (cw 2%nat) (cw 0%nat)) (vsub (cw 3%nat) (cw 0%nat)).
Definition e_alpha (cw : nat -> vec3) (p : vec3) (k : nat) : R :=
  let a := mv (minv (e_CC cw)) (vsub p (cw 0%nat)) in
  match k with O => 1 - vx a - vy a - vz a | S j => vget a j end.

(** * The linear system: fill_M, Epnp.cpp 181-199 and 242-247 *)
Definition e_M (cw : nat -> vec3) (l : list ecorr) (d : ecorr) : nat -> nat -> R := fun r k =>
  let c := nth (Nat.div2 r) l d in
  let a := e_alpha cw (e_p c) (k / 3)%nat in
  if Nat.even r
  then match (k mod 3)%nat with 0%nat => a * 1 | 1%nat => 0 | _ => a * (0 - e_u c) end
  else match (k mod 3)%nat with 0%nat => 0 | 1%nat => a * 1 | _ => a * (0 - e_v c) end.
Definition e_MtM (n : nat) (M : nat -> nat -> R) : nat -> nat -> R := fun i j => sumn n (fun r => M r i * M r j).
(** Ut(11-k, .), Epnp.cpp 251 *)
Definition e_nv (U : nat -> nat -> R) (k : nat) : nat -> R := fun j => U j (11 - k)%nat.
(** three consecutive entries *)
Definition blk (x : nat -> R) (a : nat) : vec3 := V3 (x (3 * a)%nat) (x (3 * a + 1)%nat) (x (3 * a + 2)%nat).

(** * Distance constraints *)
(** the pairs (a,b) run through by compute_L_6x10, Epnp.cpp 616-629 *)
Definition pair_a (i : nat) : nat := match i with 0 | 1 | 2 => 0 | 3 | 4 => 1 | _ => 2 end%nat.
Definition pair_b (i : nat) : nat := match i with 0 => 1 | 1 | 3 => 2 | _ => 3 end%nat.
Definition e_dv (U : nat -> nat -> R) (k i : nat) : vec3 :=
  vsub (blk (e_nv U k) (pair_a i)) (blk (e_nv U k) (pair_b i)).
(** compute_L_6x10, Epnp.cpp 607-645 *)
Definition e_L (U : nat -> nat -> R) (i j : nat) : R :=
  let d k := e_dv U k i in
  match j with
  | 0%nat => dot (d 0%nat) (d 0%nat)
  | 1%nat => 2 * dot (d 0%nat) (d 1%nat)
  | 2%nat => dot (d 1%nat) (d 1%nat)
  | 3%nat => 2 * dot (d 0%nat) (d 2%nat)
  | 4%nat => 2 * dot (d 1%nat) (d 2%nat)
  | 5%nat => dot (d 2%nat) (d 2%nat)
  | 6%nat => 2 * dot (d 0%nat) (d 3%nat)
  | 7%nat => 2 * dot (d 1%nat) (d 3%nat)
  | 8%nat => 2 * dot (d 2%nat) (d 3%nat)
  | _ => dot (d 3%nat) (d 3%nat)
  end.
(** dist2, 298-307, and compute_rho, 647-657 *)
Definition dist2 (p q : vec3) : R :=
  (vx p - vx q) * (vx p - vx q) + (vy p - vy q) * (vy p - vy q) + (vz p - vz q) * (vz p - vz q).
Definition e_rho (cw : nat -> vec3) (i : nat) : R :=
  match i with
  | 0%nat => dist2 (cw 0%nat) (cw 1%nat)
  | 1%nat => dist2 (cw 0%nat) (cw 2%nat)
  | 2%nat => dist2 (cw 0%nat) (cw 3%nat)
  | 3%nat => dist2 (cw 1%nat) (cw 2%nat)
  | 4%nat => dist2 (cw 1%nat) (cw 3%nat)
  | _ => dist2 (cw 2%nat) (cw 3%nat)
  end.

(** * Starting coefficients *)
(** four coefficients *)
Record betas := B4 { b0 : R; b1 : R; b2 : R; b3 : R }.
(** SVD.solve for a 6 x n matrix *)
Definition solve_t := nat -> (nat -> nat -> R) -> (nat -> R) -> nat -> R.
(** the columns of L_6x10 used, Epnp.cpp 493-501, 534-541, 575-584 *)
Definition sel1 (j : nat) : nat := match j with 0 => 0 | 1 => 1 | 2 => 3 | _ => 6 end%nat.
(** find_betas_approx_1, Epnp.cpp 487-523: 0/0 or x/0 when b4[0] = 0 *)
Definition approx_1 (solve : solve_t) (L : nat -> nat -> R) (rho : nat -> R) : option betas :=
  let x := solve 4%nat (fun i j => L i (sel1 j)) rho in
  if Req_EM_T (x 0%nat) 0 then None
  else if Rlt_dec (x 0%nat) 0
  then let b := sqrt (- x 0%nat) in Some (B4 b (- x 1%nat / b) (- x 2%nat / b) (- x 3%nat / b))
  else let b := sqrt (x 0%nat) in Some (B4 b (x 1%nat / b) (x 2%nat / b) (x 3%nat / b)).
(** the common part of find_betas_approx_2 and 3, Epnp.cpp 549-560 and 592-602 *)
Definition first_two (x : nat -> R) : R * R :=
  let '(p, q) := if Rlt_dec (x 0%nat) 0
    then (sqrt (- x 0%nat), if Rlt_dec (x 2%nat) 0 then sqrt (- x 2%nat) else 0)
    else (sqrt (x 0%nat), if Rlt_dec 0 (x 2%nat) then sqrt (x 2%nat) else 0) in
  (if Rlt_dec (x 1%nat) 0 then - p else p, q).
(** find_betas_approx_2, Epnp.cpp 528-564 *)
Definition approx_2 (solve : solve_t) (L : nat -> nat -> R) (rho : nat -> R) : option betas :=
  let x := solve 3%nat L rho in
  let '(p, q) := first_two x in Some (B4 p q 0 0).
(** find_betas_approx_3, Epnp.cpp 569-605 *)
Definition approx_3 (solve : solve_t) (L : nat -> nat -> R) (rho : nat -> R) : option betas :=
  let x := solve 5%nat L rho in
  let '(p, q) := first_two x in
  if Req_EM_T p 0 then None else Some (B4 p q (x 3%nat / p) 0).

(** * gauss_newton *)
(** compute_A_and_b_gauss_newton, Epnp.cpp 659-690 *)
Definition gn_A (L : nat -> nat -> R) (b : betas) (i j : nat) : R :=
  match j with
  | 0%nat => 2 * L i 0%nat * b0 b + L i 1%nat * b1 b + L i 3%nat * b2 b + L i 6%nat * b3 b
  | 1%nat => L i 1%nat * b0 b + 2 * L i 2%nat * b1 b + L i 4%nat * b2 b + L i 7%nat * b3 b
  | 2%nat => L i 3%nat * b0 b + L i 4%nat * b1 b + 2 * L i 5%nat * b2 b + L i 8%nat * b3 b
  | _ => L i 6%nat * b0 b + L i 7%nat * b1 b + L i 8%nat * b2 b + 2 * L i 9%nat * b3 b
  end.
Definition gn_b (L : nat -> nat -> R) (rho : nat -> R) (b : betas) (i : nat) : R :=
  rho i - (L i 0%nat * b0 b * b0 b + L i 1%nat * b0 b * b1 b + L i 2%nat * b1 b * b1 b + L i 3%nat * b0 b * b2 b
           + L i 4%nat * b1 b * b2 b + L i 5%nat * b2 b * b2 b + L i 6%nat * b0 b * b3 b + L i 7%nat * b1 b * b3 b
           + L i 8%nat * b2 b * b3 b + L i 9%nat * b3 b * b3 b).
(** One iteration, Epnp.cpp 704-711.  X is not initialised before the first
    call of qr_solve and keeps its value when qr_solve gives up.  [a1], [a2] are
    the static arrays of qr_solve (the result does not depend on them, C64). *)
Definition gn_step (a1 a2 : nat -> R) (L : nat -> nat -> R) (rho : nat -> R) (s : betas * (nat -> R)) : betas * (nat -> R) :=
  let '(b, X) := s in
  let X' := qr_solve 6 4 (gn_A L b) a1 a2 (gn_b L rho b) X in
  (B4 (b0 b + X' 0%nat) (b1 b + X' 1%nat) (b2 b + X' 2%nat) (b3 b + X' 3%nat), X').
(** gauss_newton, Epnp.cpp 692-712: five iterations from X = [junk] *)
Definition gauss_newton (a1 a2 junk : nat -> R) (L : nat -> nat -> R) (rho : nat -> R) (b : betas) : betas :=
  fst (Nat.iter 5 (gn_step a1 a2 L rho) (b, junk)).

(** * From coefficients to a pose *)
(** compute_ccs, Epnp.cpp 201-215 *)
Definition e_cc (U : nat -> nat -> R) (b : betas) (j : nat) : vec3 :=
  vadd (vadd (vadd (vadd v0 (vscale (b0 b) (blk (e_nv U 0) j))) (vscale (b1 b) (blk (e_nv U 1) j)))
             (vscale (b2 b) (blk (e_nv U 2) j))) (vscale (b3 b) (blk (e_nv U 3) j)).
(** compute_pcs, Epnp.cpp 217-232, for one point *)
Definition e_pc (cw cc : nat -> vec3) (p : vec3) : vec3 :=
  let a := e_alpha cw p in
  vadd (vadd (vadd (vscale (a 0%nat) (cc 0%nat)) (vscale (a 1%nat) (cc 1%nat))) (vscale (a 2%nat) (cc 2%nat))) (vscale (a 3%nat) (cc 3%nat)).
(** solve_for_sign, Epnp.cpp 435-465: looks at the first correspondence *)
Definition sign_fix (l : list ecorr) (pcs : list vec3) : list vec3 :=
  match l, pcs with
  | c :: _, q :: _ =>
      if (if Rlt_dec (vz q) 0 then Z.ltb 0 (e_sign c) else false) || (if Rlt_dec 0 (vz q) then Z.ltb (e_sign c) 0 else false)
      then map vneg pcs else pcs
  | _, _ => pcs
  end.
(** estimate_R_and_t, Epnp.cpp 340-423; [l] holds pairs (pc, pw) *)
Definition estimate (svd3 : svd_t) (l : list (vec3 * vec3)) : mat3 * vec3 :=
  let pc0 := center (map fst l) in
  let pw0 := center (map snd l) in
  let Abt := fold_left (fun H p => madd H (outer (vsub (fst p) pc0) (vsub (snd p) pw0))) l mzero in
  let '(U, _, V) := svd3 Abt in
  let R0 := mmul U (mT V) in
  let R := if Rlt_dec (det R0) 0 then mmul U (mT (of_cols (col V 0) (col V 1) (vneg (col V 2)))) else R0 in
  (R, vsub pc0 (mv R pw0)).
(** reprojection_error, Epnp.cpp 317-338: a floating point number that may be
    infinite (division by Zc = 0) or NaN (0 times infinity) *)
Inductive fnum := Fin (x : R) | Inf | NaN.
Definition fadd (a b : fnum) : fnum :=
  match a, b with
  | NaN, _ | _, NaN => NaN
  | Fin x, Fin y => Fin (x + y)
  | _, _ => Inf
  end.
(** comparison of numbers that are never -infinity *)
Definition flt (a b : fnum) : bool :=
  match a, b with
  | Fin x, Fin y => if Rlt_dec x y then true else false
  | Fin _, Inf => true
  | _, _ => false
  end.
Definition rep_term (T : mat3 * vec3) (c : ecorr) : fnum :=
  let q := vadd (mv (fst T) (e_p c)) (snd T) in
  if Req_EM_T (vz q) 0
  then (if Req_EM_T (vx q) 0 then NaN else if Req_EM_T (vy q) 0 then NaN else Inf)
  else let inv := 1 / vz q in
       let ue := 0 + 1 * vx q * inv in let ve := 0 + 1 * vy q * inv in
       Fin (sqrt ((e_u c - ue) * (e_u c - ue) + (e_v c - ve) * (e_v c - ve))).
Definition rep_error (T : mat3 * vec3) (l : list ecorr) : fnum :=
  match fold_left (fun s c => fadd s (rep_term T c)) l (Fin 0) with Fin x => Fin (x / INR (length l)) | e => e end.

(** compute_R_and_t, Epnp.cpp 467-482 *)
Definition e_pcs (cw : nat -> vec3) (l : list ecorr) (cc : nat -> vec3) : list vec3 :=
  sign_fix l (map (fun c => e_pc cw cc (e_p c)) l).
Definition e_pose (svd3 : svd_t) (cw : nat -> vec3) (l : list ecorr) (cc : nat -> vec3) : mat3 * vec3 :=
  estimate svd3 (combine (e_pcs cw l cc) (map e_p l)).

(** * compute_pose, Epnp.cpp 234-281 *)
(** one candidate: pose and error; NaN coefficients make both NaN *)
Definition e_candidate (svd3 : svd_t) (cw : nat -> vec3) (l : list ecorr) (U : nat -> nat -> R) (b : option betas)
  : option (mat3 * vec3) * fnum :=
  match b with
  | None => (None, NaN)
  | Some b => let T := e_pose svd3 cw l (e_cc U b) in (Some T, rep_error T l)
  end.
(** 274-280 *)
Definition e_choose (r1 r2 r3 : option (mat3 * vec3) * fnum) : option (mat3 * vec3) * fnum :=
  let r := if flt (snd r2) (snd r1) then r2 else r1 in
  if flt (snd r3) (snd r) then r3 else r.
Definition compute_pose (svd3 : svd_t) (svd12 : (nat -> nat -> R) -> nat -> nat -> R) (solve : solve_t)
    (a1 a2 : nat -> R) (junk : nat -> nat -> R) (l : list ecorr) : option (mat3 * vec3) * fnum :=
  let cw := e_cw svd3 l in
  if existsb (fun c => if Req_EM_T (vz (e_f c)) 0 then true else false) l then (None, NaN)
  else if Req_EM_T (det (e_CC cw)) 0 then (None, NaN)
  else
    let M := e_M cw l (EC v0 v0) in
    let U := svd12 (e_MtM (2 * length l) M) in
    let L := e_L U in
    let rho := e_rho cw in
    let cand k b := e_candidate svd3 cw l U (option_map (gauss_newton a1 a2 (junk k) L rho) b) in
    e_choose (cand 1%nat (approx_1 solve L rho)) (cand 2%nat (approx_2 solve L rho)) (cand 3%nat (approx_3 solve L rho)).
(** epnp, methods.cpp 239-286: the inverse of the pose *)
Definition epnp (svd3 : svd_t) (svd12 : (nat -> nat -> R) -> nat -> nat -> R) (solve : solve_t)
    (a1 a2 : nat -> R) (junk : nat -> nat -> R) (l : list ecorr) : option (mat3 * vec3) :=
  match fst (compute_pose svd3 svd12 solve a1 a2 junk l) with
  | None => None
  | Some (A, t) => Some (mT A, mv (mneg (mT A)) t)
  end.
