(** Model of upnp, /repo/src/absolute_pose/methods.cpp 440-707, and of
    upnp_fill_s, upnp_main and upnp_main_sym,
    /repo/src/absolute_pose/modules/main.cpp 706-844, over the exact reals.
    Definitions only.  Not modelled: the generated elimination that builds the
    action matrix (setupAction_gj, setupAction_sym_gj) and the EigenSolver; the
    real parts of the quaternion rows of its eigenvectors are the argument
    [evs].  [None] stands for NaN. *)
From Coq Require Import Reals List.
From Verif Require Import Lin GenLin RotModel.
Import ListNotations.
Local Open Scope R_scope.

(** What upnp reads of one correspondence: getCamRotation * getBearingVector,
    getCamOffset, getPoint. *)
Record ucorr := UC { uf : vec3; uv : vec3; up : vec3 }.

(** A matrix of three rows and ten columns, column by column. *)
Definition mat3x10 := nat -> vec3.
Definition mapp (A : mat3x10) (s : nat -> R) : vec3 :=
  V3 (sumn 10 (fun j => vx (A j) * s j)) (sumn 10 (fun j => vy (A j) * s j))
     (sumn 10 (fun j => vz (A j) * s j)).

(** fill3x10, methods.cpp 445-454, column by column *)
Definition fill3x10 (x : vec3) : mat3x10 := fun j =>
  let x1 := vx x in let x2 := vy x in let x3 := vz x in
  nth j [V3 x1 x2 x3; V3 x1 (- x2) (- x3); V3 (- x1) x2 (- x3); V3 (- x1) (- x2) x3;
         V3 0 (-2 * x3) (2 * x2); V3 (2 * x3) 0 (-2 * x1); V3 (-2 * x2) (2 * x1) 0;
         V3 (2 * x2) (2 * x1) 0; V3 (2 * x3) 0 (2 * x1); V3 0 (2 * x3) (2 * x2)] v0.

(** upnp_fill_s, main.cpp 706-721 *)
Definition fill_s (q : quat) : nat -> R := fun j =>
  nth j [q0 q * q0 q; q1 q * q1 q; q2 q * q2 q; q3 q * q3 q; q0 q * q1 q;
         q0 q * q2 q; q0 q * q3 q; q1 q * q2 q; q1 q * q3 q; q2 q * q3 q] 0.

(** f * f.transpose() - Identity *)
Definition utemp (f : vec3) : mat3 := msub (outer f f) mid.

(** F and H, 490-498 *)
Definition uF (l : list ucorr) : mat3 :=
  fold_left (fun F q => madd F (outer (uf q) (uf q))) l mzero.
Definition uHinv (l : list ucorr) : mat3 := msub (mscale (INR (length l)) mid) (uF l).
Definition uH (l : list ucorr) : option mat3 := inverse (uHinv l).
(** Vk, 507 *)
Definition uVk (H : mat3) (f : vec3) : mat3 := mmul H (utemp f).
(** I and J, 500-514.  [pt] is the point used: getPoint, or Rinv * getPoint in
    the second round (I_cay, 594-604). *)
Definition uI (H : mat3) (pt : ucorr -> vec3) (l : list ucorr) : mat3x10 :=
  fold_left (fun I q j => vadd (I j) (mv (uVk H (uf q)) (fill3x10 (pt q) j))) l (fun _ => v0).
Definition uJ (H : mat3) (l : list ucorr) : vec3 :=
  fold_left (fun J q => vadd J (mv (uVk H (uf q)) (uv q))) l v0.
(** Ai and bi, 526-529 *)
Definition uA (I : mat3x10) (pt : ucorr -> vec3) (q : ucorr) : mat3x10 :=
  fun j => mv (utemp (uf q)) (vadd (fill3x10 (pt q) j) (I j)).
Definition ub (J : vec3) (q : ucorr) : vec3 := mv (mneg (utemp (uf q))) (vadd (uv q) J).
(** M, C and gamma, 516-534 (M_cay, C_cay and gamma_cay, 606-625) *)
Definition uM I pt (l : list ucorr) : nat -> nat -> R :=
  fold_left (fun M q j k => M j k + dot (uA I pt q j) (uA I pt q k)) l (fun _ _ => 0).
Definition uC I J pt (l : list ucorr) : nat -> R :=
  fold_left (fun C q j => C j + dot (ub J q) (uA I pt q j)) l (fun _ => 0).
Definition ugamma J (l : list ucorr) : R :=
  fold_left (fun g q => g + dot (ub J q) (ub J q)) l 0.
(** value, main.cpp 770-772 and 815-816 *)
Definition uvalue (M : nat -> nat -> R) (C : nat -> R) (gamma : R) (s : nat -> R) : R :=
  sumn 10 (fun j => sumn 10 (fun k => s j * M j k * s k)) + 2 * sumn 10 (fun j => C j * s j) + gamma.

(** ** Candidates *)
Notation cand := (R * quat)%type.
(** the insertion into the sorted vector, main.cpp 774-779 and 820-825 *)
Fixpoint insert_cand (x : cand) (l : list cand) : list cand :=
  match l with
  | [] => [x]
  | y :: t => if Rlt_dec (fst y) (fst x) then y :: insert_cand x t else x :: l
  end.
Definition qnrm (q : quat) : R := sqrt (q0 q ^ 2 + q1 q ^ 2 + q2 q ^ 2 + q3 q ^ 2).
Definition qdivs (q : quat) (s : R) : quat := Q4 (q0 q / s) (q1 q / s) (q2 q / s) (q3 q / s).
Definition qsub (p q : quat) : quat := Q4 (q0 p - q0 q) (q1 p - q1 q) (q2 p - q2 q) (q3 p - q3 q).
(** alreadyThere, 755-763 *)
Definition already (q : quat) (l : list cand) : bool :=
  existsb (fun c => if Rlt_dec (qnrm (qsub q (snd c))) (1 / 100000000) then true else false) l.
(** one pass of upnp_main, 737-781 *)
Definition upnp_main_step (val : quat -> R) (acc : option (list cand)) (e : quat) : option (list cand) :=
  match acc with
  | None => None
  | Some l =>
      let norm := qnrm e in
      if Req_EM_T norm 0 then None else
      let norm := if Rlt_dec (q0 e) 0 then -1 * norm else norm in
      let q := qdivs e norm in
      Some (if already q l then l else insert_cand (val q, q) l)
  end.
Definition upnp_main (val : quat -> R) (evs : list quat) : option (list cand) :=
  fold_left (upnp_main_step val) evs (Some []).
(** one pass of upnp_main_sym, 799-838 (the branch of the "bad" candidates is
    dead: its condition is the constant true) *)
Definition upnp_sym_step (val : quat -> R) (acc : option (list cand)) (e : quat) : option (list cand) :=
  match acc with
  | None => None
  | Some l =>
      if Req_EM_T (qnrm e) 0 then None else
      let q := qdivs e (qnrm e) in Some (insert_cand (val q, q) l)
  end.
Definition upnp_main_sym (val : quat -> R) (evs : list quat) : option (list cand) :=
  fold_left (upnp_sym_step val) evs (Some []).

(** ** upnp *)
(** a returned transformation: rotation and translation; [None] is NaN *)
Notation upose := (option mat3 * option vec3)%type.
Definition to_pose (Rinv : mat3) (tinv : vec3) : upose :=
  (Some (mT Rinv), Some (mv (mneg (mT Rinv)) tinv)).
(** tinv = I*s - J, 553 *)
Definition utinv (I : mat3x10) (J : vec3) (q : quat) : vec3 := vsub (mapp I (fill_s q)) J.
(** count_negative, 563-575 *)
Definition count_negative (Rinv : mat3) (tinv : vec3) (l : list ucorr) : nat :=
  length (filter (fun q => if Rlt_dec (dot (vsub (vadd (mv Rinv (up q)) tinv) (uv q)) (uf q)) 0
                           then true else false) l).
(** floor(0.2 * n + 0.5), 577, as an integer division *)
Definition max_negative (n : nat) : nat := Nat.div (2 * n + 5) 10.
Definition chirality_ok I J (l : list ucorr) (c : cand) : bool :=
  Nat.ltb (count_negative (quaternion2rot (snd c)) (utinv I J (snd c)) l) (max_negative (length l)).
(** f, 456-465, and Jac, 467-482 *)
Definition ugrad (M : nat -> nat -> R) (C : nat -> R) : vec3 :=
  V3 (2 * M 0%nat 4%nat + 2 * C 4%nat) (2 * M 0%nat 5%nat + 2 * C 5%nat) (2 * M 0%nat 6%nat + 2 * C 6%nat).
Section Hessian.
Variables (M : nat -> nat -> R) (C : nat -> R).
Local Notation m i j := (M i%nat j%nat).
Local Notation c i := (C i%nat).
Definition uhess : mat3 :=
  M3 (2 * m 4 4 + 4 * m 0 1 - 4 * m 0 0 + 4 * c 1 - 4 * c 0) (2 * m 5 4 + 2 * m 0 7 + 2 * c 7) (2 * m 6 4 + 2 * m 0 8 + 2 * c 8)
     (2 * m 4 5 + 2 * m 0 7 + 2 * c 7) (2 * m 5 5 + 4 * m 0 2 - 4 * m 0 0 + 4 * c 2 - 4 * c 0) (2 * m 6 5 + 2 * m 0 9 + 2 * c 9)
     (2 * m 4 6 + 2 * m 0 8 + 2 * c 8) (2 * m 5 6 + 2 * m 0 9 + 2 * c 9) (2 * m 6 6 + 4 * m 0 3 - 4 * m 0 0 + 4 * c 3 - 4 * c 0).
End Hessian.
(** the second round for one candidate, 591-672 (the characteristic polynomial
    is computed there and not used) *)
Definition polish (H : mat3) (I : mat3x10) (J : vec3) (l : list ucorr) (q : quat) : upose :=
  let Rinv := quaternion2rot q in
  let pt c := mv Rinv (up c) in
  let I_cay := uI H pt l in
  let M_cay := uM I_cay pt l in
  let C_cay := uC I_cay J pt l in
  match inverse (uhess M_cay C_cay) with
  | None => (None, None)
  | Some Ji =>
      let cay := mv (mneg Ji) (ugrad M_cay C_cay) in
      let Rinv2 := mmul (cayley2rot cay) Rinv in
      match rot2quaternion Rinv2 with
      | None => (Some (mT Rinv2), None)
      | Some q2 => to_pose Rinv2 (utinv I J q2)
      end
  end.
(** upnp, 484-688.  [None]: H is not invertible or a candidate could not be
    normalised.  The last resort at 675-686 is unreachable, since the second
    round keeps every candidate. *)
Definition upnp (evs : list quat) (l : list ucorr) : option (list upose) :=
  match uH l with
  | None => None
  | Some H =>
      let I := uI H up l in
      let J := uJ H l in
      let val q := uvalue (uM I up l) (uC I J up l) (ugamma J l) (fill_s q) in
      match (if Nat.ltb 4 (length l) then upnp_main_sym val evs else upnp_main val evs) with
      | None => None
      | Some quaternions1 =>
          let quaternions2 := filter (chirality_ok I J l) quaternions1 in
          Some (match quaternions2 with
                | [] => match quaternions1 with
                        | [] => []
                        | c :: _ => [to_pose (quaternion2rot (snd c)) (utinv I J (snd c))]
                        end
                | _ => map (fun c => polish H I J l (snd c)) quaternions2
                end)
      end
  end.
