(** Model of seventeenpt, src/relative_pose/methods.cpp 853-1085, over the
    reals.  Definitions only.  The decompositions of Eigen are arguments:
    [svd m n A] = thin U, singular values and V of the JacobiSVD of the m x n
    matrix A, [svd3 E] = U, singular values and V of a 3x3 matrix. *)
From Coq Require Import Reals List.
From Verif Require Import Lin GenLin ArunModel TriModel EpiModel GeoModel.
Import ListNotations.
Local Open Scope R_scope.

Definition gsvd_t := nat -> nat -> (nat -> nat -> R) -> (nat -> nat -> R) * (nat -> R) * (nat -> nat -> R).
(** NumTraits<double>::epsilon() *)
Definition dbl_eps : R := / 2 ^ 52.

(** 868-877: the two rays of a correspondence, unrotated into the body frame *)
Definition s_d1 (A : rel_adapter) (i : nat) : vec3 := mv (rr1 A i) (rf1 A i).
Definition s_d2 (A : rel_adapter) (i : nat) : vec3 := mv (rr2 A i) (rf2 A i).
(** 880-885: Pluecker coordinates (direction, moment) *)
Definition s_m1 (A : rel_adapter) (i : nat) : vec3 := cross (ro1 A i) (s_d1 A i).
Definition s_m2 (A : rel_adapter) (i : nat) : vec3 := cross (ro2 A i) (s_d2 A i).
Definition plucker (d m : vec3) (k : nat) : R := if Nat.ltb k 3 then ventry d k else ventry m (k - 3).
Definition s_l1 A i := plucker (s_d1 A i) (s_m1 A i).
Definition s_l2 A i := plucker (s_d2 A i) (s_m2 A i).
(** 888-896 *)
Definition s_AE (A : rel_adapter) (i j : nat) : R := s_l2 A i (Nat.div j 3) * s_l1 A i (Nat.modulo j 3).
(** 898-906 *)
Definition s_AR (A : rel_adapter) (i j : nat) : R :=
  s_l2 A i (Nat.div j 3) * s_l1 A i (3 + Nat.modulo j 3) + s_l2 A i (3 + Nat.div j 3) * s_l1 A i (Nat.modulo j 3).

(** 909-928 (m = numberCorrespondences, n = 9) and 1009-1044 (n = 3): the
    reciprocals of the singular values above m * sigma(0) * epsilon, and the
    pseudo-inverse V * SigmaInverse * U^T *)
Definition sigma_inverse (m : nat) (s : nat -> R) (k : nat) : R :=
  if Rlt_dec (s 0%nat * INR m * dbl_eps) (s k) then 1 / s k else 0.
Definition pseudo_inverse (svd : gsvd_t) (m n : nat) (A : nat -> nat -> R) (i j : nat) : R :=
  let '(U, s, V) := svd m n A in sumn n (fun k => V i k * sigma_inverse m s k * U j k).

(** 930-932: B = -I + AR * ARP *)
Definition s_B (svd : gsvd_t) (m : nat) (AR : nat -> nat -> R) (i j : nat) : R :=
  - delta i j + sumn 9 (fun k => AR i k * pseudo_inverse svd m 9 AR k j).
(** 934: C = B * AE *)
Definition s_C (svd : gsvd_t) (m : nat) (AR AE : nat -> nat -> R) (i j : nat) : R :=
  sumn m (fun k => s_B svd m AR i k * AE k j).
(** 936-945 *)
Definition s_essential (svd : gsvd_t) (m : nat) (AR AE : nat -> nat -> R) : mat3 :=
  let '(_, _, V) := svd m 9%nat (s_C svd m AR AE) in to_mat (gcol V 8).
(** 947-966 *)
Definition s_rotations (svd3 : svd_t) (E : mat3) : mat3 * mat3 :=
  let '(U, s, V) := svd3 E in
  let Ra := mmul (mmul U Wmat) (mT V) in
  let Rb := mmul (mmul U (mT Wmat)) (mT V) in
  (mT (fix_sign Ra), mT (fix_sign Rb)).

(** 985-997: a row of A_tra and A_trb *)
Definition tr_row (R12 : mat3) (d1 d2 : vec3) (j : nat) : R :=
  let r i := vx d2 * vx (row R12 i) + vy d2 * vy (row R12 i) + vz d2 * vz (row R12 i) in
  match j with
  | O => vz d1 * r 1%nat - vy d1 * r 2%nat
  | 1%nat => vx d1 * r 2%nat - vz d1 * r 0%nat
  | _ => vy d1 * r 0%nat - vx d1 * r 1%nat
  end.
Definition tr_A (A : rel_adapter) (idx : list nat) (R12 : mat3) (i : nat) : nat -> R :=
  tr_row R12 (s_d1 A (nth i idx 0%nat)) (s_d2 A (nth i idx 0%nat)).
(** 999-1002 *)
Definition tr_b (A : rel_adapter) (idx : list nat) (R12 : mat3) (i : nat) : R :=
  let k := nth i idx 0%nat in
  - dot (s_d1 A k) (mv R12 (s_m2 A k)) - dot (s_m1 A k) (mv R12 (s_d2 A k)).
(** 1009-1045: ta = PI * b *)
Definition tr_solve (svd : gsvd_t) (m : nat) (T : nat -> nat -> R) (b : nat -> R) : vec3 :=
  let x i := sumn m (fun j => pseudo_inverse svd m 3 T i j * b j) in V3 (x 0%nat) (x 1%nat) (x 2%nat).
(** 1047-1048: norm of A * t - b *)
Definition tr_fit (m : nat) (T : nat -> nat -> R) (b : nat -> R) (t : vec3) : R :=
  sqrt (sumn m (fun i => (mvec 3 T (ventry t) i - b i) ^ 2)).

(** seventeenpt, 858-1063.  [None]: sixteen indices or fewer (the assert). *)
Definition seventeenpt (svd : gsvd_t) (svd3 : svd_t) (A : rel_adapter) (idx : list nat) : option pose :=
  let m := length idx in
  if Nat.ltb 16 m then
    let AE i := s_AE A (nth i idx 0%nat) in
    let AR i := s_AR A (nth i idx 0%nat) in
    let '(Ra, Rb) := s_rotations svd3 (s_essential svd m AR AE) in
    let ta := tr_solve svd m (tr_A A idx Ra) (tr_b A idx Ra) in
    let tb := tr_solve svd m (tr_A A idx Rb) (tr_b A idx Rb) in
    let fita := tr_fit m (tr_A A idx Ra) (tr_b A idx Ra) ta in
    let fitb := tr_fit m (tr_A A idx Rb) (tr_b A idx Rb) tb in
    Some (if Rlt_dec fita fitb then Pose Ra ta else Pose Rb tb)
  else None.
