(** Model of getSmallestEVwithJacobian,
    src/relative_pose/modules/eigensolver/modules.cpp 73-188, over the reals.
    The three groups of statements (suffixes _jac1, _jac2, _jac3) are the same
    but for the suffix and are modelled once, with M' for M_jac1, M_jac2 or
    M_jac3. *)
From Coq Require Import Reals List.
From Verif Require Import Lin RotModel SturmModel EigSums EigGen EigModel.
Local Open Scope R_scope.

(** b_jac, c_jac, d_jac, 94-135 *)
Definition b_jac (M' : mat3) : R := - m00 M' - m11 M' - m22 M'.
Definition c_jac (M M' : mat3) : R :=
  - (2) * m02 M * m02 M' - 2 * m12 M * m12 M' - 2 * m01 M * m01 M'
  + m00 M' * m11 M + m00 M * m11 M' + m00 M' * m22 M
  + m00 M * m22 M' + m11 M' * m22 M + m11 M * m22 M'.
Definition d_jac (M M' : mat3) : R :=
  m11 M' * m02 M ^ 2 + m11 M * 2 * m02 M * m02 M'
  + m00 M' * m12 M ^ 2 + m00 M * 2 * m12 M * m12 M'
  + m22 M' * m01 M ^ 2 + m22 M * 2 * m01 M * m01 M'
  - m00 M' * m11 M * m22 M - m00 M * m11 M' * m22 M
  - m00 M * m11 M * m22 M' - 2 * (m01 M' * m12 M * m02 M
  + m01 M * m12 M' * m02 M + m01 M * m12 M * m02 M').
(** 137-182; the caller's check that the value itself is a number implies t > 0;
    [None]: division by the square root of 1 - s^2/t when that is 0. *)
Definition ev_jac (b c d b' c' d' : R) : option R :=
  let s := ev_s b c d in
  let t := ev_t b c in
  let s' := 2 * 3 * b ^ 2 * b' - 9 * b' * c - 9 * b * c' + 27 * d' in
  let t' := 4 * 3 * (b ^ 2 - 3 * c) ^ 2 * (2 * b * b' - 3 * c') in
  if Req_EM_T (sqrt (1 - s ^ 2 / t)) 0 then None else
  let alpha := acos (s / sqrt t) in
  let alpha' := -1 / sqrt (1 - s ^ 2 / t) * (s' * sqrt t - s * (1/2) * Rpower t (- (1/2)) * t') / t in
  let beta := alpha / 3 in
  let beta' := alpha' / 3 in
  let y := cos beta in
  let y' := - sin beta * beta' in
  let r := 1/2 * sqrt t in
  let r' := 1/4 * Rpower t (- (1/2)) * t' in
  let w := rpow r (1 / 3) in
  let w' := 1 / 3 * Rpower r (- (2) / 3) * r' in
  let k := w * y in
  let k' := w' * y + w * y' in
  Some ((- b' - 2 * k') / 3).
Definition ev_with_jac (M M1 M2 M3 : mat3) : option (R * vec3) :=
  match smallestEV M with
  | None => None
  | Some e =>
      let j M' := ev_jac (ev_b M) (ev_c M) (ev_d M) (b_jac M') (c_jac M M') (d_jac M M') in
      match j M1, j M2, j M3 with
      | Some x, Some y, Some z => Some (e, V3 x y z)
      | _, _, _ => None
      end
  end.
Definition getSmallestEVwithJacobian (S : fsums) (c : vec3) : option (R * vec3) :=
  ev_with_jac (composeMJ S c) (M_jac1 S c) (M_jac2 S c) (M_jac3 S c).
