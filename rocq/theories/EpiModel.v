(** Model of sevenpt and eightpt, src/relative_pose/methods.cpp 316-489, over
    the reals.  Definitions only.  The decompositions of Eigen are arguments:
    [svdV A] = matrixV() of the JacobiSVD of the n x 9 matrix A, [svd3 F] = U,
    singular values and V of a 3x3 matrix, [eig M] = eigenvalues() of the
    EigenSolver. *)
From Coq Require Import Reals List.
From Verif Require Import Lin GenLin TriModel Cplx.
Import ListNotations.
Local Open Scope R_scope.

(** the coefficient matrix, lines 324-340 and 432-448 (and, with the same rows,
    fivept_stewenius 192-206 and fivept_nister 247-261): row i is
    kron(bearingVector1, bearingVector2) of the i-th correspondence.
    A correspondence is the pair (getBearingVector1, getBearingVector2); the
    Indices object only selects which correspondences are in the list. *)
Definition epi_row (c : vec3 * vec3) (j : nat) : R := ventry (fst c) (Nat.div j 3) * ventry (snd c) (Nat.modulo j 3).
Definition epiA (l : list (vec3 * vec3)) (i : nat) : nat -> R := epi_row (nth i l (v0, v0)).
(** F_temp.col(k) = f.block<3,1>(3k,0), F = F_temp.transpose() *)
Definition to_mat (f : nat -> R) : mat3 :=
  mT (of_cols (V3 (f 0%nat) (f 1%nat) (f 2%nat)) (V3 (f 3%nat) (f 4%nat) (f 5%nat)) (V3 (f 6%nat) (f 7%nat) (f 8%nat))).

(** eightpt, 424-472 *)
Definition eightpt (svdV : (nat -> nat -> R) -> nat -> nat -> R) (svd3 : mat3 -> mat3 * vec3 * mat3) (l : list (vec3 * vec3)) : mat3 :=
  let F := to_mat (gcol (svdV (epiA l)) 8) in
  let '(U, s, V) := svd3 F in
  mmul (mmul U (diag (vx s) (vy s) 0)) (mT V).

Definition eps : R := 1 / 100000000.
(** sevenpt, 316-396.  [None]: F2.inverse() of a singular matrix is not a number
    matrix and so are the results. *)
Definition sevenpt (svdV : (nat -> nat -> R) -> nat -> nat -> R) (eig : mat3 -> cx * cx * cx) (l : list (vec3 * vec3)) : option (list mat3) :=
  let V := svdV (epiA l) in
  let F1 := to_mat (gcol V 8) in
  let F2 := to_mat (gcol V 7) in
  let lt a b := if Rlt_dec a b then true else false in
  if (lt (Rabs (det F1)) eps || Nat.ltb 7 (length l))%bool then Some [F1]
  else if Req_EM_T (det F2) 0 then None else
    let '(D0, D1, D2) := eig (mmul (minv F2) F1) in
    let sol (D : cx) := madd F1 (mneg (mscale (re D) F2)) in
    let val1 := Rabs (im D0) in
    let val2 := Rabs (im D1) in
    let val3 := Rabs (im D2) in
    if (lt val1 eps && lt val2 eps && lt val3 eps)%bool then Some [sol D0; sol D1; sol D2]
    else
      let '(mn, Dm) := if lt val2 val1 then (val2, D1) else (val1, D0) in
      let Dm := if lt val3 mn then D2 else Dm in
      Some [sol Dm].
