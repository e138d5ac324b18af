(** What the rows of the matrices composeA of both five-point solvers say: they
    are the cubic constraints of an essential matrix, for every 9x4 matrix EE
    and every x, y, z. *)
From Coq Require Import Reals List Lra Lia Arith.
From Verif Require Import Lin GenLin FiveptGen FiveptModel.
Import ListNotations.
Local Open Scope R_scope.

(** x X + y Y + z Z + W *)
Definition comb4 (X Y Z W : mat3) (x y z : R) : mat3 := madd (madd (mscale x X) (mscale y Y)) (madd (mscale z Z) W).
(** the monomials multiplied by the columns of the matrix of Stewenius' solver *)
Definition stew_mon (x y z : R) : list R :=
  [x^3; x^2*y; x*y^2; y^3; x^2*z; x*y*z; y^2*z; x*z^2; y*z^2; z^3; x^2; x*y; y^2; x*z; y*z; z^2; x; y; z; 1].
(** 2 E E^T E - trace(E E^T) E *)
Definition trace_constraint (E : mat3) : mat3 := msub (mscale 2 (mmul (mmul E (mT E)) E)) (mscale (trace (mmul E (mT E))) E).

Ltac row := intros; match goal with |- context[stew_A ?X ?Y ?Z ?W] => destruct X, Y, Z, W | |- context[nister_A ?X ?Y ?Z ?W] => destruct X, Y, Z, W end;
  cbv -[Rmult Rplus Rminus Ropp pow Rdiv IZR].
Lemma stew_eq0 X Y Z W x y z : sumn 20 (fun j => stew_A X Y Z W 0 j * nth j (stew_mon x y z) 0) = 1 / 2 * m00 (trace_constraint (comb4 X Y Z W x y z)).
Proof. row; field. Qed.
Lemma stew_eq1 X Y Z W x y z : sumn 20 (fun j => stew_A X Y Z W 1 j * nth j (stew_mon x y z) 0) = 1 / 2 * m10 (trace_constraint (comb4 X Y Z W x y z)).
Proof. row; field. Qed.
Lemma stew_eq2 X Y Z W x y z : sumn 20 (fun j => stew_A X Y Z W 2 j * nth j (stew_mon x y z) 0) = 1 / 2 * m20 (trace_constraint (comb4 X Y Z W x y z)).
Proof. row; field. Qed.
Lemma stew_eq3 X Y Z W x y z : sumn 20 (fun j => stew_A X Y Z W 3 j * nth j (stew_mon x y z) 0) = 1 / 2 * m01 (trace_constraint (comb4 X Y Z W x y z)).
Proof. row; field. Qed.
Lemma stew_eq4 X Y Z W x y z : sumn 20 (fun j => stew_A X Y Z W 4 j * nth j (stew_mon x y z) 0) = 1 / 2 * m11 (trace_constraint (comb4 X Y Z W x y z)).
Proof. row; field. Qed.
Lemma stew_eq5 X Y Z W x y z : sumn 20 (fun j => stew_A X Y Z W 5 j * nth j (stew_mon x y z) 0) = 1 / 2 * m21 (trace_constraint (comb4 X Y Z W x y z)).
Proof. row; field. Qed.
Lemma stew_eq6 X Y Z W x y z : sumn 20 (fun j => stew_A X Y Z W 6 j * nth j (stew_mon x y z) 0) = 1 / 2 * m02 (trace_constraint (comb4 X Y Z W x y z)).
Proof. row; field. Qed.
Lemma stew_eq7 X Y Z W x y z : sumn 20 (fun j => stew_A X Y Z W 7 j * nth j (stew_mon x y z) 0) = 1 / 2 * m12 (trace_constraint (comb4 X Y Z W x y z)).
Proof. row; field. Qed.
Lemma stew_eq8 X Y Z W x y z : sumn 20 (fun j => stew_A X Y Z W 8 j * nth j (stew_mon x y z) 0) = 1 / 2 * m22 (trace_constraint (comb4 X Y Z W x y z)).
Proof. row; field. Qed.
Lemma stew_eq9 X Y Z W x y z : sumn 20 (fun j => stew_A X Y Z W 9 j * nth j (stew_mon x y z) 0) = det (comb4 X Y Z W x y z).
Proof. row; field. Qed.
Lemma nister_eq0 X Y Z W x y z : sumn 20 (fun j => nister_A X Y Z W 0 j * nth j (nister_mon x y z) 0) = det (comb4 X Y Z W x y z).
Proof. row; ring. Qed.
Lemma nister_eq1 X Y Z W x y z : sumn 20 (fun j => nister_A X Y Z W 1 j * nth j (nister_mon x y z) 0) = m00 (trace_constraint (comb4 X Y Z W x y z)).
Proof. row; ring. Qed.
Lemma nister_eq2 X Y Z W x y z : sumn 20 (fun j => nister_A X Y Z W 2 j * nth j (nister_mon x y z) 0) = m10 (trace_constraint (comb4 X Y Z W x y z)).
Proof. row; ring. Qed.
Lemma nister_eq3 X Y Z W x y z : sumn 20 (fun j => nister_A X Y Z W 3 j * nth j (nister_mon x y z) 0) = m20 (trace_constraint (comb4 X Y Z W x y z)).
Proof. row; ring. Qed.
Lemma nister_eq4 X Y Z W x y z : sumn 20 (fun j => nister_A X Y Z W 4 j * nth j (nister_mon x y z) 0) = m01 (trace_constraint (comb4 X Y Z W x y z)).
Proof. row; ring. Qed.
Lemma nister_eq5 X Y Z W x y z : sumn 20 (fun j => nister_A X Y Z W 5 j * nth j (nister_mon x y z) 0) = m11 (trace_constraint (comb4 X Y Z W x y z)).
Proof. row; ring. Qed.
Lemma nister_eq6 X Y Z W x y z : sumn 20 (fun j => nister_A X Y Z W 6 j * nth j (nister_mon x y z) 0) = m21 (trace_constraint (comb4 X Y Z W x y z)).
Proof. row; ring. Qed.
Lemma nister_eq7 X Y Z W x y z : sumn 20 (fun j => nister_A X Y Z W 7 j * nth j (nister_mon x y z) 0) = m02 (trace_constraint (comb4 X Y Z W x y z)).
Proof. row; ring. Qed.
Lemma nister_eq8 X Y Z W x y z : sumn 20 (fun j => nister_A X Y Z W 8 j * nth j (nister_mon x y z) 0) = m12 (trace_constraint (comb4 X Y Z W x y z)).
Proof. row; ring. Qed.
Lemma nister_eq9 X Y Z W x y z : sumn 20 (fun j => nister_A X Y Z W 9 j * nth j (nister_mon x y z) 0) = m22 (trace_constraint (comb4 X Y Z W x y z)).
Proof. row; ring. Qed.
