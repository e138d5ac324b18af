(** Model of the five-point solvers of Stewenius and Nister over the reals:
    fivept_stewenius_main and fivept_nister_main of
    src/relative_pose/modules/main.cpp, the polynomial helpers of
    src/relative_pose/modules/fivept_nister/modules.cpp, and their callers in
    src/relative_pose/methods.cpp.  Definitions only.  The matrices composeA of
    both solvers are in FiveptGen.v.  Arguments of the model:
    [inv10 A1] = FullPivLU(A1).inverse(), [eig M] = eigenvectors() of the
    EigenSolver, column by column, [csqrt] = std::sqrt of a complex number,
    [svdV A] = matrixV() of the JacobiSVD, [roots p] = Sturm(p).findRoots()
    (modelled on its own in SturmModel.v), [lm f x] = the three parameters after
    LevenbergMarquardt minimize with the residuals f.
    A complex or real division by zero makes the whole output matrix not a
    number: [None]. *)
From Coq Require Import Reals List Arith.
From Verif Require Import Lin GenLin Cplx CEig EpiModel FiveptGen.
Import ListNotations.
Local Open Scope R_scope.

Local Notation matrix := (nat -> nat -> R).

(** SVD.matrixV().block(0,5,9,4), methods.cpp 208-209 and 263-264: the k-th column
    of EE, a 9-vector *)
Definition ee_col (V : matrix) (k : nat) : nat -> R := gcol V (5 + k).
(** A.block(0,0,10,10), and luA1.inverse()*A2, main.cpp 61-65 and 144-148 *)
Definition block1 (A : matrix) : matrix := fun i j => if Nat.ltb j 10 then A i j else 0.
Definition lu_solve (inv10 : matrix -> matrix) (A : matrix) : matrix :=
  fun i j => sumn 10 (fun k => inv10 (block1 A) i k * A k (10 + j)%nat).

(** ** fivept_stewenius_main, main.cpp 53-133 *)
(** 67-75: the action matrix *)
Definition stew_M (A3 : matrix) : matrix := fun i j =>
  match i with
  | 0%nat | 1%nat | 2%nat => - A3 i j
  | 3%nat => - A3 4%nat j
  | 4%nat => - A3 5%nat j
  | 5%nat => - A3 7%nat j
  | 6%nat => delta j 0
  | 7%nat => delta j 1
  | 8%nat => delta j 3
  | _ => delta j 6
  end.
(** 82-131, one column v of the eigenvector matrix: entries 6..8 over entry 9,
    EE * SOLS, division by the complex square root of the sum of the squares *)
Definition stew_column (csqrt : cx -> cx) (EE : nat -> nat -> R) (v : nat -> cx) : option (nat -> cx) :=
  if ceqb (v 9%nat) c0 then None
  else
    let sol r := if Nat.ltb r 3 then cdiv (v (6 + r)%nat) (v 9%nat) else c1 in
    let evec i := csum 4 (fun r => cmul (RtoC (EE r i)) (sol r)) in
    let n := csqrt (csum 9 (fun i => cmul (evec i) (evec i))) in
    if ceqb n c0 then None else Some (fun i => cdiv (evec i) n).
(** EE r i = EE(i,r) in the code.  The ten complex essential matrices, row by
    row as 9-vectors. *)
Definition fivept_stewenius_main (inv10 : matrix -> matrix) (eig : matrix -> nat -> nat -> cx) (csqrt : cx -> cx)
    (EE : nat -> nat -> R) : list (option (nat -> cx)) :=
  let A := stew_A (to_mat (EE 0%nat)) (to_mat (EE 1%nat)) (to_mat (EE 2%nat)) (to_mat (EE 3%nat)) in
  let M := stew_M (lu_solve inv10 A) in
  map (fun c => stew_column csqrt EE (fun i => eig M i c)) (seq 0 10).
(** methods.cpp 185-213 *)
Definition fivept_stewenius (svdV : matrix -> matrix) inv10 eig csqrt (l : list (vec3 * vec3)) : list (option (nat -> cx)) :=
  fivept_stewenius_main inv10 eig csqrt (ee_col (svdV (epiA l))).

(** ** fivept_nister_main, main.cpp 136-276 *)
(** b11_part1 - b11_part2 and its eight siblings, 149-201: n entries of rows r and
    r+1 of A3 from column c, the first shifted by one *)
Definition nister_b (A3 : matrix) (r c n : nat) : list R :=
  map (fun k => (if Nat.eqb k 0 then 0 else A3 r (c + (k - 1))%nat) - (if Nat.eqb k n then 0 else A3 (r + 1)%nat (c + k)%nat)) (seq 0 (n + 1)).
(** computeSeventhOrderPolynomial, fivept_nister/modules.cpp 385-400 *)
Definition poly7 (a b : list R) : list R :=
  let p k := nth k a 0 in let q k := nth k b 0 in
  [ p 0%nat * q 0%nat;
    p 0%nat * q 1%nat + p 1%nat * q 0%nat;
    p 0%nat * q 2%nat + p 1%nat * q 1%nat + p 2%nat * q 0%nat;
    p 0%nat * q 3%nat + p 1%nat * q 2%nat + p 2%nat * q 1%nat + p 3%nat * q 0%nat;
    p 1%nat * q 3%nat + p 2%nat * q 2%nat + p 3%nat * q 1%nat + p 4%nat * q 0%nat;
    p 2%nat * q 3%nat + p 3%nat * q 2%nat + p 4%nat * q 1%nat;
    p 3%nat * q 3%nat + p 4%nat * q 2%nat;
    p 4%nat * q 3%nat ].
(** computeSixthOrderPolynomial, 403-417 *)
Definition poly6 (a b : list R) : list R :=
  let p k := nth k a 0 in let q k := nth k b 0 in
  [ p 0%nat * q 0%nat;
    p 0%nat * q 1%nat + p 1%nat * q 0%nat;
    p 0%nat * q 2%nat + p 1%nat * q 1%nat + p 2%nat * q 0%nat;
    p 0%nat * q 3%nat + p 1%nat * q 2%nat + p 2%nat * q 1%nat + p 3%nat * q 0%nat;
    p 1%nat * q 3%nat + p 2%nat * q 2%nat + p 3%nat * q 1%nat;
    p 2%nat * q 3%nat + p 3%nat * q 2%nat;
    p 3%nat * q 3%nat ].
(** computeTenthOrderPolynomialFrom73, 420-438 *)
Definition poly73 (a b : list R) : list R :=
  let p k := nth k a 0 in let q k := nth k b 0 in
  [ p 0%nat * q 0%nat;
    p 0%nat * q 1%nat + p 1%nat * q 0%nat;
    p 0%nat * q 2%nat + p 1%nat * q 1%nat + p 2%nat * q 0%nat;
    p 0%nat * q 3%nat + p 1%nat * q 2%nat + p 2%nat * q 1%nat + p 3%nat * q 0%nat;
    p 1%nat * q 3%nat + p 2%nat * q 2%nat + p 3%nat * q 1%nat + p 4%nat * q 0%nat;
    p 2%nat * q 3%nat + p 3%nat * q 2%nat + p 4%nat * q 1%nat + p 5%nat * q 0%nat;
    p 3%nat * q 3%nat + p 4%nat * q 2%nat + p 5%nat * q 1%nat + p 6%nat * q 0%nat;
    p 4%nat * q 3%nat + p 5%nat * q 2%nat + p 6%nat * q 1%nat + p 7%nat * q 0%nat;
    p 5%nat * q 3%nat + p 6%nat * q 2%nat + p 7%nat * q 1%nat;
    p 6%nat * q 3%nat + p 7%nat * q 2%nat;
    p 7%nat * q 3%nat ].
(** computeTenthOrderPolynomialFrom64, 441-459 *)
Definition poly64 (a b : list R) : list R :=
  let p k := nth k a 0 in let q k := nth k b 0 in
  [ p 0%nat * q 0%nat;
    p 0%nat * q 1%nat + p 1%nat * q 0%nat;
    p 0%nat * q 2%nat + p 1%nat * q 1%nat + p 2%nat * q 0%nat;
    p 0%nat * q 3%nat + p 1%nat * q 2%nat + p 2%nat * q 1%nat + p 3%nat * q 0%nat;
    p 0%nat * q 4%nat + p 1%nat * q 3%nat + p 2%nat * q 2%nat + p 3%nat * q 1%nat + p 4%nat * q 0%nat;
    p 1%nat * q 4%nat + p 2%nat * q 3%nat + p 3%nat * q 2%nat + p 4%nat * q 1%nat + p 5%nat * q 0%nat;
    p 2%nat * q 4%nat + p 3%nat * q 3%nat + p 4%nat * q 2%nat + p 5%nat * q 1%nat + p 6%nat * q 0%nat;
    p 3%nat * q 4%nat + p 4%nat * q 3%nat + p 5%nat * q 2%nat + p 6%nat * q 1%nat;
    p 4%nat * q 4%nat + p 5%nat * q 3%nat + p 6%nat * q 2%nat;
    p 5%nat * q 4%nat + p 6%nat * q 3%nat;
    p 6%nat * q 4%nat ].
Definition psub (a b : list R) : list R := map (fun c => fst c - snd c) (combine a b).
Definition padd (a b : list R) : list R := map (fun c => fst c + snd c) (combine a b).
(** 203-217: p1, p2, p3 *)
Definition nister_p1 (A3 : matrix) : list R := psub (poly7 (nister_b A3 6 6 4) (nister_b A3 4 3 3)) (poly7 (nister_b A3 4 6 4) (nister_b A3 6 3 3)).
Definition nister_p2 (A3 : matrix) : list R := psub (poly7 (nister_b A3 4 6 4) (nister_b A3 6 0 3)) (poly7 (nister_b A3 6 6 4) (nister_b A3 4 0 3)).
Definition nister_p3 (A3 : matrix) : list R := psub (poly6 (nister_b A3 4 0 3) (nister_b A3 6 3 3)) (poly6 (nister_b A3 4 3 3) (nister_b A3 6 0 3)).
(** 219-226: p_order10 *)
Definition nister_p10 (A3 : matrix) : list R :=
  padd (padd (poly73 (nister_p1 A3) (nister_b A3 8 0 3)) (poly73 (nister_p2 A3) (nister_b A3 8 3 3))) (poly64 (nister_p3 A3) (nister_b A3 8 6 4)).
(** polyVal, fivept_nister/modules.cpp 371-382 *)
Fixpoint poly_val (p : list R) (x : R) : R := match p with [] => 0 | c :: r => c * x ^ length r + poly_val r x end.
(** PollishCoefficientsFunctor, fivept_nister/modules.cpp 470-510: the ten residuals *)
Definition nister_mon (x y z : R) : list R :=
  [x^3; y^3; x^2*y; x*y^2; x^2*z; x^2; y^2*z; y^2; x*y*z; x*y; x*z^2; x*z; x; y*z^2; y*z; y; z^3; z^2; z; 1].
Definition polish_residual (A : matrix) (p : R * R * R) (i : nat) : R :=
  let '(x, y, z) := p in sumn 20 (fun j => A i j * nth j (nister_mon x y z) 0).
(** 231-275, one root z *)
Definition nister_root (lm : (R * R * R -> nat -> R) -> R * R * R -> R * R * R) (EE : nat -> nat -> R) (A A3 : matrix) (z : R) : option mat3 :=
  if Req_EM_T (poly_val (nister_p3 A3) z) 0 then None
  else
    let x := poly_val (nister_p1 A3) z / poly_val (nister_p3 A3) z in
    let y := poly_val (nister_p2 A3) z / poly_val (nister_p3 A3) z in
    let '(x, y, z) := lm (polish_residual A) (x, y, z) in
    let evec i := x * EE 0%nat i + y * EE 1%nat i + z * EE 2%nat i + EE 3%nat i in
    let n := sqrt (sumn 9 (fun i => evec i ^ 2)) in
    if Req_EM_T n 0 then None else Some (to_mat (fun i => evec i / n)).
Definition fivept_nister_main (inv10 : matrix -> matrix) (roots : list R -> list R) lm (EE : nat -> nat -> R) : list (option mat3) :=
  let A := nister_A (to_mat (EE 0%nat)) (to_mat (EE 1%nat)) (to_mat (EE 2%nat)) (to_mat (EE 3%nat)) in
  let A3 := lu_solve inv10 A in
  map (nister_root lm EE A A3) (roots (nister_p10 A3)).
(** methods.cpp 240-268 *)
Definition fivept_nister (svdV : matrix -> matrix) inv10 roots lm (l : list (vec3 * vec3)) : list (option mat3) :=
  fivept_nister_main inv10 roots lm (ee_col (svdV (epiA l))).
