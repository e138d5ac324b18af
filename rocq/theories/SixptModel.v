(** Model of sixpt, src/relative_pose/methods.cpp 601-629, of sixpt_main,
    src/relative_pose/modules/main.cpp 690-725, and of setupAction,
    src/relative_pose/modules/sixpt/modules2.cpp 192-426, over the exact reals.
    Definitions only.  The polynomials and the template are in SixptGen.v.
    Arguments: [inv n A] = inverse() of an n x n matrix, [solve n m A B] =
    PartialPivLU(A).solve(B) for an n x n matrix A and an n x m matrix B,
    [eig n A] = eigenvectors() of the EigenSolver. *)
From Coq Require Import Reals List Arith.
From Verif Require Import Lin GenLin Cplx RotModel MacModel GeoModel SixptGen.
Import ListNotations.
Local Open Scope R_scope.
Local Notation matrix := (nat -> nat -> R).

(** methods.cpp 613-624: column i of L1 and of L2, for correspondence k *)
Definition six_l1 (A : rel_adapter) (k : nat) : line6 :=
  let f1 := mv (rr1 A k) (rf1 A k) in L6 f1 (cross f1 (ro1 A k)).
Definition six_l2 (A : rel_adapter) (k : nat) : line6 :=
  let f2 := mv (rr2 A k) (rf2 A k) in L6 f2 (cross f2 (ro2 A k)).

(** modules2.cpp 198-218: m[prim][r] with r the index of the second line among
    the five others; its three entries are c0, c1, c2 of fillRow1 *)
Definition other (prim r : nat) : nat := if Nat.ltb r prim then r else S r.
Definition six_m (L1 L2 : nat -> line6) (prim r : nat) (q j : nat) : R :=
  let sec := other prim r in
  let fill := match q with O => fill_c0 | 1%nat => fill_c1 | _ => fill_c2 end in
  nth j (fill (L1 prim) (L2 prim) (L1 sec) (L2 sec)) 0.

(** 222-250: decaIndex, row0, row1, row2, and one step of the loop *)
Definition six_next (s : nat * nat * nat * nat) : nat * nat * nat * nat :=
  let '(d, r0, r1, r2) := s in
  if Nat.ltb 4 (S r2) then
    if Nat.ltb 3 (S r1) then
      if Nat.ltb 2 (S r0) then (S d, 0, 1, 2)%nat else (d, S r0, S (S r0), S (S (S r0)))
    else (d, r0, S r1, S (S r1))
  else (d, r0, r1, S r2).
Definition six_state (row : nat) : nat * nat * nat * nat := Nat.iter row six_next (0, 0, 1, 2)%nat.
(** M1p, 60 x 84 (EQS of modules.hpp 35) *)
Definition six_M1p (L1 L2 : nat -> line6) : matrix := fun row k =>
  let '(d, r0, r1, r2) := six_state row in
  nth k (fill_row2 (six_m L1 L2 d r0) (six_m L1 L2 d r1) (six_m L1 L2 d r2)) 0.

(** 257-260: BtB and M1 = BtB.inverse() * Bt * M1p *)
Definition six_BtB (M1p : matrix) : matrix := fun i j => sumn 60 (fun r => M1p r i * M1p r j).
Definition six_M1 (inv : nat -> matrix -> matrix) (M1p : matrix) : matrix := fun i j =>
  sumn 60 (fun r => sumn 15 (fun k => inv 15%nat (six_BtB M1p) i k * M1p r k) * M1p r j).
(** M2, 262-355, and its two blocks *)
Definition six_M2 (M1 : matrix) : matrix := fun r c => mac_cell M1 (nth r six_rows (0%nat, [])) c.
Definition six_lead (M1 : matrix) : matrix := six_M2 M1.
Definition six_trail (M1 : matrix) : matrix := fun r s => six_M2 M1 r (93 + s).
(** 357-358 *)
Definition six_M3 (solve : nat -> nat -> matrix -> matrix -> matrix) (M1 : matrix) : matrix :=
  solve 93%nat 64%nat (six_lead M1) (six_trail M1).
(** 359-423 *)
Definition six_action_of (M3 : matrix) : matrix := fun i s =>
  match nth i six_action_rows (ActOne 0) with ActRow k => - M3 k s | ActOne j => delta s j end.
Definition six_action inv solve (L1 L2 : nat -> line6) : matrix :=
  six_action_of (six_M3 solve (six_M1 inv (six_M1p L1 L2))).

(** main.cpp 712-724: a column of the eigenvectors gives a rotation.  [None]: not
    a number *)
Definition six_solution (V : nat -> nat -> cx) (c : nat) : option mat3 :=
  if ceqb (V 63%nat c) c0 then None
  else let s r := re (cdiv (V (60 + r)%nat c) (V 63%nat c)) in
       Some (mT (cayley2rot (V3 (s 0%nat) (s 1%nat) (s 2%nat)))).
Definition sixpt_main inv solve (eig : nat -> matrix -> nat -> nat -> cx) (L1 L2 : nat -> line6) : list (option mat3) :=
  map (six_solution (eig 64%nat (six_action inv solve L1 L2))) (seq 0 64).
(** sixpt for the six indices idx (the assertion of line 606 holds) *)
Definition sixpt inv solve eig (A : rel_adapter) (idx : list nat) : list (option mat3) :=
  sixpt_main inv solve eig (fun i => six_l1 A (nth i idx 0%nat)) (fun i => six_l2 A (nth i idx 0%nat)).
