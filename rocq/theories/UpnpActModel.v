(** Model of setupAction_gj, /repo/src/absolute_pose/modules/upnp2.cpp, and of
    setupAction_sym_gj, /repo/src/absolute_pose/modules/upnp4.cpp, over the exact
    reals, and of upnp with them.  Definitions only.  The coefficient matrices and
    the templates are in UpnpGen.v, math::gauss_jordan is in GaussModel.v.
    Arguments: [inv n A] = inverse() of an n x n matrix, [eig n A] = eigenvectors()
    of the EigenSolver, [precision] = 1.0e-10 of gauss_jordan. *)
From Coq Require Import Reals List Arith ZArith.
From Verif Require Import Lin GenLin Cplx RotModel GbModel GaussModel MacModel UpnpModel UpnpGen.
Import ListNotations.
Local Open Scope R_scope.
Local Notation matrix := (nat -> nat -> R).

(** M1.block<n,n>(0,0) *)
Definition lead_block (n : nat) (A : matrix) : matrix := fun i j => if (Nat.ltb i n && Nat.ltb j n)%bool then A i j else 0.
(** M1_part1.inverse() * M1.block(0,0) put back: upnp2.cpp 49-51 (n = 4) and
    upnp4.cpp 53-55 (n = 7) *)
Definition reduce_lead (inv : nat -> matrix -> matrix) (n : nat) (A : matrix) : matrix := fun i j =>
  if Nat.ltb i n then sumn n (fun k => inv n (lead_block n A) i k * A k j) else A i j.

(** ** setupAction_gj, upnp2.cpp 34-486 *)
(** M1, 42-51 *)
Definition u2_M1 inv (M : matrix) (C : nat -> R) : matrix := reduce_lead inv 4 (gcells (u2_cells M C)).
(** M2, 53-455 *)
Definition u2_M2 inv M C : list (list R) := mac (u2_M1 inv M C) 412 u2_rows.
(** Action, 457-481 *)
Definition u2_action_of (m : list (list R)) : matrix := fun i s =>
  let row r := - nth (396 + s) (nth r m []) 0 in
  match i with
  | 0%nat => row 340%nat | 1%nat => row 372%nat | 2%nat => row 373%nat | 3%nat => row 374%nat
  | 4%nat => delta s 0
  | 5%nat => row 389%nat | 6%nat => row 390%nat
  | 7%nat => delta s 1 | 8%nat => delta s 2 | 9%nat => delta s 3 | 10%nat => delta s 4
  | 11%nat => delta s 7 | 12%nat => delta s 8 | 13%nat => delta s 9 | 14%nat => delta s 10
  | _ => delta s 14
  end.
Definition u2_action inv (precision : R) M C : option matrix :=
  match gauss_jordan precision 340 (u2_M2 inv M C) with Reduced m => Some (u2_action_of m) | _ => None end.

(** ** setupAction_sym_gj, upnp4.cpp 34-232 *)
(** 57-61: cancellation in column 10 *)
Definition cancel10 (A : matrix) : matrix := fun i j => if Nat.ltb i 7 then A i j - A i 10%nat / A 7%nat 10%nat * A 7%nat j else A i j.
(** M1, 43-61 *)
Definition u4_M1 inv (M : matrix) (C : nat -> R) : matrix := cancel10 (reduce_lead inv 7 (gcells (u4_cells M C))).
(** M2, 63-211 *)
Definition u4_M2 inv M C : list (list R) := mac (u4_M1 inv M C) 149 u4_rows.
(** Action, 213-227 *)
Definition u4_action_of (m : list (list R)) : matrix := fun i s =>
  let row r := - nth (141 + s) (nth r m []) 0 in
  match i with
  | 0%nat => row 121%nat | 1%nat => row 122%nat | 2%nat => row 123%nat | 3%nat => row 124%nat
  | 4%nat => delta s 0 | 5%nat => delta s 1 | 6%nat => delta s 2 | _ => delta s 3
  end.
Definition u4_action inv (precision : R) M C : option matrix :=
  match gauss_jordan precision 121 (u4_M2 inv M C) with Reduced m => Some (u4_action_of m) | _ => None end.

(** ** upnp *)
(** the quaternions read from the eigenvectors: main.cpp 737-744 and 799-804 *)
Definition u2_evs (V : nat -> nat -> cx) : list quat :=
  map (fun c => Q4 (re (V 11%nat c)) (re (V 12%nat c)) (re (V 13%nat c)) (re (V 14%nat c))) (seq 0 16).
Definition u4_evs (V : nat -> nat -> cx) : list quat :=
  map (fun c => Q4 (re (V 4%nat c)) (re (V 5%nat c)) (re (V 6%nat c)) (re (V 7%nat c))) (seq 0 8).
(** upnp, methods.cpp 484-688, with upnp_main (main.cpp 724-735) for at most four
    correspondences and upnp_main_sym (786-797) otherwise.  [None]: not a number *)
Definition upnp_evs inv precision (eig : nat -> matrix -> nat -> nat -> cx) (l : list ucorr) : option (list quat) :=
  match uH l with
  | None => None
  | Some H =>
      let I := uI H up l in
      let M := uM I up l in let C := uC I (uJ H l) up l in
      if Nat.ltb 4 (length l)
      then match u4_action inv precision M C with None => None | Some A => Some (u4_evs (eig 8%nat A)) end
      else match u2_action inv precision M C with None => None | Some A => Some (u2_evs (eig 16%nat A)) end
  end.
Definition upnp_complete inv precision eig (l : list ucorr) : option (list upose) :=
  match upnp_evs inv precision eig l with None => None | Some evs => upnp evs l end.
