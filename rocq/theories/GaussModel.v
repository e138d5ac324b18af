(** Model of src/math/gauss_jordan.cpp over the reals.  Definitions only.
    The matrix is the list of its rows. *)
From Coq Require Import Reals List ZArith.
From Verif Require Import SturmModel.
Import ListNotations.
Local Open Scope R_scope.

Inductive gj_result :=
| Reduced (m : list (list R))
| Singular                    (* division by a zero pivot *)
| Undefined.                  (* access outside the matrix *)

(** fabs(v) > precision *)
Definition big (precision v : R) : bool := if Rgt_dec (Rabs v) precision then true else false.

(** row -= lead * front on the columns >= k where front is big: lines 78-86 and
    94-98 (nonzeroIdx), 117-125 and 141-145. *)
Fixpoint subtract (precision lead : R) (k : nat) (front row : list R) : list R :=
  match front, row with
  | f :: front, r :: row =>
      match k with
      | O => (if big precision f then r - lead * f else r) :: subtract precision lead 0 front row
      | S k => r :: subtract precision lead k front row
      end
  | _, _ => row
  end.
(** lines 91-98 and 138-145: only if the leading coefficient is big. *)
Definition eliminate (precision : R) (k : nat) (front row : list R) : list R :=
  let lead := nth k row 0 in
  if big precision lead then subtract precision lead k front row else row.

(** lines 51-61: first row with the largest |leading coefficient|. *)
Fixpoint pivot (k : nat) (rows : list (list R)) (i best : nat) (maxValue : R) : nat :=
  match rows with
  | [] => best
  | r :: rows =>
      if Rgt_dec (Rabs (nth k r 0)) maxValue then pivot k rows (S i) i (Rabs (nth k r 0))
      else pivot k rows (S i) best maxValue
  end.
(** std::swap( matrix[row], matrix[frontRow] ), line 64, on the rows from
    frontRow on: element p goes first and the first takes its place. *)
Definition set_row (l : list (list R)) (p : nat) (r : list R) : list (list R) :=
  firstn p l ++ match skipn p l with [] => [] | _ :: t => r :: t end.
Definition swap_first (p : nat) (rows : list (list R)) : list (list R) :=
  match rows with
  | [] => []
  | r0 :: rest => nth p rows [] :: (match p with O => rest | S p => set_row rest p r0 end)
  end.
(** lines 69-77: the leading coefficient becomes exactly 1. *)
Fixpoint normalise (inv : R) (k : nat) (row : list R) : list R :=
  match row, k with
  | [], _ => []
  | _ :: row, O => 1 :: map (fun v => v * inv) row
  | v :: row, S k => v :: normalise inv k row
  end.
(** first loop, lines 47-103; [n] is the number of rows left *)
Fixpoint step_down (precision : R) (n k : nat) (rows : list (list R)) : option (list (list R)) :=
  match n with
  | O => Some []
  | S n =>
      match swap_first (pivot k rows 0 0 (-1)) rows with
      | [] => Some []
      | front :: rest =>
          if Req_EM_T (nth k front 0) 0 then None else
          let front := normalise (1 / nth k front 0) k front in
          match step_down precision n (S k) (map (eliminate precision k front) rest) with
          | None => None
          | Some rest => Some (front :: rest)
          end
      end
  end.

Fixpoint imap {X Y} (f : nat -> X -> Y) (i : nat) (l : list X) : list Y :=
  match l with [] => [] | x :: l => f i x :: imap f (S i) l end.
(** one pass of the second loop, lines 109-149: rows exitCondition .. frontRow-1 *)
Definition step_up (precision : R) (exitc k : nat) (m : list (list R)) : list (list R) :=
  let front := nth k m [] in
  imap (fun i r => if (Nat.leb exitc i && Nat.ltb i k)%bool then eliminate precision k front r else r) 0 m.
(** frontRow = k, k-1, ..., exitCondition+1 *)
Fixpoint steps_up (precision : R) (exitc : nat) (k : nat) (m : list (list R)) : list (list R) :=
  if Nat.ltb exitc k then
    match k with
    | O => m
    | S k' => steps_up precision exitc k' (step_up precision exitc k m)
    end
  else m.
(** gauss_jordan, 33-154; precision is 1.0e-10 in the code.  Row accesses
    outside the matrix: no rows, fewer columns than rows, ragged rows, or a
    negative exitCondition (the do-while loop then reaches row -1). *)
Definition gauss_jordan (precision : R) (exitCondition : Z) (m : list (list R)) : gj_result :=
  match m with
  | [] => Undefined
  | r0 :: _ =>
      if (Nat.leb (length m) (length r0) && forallb (fun r => Nat.eqb (length r) (length r0)) m)%bool then
        match step_down precision (length m) 0 m with
        | None => Singular
        | Some m =>
            if Z.ltb exitCondition 0 then Undefined
            else Reduced (steps_up precision (Z.to_nat exitCondition) (length m - 1) m)
        end
      else Undefined
  end.
