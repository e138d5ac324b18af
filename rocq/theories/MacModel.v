(** Elimination templates: a matrix filled with shifted copies of the rows of a
    small coefficient matrix.  Definitions only. *)
From Coq Require Import Reals List NArith.
Import ListNotations.
Local Open Scope R_scope.

(** One row of the template: the statements ( *(M2[r]))[c] = M1(i,d) of
    upnp2.cpp and upnp4.cpp with a common r, as (i, list of (c,d)). *)
Notation trow := (nat * list (N * N))%type.
Definition mac_cell (m1 : nat -> nat -> R) (row : trow) (c : nat) : R :=
  match find (fun e => N.eqb (fst e) (N.of_nat c)) (snd row) with
  | Some e => m1 (fst row) (N.to_nat (snd e))
  | None => 0
  end.
(** the filled matrix with nc columns, row by row; other entries are zero *)
Definition mac (m1 : nat -> nat -> R) (nc : nat) (tab : list trow) : list (list R) :=
  map (fun row => map (mac_cell m1 row) (seq 0 nc)) tab.
