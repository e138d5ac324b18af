(** Model of the generated Groebner-basis templates of
    src/absolute_pose/modules/{gpnp1,...,gpnp5,gp3p}: straight-line programs
    over one coefficient matrix whose rows are polynomials and whose columns
    are monomials.  Every statement of a template has one of the four shapes
    below; the programs themselves (which rows, which columns) are in the
    generated Gb*Data.v files.  A division by zero (an infinite or NaN entry
    in the code) stops the run with [None].  Definitions only. *)
From Coq Require Import Reals List Arith Bool.
Import ListNotations.

(** groebnerMatrix; rows and columns beyond the matrix are never touched. *)
Definition gmat := nat -> nat -> R.

(** groebnerMatrix(r,c) = v *)
Definition gset (G : gmat) (r c : nat) (v : R) : gmat :=
  fun i j => if Nat.eqb i r && Nat.eqb j c then v else G i j.

(** The four kinds of statement groups.
    [GS t i p j q es]: an sPolynomial function (file spolynomials.cpp): for each
    (c,a,b) in es, G(t,c) = G(i,a)/G(i,p) - G(j,b)/G(j,q), where either term
    may be missing.
    [GR t s c0 p ps]: a groebnerRow function (file reductors.cpp) called with
    target row t: factor = G(t,c0)/G(s,p); G(t,c0) = 0; then
    G(t,ct) -= factor*G(s,cs) for each (ct,cs) in ps.
    [GN r c]: factor = 1.0/G(r,c); row(r) = factor*row(r)  (file code.cpp).
    [GE t c s]: factor = G(t,c); row(t) = row(t) - factor*row(s)  (file code.cpp). *)
Inductive gop :=
| GS (t i p j q : nat) (es : list (nat * option nat * option nat))
| GR (t s c0 p : nat) (ps : list (nat * nat))
| GN (r c : nat)
| GE (t c s : nat).

Local Open Scope R_scope.

(** one optional quotient of an sPolynomial statement *)
Definition gterm (G : gmat) (i p : nat) (a : option nat) : R :=
  match a with Some a => G i a / G i p | None => 0 end.

(** one statement group; the two pivots an sPolynomial divides by and the
    pivot of a reduction must be nonzero. *)
Definition gstep (o : gop) (G : gmat) : option gmat :=
  match o with
  | GS t i p j q es =>
      if Req_EM_T (G i p) 0 then None
      else if Req_EM_T (G j q) 0 then None
      else Some (fold_left (fun H e => gset H t (fst (fst e)) (gterm H i p (snd (fst e)) - gterm H j q (snd e))) es G)
  | GR t s c0 p ps =>
      if Req_EM_T (G s p) 0 then None
      else
        let factor := G t c0 / G s p in
        Some (fold_left (fun H e => gset H t (fst e) (H t (fst e) - factor * H s (snd e))) ps (gset G t c0 0))
  | GN r c =>
      if Req_EM_T (G r c) 0 then None
      else let factor := 1 / G r c in Some (fun i j => if Nat.eqb i r then factor * G i j else G i j)
  | GE t c s =>
      let factor := G t c in Some (fun i j => if Nat.eqb i t then G i j - factor * G s j else G i j)
  end.

(** compute (file code.cpp): the statement groups in order. *)
Fixpoint grun (os : list gop) (G : gmat) : option gmat :=
  match os with
  | [] => Some G
  | o :: os => match gstep o G with Some H => grun os H | None => None end
  end.

(** init (file init.cpp): the listed entries of a zero matrix. *)
Definition gcells (l : list (nat * nat * R)) : gmat :=
  fold_left (fun G e => gset G (fst (fst e)) (snd (fst e)) (snd e)) l (fun _ _ => 0).
