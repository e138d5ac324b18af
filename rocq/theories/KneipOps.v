(** Model of the statement groups of
    src/relative_pose/modules/fivept_kneip/code.cpp: those of GbModel.v and one
    more, the inline reduction.  Definitions only. *)
From Coq Require Import Reals List Arith.
From Verif Require Import GbModel.
Import ListNotations.
Local Open Scope R_scope.

(** [KI t c0 neg s ps]: factor = G(t,c0) (or -G(t,c0) when neg); G(t,c0) = 0;
    then G(t,ct) = G(t,ct) - factor*G(s,cs) for each (ct,cs) in ps
    (code.cpp 41-43 for example).  There is no division. *)
Inductive kop :=
| KG (o : gop)
| KI (t c0 : nat) (neg : bool) (s : nat) (ps : list (nat * nat)).
Definition kstep (o : kop) (G : gmat) : option gmat :=
  match o with
  | KG o => gstep o G
  | KI t c0 neg s ps =>
      let factor := if neg then - G t c0 else G t c0 in
      Some (fold_left (fun H e => gset H t (fst e) (H t (fst e) - factor * H s (snd e))) ps (gset G t c0 0))
  end.
Fixpoint krun (os : list kop) (G : gmat) : option gmat :=
  match os with [] => Some G | o :: os => match kstep o G with Some H => krun os H | None => None end end.

(** one line of computeBasis: CS k calls the k-th sPolynomial function, CR k t
    the k-th groebnerRow function with target row t, CI k t is the k-th inline
    reduction on row t, CN r c normalises row r, CE t c s subtracts a multiple
    of row s from row t. *)
Inductive kinstr := CS (k : nat) | CR (k t : nat) | CI (k t : nat) | CN (r c : nat) | CE (t c s : nat).
