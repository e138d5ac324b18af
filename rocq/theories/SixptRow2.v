(** fillRow2 of sixpt computes the determinant of a 3 x 3 matrix of quadratic
    polynomials in the Cayley parameters. *)
From Coq Require Import Reals Lra Lia List Arith NArith Bool.
From Verif Require Import Lin GenLin GbProps SixptGen.
Import ListNotations.
Local Open Scope R_scope.

(** the value of a monomial *)
Definition mval (v : vec3) (m : N * N * N) : R :=
  let '(a, b, c) := m in vx v ^ N.to_nat a * vy v ^ N.to_nat b * vz v ^ N.to_nat c.
Definition nadd (m n : N * N * N) : N * N * N := let '(a, b, c) := m in let '(d, e, f) := n in (a + d, b + e, c + f)%N.
Definition neqb (m n : N * N * N) : bool := let '(a, b, c) := m in let '(d, e, f) := n in (N.eqb a d && N.eqb b e && N.eqb c f)%bool.
Lemma mval_add v m n : mval v (nadd m n) = mval v m * mval v n.
Proof. destruct m as [[a b] c], n as [[d e] f]. cbn. rewrite !N2Nat.inj_add, !pow_add. ring. Qed.
Lemma neqb_eq m n : neqb m n = true -> m = n.
Proof.
  destruct m as [[a b] c], n as [[d e] f]. cbn. intro H. apply andb_prop in H as [H C]. apply andb_prop in H as [A B].
  apply N.eqb_eq in A, B, C. now subst.
Qed.
Definition monat (l : list (N * N * N)) (k : nat) : N * N * N := nth k l (0, 0, 0)%N.

(** * Columns *)
Definition triples : list (nat * nat * nat) :=
  flat_map (fun a => flat_map (fun b => map (fun c => (a, b, c)) (seq 0 10)) (seq 0 10)) (seq 0 10).
Definition tmon (t : nat * nat * nat) : N * N * N :=
  let '(a, b, c) := t in nadd (monat six_mon a) (nadd (monat six_mon b) (monat six_mon c)).
Definition d3 (m0 m1 m2 : nat -> nat -> R) (t : nat * nat * nat) : R :=
  let '(a, b, c) := t in
  m0 0%nat a * (m1 1%nat b * m2 2%nat c - m1 2%nat b * m2 1%nat c) - m0 1%nat a * (m1 0%nat b * m2 2%nat c - m1 2%nat b * m2 0%nat c)
  + m0 2%nat a * (m1 0%nat b * m2 1%nat c - m1 1%nat b * m2 0%nat c).
Definition group (k : nat) : list (nat * nat * nat) := filter (fun t => neqb (tmon t) (monat six_mon1 k)) triples.
Definition six_groups : list (list (nat * nat * nat)) := Eval vm_compute in map group (seq 0 84).
Lemma six_groups_ok : six_groups = map group (seq 0 84).
Proof. vm_compute. reflexivity. Qed.
Lemma fill_row2_groups m0 m1 m2 : fill_row2 m0 m1 m2 = map (lsum (d3 m0 m1 m2)) six_groups.
Proof.
  unfold fill_row2, six_groups. cbn [map]. 
  repeat match goal with |- (_ :: _) = (_ :: _) => apply f_equal2; [unfold lsum, d3; ring|] end.
  reflexivity.
Qed.
