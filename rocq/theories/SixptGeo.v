(** The polynomials of sixpt vanish at the Cayley vector of the true rotation. *)
From Coq Require Import Reals Lra Lia List Arith NArith Bool.
From Verif Require Import Lin GenLin GbProps RotModel RotProps EpiModel GeoModel SixptGen SixptModel SixptRow2 SixptDet.
Import ListNotations.
Local Open Scope R_scope.

(** the transposed rotation times 1 + |v|^2 *)
Definition rotN (v : vec3) : mat3 := mT (cayley2rot_reduced v).
Lemma pval_eq v c : let '(V3 x y z) := v in pval v c =
  c 0%nat * (x * x) + c 1%nat * (x * y) + c 2%nat * (y * y) + c 3%nat * (x * z) + c 4%nat * (y * z) + c 5%nat * (z * z)
  + c 6%nat * x + c 7%nat * y + c 8%nat * z + c 9%nat.
Proof.
  destruct v as [x y z]. unfold pval, six_mon, monat. cbn [sumn nth mval vx vy vz].
  change (N.to_nat 0) with 0%nat. change (N.to_nat 1) with 1%nat. change (N.to_nat 2) with 2%nat. ring.
Qed.
Ltac pv x y z := rewrite (pval_eq (V3 x y z)); unfold fill_c0, fill_c1, fill_c2, rotN, cayley2rot_reduced; cbn [nth]; unfold e0, e1, e2, e3, e4, e5.
Lemma c0_value v l01 l02 l11 l12 :
  pval v (fun j => nth j (fill_c0 l01 l02 l11 l12) 0) = - dot (cross (mv (rotN v) (ldir l12)) (ldir l11)) (ldir l01).
Proof. destruct v as [x y z]. pv x y z. destruct l01 as [[a1 a2 a3] [a4 a5 a6]], l11 as [[b1 b2 b3] [b4 b5 b6]], l12 as [[c1 c2 c3] [c4 c5 c6]]; cbn [ldir lmom]; lunf; ring. Qed.
Lemma c1_value v l01 l02 l11 l12 :
  (1 + norm2 v) * pval v (fun j => nth j (fill_c1 l01 l02 l11 l12) 0) = dot (cross (mv (rotN v) (ldir l12)) (ldir l11)) (mv (rotN v) (ldir l02)).
Proof. destruct v as [x y z]. pv x y z. destruct l02 as [[a1 a2 a3] [a4 a5 a6]], l11 as [[b1 b2 b3] [b4 b5 b6]], l12 as [[c1 c2 c3] [c4 c5 c6]]; cbn [ldir lmom]; lunf; ring. Qed.
Lemma c2_value v l01 l02 l11 l12 :
  let A := cross (mv (rotN v) (ldir l12)) (ldir l11) in
  (1 + norm2 v) * pval v (fun j => nth j (fill_c2 l01 l02 l11 l12) 0) =
  (1 + norm2 v) * dot A (cross (ldir l01) (lmom l01)) - dot A (mv (rotN v) (cross (ldir l02) (lmom l02)))
  + (1 + norm2 v) * (dot (ldir l11) (mv (rotN v) (lmom l12)) + dot (lmom l11) (mv (rotN v) (ldir l12))).
Proof. cbv zeta. destruct v as [x y z]. pv x y z. destruct l01 as [[d1 d2 d3] [d4 d5 d6]], l02 as [[a1 a2 a3] [a4 a5 a6]], l11 as [[b1 b2 b3] [b4 b5 b6]], l12 as [[c1 c2 c3] [c4 c5 c6]]; cbn [ldir lmom]; lunf; ring. Qed.
