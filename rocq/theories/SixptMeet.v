(** Rays that meet: the third polynomial of a row is a combination of the first two. *)
From Coq Require Import Reals Lra Lia List Arith NArith Bool.
From Verif Require Import Lin GenLin GbProps RotModel RotProps EpiModel EpiProps GeoModel SeventeenModel SeventeenProps SixptGen SixptModel SixptRow2 SixptDet SixptGeo.
Import ListNotations.
Local Open Scope R_scope.

(** * Rays that meet *)
Lemma rotN_scale v : rotN v = mscale (1 + norm2 v) (mT (cayley2rot v)).
Proof. unfold rotN. rewrite C24_reduced_is_scaled. now destruct (cayley2rot v). Qed.
Lemma N_pos v : 1 + norm2 v <> 0.
Proof. assert (0 <= norm2 v); [|lra]. destruct v as [x y z]. lunf. nra. Qed.

(** t as a combination of the closest points to the origin and the directions of
    the rays of one correspondence *)
Lemma foot d c : norm2 d = 1 -> c = vadd (vscale (dot d c) d) (vneg (cross d (cross d c))).
Proof. destruct d as [a b e], c as [x y z]. intro H.
  transitivity (vscale (norm2 (V3 a b e)) (V3 x y z)); [rewrite H|]; lunf; f_equal; ring. Qed.
Lemma primary R t A k : rays_meet R t A k -> norm2 (ray1 A k) = 1 -> norm2 (ray2 A k) = 1 ->
  exists alpha beta, t = vsub (vadd (vneg (cross (ray1 A k) (cross (ray1 A k) (centre1 A k)))) (vscale alpha (ray1 A k)))
                             (mv R (vadd (vneg (cross (ray2 A k) (cross (ray2 A k) (centre2 A k)))) (vscale beta (ray2 A k)))).
Proof.
  intros (a & b & E) U1 U2. pose proof (foot _ (centre1 A k) U1) as F1. pose proof (foot _ (centre2 A k) U2) as F2.
  set (d1 := ray1 A k) in *. set (d2 := ray2 A k) in *.
  exists (a + dot d1 (centre1 A k)), (b + dot d2 (centre2 A k)). rewrite F1 in E at 1. rewrite F2 in E at 1.
  revert E. generalize (dot d1 (centre1 A k)) (dot d2 (centre2 A k)) (cross d1 (cross d1 (centre1 A k))) (cross d2 (cross d2 (centre2 A k))).
  intros x y p q E. clear F1 F2 U1 U2. destruct t as [t1 t2 t3], p as [p1 p2 p3], q as [q1 q2 q3], d1 as [u1 u2 u3], d2 as [w1 w2 w3], R as [r1 r2 r3 r4 r5 r6 r7 r8 r9].
  lunf. injection E as E1 E2 E3. f_equal; lra.
Qed.
Lemma secondary R t A k : rotation R -> rays_meet R t A k ->
  dot t (cross (mv R (ray2 A k)) (ray1 A k)) =
  dot (ray1 A k) (mv R (cross (ray2 A k) (centre2 A k))) + dot (cross (ray1 A k) (centre1 A k)) (mv R (ray2 A k)).
Proof.
  intros HR M. pose proof (meet_epi R t A k HR M) as E. unfold gen_epi, essential in E.
  generalize dependent (ray1 A k). generalize dependent (ray2 A k). generalize (centre1 A k) (centre2 A k). intros c1 c2 d2 d1 E. clear M HR.
  destruct t as [t1 t2 t3], c1 as [p1 p2 p3], c2 as [q1 q2 q3], d1 as [u1 u2 u3], d2 as [w1 w2 w3], R as [r1 r2 r3 r4 r5 r6 r7 r8 r9].
  lunf. lra.
Qed.

(** the third polynomial is a combination of the first two, with coefficients
    that depend on the first correspondence only *)
Lemma dependent_row v t A k1 : let R := mT (cayley2rot v) in
  rays_meet R t A k1 -> norm2 (ray1 A k1) = 1 -> norm2 (ray2 A k1) = 1 ->
  exists alpha beta, forall k2, rays_meet R t A k2 ->
    let c f := pval v (fun j => nth j (f (six_l1 A k1) (six_l2 A k1) (six_l1 A k2) (six_l2 A k2)) 0) in
    c fill_c2 = - alpha * c fill_c0 - beta * c fill_c1.
Proof.
  intros R M1 U1 U2. assert (HR : rotation R) by (unfold R; apply rot_T, C24_cayley2rot_is_rotation).
  destruct (primary R t A k1 M1 U1 U2) as (alpha & beta & T). exists alpha, beta. intros k2 M2 c.
  pose proof (secondary R t A k2 HR M2) as S. unfold c.
  pose proof (c0_value v (six_l1 A k1) (six_l2 A k1) (six_l1 A k2) (six_l2 A k2)) as C0.
  pose proof (c1_value v (six_l1 A k1) (six_l2 A k1) (six_l1 A k2) (six_l2 A k2)) as C1.
  pose proof (c2_value v (six_l1 A k1) (six_l2 A k1) (six_l1 A k2) (six_l2 A k2)) as C2. cbv zeta in C2.
  rewrite rotN_scale in C0, C1, C2. fold R in C0, C1, C2. pose proof (N_pos v) as Np. set (N := 1 + norm2 v) in *.
  unfold six_l1, six_l2 in *. cbn [ldir lmom] in *.
  fold (ray1 A k1) (ray2 A k1) (ray1 A k2) (ray2 A k2) (centre1 A k1) (centre2 A k1) (centre1 A k2) (centre2 A k2) in *.
  set (P0 := pval v _) in C0 |- *. set (P1 := pval v _) in C1 |- *. set (P2 := pval v _) in C2 |- *.
  set (d11 := ray1 A k2) in *. set (d12 := ray2 A k2) in *. set (d1 := ray1 A k1) in *. set (d2 := ray2 A k1) in *.
  set (p1 := cross d1 (cross d1 (centre1 A k1))) in *. set (p2 := cross d2 (cross d2 (centre2 A k1))) in *.
  set (m11 := cross d11 (centre1 A k2)) in *. set (m12 := cross d12 (centre2 A k2)) in *.
  assert (Sc : forall x, mv (mscale N R) x = vscale N (mv R x)) by (intros [x y z]; clear; destruct R; lunf; f_equal; ring).
  rewrite !Sc in *. apply (Rmult_eq_reg_l N); auto.
  set (B := cross (mv R d12) d11) in *.
  assert (BE : forall x, dot (cross (vscale N (mv R d12)) d11) x = N * dot B x) by (intros [x y z]; unfold B; clear; destruct (mv R d12), d11; lunf; ring).
  rewrite !BE in *.
  assert (DE : forall x y, dot x (vscale N y) = N * dot x y) by (intros [x y z] [x' y' z']; lunf; ring). rewrite !DE in *.
  assert (Q : dot t B = - dot B p1 + alpha * dot B d1 + dot B (mv R p2) - beta * dot B (mv R d2)).
  { rewrite T. clear. destruct B as [b1 b2 b3], p1 as [x1 x2 x3], p2 as [y1 y2 y3], d1 as [u1 u2 u3], d2 as [w1 w2 w3], R as [r1 r2 r3 r4 r5 r6 r7 r8 r9]. lunf. ring. }
  rewrite C2. rewrite Rmult_minus_distr_l. replace (N * (beta * P1)) with (beta * (N * P1)) by ring. rewrite C1, C0.
  rewrite S in Q. clearbody P0 P1 P2. clear - Q. set (a := dot d11 (mv R m12)) in *. set (b := dot m11 (mv R d12)) in *. nra.
Qed.
