(** Concrete instances for C43. *)
From Coq Require Import Reals Lra List Lia.
From Verif Require Import Lin Cplx SturmProofs ArunModel ArunProps GeoModel RootsModel RootsProps P3pProps P3pTop GaoModel GaoProps.
Import ListNotations.
Local Open Scope R_scope.

Definition h1 := V3 1 0 0.
Definition h2 := V3 (3 / 5) (4 / 5) 0.
Definition h3 := V3 (1 / 3) (2 / 3) (2 / 3).

Lemma gao_not_nan svd f1 f2 f3 A B C : ~ collinear A B C ->
  let a := norm2 (vsub B C) / norm2 (vsub A B) in let b := norm2 (vsub A C) / norm2 (vsub A B) in
  let p := 2 * dot f2 f3 in let q := 2 * dot f1 f3 in let r := 2 * dot f1 f2 in
  o4_beta (gao_A a b r) (gao_B a b p q r) (gao_C a b p q r) (gao_D a b p q r) <> 0 ->
  p * p + q * q + r * r - p * q * r - 1 <> 0 -> gao_A a b r <> 0 -> gao_temp a b p q r <> 0 ->
  forall x, gquartic a b p q r x = 0 ->
  In (gao_solution svd f1 f2 f3 A B C (norm (vsub A B)) a b p q r x) (p3p_gao svd csqrt_p ccbrt_p f1 f2 f3 A B C).
Proof.
  intros NC a b p q r Hb N1 N2 _ x Q. destruct (noncollinear_distinct A B C NC) as (D1&D2&D3).
  destruct (C36_quartic_real csqrt_p ccbrt_p csqrt_p_ok ccbrt_p_ok _ _ _ _ (gao_E a b p) N2 Hb) as (zs&_&Eo&L&Cz).
  unfold p3p_gao. cbv zeta. rewrite !ratio_sq by auto. fold a b p q r.
  destruct (Req_EM_T (norm _) 0) as [Z|_]; [rewrite <- norm_sq, Z in D1; lra|].
  destruct (Req_EM_T _ 0) as [Z|_]; [contradiction|]. destruct (Req_EM_T _ 0) as [Z|_]; [contradiction|].
  rewrite Eo. apply in_map. now apply Cz.
Qed.
Lemma ex_gao svd l : (forall H, is_svd H (svd H)) -> l = 1 \/ l = -1 ->
  In (Some (Pose mid v0)) (p3p_gao svd csqrt_p ccbrt_p h1 h2 h3 (vscale l h1) h2 h3).
Proof.
  intros Hs Hl.
  assert (NC : ~ collinear (vscale l h1) h2 h3).
  { unfold collinear, h1, h2, h3. lunf. intro H. injection H. intros. destruct Hl; subst; lra. }
  assert (S1 : sees (Pose mid v0) h1 (vscale l h1) l) by (unfold sees, h1; cbn [pR pt]; lunf; f_equal; ring).
  assert (S2 : sees (Pose mid v0) h2 h2 1) by (unfold sees, h2; cbn [pR pt]; lunf; f_equal; ring).
  assert (S3 : sees (Pose mid v0) h3 h3 1) by (unfold sees, h3; cbn [pR pt]; lunf; f_equal; ring).
  assert (U1 : unit h1) by (unfold h1; lunf; field). assert (U2 : unit h2) by (unfold h2; lunf; field).
  assert (U3 : unit h3) by (unfold h3; lunf; field).
  assert (RI : rotation mid) by apply rot_id.
  assert (E12 : dot h1 h2 = 3 / 5) by (unfold h1, h2; lunf; field).
  assert (E13 : dot h1 h3 = 1 / 3) by (unfold h1, h3; lunf; field).
  assert (E23 : dot h2 h3 = 11 / 15) by (unfold h2, h3; lunf; field).
  assert (N12 : norm2 (vsub (vscale l h1) h2) = l ^ 2 + 1 - 6 / 5 * l) by (unfold h1, h2; lunf; field).
  assert (N13 : norm2 (vsub (vscale l h1) h3) = l ^ 2 + 1 - 2 / 3 * l) by (unfold h1, h3; lunf; field).
  assert (N23 : norm2 (vsub h2 h3) = 8 / 15) by (unfold h2, h3; lunf; field).
  assert (Ht : gao_temp (norm2 (vsub h2 h3) / norm2 (vsub (vscale l h1) h2)) (norm2 (vsub (vscale l h1) h3) / norm2 (vsub (vscale l h1) h2))
     (2 * dot h2 h3) (2 * dot h1 h3) (2 * dot h1 h2) <> 0).
  { rewrite E12, E13, E23, N12, N13, N23. unfold gao_temp. destruct Hl; subst; lra. }
  destruct (gao_complete svd Hs h1 h2 h3 (vscale l h1) h2 h3 U1 U2 U3 NC (Pose mid v0) l 1 1) as (x&Q&E); auto; [lra|].
  rewrite <- E. apply gao_not_nan; auto; rewrite ?E12, ?E13, ?E23, ?N12, ?N13, ?N23.
  - unfold o4_beta, gao_A, gao_B, gao_C, gao_D. destruct Hl; subst; lra.
  - lra.
  - unfold gao_A. destruct Hl; subst; lra.
Qed.
Example C43_nonvacuous svd : (forall H, is_svd H (svd H)) ->
  In (Some (Pose mid v0)) (p3p_gao svd csqrt_p ccbrt_p h1 h2 h3 h1 h2 h3).
Proof. intro Hs. replace h1 with (vscale 1 h1) at 2 by (unfold h1; lunf; f_equal; ring). apply ex_gao; auto. Qed.
(** A pose with the first point behind the camera is returned. *)
Theorem C43_behind_camera_refuted : forall svd, (forall H, is_svd H (svd H)) ->
  exists f1 f2 f3 A B C X l1, unit f1 /\ unit f2 /\ unit f3 /\ ~ collinear A B C /\
  In (Some X) (p3p_gao svd csqrt_p ccbrt_p f1 f2 f3 A B C) /\ sees X f1 A l1 /\ l1 < 0.
Proof.
  intros svd Hs. exists h1, h2, h3, (vscale (-1) h1), h2, h3, (Pose mid v0), (-1).
  repeat split; try (unfold h1, h2, h3; lunf; field).
  - unfold collinear, h1, h2, h3. lunf. intro H. injection H. intros. lra.
  - apply ex_gao; auto.
  - unfold sees, h1; cbn [pR pt]. lunf. f_equal; ring.
  - lra.
Qed.
(** Valid data of each kind for which nothing is returned: a regular triangle
    seen from a point on its axis, and bearings that meet the comparison of a
    Gram determinant with the wrong constant. *)
Theorem C43_symmetric_refuted : forall svd csqrt ccbrt, is_csqrt csqrt -> is_ccbrt ccbrt ->
  exists f1 f2 f3 A B C, unit f1 /\ unit f2 /\ unit f3 /\ ~ collinear A B C /\ dot (cross f1 f2) f3 <> 0 /\
  (exists X l1 l2 l3, rotation (pR X) /\ 0 < l1 /\ 0 < l2 /\ 0 < l3 /\ sees X f1 A l1 /\ sees X f2 B l2 /\ sees X f3 C l3) /\
  forall X, ~ In (Some X) (p3p_gao svd csqrt ccbrt f1 f2 f3 A B C).
Proof.
  intros svd csqrt ccbrt Hq Hc.
  exists (V3 (2/3) (2/3) (1/3)), (V3 (1/3) (2/3) (2/3)), (V3 (2/3) (1/3) (2/3)), (V3 (2/3) (2/3) (1/3)), (V3 (1/3) (2/3) (2/3)), (V3 (2/3) (1/3) (2/3)).
  assert (NC : ~ collinear (V3 (2/3) (2/3) (1/3)) (V3 (1/3) (2/3) (2/3)) (V3 (2/3) (1/3) (2/3))).
  { unfold collinear. lunf. intro H. injection H. intros. lra. }
  repeat split; auto; try (lunf; field).
  - lunf. lra.
  - exists (Pose mid v0), 1, 1, 1. split; [apply rot_id|]. repeat (split; [lra|]). repeat split; unfold sees; cbn [pR pt]; lunf; f_equal; ring.
  - apply (C43_three_cases_refuted svd csqrt ccbrt Hq Hc); auto. unfold gao_singular. lunf. field.
Qed.
Theorem C43_wrong_constant_refuted : forall svd csqrt ccbrt, is_csqrt csqrt -> is_ccbrt ccbrt ->
  exists f1 f2 f3 A B C, unit f1 /\ unit f2 /\ unit f3 /\ ~ collinear A B C /\ dot (cross f1 f2) f3 <> 0 /\
  (exists X l1 l2 l3, rotation (pR X) /\ 0 < l1 /\ 0 < l2 /\ 0 < l3 /\ sees X f1 A l1 /\ sees X f2 B l2 /\ sees X f3 C l3) /\
  p3p_gao svd csqrt ccbrt f1 f2 f3 A B C = [].
Proof.
  intros svd csqrt ccbrt Hq Hc. set (f3 := V3 0 (1/2) (sqrt 3 / 2)).
  assert (S3 : sqrt 3 * sqrt 3 = 3) by (apply sqrt_sqrt; lra). assert (P3 : 0 < sqrt 3) by (apply sqrt_lt_R0; lra).
  exists (V3 1 0 0), (V3 0 1 0), f3, (V3 1 0 0), (V3 0 1 0), f3.
  assert (NC : ~ collinear (V3 1 0 0) (V3 0 1 0) f3).
  { unfold collinear, f3. lunf. intro H. injection H. intros. lra. }
  repeat split; auto; try (unfold f3; lunf; lra).
  - exists (Pose mid v0), 1, 1, 1. split; [apply rot_id|]. repeat (split; [lra|]). repeat split; unfold sees, f3; cbn [pR pt]; lunf; f_equal; field.
  - apply (proj1 (C43_three_cases_refuted svd csqrt ccbrt Hq Hc _ _ _ _ _ _ NC)). unfold f3. lunf. field.
Qed.
