(** Concrete instances for C42. *)
From Coq Require Import Reals Lra List Lia.
From Verif Require Import Lin Cplx SturmProofs GeoModel RootsModel RootsProps P3pModel P3pProps P3pTop.
Import ListNotations.
Local Open Scope R_scope.

Lemma normalize_val v k : 0 < k -> norm2 v = k * k -> normalize v = Some (vdivs v k).
Proof.
  intros Hk E. assert (N : norm v = k) by (unfold norm; rewrite E; apply sqrt_square; lra).
  unfold normalize, normalized. rewrite N. destruct (Req_EM_T k 0); [lra|reflexivity].
Qed.
Definition g1 := V3 1 0 0.
Definition g2 := V3 (3 / 5) (4 / 5) 0.
Definition g3 := V3 (1 / 3) (2 / 3) (- (2 / 3)).
Definition Q1 := V3 6 0 0.
Definition Q2 := V3 3 4 0.
(** the third point at the distance l *)
Definition Q3 (l : R) := V3 (l / 3) (2 * l / 3) (- (2 * l / 3)).
Lemma gT : kneip_T g1 g2 = Some mid.
Proof.
  unfold kneip_T, g1, g2. rewrite (normalize_val _ (4 / 5)) by (lunf; lra).
  f_equal. lunf. f_equal; field.
Qed.
Lemma g3T : mv mid g3 = g3. Proof. apply mv_id. Qed.
Lemma gb : kneip_b (dot g1 g2) = 3 / 4.
Proof. rewrite (b_spec _ (4 / 5)); unfold g1, g2; lunf; lra. Qed.
Lemma gd : norm (vsub Q2 Q1) = 5.
Proof. unfold norm, Q1, Q2. replace (norm2 _) with (5 * 5) by (lunf; ring). apply sqrt_square. lra. Qed.
Lemma gu : unit g1 /\ unit g2. Proof. unfold g1, g2; lunf. split; field. Qed.

(** the general form of the result for these bearings *)
Lemma ex_out (N : mat3) (l p1 p2 A B C D E : R) : kneip_N Q1 Q2 (Q3 l) = Some N ->
  mv N (vsub (Q3 l) Q1) = V3 p1 p2 0 -> cross (vsub Q2 Q1) (vsub (Q3 l) Q1) <> v0 ->
  A = kneip_A (- (1 / 2)) (-1) p2 -> B = kneip_B (- (1 / 2)) (-1) p2 5 (3 / 4) ->
  C = kneip_C (- (1 / 2)) (-1) p1 p2 5 (3 / 4) -> D = kneip_D (- (1 / 2)) (-1) p1 p2 5 (3 / 4) ->
  E = kneip_E (- (1 / 2)) (-1) p1 p2 5 (3 / 4) -> A <> 0 -> o4_beta A B C D <> 0 ->
  exists zs, p3p_kneip csqrt_p ccbrt_p g1 g2 g3 Q1 Q2 (Q3 l)
    = map (kneip_solution mid N Q1 (- (1 / 2)) (-1) p1 p2 5 (3 / 4)) (map re zs) /\
    length zs = 4%nat /\ forall x, A * x ^ 4 + B * x ^ 3 + C * x ^ 2 + D * x + E = 0 -> In x (map re zs).
Proof.
  intros EN E3 NC EA EB EC ED EE HA Hb.
  destruct (C36_quartic_real csqrt_p ccbrt_p csqrt_p_ok ccbrt_p_ok A B C D E HA Hb) as (zs&_&Eo&L&Cz).
  exists zs. split; auto. unfold p3p_kneip. rewrite gT, g3T, gd, gb || idtac.
  destruct (Req_EM_T _ 0) as [Z|_]; [apply cross_zero_norm in Z; contradiction|].
  rewrite gT, g3T. destruct (Rlt_dec 0 (vz g3)) as [Q|_]; [unfold g3 in Q; cbn in Q; lra|].
  unfold kneip_core. rewrite EN, E3, gb, gd. destruct (Req_EM_T (vz g3) 0) as [Q|_]; [unfold g3 in Q; cbn in Q; lra|].
  cbn [vx vy]. replace (vx g3 / vz g3) with (- (1 / 2)) by (unfold g3; cbn; field).
  replace (vy g3 / vz g3) with (-1) by (unfold g3; cbn; field).
  rewrite <- EA, <- EB, <- EC, <- ED, <- EE, Eo. reflexivity.
Qed.
Ltac kn := unfold kneip_A, kneip_B, kneip_C, kneip_D, kneip_E; field.

(** Three points in front of a camera at the origin with axes parallel to the
    world: the pose is recovered. *)
Example C42_nonvacuous : In (Some (Pose mid v0)) (p3p_kneip csqrt_p ccbrt_p g1 g2 g3 Q1 Q2 (Q3 (144 / 5))).
Proof.
  set (N := M3 (- (3 / 5)) (4 / 5) 0 (12 / 25) (9 / 25) (- (4 / 5)) (- (16 / 25)) (- (12 / 25)) (- (3 / 5))).
  assert (NC : cross (vsub Q2 Q1) (vsub (Q3 (144 / 5)) Q1) <> v0).
  { unfold Q1, Q2, Q3. lunf. intro H. injection H. intros. lra. }
  assert (EN : kneip_N Q1 Q2 (Q3 (144 / 5)) = Some N).
  { unfold kneip_N. rewrite (normalize_val _ 5) by (unfold Q1, Q2; lunf; lra).
    rewrite (normalize_val _ 24) by (unfold Q1, Q2, Q3; lunf; lra).
    f_equal. unfold Q1, Q2, Q3, N. lunf. f_equal; field. }
  assert (E3 : mv N (vsub (Q3 (144 / 5)) Q1) = V3 (66 / 5) 24 0).
  { unfold N, Q1, Q3. lunf. f_equal; field. }
  destruct (ex_out N (144 / 5) (66 / 5) 24 (-746496) 138240 (5962968 / 25) (-75384 / 5) (19808064 / 625) EN E3 NC) as (zs&Eo&L&Cz);
    try kn; [lra|unfold o4_beta; lra|].
  destruct (C42_true_pose csqrt_p ccbrt_p csqrt_p_ok ccbrt_p_ok g1 g2 g3 Q1 Q2 (Q3 (144 / 5)) (Pose mid v0) 6 5 (144 / 5)) as [H|H]; auto.
  1,2: apply gu.
  - apply rot_id.
  - unfold sees, Q1, g1; cbn [pR pt]. lunf. f_equal; field.
  - unfold sees, Q2, g2; cbn [pR pt]. lunf. f_equal; field.
  - unfold sees, Q3, g3; cbn [pR pt]. lunf. f_equal; field.
  - lra.
  - lra.
  - lra.
  - unfold g1, g2, g3. lunf. lra.
  - unfold off_cylinder, g1, g2, g3. lunf. lra.
  - unfold g1, g2, g3. lunf. lra.
  - unfold g1, g2, g3. lunf. lra.
  - exfalso. rewrite Eo in H.
    assert (Hr : In (- (3 / 5)) (map re zs)) by (apply Cz; field).
    apply (in_map (kneip_solution mid N Q1 (- (1 / 2)) (-1) (66 / 5) 24 5 (3 / 4))) in Hr. rewrite H in Hr.
    assert (K : kneip_solution mid N Q1 (- (1 / 2)) (-1) (66 / 5) 24 5 (3 / 4) (- (3 / 5)) <> None).
    { unfold kneip_solution, kneip_cot. destruct (Req_EM_T (-1) 0); [lra|]. destruct (Req_EM_T _ 0); [lra|].
      destruct (Rlt_dec _ 0); [lra|discriminate]. }
    destruct Hr as [Hr|[Hr|[Hr|[Hr|[]]]]]; congruence.
Qed.
(** Mutually orthogonal bearings. *)
Example C42_right_angle_nonvacuous : let f1 := V3 1 0 0 in let f2 := V3 0 1 0 in let f3 := V3 0 0 1 in
  ~ collinear f1 f2 f3 /\ sees (Pose mid v0) f1 f1 1 /\ sees (Pose mid v0) f2 f2 1 /\ sees (Pose mid v0) f3 f3 1 /\
  p3p_kneip csqrt_p ccbrt_p f1 f2 f3 f1 f2 f3 = all_nan.
Proof.
  cbv zeta. assert (NC : ~ collinear (V3 1 0 0) (V3 0 1 0) (V3 0 0 1)).
  { unfold collinear. lunf. intro H. injection H. intros. lra. }
  split; auto. split; [|split; [|split]].
  1-3: unfold sees; cbn [pR pt]; lunf; f_equal; ring.
  apply C42_right_angle_refuted; [apply csqrt_p_ok|apply ccbrt_p_ok|lunf; ring|lunf; ring|auto|lunf; lra].
Qed.

(** The sine of theta is taken positive whatever the sign in the equations: a
    real root whose transformation does not put the third point on its ray. *)
Theorem C42_mirror_refuted : exists csqrt ccbrt f1 f2 f3 P1 P2 P3 X,
  is_csqrt csqrt /\ is_ccbrt ccbrt /\ unit f1 /\ unit f2 /\ unit f3 /\ ~ collinear P1 P2 P3 /\
  In (Some X) (p3p_kneip csqrt ccbrt f1 f2 f3 P1 P2 P3) /\ (forall l, ~ sees X f3 P3 l) /\
  exists l, 0 < l /\ sees X (vneg (mirrored f1 f2 f3)) P3 l.
Proof.
  set (l := - (108 / 5)).
  set (N := M3 (- (3 / 5)) (4 / 5) 0 (- (16 / 25)) (- (12 / 25)) (3 / 5) (12 / 25) (9 / 25) (4 / 5)).
  assert (RN : rotation N).
  { split; [unfold orthogonal, N; lunf; f_equal; field|unfold N; lunf; field]. }
  assert (NC : cross (vsub Q2 Q1) (vsub (Q3 l) Q1) <> v0).
  { unfold Q1, Q2, Q3, l. clear. lunf. intro H. injection H. intros. lra. }
  assert (EN : kneip_N Q1 Q2 (Q3 l) = Some N).
  { unfold kneip_N. rewrite (normalize_val _ 5) by (unfold Q1, Q2; clear; lunf; lra).
    rewrite (normalize_val _ 24) by (unfold Q1, Q2, Q3, l; clear; lunf; lra).
    f_equal. unfold Q1, Q2, Q3, N, l. clear. lunf. f_equal; field. }
  assert (E3 : mv N (vsub (Q3 l) Q1) = V3 (- (18 / 5)) 24 0).
  { unfold N, Q1, Q3, l. clear. lunf. f_equal; field. }
  destruct (ex_out N l (- (18 / 5)) 24 (-746496) 138240 (7765272 / 25) (-144936 / 5) (37115424 / 625) EN E3 NC) as (zs&Eo&L&Cz);
    try kn; [lra|unfold o4_beta; lra|].
  set (K := kneip_R (4 / 5) (3 / 5) (3 / 5) (4 / 5)).
  assert (RK : rotation K) by (apply kneip_R_rot; field).
  set (cv := V3 (5 * (3 / 5) * (4 / 5 * (3 / 4) + 3 / 5)) (4 / 5 * 5 * (4 / 5) * (4 / 5 * (3 / 4) + 3 / 5))
                (3 / 5 * 5 * (4 / 5) * (4 / 5 * (3 / 4) + 3 / 5))).
  set (X := Pose (mmul (mmul (mT N) (mT K)) mid) (vadd Q1 (mv (mT N) cv))).
  assert (Sx : kneip_solution mid N Q1 (- (1 / 2)) (-1) (- (18 / 5)) 24 5 (3 / 4) (4 / 5) = Some X).
  { unfold kneip_solution. replace (kneip_cot _ _ _ _ _ _ _) with (Some (3 / 4)).
    - destruct (cot_unique (4 / 5) (3 / 5) (3 / 4)) as [E1 E2]; try lra. cbv zeta. rewrite E1, E2.
      replace (sqrt (1 - (4 / 5) ^ 2)) with (3 / 5).
      + destruct (Rlt_dec (1 - (4 / 5) ^ 2) 0); [lra|reflexivity].
      + replace (1 - (4 / 5) ^ 2) with (3 / 5 * (3 / 5)) by field. rewrite sqrt_square; lra.
    - symmetry. apply cot_id. split; [lra|]. split; [lra|field]. }
  assert (Ks : mv K (vsub (mv N (vsub (Q3 l) Q1)) cv) = V3 (- (36 / 5)) (- (72 / 5)) (- (72 / 5))).
  { rewrite E3. unfold K, kneip_R, cv. clear. lunf. f_equal; field. }
  exists csqrt_p, ccbrt_p, g1, g2, g3, Q1, Q2, (Q3 l), X.
  split; [apply csqrt_p_ok|]. split; [apply ccbrt_p_ok|]. split; [apply gu|]. split; [apply gu|].
  split; [unfold g3; clear; lunf; field|]. split; [exact NC|]. split; [|split].
  - rewrite Eo. rewrite <- Sx. apply in_map. apply Cz. field.
  - intros k S. unfold X in S. apply sees_frame in S; auto. rewrite Ks, mv_id in S. unfold g3, vscale in S. cbn [vx vy vz] in S.
    injection S. intros. lra.
  - exists (108 / 5). split; [lra|]. unfold X. apply sees_frame; auto. rewrite Ks, mv_id.
    destruct gu as [G1 G2]. rewrite <- (mirror_T g1 g2 mid g3 G1 G2 gT), mv_id. unfold g3. clear. lunf. f_equal; field.
Qed.
