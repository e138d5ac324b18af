(** Properties C24-C27: Cayley parameters and quaternions. *)
From Coq Require Import Reals Lra List.
From Verif Require Import Lin RotModel.
Local Open Scope R_scope.

(** * Specification: quaternion algebra *)
Definition qmul (p q : quat) : quat :=
  Q4 (q0 p * q0 q - q1 p * q1 q - q2 p * q2 q - q3 p * q3 q)
     (q0 p * q1 q + q1 p * q0 q + q2 p * q3 q - q3 p * q2 q)
     (q0 p * q2 q - q1 p * q3 q + q2 p * q0 q + q3 p * q1 q)
     (q0 p * q3 q + q1 p * q2 q - q2 p * q1 q + q3 p * q0 q).
Definition qconj (q : quat) : quat := Q4 (q0 q) (- q1 q) (- q2 q) (- q3 q).
Definition qneg (q : quat) : quat := Q4 (- q0 q) (- q1 q) (- q2 q) (- q3 q).
Definition qnorm2 (q : quat) : R := q0 q ^ 2 + q1 q ^ 2 + q2 q ^ 2 + q3 q ^ 2.
Definition pure (v : vec3) : quat := Q4 0 (vx v) (vy v) (vz v).
(** A half-turn: a rotation that is its own inverse but not the identity. *)
Definition half_turn (A : mat3) : Prop := rotation A /\ mmul A A = mid /\ A <> mid.

(** * Rotations come from unit quaternions *)
Ltac qmc := cbn [q0 q1 q2 q3 vx vy vz m00 m01 m02 m10 m11 m12 m20 m21 m22].
Ltac qc := cbn [q0 q1 q2 q3] in *.

Lemma q2r_orth q : qnorm2 q = 1 -> orthogonal (quaternion2rot q).
Proof.
  destruct q as [a b c d]; unfold qnorm2; qc. intro H.
  unfold orthogonal.
  assert (E : mmul (mT (quaternion2rot (Q4 a b c d))) (quaternion2rot (Q4 a b c d))
     = mscale ((a^2+b^2+c^2+d^2)*(a^2+b^2+c^2+d^2)) mid) by (unfold quaternion2rot; qc; lring).
  rewrite E, H. rewrite Rmult_1_l. apply mscale_1.
Qed.
Lemma q2r_det q : det (quaternion2rot q) = qnorm2 q ^ 3.
Proof. destruct q as [a b c d]; unfold qnorm2, quaternion2rot; qc. lring. Qed.
Lemma q2r_rot q : qnorm2 q = 1 -> rotation (quaternion2rot q).
Proof. intro H. split; [now apply q2r_orth|]. rewrite q2r_det, H. ring. Qed.

Lemma rotation_from_quat : forall A, rotation A -> exists q, qnorm2 q = 1 /\ quaternion2rot q = A.
Proof.
  intros A H. pose proof (rot_l A H) as HL. pose proof (rot_r A H) as HR. pose proof (rot_adj A H) as HA.
  clear H. destruct A as [a b c d e f g h i]. lunf.
  injection HL; clear HL; intros. injection HR; clear HR; intros. injection HA; clear HA; intros.
  set (s0 := a + e + i + 1). set (s1 := a - e - i + 1). set (s2 := - a + e - i + 1). set (s3 := - a - e + i + 1).
  assert (P01 : s0 * s1 = (h - f) ^ 2) by (unfold s0, s1; lra).
  assert (P02 : s0 * s2 = (c - g) ^ 2) by (unfold s0, s2; lra).
  assert (P03 : s0 * s3 = (d - b) ^ 2) by (unfold s0, s3; lra).
  assert (P12 : s1 * s2 = (d + b) ^ 2) by (unfold s1, s2; lra).
  assert (P13 : s1 * s3 = (c + g) ^ 2) by (unfold s1, s3; lra).
  assert (P23 : s2 * s3 = (h + f) ^ 2) by (unfold s2, s3; lra).
  assert (X0a : (h - f) * (c - g) = s0 * (d + b)) by (unfold s0; lra).
  assert (X0b : (h - f) * (d - b) = s0 * (c + g)) by (unfold s0; lra).
  assert (X0c : (c - g) * (d - b) = s0 * (h + f)) by (unfold s0; lra).
  assert (X1a : (d + b) * (c + g) = s1 * (h + f)) by (unfold s1; lra).
  assert (X1b : (h - f) * (d + b) = s1 * (c - g)) by (unfold s1; lra).
  assert (X1c : (h - f) * (c + g) = s1 * (d - b)) by (unfold s1; lra).
  assert (X2a : (d + b) * (h + f) = s2 * (c + g)) by (unfold s2; lra).
  assert (X2b : (c - g) * (d + b) = s2 * (h - f)) by (unfold s2; lra).
  assert (X2c : (c - g) * (h + f) = s2 * (d - b)) by (unfold s2; lra).
  assert (X3a : (c + g) * (h + f) = s3 * (d + b)) by (unfold s3; lra).
  assert (X3b : (d - b) * (c + g) = s3 * (h - f)) by (unfold s3; lra).
  assert (X3c : (d - b) * (h + f) = s3 * (c - g)) by (unfold s3; lra).
  assert (Sum : s0 + s1 + s2 + s3 = 4) by (unfold s0, s1, s2, s3; lra).
  assert (Da : a = (s0 + s1 - s2 - s3) / 4) by (unfold s0, s1, s2, s3; lra).
  assert (De : e = (s0 - s1 + s2 - s3) / 4) by (unfold s0, s1, s2, s3; lra).
  assert (Di : i = (s0 - s1 - s2 + s3) / 4) by (unfold s0, s1, s2, s3; lra).
  assert (W : forall s x y z, s > 0 ->
     exists w, w * w = s / 4 /\ w > 0 /\ (x / (4 * w)) * (x / (4 * w)) = (x ^ 2 / s) / 4
       /\ (y / (4 * w)) * (y / (4 * w)) = (y ^ 2 / s) / 4 /\ (z / (4 * w)) * (z / (4 * w)) = (z ^ 2 / s) / 4
       /\ w * (x / (4 * w)) = x / 4 /\ w * (y / (4 * w)) = y / 4 /\ w * (z / (4 * w)) = z / 4
       /\ (x / (4 * w)) * (y / (4 * w)) = x * y / s / 4
       /\ (x / (4 * w)) * (z / (4 * w)) = x * z / s / 4
       /\ (y / (4 * w)) * (z / (4 * w)) = y * z / s / 4).
  { intros s x y z Hs. exists (sqrt (s / 4)).
    assert (E : sqrt (s / 4) * sqrt (s / 4) = s / 4) by (apply sqrt_sqrt; lra).
    assert (P : sqrt (s / 4) > 0) by (apply sqrt_lt_R0; lra).
    set (w := sqrt (s / 4)) in *. assert (Es : s = 4 * (w * w)) by lra. clearbody w.
    repeat split; auto; rewrite ?Es; field; lra. }
  clearbody s0 s1 s2 s3.
  destruct (Rgt_dec s0 0) as [G|G].
  { destruct (W s0 (h - f) (c - g) (d - b) G) as (w & A1 & A2 & A3 & A4 & A5 & A6 & A7 & A8 & A9 & A10 & A11).
    rewrite <- P01 in A3. rewrite <- P02 in A4. rewrite <- P03 in A5.
    rewrite X0a in A9. rewrite X0b in A10. rewrite X0c in A11.
    replace (s0 * s1 / s0) with s1 in A3 by (field; lra). replace (s0 * s2 / s0) with s2 in A4 by (field; lra).
    replace (s0 * s3 / s0) with s3 in A5 by (field; lra).
    replace (s0 * (d + b) / s0) with (d + b) in A9 by (field; lra). replace (s0 * (c + g) / s0) with (c + g) in A10 by (field; lra).
    replace (s0 * (h + f) / s0) with (h + f) in A11 by (field; lra).
    exists (Q4 w ((h - f) / (4 * w)) ((c - g) / (4 * w)) ((d - b) / (4 * w))).
    unfold qnorm2, quaternion2rot; qc. cbn [pow]. rewrite !Rmult_1_r. split; [lra|].
    f_equal; lra. }
  destruct (Rgt_dec s1 0) as [G1|G1].
  { destruct (W s1 (h - f) (d + b) (c + g) G1) as (w & A1 & A2 & A3 & A4 & A5 & A6 & A7 & A8 & A9 & A10 & A11).
    rewrite <- P01 in A3. rewrite <- P12 in A4. rewrite <- P13 in A5.
    rewrite X1b in A9. rewrite X1c in A10. rewrite X1a in A11.
    replace (s0 * s1 / s1) with s0 in A3 by (field; lra). replace (s1 * s2 / s1) with s2 in A4 by (field; lra).
    replace (s1 * s3 / s1) with s3 in A5 by (field; lra).
    replace (s1 * (c - g) / s1) with (c - g) in A9 by (field; lra). replace (s1 * (d - b) / s1) with (d - b) in A10 by (field; lra).
    replace (s1 * (h + f) / s1) with (h + f) in A11 by (field; lra).
    exists (Q4 ((h - f) / (4 * w)) w ((d + b) / (4 * w)) ((c + g) / (4 * w))).
    unfold qnorm2, quaternion2rot; qc. cbn [pow]. rewrite !Rmult_1_r. split; [lra|].
    f_equal; lra. }
  destruct (Rgt_dec s2 0) as [G2|G2].
  { destruct (W s2 (c - g) (d + b) (h + f) G2) as (w & A1 & A2 & A3 & A4 & A5 & A6 & A7 & A8 & A9 & A10 & A11).
    rewrite <- P02 in A3. rewrite <- P12 in A4. rewrite <- P23 in A5.
    rewrite X2b in A9. rewrite X2c in A10. rewrite X2a in A11.
    replace (s0 * s2 / s2) with s0 in A3 by (field; lra). replace (s1 * s2 / s2) with s1 in A4 by (field; lra).
    replace (s2 * s3 / s2) with s3 in A5 by (field; lra).
    replace (s2 * (h - f) / s2) with (h - f) in A9 by (field; lra). replace (s2 * (d - b) / s2) with (d - b) in A10 by (field; lra).
    replace (s2 * (c + g) / s2) with (c + g) in A11 by (field; lra).
    exists (Q4 ((c - g) / (4 * w)) ((d + b) / (4 * w)) w ((h + f) / (4 * w))).
    unfold qnorm2, quaternion2rot; qc. cbn [pow]. rewrite !Rmult_1_r. split; [lra|].
    f_equal; lra. }
  assert (G3 : s3 > 0) by lra.
  { destruct (W s3 (d - b) (c + g) (h + f) G3) as (w & A1 & A2 & A3 & A4 & A5 & A6 & A7 & A8 & A9 & A10 & A11).
    rewrite <- P03 in A3. rewrite <- P13 in A4. rewrite <- P23 in A5.
    rewrite X3b in A9. rewrite X3c in A10. rewrite X3a in A11.
    replace (s0 * s3 / s3) with s0 in A3 by (field; lra). replace (s1 * s3 / s3) with s1 in A4 by (field; lra).
    replace (s2 * s3 / s3) with s2 in A5 by (field; lra).
    replace (s3 * (h - f) / s3) with (h - f) in A9 by (field; lra). replace (s3 * (c - g) / s3) with (c - g) in A10 by (field; lra).
    replace (s3 * (d + b) / s3) with (d + b) in A11 by (field; lra).
    exists (Q4 ((d - b) / (4 * w)) ((c + g) / (4 * w)) ((h + f) / (4 * w)) w).
    unfold qnorm2, quaternion2rot; qc. cbn [pow]. rewrite !Rmult_1_r. split; [lra|].
    f_equal; lra. }
Qed.

(** * C24 *)
Lemma cayley_scale_pos c : 0 < 1 + vx c ^ 2 + vy c ^ 2 + vz c ^ 2.
Proof. pose proof (pow2_ge_0 (vx c)); pose proof (pow2_ge_0 (vy c)); pose proof (pow2_ge_0 (vz c)). lra. Qed.

Theorem C24_cayley2rot_is_rotation : forall c, rotation (cayley2rot c).
Proof.
  intros c. pose proof (cayley_scale_pos c) as P. destruct c as [x y z]. cbn [vx vy vz] in P.
  split; unfold cayley2rot; lunf; [f_equal|]; field; lra.
Qed.
Theorem C24_reduced_is_scaled : forall c,
  cayley2rot_reduced c = mscale (1 + norm2 c) (cayley2rot c).
Proof.
  intros c. pose proof (cayley_scale_pos c) as P. destruct c as [x y z]. cbn [vx vy vz] in P.
  unfold cayley2rot, cayley2rot_reduced; lunf. f_equal; field; lra.
Qed.
(** It is the Cayley transform: (I - [c]x)^-1 (I + [c]x). *)
Theorem C24_cayley_transform : forall c v,
  vsub (mv (cayley2rot c) v) (cross c (mv (cayley2rot c) v)) = vadd v (cross c v).
Proof.
  intros c [u v w]. pose proof (cayley_scale_pos c) as P. destruct c as [x y z]. cbn [vx vy vz] in P.
  unfold cayley2rot; lunf. f_equal; field; lra.
Qed.

(** * C25 *)
Lemma det_plus_id_q q : det (madd (quaternion2rot q) (mscale (qnorm2 q) mid)) = 8 * q0 q ^ 2 * qnorm2 q ^ 2.
Proof. destruct q as [a b c d]; unfold qnorm2, quaternion2rot; qc. lring. Qed.

Lemma cayley_as_quat c : exists q, qnorm2 q = 1 /\ q0 q <> 0 /\ cayley2rot c = quaternion2rot q
   /\ c = V3 (q1 q / q0 q) (q2 q / q0 q) (q3 q / q0 q).
Proof.
  pose proof (cayley_scale_pos c) as P. destruct c as [x y z]. cbn [vx vy vz] in P.
  set (s := 1 + x ^ 2 + y ^ 2 + z ^ 2) in *.
  set (w := / sqrt s).
  assert (Hs : sqrt s > 0) by (apply sqrt_lt_R0; lra).
  assert (Hw : w <> 0) by (apply Rinv_neq_0_compat; lra).
  assert (E : w * w * s = 1). { unfold w. pose proof (sqrt_sqrt s ltac:(lra)) as Q. rewrite <- Q at 3. field. lra. }
  exists (Q4 w (x * w) (y * w) (z * w)). unfold qnorm2; qc. repeat split; auto.
  - replace (w ^ 2 + (x * w) ^ 2 + (y * w) ^ 2 + (z * w) ^ 2) with (w * w * s) by (unfold s; ring). exact E.
  - assert (E2 : w * w = / s) by (apply (Rmult_eq_reg_r s); [rewrite E; field; lra|lra]).
    unfold cayley2rot, quaternion2rot; lunf; qc. fold s.
    f_equal; (match goal with |- ?l = ?r => replace r with ((w * w) * (s * l)); [rewrite E2; field; lra|] end; unfold s; field; fold s; lra).
  - f_equal; field; auto.
Qed.

Lemma rot2cayley_quat q : qnorm2 q = 1 -> q0 q <> 0 ->
  rot2cayley (quaternion2rot q) = Some (V3 (q1 q / q0 q) (q2 q / q0 q) (q3 q / q0 q)).
Proof.
  intros N Z. unfold rot2cayley, inverse.
  pose proof (det_plus_id_q q) as D. rewrite N, mscale_1 in D.
  assert (DZ : det (madd (quaternion2rot q) mid) <> 0).
  { rewrite D. pose proof (pow_nonzero (q0 q) 2 Z). lra. }
  destruct (Req_EM_T _ 0) as [E|_]; [contradiction|].
  (* C = K / q0 with K the skew matrix: check K * C2 = q0 * C1 *)
  set (c := V3 (q1 q / q0 q) (q2 q / q0 q) (q3 q / q0 q)).
  assert (E : msub (quaternion2rot q) mid = mmul (skew c) (madd (quaternion2rot q) mid)).
  { destruct q as [a x y z]; unfold qnorm2 in N; qc. unfold c, quaternion2rot; qc.
    assert (N1 : 1 = a ^ 2 + x ^ 2 + y ^ 2 + z ^ 2) by lra.
    assert (mid = mscale (a ^ 2 + x ^ 2 + y ^ 2 + z ^ 2) mid) as -> by (rewrite <- N1; symmetry; apply mscale_1).
    unfold quaternion2rot; lunf. f_equal; field; auto. }
  rewrite E, <- mmul_assoc, minv_r, mmul_id_r by auto.
  unfold c; cbn [skew m12 m02 m01 vx vy vz]. f_equal. f_equal; ring.
Qed.

Theorem C25_rot_of_cayley_and_back : forall c, rot2cayley (cayley2rot c) = Some c.
Proof.
  intros c. destruct (cayley_as_quat c) as (q & N & Z & -> & Ec). rewrite rot2cayley_quat by auto. congruence.
Qed.

Lemma q2r_square q : mmul (quaternion2rot q) (quaternion2rot q) = quaternion2rot (qmul q q).
Proof. destruct q as [a b c d]; unfold quaternion2rot, qmul; qc. lring. Qed.

Lemma half_turn_quat q : qnorm2 q = 1 -> (half_turn (quaternion2rot q) <-> q0 q = 0).
Proof.
  intro N. split.
  - intros (_ & H & I). destruct (Req_EM_T (q0 q) 0) as [E|E]; auto. exfalso. apply I.
    destruct q as [a b c d]; unfold qnorm2, quaternion2rot in *; qc.
    lunf. injection H; clear H; intros.
    (* R = R^T hence a*b = a*c = a*d = 0 *)
    assert (S : forall x, a * x = 0 -> x = 0) by (intros x Hx; apply Rmult_integral in Hx; tauto).
    assert (HT : mT (quaternion2rot (Q4 a b c d)) = quaternion2rot (Q4 a b c d)).
    { rewrite <- (mmul_id_r (mT _)). 
      assert (Q : mmul (quaternion2rot (Q4 a b c d)) (quaternion2rot (Q4 a b c d)) = mid)
        by (unfold quaternion2rot, mid, mmul; qmc; f_equal; lra).
      rewrite <- Q, mmul_assoc, (q2r_orth (Q4 a b c d)) by exact N. apply mmul_id_l. }
    unfold quaternion2rot in HT; lunf; qc. injection HT; intros.
    assert (b = 0) by (apply S; lra). assert (c = 0) by (apply S; lra). assert (d = 0) by (apply S; lra). subst.
    f_equal; lra.
  - intro Z. destruct q as [a b c d]; unfold qnorm2 in *; qc. subst a.
    split; [apply q2r_rot; unfold qnorm2; qc; lra|]. split.
    + rewrite q2r_square. unfold qmul, quaternion2rot; qc. lunf.
      assert (N1 : b ^ 2 + c ^ 2 + d ^ 2 = 1) by lra.
      assert (N2 : 0 * 0 - b * b - c * c - d * d = -1) by lra. rewrite N2. f_equal; ring.
    + intro I. unfold quaternion2rot in I; lunf; qc. injection I; intros. lra.
Qed.

Theorem C25_cayley_of_rot_and_back : forall A, rotation A -> ~ half_turn A ->
  exists c, rot2cayley A = Some c /\ cayley2rot c = A.
Proof.
  intros A H NH. destruct (rotation_from_quat A H) as (q & N & <-).
  assert (Z : q0 q <> 0) by (intro Z; apply NH; now apply half_turn_quat).
  eexists. split; [now apply rot2cayley_quat|].
  destruct (cayley_as_quat (V3 (q1 q / q0 q) (q2 q / q0 q) (q3 q / q0 q))) as (p & Np & Zp & -> & E).
  injection E; clear E; intros E3 E2 E1.
  assert (F1 : q1 q = q0 q * (q1 p / q0 p)) by (rewrite <- E1; field; auto).
  assert (F2 : q2 q = q0 q * (q2 p / q0 p)) by (rewrite <- E2; field; auto).
  assert (F3 : q3 q = q0 q * (q3 p / q0 p)) by (rewrite <- E3; field; auto).
  set (s := q0 q / q0 p). assert (Eq : q = Q4 (s * q0 p) (s * q1 p) (s * q2 p) (s * q3 p)).
  { destruct q; qc. unfold s. f_equal; [field; auto| | |]; (etransitivity; [eassumption|field; auto]). }
  assert (S2 : s * s = 1).
  { rewrite Eq in N. unfold qnorm2 in *. qc.
    replace ((s * q0 p) ^ 2 + (s * q1 p) ^ 2 + (s * q2 p) ^ 2 + (s * q3 p) ^ 2) with
      (s * s * (q0 p ^ 2 + q1 p ^ 2 + q2 p ^ 2 + q3 p ^ 2)) in N by ring. rewrite Np in N. lra. }
  rewrite Eq. clear -S2. destruct p; unfold quaternion2rot; qc.
  f_equal; match goal with |- ?l = ?r => transitivity (s * s * l); [rewrite S2; ring|ring] end.
Qed.

Theorem C25_half_turn_is_singular : forall A, half_turn A -> rot2cayley A = None.
Proof.
  intros A H. pose proof H as (HR & _). destruct (rotation_from_quat A HR) as (q & N & <-).
  apply half_turn_quat in H; auto. unfold rot2cayley, inverse.
  pose proof (det_plus_id_q q) as D. rewrite N, mscale_1, H in D.
  destruct (Req_EM_T _ 0) as [E|E]; auto. rewrite D in E. exfalso. apply E. ring.
Qed.

Example C25_nonvacuous :
  half_turn (diag 1 (-1) (-1)) /\
  (rotation (cayley2rot (V3 1 2 3)) /\ ~ half_turn (cayley2rot (V3 1 2 3))).
Proof.
  split.
  - split; [split; lunf; [f_equal|]; ring|]. split.
    + lunf. f_equal; ring.
    + lunf. intro E. injection E. lra.
  - split; [apply C24_cayley2rot_is_rotation|]. intro H. apply C25_half_turn_is_singular in H.
    rewrite C25_rot_of_cayley_and_back in H. discriminate.
Qed.

(** * C26 *)
Theorem C26_unit_quaternion_gives_rotation : forall q, qnorm2 q = 1 -> rotation (quaternion2rot q).
Proof. exact q2r_rot. Qed.
Theorem C26_rotates_like_conjugation : forall q v,
  qmul (qmul q (pure v)) (qconj q) = pure (mv (quaternion2rot q) v).
Proof. intros [a b c d] [x y z]. unfold qmul, qconj, pure, quaternion2rot, mv; qmc. f_equal; ring. Qed.
Theorem C26_composition : forall p q, quaternion2rot (qmul p q) = mmul (quaternion2rot p) (quaternion2rot q).
Proof. intros [a b c d] [e f g h]. unfold quaternion2rot, qmul; qc. lring. Qed.
Theorem C26_antipodal_same : forall q, quaternion2rot (qneg q) = quaternion2rot q.
Proof. intros [a b c d]. unfold quaternion2rot, qneg; qc. f_equal; ring. Qed.
Theorem C26_two_to_one : forall p q, qnorm2 p = 1 -> qnorm2 q = 1 ->
  quaternion2rot p = quaternion2rot q -> p = q \/ p = qneg q.
Proof.
  intros p q Np Nq E.
  (* r = conj(q) * p has rotation = identity *)
  set (r := qmul (qconj q) p).
  assert (Er : quaternion2rot r = mid).
  { unfold r. rewrite C26_composition, E.
    assert (quaternion2rot (qconj q) = mT (quaternion2rot q)) as ->
      by (destruct q; unfold quaternion2rot, qconj, mT; qmc; f_equal; ring).
    apply (q2r_orth q Nq). }
  assert (Nr : qnorm2 r = 1).
  { transitivity (qnorm2 q * qnorm2 p); [|rewrite Np, Nq; ring].
    unfold r. destruct p, q; unfold qnorm2, qmul, qconj; qc. ring. }
  assert (Ep : p = qmul q r).
  { assert (H : qmul q r = Q4 (qnorm2 q * q0 p) (qnorm2 q * q1 p) (qnorm2 q * q2 p) (qnorm2 q * q3 p))
      by (unfold r; destruct p, q; unfold qmul, qconj, qnorm2; qc; f_equal; ring).
    rewrite H, Nq. destruct p; qc. f_equal; ring. }
  assert (Rr : r = Q4 1 0 0 0 \/ r = Q4 (-1) 0 0 0).
  { clearbody r. destruct r as [a b c d]. unfold quaternion2rot, qnorm2 in *; lunf; qc.
    injection Er; clear Er; intros.
    assert (b * b = 0) by lra. assert (c * c = 0) by lra. assert (d * d = 0) by lra.
    assert (b = 0) by nra. assert (c = 0) by nra. assert (d = 0) by nra. subst.
    assert (Ha : (a - 1) * (a + 1) = 0) by lra. apply Rmult_integral in Ha.
    destruct Ha; [left|right]; f_equal; lra. }
  destruct Rr as [Hr|Hr]; rewrite Hr in Ep; [left|right]; rewrite Ep; clear; destruct q;
    unfold qmul, qneg; qc; f_equal; ring.
Qed.
(** A non-unit quaternion is not normalised. *)
Theorem C26_non_unit_is_no_rotation : forall q, qnorm2 q <> 1 -> ~ rotation (quaternion2rot q).
Proof.
  intros q H [_ D]. rewrite q2r_det in D. apply H.
  set (x := qnorm2 q) in *. assert ((x - 1) * (x ^ 2 + x + 1) = 0) by (replace ((x - 1) * (x ^ 2 + x + 1)) with (x ^ 3 - 1) by ring; lra).
  apply Rmult_integral in H0. destruct H0; [lra|]. pose proof (pow2_ge_0 (x + 1 / 2)) as P.
  replace ((x + 1 / 2) ^ 2) with (x ^ 2 + x + 1 - 3 / 4) in P by field. lra.
Qed.
Example C26_nonvacuous : qnorm2 (Q4 (1/2) (-1/2) (1/2) (1/2)) = 1 /\ qnorm2 (Q4 2 0 0 0) <> 1.
Proof. unfold qnorm2; qc. split; [field|lra]. Qed.

(** * C27 *)
Lemma clamp0_id x : 0 <= x -> clamp0 x = x.
Proof. unfold clamp0. destruct (Rlt_dec x 0); lra. Qed.
Lemma sign_of_nz x : x <> 0 -> sign_of x = Some (x / Rabs x).
Proof. unfold sign_of. destruct (Req_EM_T x 0); tauto. Qed.
Lemma sign_of_z x : x = 0 -> sign_of x = None.
Proof. unfold sign_of. destruct (Req_EM_T x 0); tauto. Qed.
Lemma sign_prod x y : 0 < x -> y <> 0 -> x * y / Rabs (x * y) = y / Rabs y.
Proof.
  intros Hx Hy. rewrite Rabs_mult, (Rabs_pos_eq x) by lra. pose proof (Rabs_no_R0 y Hy). field. lra.
Qed.
Lemma sign_prod_neg x y : x < 0 -> y <> 0 -> x * y / Rabs (x * y) = - (y / Rabs y).
Proof.
  intros Hx Hy. rewrite Rabs_mult, (Rabs_left x) by lra. pose proof (Rabs_no_R0 y Hy). field. lra.
Qed.
Lemma abs_sign y : y <> 0 -> Rabs y * (y / Rabs y) = y.
Proof. intro H. pose proof (Rabs_no_R0 y H). field. auto. Qed.

Lemma qnormalize_unit q : qnorm2 q = 1 -> qnormalize q = Some q.
Proof.
  intro N. unfold qnormalize. replace (q0 q * q0 q + q1 q * q1 q + q2 q * q2 q + q3 q * q3 q) with 1
    by (unfold qnorm2 in N; lra).
  rewrite sqrt_1. destruct (Req_EM_T 1 0); [lra|]. destruct q; qc. f_equal. f_equal; field.
Qed.

(** The magnitudes computed from the diagonal are |q_i|. *)
Lemma magnitudes q : qnorm2 q = 1 -> let A := quaternion2rot q in
    sqrt (clamp0 (( m00 A + m11 A + m22 A + 1) / 4)) = Rabs (q0 q)
 /\ sqrt (clamp0 (( m00 A - m11 A - m22 A + 1) / 4)) = Rabs (q1 q)
 /\ sqrt (clamp0 ((- m00 A + m11 A - m22 A + 1) / 4)) = Rabs (q2 q)
 /\ sqrt (clamp0 ((- m00 A - m11 A + m22 A + 1) / 4)) = Rabs (q3 q).
Proof.
  intros N A. unfold qnorm2 in N.
  assert (K : forall e x, e = x * x -> sqrt (clamp0 e) = Rabs x).
  { intros e x ->. rewrite clamp0_id by apply sq_nonneg. apply sqrt_Rsqr_abs. }
  unfold A, quaternion2rot; cbn [m00 m11 m22]. repeat split; apply K; lra.
Qed.

Lemma ge3_spec a b c d : ge3 a b c d = true <-> a >= b /\ a >= c /\ a >= d.
Proof.
  unfold ge3. destruct (Rge_dec a b), (Rge_dec a c), (Rge_dec a d); split; intuition (auto; discriminate).
Qed.

(** What the code computes from a unit quaternion's rotation: the quaternion
    itself up to sign, unless one of its components vanishes, in which case
    the result is not a number. *)
Lemma rot2quaternion_spec q : qnorm2 q = 1 ->
  (q0 q <> 0 -> q1 q <> 0 -> q2 q <> 0 -> q3 q <> 0 ->
     rot2quaternion (quaternion2rot q) = Some q \/ rot2quaternion (quaternion2rot q) = Some (qneg q))
  /\ (q0 q * q1 q * q2 q * q3 q = 0 -> rot2quaternion (quaternion2rot q) = None).
Proof.
  intro N. pose proof (magnitudes q N) as M. cbv zeta in M. destruct M as (Ma & Mb & Mc & Md).
  unfold rot2quaternion. rewrite Ma, Mb, Mc, Md. clear Ma Mb Mc Md.
  assert (D1 : m21 (quaternion2rot q) - m12 (quaternion2rot q) = 4 * q0 q * q1 q) by (unfold quaternion2rot; cbn; ring).
  assert (D2 : m02 (quaternion2rot q) - m20 (quaternion2rot q) = 4 * q0 q * q2 q) by (unfold quaternion2rot; cbn; ring).
  assert (D3 : m10 (quaternion2rot q) - m01 (quaternion2rot q) = 4 * q0 q * q3 q) by (unfold quaternion2rot; cbn; ring).
  assert (E1 : m10 (quaternion2rot q) + m01 (quaternion2rot q) = 4 * q1 q * q2 q) by (unfold quaternion2rot; cbn; ring).
  assert (E2 : m02 (quaternion2rot q) + m20 (quaternion2rot q) = 4 * q1 q * q3 q) by (unfold quaternion2rot; cbn; ring).
  assert (E2' : m20 (quaternion2rot q) + m02 (quaternion2rot q) = 4 * q1 q * q3 q) by (unfold quaternion2rot; cbn; ring).
  assert (E3 : m21 (quaternion2rot q) + m12 (quaternion2rot q) = 4 * q2 q * q3 q) by (unfold quaternion2rot; cbn; ring).
  rewrite D1, D2, D3, E1, E2, E2', E3. clear D1 D2 D3 E1 E2 E2' E3.
  assert (Nn : qnorm2 (qneg q) = 1) by (unfold qnorm2, qneg in *; qc; lra).
  assert (Main : forall (x y z w : R) (k : R -> R -> R -> R -> quat),
     w <> 0 -> x <> 0 -> y <> 0 -> z <> 0 -> q = k w x y z -> qneg q = k (-w) (-x) (-y) (-z) ->
     signed (Rabs x) (4 * w * x) (fun x' => signed (Rabs y) (4 * w * y) (fun y' => signed (Rabs z) (4 * w * z) (fun z' =>
        qnormalize (k (Rabs w) x' y' z')))) = Some q
     \/ signed (Rabs x) (4 * w * x) (fun x' => signed (Rabs y) (4 * w * y) (fun y' => signed (Rabs z) (4 * w * z) (fun z' =>
        qnormalize (k (Rabs w) x' y' z')))) = Some (qneg q)).
  { intros x y z w k Hw Hx Hy Hz Eq En. unfold signed.
    rewrite !sign_of_nz by (repeat apply Rmult_integral_contrapositive_currified; auto; lra).
    destruct (Rlt_le_dec w 0) as [L|L].
    - right. rewrite !sign_prod_neg by (auto; lra). rewrite !Ropp_mult_distr_r_reverse, !abs_sign by auto.
      rewrite (Rabs_left w) by auto. rewrite <- En. now apply qnormalize_unit.
    - left. assert (0 < w) by lra. rewrite !sign_prod by (auto; lra). rewrite !abs_sign by auto.
      rewrite (Rabs_pos_eq w) by lra. rewrite <- Eq. now apply qnormalize_unit. }
  assert (MainZ : forall (x y z w : R) (k : R -> R -> R -> R -> quat), w * x * y * z = 0 ->
     signed (Rabs x) (4 * w * x) (fun x' => signed (Rabs y) (4 * w * y) (fun y' => signed (Rabs z) (4 * w * z) (fun z' =>
        qnormalize (k (Rabs w) x' y' z')))) = None).
  { intros x y z w k H. unfold signed.
    destruct (Req_EM_T (4 * w * x) 0) as [A|A]; [now rewrite (sign_of_z _ A)|].
    destruct (Req_EM_T (4 * w * y) 0) as [B|B]; [rewrite (sign_of_z _ B); destruct (sign_of _); auto|].
    destruct (Req_EM_T (4 * w * z) 0) as [C|C]; [rewrite (sign_of_z _ C); destruct (sign_of (4 * w * x)), (sign_of (4 * w * y)); auto|].
    exfalso. assert (w <> 0 /\ x <> 0 /\ y <> 0 /\ z <> 0) as (Hw & Hx & Hy & Hz).
    { repeat split; intro Z; subst; [apply A|apply A|apply B|apply C]; ring. }
    assert (w * x * y * z <> 0) by (repeat apply Rmult_integral_contrapositive_currified; auto). contradiction. }
  destruct (ge3 (Rabs (q0 q)) (Rabs (q1 q)) (Rabs (q2 q)) (Rabs (q3 q))) eqn:G0.
  { split.
    - intros. apply (Main (q1 q) (q2 q) (q3 q) (q0 q) (fun w x y z => Q4 w x y z)); auto; destruct q; auto.
    - intros. apply (MainZ (q1 q) (q2 q) (q3 q) (q0 q) (fun w x y z => Q4 w x y z)); auto. }
  destruct (ge3 (Rabs (q1 q)) (Rabs (q0 q)) (Rabs (q2 q)) (Rabs (q3 q))) eqn:G1.
  { replace (4 * q0 q * q1 q) with (4 * q1 q * q0 q) by ring. split.
    - intros. apply (Main (q0 q) (q2 q) (q3 q) (q1 q) (fun w x y z => Q4 x w y z)); auto; destruct q; auto.
    - intros H. apply (MainZ (q0 q) (q2 q) (q3 q) (q1 q) (fun w x y z => Q4 x w y z)); lra. }
  destruct (ge3 (Rabs (q2 q)) (Rabs (q0 q)) (Rabs (q1 q)) (Rabs (q3 q))) eqn:G2.
  { replace (4 * q0 q * q2 q) with (4 * q2 q * q0 q) by ring. replace (4 * q1 q * q2 q) with (4 * q2 q * q1 q) by ring. split.
    - intros. apply (Main (q0 q) (q1 q) (q3 q) (q2 q) (fun w x y z => Q4 x y w z)); auto; destruct q; auto.
    - intros H. apply (MainZ (q0 q) (q1 q) (q3 q) (q2 q) (fun w x y z => Q4 x y w z)); lra. }
  destruct (ge3 (Rabs (q3 q)) (Rabs (q0 q)) (Rabs (q1 q)) (Rabs (q2 q))) eqn:G3.
  { replace (4 * q0 q * q3 q) with (4 * q3 q * q0 q) by ring. replace (4 * q1 q * q3 q) with (4 * q3 q * q1 q) by ring.
    replace (4 * q2 q * q3 q) with (4 * q3 q * q2 q) by ring. split.
    - intros. apply (Main (q0 q) (q1 q) (q2 q) (q3 q) (fun w x y z => Q4 x y z w)); auto; destruct q; auto.
    - intros H. apply (MainZ (q0 q) (q1 q) (q2 q) (q3 q) (fun w x y z => Q4 x y z w)); lra. }
  exfalso.
  assert (F : forall a b c d, ge3 a b c d = false -> a < b \/ a < c \/ a < d).
  { intros a b c d. unfold ge3. destruct (Rge_dec a b), (Rge_dec a c), (Rge_dec a d); intros; try discriminate; lra. }
  apply F in G0, G1, G2, G3. lra.
Qed.

(** The round trip holds exactly for the rotations none of whose quaternion
    components vanishes. *)
Theorem C27_round_trip : forall q, qnorm2 q = 1 ->
  q0 q <> 0 -> q1 q <> 0 -> q2 q <> 0 -> q3 q <> 0 ->
  exists p, rot2quaternion (quaternion2rot q) = Some p
    /\ (p = q \/ p = qneg q) /\ qnorm2 p = 1 /\ quaternion2rot p = quaternion2rot q.
Proof.
  intros q N H0 H1 H2 H3. destruct (rot2quaternion_spec q N) as [S _]. specialize (S H0 H1 H2 H3).
  assert (Nn : qnorm2 (qneg q) = 1) by (unfold qnorm2, qneg in *; qc; lra).
  destruct S as [S|S]; [exists q|exists (qneg q)]; repeat split; auto using C26_antipodal_same.
Qed.
Theorem C27_round_trip_rotation : forall A, rotation A ->
  m21 A <> m12 A -> m02 A <> m20 A -> m10 A <> m01 A ->
  exists q, rot2quaternion A = Some q /\ qnorm2 q = 1 /\ quaternion2rot q = A.
Proof.
  intros A HA D1 D2 D3. destruct (rotation_from_quat A HA) as (q & N & <-).
  destruct (C27_round_trip q N) as (p & E & _ & Np & Ep).
  - intro Z. apply D1. unfold quaternion2rot; cbn. rewrite Z. ring.
  - intro Z. apply D1. unfold quaternion2rot; cbn. rewrite Z. ring.
  - intro Z. apply D2. unfold quaternion2rot; cbn. rewrite Z. ring.
  - intro Z. apply D3. unfold quaternion2rot; cbn. rewrite Z. ring.
  - exists p. auto.
Qed.
(** The claim for all rotations is false: wherever a component of the
    quaternion vanishes (identity, half-turns, rotations about an axis in a
    coordinate plane) the result is not a number. *)
Theorem C27_vanishing_component_refuted : forall q, qnorm2 q = 1 ->
  q0 q * q1 q * q2 q * q3 q = 0 -> rot2quaternion (quaternion2rot q) = None.
Proof. intros q N. apply (rot2quaternion_spec q N). Qed.
Theorem C27_identity_refuted : rotation mid /\ rot2quaternion mid = None.
Proof.
  split; [apply rot_id|].
  assert (E : mid = quaternion2rot (Q4 1 0 0 0)) by (unfold quaternion2rot, mid; qc; f_equal; ring).
  rewrite E. apply C27_vanishing_component_refuted; unfold qnorm2; qc; ring.
Qed.
Example C27_nonvacuous : qnorm2 (Q4 (1/2) (-1/2) (1/2) (1/2)) = 1 /\
  rotation (quaternion2rot (Q4 (1/2) (-1/2) (1/2) (1/2))).
Proof. split; [|apply q2r_rot]; unfold qnorm2; qc; field. Qed.
