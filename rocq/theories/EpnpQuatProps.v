(** The error measures of the EPnP class (C83): the quaternion of a rotation,
    and relative errors that vanish exactly on equal poses. *)
From Coq Require Import Reals List Lra Lia Psatz Bool.
From Verif Require Import Lin EpnpQuatModel.
Local Open Scope R_scope.

(** * Specification *)
Definition qdot (q p : eq4) : R := e0 q * e0 p + e1 q * e1 p + e2 q * e2 p + e3 q * e3 p.
(** the rotation of the quaternion with vector part (q0,q1,q2) and scalar part
    q3 applied to v: v + 2 w (u x v) + 2 u x (u x v) *)
Definition qact (q : eq4) (v : vec3) : vec3 :=
  let u := V3 (e0 q) (e1 q) (e2 q) in
  vadd v (vadd (vscale (2 * e3 q) (cross u v)) (vscale 2 (cross u (cross u v)))).
(** cosine of the angle between two rotations *)
Definition cos_angle (A B : mat3) : R := (trace (mmul (mT A) B) - 1) / 2.

(** * Proofs *)
Lemma ltb_true a b : ltb a b = true -> a < b.
Proof. unfold ltb. destruct (Rlt_dec a b); auto; discriminate. Qed.
Lemma ltb_false a b : ltb a b = false -> b <= a.
Proof. unfold ltb. destruct (Rlt_dec a b); [discriminate|]. intros _. lra. Qed.
Lemma ltb_intro a b : a < b -> ltb a b = true.
Proof. unfold ltb. destruct (Rlt_dec a b); auto; intros; lra. Qed.

(** n4 is at least one: no rotation is needed *)
Lemma n4_pos A : 1 <= snd (mat_to_quat_raw A).
Proof.
  unfold mat_to_quat_raw.
  destruct (ltb 0 _) eqn:T; cbn [snd]; [apply ltb_true in T; lra|apply ltb_false in T].
  destruct (ltb (m11 A) (m00 A)) eqn:A1, (ltb (m22 A) (m00 A)) eqn:A2, (ltb (m22 A) (m11 A)) eqn:A3; cbn [andb snd];
    try apply ltb_true in A1; try apply ltb_true in A2; try apply ltb_true in A3;
    try apply ltb_false in A1; try apply ltb_false in A2; try apply ltb_false in A3; lra.
Qed.

Lemma rot_adj A : rotation A -> adj A = mT A.
Proof.
  intros [H D]. rewrite <- (orth_inv A H). unfold minv. rewrite D.
  replace (/ 1) with 1 by field. now rewrite mscale_1.
Qed.

(** the matrix of the unscaled quaternion is 4 n4 times the transpose *)
Definition qmat (q : eq4) : mat3 :=
  let 'E4 x y z w := q in
  M3 (w * w + x * x - y * y - z * z) (2 * (x * y - w * z)) (2 * (x * z + w * y))
     (2 * (x * y + w * z)) (w * w + y * y - x * x - z * z) (2 * (y * z - w * x))
     (2 * (x * z - w * y)) (2 * (y * z + w * x)) (w * w + z * z - x * x - y * y).

Lemma raw_spec A q n : rotation A -> mat_to_quat_raw A = (q, n) ->
  qdot q q = 4 * n /\ qmat q = mscale (4 * n) (mT A).
Proof.
  intros H E. pose proof (rot_adj A H) as J. pose proof (orth_r A (proj1 H)) as O1. destruct H as [O2 _].
  destruct A as [a b c d e f g h i]. unfold orthogonal in O2. lunf. linj J. linj O1. linj O2.
  unfold mat_to_quat_raw in E. cbn [m00 m01 m02 m10 m11 m12 m20 m21 m22] in E.
  repeat match type of E with context [if ?b then _ else _] => destruct b end; injection E as <- <-;
    unfold qdot, qmat; cbn [e0 e1 e2 e3]; (split; [lra|]); f_equal; lra.
Qed.

Lemma qact_qmat q v : qdot q q = 1 -> qact q v = mv (qmat q) v.
Proof.
  destruct q as [x y z w], v as [a b c]. unfold qdot, qact, qmat. cbn [e0 e1 e2 e3]. intro U. lunf.
  f_equal.
  - transitivity (a * (x * x + y * y + z * z + w * w) + (2 * w * (y * c - z * b) + 2 * (y * (x * b - y * a) - z * (z * a - x * c))));
      [rewrite U|]; ring.
  - transitivity (b * (x * x + y * y + z * z + w * w) + (2 * w * (z * a - x * c) + 2 * (z * (y * c - z * b) - x * (x * b - y * a))));
      [rewrite U|]; ring.
  - transitivity (c * (x * x + y * y + z * z + w * w) + (2 * w * (x * b - y * a) + 2 * (x * (z * a - x * c) - y * (y * c - z * b))));
      [rewrite U|]; ring.
Qed.

Lemma to_quat A : rotation A -> exists q, mat_to_quat A = Some q /\ qdot q q = 1 /\ qmat q = mT A.
Proof.
  intros H. pose proof (n4_pos A) as P. destruct (mat_to_quat_raw A) as [q n] eqn:E. cbn [snd] in P.
  destruct (raw_spec A q n H E) as [U M].
  unfold mat_to_quat. rewrite E, ltb_intro by lra. eexists. split; [reflexivity|].
  assert (S : sqrt n * sqrt n = n) by (apply sqrt_sqrt; lra).
  assert (S0 : 0 < sqrt n) by (apply sqrt_lt_R0; lra).
  set (k := 1 / 2 / sqrt n). assert (K : k * k * (4 * n) = 1) by (unfold k; rewrite <- S at 3; field; lra).
  destruct q as [x y z w]. unfold qdot in *. cbn [e0 e1 e2 e3] in *. split.
  - transitivity (k * k * (x * x + y * y + z * z + w * w)); [ring|]. rewrite U. exact K.
  - transitivity (mscale (k * k) (qmat (E4 x y z w))); [unfold qmat; lunf; f_equal; ring|].
    rewrite M, mscale_mscale, K. apply mscale_1.
Qed.

(** C83: the quaternion of a rotation matrix is a unit quaternion, and it
    rotates vectors by the inverse of that matrix. *)
Theorem C83_quaternion_of_rotation : forall A, rotation A ->
  exists q, mat_to_quat A = Some q /\ qdot q q = 1 /\ forall v, qact q v = mv (mT A) v.
Proof.
  intros A H. destruct (to_quat A H) as (q & E & U & M). exists q. repeat split; auto.
  intro v. now rewrite qact_qmat, M.
Qed.

(** C83: no matrix, rotation or not, makes the conversion divide by zero or
    take the root of a negative number. *)
Theorem C83_quaternion_always_defined : forall A, exists q, mat_to_quat A = Some q.
Proof.
  intro A. pose proof (n4_pos A) as P. unfold mat_to_quat. destruct (mat_to_quat_raw A) as [q n]. cbn [snd] in P.
  rewrite ltb_intro by lra. eauto.
Qed.

Lemma trace_dot q p : qdot q q = 1 -> qdot p p = 1 ->
  trace (mmul (qmat q) (mT (qmat p))) = 4 * (qdot q p * qdot q p) - 1.
Proof.
  destruct q as [x y z w], p as [x' y' z' w']. unfold qdot, qmat. cbn [e0 e1 e2 e3]. intros U V. lunf.
  transitivity (4 * ((x * x' + y * y' + z * z' + w * w') * (x * x' + y * y' + z * z' + w * w'))
                - (x * x + y * y + z * z + w * w) * (x' * x' + y' * y' + z' * z' + w' * w')); [ring|].
  rewrite U, V. ring.
Qed.

Lemma qdot_bound q p : qdot q q = 1 -> qdot p p = 1 -> -1 <= qdot q p <= 1.
Proof.
  unfold qdot. intros U V.
  pose proof (sq_nonneg (e0 q - e0 p)). pose proof (sq_nonneg (e1 q - e1 p)).
  pose proof (sq_nonneg (e2 q - e2 p)). pose proof (sq_nonneg (e3 q - e3 p)).
  pose proof (sq_nonneg (e0 q + e0 p)). pose proof (sq_nonneg (e1 q + e1 p)).
  pose proof (sq_nonneg (e2 q + e2 p)). pose proof (sq_nonneg (e3 q + e3 p)). lra.
Qed.

(** C83: on two rotations the rotation error is a number d between 0 and
    sqrt 2 with cos(angle between them) = 2 (1 - d^2/2)^2 - 1, that is
    d = 2 sin(angle / 4). *)
Theorem C83_rotation_error : forall At Ae, rotation At -> rotation Ae ->
  exists d, rot_err At Ae = Some d /\ 0 <= d /\ d * d <= 2 /\
    cos_angle At Ae = 2 * ((1 - d * d / 2) * (1 - d * d / 2)) - 1.
Proof.
  intros At Ae Ht He.
  destruct (to_quat At Ht) as (q & Eq & U & M). destruct (to_quat Ae He) as (p & Ep & V & N).
  pose proof (trace_dot q p U V) as T. rewrite M, N, mT_mT in T.
  pose proof (qdot_bound q p U V) as B.
  unfold rot_err. rewrite Eq, Ep.
  change (e0 q * e0 q + e1 q * e1 q + e2 q * e2 q + e3 q * e3 q) with (qdot q q).
  rewrite U, sqrt_1. unfold quot. destruct (Req_EM_T 1 0) as [Z|_]; [lra|].
  set (s1 := (e0 q - e0 p) * (e0 q - e0 p) + _ + _ + _).
  set (s2 := (e0 q + e0 p) * (e0 q + e0 p) + _ + _ + _).
  assert (S1 : s1 = 2 - 2 * qdot q p) by (unfold s1, qdot in *; lra).
  assert (S2 : s2 = 2 + 2 * qdot q p) by (unfold s2, qdot in *; lra).
  assert (Q1 : sqrt s1 * sqrt s1 = s1) by (apply sqrt_sqrt; lra).
  assert (Q2 : sqrt s2 * sqrt s2 = s2) by (apply sqrt_sqrt; lra).
  pose proof (sqrt_pos s1) as P1. pose proof (sqrt_pos s2) as P2.
  replace (sqrt s1 / 1) with (sqrt s1) by field. replace (sqrt s2 / 1) with (sqrt s2) by field.
  eexists. split; [reflexivity|]. unfold cos_angle. rewrite T.
  destruct (ltb (sqrt s2) (sqrt s1)) eqn:L.
  - apply ltb_true in L. assert (s2 <= s1) by (rewrite <- Q1, <- Q2; nra).
    split; [exact P2|]. rewrite Q2. split; [lra|]. rewrite S2. field.
  - apply ltb_false in L. assert (s1 <= s2) by (rewrite <- Q1, <- Q2; nra).
    split; [exact P1|]. rewrite Q1. split; [lra|]. rewrite S1. field.
Qed.

Lemma frob A B : rotation A -> rotation B ->
  trace (mmul (mT A) B) = 3 -> A = B.
Proof.
  intros [HA _] [HB _] T.
  destruct A as [a b c d e f g h i], B as [a' b' c' d' e' f' g' h' i'].
  unfold orthogonal in *. lunf. linj HA. linj HB.
  assert (Z : (a - a') * (a - a') + (b - b') * (b - b') + (c - c') * (c - c') +
              (d - d') * (d - d') + (e - e') * (e - e') + (f - f') * (f - f') +
              (g - g') * (g - g') + (h - h') * (h - h') + (i - i') * (i - i') = 0) by lra.
  pose proof (sq_nonneg (a - a')). pose proof (sq_nonneg (b - b')). pose proof (sq_nonneg (c - c')).
  pose proof (sq_nonneg (d - d')). pose proof (sq_nonneg (e - e')). pose proof (sq_nonneg (f - f')).
  pose proof (sq_nonneg (g - g')). pose proof (sq_nonneg (h - h')). pose proof (sq_nonneg (i - i')).
  assert (K : forall x y, (x - y) * (x - y) = 0 -> x = y).
  { intros x y E. apply Rmult_integral in E. lra. }
  f_equal; apply K; lra.
Qed.

(** C83: the rotation error of two rotations is zero exactly when they are
    equal, and exchanging the two changes nothing. *)
Theorem C83_rotation_error_zero_iff_equal : forall At Ae, rotation At -> rotation Ae ->
  (rot_err At Ae = Some 0 <-> At = Ae).
Proof.
  intros At Ae Ht He. destruct (C83_rotation_error At Ae Ht He) as (d & E & D0 & D2 & C). unfold cos_angle in C. split.
  - intro Z. rewrite E in Z. injection Z as ->. apply frob; auto. lra.
  - intros <-. rewrite E. f_equal. rewrite (proj1 Ht) in C.
    assert (T : trace mid = 3) by (unfold trace, mid; cbn; ring). rewrite T in C.
    assert (D : d * d = 0) by nra. apply Rmult_integral in D. tauto.
Qed.
Theorem C83_rotation_error_symmetric : forall At Ae, rotation At -> rotation Ae -> rot_err At Ae = rot_err Ae At.
Proof.
  intros At Ae Ht He. destruct (C83_rotation_error At Ae Ht He) as (d & E & D0 & D2 & C).
  destruct (C83_rotation_error Ae At He Ht) as (d' & E' & D0' & D2' & C').
  assert (T : cos_angle At Ae = cos_angle Ae At).
  { unfold cos_angle. do 2 f_equal. rewrite <- (mT_mT Ae) at 1. rewrite <- mT_mmul. unfold trace, mT. reflexivity. }
  rewrite E, E'. f_equal. rewrite C, C' in T.
  assert (d * d = d' * d') by nra. nra.
Qed.

(** C83: the translation error is the distance of the estimate from the true
    translation over the length of the latter; it is a number for every true
    translation but zero, and zero exactly on equal translations. *)
Theorem C83_translation_error : forall tt te,
  (tt <> v0 -> transl_err tt te = Some (norm (vsub tt te) / norm tt)) /\
  (transl_err tt te = Some 0 <-> tt <> v0 /\ tt = te) /\
  (transl_err tt te = None <-> tt = v0).
Proof.
  intros tt te.
  assert (D : transl_err tt te = quot (norm (vsub tt te)) (norm tt)) by reflexivity.
  assert (NZ : tt <> v0 -> transl_err tt te = Some (norm (vsub tt te) / norm tt)).
  { intro H. rewrite D. unfold quot. pose proof (norm_pos tt H). destruct (Req_EM_T (norm tt) 0); [lra|reflexivity]. }
  assert (Z : tt = v0 -> transl_err tt te = None).
  { intros ->. rewrite D. unfold quot. replace (norm v0) with 0.
    - destruct (Req_EM_T 0 0); [reflexivity|lra].
    - unfold norm, norm2, dot, v0. cbn. replace (0 * 0 + 0 * 0 + 0 * 0) with 0 by ring. now rewrite sqrt_0. }
  assert (DEC : tt = v0 \/ tt <> v0).
  { destruct (Req_EM_T (norm2 tt) 0) as [e|n]; [left; now apply norm2_zero|right; intros ->; apply n; unfold norm2, dot, v0; cbn; ring]. }
  split; [exact NZ|]. split.
  - split.
    + intro H. destruct DEC as [C|C]; [rewrite (Z C) in H; discriminate|]. split; auto.
      rewrite (NZ C) in H. injection H as H. pose proof (norm_pos tt C).
      assert (K : norm (vsub tt te) = 0).
      { apply (Rmult_eq_compat_r (norm tt)) in H. unfold Rdiv in H.
        rewrite Rmult_assoc, Rinv_l, Rmult_1_r, Rmult_0_l in H by lra. exact H. }
      assert (K2 : norm2 (vsub tt te) = 0) by (rewrite <- norm_sq, K; ring).
      apply norm2_zero in K2. destruct tt, te. lunf. linj K2. f_equal; lra.
    + intros [C <-]. rewrite (NZ C), vsub_self. f_equal. replace (norm v0) with 0; [unfold Rdiv; ring|].
      unfold norm, norm2, dot, v0. cbn. replace (0 * 0 + 0 * 0 + 0 * 0) with 0 by ring. now rewrite sqrt_0.
  - split; [|exact Z]. intro H. destruct DEC as [C|C]; auto. rewrite (NZ C) in H. discriminate.
Qed.

(** a quarter turn about z and half turns about the three axes reach all four
    branches; the quarter turn is at cosine zero from the identity *)
Example C83_nonvacuous :
  let Z4 := M3 0 (-1) 0 1 0 0 0 0 1 in
  let X2 := M3 1 0 0 0 (-1) 0 0 0 (-1) in
  let Y2 := M3 (-1) 0 0 0 1 0 0 0 (-1) in
  let Z2 := M3 (-1) 0 0 0 (-1) 0 0 0 1 in
  (rotation Z4 /\ rotation X2 /\ rotation Y2 /\ rotation Z2) /\
  mat_to_quat_raw Z4 = (E4 0 0 (-2) 2, 2) /\
  mat_to_quat_raw X2 = (E4 4 0 0 0, 4) /\
  mat_to_quat_raw Y2 = (E4 0 4 0 0, 4) /\
  mat_to_quat_raw Z2 = (E4 0 0 4 0, 4) /\
  (exists d, rot_err mid Z4 = Some d /\ 2 * ((1 - d * d / 2) * (1 - d * d / 2)) = 1) /\
  transl_err (V3 3 0 4) (V3 3 0 1) = Some (3 / 5).
Proof.
  intros Z4 X2 Y2 Z2.
  assert (RZ : rotation Z4) by (unfold Z4; split; [unfold orthogonal|]; lunf; [f_equal|]; ring).
  assert (L : forall a b, b <= a -> ltb a b = false).
  { intros a b H. destruct (ltb a b) eqn:E; auto. apply ltb_true in E. lra. }
  split; [|split; [|split; [|split; [|split; [|split]]]]].
  - unfold X2, Y2, Z2. repeat split; auto; try apply RZ; unfold orthogonal; lunf; try f_equal; ring.
  - unfold mat_to_quat_raw, Z4. cbn [m00 m01 m02 m10 m11 m12 m20 m21 m22]. rewrite ltb_intro by lra. repeat f_equal; ring.
  - unfold mat_to_quat_raw, X2. cbn [m00 m01 m02 m10 m11 m12 m20 m21 m22].
    repeat match goal with |- context [ltb ?a ?b] => first [rewrite (ltb_intro a b) by lra|rewrite (L a b) by lra] end. cbn [andb]. repeat f_equal; ring.
  - unfold mat_to_quat_raw, Y2. cbn [m00 m01 m02 m10 m11 m12 m20 m21 m22].
    repeat match goal with |- context [ltb ?a ?b] => first [rewrite (ltb_intro a b) by lra|rewrite (L a b) by lra] end. cbn [andb]. repeat f_equal; ring.
  - unfold mat_to_quat_raw, Z2. cbn [m00 m01 m02 m10 m11 m12 m20 m21 m22].
    repeat match goal with |- context [ltb ?a ?b] => first [rewrite (ltb_intro a b) by lra|rewrite (L a b) by lra] end. cbn [andb]. repeat f_equal; ring.
  - destruct (C83_rotation_error mid Z4 rot_id RZ) as (d & E & _ & _ & C). exists d. split; auto.
    unfold cos_angle, Z4 in C. lunf. lra.
  - assert (N : forall x y z r, 0 <= r -> x * x + y * y + z * z = r * r -> norm (V3 x y z) = r).
    { intros x y z r P E. unfold norm, norm2, dot. cbn [vx vy vz]. rewrite E. now apply sqrt_square. }
    rewrite (proj1 (C83_translation_error _ _)); [|intro H; apply (f_equal vx) in H; cbn in H; lra].
    unfold vsub. cbn [vx vy vz]. rewrite (N _ _ _ 3), (N _ _ _ 5) by lra. reflexivity.
Qed.
