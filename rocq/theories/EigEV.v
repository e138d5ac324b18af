(** The closed-form smallest eigenvalue (C45). *)
From Coq Require Import Reals List Lra Psatz Lia.
From Verif Require Import Lin RotModel SturmModel Spectral EigSums EigGen EigModel EigAlg EigProps EigExamples.
Local Open Scope R_scope.

Lemma rpow_cube P : 0 < P -> rpow (P ^ 3) (1 / 3) = P.
Proof.
  intro H. unfold rpow. pose proof (pow_lt P 3 H). destruct (Req_EM_T (P ^ 3) 0); [lra|].
  rewrite <- Rpower_pow by auto. rewrite Rpower_mult. replace (INR 3 * (1 / 3)) with 1 by (cbn; field). now apply Rpower_1.
Qed.
Lemma cos_3 x : cos (3 * x) = 4 * cos x ^ 3 - 3 * cos x.
Proof.
  replace (3 * x) with (2 * x + x) by ring. rewrite cos_plus, cos_2a, sin_2a. pose proof (sin2_cos2 x) as E. unfold Rsqr in E.
  replace (cos x * cos x - sin x * sin x) with (2 * cos x * cos x - 1) by lra.
  replace (2 * sin x * cos x * sin x) with (2 * cos x * (sin x * sin x)) by ring. replace (sin x * sin x) with (1 - cos x * cos x) by lra. ring.
Qed.

Lemma ev_closed_spec l1 l2 l3 : l1 >= l2 -> l2 >= l3 -> l1 <> l3 ->
  ev_closed (- (l1 + l2 + l3)) (l1 * l2 + l1 * l3 + l2 * l3) (- (l1 * l2 * l3)) = Some l3.
Proof.
  intros A B N.
  set (b := - (l1 + l2 + l3)). set (c := l1 * l2 + l1 * l3 + l2 * l3). set (d := - (l1 * l2 * l3)).
  set (x := l1 - l2). set (y := l2 - l3).
  assert (P2 : b ^ 2 - 3 * c = x ^ 2 + x * y + y ^ 2) by (unfold b, c, x, y; ring).
  assert (Px : 0 <= x) by (unfold x; lra). assert (Py : 0 <= y) by (unfold y; lra). assert (Pxy : 0 < x + y) by (unfold x, y; lra).
  assert (PP : 0 < x ^ 2 + x * y + y ^ 2) by nra.
  set (P := sqrt (x ^ 2 + x * y + y ^ 2)).
  assert (PPos : 0 < P) by (now apply sqrt_lt_R0).
  assert (PSq : P ^ 2 = x ^ 2 + x * y + y ^ 2) by (unfold P; rewrite <- Rsqr_pow2; apply Rsqr_sqrt; lra).
  assert (P3 : 0 < P ^ 3) by (now apply pow_lt).
  assert (T : ev_t b c = (2 * P ^ 3) ^ 2).
  { unfold ev_t. rewrite P2, <- PSq. ring. }
  assert (ST : sqrt (ev_t b c) = 2 * P ^ 3).
  { rewrite T. apply sqrt_pow2. lra. }
  assert (Disc : ev_s b c d ^ 2 <= (2 * P ^ 3) ^ 2).
  { rewrite <- T. unfold ev_t. apply Rminus_le. unfold ev_s.
    replace ((2 * b ^ 3 - 9 * b * c + 27 * d) ^ 2 - 4 * (b ^ 2 - 3 * c) ^ 3) with (- (27 * (x * y * (x + y)) ^ 2)) by (unfold b, c, d, x, y; ring).
    pose proof (pow2_ge_0 (x * y * (x + y))). lra. }
  unfold ev_closed. rewrite ST.
  destruct (Rlt_dec (ev_t b c) 0) as [L|_]. { rewrite T in L. pose proof (pow2_ge_0 (2 * P ^ 3)). lra. }
  destruct (Req_EM_T (2 * P ^ 3) 0); [lra|].
  assert (Q : -1 <= ev_s b c d / (2 * P ^ 3) <= 1).
  { assert (K : Rabs (ev_s b c d) <= 2 * P ^ 3). { rewrite <- (Rabs_right (2 * P ^ 3)) by lra. apply Rsqr_le_abs_0. rewrite !Rsqr_pow2. auto. }
    apply Rabs_le_between in K || (pose proof (Rle_abs (ev_s b c d)); pose proof (Rle_abs (- ev_s b c d)); rewrite Rabs_Ropp in *).
    split; [apply Rmult_le_reg_r with (2 * P ^ 3)|apply Rmult_le_reg_r with (2 * P ^ 3)]; try lra.
    all: unfold Rdiv; rewrite Rmult_assoc, Rinv_l by lra; lra. }
  destruct (Rlt_dec 1 (Rabs (ev_s b c d / (2 * P ^ 3)))) as [L|_]. { exfalso. apply (Rlt_not_le _ _ L). apply Rabs_le. auto. }
  set (al := acos (ev_s b c d / (2 * P ^ 3))).
  replace (1 / 2 * (2 * P ^ 3)) with (P ^ 3) by field. rewrite rpow_cube by auto.
  assert (Al : 0 <= al <= PI) by apply acos_bound.
  assert (C3 : 4 * cos (al / 3) ^ 3 - 3 * cos (al / 3) = ev_s b c d / (2 * P ^ 3)).
  { rewrite <- cos_3. replace (3 * (al / 3)) with al by field. now apply cos_acos. }
  set (w := cos (al / 3)) in *.
  assert (W : 1 / 2 <= w).
  { rewrite <- cos_PI3. unfold w. pose proof PI_RGT_0. apply cos_decr_1; lra. }
  apply f_equal. set (e := (- b - 2 * (P * w)) / 3).
  assert (Root : (e - l1) * ((e - l2) * (e - l3)) = 0).
  { assert (K : 27 * ((e - l1) * ((e - l2) * (e - l3))) = - (2 * P ^ 3) * (4 * w ^ 3 - 3 * w) + ev_s b c d + 6 * P * w * (b ^ 2 - 3 * c - P ^ 2)).
    { unfold e, ev_s, b, c, d. field. }
    rewrite P2, PSq, C3 in K. replace (- (2 * P ^ 3) * (ev_s b c d / (2 * P ^ 3))) with (- ev_s b c d) in K by (field; lra). lra. }
  assert (Up : 3 * e <= l1 + l2 + l3 - P) by (unfold e, b; nra).
  apply Rmult_integral in Root as [R1|Root]; [|apply Rmult_integral in Root as [R2|R3]; [|lra]].
  - exfalso. unfold x, y in *. lra.
  - assert (K : P <= x - y) by (unfold x, y; lra).
    assert (x * y <= 0) by nra. assert (x * y = 0) by nra.
    assert (Z : x = 0 \/ y = 0) by (now apply Rmult_integral). destruct Z as [Z|Z]; [lra|]. unfold y in Z. lra.
Qed.

Lemma charpoly_sym M x : symmetric M -> det (msub (mscale x mid) M) = x ^ 3 + ev_b M * x ^ 2 + ev_c M * x + ev_d M.
Proof.
  unfold symmetric, ev_b, ev_c, ev_d. intro H. destruct M as [a b c d e f g h i]. unfold mT in H; cbn in H. injection H. intros. subst. lunf. ring.
Qed.
Lemma charpoly_diag Q M d x : diagonalises Q M d -> det (msub (mscale x mid) M) = (x - vx d) * (x - vy d) * (x - vz d).
Proof.
  intros (O & E). pose proof (orth_r Q O) as OR.
  assert (K : msub (mscale x mid) M = mmul Q (mmul (diag (x - vx d) (x - vy d) (x - vz d)) (mT Q))).
  { rewrite E. rewrite <- OR at 1. clear. lring. }
  rewrite K, !det_mmul. pose proof (orth_det Q O). replace (det (mT Q)) with (det Q) by lring.
  transitivity (det (diag (x - vx d) (x - vy d) (x - vz d)) * (det Q * det Q)); [ring|]. rewrite H. clear. lring.
Qed.
Lemma sym_coeffs Q M d : symmetric M -> diagonalises Q M d ->
  ev_b M = - (vx d + vy d + vz d) /\ ev_c M = vx d * vy d + vx d * vz d + vy d * vz d /\ ev_d M = - (vx d * vy d * vz d).
Proof.
  intros Sy D.
  assert (K : forall x, x ^ 3 + ev_b M * x ^ 2 + ev_c M * x + ev_d M = (x - vx d) * (x - vy d) * (x - vz d)).
  { intro x. rewrite <- charpoly_sym by auto. now apply (charpoly_diag Q). }
  pose proof (K 0) as K0. pose proof (K 1) as K1. pose proof (K (-1)) as K2. ring_simplify in K0. ring_simplify in K1. ring_simplify in K2. lra.
Qed.
Lemma diag_quad Q M d u : diagonalises Q M d -> dot u (mv M u) =
  vx d * dot (col Q 0) u ^ 2 + vy d * dot (col Q 1) u ^ 2 + vz d * dot (col Q 2) u ^ 2.
Proof. intros (_ & ->). lring. Qed.
Lemma diag_norm Q u : orthogonal Q -> norm2 u = dot (col Q 0) u ^ 2 + dot (col Q 1) u ^ 2 + dot (col Q 2) u ^ 2.
Proof.
  intro O. pose proof (orth_r Q O) as OR. transitivity (dot u (mv (mmul Q (mT Q)) u)); [rewrite OR; lring|]. clear. lring.
Qed.

(** the result exists and is the smallest eigenvalue, for every symmetric
    matrix that is not a multiple of the identity *)
Theorem C45_smallest_eigenvalue : forall M, symmetric M -> (forall k, M <> mscale k mid) ->
  exists e v, smallestEV M = Some e /\ unit v /\ mv M v = vscale e v /\ forall u, e * norm2 u <= dot u (mv M u).
Proof.
  intros M Sy NS. destruct (spectral_sorted M Sy) as (Q & d & D & O1 & O2).
  destruct (sym_coeffs Q M d Sy D) as (Eb & Ec & Ed). destruct (diag_pairs Q M d D) as (_ & _ & E2).
  pose proof D as (O & EM). destruct (orth_cols Q O) as (_ & _ & U2).
  exists (vz d), (col Q 2). split.
  - unfold smallestEV. rewrite Eb, Ec, Ed. apply ev_closed_spec; auto.
    intro Z. apply (NS (vx d)). assert (vy d = vx d) by lra. assert (vz d = vx d) by lra.
    rewrite EM, H, H0. transitivity (mscale (vx d) (mmul Q (mT Q))); [generalize (vx d); clear; lring|]. now rewrite orth_r.
  - split; auto. split; auto. intro u. rewrite (diag_norm Q u O), (diag_quad Q M d u D).
    pose proof (pow2_ge_0 (dot (col Q 0) u)). pose proof (pow2_ge_0 (dot (col Q 1) u)). nra.
Qed.
(** multiples of the identity: no number is returned *)
Theorem C45_scalar_matrix_refuted : forall k, smallestEV (mscale k mid) = None.
Proof.
  intro k. unfold smallestEV, ev_closed. 
  assert (T : ev_t (ev_b (mscale k mid)) (ev_c (mscale k mid)) = 0) by (unfold ev_t, ev_b, ev_c; lunf; ring).
  rewrite T, sqrt_0. destruct (Rlt_dec 0 0); auto. destruct (Req_EM_T 0 0); [auto|lra].
Qed.
Example C45_nonvacuous : symmetric (diag 1 2 3) /\ (forall k, diag 1 2 3 <> mscale k mid) /\ smallestEV (diag 1 2 3) = Some 1.
Proof.
  split; [reflexivity|]. split. { intros k E. lunf. injection E. lra. }
  unfold smallestEV. replace (ev_b (diag 1 2 3)) with (- (3 + 2 + 1)) by (unfold ev_b; cbn; ring).
  replace (ev_c (diag 1 2 3)) with (3 * 2 + 3 * 1 + 2 * 1) by (unfold ev_c; cbn; ring).
  replace (ev_d (diag 1 2 3)) with (- (3 * 2 * 1)) by (unfold ev_d; cbn; ring). apply ev_closed_spec; lra.
Qed.
