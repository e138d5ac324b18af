(** EPnP (C66-C70): the linear system, the distance equations, recovery of the
    true pose, planar scenes, choice of the best candidate. *)
From Coq Require Import Reals List Arith ZArith Lia Lra Psatz Bool.
From Verif Require Import Lin GenLin GenSpectral Spectral ArunModel ArunProps QrModel QrProps EpnpModel.
Import ListNotations.
Local Open Scope R_scope.

(** * Specification *)
(** [A], [t] is the pose of a camera that sees the points along their bearing
    vectors: every point is a positive multiple of the bearing away *)
Definition sees (A : mat3) (t : vec3) (l : list ecorr) : Prop :=
  forall c, In c l -> exists d, 0 < d /\ e_p c = vadd t (vscale d (mv A (e_f c))).
(** the affine map p -> B p + s puts every point on the line of its bearing *)
Definition on_lines (B : mat3) (s : vec3) (l : list ecorr) : Prop :=
  forall c, In c l -> exists d, vadd (mv B (e_p c)) s = vscale d (e_f c).
Definition coplanar (l : list ecorr) : Prop := exists n d, n <> v0 /\ forall c, In c l -> dot n (e_p c) = d.
(** the control points span space *)
Definition frame (cw : nat -> vec3) : Prop :=
  dot (vsub (cw 1%nat) (cw 0%nat)) (cross (vsub (cw 2%nat) (cw 0%nat)) (vsub (cw 3%nat) (cw 0%nat))) <> 0.
(** four points as a vector of twelve entries *)
Definition flat (q : nat -> vec3) : nat -> R := fun k => vget (q (k / 3)%nat) (k mod 3).
(** x solves the homogeneous system given by the first m rows of M *)
Definition null (m : nat) (M : nat -> nat -> R) (x : nat -> R) : Prop := forall r, (r < m)%nat -> mvec 12 M x r = 0.

Ltac vcase H := repeat match type of H with
  | (_ < 0)%nat => exfalso; lia
  | (?i < S _)%nat => destruct i as [|i]; [clear H|apply Nat.succ_lt_mono in H] end.

(** * C66: barycentric coordinates and the linear system *)
Lemma frame_det cw : frame cw <-> det (e_CC cw) <> 0.
Proof. unfold frame, e_CC. rewrite det_cols. tauto. Qed.

Theorem C66_weights : forall cw p, frame cw ->
  e_alpha cw p 0%nat + e_alpha cw p 1%nat + e_alpha cw p 2%nat + e_alpha cw p 3%nat = 1
  /\ vadd (vadd (vadd (vscale (e_alpha cw p 0%nat) (cw 0%nat)) (vscale (e_alpha cw p 1%nat) (cw 1%nat)))
       (vscale (e_alpha cw p 2%nat) (cw 2%nat))) (vscale (e_alpha cw p 3%nat) (cw 3%nat)) = p.
Proof.
  intros cw p F. apply frame_det in F. pose proof (mv_minv (e_CC cw) (vsub p (cw 0%nat)) F) as E.
  set (a := mv (minv (e_CC cw)) (vsub p (cw 0%nat))) in *.
  replace (e_alpha cw p 0%nat) with (1 - vx a - vy a - vz a) by reflexivity. replace (e_alpha cw p 1%nat) with (vx a) by reflexivity.
  replace (e_alpha cw p 2%nat) with (vy a) by reflexivity. replace (e_alpha cw p 3%nat) with (vz a) by reflexivity.
  clearbody a. clear F.
  split; [ring|]. revert E. unfold e_CC. destruct p as [p1 p2 p3], (cw 0%nat) as [x0 y0 z0], (cw 1%nat) as [x1 y1 z1], (cw 2%nat) as [x2 y2 z2],
    (cw 3%nat) as [x3 y3 z3], a as [a1 a2 a3]. lunf. intro E. injection E; intros E3 E2 E1. f_equal; lra.
Qed.

(** Combining images of the control points gives the image of the point under
    every affine map. *)
Lemma e_pc_affine cw p B s : frame cw -> e_pc cw (fun k => vadd (mv B (cw k)) s) p = vadd (mv B p) s.
Proof.
  intro F. destruct (C66_weights cw p F) as [W1 W2]. rewrite <- W2 at 2. unfold e_pc.
  set (a0 := e_alpha cw p 0%nat) in *. set (a1 := e_alpha cw p 1%nat) in *. set (a2 := e_alpha cw p 2%nat) in *. set (a3 := e_alpha cw p 3%nat) in *.
  rewrite !mv_add, !mv_scale. clearbody a0 a1 a2 a3. clear W2. replace a0 with (1 - a1 - a2 - a3) by lra.
  generalize (mv B (cw 0%nat)), (mv B (cw 1%nat)), (mv B (cw 2%nat)), (mv B (cw 3%nat)). clear. intros. lring.
Qed.
(** and every four points are the images of the control points under one *)
Lemma affine_of cw q : frame cw -> exists B s, forall k, (k < 4)%nat -> q k = vadd (mv B (cw k)) s.
Proof.
  intro F. apply frame_det in F. set (B := mmul (e_CC q) (minv (e_CC cw))).
  exists B, (vsub (q 0%nat) (mv B (cw 0%nat))).
  assert (D : forall j, (j < 3)%nat -> mv B (vsub (cw (S j)) (cw 0%nat)) = vsub (q (S j)) (q 0%nat)).
  { intros j Hj. assert (E : forall w, vsub (w (S j)) (w 0%nat) = mv (e_CC w) (V3 (delta j 0) (delta j 1) (delta j 2))).
    { intro w. unfold e_CC, delta. vcase Hj; cbn [Nat.eq_dec]; destruct (w 0%nat) as [x0 y0 z0], (w 1%nat) as [x1 y1 z1], (w 2%nat) as [x2 y2 z2], (w 3%nat) as [x3 y3 z3];
        repeat destruct (Nat.eq_dec _ _); try lia; lunf; f_equal; ring. }
    rewrite (E cw), (E q). unfold B. rewrite mv_mmul, minv_mv; auto. }
  intros k Hk. destruct k as [|k].
  - generalize (mv B (cw 0%nat)). destruct (q 0%nat) as [x y z]. intros [a b c]. lunf. f_equal; ring.
  - pose proof (D k ltac:(lia)) as E. rewrite mv_sub in E. revert E. generalize (mv B (cw (S k))), (mv B (cw 0%nat)), (q (S k)), (q 0%nat).
    intros [x0 y0 z0] [x1 y1 z1] [x2 y2 z2] [x3 y3 z3]. lunf. intro E. injection E; intros. f_equal; lra.
Qed.

Lemma mvec_row cw l d x r : (r < 2 * length l)%nat ->
  let c := nth (Nat.div2 r) l d in let q := e_pc cw (blk x) (e_p c) in
  mvec 12 (e_M cw l d) x r = if Nat.even r then vx q - e_u c * vz q else vy q - e_v c * vz q.
Proof.
  intros Hr c q. unfold mvec, vdot, e_M. fold c. destruct (Nat.even r).
  - cbn [sumn]. cbn -[e_alpha e_u e_v e_pc blk Rmult Rplus Rminus]. unfold q, e_pc. cbn [blk vadd vscale vx vy vz Nat.mul Nat.add]. ring.
  - cbn [sumn]. cbn -[e_alpha e_u e_v e_pc blk Rmult Rplus Rminus]. unfold q, e_pc. cbn [blk vadd vscale vx vy vz Nat.mul Nat.add]. ring.
Qed.

(** A vector solves the system exactly when the four points it holds move every
    point onto the line of its bearing vector. *)
Theorem C66_linear_system : forall cw l d x, (forall c, In c l -> vz (e_f c) <> 0) ->
  null (2 * length l) (e_M cw l d) x <-> (forall c, In c l -> exists s, e_pc cw (blk x) (e_p c) = vscale s (e_f c)).
Proof.
  intros cw l d x Hz. split.
  - intros H c Hc. destruct (In_nth l c d Hc) as (i & Hi & E).
    pose proof (H (2 * i)%nat ltac:(lia)) as H1. pose proof (H (2 * i + 1)%nat ltac:(lia)) as H2.
    rewrite mvec_row in H1 by lia. rewrite mvec_row in H2 by lia. cbv zeta in H1, H2.
    rewrite Nat.div2_double in H1. replace (2 * i + 1)%nat with (S (2 * i)) in H2 by lia. rewrite Nat.div2_succ_double in H2.
    rewrite E in H1, H2. rewrite Nat.even_mul in H1. cbn [Nat.even orb] in H1. rewrite Nat.even_succ, <- Nat.negb_even, Nat.even_mul in H2. cbn [Nat.even orb negb] in H2.
    set (q := e_pc cw (blk x) (e_p c)) in *. clearbody q. specialize (Hz c Hc). exists (vz q / vz (e_f c)).
    unfold e_u, e_v in H1, H2. destruct q as [a b e], (e_f c) as [f g h]. cbn [vx vy vz] in *. lunf. f_equal; [| |now field].
    + replace a with (f / h * e) by lra. field. auto.
    + replace b with (g / h * e) by lra. field. auto.
  - intros H r Hr. rewrite mvec_row by auto. cbv zeta. set (c := nth (Nat.div2 r) l d).
    assert (Hc : In c l). { apply nth_In. apply Nat.div2_decr in Hr || idtac. pose proof (Nat.div2_odd r) as O. destruct (Nat.odd r); cbn in O; lia. }
    destruct (H c Hc) as (s & E). rewrite E. specialize (Hz c Hc). unfold e_u, e_v. destruct (e_f c) as [f g h]. cbn [vscale vx vy vz] in *.
    destruct (Nat.even r); field; auto.
Qed.

Lemma blk_flat q k : (k < 4)%nat -> blk (flat q) k = q k.
Proof.
  intro H. unfold blk, flat. rewrite (Nat.mul_comm 3 k), Nat.div_mul, Nat.mod_mul by lia.
  rewrite (Nat.add_comm (k * 3) 1), (Nat.add_comm (k * 3) 2), !Nat.div_add, !Nat.mod_add by lia. cbn. destruct (q k) as [a b c]. reflexivity.
Qed.
Lemma e_pc_ext cw q q' p : (forall k, (k < 4)%nat -> q k = q' k) -> e_pc cw q p = e_pc cw q' p.
Proof. intro H. unfold e_pc. now rewrite !H by lia. Qed.

Lemma sees_line A t l : rotation A -> sees A t l -> forall c, In c l -> exists d, 0 < d /\ vadd (mv (mT A) (e_p c)) (mv (mneg (mT A)) t) = vscale d (e_f c).
Proof.
  intros HA H c Hc. destruct (H c Hc) as (d & Hd & E). exists d. split; auto. rewrite E, mv_add, mv_scale, rot_T_mv by auto.
  unfold mneg. rewrite mv_mscale. generalize (mv (mT A) t). intros [x y z]. destruct (e_f c) as [a b e]. lunf. f_equal; ring.
Qed.

(** The control points in the true camera frame solve it. *)
Theorem C66_true_pose_solves : forall A t cw l d, rotation A -> frame cw -> sees A t l -> (forall c, In c l -> vz (e_f c) <> 0) ->
  null (2 * length l) (e_M cw l d) (flat (fun k => mv (mT A) (vsub (cw k) t))).
Proof.
  intros A t cw l d HA F S Hz. apply C66_linear_system; auto. intros c Hc. destruct (sees_line A t l HA S c Hc) as (s & _ & E). exists s.
  rewrite <- E, <- (e_pc_affine cw (e_p c) _ _ F). apply e_pc_ext. intros k Hk. rewrite blk_flat by auto.
  rewrite mv_sub. unfold mneg. rewrite mv_mscale. generalize (mv (mT A) (cw k)), (mv (mT A) t). intros. lring.
Qed.

(** The solutions of M x = 0 are those of M^T M x = 0, which is what the code
    decomposes. *)
Theorem C66_normal_matrix : forall n M x, null 12 (e_MtM n M) x <-> null n M x.
Proof.
  intros n M x. assert (E : forall i, mvec 12 (e_MtM n M) x i = sumn n (fun r => M r i * mvec 12 M x r)).
  { intro i. unfold mvec, vdot, e_MtM. rewrite (sumn_ext 12 _ (fun j => sumn n (fun r => M r i * (M r j * x j)))).
    2:{ intros j _. rewrite Rmult_comm, <- sumn_scale. apply sumn_ext. intros; ring. }
    rewrite sumn_swap. apply sumn_ext. intros r _. now rewrite sumn_scale. }
  split.
  - intros H. refine (vdot_zero n (mvec 12 M x) _). unfold vdot at 1. transitivity (vdot 12 x (mvec 12 (e_MtM n M) x)).
    + unfold vdot. rewrite (sumn_ext 12 _ (fun i => sumn n (fun r => x i * (M r i * mvec 12 M x r)))) by (intros i _; rewrite E, <- sumn_scale; reflexivity).
      rewrite sumn_swap. apply sumn_ext. intros r _. unfold mvec at 1, vdot. rewrite Rmult_comm, <- sumn_scale. apply sumn_ext. intros i _. unfold mvec, vdot. ring.
    + apply sumn_0. intros i Hi. rewrite H by auto. ring.
  - intros H i Hi. rewrite E. apply sumn_0. intros r Hr. rewrite H by auto. ring.
Qed.

(** * C67: the distance equations *)
Theorem C67_distances : forall U cw b i, (i < 6)%nat ->
  gn_b (e_L U) (e_rho cw) b i =
    norm2 (vsub (cw (pair_a i)) (cw (pair_b i))) - norm2 (vsub (e_cc U b (pair_a i)) (e_cc U b (pair_b i))).
Proof.
  intros U cw b i Hi. unfold gn_b. f_equal.
  - unfold e_rho, dist2, norm2, dot. vcase Hi; cbn [pair_a pair_b vsub vx vy vz]; ring.
  - unfold e_L, e_dv, e_cc. generalize (pair_a i), (pair_b i). intros p q.
    generalize (blk (e_nv U 0) p) (blk (e_nv U 1) p) (blk (e_nv U 2) p) (blk (e_nv U 3) p) (blk (e_nv U 0) q) (blk (e_nv U 1) q) (blk (e_nv U 2) q) (blk (e_nv U 3) q).
    intros. destruct b as [x y z w]. cbn [b0 b1 b2 b3]. unfold norm2, dot. cbn [vsub vadd vscale Lin.v0 vx vy vz]. ring.
Qed.
(** the pairs are all six pairs of control points *)
Theorem C67_all_pairs : forall a b, (a < b)%nat -> (b < 4)%nat -> exists i, (i < 6)%nat /\ pair_a i = a /\ pair_b i = b.
Proof.
  intros a b H1 H2. destruct b as [|[|[|[|]]]]; try lia; destruct a as [|[|[|]]]; try lia;
    [exists 0%nat|exists 1%nat|exists 3%nat|exists 2%nat|exists 4%nat|exists 5%nat]; cbn; lia.
Qed.
(** The matrix of the Gauss-Newton step is the exact derivative: what is left
    over is of second order. *)
Definition bmove (b : betas) (s : R) (d : betas) : betas := B4 (b0 b + s * b0 d) (b1 b + s * b1 d) (b2 b + s * b2 d) (b3 b + s * b3 d).
Theorem C67_derivative : forall L rho b d i, (i < 6)%nat -> exists c, forall s,
  gn_b L rho (bmove b s d) i =
    gn_b L rho b i - s * (gn_A L b i 0%nat * b0 d + gn_A L b i 1%nat * b1 d + gn_A L b i 2%nat * b2 d + gn_A L b i 3%nat * b3 d) + s * s * c.
Proof.
  intros L rho b d i _. exists (gn_b L (fun _ => 0) d i). intro s. unfold gn_b, gn_A, bmove. cbn [b0 b1 b2 b3]. ring.
Qed.

(** * C69: planar scenes *)
Lemma e_cov_eq l : e_cov l = msum (map (fun c => outer (vsub (e_p c) (e_c0 l)) (vsub (e_p c) (e_c0 l))) l).
Proof. unfold e_cov. rewrite cross_cov_eq. unfold cov, centred. rewrite !map_map. reflexivity. Qed.
Lemma quad_sum {X} (f : X -> vec3) n l : dot n (mv (msum (map (fun c => outer (f c) (f c)) l)) n) = rsum (map (fun c => dot n (f c) * dot n (f c)) l).
Proof.
  induction l as [|c l IH]; cbn [map]; [rewrite msum_nil, rsum_nil; destruct n as [a b c]; lunf; ring|].
  rewrite msum_cons, rsum_cons, mv_madd, dot_add_r, IH, outer_mv, dot_scale_r, (dot_comm (f c) n). reflexivity.
Qed.
Lemma sum_kill {X} (f : X -> vec3) n l : (forall c, In c l -> dot n (f c) = 0) -> mv (msum (map (fun c => outer (f c) (f c)) l)) n = v0.
Proof.
  induction l as [|c l IH]; intro H; cbn [map]; [rewrite msum_nil; destruct n; lring|].
  rewrite msum_cons, mv_madd, IH by (intros; apply H; right; auto). rewrite outer_mv, (dot_comm (f c) n), (H c) by (left; auto). rewrite vscale_0, vadd_0_l. reflexivity.
Qed.
Lemma center_dot n d l : l <> [] -> (forall c, In c l -> dot n (e_p c) = d) -> dot n (e_c0 l) = d.
Proof.
  intros Hl H. pose proof (center_sum (map e_p l) ltac:(destruct l; [easy|discriminate])) as E. rewrite map_length in E. fold (e_c0 l) in E.
  assert (N : 0 < INR (length l)). { apply lt_0_INR. destruct l; [easy|cbn; lia]. }
  assert (S : dot n (vsum (map e_p l)) = INR (length l) * d).
  { clear E N Hl. induction l as [|c l IH]; [cbn [map length INR]; rewrite vsum_nil; lring|]. cbn [map]. rewrite vsum_cons, dot_add_r, IH, (H c) by ((left; reflexivity) || (intros; apply H; right; auto)).
    cbn [length]. rewrite S_INR. ring. }
  rewrite E, dot_scale_r in S. apply Rmult_eq_reg_l with (INR (length l)); lra.
Qed.
Lemma dot_nz n : n <> v0 -> dot n n <> 0.
Proof. intros H E. apply H, norm2_zero, E. Qed.

Lemma e_CC_svd svd3 l U D V : svd3 (e_cov l) = (U, D, V) -> let k i := sqrt (vget D i / INR (length l)) in
  e_CC (e_cw svd3 l) = mmul U (diag (k 0%nat) (k 1%nat) (k 2%nat)).
Proof.
  intros E k. unfold e_CC, e_cw. rewrite E. unfold k. generalize (sqrt (vget D 0 / INR (length l))), (sqrt (vget D 1 / INR (length l))), (sqrt (vget D 2 / INR (length l))).
  intros x y z. generalize (e_c0 l). intros [p q r]. destruct U as [a b c d e f g h i]. lunf. f_equal; ring.
Qed.

Lemma frame_iff svd3 l : is_svd (e_cov l) (svd3 (e_cov l)) -> frame (e_cw svd3 l) <-> ~ coplanar l.
Proof.
  intro S. rewrite frame_det. destruct (svd3 (e_cov l)) as [[U D] V] eqn:E. rewrite (e_CC_svd svd3 l U D V E), det_mmul.
  destruct S as (OU & OV & S1 & S2 & S3 & EC). destruct D as [s1 s2 s3]. cbn [vx vy vz vget] in *.
  pose proof (orth_det_nz U OU) as NU. split.
  - intros N (n & d & Nn & Hn). assert (Hl : l <> []).
    { intros ->. apply N. cbn [length INR]. unfold Rdiv. rewrite Rinv_0, !Rmult_0_r, sqrt_0. lunf. ring. }
    assert (Z : mv (e_cov l) n = v0).
    { rewrite e_cov_eq. apply sum_kill. intros c Hc. rewrite dot_sub_r, (Hn c Hc), (center_dot n d l Hl Hn). ring. }
    assert (s3 = 0).
    { destruct (Req_dec s3 0) as [|P]; auto. exfalso. apply Nn. rewrite EC, mv_mmul, mv_mmul in Z.
      assert (W : mv (diag s1 s2 s3) (mv (mT V) n) = v0). { apply (mv_inj U); [exact NU|]. now rewrite Z, mv_0. }
      assert (W2 : mv (mT V) n = v0).
      { apply (mv_inj (diag s1 s2 s3)); [|now rewrite W, mv_0]. unfold det, diag. cbn.
        assert (0 < s1 * s2 * s3) by (repeat apply Rmult_lt_0_compat; lra). intro Q. ring_simplify in Q. lra. }
      apply (mv_inj (mT V)); [apply orth_det_nz, orth_T, OV|]. now rewrite W2, mv_0. }
    apply N. subst s3. unfold Rdiv. rewrite Rmult_0_l, sqrt_0. lunf. ring.
  - intros NC Q. apply NC. assert (P : s3 = 0).
    { destruct (Req_dec s3 0) as [|P]; auto. exfalso.
      assert (Hl : l <> []). { intros ->. apply NC. exists (V3 1 0 0), 0. split; [intro W; injection W; lra|intros c []]. }
      assert (0 < INR (length l)). { apply lt_0_INR. destruct l; [easy|cbn; lia]. }
      apply Rmult_integral in Q. destruct Q as [|Q]; [contradiction|].
      assert (K : forall s, s >= s3 -> 0 < sqrt (s / INR (length l))). { intros s Hs. apply sqrt_lt_R0, Rdiv_lt_0_compat; lra. }
      pose proof (K s1 ltac:(lra)). pose proof (K s2 ltac:(lra)). pose proof (K s3 ltac:(lra)). revert Q. unfold det, diag. cbn.
      set (x := sqrt (s1 / _)) in *. set (y := sqrt (s2 / _)) in *. set (z := sqrt (s3 / _)) in *. intro Q.
      assert (0 < x * y * z) by (repeat apply Rmult_lt_0_compat; lra). ring_simplify in Q. lra. }
    subst s3. set (n := mv V (V3 0 0 1)). assert (Z : mv (e_cov l) n = v0).
    { rewrite EC, !mv_mmul. unfold n. rewrite <- (mv_mmul (mT V) V), OV, mv_id. replace (mv (diag s1 s2 0) (V3 0 0 1)) with v0 by lring. apply mv_0. }
    exists n, (dot n (e_c0 l)). split.
    + intro W. assert (W2 : V3 0 0 1 = v0) by (apply (mv_inj V); [apply orth_det_nz, OV|fold n; now rewrite W, mv_0]). injection W2. lra.
    + intros c Hc. assert (Q2 : dot n (mv (e_cov l) n) = 0) by (rewrite Z; destruct n as [a b e]; lunf; ring).
      rewrite e_cov_eq, quad_sum in Q2.
      assert (Q3 : dot n (vsub (e_p c) (e_c0 l)) * dot n (vsub (e_p c) (e_c0 l)) = 0).
      { apply (rsum_zero _ ltac:(intros x Hx; apply in_map_iff in Hx; destruct Hx as (? & <- & _); apply sq_nonneg) Q2).
        apply in_map_iff. exists c. auto. }
      assert (Q4 : dot n (vsub (e_p c) (e_c0 l)) = 0) by nra. rewrite dot_sub_r in Q4. lra.
Qed.

(** The four control points span space exactly when the points are not in one
    plane. *)
Theorem C69_control_points : forall svd3 l, is_svd (e_cov l) (svd3 (e_cov l)) -> (frame (e_cw svd3 l) <-> ~ coplanar l).
Proof. exact frame_iff. Qed.
(** No pose comes out for a planar scene, whatever the rest of the input *)
Theorem C69_coplanar : forall svd3 svd12 solve a1 a2 junk l, is_svd (e_cov l) (svd3 (e_cov l)) -> coplanar l ->
  epnp svd3 svd12 solve a1 a2 junk l = None.
Proof.
  intros svd3 svd12 solve a1 a2 junk l S C. unfold epnp, compute_pose. destruct (existsb _ _); [reflexivity|].
  destruct (Req_EM_T (det (e_CC (e_cw svd3 l))) 0) as [|N]; [reflexivity|]. exfalso.
  apply frame_det in N. apply (frame_iff svd3 l S) in N. contradiction.
Qed.
(** although such a scene determines the pose. *)
Definition square : list ecorr := map (fun p => EC p p) [V3 1 1 5; V3 (-1) 1 5; V3 (-1) (-1) 5; V3 1 (-1) 5; V3 0 0 5; V3 1 0 5].
Theorem C69_coplanar_refuted : exists l A t, length l = 6%nat /\ rotation A /\ sees A t l
  /\ (forall A' t', rotation A' -> sees A' t' l -> A' = A /\ t' = t)
  /\ forall svd3 svd12 solve a1 a2 junk, (forall H, is_svd H (svd3 H)) -> epnp svd3 svd12 solve a1 a2 junk l = None.
Proof.
  exists square, mid, v0. split; [reflexivity|]. split; [exact rot_id|]. split; [|split].
  - intros c Hc. exists 1. split; [lra|]. apply in_map_iff in Hc. destruct Hc as (p & <- & _). cbn [e_p e_f]. rewrite mv_id, vscale_1, vadd_0_l. reflexivity.
  - intros A t HA S.
    assert (Q : forall p, In p [V3 1 1 5; V3 (-1) 1 5; V3 (-1) (-1) 5; V3 1 (-1) 5] -> exists d, 0 < d /\ mv (mT A) (vsub p t) = vscale d p).
    { intros p Hp. destruct (S (EC p p)) as (d & Hd & E).
      { apply in_map_iff. exists p. split; [reflexivity|]. cbn in Hp |- *. tauto. }
      cbn [e_p e_f] in E. exists d. split; auto. rewrite E at 1. rewrite (vadd_comm t), vadd_sub, mv_scale, rot_T_mv by auto. reflexivity. }
    destruct (Q (V3 1 1 5) ltac:(cbn; auto)) as (d1 & P1 & E1). destruct (Q (V3 (-1) 1 5) ltac:(cbn; auto)) as (d2 & P2 & E2).
    destruct (Q (V3 (-1) (-1) 5) ltac:(cbn; auto)) as (d3 & P3 & E3). destruct (Q (V3 1 (-1) 5) ltac:(cbn; auto)) as (d4 & P4 & E4).
    assert (G : d1 = d2 /\ d2 = d3 /\ d3 = d4).
    { rewrite mv_sub in E1, E2, E3, E4. revert E1 E2 E3 E4. generalize (mv (mT A) t). intros [a b c]. destruct A as [x0 x1 x2 x3 x4 x5 x6 x7 x8]. clear. lunf.
      intros E1 E2 E3 E4. injection E1; injection E2; injection E3; injection E4; intros. lra. }
    destruct G as (-> & -> & ->).
    assert (D : forall p q d, mv (mT A) (vsub p t) = vscale d p -> mv (mT A) (vsub q t) = vscale d q -> mv (mT A) (vsub p q) = vscale d (vsub p q)).
    { intros p q d Ep Eq. rewrite vscale_sub, <- Ep, <- Eq, <- mv_sub. f_equal. lring. }
    pose proof (D _ _ _ E1 E2) as D1. pose proof (D _ _ _ E1 E4) as D2.
    assert (One : d4 = 1).
    { pose proof (rot_norm2 (mT A) (vsub (V3 1 1 5) (V3 (-1) 1 5)) (rot_T A HA)) as N. rewrite D1, norm2_scale in N.
      assert (N2 : norm2 (vsub (V3 1 1 5) (V3 (-1) 1 5)) = 4) by (lunf; ring). rewrite N2 in N. nra. }
    subst d4. rewrite vscale_1 in D1, D2.
    assert (I : mT A = mid). { apply (rot_agree_two _ _ (vsub (V3 1 1 5) (V3 (-1) 1 5)) (vsub (V3 1 1 5) (V3 1 (-1) 5))); try rewrite mv_id; auto using rot_T, rot_id.
      intro W. revert W. lunf. intro W. injection W. lra. }
    assert (I2 : A = mid) by (rewrite <- (mT_mT A), I; apply mT_id). split; auto. subst A. rewrite I, mv_id in E1. clear -E1. destruct t as [a b c]. revert E1. lunf.
    intro E. injection E; intros. f_equal; lra.
  - intros. apply C69_coplanar; auto. exists (V3 0 0 1), 5. split; [intro W; injection W; lra|].
    intros c Hc. cbn in Hc. repeat destruct Hc as [<-|Hc]; try contradiction; lunf; cbn [e_p vx vy vz]; ring.
Qed.

(** * C68: the true pose is recovered *)
Lemma rep_term_nonneg T c x : rep_term T c = Fin x -> 0 <= x.
Proof. unfold rep_term. repeat destruct (Req_EM_T _ _); try discriminate. intro E. injection E as <-. apply sqrt_pos. Qed.
Lemma rep_sum_nonneg T l : forall s x, 0 <= s -> fold_left (fun s c => fadd s (rep_term T c)) l (Fin s) = Fin x -> s <= x.
Proof.
  assert (B : forall l e, e = Inf \/ e = NaN -> forall x, fold_left (fun s c => fadd s (rep_term T c)) l e <> Fin x).
  { induction l0 as [|c l0 IH]; intros e He x; cbn [fold_left]; [destruct He; subst; discriminate|]. apply IH.
    destruct He; subst; destruct (rep_term T c); cbn; auto. }
  induction l as [|c l IH]; intros s x Hs; cbn [fold_left]; [intro E; injection E as <-; lra|].
  destruct (rep_term T c) as [y| |] eqn:E; cbn [fadd]; [|intro W; destruct (B l Inf (or_introl eq_refl) x W)|intro W; destruct (B l NaN (or_intror eq_refl) x W)].
  intro W. pose proof (rep_term_nonneg T c y E). pose proof (IH (s + y) x ltac:(lra) W). lra.
Qed.
Lemma rep_error_nonneg T l x : rep_error T l = Fin x -> 0 <= x.
Proof.
  unfold rep_error. destruct (fold_left _ _ _) as [y| |] eqn:E; try discriminate. intro W. injection W as <-.
  pose proof (rep_sum_nonneg T l 0 y ltac:(lra) E). apply Rmult_le_pos; [auto|]. destruct l; [cbn; rewrite Rinv_0; lra|].
  apply Rlt_le, Rinv_0_lt_compat, lt_0_INR. cbn. lia.
Qed.
Lemma candidate_not_below svd3 cw l U b : flt (snd (e_candidate svd3 cw l U b)) (Fin 0) = false.
Proof.
  destruct b as [b|]; cbn [e_candidate snd]; [|reflexivity]. destruct (rep_error _ _) as [x| |] eqn:E; try reflexivity.
  cbn. apply rep_error_nonneg in E. destruct (Rlt_dec x 0); [lra|reflexivity].
Qed.
Lemma rep_term_exact T c : vz (e_f c) <> 0 -> (exists d, d <> 0 /\ vadd (mv (fst T) (e_p c)) (snd T) = vscale d (e_f c)) -> rep_term T c = Fin 0.
Proof.
  intros Hz (d & Hd & E). unfold rep_term. rewrite E. unfold e_u, e_v. destruct (e_f c) as [x y z]. cbn [vscale vx vy vz] in *.
  destruct (Req_EM_T (d * z) 0) as [W|_]; [apply Rmult_integral in W; tauto|]. cbv zeta. f_equal. transitivity (sqrt 0); [f_equal; field; auto|apply sqrt_0].
Qed.

(** estimate_R_and_t is the alignment of arun_complete with the roles of U and
    V exchanged *)
Definition flip_svd (svd : svd_t) : svd_t := fun H => let '(U, s, V) := svd (mT H) in (V, s, U).
Lemma flip_svd_ok svd : (forall H, is_svd H (svd H)) -> forall H, is_svd H (flip_svd svd H).
Proof.
  intros S H. unfold flip_svd. specialize (S (mT H)). destruct (svd (mT H)) as [[U s] V]. destruct S as (OU & OV & S1 & S2 & S3 & E).
  repeat split; auto. rewrite <- (mT_mT H), E, !mT_mmul, mT_mT, mmul_assoc. f_equal.
Qed.
Lemma estimate_arun svd l : estimate svd l = threept_arun (flip_svd svd) l.
Proof.
  unfold estimate, threept_arun, arun_complete, arun, flip_svd.
  set (c1 := center (map fst l)). set (c2 := center (map snd l)).
  assert (E : mT (cross_cov l c1 c2) = fold_left (fun H p => madd H (outer (vsub (fst p) c1) (vsub (snd p) c2))) l mzero).
  { unfold cross_cov. generalize c1 c2. clear. intros c1 c2. assert (Z : mT mzero = mzero) by reflexivity.
    transitivity (fold_left (fun H p => madd H (outer (vsub (fst p) c1) (vsub (snd p) c2))) l (mT mzero)); [|now rewrite Z].
    generalize mzero. induction l as [|p l IH]; intro H; cbn [fold_left]; [reflexivity|]. rewrite IH. f_equal.
    generalize (vsub (fst p) c1) (vsub (snd p) c2). intros. lring. }
  rewrite E. destruct (svd _) as [[U s] V].
  assert (F : mmul (of_cols (col U 0) (col U 1) (vneg (col U 2))) (mT V) = mmul U (mT (of_cols (col V 0) (col V 1) (vneg (col V 2))))).
  { rewrite !flip_cols, mT_mmul, mmul_assoc. f_equal. }
  destruct (Rlt_dec _ _); [now rewrite F|reflexivity].
Qed.

(** the spec of a unique solution up to scale excludes planar scenes *)
Lemma unique_not_coplanar A t l : rotation A ->
  (forall B s, on_lines B s l -> exists k, B = mscale k (mT A) /\ s = vscale k (mv (mneg (mT A)) t)) -> ~ coplanar l.
Proof.
  intros HA Hu (n & d & Nn & Hn). destruct (Hu (outer (V3 1 0 0) n) (vscale (- d) (V3 1 0 0))) as (k & E & _).
  { intros c Hc. exists 0. rewrite outer_mv, (Hn c Hc), vscale_0, <- vscale_add_l. replace (d + - d) with 0 by ring. apply vscale_0. }
  assert (D : det (outer (V3 1 0 0) n) = 0) by (destruct n as [a b c]; lunf; ring).
  rewrite E, det_mscale, det_mT in D. destruct HA as [_ HA]. rewrite HA in D.
  assert (k = 0). { assert (k * k * k = 0) by lra. destruct (Req_dec k 0) as [|N]; auto. exfalso. apply (Rmult_integral_contrapositive_currified (k * k) k); auto using Rmult_integral_contrapositive_currified. }
  subst k. apply Nn. destruct n as [a b c]. revert E. generalize (mT A). intros [x0 x1 x2 x3 x4 x5 x6 x7 x8]. lunf. intro E. injection E; intros. f_equal; lra.
Qed.
Lemma perp_exists v : exists n, n <> v0 /\ dot n v = 0.
Proof.
  destruct v as [a b c]. destruct (Req_dec a 0) as [->|N].
  - exists (V3 1 0 0). split; [intro W; injection W; lra|lunf; ring].
  - exists (V3 (- b) a 0). split; [intro W; injection W; lra|lunf; ring].
Qed.
Lemma not_coplanar_three l : ~ coplanar l -> exists p q r, In p l /\ In q l /\ In r l /\ ~ collinear3 (e_p p) (e_p q) (e_p r).
Proof.
  intro NC. destruct (Classical_Prop.classic (exists p q r, In p l /\ In q l /\ In r l /\ ~ collinear3 (e_p p) (e_p q) (e_p r))) as [|N]; auto. exfalso. apply NC.
  assert (H : forall p q r, In p l -> In q l -> In r l -> collinear3 (e_p p) (e_p q) (e_p r)).
  { intros p q r Hp Hq Hr. destruct (Classical_Prop.classic (collinear3 (e_p p) (e_p q) (e_p r))); auto. exfalso. apply N. eauto 10. }
  destruct l as [|p l]; [exists (V3 1 0 0), 0; split; [intro W; injection W; lra|intros c []]|].
  destruct (Classical_Prop.classic (exists q, In q l /\ e_p q <> e_p p)) as [(q & Hq & Nq)|Nq].
  - set (v := vsub (e_p q) (e_p p)). destruct (perp_exists v) as (n & Nn & On). exists n, (dot n (e_p p)). split; auto. intros r Hr.
    pose proof (H p q r (or_introl eq_refl) (or_intror Hq) Hr) as C. unfold collinear3 in C. fold v in C.
    assert (Nv : v <> v0). { intro W. apply Nq. unfold v in W. destruct (e_p q) as [a b c], (e_p p) as [a' b' c']. revert W. lunf. intro W. injection W; intros. f_equal; lra. }
    assert (K : dot v v * dot n (vsub (e_p r) (e_p p)) = 0).
    { transitivity (dot v (vsub (e_p r) (e_p p)) * dot n v); [|rewrite On; ring]. set (w := vsub (e_p r) (e_p p)) in *. clearbody w v.
      assert (K : dot n (cross v (cross v w)) = 0) by (rewrite C; clear; destruct n as [a b c], v as [d e f]; lunf; ring).
      rewrite cross_cross, dot_sub_r, !dot_scale_r in K. lra. }
    apply Rmult_integral in K. destruct K as [K|K]; [exfalso; now apply (dot_nz v)|]. rewrite dot_sub_r in K. lra.
  - exists (V3 1 0 0), (dot (V3 1 0 0) (e_p p)). split; [intro W; injection W; lra|]. intros c [<-|Hc]; auto.
    destruct (Classical_Prop.classic (e_p c = e_p p)) as [->|W]; auto. exfalso. apply Nq. eauto.
Qed.

Lemma gn_fixed a1 a2 L rho b : (forall i, (i < 6)%nat -> gn_b L rho b i = 0) ->
  forall X, (forall j, (j < 4)%nat -> X j = 0) \/ qr_factor 6 4 (QrSt (gn_A L b) a1 a2) <> None ->
  let X' := qr_solve 6 4 (gn_A L b) a1 a2 (gn_b L rho b) X in forall j, (j < 4)%nat -> X' j = 0.
Proof.
  intros Hb X HX. cbv zeta.
  assert (LS : least_squares 6 4 (gn_A L b) (gn_b L rho b) (qr_solve 6 4 (gn_A L b) a1 a2 (gn_b L rho b) X) ->
    forall j, (j < 4)%nat -> qr_solve 6 4 (gn_A L b) a1 a2 (gn_b L rho b) X j = 0).
  { intros LS j Hj. destruct (LS (fun _ => 0)) as [_ H]. symmetry. apply H; auto.
    assert (Z : misfit 6 4 (gn_A L b) (gn_b L rho b) (fun _ => 0) = 0).
    { apply sumn_0. intros i Hi. rewrite Hb, sumn_0 by (auto; intros; ring). ring. }
    rewrite Z. apply sumn_nonneg. intros. apply pow2_ge_0. }
  destruct (C64_least_squares 6 4 (gn_A L b) a1 a2 (gn_b L rho b) X ltac:(lia)) as [E|E]; [|auto].
  destruct HX as [HX|HX]; [intros; rewrite E; auto|]. apply LS. unfold qr_solve. destruct (qr_factor 6 4 (QrSt (gn_A L b) a1 a2)) as [s|] eqn:F; [|congruence].
  exact (qr_some_ls 6 4 _ a1 a2 _ X s ltac:(lia) F).
Qed.
Lemma gauss_newton_fixed a1 a2 junk L rho b : (forall i, (i < 6)%nat -> gn_b L rho b i = 0) ->
  (forall j, (j < 4)%nat -> junk j = 0) \/ qr_factor 6 4 (QrSt (gn_A L b) a1 a2) <> None ->
  gauss_newton a1 a2 junk L rho b = b.
Proof.
  intros Hb HX. unfold gauss_newton.
  assert (S : forall X, (forall j, (j < 4)%nat -> X j = 0) \/ qr_factor 6 4 (QrSt (gn_A L b) a1 a2) <> None ->
    exists X', gn_step a1 a2 L rho (b, X) = (b, X') /\ forall j, (j < 4)%nat -> X' j = 0).
  { intros X HX'. pose proof (gn_fixed a1 a2 L rho b Hb X HX') as Z. cbv zeta in Z.
    exists (qr_solve 6 4 (gn_A L b) a1 a2 (gn_b L rho b) X). split; [|exact Z]. unfold gn_step. f_equal. rewrite !Z by lia. destruct b as [x y z w]. cbn [b0 b1 b2 b3]. f_equal; ring. }
  assert (I : forall n, exists X, Nat.iter n (gn_step a1 a2 L rho) (b, junk) = (b, X) /\ ((forall j, (j < 4)%nat -> X j = 0) \/ qr_factor 6 4 (QrSt (gn_A L b) a1 a2) <> None)).
  { induction n as [|n (X & E & H)]; [exists junk; split; [reflexivity|exact HX]|]. cbn [Nat.iter nat_rect]. destruct (S X H) as (X' & E' & H'). exists X'. split; [|now left].
    unfold Nat.iter in E |- *. cbn [nat_rect]. rewrite E. exact E'. }
  destruct (I 5%nat) as (X & E & _). rewrite E. reflexivity.
Qed.

(** The last column of U for every singular value decomposition of M^T M: a
    nonzero solution of the system, if there is one. *)
Theorem C68_null_vector : forall n M U s V x, is_gsvd 12 12 (e_MtM n M) U s V -> null n M x -> (exists j, (j < 12)%nat /\ x j <> 0) ->
  null n M (gcol U 11) /\ exists j, (j < 12)%nat /\ U j 11%nat <> 0.
Proof.
  intros n M U s V x S Hx Nx.
  assert (S' : is_gsvd 12 12 (e_MtM n M) V s U).
  { destruct S as [OU OV SP SS SE]. constructor; auto. intros i j Hi Hj.
    transitivity (e_MtM n M j i); [apply sumn_ext; intros; ring|]. rewrite (SE j i Hj Hi). apply sumn_ext. intros; ring. }
  split; [|exact (gsvd_col_nonzero 12 12 _ V U s S' 11 ltac:(lia))].
  apply C66_normal_matrix. intros r Hr. apply (gsvd_last_kernel 12 12 (e_MtM n M) V U s S' x); auto; [lia|].
  intros i Hi. apply (proj2 (C66_normal_matrix n M x) Hx i Hi).
Qed.

Lemma nth_combine_map {X} (f g : X -> vec3) l : combine (map f l) (map g l) = map (fun c => (f c, g c)) l.
Proof. induction l as [|c l IH]; [reflexivity|]. cbn [map combine]. now rewrite IH. Qed.

Section Recover.
Variables (svd3 : svd_t) (A : mat3) (t : vec3) (l : list ecorr) (U : nat -> nat -> R).
Hypothesis S3 : forall H, is_svd H (svd3 H).
Hypothesis HA : rotation A.
Hypothesis HS : sees A t l.
Hypothesis Hz : forall c, In c l -> vz (e_f c) <> 0.
Hypothesis NC : ~ coplanar l.
Let cw := e_cw svd3 l.
Let tc : vec3 := mv (mneg (mT A)) t.
Let pc (p : vec3) : vec3 := vadd (mv (mT A) p) tc.
Let F : frame cw. Proof. apply frame_iff; auto. Qed.

(** coefficients that give the true control points or their negatives *)
Lemma pose_of_points cc e : e = 1 \/ e = -1 -> (forall k, (k < 4)%nat -> cc k = vscale e (pc (cw k))) ->
  e_pose svd3 cw l cc = (mT A, tc).
Proof.
  intros He Hc. unfold e_pose.
  assert (P : map (fun c => e_pc cw cc (e_p c)) l = map (fun c => vscale e (pc (e_p c))) l).
  { apply map_ext. intro c. transitivity (e_pc cw (fun k => vadd (mv (mscale e (mT A)) (cw k)) (vscale e tc)) (e_p c)).
    - apply e_pc_ext. intros k Hk. rewrite Hc by auto. unfold pc. rewrite vscale_add, mv_mscale. reflexivity.
    - rewrite (e_pc_affine cw _ _ _ F). unfold pc. rewrite vscale_add, mv_mscale. reflexivity. }
  assert (Q : e_pcs cw l cc = map (fun c => pc (e_p c)) l).
  { unfold e_pcs. rewrite P. clear P Hc. destruct l as [|c l']; [reflexivity|]. cbn [map sign_fix].
    destruct (sees_line A t _ HA HS c (or_introl eq_refl)) as (d & Hd & E). fold tc in E. change (vadd (mv (mT A) (e_p c)) tc) with (pc (e_p c)) in E.
    assert (G : vz (vscale e (pc (e_p c))) = e * (d * vz (e_f c))) by (rewrite E; destruct (e_f c) as [f g h]; reflexivity). rewrite G.
    specialize (Hz c (or_introl eq_refl)). unfold e_sign. 
    assert (One : vscale 1 (pc (e_p c)) :: map (fun c0 => vscale 1 (pc (e_p c0))) l' = pc (e_p c) :: map (fun c0 => pc (e_p c0)) l').
    { rewrite vscale_1. f_equal. apply map_ext. intro. apply vscale_1. }
    assert (MOne : vneg (vscale (-1) (pc (e_p c))) :: map vneg (map (fun c0 => vscale (-1) (pc (e_p c0))) l') = pc (e_p c) :: map (fun c0 => pc (e_p c0)) l').
    { assert (K : forall v, vneg (vscale (-1) v) = v) by (intros [x y z]; lunf; f_equal; ring). rewrite K, map_map. f_equal. apply map_ext. intro. apply K. }
    clear G E. destruct (Rlt_dec 0 (vz (e_f c))) as [P|P].
    - pose proof (Rmult_lt_0_compat d (vz (e_f c)) Hd P) as DP. destruct He as [->| ->].
      + destruct (Rlt_dec (1 * (d * vz (e_f c))) 0); [lra|]. destruct (Rlt_dec 0 (1 * (d * vz (e_f c)))); [|lra]. cbn [Z.ltb Z.compare orb]. exact One.
      + destruct (Rlt_dec (-1 * (d * vz (e_f c))) 0); [|lra]. cbn [Z.ltb Z.compare orb]. exact MOne.
    - assert (DN : d * vz (e_f c) < 0). { assert (0 < d * - vz (e_f c)) by (apply Rmult_lt_0_compat; lra). lra. } destruct He as [->| ->].
      + destruct (Rlt_dec (1 * (d * vz (e_f c))) 0); [|lra]. destruct (Rlt_dec 0 (1 * (d * vz (e_f c)))); [lra|]. cbn [Z.ltb Z.compare orb]. exact One.
      + destruct (Rlt_dec (-1 * (d * vz (e_f c))) 0); [lra|]. destruct (Rlt_dec 0 (-1 * (d * vz (e_f c)))); [|lra]. cbn [Z.ltb Z.compare orb]. exact MOne. }
  rewrite Q, (nth_combine_map (fun c => pc (e_p c)) e_p), estimate_arun. apply C30_recovers_the_motion.
  - now apply flip_svd_ok.
  - now apply rot_T.
  - intros p Hp. apply in_map_iff in Hp. destruct Hp as (c & <- & _). reflexivity.
  - destruct (not_coplanar_three l NC) as (p & q & r & Hp & Hq & Hr & N). exists (pc (e_p p), e_p p), (pc (e_p q), e_p q), (pc (e_p r), e_p r).
    repeat split; auto; apply in_map_iff; eauto.
Qed.
Lemma error_of_pose : rep_error (mT A, tc) l = Fin 0.
Proof.
  unfold rep_error. assert (E : forall l', (forall c, In c l' -> In c l) -> fold_left (fun s c => fadd s (rep_term (mT A, tc) c)) l' (Fin 0) = Fin 0).
  { induction l' as [|c l' IH]; intro H; [reflexivity|]. cbn [fold_left]. rewrite (rep_term_exact (mT A, tc) c).
    - cbn [fadd]. rewrite Rplus_0_l. apply IH. intros; apply H; right; auto.
    - apply Hz, H. left; auto.
    - destruct (sees_line A t l HA HS c (H c (or_introl eq_refl))) as (d & Hd & E). exists d. split; [lra|exact E]. }
  rewrite E by auto. f_equal. unfold Rdiv. ring.
Qed.

(** the null vector is a multiple of the true control points *)
Lemma null_vector_true x : (forall B s, on_lines B s l -> exists k, B = mscale k (mT A) /\ s = vscale k tc) ->
  null (2 * length l) (e_M cw l (EC v0 v0)) x -> (exists j, (j < 12)%nat /\ x j <> 0) ->
  exists k, k <> 0 /\ forall j, (j < 4)%nat -> blk x j = vscale k (pc (cw j)).
Proof.
  intros Hu N Nx. destruct (affine_of cw (blk x) F) as (B & s & HB).
  destruct (Hu B s) as (k & -> & ->).
  { intros c Hc. destruct (proj1 (C66_linear_system cw l (EC v0 v0) x Hz) N c Hc) as (d & E). exists d. rewrite <- E, <- (e_pc_affine cw _ _ _ F). apply e_pc_ext. intros; symmetry; auto. }
  assert (G : forall j, (j < 4)%nat -> blk x j = vscale k (pc (cw j))).
  { intros j Hj. rewrite HB by auto. unfold pc. rewrite vscale_add, mv_mscale. reflexivity. }
  exists k. split; auto. intros ->. destruct Nx as (j & Hj & Nj). apply Nj.
  assert (Z : forall j, (j < 4)%nat -> blk x j = v0) by (intros; rewrite G, vscale_0; auto).
  pose proof (Z 0%nat ltac:(lia)) as Z0. pose proof (Z 1%nat ltac:(lia)) as Z1. pose proof (Z 2%nat ltac:(lia)) as Z2. pose proof (Z 3%nat ltac:(lia)) as Z3.
  unfold blk in Z0, Z1, Z2, Z3. cbn [Nat.mul Nat.add] in Z0, Z1, Z2, Z3. injection Z0; injection Z1; injection Z2; injection Z3; intros. clear Nj. vcase Hj; assumption.
Qed.
End Recover.

(** EPnP returns the true pose for every scene whose affine ambiguity is just
    scale, if the 6x4 system for the first approximation has full rank and the
    inner solver either starts from X = 0 or does not give up. *)
Theorem C68_recovers_pose : forall svd3 svd12 solve a1 a2 junk l A t,
  let cw := e_cw svd3 l in
  let M := e_M cw l (EC v0 v0) in
  let U := svd12 (e_MtM (2 * length l) M) in
  let L4 := fun i j => e_L U i (sel1 j) in
  (forall H, is_svd H (svd3 H)) -> rotation A -> sees A t l -> (forall c, In c l -> vz (e_f c) <> 0) ->
  (forall B s, on_lines B s l -> exists k, B = mscale k (mT A) /\ s = vscale k (mv (mneg (mT A)) t)) ->
  null (2 * length l) M (gcol U 11) -> (exists j, (j < 12)%nat /\ U j 11%nat <> 0) ->
  full_rank 6 4 L4 -> (forall y, misfit 6 4 L4 (e_rho cw) (solve 4%nat L4 (e_rho cw)) <= misfit 6 4 L4 (e_rho cw) y) ->
  (forall j, (j < 4)%nat -> junk 1%nat j = 0) \/ (forall b, 0 < b -> qr_factor 6 4 (QrSt (gn_A (e_L U) (B4 b 0 0 0)) a1 a2) <> None) ->
  epnp svd3 svd12 solve a1 a2 junk l = Some (A, t).
Proof.
  intros svd3 svd12 solve a1 a2 junk l A t cw M U L4 S3 HA HS Hz Hu HN NU FR LS HJ.
  pose proof (unique_not_coplanar A t l HA Hu) as NC.
  assert (F : frame cw) by (apply frame_iff; auto).
  destruct (null_vector_true svd3 A t l S3 Hz NC (gcol U 11) Hu HN NU) as (k & Nk & Hk). fold cw in Hk.
  set (tc := mv (mneg (mT A)) t) in *. set (pc := fun p => vadd (mv (mT A) p) tc). change (forall j, (j < 4)%nat -> blk (e_nv U 0) j = vscale k (pc (cw j))) in Hk.
  (* distances *)
  assert (HR : forall i, (i < 6)%nat -> e_rho cw i = / (k * k) * e_L U i 0%nat).
  { intros i Hi. assert (PA : (pair_a i < 4)%nat) by (vcase Hi; cbn; lia). assert (PB : (pair_b i < 4)%nat) by (vcase Hi; cbn; lia).
    assert (E1 : e_rho cw i = norm2 (vsub (cw (pair_a i)) (cw (pair_b i)))).
    { unfold e_rho, dist2, norm2, dot. clear PA PB. vcase Hi; reflexivity. }
    assert (E2 : e_L U i 0%nat = norm2 (e_dv U 0 i)) by reflexivity.
    rewrite E1, E2. unfold e_dv. rewrite !Hk by auto. rewrite <- vscale_sub, norm2_scale. 
    replace (vsub (pc (cw (pair_a i))) (pc (cw (pair_b i)))) with (mv (mT A) (vsub (cw (pair_a i)) (cw (pair_b i)))).
    2:{ unfold pc. rewrite mv_sub. generalize (mv (mT A) (cw (pair_a i))) (mv (mT A) (cw (pair_b i))). intros. lring. }
    rewrite rot_norm2 by now apply rot_T. field. auto. }
  set (x := solve 4%nat L4 (e_rho cw)) in *.
  set (y := fun j : nat => match j with O => / (k * k) | _ => 0 end).
  assert (MY : misfit 6 4 L4 (e_rho cw) y = 0).
  { apply sumn_0. intros i Hi. rewrite HR by auto. unfold L4. cbn [sumn sel1 y]. ring. }
  assert (MX : misfit 6 4 L4 (e_rho cw) x = 0).
  { apply Rle_antisym; [rewrite <- MY; apply LS|]. apply sumn_nonneg. intros. apply pow2_ge_0. }
  assert (EX : forall i, (i < 6)%nat -> sumn 4 (fun j => L4 i j * x j) - e_rho cw i = 0).
  { intros i Hi. pose proof (sumn_nonneg_zero 6 _ ltac:(intros; apply pow2_ge_0) MX i Hi) as Z. cbn beta in Z. nra. }
  assert (EY : forall i, (i < 6)%nat -> sumn 4 (fun j => L4 i j * y j) - e_rho cw i = 0).
  { intros i Hi. pose proof (sumn_nonneg_zero 6 _ ltac:(intros; apply pow2_ge_0) MY i Hi) as Z. cbn beta in Z. nra. }
  assert (XY : forall j, (j < 4)%nat -> x j = y j).
  { intros j Hj. assert (D : x j - y j = 0); [|lra]. apply (FR (fun j => x j - y j)); auto. intros i Hi.
    rewrite (sumn_ext 4 _ (fun j => L4 i j * x j - L4 i j * y j)) by (intros; ring). rewrite sumn_sub. specialize (EX i Hi). specialize (EY i Hi). lra. }
  clear EX EY MX MY LS.
  assert (KK : 0 < k * k) by nra. set (b := sqrt (/ (k * k))). assert (Pb : 0 < b) by apply sqrt_lt_R0, Rinv_0_lt_compat, KK.
  assert (Eb : b * b = / (k * k)) by (apply sqrt_def, Rlt_le, Rinv_0_lt_compat, KK).
  assert (A1 : approx_1 solve (e_L U) (e_rho cw) = Some (B4 b 0 0 0)).
  { unfold approx_1. fold L4. fold x. rewrite !XY by lia. cbn [y]. fold b. pose proof (Rinv_0_lt_compat _ KK).
    destruct (Req_EM_T (/ (k * k)) 0); [lra|]. destruct (Rlt_dec (/ (k * k)) 0); [lra|]. f_equal. f_equal; unfold Rdiv; ring. }
  assert (GN : gauss_newton a1 a2 (junk 1%nat) (e_L U) (e_rho cw) (B4 b 0 0 0) = B4 b 0 0 0).
  { apply gauss_newton_fixed.
    - intros i Hi. unfold gn_b. cbn [b0 b1 b2 b3]. rewrite HR by auto. rewrite <- Eb. ring.
    - destruct HJ as [HJ|HJ]; [now left|right; auto]. }
  set (e := b * k). assert (He : e = 1 \/ e = -1).
  { assert (e * e = 1). { unfold e. replace (b * k * (b * k)) with (b * b * (k * k)) by ring. rewrite Eb. field. auto. }
    assert ((e - 1) * (e + 1) = 0) by lra. apply Rmult_integral in H0. destruct H0; [left|right]; lra. }
  assert (CC : forall j, (j < 4)%nat -> e_cc U (B4 b 0 0 0) j = vscale e (pc (cw j))).
  { intros j Hj. unfold e_cc. cbn [b0 b1 b2 b3]. rewrite Hk, !vscale_0, !vadd_0_r, vadd_0_l, vscale_scale by auto. reflexivity. }
  pose proof (pose_of_points svd3 A t l S3 HA HS Hz NC _ e He CC) as EP. fold cw in EP.
  unfold epnp, compute_pose. fold cw. fold M. fold U.
  destruct (existsb _ l) eqn:X.
  { apply existsb_exists in X. destruct X as (c & Hc & X). destruct (Req_EM_T (vz (e_f c)) 0); [|discriminate]. now destruct (Hz c Hc). }
  clear X. destruct (Req_EM_T (det (e_CC cw)) 0) as [W|_]; [now apply frame_det in F|].
  rewrite A1. cbn [option_map]. rewrite GN. cbn [e_candidate]. rewrite EP. fold tc.
  pose proof (error_of_pose A t l HA HS Hz) as EE. fold tc in EE. rewrite EE.
  unfold e_choose. cbn [snd]. rewrite !candidate_not_below. cbn [fst].
  rewrite mT_mT. unfold tc. f_equal. f_equal. unfold mneg. rewrite !mv_mscale, mv_scale, rot_mv_T, vscale_scale by auto. replace (-1 * -1) with 1 by ring. apply vscale_1.
Qed.

(** * C70: choice between the candidates, special cases *)
Theorem C70_rotation : forall svd3 svd12 solve a1 a2 junk l A t, (forall H, is_svd H (svd3 H)) ->
  epnp svd3 svd12 solve a1 a2 junk l = Some (A, t) -> rotation A.
Proof.
  intros svd3 svd12 solve a1 a2 junk l A t S3 E. unfold epnp in E.
  destruct (fst (compute_pose svd3 svd12 solve a1 a2 junk l)) as [[B u]|] eqn:C; [|discriminate]. injection E as <- _. apply rot_T.
  assert (K : forall cw U b T, fst (e_candidate svd3 cw l U b) = Some T -> rotation (fst T)).
  { intros cw U b T. destruct b as [b|]; cbn [e_candidate fst]; [|discriminate]. intro W. injection W as <-. unfold e_pose. rewrite estimate_arun.
    unfold threept_arun, arun_complete. cbn [fst]. apply C28_arun_is_rotation, flip_svd_ok, S3. }
  unfold compute_pose in C. destruct (existsb _ _); [discriminate|]. destruct (Req_EM_T _ _); [discriminate|].
  unfold e_choose in C. change B with (fst (B, u)). repeat destruct (flt _ _); exact (K _ _ _ _ C).
Qed.

Lemma rep_sum_terms T l : forall s x, fold_left (fun s c => fadd s (rep_term T c)) l (Fin s) = Fin x ->
  forall c, In c l -> exists y, rep_term T c = Fin y /\ y <= x - s.
Proof.
  assert (B : forall l e, e = Inf \/ e = NaN -> forall x, fold_left (fun s c => fadd s (rep_term T c)) l e <> Fin x).
  { induction l0 as [|c l0 IH]; intros e He x; cbn [fold_left]; [destruct He; subst; discriminate|]. apply IH.
    destruct He; subst; destruct (rep_term T c); cbn; auto. }
  induction l as [|c l IH]; intros s x E a Ha; [destruct Ha|]. cbn [fold_left] in E.
  destruct (rep_term T c) as [y| |] eqn:Y; cbn [fadd] in E; [|destruct (B l Inf (or_introl eq_refl) x E)|destruct (B l NaN (or_intror eq_refl) x E)].
  assert (S : s + y <= x).
  { destruct (Classical_Prop.classic (l = [])) as [->|N]; [cbn in E; injection E; lra|]. destruct l as [|c' l]; [easy|].
    destruct (IH _ _ E c' (or_introl eq_refl)) as (z & Hz & Lz). apply rep_term_nonneg in Hz. lra. }
  destruct Ha as [<-|Ha]; [exists y; split; [auto|lra]|]. destruct (IH _ _ E a Ha) as (z & Hz & Lz). exists z. split; auto.
  apply rep_term_nonneg in Y. lra.
Qed.
(** The error is zero exactly when every point projects onto its bearing
    vector: it lies on the bearing's line, in front of or behind the camera. *)
Theorem C70_zero_error : forall T l, l <> [] -> (forall c, In c l -> vz (e_f c) <> 0) ->
  (rep_error T l = Fin 0 <-> forall c, In c l -> exists d, d <> 0 /\ vadd (mv (fst T) (e_p c)) (snd T) = vscale d (e_f c)).
Proof.
  intros T l Hl Hz. split.
  - intros E c Hc. unfold rep_error in E. destruct (fold_left _ _ _) as [x| |] eqn:S; try discriminate. injection E as E.
    assert (Hn : 0 < INR (length l)). { apply lt_0_INR. destruct l; [easy|cbn; lia]. }
    assert (x = 0). { apply Rmult_integral in E. destruct E as [|E]; auto. pose proof (Rinv_0_lt_compat _ Hn). lra. } subst x.
    destruct (rep_sum_terms T l 0 0 S c Hc) as (y & Y & Ly). pose proof (rep_term_nonneg _ _ _ Y). assert (y = 0) by lra. subst y.
    unfold rep_term in Y. set (q := vadd (mv (fst T) (e_p c)) (snd T)) in *. clearbody q. specialize (Hz c Hc). unfold e_u, e_v in Y.
    destruct (Req_EM_T (vz q) 0) as [_|Nq]; [repeat destruct (Req_EM_T _ _); discriminate|]. cbv zeta in Y. injection Y as Y.
    destruct q as [a b z], (e_f c) as [f g h]. cbn [vx vy vz] in *. apply sqrt_eq_0 in Y; [|apply Rplus_le_le_0_compat; apply sq_nonneg].
    assert (SQ : forall x y, x * x + y * y = 0 -> x = 0 /\ y = 0) by (intros; split; nra). apply SQ in Y. destruct Y as [E1 E2].
    exists (z / h). split; [apply Rmult_integral_contrapositive_currified; [auto|now apply Rinv_neq_0_compat]|].
    unfold vscale. cbn [vx vy vz]. apply vext; cbn [vx vy vz]; [| |field; auto].
    + replace a with (z * (1 * a * (1 / z))) by (field; auto). replace (1 * a * (1 / z)) with (f / h) by lra. field. auto.
    + replace b with (z * (1 * b * (1 / z))) by (field; auto). replace (1 * b * (1 / z)) with (g / h) by lra. field. auto.
  - intro H. unfold rep_error. assert (E : forall l', (forall c, In c l' -> In c l) -> fold_left (fun s c => fadd s (rep_term T c)) l' (Fin 0) = Fin 0).
    { induction l' as [|c l' IH]; intro I; [reflexivity|]. cbn [fold_left]. rewrite (rep_term_exact T c) by (auto using in_eq).
      cbn [fadd]. rewrite Rplus_0_l. apply IH. intros; apply I; right; auto. }
    rewrite E by auto. f_equal. unfold Rdiv. ring.
Qed.

(** If the first candidate has an error that is a number, the result is one of
    the three candidates and none has a smaller error. *)
Theorem C70_best : forall r1 r2 r3, snd r1 <> NaN -> let r := e_choose r1 r2 r3 in
  (r = r1 \/ r = r2 \/ r = r3) /\ forall r', r' = r1 \/ r' = r2 \/ r' = r3 -> flt (snd r') (snd r) = false.
Proof.
  intros [p1 e1] [p2 e2] [p3 e3] N. cbn [snd] in N. unfold e_choose. cbn [snd]. split.
  - repeat (destruct (flt _ _); cbn [snd]); auto.
  - intros r' Hr. assert (Hs : snd r' = e1 \/ snd r' = e2 \/ snd r' = e3) by (destruct Hr as [->|[->| ->]]; auto).
    generalize dependent (snd r'). intros e Hs. clear Hr r'.
    destruct e1 as [x| |], e2 as [y| |], e3 as [z| |]; try congruence;
      cbn -[Rlt_dec]; repeat (match goal with |- context [Rlt_dec ?a ?b] => destruct (Rlt_dec a b) end; cbn -[Rlt_dec]);
      destruct Hs as [->|[->| ->]]; cbn -[Rlt_dec]; try reflexivity;
      match goal with |- context [Rlt_dec ?a ?b] => destruct (Rlt_dec a b); [lra|reflexivity] end.
Qed.
(** If it is NaN, the first candidate is returned whatever the others are. *)
Theorem C70_first_nan : forall r1 r2 r3, snd r1 = NaN -> e_choose r1 r2 r3 = r1.
Proof.
  intros [p1 e1] [p2 e2] [p3 e3] E. cbn in E. subst e1. unfold e_choose. cbn [snd].
  assert (K : forall e, flt e NaN = false) by (intros []; reflexivity). rewrite K. cbn [snd]. rewrite K. reflexivity.
Qed.
(** Bearing vectors at a right angle to the optical axis give no pose *)
Theorem C70_sideways : forall svd3 svd12 solve a1 a2 junk l c, In c l -> vz (e_f c) = 0 ->
  epnp svd3 svd12 solve a1 a2 junk l = None.
Proof.
  intros svd3 svd12 solve a1 a2 junk l c Hc Z. unfold epnp, compute_pose.
  assert (E : existsb (fun c => if Req_EM_T (vz (e_f c)) 0 then true else false) l = true).
  { apply existsb_exists. exists c. split; auto. destruct (Req_EM_T _ _); congruence. }
  rewrite E. reflexivity.
Qed.
(** although the camera model allows them. *)
Definition around : list ecorr := map (fun p => EC p p) [V3 1 0 0; V3 1 1 5; V3 (-1) 1 5; V3 (-1) (-1) 5; V3 1 (-1) 5; V3 1 2 7].
Theorem C70_sideways_refuted : exists l A t, length l = 6%nat /\ rotation A /\ sees A t l /\ ~ coplanar l
  /\ forall svd3 svd12 solve a1 a2 junk, epnp svd3 svd12 solve a1 a2 junk l = None.
Proof.
  exists around, mid, v0. split; [reflexivity|]. split; [exact rot_id|]. split; [|split].
  - intros c Hc. exists 1. split; [lra|]. apply in_map_iff in Hc. destruct Hc as (p & <- & _). cbn [e_p e_f]. rewrite mv_id, vscale_1, vadd_0_l. reflexivity.
  - intros (n & d & Nn & H). apply Nn.
    pose proof (H (EC (V3 1 0 0) (V3 1 0 0)) ltac:(cbn; auto)) as H1. pose proof (H (EC (V3 1 1 5) (V3 1 1 5)) ltac:(cbn; auto)) as H2.
    pose proof (H (EC (V3 (-1) 1 5) (V3 (-1) 1 5)) ltac:(cbn; auto)) as H3. pose proof (H (EC (V3 (-1) (-1) 5) (V3 (-1) (-1) 5)) ltac:(cbn; auto)) as H4.
    destruct n as [a b c]. revert H1 H2 H3 H4. lunf. cbn [e_p vx vy vz]. intros. f_equal; lra.
  - intros. eapply C70_sideways; [left; reflexivity|]. reflexivity.
Qed.

(** * The hypotheses can be met *)
Definition cube : list ecorr := map (fun p => EC p p)
  [V3 1 2 5; V3 1 2 3; V3 1 0 5; V3 1 0 3; V3 (-1) 2 5; V3 (-1) 2 3; V3 (-1) 0 5; V3 (-1) 0 3].
Lemma cube_c0 : e_c0 cube = V3 0 1 4.
Proof. unfold e_c0, center, cube. cbn [map e_p fold_left length INR]. cbv [vadd vdivs v0 vx vy vz]. f_equal; field. Qed.
Lemma cube_cov : e_cov cube = diag 8 8 8.
Proof.
  unfold e_cov. rewrite cube_c0. unfold cube, cross_cov. cbn [map e_p fold_left fst snd].
  cbv [madd outer vsub mzero diag vx vy vz m00 m01 m02 m10 m11 m12 m20 m21 m22]. f_equal; ring.
Qed.
Lemma cube_svd : exists svd3, (forall H, is_svd H (svd3 H)) /\ svd3 (diag 8 8 8) = (mid, V3 8 8 8, mid).
Proof.
  destruct svd_function_exists as (svd & S). assert (D : forall a b : mat3, {a = b} + {a <> b}) by (decide equality; apply Req_EM_T).
  exists (fun H => if D H (diag 8 8 8) then (mid, V3 8 8 8, mid) else svd H). split.
  - intro H. destruct (D H (diag 8 8 8)) as [->|_]; [|apply S]. cbn [is_svd vx vy vz]. split; [apply orth_id|split; [apply orth_id|]]. split; [lra|split; [lra|split; [lra|]]]. rewrite mT_id, mmul_id_l, mmul_id_r. reflexivity.
  - destruct (D (diag 8 8 8) (diag 8 8 8)); [reflexivity|congruence].
Qed.
Lemma cube_cw svd3 : svd3 (diag 8 8 8) = (mid, V3 8 8 8, mid) ->
  forall k, (k < 4)%nat -> e_cw svd3 cube k = nth k [V3 0 1 4; V3 1 1 4; V3 0 2 4; V3 0 1 5] v0.
Proof.
  intros E k Hk. unfold e_cw. rewrite cube_cov, E, cube_c0. assert (S1 : sqrt (8 / INR (length cube)) = 1).
  { replace (8 / INR (length cube)) with 1; [apply sqrt_1|]. unfold cube. cbn [map length INR]. field. }
  vcase Hk; cbn [nth]; unfold vget; cbn [vx vy vz]; try rewrite S1; [reflexivity|..]; lunf; f_equal; ring.
Qed.
(** U maps the last unit vector to a ninth of the true control points *)
Definition hw (i : nat) : R := nth i [0; -1; -4; -1; -1; -4; 0; -2; -4; 0; -1; 4] 0.
Definition hU (i j : nat) : R := delta i j - hw i * hw j / 36.
Lemma hU_orth : gorth 12 hU.
Proof.
  assert (W : vdot 12 hw hw = 72) by (unfold vdot, hw; cbn [sumn nth]; ring).
  assert (G : forall i j, (i < 12)%nat -> (j < 12)%nat -> vdot 12 (hU i) (hU j) = delta i j).
  { intros i j Hi Hj. unfold vdot. transitivity (sumn 12 (fun k => delta k i * delta j k) - hw j / 36 * sumn 12 (fun k => delta k i * hw k) - hw i / 36 * sumn 12 (fun k => delta k j * hw k) + hw i * hw j / (36 * 36) * vdot 12 hw hw).
    - unfold vdot. rewrite <- !sumn_scale, <- !sumn_sub, <- sumn_add. apply sumn_ext. intros k _. unfold hU.
      assert (D : forall a b, delta a b = delta b a) by (intros; unfold delta; repeat destruct (Nat.eq_dec _ _); congruence). rewrite (D k i), (D k j). field.
    - rewrite W, !sumn_delta by auto. unfold delta at 1 2. repeat destruct (Nat.eq_dec _ _); try congruence; field. }
  split; [|exact G]. intros i j Hi Hj. rewrite <- (G i j Hi Hj). apply vdot_ext; intros k _; unfold gcol, hU, delta; repeat destruct (Nat.eq_dec _ _); try congruence; field.
Qed.
Lemma hU_last j : (j < 12)%nat -> hU j 11%nat = nth j [0; 1; 4; 1; 1; 4; 0; 2; 4; 0; 1; 5] 0 / 9.
Proof. intro Hj. unfold hU, hw, delta. vcase Hj; cbn [nth Nat.eq_dec]; destruct (Nat.eq_dec _ _); try discriminate; try congruence; field. Qed.

Example C68_nonvacuous : exists svd3 svd12 solve a1 a2 junk l A t,
  let cw := e_cw svd3 l in
  let M := e_M cw l (EC v0 v0) in
  let U := svd12 (e_MtM (2 * length l) M) in
  let L4 := fun i j => e_L U i (sel1 j) in
  (forall H, is_svd H (svd3 H)) /\ rotation A /\ sees A t l /\ (forall c, In c l -> vz (e_f c) <> 0) /\
  (forall B s, on_lines B s l -> exists k, B = mscale k (mT A) /\ s = vscale k (mv (mneg (mT A)) t)) /\
  gorth 12 U /\ null (2 * length l) M (gcol U 11) /\ (exists j, (j < 12)%nat /\ U j 11%nat <> 0) /\
  full_rank 6 4 L4 /\ (forall y, misfit 6 4 L4 (e_rho cw) (solve 4%nat L4 (e_rho cw)) <= misfit 6 4 L4 (e_rho cw) y) /\
  (forall j, (j < 4)%nat -> junk 1%nat j = 0) /\ epnp svd3 svd12 solve a1 a2 junk l = Some (A, t) /\ length l = 8%nat.
Proof.
  destruct cube_svd as (svd3 & S3 & SE). pose proof (cube_cw svd3 SE) as CW.
  exists svd3, (fun _ => hU), (fun _ _ _ j => match j with O => 81 | _ => 0 end), (fun _ => 0), (fun _ => 0), (fun _ _ => 0), cube, mid, v0.
  intros cw M U L4.
  assert (P1 : sees mid v0 cube).
  { intros c Hc. exists 1. split; [lra|]. apply in_map_iff in Hc. destruct Hc as (p & <- & _). cbn [e_p e_f]. rewrite mv_id, vscale_1, vadd_0_l. reflexivity. }
  assert (P2 : forall c, In c cube -> vz (e_f c) <> 0).
  { intros c Hc. cbn in Hc. repeat destruct Hc as [<-|Hc]; try contradiction; cbn [e_f vz]; lra. }
  assert (P3 : forall B s, on_lines B s cube -> exists k, B = mscale k (mT mid) /\ s = vscale k (mv (mneg (mT mid)) v0)).
  { intros B s H. unfold on_lines, cube in H. destruct B as [x0 x1 x2 x3 x4 x5 x6 x7 x8], s as [y0 y1 y2].
    assert (Q : forall p, In p [V3 1 2 5; V3 1 2 3; V3 1 0 5; V3 1 0 3; V3 (-1) 2 5; V3 (-1) 2 3; V3 (-1) 0 5; V3 (-1) 0 3] -> exists d, vadd (mv (M3 x0 x1 x2 x3 x4 x5 x6 x7 x8) p) (V3 y0 y1 y2) = vscale d p).
    { intros p Hp. apply (H (EC p p)). apply in_map_iff. eauto. }
    clear H. destruct (Q (V3 1 2 5) ltac:(cbn; tauto)) as (d0 & E0). destruct (Q (V3 1 2 3) ltac:(cbn; tauto)) as (d1 & E1). destruct (Q (V3 1 0 5) ltac:(cbn; tauto)) as (d2 & E2).
    destruct (Q (V3 1 0 3) ltac:(cbn; tauto)) as (d3 & E3). destruct (Q (V3 (-1) 2 5) ltac:(cbn; tauto)) as (d4 & E4). destruct (Q (V3 (-1) 2 3) ltac:(cbn; tauto)) as (d5 & E5).
    destruct (Q (V3 (-1) 0 5) ltac:(cbn; tauto)) as (d6 & E6). destruct (Q (V3 (-1) 0 3) ltac:(cbn; tauto)) as (d7 & E7). clear Q.
    exists d0. revert E0 E1 E2 E3 E4 E5 E6 E7. lunf. intros E0 E1 E2 E3 E4 E5 E6 E7.
    injection E0; injection E1; injection E2; injection E3; injection E4; injection E5; injection E6; injection E7. clear. intros. split; f_equal; lra. }
  assert (P4 : null (2 * length cube) M (gcol U 11)).
  { apply C66_linear_system; [exact P2|]. intros c Hc. exists (/ 9).
    assert (F : frame cw). { apply frame_iff; auto. eapply unique_not_coplanar; [apply rot_id|exact P3]. }
    transitivity (e_pc cw (fun k => vadd (mv (mscale (/ 9) mid) (cw k)) v0) (e_p c)).
    - apply e_pc_ext. intros k Hk. unfold cw. rewrite CW by auto. unfold blk, gcol, U. rewrite !hU_last by lia.
      vcase Hk; cbn [nth Nat.mul Nat.add]; lunf; f_equal; field.
    - rewrite e_pc_affine, vadd_0_r, mv_mscale, mv_id by auto. apply in_map_iff in Hc. destruct Hc as (p & <- & _). reflexivity. }
  assert (P5 : exists j, (j < 12)%nat /\ U j 11%nat <> 0) by (exists 11%nat; split; [lia|]; unfold U; rewrite hU_last by lia; cbn [nth]; lra).
  assert (P6 : full_rank 6 4 L4).
  { intros c H.
    pose proof (H 0%nat ltac:(lia)) as H0. pose proof (H 1%nat ltac:(lia)) as H1. pose proof (H 2%nat ltac:(lia)) as H2.
    pose proof (H 3%nat ltac:(lia)) as H3. pose proof (H 4%nat ltac:(lia)) as H4. pose proof (H 5%nat ltac:(lia)) as H5. clear H.
    revert H0 H1 H2 H3 H4 H5. unfold L4, U, e_L, e_dv, e_nv, blk, hU, hw. cbv -[Rplus Rmult Rminus Ropp Rdiv Rinv IZR lt]. intros.
    assert (c 0%nat = 0 /\ c 1%nat = 0 /\ c 2%nat = 0 /\ c 3%nat = 0) as (? & ? & ? & ?) by (repeat split; lra).
    vcase H; assumption. }
  assert (P7 : forall y, misfit 6 4 L4 (e_rho cw) (fun j => match j with O => 81 | _ => 0 end) <= misfit 6 4 L4 (e_rho cw) y).
  { intro y. replace (misfit 6 4 L4 (e_rho cw) (fun j => match j with O => 81 | _ => 0 end)) with 0.
    - apply sumn_nonneg. intros. apply pow2_ge_0.
    - symmetry. apply sumn_0. intros i Hi.
      assert (E : e_rho cw i = 81 * L4 i 0%nat); [|rewrite E; cbn [sumn]; ring].
      unfold L4. cbn [sel1]. change (e_L U i 0%nat) with (norm2 (e_dv U 0 i)). unfold e_rho, cw. rewrite !CW by lia. unfold e_dv, e_nv, blk, U.
      vcase Hi; cbn [pair_a pair_b Nat.mul Nat.add Nat.sub]; rewrite !hU_last by lia; cbn [nth]; unfold dist2, norm2, dot; cbn [vsub vx vy vz]; field. }
  assert (P8 : forall H, is_svd H (svd3 H)) by exact S3.
  split; [exact S3|]. split; [exact rot_id|]. split; [exact P1|]. split; [exact P2|]. split; [exact P3|]. split; [exact hU_orth|]. split; [exact P4|]. split; [exact P5|].
  split; [exact P6|]. split; [exact P7|]. split; [reflexivity|].
  split; [|reflexivity]. apply C68_recovers_pose; auto. exact rot_id.
Qed.
Example C66_nonvacuous : exists svd3, (forall H, is_svd H (svd3 H)) /\ frame (e_cw svd3 cube) /\ sees mid v0 cube /\ ~ coplanar cube.
Proof.
  destruct cube_svd as (svd3 & S3 & SE). exists svd3. pose proof (cube_cw svd3 SE) as CW.
  assert (F : frame (e_cw svd3 cube)). { unfold frame. rewrite !CW by lia. cbn [nth]. lunf. lra. }
  split; [exact S3|]. split; [exact F|]. split; [|apply (frame_iff svd3 cube (S3 _)), F].
  intros c Hc. exists 1. split; [lra|]. apply in_map_iff in Hc. destruct Hc as (p & <- & _). cbn [e_p e_f]. rewrite mv_id, vscale_1, vadd_0_l. reflexivity.
Qed.
Example C70_nonvacuous : rep_error (mid, v0) cube = Fin 0 /\ snd (@None (mat3 * vec3), Fin 0) <> NaN.
Proof.
  split; [|discriminate]. apply C70_zero_error; [discriminate| |].
  - intros c Hc. cbn in Hc. repeat destruct Hc as [<-|Hc]; try contradiction; cbn [e_f vz]; lra.
  - intros c Hc. exists 1. split; [lra|]. apply in_map_iff in Hc. destruct Hc as (p & <- & _). cbn [e_p e_f fst snd]. rewrite mv_id, vscale_1, vadd_0_r. reflexivity.
Qed.

(** * C71: starting coefficients and refinement step *)
(** A solution of the linearised equations holds products of coefficients.  The
    first approximation recovers the coefficients from b0^2, b0 b1, b0 b2, b0 b3
    up to a common sign, also if the solution has come out negated. *)
Theorem C71_first : forall solve L rho b e, (forall j, (j < 4)%nat ->
    solve 4%nat (fun i j => L i (sel1 j)) rho j = e * nth j [b0 b * b0 b; b0 b * b1 b; b0 b * b2 b; b0 b * b3 b] 0) ->
  e = 1 \/ e = -1 -> b0 b <> 0 ->
  approx_1 solve L rho = Some b \/ approx_1 solve L rho = Some (B4 (- b0 b) (- b1 b) (- b2 b) (- b3 b)).
Proof.
  intros solve L rho [x y z w] e H He Nz. cbn [b0 b1 b2 b3] in *. unfold approx_1. rewrite !H by lia. cbn [nth].
  assert (P : 0 < x * x) by nra.
  assert (S : sqrt (x * x) = Rabs x) by apply sqrt_Rsqr_abs.
  destruct He as [->| ->].
  - destruct (Req_EM_T (1 * (x * x)) 0); [lra|]. destruct (Rlt_dec (1 * (x * x)) 0); [lra|]. rewrite !Rmult_1_l, S.
    unfold Rabs. destruct (Rcase_abs x); [right|left]; f_equal; f_equal; field; lra.
  - destruct (Req_EM_T (-1 * (x * x)) 0); [lra|]. destruct (Rlt_dec (-1 * (x * x)) 0); [|lra]. replace (- (-1 * (x * x))) with (x * x) by ring. rewrite S.
    unfold Rabs. destruct (Rcase_abs x); [right|left]; f_equal; f_equal; field; lra.
Qed.
(** The second recovers two coefficients from b0^2, b0 b1, b1^2. *)
Theorem C71_second : forall solve L rho p q, (forall j, (j < 3)%nat -> solve 3%nat L rho j = nth j [p * p; p * q; q * q] 0) ->
  approx_2 solve L rho = Some (B4 p q 0 0) \/ approx_2 solve L rho = Some (B4 (- p) (- q) 0 0).
Proof.
  intros solve L rho p q H. unfold approx_2, first_two. rewrite !H by lia. cbn [nth].
  assert (S : forall x, sqrt (x * x) = Rabs x) by (intro; apply sqrt_Rsqr_abs). rewrite !S.
  destruct (Rlt_dec (p * p) 0); [nra|]. destruct (Rlt_dec 0 (q * q)) as [Q|Q].
  - assert (Nq : q <> 0) by (intros ->; lra). destruct (Req_dec p 0) as [->|Np].
    + rewrite Rmult_0_l. destruct (Rlt_dec 0 0); [lra|]. rewrite Rabs_R0. unfold Rabs. destruct (Rcase_abs q); [right|left]; f_equal; f_equal; lra.
    + assert (SG : 0 < p /\ 0 < q /\ 0 < p * q \/ 0 < p /\ q < 0 /\ p * q < 0 \/ p < 0 /\ 0 < q /\ p * q < 0 \/ p < 0 /\ q < 0 /\ 0 < p * q).
      { destruct (Rtotal_order p 0) as [|[|]], (Rtotal_order q 0) as [|[|]]; try lra; [right; right; right|right; right; left|right; left|left]; repeat split; auto; nra. }
      destruct (Rlt_dec (p * q) 0) as [W|W]; unfold Rabs; destruct (Rcase_abs p), (Rcase_abs q); try (exfalso; lra);
        first [left; f_equal; f_equal; lra | right; f_equal; f_equal; lra].
  - assert (q = 0) by nra. subst q. rewrite Rmult_0_r. destruct (Rlt_dec 0 0); [lra|]. unfold Rabs. destruct (Rcase_abs p); [right|left]; f_equal; f_equal; lra.
Qed.
(** The third recovers three. *)
Theorem C71_third : forall solve L rho p q r, (forall j, (j < 4)%nat -> solve 5%nat L rho j = nth j [p * p; p * q; q * q; p * r] 0) -> p <> 0 ->
  approx_3 solve L rho = Some (B4 p q r 0) \/ approx_3 solve L rho = Some (B4 (- p) (- q) (- r) 0).
Proof.
  intros solve L rho p q r H Np. unfold approx_3, first_two. rewrite !H by lia. cbn [nth].
  assert (S : forall x, sqrt (x * x) = Rabs x) by (intro; apply sqrt_Rsqr_abs). rewrite !S.
  assert (G : forall s, s = 1 \/ s = -1 -> forall p' q', p' = s * p -> q' = s * q ->
    (if Req_EM_T p' 0 then None else Some (B4 p' q' (p * r / p') 0)) = Some (B4 p q r 0) \/
    (if Req_EM_T p' 0 then None else Some (B4 p' q' (p * r / p') 0)) = Some (B4 (- p) (- q) (- r) 0)).
  { intros s Hs p' q' -> ->. destruct (Req_EM_T (s * p) 0); [exfalso; destruct Hs; subst; lra|]. destruct Hs as [->| ->]; [left|right]; f_equal; f_equal; try lra; field; lra. }
  destruct (Rlt_dec (p * p) 0); [nra|]. destruct (Rlt_dec 0 (q * q)) as [Q|Q].
  - destruct (Rlt_dec (p * q) 0) as [W|W]; unfold Rabs; destruct (Rcase_abs p), (Rcase_abs q); try (exfalso; nra);
      first [apply (G 1); [left; reflexivity|lra|lra] | apply (G (-1)); [right; reflexivity|lra|lra]].
  - assert (q = 0) by nra. subst q. rewrite Rmult_0_r. destruct (Rlt_dec 0 0); [lra|]. unfold Rabs. destruct (Rcase_abs p);
      first [apply (G 1); [left; reflexivity|lra|lra] | apply (G (-1)); [right; reflexivity|lra|lra]].
Qed.
(** A negated solution is not handled like in the first approximation: the two
    coefficients get the wrong relative sign. *)
Theorem C71_negated_refuted : forall L rho p q, p * q <> 0 -> forall solve : solve_t,
  (forall j, (j < 3)%nat -> solve 3%nat L rho j = - nth j [p * p; p * q; q * q] 0) ->
  exists p' q', approx_2 solve L rho = Some (B4 p' q' 0 0) /\ p' * p' = p * p /\ q' * q' = q * q /\ p' * q' = - (p * q).
Proof.
  intros L rho p q N solve H. unfold approx_2, first_two. rewrite !H by lia. cbn [nth]. rewrite !Ropp_involutive.
  assert (Np : p <> 0) by (intros ->; lra). assert (Nq : q <> 0) by (intros ->; lra).
  assert (0 < p * p) by nra. assert (0 < q * q) by nra. destruct (Rlt_dec (- (p * p)) 0); [|lra]. destruct (Rlt_dec (- (q * q)) 0); [|lra].
  assert (S : forall x, sqrt (x * x) = Rabs x) by (intro; apply sqrt_Rsqr_abs). rewrite !S.
  destruct (Rlt_dec (- (p * q)) 0) as [W|W]; eexists; eexists; (split; [reflexivity|]); unfold Rabs; destruct (Rcase_abs p), (Rcase_abs q); try (exfalso; nra); repeat split; lra.
Qed.
(** The columns that the three approximations take from the table of ten are
    those of the products they solve for: the first keeps all products with b0,
    the second all with b0 and b1, the third all up to b2 b2. *)
Theorem C71_columns : forall L rho b i,
  rho i - gn_b L rho b i = sumn 4 (fun j => L i (sel1 j) * nth j [b0 b * b0 b; b0 b * b1 b; b0 b * b2 b; b0 b * b3 b] 0)
      + (rho i - gn_b L rho (B4 0 (b1 b) (b2 b) (b3 b)) i)
  /\ rho i - gn_b L rho (B4 (b0 b) (b1 b) 0 0) i = sumn 3 (fun j => L i j * nth j [b0 b * b0 b; b0 b * b1 b; b1 b * b1 b] 0)
  /\ rho i - gn_b L rho (B4 (b0 b) (b1 b) (b2 b) 0) i =
       sumn 5 (fun j => L i j * nth j [b0 b * b0 b; b0 b * b1 b; b1 b * b1 b; b0 b * b2 b; b1 b * b2 b] 0)
       + (rho i - gn_b L rho (B4 0 0 (b2 b) 0) i).
Proof. intros L rho [x y z w] i. unfold gn_b. cbn [b0 b1 b2 b3 sumn sel1 nth]. repeat split; ring. Qed.
(** One refinement step: the coefficients move by the least squares solution of
    the linearised distance equations, or by the old step if the solver gives up. *)
Theorem C71_step : forall a1 a2 L rho b X, let '(b', X') := gn_step a1 a2 L rho (b, X) in
  ((forall j, X' j = X j) \/ least_squares 6 4 (gn_A L b) (gn_b L rho b) X')
  /\ b0 b' = b0 b + X' 0%nat /\ b1 b' = b1 b + X' 1%nat /\ b2 b' = b2 b + X' 2%nat /\ b3 b' = b3 b + X' 3%nat.
Proof.
  intros. unfold gn_step. cbn [b0 b1 b2 b3]. repeat split. apply (C64_least_squares 6 4). lia.
Qed.
Example C71_nonvacuous : exists (solve : solve_t) (b : betas), b0 b <> 0 /\
  (forall j, (j < 4)%nat -> solve 4%nat (fun i j => 0) (fun _ => 0) j = -1 * nth j [b0 b * b0 b; b0 b * b1 b; b0 b * b2 b; b0 b * b3 b] 0).
Proof.
  exists (fun _ _ _ j => -1 * nth j [2 * 2; 2 * 3; 2 * -5; 2 * 7] 0), (B4 2 3 (-5) 7). cbn [b0 b1 b2 b3]. split; [lra|reflexivity].
Qed.
