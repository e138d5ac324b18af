(** A concrete set of seventeen correspondences for C76. *)
From Coq Require Import Reals Lra Psatz Lia List.
From Verif Require Import Lin GenLin GenSpectral Spectral ArunModel ArunProps TriModel EpiModel EpiProps GeoModel GeoProps SeventeenModel SeventeenProps.
Import ListNotations.
Local Open Scope R_scope.

(** * Bounds on singular values *)
Definition frob2 (m n : nat) (A : nat -> nat -> R) : R := sumn m (fun i => vdot n (A i) (A i)).
Lemma mvec_bound m n A x : vdot m (mvec n A x) (mvec n A x) <= frob2 m n A * vdot n x x.
Proof.
  unfold frob2, vdot at 1. rewrite Rmult_comm, <- sumn_scale. apply sumn_le. intros i Hi. unfold mvec.
  pose proof (cauchy n (A i) x). lra.
Qed.
Lemma clear_cut_bounds svd m n A : good_thin svd -> (0 < n <= m)%nat -> (m <= 100)%nat -> frob2 m n A <= 400 ->
  (forall x, vdot n x x <= 4 * vdot m (mvec n A x) (mvec n A x)) -> clear_cut svd m n A.
Proof.
  intros G Hn Hm F L. unfold clear_cut. pose proof (G m n A ltac:(lia)) as T. destruct (svd m n A) as [[U s] V].
  destruct (thin_full m n A U s V ltac:(lia) T) as (W & GW & _).
  assert (N : forall k, (k < n)%nat -> vdot m (mvec n A (gcol V k)) (mvec n A (gcol V k)) = s k ^ 2).
  { intros k Hk. rewrite (gsvd_norm m n A W V s _ GW). replace (Nat.min m n) with n by lia.
    transitivity (sumn n (fun l => delta l k * s l ^ 2)); [|now apply (sumn_delta n k (fun l => s l ^ 2))].
    apply sumn_ext. intros l Hl. destruct (thin_V _ _ _ _ _ _ T) as [GV _]. rewrite GV by auto. unfold delta. destruct (Nat.eq_dec l k); ring. }
  intros k Hk. right.
  assert (Uk : forall k, (k < n)%nat -> vdot n (gcol V k) (gcol V k) = 1) by (intros; apply gorth_unit; auto; apply (thin_V _ _ _ _ _ _ T)).
  pose proof (thin_pos _ _ _ _ _ _ T k Hk) as Pk. pose proof (thin_pos _ _ _ _ _ _ T 0%nat ltac:(lia)) as P0.
  assert (Lk : 1 <= 4 * s k ^ 2) by (rewrite <- N, <- (Uk k Hk) by auto; apply L).
  assert (U0 : s 0%nat ^ 2 <= 400).
  { rewrite <- N by lia. eapply Rle_trans; [apply mvec_bound|]. rewrite Uk by lia. lra. }
  assert (S0 : s 0%nat <= 20) by nra. assert (Sk : 1 / 2 <= s k) by nra.
  assert (M : 0 <= INR m <= 100). { split; [apply pos_INR|]. replace 100 with (INR 100) by (simpl; ring). now apply le_INR. }
  assert (B : s 0%nat * INR m <= 20 * 100) by (apply Rmult_le_compat; lra).
  assert (P : 2 ^ 52 >= 8192). { replace 52%nat with (13 + 39)%nat by reflexivity. rewrite pow_add. assert (1 <= 2 ^ 39) by (apply pow_R1_Rle; lra). simpl (2 ^ 13). lra. }
  apply Rlt_le_trans with (1 / 2); [|auto].
  apply Rmult_lt_reg_r with (2 ^ 52); [lra|]. rewrite Rmult_assoc, Rinv_l by lra. lra.
Qed.

(** * The correspondences *)
(** x1 = R x2 + t with R the cyclic permutation of the axes *)
Definition xR : mat3 := M3 0 0 1 1 0 0 0 1 0.
Definition xt : vec3 := V3 1 1 1.
Definition ax (i : nat) : vec3 := match i with O => V3 1 0 0 | 1%nat => V3 0 1 0 | _ => V3 0 0 1 end.
(** (direction of ray 1, scene point, direction of ray 2), all in frame 1 *)
Definition oblique (a b : nat) : vec3 := vadd (vscale (3/5) (ax a)) (vscale (4/5) (ax b)).
Definition x_data : list (vec3 * vec3 * vec3) :=
  [(ax 1, v0, ax 0); (ax 2, v0, ax 0); (ax 0, v0, ax 1); (ax 2, v0, ax 1); (ax 0, v0, ax 2); (ax 1, v0, ax 2);
   (ax 1, ax 1, ax 0); (ax 2, ax 2, ax 0); (ax 0, ax 0, ax 1); (ax 2, ax 2, ax 1); (ax 0, ax 0, ax 2); (ax 1, ax 1, ax 2);
   (ax 1, ax 2, ax 0); (ax 2, ax 0, ax 1);
   (oblique 0 1, v0, ax 0); (oblique 1 2, v0, ax 1); (oblique 2 0, v0, ax 2)].
Definition x_d1 k := fst (fst (nth k x_data (v0, v0, v0))).
Definition x_X k := snd (fst (nth k x_data (v0, v0, v0))).
Definition x_d2 k := snd (nth k x_data (v0, v0, v0)).
(** cameras: the first rig has its cameras one unit in front of the points, the
    second likewise, mounted with the rotation R^T *)
Definition x_A : rel_adapter := RelAdapter x_d1 x_d2 (fun k => vsub (x_X k) (x_d1 k)) (fun k => mv (mT xR) (vsub (vsub (x_X k) (x_d2 k)) xt))
  (fun _ => mid) (fun _ => mT xR) (Pose mid v0).
Definition x_idx : list nat := seq 0 17.
Lemma xR_rotation : rotation xR.
Proof. split; [unfold orthogonal|]; unfold xR; lunf; [f_equal|]; ring. Qed.
Lemma x_meet k : rays_meet xR xt x_A k.
Proof.
  exists 1, 1. unfold centre1, ray1, centre2, ray2. cbn [ro1 ro2 rr1 rr2 rf1 rf2 x_A].
  generalize (x_d1 k) (x_X k) (x_d2 k). unfold xR, xt. clear. lring.
Qed.
Ltac xcomp := cbv [gen_epi ray1 ray2 centre1 centre2 ro1 ro2 rr1 rr2 rf1 rf2 x_A x_d1 x_X x_d2 x_data nth fst snd oblique ax xR xt
  mT mid mv cross dot vsub vadd vscale v0 vx vy vz m00 m01 m02 m10 m11 m12 m20 m21 m22 vneg].
Lemma x_unique E R' : gen_sat E R' x_A x_idx -> exists c, E = mscale c (essential xR xt) /\ R' = mscale c xR.
Proof.
  intro S. destruct E as [e0 e1 e2 e3 e4 e5 e6 e7 e8], R' as [r0 r1 r2 r3 r4 r5 r6 r7 r8].
  pose proof (S 0%nat ltac:(cbn; auto 20)) as S0. pose proof (S 1%nat ltac:(cbn; auto 20)) as S1. pose proof (S 2%nat ltac:(cbn; auto 20)) as S2.
  pose proof (S 3%nat ltac:(cbn; auto 20)) as S3. pose proof (S 4%nat ltac:(cbn; auto 20)) as S4. pose proof (S 5%nat ltac:(cbn; auto 20)) as S5.
  pose proof (S 6%nat ltac:(cbn; auto 20)) as S6. pose proof (S 7%nat ltac:(cbn; auto 20)) as S7. pose proof (S 8%nat ltac:(cbn; auto 20)) as S8.
  pose proof (S 9%nat ltac:(cbn; auto 20)) as S9. pose proof (S 10%nat ltac:(cbn; auto 20)) as S10. pose proof (S 11%nat ltac:(cbn; auto 20)) as S11.
  pose proof (S 12%nat ltac:(cbn; auto 20)) as S12. pose proof (S 13%nat ltac:(cbn; auto 20)) as S13. pose proof (S 14%nat ltac:(cbn; auto 20)) as S14.
  pose proof (S 15%nat ltac:(cbn; auto 20)) as S15. pose proof (S 16%nat ltac:(cbn; auto 20)) as S16. clear S.
  revert S0 S1 S2 S3 S4 S5 S6 S7 S8 S9 S10 S11 S12 S13 S14 S15 S16. xcomp. intros.
  exists r2. unfold essential, xR, xt. lunf. split; f_equal; lra.
Qed.

(** the singular values of both linear systems are far from the tolerance *)
Ltac mcomp := unfold frob2, x_idx, mvec, vdot; cbn [length seq sumn nth];
  cbv [s_AR s_l1 s_l2 plucker s_d1 s_d2 s_m1 s_m2 tr_A tr_row row col Nat.ltb Nat.leb Nat.div Nat.modulo Nat.divmod Nat.sub Nat.add ventry
  ro1 ro2 rr1 rr2 rf1 rf2 x_A x_d1 x_X x_d2 x_data nth fst snd oblique ax xR xt
  mT mid mv cross dot vsub vadd vscale v0 vx vy vz m00 m01 m02 m10 m11 m12 m20 m21 m22 vneg].

Lemma diff2 a b : (a - b) * (a - b) <= 2 * (a * a) + 2 * (b * b).
Proof. pose proof (Rle_0_sqr (a + b)) as P. unfold Rsqr in P. nra. Qed.
Lemma x_AR_lower x : vdot 9 x x <= 4 * vdot 17 (mvec 9 (fun i => s_AR x_A (nth i x_idx 0%nat)) x) (mvec 9 (fun i => s_AR x_A (nth i x_idx 0%nat)) x).
Proof.
  set (y := mvec 9 (fun i => s_AR x_A (nth i x_idx 0%nat)) x).
  assert (X1 : x 1%nat = - y 6%nat) by (unfold y; mcomp; ring).
  assert (X5 : x 5%nat = y 7%nat) by (unfold y; mcomp; ring).
  assert (X6 : x 6%nat = y 8%nat) by (unfold y; mcomp; ring).
  assert (X4 : x 4%nat = y 0%nat - y 6%nat) by (unfold y; mcomp; ring).
  assert (X2 : x 2%nat = y 7%nat - y 1%nat) by (unfold y; mcomp; ring).
  assert (X3 : x 3%nat = y 8%nat - y 2%nat) by (unfold y; mcomp; ring).
  assert (X8 : x 8%nat = y 3%nat - y 9%nat) by (unfold y; mcomp; ring).
  assert (X0 : x 0%nat = y 4%nat - y 10%nat) by (unfold y; mcomp; ring).
  assert (X7 : x 7%nat = y 11%nat - y 5%nat) by (unfold y; mcomp; ring).
  clearbody y. unfold vdot. cbn [sumn]. rewrite X0, X1, X2, X3, X4, X5, X6, X7, X8.
  pose proof (diff2 (y 0%nat) (y 6%nat)). pose proof (diff2 (y 7%nat) (y 1%nat)). pose proof (diff2 (y 8%nat) (y 2%nat)).
  pose proof (diff2 (y 3%nat) (y 9%nat)). pose proof (diff2 (y 4%nat) (y 10%nat)). pose proof (diff2 (y 11%nat) (y 5%nat)).
  assert (P : forall i, 0 <= y i * y i) by (intro; apply Rle_0_sqr).
  pose proof (P 0%nat). pose proof (P 1%nat). pose proof (P 2%nat). pose proof (P 3%nat). pose proof (P 4%nat). pose proof (P 5%nat). pose proof (P 6%nat).
  pose proof (P 7%nat). pose proof (P 8%nat). pose proof (P 9%nat). pose proof (P 10%nat). pose proof (P 11%nat). pose proof (P 12%nat). pose proof (P 13%nat).
  pose proof (P 14%nat). pose proof (P 15%nat). pose proof (P 16%nat). clear P. clear X0 X1 X2 X3 X4 X5 X6 X7 X8.
  replace (- y 6%nat * - y 6%nat) with (y 6%nat * y 6%nat) by ring. lra.
Qed.
Lemma x_tr_lower x : vdot 3 x x <= 4 * vdot 17 (mvec 3 (tr_A x_A x_idx xR) x) (mvec 3 (tr_A x_A x_idx xR) x).
Proof.
  set (y := mvec 3 (tr_A x_A x_idx xR) x).
  assert (X2 : x 2%nat = y 0%nat) by (unfold y; mcomp; ring).
  assert (X1 : x 1%nat = - y 1%nat) by (unfold y; mcomp; ring).
  assert (X0 : x 0%nat = y 3%nat) by (unfold y; mcomp; ring).
  clearbody y. unfold vdot. cbn [sumn]. rewrite X0, X1, X2. clear X0 X1 X2.
  assert (P : forall i, 0 <= y i * y i) by (intro; apply Rle_0_sqr).
  pose proof (P 0%nat). pose proof (P 1%nat). pose proof (P 2%nat). pose proof (P 3%nat). pose proof (P 4%nat). pose proof (P 5%nat). pose proof (P 6%nat).
  pose proof (P 7%nat). pose proof (P 8%nat). pose proof (P 9%nat). pose proof (P 10%nat). pose proof (P 11%nat). pose proof (P 12%nat). pose proof (P 13%nat).
  pose proof (P 14%nat). pose proof (P 15%nat). pose proof (P 16%nat). clear P.
  replace (- y 1%nat * - y 1%nat) with (y 1%nat * y 1%nat) by ring. lra.
Qed.
Lemma x_clear svd : good_thin svd -> clear_cut svd 17 9 (fun i => s_AR x_A (nth i x_idx 0%nat)) /\ clear_cut svd 17 3 (tr_A x_A x_idx xR).
Proof.
  intro G. split; apply clear_cut_bounds; auto using x_AR_lower, x_tr_lower; try lia; mcomp; lra.
Qed.
(** All hypotheses of the recovery theorem hold, so the solver returns the pose. *)
Example C76_recovers_nonvacuous : exists svd svd3, good_thin svd /\ (forall E, is_svd E (svd3 E)) /\ (16 < length x_idx)%nat /\
  rotation xR /\ xt <> v0 /\ (forall k, In k x_idx -> rays_meet xR xt x_A k) /\
  (forall E R', gen_sat E R' x_A x_idx -> exists c, E = mscale c (essential xR xt) /\ R' = mscale c xR) /\
  clear_cut svd (length x_idx) 9 (fun i => s_AR x_A (nth i x_idx 0%nat)) /\ clear_cut svd (length x_idx) 3 (tr_A x_A x_idx xR) /\
  seventeenpt svd svd3 x_A x_idx = Some (Pose xR xt).
Proof.
  destruct good_thin_exists as [svd G]. destruct svd_function_exists as [svd3 S3]. exists svd, svd3.
  assert (Nt : xt <> v0) by (intro Q; injection Q; intros; lra).
  destruct (x_clear svd G) as [C1 C2].
  refine (conj G (conj S3 (conj _ (conj xR_rotation (conj Nt (conj (fun k _ => x_meet k) (conj x_unique (conj C1 (conj C2 _))))))))).
  - cbn. lia.
  - apply C76_recovers_linear; auto using xR_rotation, x_unique, x_meet; cbn; lia.
Qed.
(** a central pair of views with a translation: the result has none *)
Example C76_central_nonvacuous : exists A idx T, (forall k, In k idx -> ro1 A k = v0 /\ ro2 A k = v0) /\
  (exists R12 t12, rotation R12 /\ t12 <> v0 /\ forall k, In k idx -> rays_meet R12 t12 A k) /\
  exists svd svd3, good_thin svd /\ (forall E, is_svd E (svd3 E)) /\ seventeenpt svd svd3 A idx = Some T.
Proof.
  destruct good_thin_exists as [svd G]. destruct svd_function_exists as [svd3 S3].
  set (A := RelAdapter (fun k => V3 1 (INR k) 1) (fun k => V3 0 (INR k) 1) (fun _ => v0) (fun _ => v0) (fun _ => mid) (fun _ => mid) (Pose mid v0)).
  destruct (seventeenpt svd svd3 A x_idx) as [T|] eqn:E.
  - exists A, x_idx, T. split; [|split].
    + intros; cbn; auto.
    + exists mid, (V3 1 0 0). split; [apply rot_id|split].
      * intro Q. injection Q; intros; lra.
      * intros k _. exists 1, 1. unfold centre1, centre2, ray1, ray2. cbn [ro1 ro2 rr1 rr2 rf1 rf2 A]. lunf. f_equal; ring.
    + eauto.
  - exfalso. unfold seventeenpt in E. cbn [x_idx length seq Nat.ltb Nat.leb] in E. destruct (s_rotations _ _). discriminate.
Qed.
