(** C76: the seventeen-point solver for generalized cameras. *)
From Coq Require Import Reals Lra Psatz Lia List.
From Verif Require Import Lin GenLin GenSpectral Spectral ArunModel ArunProps TriModel EpiModel EpiProps GeoModel GeoProps SeventeenModel.
Import ListNotations.
Local Open Scope R_scope.

(** * Specification *)
(** What a thin singular value decomposition of the m x n matrix A (m >= n)
    is: n orthonormal columns in U, V orthogonal, singular values nonnegative
    and in decreasing order, A = U S V^T. *)
Record is_thin (m n : nat) (A U : nat -> nat -> R) (s : nat -> R) (V : nat -> nat -> R) : Prop := {
  thin_U : forall k l, (k < n)%nat -> (l < n)%nat -> vdot m (gcol U k) (gcol U l) = delta k l;
  thin_V : gorth n V;
  thin_pos : forall k, (k < n)%nat -> 0 <= s k;
  thin_sorted : forall k l, (k <= l)%nat -> (l < n)%nat -> s l <= s k;
  thin_eq : forall i j, (i < m)%nat -> (j < n)%nat -> A i j = sumn n (fun k => U i k * s k * V j k) }.
Definition good_thin (svd : gsvd_t) : Prop := forall m n A, (n <= m)%nat -> let '(U, s, V) := svd m n A in is_thin m n A U s V.
(** no singular value of the m x n matrix A lies strictly between zero and the
    tolerance of the pseudo-inverse *)
Definition clear_cut (svd : gsvd_t) (m n : nat) (A : nat -> nat -> R) : Prop :=
  let '(U, s, V) := svd m n A in forall k, (k < n)%nat -> s k = 0 \/ s 0%nat * INR m * / 2 ^ 52 < s k.

(** Correspondence k in the body frames: a camera centre and a direction per
    viewpoint. *)
Definition centre1 (A : rel_adapter) (k : nat) : vec3 := ro1 A k.
Definition centre2 (A : rel_adapter) (k : nat) : vec3 := ro2 A k.
Definition ray1 (A : rel_adapter) (k : nat) : vec3 := mv (rr1 A k) (rf1 A k).
Definition ray2 (A : rel_adapter) (k : nat) : vec3 := mv (rr2 A k) (rf2 A k).
(** under x1 = R x2 + t the two rays meet in a point *)
Definition rays_meet (R12 : mat3) (t12 : vec3) (A : rel_adapter) (k : nat) : Prop :=
  exists a b, vadd (centre1 A k) (vscale a (ray1 A k)) = vadd (mv R12 (vadd (centre2 A k) (vscale b (ray2 A k)))) t12.
(** the generalized epipolar constraint with an arbitrary pair of matrices in
    the places of the essential matrix and of the rotation *)
Definition gen_epi (E R' : mat3) (A : rel_adapter) (k : nat) : R :=
  dot (ray1 A k) (mv E (ray2 A k)) + dot (ray1 A k) (mv R' (cross (centre2 A k) (ray2 A k)))
  + dot (cross (centre1 A k) (ray1 A k)) (mv R' (ray2 A k)).
Definition gen_sat (E R' : mat3) (A : rel_adapter) (idx : list nat) : Prop := forall k, In k idx -> gen_epi E R' A k = 0.

(** * Decompositions *)
Lemma thin_full m n A U s V : (n <= m)%nat -> is_thin m n A U s V ->
  exists U', is_gsvd m n A U' s V /\ forall k, (k < n)%nat -> gcol U' k = gcol U k.
Proof.
  intros Hn [TU TV TP TS TE]. destruct (onf_complete m n U) as (W & GW & HW); [exact TU|].
  exists W. split; auto. assert (Mn : Nat.min m n = n) by lia. constructor; rewrite ?Mn; auto.
  intros i j Hi Hj. rewrite TE by auto. apply sumn_ext. intros k Hk.
  assert (Q : gcol W k i = gcol U k i) by now rewrite HW. unfold gcol in Q. now rewrite Q.
Qed.
Lemma thin_exists m n A : (n <= m)%nat -> exists U s V, is_thin m n A U s V.
Proof.
  intro Hn. destruct (gsvd_exists m n A) as (U & s & V & [GU GV P S E]). assert (Mn : Nat.min m n = n) by lia. rewrite Mn in *.
  exists U, s, V. constructor; auto. intros k l Hk Hl. destruct GU as [GU _]. apply GU; lia.
Qed.
Lemma good_thin_exists : exists svd, good_thin svd.
Proof.
  destruct (ClassicalChoice.choice (fun (p : nat * nat * (nat -> nat -> R)) (r : (nat -> nat -> R) * (nat -> R) * (nat -> nat -> R)) =>
    let '(m, n, A) := p in let '(U, s, V) := r in (n <= m)%nat -> is_thin m n A U s V)) as [f Hf].
  - intros [[m n] A]. destruct (Compare_dec.le_lt_dec n m) as [L|L].
    + destruct (thin_exists m n A L) as (U & s & V & H). exists (U, s, V). auto.
    + exists (A, fun _ => 0, A). lia.
  - exists (fun m n A => f (m, n, A)). intros m n A L. specialize (Hf (m, n, A)). cbn in Hf. destruct (f (m, n, A)) as [[U s] V]. auto.
Qed.

Section Thin.
Variables (m n : nat) (A U V : nat -> nat -> R) (s : nat -> R).
Hypothesis Hn : (n <= m)%nat.
Hypothesis H : is_thin m n A U s V.
Lemma thin_mvec x i : (i < m)%nat -> mvec n A x i = sumn n (fun k => s k * vdot n (gcol V k) x * U i k).
Proof.
  intro Hi. destruct (thin_full _ _ _ _ _ _ Hn H) as (W & G & E). rewrite (gsvd_mvec m n A W V s G x i Hi).
  replace (Nat.min m n) with n by lia. apply sumn_ext. intros k Hk. assert (Q : gcol W k i = gcol U k i) by now rewrite E.
  unfold gcol in Q. now rewrite Q.
Qed.
Lemma thin_coef x k : (k < n)%nat -> vdot m (gcol U k) (mvec n A x) = s k * vdot n (gcol V k) x.
Proof.
  intro Hk. rewrite (vdot_ext m _ _ (gcol U k) (fun i => sumn n (fun l => s l * vdot n (gcol V l) x * gcol U l i))) by (auto; intros; now apply thin_mvec).
  rewrite vdot_sum. transitivity (sumn n (fun l => delta l k * (s l * vdot n (gcol V l) x))); [|now apply sumn_delta].
  apply sumn_ext. intros l Hl. rewrite vdot_scale. rewrite (thin_U _ _ _ _ _ _ H) by auto.
  unfold delta. destruct (Nat.eq_dec k l), (Nat.eq_dec l k); try lia; ring.
Qed.
End Thin.

(** * The pseudo-inverse *)
Definition papply (svd : gsvd_t) (m n : nat) (A : nat -> nat -> R) (y : nat -> R) (i : nat) : R :=
  sumn m (fun j => pseudo_inverse svd m n A i j * y j).
Lemma papply_eq svd m n A y i : papply svd m n A y i =
  let '(U, s, V) := svd m n A in sumn n (fun k => V i k * sigma_inverse m s k * vdot m (gcol U k) y).
Proof.
  unfold papply, pseudo_inverse. destruct (svd m n A) as [[U s] V].
  rewrite (sumn_ext m _ (fun j => sumn n (fun k => V i k * sigma_inverse m s k * (U j k * y j)))).
  - rewrite sumn_swap. apply sumn_ext. intros k Hk. now rewrite sumn_scale.
  - intros j Hj. rewrite Rmult_comm, <- sumn_scale. apply sumn_ext. intros; ring.
Qed.
Lemma sigma_product m s k : s k = 0 \/ s 0%nat * INR m * / 2 ^ 52 < s k -> 0 <= s 0%nat -> sigma_inverse m s k * s k * s k = s k /\ (s k <> 0 -> sigma_inverse m s k * s k = 1).
Proof.
  intros C P. assert (0 <= s 0%nat * INR m * / 2 ^ 52).
  { apply Rmult_le_pos; [apply Rmult_le_pos; [auto|apply pos_INR]|]. left. apply Rinv_0_lt_compat, pow_lt. lra. }
  unfold sigma_inverse, dbl_eps. destruct C as [C|C].
  - rewrite C. split; [ring|]. intro Q. now contradiction Q.
  - destruct (Rlt_dec _ _) as [_|N]; [|contradiction]. split; intros; field; lra.
Qed.
(** A A^+ A = A *)
Lemma pinv_range svd m n A x : good_thin svd -> (0 < n <= m)%nat -> clear_cut svd m n A ->
  forall i, (i < m)%nat -> mvec n A (papply svd m n A (mvec n A x)) i = mvec n A x i.
Proof.
  intros G Hn C i Hi. unfold clear_cut in C. pose proof (G m n A ltac:(lia)) as T. pose proof (papply_eq svd m n A (mvec n A x)) as PE.
  destruct (svd m n A) as [[U s] V] eqn:E.
  rewrite !(thin_mvec m n A U V s ltac:(lia) T) by auto. apply sumn_ext. intros k Hk.
  destruct (sigma_product m s k (C k Hk) (thin_pos _ _ _ _ _ _ T 0%nat ltac:(lia))) as [S _].
  assert (Q : vdot n (gcol V k) (papply svd m n A (mvec n A x)) = sigma_inverse m s k * (s k * vdot n (gcol V k) x)).
  { rewrite (vdot_ext n _ _ (gcol V k) (fun j => sumn n (fun l => sigma_inverse m s l * (s l * vdot n (gcol V l) x) * gcol V l j))); auto.
    - rewrite vdot_sum. transitivity (sumn n (fun l => delta l k * (sigma_inverse m s l * (s l * vdot n (gcol V l) x)))); [|now apply sumn_delta].
      apply sumn_ext. intros l Hl. rewrite vdot_scale. destruct (thin_V _ _ _ _ _ _ T) as [GV _]. rewrite GV by auto.
      unfold delta. destruct (Nat.eq_dec k l), (Nat.eq_dec l k); try lia; ring.
    - intros j Hj. rewrite PE. apply sumn_ext. intros l Hl. rewrite (thin_coef m n A U V s ltac:(lia) T) by auto. unfold gcol. ring. }
  rewrite Q. rewrite <- S at 3. ring.
Qed.
(** A^+ A = 1 if A has no kernel *)
Lemma pinv_left svd m n A x : good_thin svd -> (0 < n <= m)%nat -> clear_cut svd m n A ->
  (forall y, (forall i, (i < m)%nat -> mvec n A y i = 0) -> forall j, (j < n)%nat -> y j = 0) ->
  forall j, (j < n)%nat -> papply svd m n A (mvec n A x) j = x j.
Proof.
  intros G Hn C K j Hj. pose proof (pinv_range svd m n A x G Hn C) as P.
  apply Rminus_diag_uniq. apply (K (fun j => papply svd m n A (mvec n A x) j - x j)); auto.
  intros i Hi. rewrite <- (Rminus_diag_eq _ _ (P i Hi)). unfold mvec at 1, vdot.
  rewrite (sumn_ext n _ (fun l => A i l * papply svd m n A (mvec n A x) l - A i l * x l)) by (intros; ring).
  rewrite sumn_sub. reflexivity.
Qed.

(** * The linear system *)
Lemma AE_mvec A k E : mvec 9 (s_AE A) (of_mat (mT E)) k = dot (ray1 A k) (mv E (ray2 A k)).
Proof.
  unfold mvec, vdot, s_AE, s_l1, s_l2, plucker, s_d1, s_d2, ray1, ray2. destruct E. cbn -[mv s_m1 s_m2].
  destruct (mv (rr1 A k) (rf1 A k)), (mv (rr2 A k) (rf2 A k)). lunf. cbn. ring.
Qed.
Lemma AR_mvec A k M : mvec 9 (s_AR A) (of_mat (mT M)) k =
  dot (ray1 A k) (mv M (cross (centre2 A k) (ray2 A k))) + dot (cross (centre1 A k) (ray1 A k)) (mv M (ray2 A k)).
Proof.
  unfold mvec, vdot, s_AR, s_l1, s_l2, plucker, s_m1, s_m2, s_d1, s_d2, ray1, ray2, centre1, centre2. destruct M. cbn -[mv cross].
  destruct (cross (ro1 A k) (mv (rr1 A k) (rf1 A k))), (cross (ro2 A k) (mv (rr2 A k) (rf2 A k))).
  destruct (mv (rr1 A k) (rf1 A k)), (mv (rr2 A k) (rf2 A k)). lunf. cbn. ring.
Qed.
Lemma meet_epi R12 t12 A k : rotation R12 -> rays_meet R12 t12 A k -> gen_epi (essential R12 t12) R12 A k = 0.
Proof.
  intros HR (a & b & E). unfold gen_epi, essential.
  set (c1 := centre1 A k) in *. set (c2 := centre2 A k) in *. set (d1 := ray1 A k) in *. set (d2 := ray2 A k) in *. clearbody c1 c2 d1 d2.
  rewrite (rot_cross R12 c2 d2 HR), mv_mmul.
  assert (E' : vadd c1 (vscale a d1) = vadd (vadd (mv R12 c2) (vscale b (mv R12 d2))) t12).
  { rewrite E. destruct R12, c2, d2, t12. lunf. f_equal; ring. }
  generalize dependent (mv R12 c2). generalize dependent (mv R12 d2). clear. intros e2 o2 E.
  destruct c1 as [c1x c1y c1z], d1 as [d1x d1y d1z], o2 as [ox oy oz], e2 as [ex ey ez], t12 as [tx ty tz].
  unfold vadd, vscale in E. cbn [vx vy vz] in E. injection E as E1 E2 E3. lunf.
  assert (c1x = ox + b * ex + tx - a * d1x) by lra. assert (c1y = oy + b * ey + ty - a * d1y) by lra.
  assert (c1z = oz + b * ez + tz - a * d1z) by lra. subst. ring.
Qed.
Lemma mvec_opp n A x i : mvec n A (fun j => - x j) i = - mvec n A x i.
Proof. unfold mvec, vdot. rewrite (sumn_ext n _ (fun j => (-1) * (A i j * x j))) by (intros; ring). rewrite sumn_scale. ring. Qed.
Lemma mvec_ext n A x y i : (forall j, (j < n)%nat -> x j = y j) -> mvec n A x i = mvec n A y i.
Proof. intro H. apply vdot_ext; auto. Qed.
Lemma papply_ext svd m n A x y i : (forall j, (j < m)%nat -> x j = y j) -> papply svd m n A x i = papply svd m n A y i.
Proof. intro H. apply sumn_ext. intros j Hj. now rewrite H. Qed.
(** C x = - AE x + AR AR^+ AE x *)
Lemma C_mvec svd m AR AE x i : (i < m)%nat ->
  mvec 9 (s_C svd m AR AE) x i = - mvec 9 AE x i + mvec 9 AR (papply svd m 9 AR (mvec 9 AE x)) i.
Proof.
  intro Hi. transitivity (sumn m (fun k => s_B svd m AR i k * mvec 9 AE x k)).
  - unfold mvec at 1, vdot, s_C. rewrite (sumn_ext 9 _ (fun j => sumn m (fun k => s_B svd m AR i k * (AE k j * x j)))).
    + rewrite sumn_swap. apply sumn_ext. intros k Hk. rewrite sumn_scale. reflexivity.
    + intros j Hj. rewrite Rmult_comm, <- sumn_scale. apply sumn_ext. intros; ring.
  - unfold s_B. rewrite (sumn_ext m _ (fun k => (-1) * (delta k i * mvec 9 AE x k) + sumn 9 (fun l => AR i l * (pseudo_inverse svd m 9 AR l k * mvec 9 AE x k)))).
    + rewrite sumn_add, sumn_scale, (sumn_delta m i (mvec 9 AE x)) by auto. rewrite sumn_swap. f_equal; [ring|].
      unfold mvec at 2, vdot at 1, papply. apply sumn_ext. intros l Hl. now rewrite sumn_scale.
    + intros k Hk. assert (delta i k = delta k i) by (unfold delta; destruct (Nat.eq_dec i k), (Nat.eq_dec k i); auto; lia). rewrite H.
      rewrite Rmult_plus_distr_r. f_equal; [ring|]. rewrite Rmult_comm, <- sumn_scale. apply sumn_ext. intros; ring.
Qed.
Lemma tr_mvec A idx M t i : mvec 3 (tr_A A idx M) (ventry t) i - tr_b A idx M i = gen_epi (essential M t) M A (nth i idx 0%nat).
Proof.
  unfold tr_A, tr_b, gen_epi, essential, s_m1, s_m2, s_d1, s_d2, ray1, ray2, centre1, centre2, mvec. cbv beta zeta. set (k := nth i idx 0%nat).
  unfold vdot, tr_row. cbn [sumn].
  set (a := mv (rr1 A k) (rf1 A k)). set (b := mv (rr2 A k) (rf2 A k)). set (c := cross (ro1 A k) a). set (d := cross (ro2 A k) b). clearbody a b c d.
  destruct a as [a1 a2 a3], b as [b1 b2 b3], c as [c1 c2 c3], d as [d1 d2 d3], M as [p1 p2 p3 q1 q2 q3 r1 r2 r3], t as [t1 t2 t3]. lunf. cbn.
  ring.
Qed.
Lemma sat_nth E M A idx : gen_sat E M A idx <-> forall i, (i < length idx)%nat -> gen_epi E M A (nth i idx 0%nat) = 0.
Proof.
  split.
  - intros H i Hi. apply H. now apply nth_In.
  - intros H k Hk. apply (In_nth _ _ 0%nat) in Hk. destruct Hk as (i & Hi & <-). auto.
Qed.
Lemma essential_zero M t : rotation M -> t <> v0 -> essential M t <> mzero.
Proof.
  intros [Ro _] Nt Z. apply Nt. unfold essential in Z. assert (Zs : skew t = mzero).
  { transitivity (mmul (mmul (skew t) M) (mT M)); [rewrite <- mmul_assoc, (orth_r _ Ro); clear; lring|]. rewrite Z. clear. lring. }
  clear - Zs. destruct t. revert Zs. lunf. intro Q. injection Q as Q1 Q2 Q3 Q4 Q5 Q6. f_equal; lra.
Qed.
Lemma sqrt_sum_zero m f : sqrt (sumn m (fun i => f i ^ 2)) = 0 <-> forall i, (i < m)%nat -> f i = 0.
Proof.
  split.
  - intros E i Hi. assert (P : forall i, (i < m)%nat -> 0 <= f i ^ 2) by (intros; apply pow2_ge_0).
    apply sqrt_eq_0 in E; [|now apply sumn_nonneg]. pose proof (sumn_nonneg_zero m (fun i => f i ^ 2) P E i Hi) as Z. cbv beta in Z. nra.
  - intro E. rewrite sumn_0; [apply sqrt_0|]. intros i Hi. rewrite E by auto. ring.
Qed.
Lemma fit_zero A idx M t : tr_fit (length idx) (tr_A A idx M) (tr_b A idx M) t = 0 <-> gen_sat (essential M t) M A idx.
Proof.
  unfold tr_fit. rewrite (sqrt_sum_zero _ (fun i => mvec 3 (tr_A A idx M) (ventry t) i - tr_b A idx M i)), sat_nth.
  split; intros H i Hi; [rewrite <- tr_mvec|rewrite tr_mvec]; auto.
Qed.

(** * Theorems *)
(** The result is a rigid motion, whatever the correspondences. *)
Lemma rotations_rotation svd3 E : is_svd E (svd3 E) -> rotation (fst (s_rotations svd3 E)) /\ rotation (snd (s_rotations svd3 E)).
Proof.
  unfold s_rotations. destruct (svd3 E) as [[U s] V]. intros (HU & HV & _). cbn [fst snd].
  split; apply rot_T; apply fix_sign_rotation; auto using orth_mmul, orth_T, W_orth.
Qed.
Theorem C76_rotation : forall svd svd3 A idx T, (forall E, is_svd E (svd3 E)) -> seventeenpt svd svd3 A idx = Some T -> rotation (pR T).
Proof.
  intros svd svd3 A idx T S3. unfold seventeenpt. destruct (Nat.ltb 16 (length idx)); [|discriminate].
  pose proof (rotations_rotation svd3 (s_essential svd (length idx) (fun i => s_AR A (nth i idx 0%nat)) (fun i => s_AE A (nth i idx 0%nat))) (S3 _)) as [Ha Hb].
  destruct (s_rotations _ _) as [Ra Rb]. cbn [fst snd] in *. intro E. injection E as <-. destruct (Rlt_dec _ _); auto.
Qed.

(** The rotations of the essential matrix contain the true one. *)
Lemma true_rotation svd svd3 A idx R12 t12 : good_thin svd -> (forall E, is_svd E (svd3 E)) -> (9 <= length idx)%nat ->
  rotation R12 -> t12 <> v0 -> gen_sat (essential R12 t12) R12 A idx ->
  (forall E R', gen_sat E R' A idx -> exists c, E = mscale c (essential R12 t12)) ->
  clear_cut svd (length idx) 9 (fun i => s_AR A (nth i idx 0%nat)) ->
  let r := s_rotations svd3 (s_essential svd (length idx) (fun i => s_AR A (nth i idx 0%nat)) (fun i => s_AE A (nth i idx 0%nat))) in
  fst r = R12 \/ snd r = R12.
Proof.
  intros G S3 Hm HR Ht Sat Uni CC. set (m := length idx) in *.
  set (AR := fun i => s_AR A (nth i idx 0%nat)) in *. set (AE := fun i => s_AE A (nth i idx 0%nat)) in *.
  set (E0 := essential R12 t12) in *.
  assert (AEm : forall F i, mvec 9 AE (of_mat (mT F)) i = dot (ray1 A (nth i idx 0%nat)) (mv F (ray2 A (nth i idx 0%nat)))) by (intros; apply (AE_mvec A (nth i idx 0%nat))).
  assert (ARm : forall F i, mvec 9 AR (of_mat (mT F)) i = dot (ray1 A (nth i idx 0%nat)) (mv F (cross (centre2 A (nth i idx 0%nat)) (ray2 A (nth i idx 0%nat))))
     + dot (cross (centre1 A (nth i idx 0%nat)) (ray1 A (nth i idx 0%nat))) (mv F (ray2 A (nth i idx 0%nat)))) by (intros; apply (AR_mvec A (nth i idx 0%nat))).
  assert (K0 : forall i, (i < m)%nat -> mvec 9 (s_C svd m AR AE) (of_mat (mT E0)) i = 0).
  { intros i Hi. rewrite C_mvec by auto. assert (Q : forall j, (j < m)%nat -> mvec 9 AE (of_mat (mT E0)) j = mvec 9 AR (fun l => - of_mat (mT R12) l) j).
    { intros j Hj. rewrite mvec_opp, AEm, ARm. rewrite sat_nth in Sat. specialize (Sat j Hj). unfold gen_epi in Sat. lra. }
    rewrite (mvec_ext 9 AR _ _ i (fun l _ => papply_ext svd m 9 AR _ _ l Q)). rewrite (pinv_range svd m 9 AR _ G ltac:(lia) CC) by auto. rewrite Q by auto. ring. }
  pose proof (G m 9%nat (s_C svd m AR AE) ltac:(lia)) as T. unfold s_essential. destruct (svd m 9%nat (s_C svd m AR AE)) as [[U s] V].
  destruct (thin_full m 9 _ _ _ _ ltac:(lia) T) as (W & GW & _).
  assert (NE : E0 <> mzero) by now apply essential_zero.
  assert (NE' : mT E0 <> mzero) by (intro Q; apply NE; rewrite <- (mT_mT E0), Q; reflexivity).
  assert (Kl : forall i, (i < m)%nat -> mvec 9 (s_C svd m AR AE) (gcol V 8) i = 0).
  { apply (gsvd_last_kernel _ _ _ _ _ _ GW (of_mat (mT E0)) ltac:(lia)); auto. apply mat_nonzero. now rewrite to_of. }
  set (e := gcol V 8) in *.
  assert (ofto : forall f i B, mvec 9 B (of_mat (to_mat f)) i = mvec 9 B f i).
  { intros f i B. apply mvec_ext. apply to_mat_inj. apply to_of. }
  set (r := fun l => - papply svd m 9 AR (mvec 9 AE e) l).
  destruct (Uni (mT (to_mat e)) (mT (to_mat r))) as [c Ec].
  { rewrite sat_nth. intros i Hi. unfold gen_epi. rewrite <- AEm, Rplus_assoc, <- ARm, !mT_mT, !ofto.
    unfold r. rewrite mvec_opp. specialize (Kl i Hi). rewrite C_mvec in Kl by auto. lra. }
  assert (Nc : c <> 0).
  { intro Z. destruct (gsvd_col_nonzero _ _ _ _ _ _ GW 8 ltac:(lia)) as (j & Hj & Nj). apply Nj. fold e.
    apply (to_mat_inj e (fun _ => 0)); auto. rewrite <- (mT_mT (to_mat e)), Ec, Z. clear. generalize E0. clear. intros []. unfold to_mat. lunf. f_equal; ring. }
  assert (EE : to_mat e = mscale (- c) (mmul (skew (mv (mT R12) t12)) (mT R12))).
  { rewrite <- (mT_mT (to_mat e)), Ec. unfold E0, essential.
    assert (S : mmul (skew (mv (mT R12) t12)) (mT R12) = mmul (mT R12) (skew t12)).
    { apply mv_ext. intro x. rewrite !mv_mmul. assert (Sk : forall u v, mv (skew u) v = cross u v) by (clear; lring). rewrite !Sk.
      symmetry. apply rot_cross. now apply rot_T. }
    rewrite S. generalize R12 t12. clear. lring. }
  assert (Nt' : mv (mT R12) t12 <> v0).
  { intro Z. apply Ht. rewrite <- (rot_mv_T R12 t12 HR), <- mv_mmul. rewrite mv_mmul, Z. apply mv_0. }
  pose proof (C48_true_motion_is_candidate svd3 (mT R12) (mv (mT R12) t12) (- c) (rot_T _ HR) Nt' ltac:(lra)) as C48.
  cbv zeta in C48. rewrite <- EE in C48. specialize (C48 (S3 _)).
  unfold s_rotations, decompose in *. destruct (svd3 (to_mat e)) as [[U3 s3] V3]. cbn [fst snd In] in *.
  destruct C48 as [Q|[Q|[Q|[Q|[]]]]]; injection Q as Q _; rewrite Q, mT_mT; auto.
Qed.

(** Noise-free rays: if the correspondences determine the essential matrix up
    to scale among all solutions of the linear constraint, and the rigid motion
    among all rigid motions, the motion is returned exactly - scale included -
    provided that no singular value falls below the tolerance without being
    zero. *)
Theorem C76_recovers : forall svd svd3 A idx R12 t12, good_thin svd -> (forall E, is_svd E (svd3 E)) -> (16 < length idx)%nat ->
  rotation R12 -> t12 <> v0 -> (forall k, In k idx -> rays_meet R12 t12 A k) ->
  (forall E R', gen_sat E R' A idx -> exists c, E = mscale c (essential R12 t12)) ->
  (forall R' t', rotation R' -> gen_sat (essential R' t') R' A idx -> R' = R12 /\ t' = t12) ->
  clear_cut svd (length idx) 9 (fun i => s_AR A (nth i idx 0%nat)) ->
  clear_cut svd (length idx) 3 (tr_A A idx R12) ->
  seventeenpt svd svd3 A idx = Some (Pose R12 t12).
Proof.
  intros svd svd3 A idx R12 t12 G S3 Hm HR Ht Meet Uni Rig CC CT.
  assert (Sat : gen_sat (essential R12 t12) R12 A idx) by (intros k Hk; apply meet_epi; auto).
  pose proof (true_rotation svd svd3 A idx R12 t12 G S3 ltac:(lia) HR Ht Sat Uni CC) as TR. cbv zeta in TR.
  pose proof (rotations_rotation svd3 (s_essential svd (length idx) (fun i => s_AR A (nth i idx 0%nat)) (fun i => s_AE A (nth i idx 0%nat))) (S3 _)) as [Ha Hb].
  unfold seventeenpt. replace (Nat.ltb 16 (length idx)) with true by (symmetry; apply Nat.ltb_lt; auto).
  destruct (s_rotations _ _) as [Ra Rb]. cbn [fst snd] in *.
  assert (Sol : tr_solve svd (length idx) (tr_A A idx R12) (tr_b A idx R12) = t12).
  { assert (B : forall j, (j < length idx)%nat -> tr_b A idx R12 j = mvec 3 (tr_A A idx R12) (ventry t12) j).
    { intros j Hj. rewrite sat_nth in Sat. specialize (Sat j Hj). rewrite <- tr_mvec in Sat. lra. }
    assert (K : forall y, (forall i, (i < length idx)%nat -> mvec 3 (tr_A A idx R12) y i = 0) -> forall j, (j < 3)%nat -> y j = 0).
    { intros y Hy. destruct (Rig R12 (vadd t12 (V3 (y 0%nat) (y 1%nat) (y 2%nat))) HR) as [_ Et].
      - rewrite sat_nth. intros i Hi. rewrite <- tr_mvec, B by auto. rewrite <- (Hy i Hi). unfold mvec, vdot. destruct t12. cbn. ring.
      - destruct t12 as [tx ty tz]. unfold vadd in Et. cbn [vx vy vz] in Et. injection Et as E1 E2 E3.
        intros j Hj. do 3 (destruct j as [|j]; [lra|]). lia. }
    assert (P : forall i, (i < 3)%nat -> sumn (length idx) (fun j => pseudo_inverse svd (length idx) 3 (tr_A A idx R12) i j * tr_b A idx R12 j) = ventry t12 i).
    { intros i Hi. change (papply svd (length idx) 3 (tr_A A idx R12) (tr_b A idx R12) i = ventry t12 i).
      rewrite (papply_ext svd _ 3 _ _ _ i B). apply pinv_left; auto. lia. }
    unfold tr_solve. rewrite !P by lia. destruct t12. reflexivity. }
  assert (F0 : tr_fit (length idx) (tr_A A idx R12) (tr_b A idx R12) t12 = 0) by now apply fit_zero.
  assert (Fp : forall T b t, 0 <= tr_fit (length idx) T b t) by (intros; apply sqrt_pos).
  f_equal. destruct TR as [->| ->].
  - rewrite Sol, F0. destruct (Rlt_dec _ _) as [L|L]; auto.
    set (tb := tr_solve _ _ (tr_A A idx Rb) _) in *. pose proof (Fp (tr_A A idx Rb) (tr_b A idx Rb) tb) as P.
    assert (Z : tr_fit (length idx) (tr_A A idx Rb) (tr_b A idx Rb) tb = 0) by lra. apply fit_zero in Z.
    destruct (Rig Rb tb Hb Z) as [-> ->]. reflexivity.
  - rewrite Sol, F0. destruct (Rlt_dec _ _) as [L|L]; auto.
    pose proof (Fp (tr_A A idx Ra) (tr_b A idx Ra) (tr_solve svd (length idx) (tr_A A idx Ra) (tr_b A idx Ra))). lra.
Qed.
(** In particular if the pair (essential matrix, rotation) is the only solution
    of the seventeen or more linear equations up to scale. *)
Theorem C76_recovers_linear : forall svd svd3 A idx R12 t12, good_thin svd -> (forall E, is_svd E (svd3 E)) -> (16 < length idx)%nat ->
  rotation R12 -> t12 <> v0 -> (forall k, In k idx -> rays_meet R12 t12 A k) ->
  (forall E R', gen_sat E R' A idx -> exists c, E = mscale c (essential R12 t12) /\ R' = mscale c R12) ->
  clear_cut svd (length idx) 9 (fun i => s_AR A (nth i idx 0%nat)) ->
  clear_cut svd (length idx) 3 (tr_A A idx R12) ->
  seventeenpt svd svd3 A idx = Some (Pose R12 t12).
Proof.
  intros svd svd3 A idx R12 t12 G S3 Hm HR Ht Meet Uni CC CT. apply C76_recovers; auto.
  - intros E R' S. destruct (Uni E R' S) as (c & ? & _). eauto.
  - intros R' t' HR' S. destruct (Uni _ _ S) as (c & Ee & Er).
    assert (c = 1).
    { destruct HR as [_ D], HR' as [_ D']. rewrite Er, det_mscale, D in D'. clear - D'.
      assert (Q : (c - 1) * (c * c + c + 1) = 0) by (ring_simplify in D'; ring_simplify; lra).
      apply Rmult_integral in Q. destruct Q as [Q|Q]; [lra|]. exfalso. nra. }
    subst c. assert (ER : R' = R12) by (rewrite Er; generalize R12; clear; lring). split; auto. rewrite ER in Ee.
    unfold essential in Ee. assert (Es : skew t' = skew t12).
    { destruct HR as [Ro _]. transitivity (mmul (mmul (skew t') R12) (mT R12)).
      - rewrite <- mmul_assoc, (orth_r _ Ro), mmul_id_r. reflexivity.
      - rewrite Ee. replace (mscale 1 (mmul (skew t12) R12)) with (mmul (skew t12) R12) by (generalize (mmul (skew t12) R12); clear; lring).
        rewrite <- mmul_assoc, (orth_r _ Ro), mmul_id_r. reflexivity. }
    clear - Es. destruct t', t12. revert Es. lunf. intro Q. injection Q as Q1 Q2 Q3 Q4 Q5 Q6. f_equal; lra.
Qed.

(** The translation minimises the sum of the squared generalized epipolar
    errors for the returned rotation, and no choice of translation does better
    with the other rotation of the essential matrix. *)
Definition epi_cost (T : pose) (A : rel_adapter) (idx : list nat) : R :=
  rsum (map (fun k => gen_epi (essential (pR T) (pt T)) (pR T) A k ^ 2) idx).
Lemma cost_fit A idx M t : epi_cost (Pose M t) A idx = sumn (length idx) (fun i => (mvec 3 (tr_A A idx M) (ventry t) i - tr_b A idx M i) ^ 2).
Proof.
  rewrite (sumn_ext (length idx) _ (fun i => gen_epi (essential M t) M A (nth i idx 0%nat) ^ 2)) by (intros; now rewrite tr_mvec).
  unfold epi_cost. cbn [pR pt]. induction idx as [|k idx IH] using rev_ind; [reflexivity|].
  rewrite app_length, Nat.add_1_r. cbn [sumn]. rewrite map_app. cbn [map].
  rewrite (sumn_ext _ _ (fun i => gen_epi (essential M t) M A (nth i idx 0%nat) ^ 2)) by (intros i Hi; now rewrite app_nth1).
  rewrite <- IH. rewrite app_nth2, Nat.sub_diag by lia. cbn [nth]. rewrite rsum_app. sums. ring.
Qed.
(** (A z) . (A A^+ b - b) = 0 *)
Lemma pinv_normal svd m n A b z : good_thin svd -> (0 < n <= m)%nat -> clear_cut svd m n A ->
  vdot m (mvec n A z) (fun i => mvec n A (papply svd m n A b) i - b i) = 0.
Proof.
  intros G Hn C. unfold clear_cut in C. pose proof (G m n A ltac:(lia)) as T. pose proof (papply_eq svd m n A b) as PE.
  destruct (svd m n A) as [[U s] V] eqn:E.
  assert (Vb : forall k, (k < n)%nat -> vdot n (gcol V k) (papply svd m n A b) = sigma_inverse m s k * vdot m (gcol U k) b).
  { intros k Hk. rewrite (vdot_ext n _ _ (gcol V k) (fun j => sumn n (fun l => sigma_inverse m s l * vdot m (gcol U l) b * gcol V l j))); auto.
    - rewrite vdot_sum. transitivity (sumn n (fun l => delta l k * (sigma_inverse m s l * vdot m (gcol U l) b))); [|now apply sumn_delta].
      apply sumn_ext. intros l Hl. rewrite vdot_scale. destruct (thin_V _ _ _ _ _ _ T) as [GV _]. rewrite GV by auto.
      unfold delta. destruct (Nat.eq_dec k l), (Nat.eq_dec l k); try lia; ring.
    - intros j Hj. rewrite PE. apply sumn_ext. intros l Hl. unfold gcol. ring. }
  set (r := fun i => mvec n A (papply svd m n A b) i - b i).
  assert (Ur : forall k, (k < n)%nat -> vdot m (gcol U k) r = s k * (sigma_inverse m s k * vdot m (gcol U k) b) - vdot m (gcol U k) b).
  { intros k Hk. rewrite <- (Vb k Hk), <- (thin_coef m n A U V s ltac:(lia) T) by auto. unfold r, vdot. rewrite <- sumn_sub. apply sumn_ext. intros; ring. }
  rewrite vdot_comm, (vdot_ext m _ _ r (fun i => sumn n (fun k => s k * vdot n (gcol V k) z * gcol U k i))) by (auto; intros; now apply (thin_mvec m n A U V s ltac:(lia) T)).
  rewrite vdot_sum. apply sumn_0. intros k Hk. rewrite vdot_scale, (vdot_comm m r), (Ur k Hk).
  destruct (sigma_product m s k (C k Hk) (thin_pos _ _ _ _ _ _ T 0%nat ltac:(lia))) as [S _].
  transitivity ((sigma_inverse m s k * s k * s k - s k) * vdot n (gcol V k) z * vdot m (gcol U k) b); [ring|]. rewrite S. ring.
Qed.
Lemma pinv_least svd m n A b y : good_thin svd -> (0 < n <= m)%nat -> clear_cut svd m n A ->
  sumn m (fun i => (mvec n A (papply svd m n A b) i - b i) ^ 2) <= sumn m (fun i => (mvec n A y i - b i) ^ 2).
Proof.
  intros G Hn C. set (x := papply svd m n A b). set (z := fun j => y j - x j).
  assert (Z : forall i, mvec n A y i = mvec n A x i + mvec n A z i).
  { intro i. unfold mvec, vdot, z. rewrite <- sumn_add. apply sumn_ext. intros; ring. }
  rewrite (sumn_ext m (fun i => (mvec n A y i - b i) ^ 2) (fun i => ((mvec n A x i - b i) ^ 2 + 2 * (mvec n A z i * (mvec n A x i - b i))) + mvec n A z i ^ 2)) by (intros; rewrite Z; ring).
  rewrite !sumn_add, sumn_scale. pose proof (pinv_normal svd m n A b z G Hn C) as N. unfold vdot in N. fold x in N. rewrite N.
  assert (0 <= sumn m (fun i => mvec n A z i ^ 2)) by (apply sumn_nonneg; intros; apply pow2_ge_0). lra.
Qed.
Theorem C76_least_squares : forall svd svd3 A idx T t', good_thin svd -> seventeenpt svd svd3 A idx = Some T ->
  clear_cut svd (length idx) 3 (tr_A A idx (pR T)) -> epi_cost T A idx <= epi_cost (Pose (pR T) t') A idx.
Proof.
  intros svd svd3 A idx T t' G. unfold seventeenpt. destruct (Nat.ltb 16 (length idx)) eqn:L; [|discriminate]. apply Nat.ltb_lt in L.
  assert (K : forall M, clear_cut svd (length idx) 3 (tr_A A idx M) ->
     epi_cost (Pose M (tr_solve svd (length idx) (tr_A A idx M) (tr_b A idx M))) A idx <= epi_cost (Pose M t') A idx).
  { intros M C. rewrite !cost_fit. pose proof (pinv_least svd (length idx) 3 (tr_A A idx M) (tr_b A idx M) (ventry t') G ltac:(lia) C) as P.
    refine (Rle_trans _ _ _ (Req_le _ _ _) P). apply sumn_ext. intros i Hi. reflexivity. }
  destruct (s_rotations _ _) as [Ra Rb]. intro E. injection E as <-. destruct (Rlt_dec _ _); cbn [pR]; apply K.
Qed.

(** If all camera centres coincide with the body origin, the translation
    returned is zero, whatever the motion: the least-squares system is
    homogeneous. *)
Theorem C76_central_translation_zero : forall svd svd3 A idx T, (forall k, In k idx -> ro1 A k = v0 /\ ro2 A k = v0) ->
  seventeenpt svd svd3 A idx = Some T -> pt T = v0.
Proof.
  intros svd svd3 A idx T Z. unfold seventeenpt. destruct (Nat.ltb 16 (length idx)); [|discriminate].
  assert (B : forall M i, (i < length idx)%nat -> tr_b A idx M i = 0).
  { intros M i Hi. destruct (Z (nth i idx 0%nat) (nth_In _ _ Hi)) as [Z1 Z2]. unfold tr_b, s_m1, s_m2. rewrite Z1, Z2.
    generalize (s_d1 A (nth i idx 0%nat)) (s_d2 A (nth i idx 0%nat)). clear. lring. }
  assert (S : forall M, tr_solve svd (length idx) (tr_A A idx M) (tr_b A idx M) = v0).
  { intro M. unfold tr_solve. rewrite !sumn_0; [reflexivity| | |]; intros j Hj; rewrite B by auto; ring. }
  destruct (s_rotations _ _) as [Ra Rb]. intro E. injection E as <-. destruct (Rlt_dec _ _); cbn [pt]; apply S.
Qed.
