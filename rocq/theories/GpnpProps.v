(** gpnp (C56, C62, C63): the linear system and its solution set, exact recovery
    of the pose in the full rank case, the choice among the candidates, and what
    happens for central cameras and in the null space stages. *)
From Coq Require Import Reals List Arith Lia Lra Psatz.
From Verif Require Import Lin GenLin GenSpectral ArunModel ArunProps GbModel GpnpData GpnpInit GpnpModel GpnpGb.
Import ListNotations.
Local Open Scope R_scope.

(** * Specification *)
(** Correspondence [g] is consistent with the body pose (A,t): the world point
    lies on the line through the camera centre along the bearing vector. *)
Definition seen_from (A : mat3) (t : vec3) (g : gcorr) : Prop :=
  exists depth, g_p g = vadd (mv A (vadd (g_off g) (vscale depth (g_f g)))) t.
(** The four points [c] in the body frame, stacked into twelve numbers. *)
Definition in_body (A : mat3) (t : vec3) (c : nat -> vec3) : nat -> R := fun j =>
  let q := mv (mT A) (vsub (c (j / 3)%nat) t) in
  match (j mod 3)%nat with 0%nat => vx q | 1%nat => vy q | _ => vz q end.

(** * Weights *)
Lemma control_diff U c0 k : vsub (control c0 U (S k)) c0 = vscale 15 (col U k).
Proof. cbn. generalize (col U k). lring. Qed.
Lemma col_unit U k : orthogonal U -> (k < 3)%nat -> dot (col U k) (col U k) = 1.
Proof.
  intros O K. unfold orthogonal in O. destruct U. unfold mmul, mT, mid, col in *. cbn -[Rmult Rplus] in *.
  injection O; clear O; intros.
  destruct k as [|[|[|k]]]; [| | |lia]; unfold dot; cbn -[Rmult Rplus]; lra.
Qed.
Lemma weight_eq U c0 p k : orthogonal U -> (k < 3)%nat -> weight c0 U p (S k) = dot (vsub p c0) (col U k) / 15.
Proof.
  intros O K. unfold weight. rewrite control_diff. pose proof (col_unit U k O K) as N.
  replace (dot (vscale 15 (col U k)) (vscale 15 (col U k))) with (225 * dot (col U k) (col U k)) by (generalize (col U k); lring).
  rewrite N. replace (dot (vsub p c0) (vscale 15 (col U k))) with (15 * dot (vsub p c0) (col U k)) by (generalize (col U k), (vsub p c0); lring).
  field.
Qed.
Lemma cols_expand U v : orthogonal U ->
  vadd (vscale (dot v (col U 0)) (col U 0)) (vadd (vscale (dot v (col U 1)) (col U 1)) (vscale (dot v (col U 2)) (col U 2))) = v.
Proof.
  intros O. apply orth_r in O. transitivity (mv (mmul U (mT U)) v).
  - clear O. destruct U, v. unfold col. lunf. f_equal; ring.
  - rewrite O. destruct v. lunf. f_equal; ring.
Qed.

(** The first control point is the centroid: the points minus it add up to zero. *)
Theorem C56_centroid : forall l, l <> [] ->
  fold_right vadd v0 (map (fun g => vsub (g_p g) (centroid l)) l) = v0.
Proof.
  intros l N. assert (S : forall c (m : list gcorr), fold_right vadd v0 (map (fun g => vsub (g_p g) c) m) =
    vsub (fold_left (fun s g => vadd s (g_p g)) m v0) (vscale (INR (length m)) c)).
  { intro c. assert (F : forall (m : list gcorr) s, fold_left (fun s g => vadd s (g_p g)) m s = vadd s (fold_right vadd v0 (map g_p m))).
    { induction m as [|g m IH]; intro s; cbn [fold_left fold_right map]; [destruct s; lring|]. rewrite IH. generalize (fold_right vadd v0 (map g_p m)). destruct s, (g_p g). lring. }
    intro m. rewrite F. induction m as [|g m IH]; [destruct c; cbn; lring|].
    cbn [fold_right map]. rewrite IH. change (length (g :: m)) with (S (length m)). rewrite S_INR.
    generalize (fold_right vadd v0 (map g_p m)) (INR (length m)) (g_p g). clear. lring. }
  rewrite S. unfold centroid. assert (P : 0 < INR (length l)) by (apply lt_0_INR; destruct l; [contradiction|cbn; apply Nat.lt_0_succ]).
  generalize dependent (INR (length l)). generalize (fold_left (fun s g => vadd s (g_p g)) l v0). clear. intros [] r P. lunf. f_equal; field; lra.
Qed.
(** The weights of every point sum to one and reproduce it from the four control points. *)
Theorem C56_weights : forall U c0 p, orthogonal U ->
  weight c0 U p 0%nat + weight c0 U p 1%nat + weight c0 U p 2%nat + weight c0 U p 3%nat = 1 /\
  vadd (vscale (weight c0 U p 0%nat) (control c0 U 0%nat)) (vadd (vscale (weight c0 U p 1%nat) (control c0 U 1%nat))
    (vadd (vscale (weight c0 U p 2%nat) (control c0 U 2%nat)) (vscale (weight c0 U p 3%nat) (control c0 U 3%nat)))) = p.
Proof.
  intros U c0 p O.
  assert (W : weight c0 U p 0%nat = 1 - (weight c0 U p 1%nat + weight c0 U p 2%nat + weight c0 U p 3%nat)) by reflexivity.
  split; [rewrite W; ring|]. rewrite W, !weight_eq by (auto; lia). cbn [control].
  pose proof (cols_expand U (vsub p c0) O) as E.
  revert E. generalize (dot (vsub p c0) (col U 0)) (dot (vsub p c0) (col U 1)) (dot (vsub p c0) (col U 2)).
  generalize (col U 0) (col U 1) (col U 2). clear. intros [] [] [] x y z. destruct p, c0. lunf. intro E. injection E; clear E; intros.
  f_equal; lra.
Qed.

(** * The linear system *)
Lemma cpoint_in_body A t c k : cpoint (in_body A t c) k = mv (mT A) (vsub (c k) t).
Proof.
  unfold cpoint, in_body. rewrite Nat.mul_comm.
  rewrite Nat.div_mul, Nat.mod_mul, !Nat.div_add_l, !(Nat.add_comm (k * 3)), !Nat.mod_add by lia. cbn [Nat.div Nat.modulo Nat.divmod fst snd Nat.sub].
  rewrite !Nat.add_0_r. now destruct (mv (mT A) (vsub (c k) t)).
Qed.

(** The true control points in the body frame satisfy the 2n x 12 system. *)
Theorem C56_linear_system : forall A t U c0 l d, rotation A -> orthogonal U ->
  (forall g, In g l -> seen_from A t g) ->
  forall r, (r < 2 * length l)%nat ->
  mvec 12 (gpnp_A c0 U l d) (in_body A t (control c0 U)) r = gpnp_b l d r.
Proof.
  intros A t U c0 l d HA HU Hl r Hr.
  assert (Hg : In (nth (Nat.div2 r) l d) l).
  { apply nth_In. rewrite Nat.div2_div. apply Nat.div_lt_upper_bound; lia. }
  destruct (Hl _ Hg) as [dep Hd]. set (g := nth (Nat.div2 r) l d) in *.
  destruct (C56_weights U c0 (g_p g) HU) as [W1 W2].
  pose proof (cpoint_in_body A t (control c0 U)) as B. set (s := in_body A t (control c0 U)) in *.
  assert (Q : vadd (vscale (weight c0 U (g_p g) 0) (cpoint s 0)) (vadd (vscale (weight c0 U (g_p g) 1) (cpoint s 1))
     (vadd (vscale (weight c0 U (g_p g) 2) (cpoint s 2)) (vscale (weight c0 U (g_p g) 3) (cpoint s 3)))) = vadd (g_off g) (vscale dep (g_f g))).
  { rewrite !B. transitivity (mv (mT A) (vsub (g_p g) t)).
    - rewrite <- W2 at 5. revert W1. generalize (weight c0 U (g_p g)). generalize (control c0 U). clear. intros c w W.
      replace (w 0%nat) with (1 - w 1%nat - w 2%nat - w 3%nat) by lra. generalize (w 1%nat) (w 2%nat) (w 3%nat).
      generalize (c 0%nat) (c 1%nat) (c 2%nat) (c 3%nat). generalize (mT A). clear. lring.
    - rewrite Hd at 1. replace (vsub (vadd (mv A (vadd (g_off g) (vscale dep (g_f g)))) t) t) with (mv A (vadd (g_off g) (vscale dep (g_f g))))
        by (generalize (mv A (vadd (g_off g) (vscale dep (g_f g)))); clear; lring).
      destruct HA as [HA _]. rewrite <- mv_mmul, HA. apply mv_id. }
  clearbody s. unfold mvec, vdot, gpnp_A, gpnp_b. fold g. revert Q. generalize (weight c0 U (g_p g)). clear. intros w.
  unfold cpoint. destruct (g_f g), (g_off g). cbn -[Rmult Rplus Rminus Ropp]. unfold vadd, vscale. cbn -[Rmult Rplus Rminus Ropp].
  intro Q. injection Q; clear Q; intros Q3 Q2 Q1. destruct (Nat.even r).
  - replace (vz * vx0 - vx * vz0) with (vz * (vx0 + dep * vx) - vx * (vz0 + dep * vz)) by ring. rewrite <- Q1, <- Q3. ring.
  - replace (vz * vy0 - vy * vz0) with (vz * (vy0 + dep * vy) - vy * (vz0 + dep * vz)) by ring. rewrite <- Q2, <- Q3. ring.
Qed.

(** * Solving the system *)
Lemma inv_cut_mul x : / 1000000 < x -> inv_cut x * x = 1.
Proof. intro H. unfold inv_cut. destruct (Rlt_dec _ _); [field|]; lra. Qed.
Lemma inv_cut_0 : inv_cut 0 = 0.
Proof. unfold inv_cut. destruct (Rlt_dec _ _); lra. Qed.

Lemma nth_map_seq {B} (f : nat -> B) d i b : (i < d)%nat -> nth i (map f (seq 0 d)) b = f i.
Proof. intro H. rewrite (nth_indep _ b (f 0%nat)) by (rewrite map_length, seq_length; auto). rewrite map_nth, seq_nth by auto. reflexivity. Qed.

Section Solve.
  Variables (m : nat) (A U V : nat -> nat -> R) (D s b : nat -> R).
  Hypothesis SVD : is_gsvd m 12 A U D V.
  Hypothesis Hm : (12 <= m)%nat.
  Hypothesis Sol : forall r, (r < m)%nat -> mvec 12 A s r = b r.
  Lemma dot_U_b k : (k < 12)%nat -> vdot m (gcol U k) b = D k * vdot 12 (gcol V k) s.
  Proof.
    intro K. rewrite (vdot_ext m _ b (gcol U k) (fun i => sumn 12 (fun l => D l * vdot 12 (gcol V l) s * U i l))).
    - rewrite (vdot_sum m 12 (gcol U k) (fun l i => D l * vdot 12 (gcol V l) s * U i l)).
      rewrite (sumn_ext 12 _ (fun l => delta l k * (D l * vdot 12 (gcol V l) s))).
      + rewrite sumn_delta by auto. reflexivity.
      + intros l L. rewrite (vdot_scale m (gcol U k) (D l * vdot 12 (gcol V l) s) (fun i => U i l)).
        change (fun i => U i l) with (gcol U l). destruct (gsvd_U _ _ _ _ _ _ SVD) as [G _]. rewrite G by lia.
        unfold delta. destruct (Nat.eq_dec k l), (Nat.eq_dec l k); try congruence; ring.
    - reflexivity.
    - intros i I. rewrite <- Sol by auto. rewrite (gsvd_mvec _ _ _ _ _ _ SVD) by auto. rewrite Nat.min_r by lia. reflexivity.
  Qed.
  (** what the code's pseudo-inverse does to a consistent system *)
  Lemma intercept_comp j : (j < 12)%nat ->
    intercept m U D V b j = sumn 12 (fun k => (inv_cut (D k) * D k) * (vdot 12 (gcol V k) s * V j k)).
  Proof. intro J. unfold intercept. apply sumn_ext. intros k K. rewrite dot_U_b by auto. ring. Qed.
  Lemma intercept_exact : (forall k, (k < 12)%nat -> / 1000000 < D k) -> forall j, (j < 12)%nat -> intercept m U D V b j = s j.
  Proof.
    intros P j J. rewrite intercept_comp, (gorth_expand 12 V s (gsvd_V _ _ _ _ _ _ SVD) j J) by auto.
    apply sumn_ext. intros k K. rewrite inv_cut_mul by auto. ring.
  Qed.
  (** with the last d singular values zero and the others above the cut-off *)
  Lemma intercept_null d : (d <= 12)%nat -> (forall k, (k < 12 - d)%nat -> / 1000000 < D k) ->
    (forall k, (12 - d <= k < 12)%nat -> D k = 0) -> forall j, (j < 12)%nat ->
    combine (intercept m U D V b) V (map (fun i => vdot 12 (gcol V (12 - d + i)) s) (seq 0 d)) j = s j.
  Proof.
    intros Hd P Z j J. unfold combine. rewrite map_length, seq_length, intercept_comp by auto.
    rewrite (gorth_expand 12 V s (gsvd_V _ _ _ _ _ _ SVD) j J).
    remember (12 - d)%nat as e. replace 12%nat with (e + d)%nat by lia. rewrite !sumn_split.
    rewrite (sumn_0 d (fun i => inv_cut (D (e + i)%nat) * D (e + i)%nat * _)).
    - rewrite Rplus_0_r. f_equal.
      + apply sumn_ext. intros k K. rewrite inv_cut_mul by (apply P; lia). ring.
      + apply sumn_ext. intros i I. rewrite nth_map_seq by auto. reflexivity.
    - intros i I. rewrite Z by lia. ring.
  Qed.
End Solve.

(** * Errors of the candidates and the choice among them *)
Lemma dot_le_norms a b : dot a b <= norm a * norm b.
Proof.
  unfold norm. rewrite <- sqrt_mult by apply norm2_nonneg.
  destruct (Rle_dec (dot a b) 0) as [N|N]; [pose proof (sqrt_pos (norm2 a * norm2 b)); lra|].
  rewrite <- (sqrt_pow2 (dot a b)) by lra. apply sqrt_le_1_alt.
  pose proof (norm2_nonneg (cross a b)) as P.
  replace (norm2 (cross a b)) with (norm2 a * norm2 b - dot a b ^ 2) in P by (clear; destruct a, b; lunf; ring). lra.
Qed.
Lemma obind_some {X Y} (o : option X) (f : X -> option Y) y : obind o f = Some y -> exists x, o = Some x /\ f x = Some y.
Proof. destruct o; [eexists; split; [reflexivity|auto]|discriminate]. Qed.
Lemma eval_term_nonneg T ci cc e : eval_term T ci cc = Some e -> 0 <= e.
Proof.
  unfold eval_term. intro H. apply obind_some in H as (q & H & E). injection E as <-.
  unfold odiv in H. destruct (Req_EM_T _ _) as [|N]; [discriminate|]. injection H as <-.
  set (r := mv _ _) in *. pose proof (dot_le_norms r cc) as D. pose proof (sqrt_pos (norm2 cc)). pose proof (sqrt_pos (norm2 r)).
  unfold norm in *. assert (0 < sqrt (norm2 cc) * sqrt (norm2 r)).
  { destruct (Rmult_le_pos (sqrt (norm2 cc)) (sqrt (norm2 r))) as [L|L]; auto. congruence. }
  assert (dot r cc / (sqrt (norm2 cc) * sqrt (norm2 r)) <= 1); [|lra].
  apply Rmult_le_reg_r with (sqrt (norm2 cc) * sqrt (norm2 r)); auto. unfold Rdiv. rewrite Rmult_assoc, Rinv_l by lra. lra.
Qed.
Lemma gpnp_error_sum T s c e : gpnp_error T s c = Some e <-> exists e0 e1 e2 e3,
  eval_term T (c 0%nat) (cpoint s 0) = Some e0 /\ eval_term T (c 1%nat) (cpoint s 1) = Some e1 /\
  eval_term T (c 2%nat) (cpoint s 2) = Some e2 /\ eval_term T (c 3%nat) (cpoint s 3) = Some e3 /\ e = e0 + e1 + e2 + e3.
Proof.
  unfold gpnp_error. cbn [seq fold_left obind].
  destruct (eval_term T (c 0%nat) (cpoint s 0)) as [e0|]; cbn [obind]; [|split; [discriminate|intros (?&?&?&?&?&_); discriminate]].
  destruct (eval_term T (c 1%nat) (cpoint s 1)) as [e1|]; cbn [obind]; [|split; [discriminate|intros (?&?&?&?&?&?&_); discriminate]].
  destruct (eval_term T (c 2%nat) (cpoint s 2)) as [e2|]; cbn [obind]; [|split; [discriminate|intros (?&?&?&?&?&?&?&_); discriminate]].
  destruct (eval_term T (c 3%nat) (cpoint s 3)) as [e3|]; cbn [obind]; [|split; [discriminate|intros (?&?&?&?&?&?&?&?&_); discriminate]].
  rewrite Rplus_0_l. split.
  - intro H. injection H as <-. exists e0, e1, e2, e3. auto.
  - intros (?&?&?&?&A&B&C&D&->). congruence.
Qed.
Lemma gpnp_error_nonneg T s c e : gpnp_error T s c = Some e -> 0 <= e.
Proof.
  intro H. apply gpnp_error_sum in H as (e0 & e1 & e2 & e3 & H0 & H1 & H2 & H3 & ->).
  apply eval_term_nonneg in H0, H1, H2, H3. lra.
Qed.
Lemma candidate_nonneg svd lm a V c k e : snd (candidate svd lm a V c k) = Some e -> 0 <= e.
Proof.
  unfold candidate. destruct k as [|k]; [|destruct (stage a V c (S k))]; cbn [snd]; try discriminate; apply gpnp_error_nonneg.
Qed.
Section Selection.
  Variable C : nat -> (mat3 * vec3) * option R.
  Let sel best i := let r := C i in if better (snd r) (snd best) then r else best.
  Lemma better_spec x y : better (Some x) (Some y) = true <-> x < y.
  Proof. cbn. destruct (Rlt_dec x y); split; auto; discriminate. Qed.
  (** a best candidate with a number as error ends with the smallest number *)
  Lemma select_best l : forall k e, snd (C k) = Some e ->
    exists k' e', fold_left sel l (C k) = C k' /\ (k' = k \/ In k' l) /\ snd (C k') = Some e' /\ e' <= e /\
      forall j x, In j l -> snd (C j) = Some x -> e' <= x.
  Proof.
    induction l as [|i l IH]; intros k e E; cbn [fold_left].
    - exists k, e. split; auto. split; auto. split; auto. split; [lra|]. intros j x [].
    - assert (SV : (sel (C k) i = C i /\ exists y, snd (C i) = Some y /\ y < e) \/ (sel (C k) i = C k /\ forall y, snd (C i) = Some y -> e <= y)).
      { unfold sel. cbv zeta. destruct (better (snd (C i)) (snd (C k))) eqn:B; [left|right]; split; auto.
        - destruct (snd (C i)) as [y|]; [|discriminate]. exists y. split; auto. rewrite E in B. now apply better_spec.
        - intros y Y. rewrite Y, E in B. destruct (Rlt_dec y e) as [L|L]; [apply better_spec in L; congruence|lra]. }
      destruct SV as [(-> & y & Ei & Ly)|(-> & Ly)].
      + destruct (IH i y Ei) as (k' & e' & H1 & H2 & H3 & H4 & H5). exists k', e'. rewrite H1.
        split; auto. split; [cbn; destruct H2; subst; auto|]. split; auto. split; [lra|].
        intros j x [<-|J] X; [rewrite Ei in X; injection X as <-; lra|eauto].
      + destruct (IH k e E) as (k' & e' & H1 & H2 & H3 & H4 & H5). exists k', e'. rewrite H1.
        split; auto. split; [cbn; destruct H2; subst; auto|]. split; auto. split; [lra|].
        intros j x [<-|J] X; [apply Ly in X; lra|eauto].
  Qed.
  Lemma select_keeps l : forall best, (forall j, In j l -> better (snd (C j)) (snd best) = false) -> fold_left sel l best = best.
  Proof.
    induction l as [|i l IH]; intros best H; cbn [fold_left]; auto. unfold sel at 2. rewrite H by (cbn; auto). apply IH. intros; apply H; cbn; auto.
  Qed.
End Selection.

(** The transformation returned is the one of a candidate whose error is a
    number and not larger than that of any other candidate. *)
Theorem C56_best_candidate : forall svd lm a V c e0, snd (candidate svd lm a V c 0) = Some e0 ->
  exists k e, (k <= 5)%nat /\ gpnp_main svd lm a V c = fst (candidate svd lm a V c k) /\ snd (candidate svd lm a V c k) = Some e /\
    0 <= e <= e0 /\ forall j x, (1 <= j <= 5)%nat -> snd (candidate svd lm a V c j) = Some x -> e <= x.
Proof.
  intros svd lm a V c e0 H.
  destruct (select_best (candidate svd lm a V c) (seq 1 5) 0 e0 H) as (k & e & H1 & H2 & H3 & H4 & H5).
  exists k, e. split; [destruct H2 as [->|I]; [lia|apply in_seq in I; lia]|]. split; [exact (f_equal fst H1)|]. split; auto.
  split; [split; [eapply candidate_nonneg; eauto|auto]|]. intros j x J X. apply (H5 j x); auto. apply in_seq. lia.
Qed.

(** * Recovery of the pose *)
Lemma gpnp_align_ext svd s s' c : (forall k, (k < 4)%nat -> cpoint s k = cpoint s' k) -> gpnp_align svd s c = gpnp_align svd s' c.
Proof. intro H. unfold gpnp_align. cbn [seq map]. rewrite !H by lia. reflexivity. Qed.
Lemma gpnp_error_ext T s s' c : (forall k, (k < 4)%nat -> cpoint s k = cpoint s' k) -> gpnp_error T s c = gpnp_error T s' c.
Proof. intro H. unfold gpnp_error. cbn [seq fold_left]. rewrite !H by lia. reflexivity. Qed.
Lemma cpoint_ext s s' : (forall j, (j < 12)%nat -> s j = s' j) -> forall k, (k < 4)%nat -> cpoint s k = cpoint s' k.
Proof. intros H k K. unfold cpoint. rewrite !H by lia. reflexivity. Qed.

Lemma col_cross U : orthogonal U -> norm2 (cross (col U 0) (col U 1)) = 1.
Proof.
  intro O. assert (N0 := col_unit U 0 O ltac:(lia)). assert (N1 := col_unit U 1 O ltac:(lia)).
  assert (P : dot (col U 0) (col U 1) = 0).
  { unfold orthogonal in O. clear - O. destruct U. unfold mmul, mT, mid, col in *. cbn -[Rmult Rplus] in *. injection O; intros. unfold dot; cbn -[Rmult Rplus]. lra. }
  replace (norm2 (cross (col U 0) (col U 1))) with (dot (col U 0) (col U 0) * dot (col U 1) (col U 1) - dot (col U 0) (col U 1) ^ 2)
    by (generalize (col U 0) (col U 1); clear; intros [] []; lunf; ring).
  rewrite N0, N1, P. ring.
Qed.

Lemma align_true svd A t c0 U : (forall H, is_svd H (svd H)) -> rotation A -> orthogonal U ->
  gpnp_align svd (in_body A t (control c0 U)) (control c0 U) = (A, t).
Proof.
  intros S HA HU. unfold gpnp_align. change arun_complete with threept_arun. apply C30_recovers_the_motion; auto.
  - intros p Hp. apply in_map_iff in Hp as (k & <- & _). cbn [fst snd]. rewrite cpoint_in_body, <- mv_mmul, rot_r, mv_id by auto.
    generalize (control c0 U k). clear. intros []; destruct t. lunf. f_equal; ring.
  - exists (control c0 U 0%nat, cpoint (in_body A t (control c0 U)) 0), (control c0 U 1%nat, cpoint (in_body A t (control c0 U)) 1),
      (control c0 U 2%nat, cpoint (in_body A t (control c0 U)) 2).
    split; [cbn; auto|]. split; [cbn; auto|]. split; [cbn; auto|]. cbn [snd]. rewrite !cpoint_in_body. unfold collinear3. intro E.
    rewrite <- !mv_sub in E. cbn [control] in E.
    replace (vsub (vsub (vadd c0 (vscale 15 (col U 0))) t) (vsub c0 t)) with (vscale 15 (col U 0)) in E by (generalize (col U 0); clear; lring).
    replace (vsub (vsub (vadd c0 (vscale 15 (col U 1))) t) (vsub c0 t)) with (vscale 15 (col U 1)) in E by (generalize (col U 1); clear; lring).
    assert (Z : norm2 (cross (mv (mT A) (vscale 15 (col U 0))) (mv (mT A) (vscale 15 (col U 1)))) = 50625 * norm2 (cross (col U 0) (col U 1))).
    { assert (OT : orthogonal (mT A)) by (apply orth_T, HA). generalize (col U 0) (col U 1). intros u v.
      assert (L : forall a b, norm2 (cross a b) = dot a a * dot b b - dot a b ^ 2) by (clear; intros [] []; lunf; ring).
      rewrite !L, !orth_dot by auto. clear. destruct u, v. lunf. ring. }
    rewrite E, col_cross in Z by auto. clear - Z. unfold norm2, dot, v0 in Z. cbn in Z. lra.
Qed.
Lemma error_true A t c s : rotation A -> (forall k, (k < 4)%nat -> c k <> t) ->
  (forall k, (k < 4)%nat -> cpoint s k = mv (mT A) (vsub (c k) t)) -> gpnp_error (A, t) s c = Some 0.
Proof.
  intros HA N B. assert (T : forall k, (k < 4)%nat -> eval_term (A, t) (c k) (cpoint s k) = Some 0).
  { intros k K. unfold eval_term. cbn [fst snd]. rewrite B by auto. set (r := mv (mT A) (vsub (c k) t)).
    assert (NZ : r <> v0).
    { intro E. apply (N k K). assert (E' : mv A r = vsub (c k) t) by (unfold r; rewrite <- mv_mmul, rot_r, mv_id; auto).
      rewrite E, mv_0 in E'. clear - E'. destruct (c k), t. unfold vsub, v0 in E'. cbn in E'. injection E'; intros. f_equal; lra. }
    assert (NN : norm r * norm r = norm2 r) by apply sqrt_sqrt, norm2_nonneg.
    unfold odiv. rewrite NN. destruct (Req_EM_T (norm2 r) 0) as [Z|Z]; [apply norm2_zero in Z; congruence|].
    cbn [obind]. f_equal. unfold norm2 in *. field. exact Z. }
  apply gpnp_error_sum. exists 0, 0, 0, 0. repeat split; try (apply T; lia). ring.
Qed.

(** Noise-free data, a system of full rank (no singular value at or below the
    cut-off), at least six points, and no control point at the body origin:
    gpnp returns the true pose - whatever the null space stages and the
    nonlinear refinement do. *)
Theorem C56_recovers_pose : forall svd3 svdP svdA lm l A t,
  let c0 := centroid l in
  let U := svdP (map (fun g => vsub (g_p g) c0) l) in
  let M := gpnp_A c0 U l (GCorr v0 v0 v0) in
  let '(U2, D, V) := svdA (2 * length l)%nat M in
  (forall H, is_svd H (svd3 H)) -> orthogonal U -> is_gsvd (2 * length l) 12 M U2 D V ->
  (6 <= length l)%nat -> rotation A -> (forall g, In g l -> seen_from A t g) ->
  (forall k, (k < 4)%nat -> control c0 U k <> t) ->
  (forall k, (k < 12)%nat -> / 1000000 < D k) ->
  gpnp svd3 svdP svdA lm l = (A, t).
Proof.
  intros svd3 svdP svdA lm l A t c0 U M. destruct (svdA (2 * length l)%nat M) as [[U2 D] V] eqn:ES.
  intros S3 HU HS Hn HA Hl Hc HD. unfold gpnp. fold c0. fold U. fold M. rewrite ES.
  set (a := intercept _ _ _ _ _).
  assert (Ea : forall j, (j < 12)%nat -> a j = in_body A t (control c0 U) j).
  { unfold a. eapply intercept_exact; eauto; [lia|]. intros r Hr. now apply C56_linear_system. }
  assert (Ec := cpoint_ext _ _ Ea). clearbody a.
  assert (T0 : gpnp_align svd3 a (control c0 U) = (A, t)) by (rewrite (gpnp_align_ext _ _ _ _ Ec); now apply align_true).
  assert (E0 : gpnp_error (A, t) a (control c0 U) = Some 0).
  { apply error_true; auto. intros k K. rewrite Ec by auto. apply cpoint_in_body. }
  assert (C0 : candidate svd3 lm a V (control c0 U) 0 = ((A, t), Some 0)) by (cbn [candidate]; rewrite T0, E0; reflexivity).
  transitivity (fst (candidate svd3 lm a V (control c0 U) 0)); [|now rewrite C0].
  refine (f_equal fst (select_keeps (candidate svd3 lm a V (control c0 U)) (seq 1 5) _ _)). rewrite C0.
  intros j J. cbn [snd]. destruct (snd (candidate svd3 lm a V (control c0 U) j)) as [x|] eqn:X; [|reflexivity].
  apply candidate_nonneg in X. cbn. destruct (Rlt_dec x 0); [lra|reflexivity].
Qed.

(** If instead the last d singular values are zero, coefficients of the last d
    right singular vectors exist that give the true control points, which then
    have the right mutual distances and lead to the true pose. *)
Theorem C56_null_space : forall svd3 l A t c0 U U2 D V d,
  (forall H, is_svd H (svd3 H)) -> orthogonal U ->
  is_gsvd (2 * length l) 12 (gpnp_A c0 U l (GCorr v0 v0 v0)) U2 D V ->
  (6 <= length l)%nat -> rotation A -> (forall g, In g l -> seen_from A t g) ->
  (d <= 12)%nat -> (forall k, (k < 12 - d)%nat -> / 1000000 < D k) -> (forall k, (12 - d <= k < 12)%nat -> D k = 0) ->
  exists x, length x = d /\
    let s := combine (intercept (2 * length l) U2 D V (gpnp_b l (GCorr v0 v0 v0))) V x in
    same_distances s (control c0 U) pairs5 /\ gpnp_align svd3 s (control c0 U) = (A, t).
Proof.
  intros svd3 l A t c0 U U2 D V d S3 HU HS Hn HA Hl Hd HP HZ.
  exists (map (fun i => vdot 12 (gcol V (12 - d + i)) (in_body A t (control c0 U))) (seq 0 d)).
  split; [now rewrite map_length, seq_length|].
  set (s := combine _ _ _). cbv zeta.
  assert (Ea : forall j, (j < 12)%nat -> s j = in_body A t (control c0 U) j).
  { intros j J. unfold s. eapply intercept_null; eauto; [lia|]. intros r Hr. now apply C56_linear_system. }
  assert (Ec := cpoint_ext _ _ Ea). clearbody s. split.
  - intros i j IJ. assert (L : (i < 4)%nat /\ (j < 4)%nat) by (repeat (destruct IJ as [IJ|IJ]; [injection IJ as <- <-; lia|]); destruct IJ).
    rewrite !Ec, !cpoint_in_body by lia. rewrite <- mv_sub. unfold norm2. rewrite orth_dot by (apply orth_T, HA).
    generalize (control c0 U i) (control c0 U j). clear. intros [] []; destruct t. lunf. ring.
  - rewrite (gpnp_align_ext _ _ _ _ Ec). now apply align_true.
Qed.

(** * Central cameras (C63) *)
Lemma gpnp_b_central l d r : (forall g, In g l -> g_off g = v0) -> (r < 2 * length l)%nat -> gpnp_b l d r = 0.
Proof.
  intros H Hr. unfold gpnp_b. rewrite H.
  - cbn [vx vy vz v0]. destruct (Nat.even r); ring.
  - apply nth_In. rewrite Nat.div2_div. apply Nat.div_lt_upper_bound; lia.
Qed.
(** Whatever the decompositions return, for a central camera (all offsets zero)
    the result depends on the world points only: the bearing vectors are ignored. *)
Theorem C63_central_camera : forall svd3 svdP svdA lm l, (forall g, In g l -> g_off g = v0) ->
  let c0 := centroid l in
  let U := svdP (map (fun g => vsub (g_p g) c0) l) in
  gpnp svd3 svdP svdA lm l = (arun svd3 mzero, vadd c0 (vscale (15 / 4) (vadd (col U 0) (vadd (col U 1) (col U 2))))).
Proof.
  intros svd3 svdP svdA lm l H c0 U. unfold gpnp. fold c0. fold U.
  destruct (svdA (2 * length l)%nat (gpnp_A c0 U l (GCorr v0 v0 v0))) as [[U2 D] V].
  set (a := intercept _ _ _ _ _).
  assert (Ea : forall j, a j = 0).
  { intro j. unfold a, intercept. apply sumn_0. intros k _.
    replace (vdot (2 * length l) (gcol U2 k) (gpnp_b l (GCorr v0 v0 v0))) with 0; [ring|].
    symmetry. apply sumn_0. intros i I. rewrite gpnp_b_central by auto. ring. }
  assert (Ec : forall k, cpoint a k = v0) by (intro k; unfold cpoint; now rewrite !Ea).
  clearbody a. transitivity (fst (candidate svd3 lm a V (control c0 U) 0)).
  - refine (f_equal fst (select_keeps (candidate svd3 lm a V (control c0 U)) (seq 1 5) _ _)).
    intros j J. cbn [candidate snd]. replace (gpnp_error _ a _) with (@None R); [destruct (snd (candidate svd3 lm a V (control c0 U) j)); reflexivity|].
    symmetry. destruct (gpnp_error _ a _) as [e|] eqn:E; auto. apply gpnp_error_sum in E as (e0 & _ & _ & _ & E0 & _).
    unfold eval_term in E0. rewrite Ec in E0. apply obind_some in E0 as (q & E0 & _). unfold odiv in E0.
    destruct (Req_EM_T _ 0) as [|N]; [discriminate|]. exfalso. apply N. unfold norm at 1. replace (norm2 v0) with 0 by (unfold norm2, dot, v0; cbn; ring).
    rewrite sqrt_0. ring.
  - cbn [candidate fst]. unfold gpnp_align. cbn [seq map]. rewrite !Ec. unfold arun_complete. cbn [map fst snd].
    replace (center [v0; v0; v0; v0]) with v0 by (unfold center, vdivs, vadd, v0; cbn; f_equal; field).
    rewrite mv_0. f_equal.
    + f_equal. unfold cross_cov. cbn [fold_left snd]. generalize (center [control c0 U 0; control c0 U 1; control c0 U 2; control c0 U 3]). clear.
      generalize (control c0 U). intros c v. generalize (c 0%nat) (c 1%nat) (c 2%nat) (c 3%nat). intros [] [] [] []. destruct v.
      unfold mzero, madd, outer, vsub, v0. cbn. f_equal; ring.
    + unfold center. cbn [control fold_left length INR]. generalize (col U 0) (col U 1) (col U 2). clear. intros [] [] []. destruct c0.
      unfold vsub, vdivs, vadd, vscale, v0. cbn. f_equal; field.
Qed.

(** Hence it is wrong for every central camera not at that one place: for all
    world points and every such pose there are bearing vectors seen from it. *)
Theorem C63_central_camera_refuted : forall svd3 svdP svdA lm A t ps, rotation A ->
  let l := map (fun p => GCorr p v0 (mv (mT A) (vsub p t))) ps in
  (forall g, In g l -> g_off g = v0 /\ seen_from A t g) /\
  let U := svdP (map (fun g => vsub (g_p g) (centroid l)) l) in
  (t <> vadd (centroid l) (vscale (15 / 4) (vadd (col U 0) (vadd (col U 1) (col U 2)))) ->
   snd (gpnp svd3 svdP svdA lm l) <> t).
Proof.
  intros svd3 svdP svdA lm A t ps HA l.
  assert (Hl : forall g, In g l -> g_off g = v0 /\ seen_from A t g).
  { intros g Hg. apply in_map_iff in Hg as (p & <- & _). split; [reflexivity|]. exists 1. cbn [g_p g_off g_f].
    replace (vadd v0 (vscale 1 (mv (mT A) (vsub p t)))) with (mv (mT A) (vsub p t)) by (generalize (mv (mT A) (vsub p t)); clear; intros []; unfold vadd, vscale, v0; cbn; f_equal; ring).
    rewrite <- mv_mmul, rot_r, mv_id by auto. clear. destruct p, t. unfold vadd, vsub. cbn. f_equal; ring. }
  split; [exact Hl|]. intros U N. rewrite C63_central_camera by (intros; now apply Hl). cbn [snd]. intro E. apply N. symmetry. exact E.
Qed.

(** * The hypotheses are satisfiable: six points, a non-central rig *)
Definition ex_g (p f : vec3) : gcorr := GCorr p (vsub (vsub p (V3 1 0 0)) f) f.
Definition ex_l : list gcorr :=
  [ex_g (V3 15 0 0) (V3 0 0 1); ex_g (V3 (-15) 0 0) (V3 1 0 1); ex_g (V3 0 15 0) (V3 (-1) (-1) 1);
   ex_g (V3 0 (-15) 0) (V3 1 (-1) 1); ex_g (V3 0 0 15) (V3 1 0 1); ex_g (V3 0 0 (-15)) (V3 1 (-1) 1)].
Lemma ex_centroid : centroid ex_l = v0.
Proof. unfold centroid, ex_l, vdivs, vadd, v0. cbn. f_equal; field. Qed.
Lemma ex_bounds (v e : nat -> R) : (forall r, (r < 12)%nat -> mvec 12 (gpnp_A v0 mid ex_l (GCorr v0 v0 v0)) v r = e r) ->
  (forall r, (r < 12)%nat -> - / 1000000 <= e r <= / 1000000) -> forall j, (j < 12)%nat -> - / 10000 <= v j <= / 10000.
Proof.
  intros H B.
  assert (W : forall p k, (k < 3)%nat -> weight v0 mid p (S k) = vget p k / 15).
  { intros p k K. rewrite weight_eq by (auto; apply orth_id). f_equal. destruct p. destruct k as [|[|[|k]]]; [| | |lia]; unfold dot, vsub, mid, v0, vget; cbn; ring. }
  assert (W0 : forall p, weight v0 mid p 0 = 1 - (vx p / 15 + vy p / 15 + vz p / 15)).
  { intro p. pose proof (proj1 (C56_weights mid v0 p orth_id)) as Q. rewrite !W in Q by lia. unfold vget in Q. lra. }
  unfold mvec, vdot in H. cbn [sumn] in H.
  assert (H' : forall r, (r < 12)%nat -> - / 1000000 <= sumn 12 (fun j => gpnp_A v0 mid ex_l (GCorr v0 v0 v0) r j * v j) <= / 1000000)
    by (intros r Hr; cbn [sumn]; rewrite H by auto; apply B; auto).
  clear H B e. unfold gpnp_A in H'. cbn [sumn] in H'.
  pose proof (H' 0%nat ltac:(lia)) as R0. pose proof (H' 1%nat ltac:(lia)) as R1. pose proof (H' 2%nat ltac:(lia)) as R2. pose proof (H' 3%nat ltac:(lia)) as R3.
  pose proof (H' 4%nat ltac:(lia)) as R4. pose proof (H' 5%nat ltac:(lia)) as R5. pose proof (H' 6%nat ltac:(lia)) as R6. pose proof (H' 7%nat ltac:(lia)) as R7.
  pose proof (H' 8%nat ltac:(lia)) as R8. pose proof (H' 9%nat ltac:(lia)) as R9. pose proof (H' 10%nat ltac:(lia)) as R10. pose proof (H' 11%nat ltac:(lia)) as R11.
  clear H'. cbn -[weight Rmult Rplus Ropp Rinv] in *. rewrite ?W0, ?W in * by lia. cbn -[Rmult Rplus Ropp Rinv] in *.
  intros j J. do 12 (destruct j as [|j]; [lra|]). lia.
Qed.
Lemma ex_full_rank U2 D V : is_gsvd 12 12 (gpnp_A v0 mid ex_l (GCorr v0 v0 v0)) U2 D V -> forall k, (k < 12)%nat -> / 1000000 < D k.
Proof.
  intros S k K. destruct (Rlt_dec (/ 1000000) (D k)) as [L|L]; auto. exfalso.
  assert (P : 0 <= D k) by (apply (gsvd_pos _ _ _ _ _ _ S); lia).
  assert (UB : forall r, (r < 12)%nat -> - 1 <= U2 r k <= 1).
  { intros r Hr. assert (N : vdot 12 (gcol U2 k) (gcol U2 k) = 1) by (apply gorth_unit; auto; apply (gsvd_U _ _ _ _ _ _ S)).
    assert (Q : U2 r k * U2 r k <= 1).
    { rewrite <- N. unfold vdot, gcol. rewrite <- (sumn_delta 12 r (fun i => U2 i k * U2 i k)) by auto. apply sumn_le. intros i I.
      unfold delta. destruct (Nat.eq_dec i r); [lra|]. pose proof (Rle_0_sqr (U2 i k)) as Z. unfold Rsqr in Z. lra. }
    split; nra. }
  assert (B := ex_bounds (gcol V k) (fun r => D k * U2 r k)).
  assert (N : vdot 12 (gcol V k) (gcol V k) = 1) by (apply gorth_unit; auto; apply (gsvd_V _ _ _ _ _ _ S)).
  assert (B' : forall j, (j < 12)%nat -> - / 10000 <= gcol V k j <= / 10000).
  { apply B.
    - intros r Hr. rewrite (gsvd_col _ _ _ _ _ _ S) by auto. replace (k <? Nat.min 12 12)%nat with true; auto. symmetry. apply Nat.ltb_lt. cbn. lia.
    - intros r Hr. specialize (UB r Hr). split; nra. }
  assert (Q : vdot 12 (gcol V k) (gcol V k) <= sumn 12 (fun _ => / 100000000)).
  { apply sumn_le. intros j J. specialize (B' j J). nra. }
  rewrite N in Q. cbn [sumn] in Q. lra.
Qed.
Example C56_nonvacuous : exists svd3 svdA, 
  let svdP := fun _ : list vec3 => mid in
  let M := gpnp_A v0 mid ex_l (GCorr v0 v0 v0) in
  let '(U2, D, V) := svdA 12%nat M in
  (forall H, is_svd H (svd3 H)) /\ is_gsvd 12 12 M U2 D V /\ centroid ex_l = v0 /\
  (forall g, In g ex_l -> seen_from mid (V3 1 0 0) g) /\
  (forall k, (k < 4)%nat -> control v0 mid k <> V3 1 0 0) /\
  (forall k, (k < 12)%nat -> / 1000000 < D k) /\
  forall lm, gpnp svd3 svdP svdA lm ex_l = (mid, V3 1 0 0).
Proof.
  destruct svd_function_exists as [svd3 S3].
  destruct (gsvd_exists 12 12 (gpnp_A v0 mid ex_l (GCorr v0 v0 v0))) as (U2 & D & V & S).
  exists svd3, (fun _ _ => (U2, D, V)). cbv zeta.
  assert (HS : forall g, In g ex_l -> seen_from mid (V3 1 0 0) g).
  { assert (X : forall p f, seen_from mid (V3 1 0 0) (ex_g p f)).
    { intros p f. exists 1. cbn [g_p g_off g_f ex_g]. rewrite mv_id. destruct p, f. unfold vadd, vsub, vscale. cbn. f_equal; ring. }
    intros g Hg. cbn in Hg. repeat (destruct Hg as [<-|Hg]; [apply X|]). destruct Hg. }
  assert (HC : forall k, (k < 4)%nat -> control v0 mid k <> V3 1 0 0).
  { intros k K E. destruct k as [|[|[|[|k]]]]; [| | | |lia]; unfold control, vadd, vscale, mid, v0 in E; cbn in E; injection E; intros; lra. }
  assert (HD := ex_full_rank U2 D V S).
  split; [exact S3|]. split; [exact S|]. split; [apply ex_centroid|]. split; [exact HS|]. split; [exact HC|]. split; [exact HD|].
  intro lm. pose proof (C56_recovers_pose svd3 (fun _ => mid) (fun _ _ => (U2, D, V)) lm ex_l mid (V3 1 0 0)) as T. cbv zeta in T.
  rewrite ex_centroid in T. apply T; auto using orth_id, rot_id.
Qed.
