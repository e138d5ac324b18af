(** Properties C28, C29, C30 and C40: alignment by SVD. *)
From Coq Require Import Reals Lra List.
From Coq Require Import ClassicalChoice.
From Verif Require Import Lin RotModel RotProps ArunModel Spectral.
Import ListNotations.
Local Open Scope R_scope.

(** * Specification *)
(** What a singular value decomposition is. *)
Definition is_svd (H : mat3) (r : mat3 * vec3 * mat3) : Prop :=
  let '(U, s, V) := r in
  orthogonal U /\ orthogonal V /\ vx s >= vy s /\ vy s >= vz s /\ vz s >= 0
  /\ H = mmul U (mmul (diag (vx s) (vy s) (vz s)) (mT V)).
(** Sum of squared alignment errors of [A] on a list of vector pairs. *)
Definition align_error (A : mat3) (l : list (vec3 * vec3)) : R :=
  rsum (map (fun p => norm2 (vsub (fst p) (mv A (snd p)))) l).
Definition collinear3 (a b c : vec3) : Prop := cross (vsub b a) (vsub c a) = v0.

(** * C28 *)
Lemma flip_cols V : of_cols (col V 0) (col V 1) (vneg (col V 2)) = mmul V (diag 1 1 (-1)).
Proof. lring. Qed.
Lemma orth_flip : orthogonal (diag 1 1 (-1)). Proof. lring. Qed.

Theorem C28_arun_is_rotation : forall svd H, is_svd H (svd H) -> rotation (arun svd H).
Proof.
  intros svd H S. unfold arun. destruct (svd H) as [[U s] V]. destruct S as (HU & HV & _).
  assert (O : orthogonal (mmul V (mT U))) by (apply orth_mmul; auto using orth_T).
  destruct (Rlt_dec (det (mmul V (mT U))) 0) as [L|L].
  - rewrite flip_cols. split.
    + apply orth_mmul; [apply orth_mmul; auto; apply orth_flip|auto using orth_T].
    + destruct (orth_det_cases _ O) as [E|E]; [lra|]. rewrite !det_mmul in *.
      replace (det (diag 1 1 (-1))) with (-1) by lring. lra.
  - split; auto. destruct (orth_det_cases _ O) as [E|E]; lra.
Qed.

(** * C29 *)
Lemma orth_diag_le A : orthogonal A -> m00 A <= 1 /\ m11 A <= 1 /\ m22 A <= 1.
Proof.
  destruct A as [a b c d e f g h i]. lunf. intro H. injection H; clear H; intros.
  pose proof (sq_nonneg a); pose proof (sq_nonneg b); pose proof (sq_nonneg c); pose proof (sq_nonneg d);
  pose proof (sq_nonneg e); pose proof (sq_nonneg f); pose proof (sq_nonneg g); pose proof (sq_nonneg h); pose proof (sq_nonneg i).
  repeat split; apply Rnot_lt_le; intro L; nra.
Qed.
Lemma rot_trace_ge A : rotation A -> -1 <= trace A.
Proof.
  intro H. destruct (rotation_from_quat A H) as (q & N & <-). unfold qnorm2 in N. unfold trace, quaternion2rot; cbn [m00 m11 m22].
  pose proof (pow2_ge_0 (q0 q)). lra.
Qed.
Lemma reflection_trace_le A : orthogonal A -> det A = -1 -> trace A <= 1.
Proof.
  intros O D. assert (rotation (mneg A)).
  { split; [|unfold mneg; rewrite det_mscale, D; ring].
    unfold orthogonal, mneg. replace (mT (mscale (-1) A)) with (mscale (-1) (mT A)) by lring.
    rewrite mscale_mmul_l, mscale_mmul_r, O. lring. }
  apply rot_trace_ge in H. replace (trace (mneg A)) with (- trace A) in H by lring. lra.
Qed.

Lemma trace_diag_mmul Z a b c : trace (mmul Z (diag a b c)) = a * m00 Z + b * m11 Z + c * m22 Z.
Proof. lring. Qed.

Theorem C29_arun_maximises_trace : forall svd H, is_svd H (svd H) ->
  forall A, rotation A -> trace (mmul A H) <= trace (mmul (arun svd H) H).
Proof.
  intros svd H S A [OA DA]. unfold arun. destruct (svd H) as [[U s] V]. destruct S as (HU & HV & S1 & S2 & S3 & EH).
  set (D := diag (vx s) (vy s) (vz s)) in *.
  assert (T : forall X, trace (mmul X H) = trace (mmul (mmul (mT V) (mmul X U)) D)).
  { intro X. rewrite EH, !mmul_assoc, trace_mmul, !mmul_assoc. reflexivity. }
  rewrite !T.
  set (Z := mmul (mT V) (mmul A U)).
  assert (OZ : orthogonal Z) by (unfold Z; auto using orth_mmul, orth_T).
  pose proof (orth_diag_le Z OZ) as (Z0 & Z1 & Z2).
  unfold D. rewrite !trace_diag_mmul. fold Z.
  destruct (Rlt_dec (det (mmul V (mT U))) 0) as [L|L].
  - rewrite flip_cols.
    assert (E : mmul (mT V) (mmul (mmul (mmul V (diag 1 1 (-1))) (mT U)) U) = diag 1 1 (-1)).
    { rewrite <- !mmul_assoc, HU, mmul_id_r, mmul_assoc, HV. apply mmul_id_l. }
    rewrite E. cbn [diag m00 m11 m22].
    assert (DZ : det Z = -1).
    { unfold Z. rewrite !det_mmul, det_mT, DA. rewrite det_mmul, det_mT in L.
      destruct (orth_det_cases U HU) as [EU|EU], (orth_det_cases V HV) as [EV|EV]; rewrite EU, EV in *; lra. }
    pose proof (reflection_trace_le Z OZ DZ) as TZ. unfold trace in TZ.
    assert (0 <= (vx s - vz s) * (1 - m00 Z)) by (apply Rmult_le_pos; lra).
    assert (0 <= (vy s - vz s) * (1 - m11 Z)) by (apply Rmult_le_pos; lra).
    assert (0 <= vz s * (1 - (m00 Z + m11 Z + m22 Z))) by (apply Rmult_le_pos; lra).
    lra.
  - assert (E : mmul (mT V) (mmul (mmul V (mT U)) U) = mid).
    { rewrite <- !mmul_assoc, HU, mmul_id_r. exact HV. }
    rewrite E. cbn [mid m00 m11 m22].
    assert (0 <= vx s * (1 - m00 Z)) by (apply Rmult_le_pos; lra).
    assert (0 <= vy s * (1 - m11 Z)) by (apply Rmult_le_pos; lra).
    assert (0 <= vz s * (1 - m22 Z)) by (apply Rmult_le_pos; lra).
    lra.
Qed.

(** The cross-covariance accumulated by the loops. *)
Definition cov (l : list (vec3 * vec3)) : mat3 := msum (map (fun p => outer (snd p) (fst p)) l).
Definition centred (c1 c2 : vec3) (l : list (vec3 * vec3)) : list (vec3 * vec3) :=
  map (fun p => (vsub (fst p) c1, vsub (snd p) c2)) l.

Lemma madd_assoc A B C : madd A (madd B C) = madd (madd A B) C. Proof. lring. Qed.
Lemma madd_0_r A : madd A mzero = A. Proof. destruct A; lunf; f_equal; ring. Qed.
Lemma madd_0_l A : madd mzero A = A. Proof. destruct A; lunf; f_equal; ring. Qed.

Lemma fold_madd {X} (f : X -> mat3) l acc : fold_left (fun H p => madd H (f p)) l acc = madd acc (msum (map f l)).
Proof.
  revert acc; induction l as [|p l IH]; intro acc; cbn [fold_left]; sums.
  - now rewrite madd_0_r.
  - rewrite IH. symmetry. apply madd_assoc.
Qed.
Lemma fold_vadd l acc : fold_left vadd l acc = vadd acc (vsum l).
Proof.
  revert acc; induction l as [|p l IH]; intro acc; cbn [fold_left]; sums.
  - now rewrite vadd_0_r.
  - rewrite IH. symmetry. apply vadd_assoc.
Qed.
Lemma cross_cov_eq l c1 c2 : cross_cov l c1 c2 = cov (centred c1 c2 l).
Proof. unfold cross_cov, cov, centred. rewrite fold_madd, map_map, madd_0_l. reflexivity. Qed.

Lemma error_trace A l : rotation A ->
  align_error A l = rsum (map (fun p => norm2 (fst p) + norm2 (snd p)) l) - 2 * trace (mmul A (cov l)).
Proof.
  intro H. unfold align_error, cov. induction l as [|p l IH]; sums.
  - lunf. ring.
  - rewrite IH. rewrite mmul_madd_r, mmul_outer.
    replace (trace (madd (outer (mv A (snd p)) (fst p)) (mmul A (msum (map (fun p0 => outer (snd p0) (fst p0)) l)))))
      with (dot (mv A (snd p)) (fst p) + trace (mmul A (msum (map (fun p0 => outer (snd p0) (fst p0)) l))))
      by (generalize (mmul A (msum (map (fun p0 => outer (snd p0) (fst p0)) l))); intro; destruct A, p as [f g]; cbn [fst snd]; lring).
    replace (norm2 (vsub (fst p) (mv A (snd p)))) with (norm2 (fst p) + norm2 (mv A (snd p)) - 2 * dot (mv A (snd p)) (fst p))
      by (destruct p as [f g]; cbn [fst snd]; generalize (mv A g); intro; lring).
    rewrite rot_norm2 by auto. ring.
Qed.

(** In words: no rotation aligns the two vector sets better. *)
Theorem C29_arun_is_optimal : forall svd l, is_svd (cov l) (svd (cov l)) ->
  forall A, rotation A -> align_error (arun svd (cov l)) l <= align_error A l.
Proof.
  intros svd l S A HA. rewrite !error_trace by (auto using C28_arun_is_rotation).
  pose proof (C29_arun_maximises_trace svd (cov l) S A HA). lra.
Qed.

(** For the whole procedure: no rigid motion aligns the clouds better. *)
Lemma center_sum l : l <> [] -> vsum l = vscale (INR (length l)) (center l).
Proof.
  intro H. unfold center. rewrite fold_vadd, vadd_0_l, vdivs_scale, vscale_scale, Rinv_r, vscale_1; auto.
  apply not_0_INR. destruct l; cbn; congruence.
Qed.

Definition rigid_error (T : mat3 * vec3) (l : list (vec3 * vec3)) : R :=
  rsum (map (fun p => norm2 (vsub (fst p) (vadd (mv (fst T) (snd p)) (snd T)))) l).

Lemma rigid_split A t l : l <> [] ->
  let c1 := center (map fst l) in let c2 := center (map snd l) in
  rigid_error (A, t) l = align_error A (centred c1 c2 l)
     + INR (length l) * norm2 (vsub c1 (vadd (mv A c2) t)).
Proof.
  intros Hl c1 c2.
  set (d := vsub c1 (vadd (mv A c2) t)).
  assert (G : forall m, rigid_error (A, t) m = align_error A (centred c1 c2 m)
     + 2 * dot d (vsub (vsub (vsum (map fst m)) (mv A (vsum (map snd m)))) (vscale (INR (length m)) (vsub c1 (mv A c2))))
     + INR (length m) * norm2 d).
  { intro m. unfold rigid_error, align_error, centred. induction m as [|p m IH].
    - sums. cbn [length INR]. unfold d. generalize c1 c2. destruct A, t. lring.
    - cbn [length]. rewrite S_INR. sums. rewrite IH. cbn [fst snd].
      generalize (rsum (map (fun p0 => norm2 (vsub (fst p0) (mv A (snd p0)))) (map (fun p0 => (vsub (fst p0) c1, vsub (snd p0) c2)) m))).
      generalize (INR (length m)), (vsum (map fst m)), (vsum (map snd m)). intros n u v e. unfold d. clear.
      destruct p as [f g]. cbn [fst snd]. generalize c1 c2. clear. intros c1 c2. lring. }
  rewrite G. assert (L1 : map fst l <> []) by (destruct l; cbn; congruence).
  assert (L2 : map snd l <> []) by (destruct l; cbn; congruence).
  rewrite (center_sum _ L1), (center_sum _ L2), !map_length. fold c1 c2.
  replace (vsub (vsub (vscale (INR (length l)) c1) (mv A (vscale (INR (length l)) c2)))
                (vscale (INR (length l)) (vsub c1 (mv A c2)))) with v0
    by (generalize c1 c2 (INR (length l)); destruct A; lring).
  replace (dot d v0) with 0 by (generalize d; lring). ring.
Qed.

Theorem C29_rigid_alignment_is_optimal : forall svd l, l <> [] ->
  (forall H, is_svd H (svd H)) ->
  forall A t, rotation A -> rigid_error (arun_complete svd l) l <= rigid_error (A, t) l.
Proof.
  intros svd l Hl S A t HA. unfold arun_complete. rewrite !rigid_split by auto. rewrite cross_cov_eq.
  set (c1 := center (map fst l)). set (c2 := center (map snd l)).
  set (A0 := arun svd (cov (centred c1 c2 l))).
  replace (vsub c1 (vadd (mv A0 c2) (vsub c1 (mv A0 c2)))) with v0 by (generalize c1 c2 A0; lring).
  pose proof (C29_arun_is_optimal svd (centred c1 c2 l) (S _) A HA) as O. fold A0 in O.
  assert (0 <= INR (length l) * norm2 (vsub c1 (vadd (mv A c2) t))) by (apply Rmult_le_pos; [apply pos_INR|apply norm2_nonneg]).
  replace (norm2 v0) with 0 by lring. lra.
Qed.

(** * C30 *)
Lemma rot_agree_two A B u v : rotation A -> rotation B -> cross u v <> v0 ->
  mv A u = mv B u -> mv A v = mv B v -> A = B.
Proof.
  intros HA HB N Eu Ev.
  assert (Ew : mv A (cross u v) = mv B (cross u v)) by (rewrite !rot_cross, Eu, Ev by auto; reflexivity).
  assert (D : dot u (cross v (cross u v)) <> 0).
  { rewrite triple_cycle, triple_cycle. pose proof (norm2_pos _ N). unfold norm2 in H. lra. }
  assert (E : mmul A (of_cols u v (cross u v)) = mmul B (of_cols u v (cross u v))).
  { assert (K : forall X, mmul X (of_cols u v (cross u v)) = of_cols (mv X u) (mv X v) (mv X (cross u v)))
      by (generalize (cross u v); intros; lring).
    rewrite !K, Eu, Ev, Ew. reflexivity. }
  rewrite <- (mmul_id_r A), <- (mmul_id_r B).
  rewrite <- (minv_r (of_cols u v (cross u v))) by (now rewrite det_cols).
  rewrite !mmul_assoc, E. reflexivity.
Qed.

Lemma rigid_error_zero T l : rigid_error T l = 0 -> forall p, In p l -> fst p = vadd (mv (fst T) (snd p)) (snd T).
Proof.
  intros E p Hp.
  assert (Z : norm2 (vsub (fst p) (vadd (mv (fst T) (snd p)) (snd T))) = 0).
  { eapply (rsum_zero _) with (x := norm2 (vsub (fst p) (vadd (mv (fst T) (snd p)) (snd T)))); [|exact E|].
    - intros x Hx. apply in_map_iff in Hx. destruct Hx as (q & <- & _). apply norm2_nonneg.
    - apply in_map_iff. exists p. auto. }
  apply norm2_zero in Z. rewrite <- (vsub_add (fst p) (vadd (mv (fst T) (snd p)) (snd T))), Z. apply vadd_0_l.
Qed.

Theorem C30_exact_alignment : forall svd l A t, (forall H, is_svd H (svd H)) ->
  l <> [] -> rotation A -> (forall p, In p l -> fst p = vadd (mv A (snd p)) t) ->
  let T := threept_arun svd l in
  rotation (fst T) /\ (forall p, In p l -> fst p = vadd (mv (fst T) (snd p)) (snd T)).
Proof.
  intros svd l A t S Hl HA Hex T. split; [apply C28_arun_is_rotation, S|].
  apply rigid_error_zero. apply Rle_antisym.
  - pose proof (C29_rigid_alignment_is_optimal svd l Hl S A t HA) as O.
    replace (rigid_error (A, t) l) with 0 in O; [exact O|].
    unfold rigid_error. clear -Hex. induction l as [|p l IH]; sums; auto.
    cbn [fst snd] in *. rewrite <- IH by (intros; apply Hex; right; auto). rewrite <- (Hex p (or_introl eq_refl)), vsub_self.
    lunf. ring.
  - apply rsum_nonneg. intros x Hx. apply in_map_iff in Hx. destruct Hx as (q & <- & _). apply norm2_nonneg.
Qed.

Theorem C30_recovers_the_motion : forall svd l A t, (forall H, is_svd H (svd H)) ->
  rotation A -> (forall p, In p l -> fst p = vadd (mv A (snd p)) t) ->
  (exists p q r, In p l /\ In q l /\ In r l /\ ~ collinear3 (snd p) (snd q) (snd r)) ->
  threept_arun svd l = (A, t).
Proof.
  intros svd l A t S HA Hex (p & q & r & Hp & Hq & Hr & NC).
  assert (Hl : l <> []) by (intros ->; destruct Hp).
  destruct (C30_exact_alignment svd l A t S Hl HA Hex) as [HR HE].
  destruct (threept_arun svd l) as [B u]. cbn [fst snd] in *.
  assert (D : forall a b, In a l -> In b l -> mv B (vsub (snd b) (snd a)) = mv A (vsub (snd b) (snd a))).
  { intros a b Ha Hb. rewrite !mv_sub.
    pose proof (HE a Ha) as E1. pose proof (HE b Hb) as E2. rewrite (Hex a Ha) in E1. rewrite (Hex b Hb) in E2.
    revert E1 E2. generalize (mv A (snd a)), (mv A (snd b)), (mv B (snd a)), (mv B (snd b)). clear.
    intros [] [] [] []. destruct t, u. lunf. intros E1 E2. injection E1; injection E2; intros. f_equal; lra. }
  assert (E : B = A) by (apply (rot_agree_two B A (vsub (snd q) (snd p)) (vsub (snd r) (snd p))); auto).
  subst B. f_equal. pose proof (HE p Hp) as E1. rewrite (Hex p Hp) in E1. revert E1. generalize (mv A (snd p)). clear.
  intros []. destruct t, u. lunf. intro E1. injection E1; intros. f_equal; lra.
Qed.

(** * C40 *)
Theorem C40_always_a_rotation : forall svd, (forall H, is_svd H (svd H)) ->
  (forall l, rotation (rotationOnly svd l))
  /\ (forall f0 f0' f1 f1', rotation (twopt_rotationOnly svd f0 f0' f1 f1')).
Proof.
  intros svd S. split; intros; unfold rotationOnly, twopt_rotationOnly; apply C28_arun_is_rotation, S.
Qed.

Lemma three_unit_not_collinear a b c : unit a -> unit b -> unit c -> a <> b -> a <> c -> b <> c -> ~ collinear3 a b c.
Proof.
  intros Ha Hb Hc Hab Hac Hbc E. unfold collinear3 in E.
  set (u := vsub b a) in *. set (w := vsub c a) in *.
  assert (Nu : u <> v0).
  { intro Z. apply Hab. unfold u in Z. rewrite <- (vsub_add b a), Z, vadd_0_l. reflexivity. }
  assert (Nw : w <> v0).
  { intro Z. apply Hac. unfold w in Z. rewrite <- (vsub_add c a), Z, vadd_0_l. reflexivity. }
  (* w = k u *)
  assert (K : vscale (dot u u) w = vscale (dot u w) u).
  { assert (Z : cross u (cross u w) = v0) by (rewrite E; lring). rewrite cross_cross in Z.
    apply vext; destruct u, w; lunf; injection Z; intros; lra. }
  pose proof (norm2_pos u Nu) as Pu. unfold norm2 in Pu.
  set (k := dot u w / dot u u).
  assert (Ew : w = vscale k u).
  { transitivity (vscale (/ dot u u) (vscale (dot u u) w)).
    - rewrite vscale_scale, Rinv_l, vscale_1; auto. lra.
    - rewrite K, vscale_scale. f_equal. unfold k. field. lra. }
  (* |a+u|=1, |a+ku|=1 *)
  assert (E1 : dot u u + 2 * dot a u = 0).
  { unfold unit in *. transitivity (norm2 b - norm2 a); [|lra]. unfold u. lring. }
  assert (E2 : k * (k * dot u u + 2 * dot a u) = 0).
  { unfold unit in *. transitivity (norm2 c - norm2 a); [|lra].
    replace c with (vadd a w) by (unfold w; destruct a, c; lunf; f_equal; ring). rewrite Ew. generalize u. intro. lring. }
  apply Rmult_integral in E2. destruct E2 as [Z|Z].
  - apply Nw. rewrite Ew, Z. apply vscale_0.
  - assert ((k - 1) * dot u u = 0) by lra. apply Rmult_integral in H. destruct H; [|lra].
    assert (k = 1) by lra. apply Hbc. rewrite <- (vsub_add b a), <- (vsub_add c a). fold u w. rewrite Ew, H0, vscale_1. reflexivity.
Qed.

(** Three pairwise distinct bearing vectors suffice for the n-point method. *)
Theorem C40_rotationOnly_exact : forall svd l A, (forall H, is_svd H (svd H)) -> rotation A ->
  (forall p, In p l -> unit (snd p) /\ fst p = mv A (snd p)) ->
  (exists p q r, In p l /\ In q l /\ In r l /\ snd p <> snd q /\ snd p <> snd r /\ snd q <> snd r) ->
  rotationOnly svd l = A.
Proof.
  intros svd l A S HA Hex (p & q & r & Hp & Hq & Hr & D1 & D2 & D3).
  pose proof (C30_recovers_the_motion svd l A v0 S HA) as C.
  assert (E : threept_arun svd l = (A, v0)).
  { apply C.
    - intros x Hx. rewrite vadd_0_r. apply Hex; auto.
    - exists p, q, r. repeat split; auto. apply three_unit_not_collinear; auto; apply Hex; auto. }
  exact (f_equal fst E).
Qed.

(** Two independent bearing vectors suffice for the two-point method. *)
Theorem C40_twopt_rotationOnly_exact : forall svd f0' f1' A, (forall H, is_svd H (svd H)) -> rotation A ->
  cross f0' f1' <> v0 ->
  twopt_rotationOnly svd (mv A f0') f0' (mv A f1') f1' = A.
Proof.
  intros svd f0 f1 A S HA N. unfold twopt_rotationOnly.
  set (c := vdivs (vadd f0 f1) 3).
  replace (vdivs (vadd (mv A f0) (mv A f1)) 3) with (mv A c) by (unfold c; rewrite !vdivs_scale, mv_scale, mv_add; reflexivity).
  rewrite <- !mv_sub. rewrite madd_0_l.
  set (g0 := vsub f0 c). set (g1 := vsub f1 c).
  set (l := [(mv A g0, g0); (mv A g1, g1)]).
  replace (madd (outer g0 (mv A g0)) (outer g1 (mv A g1))) with (cov l)
    by (unfold l, cov; sums; cbn [fst snd]; rewrite madd_0_r; reflexivity).
  assert (HR : rotation (arun svd (cov l))) by (apply C28_arun_is_rotation, S).
  pose proof (C29_arun_is_optimal svd l (S _) A HA) as O.
  assert (Z : align_error A l = 0) by (unfold align_error, l; sums; cbn [fst snd]; rewrite !vsub_self; lunf; ring).
  rewrite Z in O. unfold align_error, l in O. cbn [map fst snd] in O. rewrite !rsum_cons, rsum_nil in O. fold l in O.
  pose proof (norm2_nonneg (vsub (mv A g0) (mv (arun svd (cov l)) g0))) as P0.
  pose proof (norm2_nonneg (vsub (mv A g1) (mv (arun svd (cov l)) g1))) as P1.
  assert (Q : forall a b, norm2 (vsub a b) = 0 -> b = a).
  { intros a b H. apply norm2_zero in H. rewrite <- (vsub_add a b), H, vadd_0_l. reflexivity. }
  apply (rot_agree_two _ _ g0 g1); auto.
  - intro E. apply N. unfold g0, g1, c in E.
    assert (E' : cross (vsub f0 (vdivs (vadd f0 f1) 3)) (vsub f1 (vdivs (vadd f0 f1) 3)) = vscale (1/3) (cross f0 f1)) by lfield.
    rewrite E' in E. rewrite <- (vscale_1 (cross f0 f1)). replace 1 with (3 * (1 / 3)) by field.
    rewrite <- vscale_scale, E. lring.
  - apply Q. lra.
  - apply Q. lra.
Qed.

(** With a single direction the rotation is not determined: the claim cannot
    be extended to two equal bearing vectors, whatever the decomposition. *)
Theorem C40_same_direction_refuted : forall svd f, exists A, rotation A /\ twopt_rotationOnly svd (mv A f) f (mv A f) f <> A.
Proof.
  intros svd f.
  destruct f as [x y z].
  (* two rotations with the same image of f give the same input *)
  assert (T : exists A B, rotation A /\ rotation B /\ A <> B /\ mv A (V3 x y z) = mv B (V3 x y z)).
  { assert (HT : forall v, unit v -> rotation (msub (mscale 2 (outer v v)) mid) /\ msub (mscale 2 (outer v v)) mid <> mid).
    { intros v Hv. destruct v as [a b c]. lunf. assert (a*a+b*b+c*c = 1) by lra. split.
      - assert (E : msub (mscale 2 (outer (V3 a b c) (V3 a b c))) mid = quaternion2rot (Q4 0 a b c))
          by (unfold quaternion2rot; lunf; qc; f_equal; lra).
        lunf. rewrite E. apply q2r_rot. unfold qnorm2; qc. lra.
      - intro E. injection E; intros. lra. }
    destruct (Req_EM_T (norm2 (V3 x y z)) 0) as [Z|Z].
    - apply norm2_zero in Z. rewrite Z. destruct (HT (V3 1 0 0)) as [H1 H2]; [lunf; ring|].
      exists mid, (msub (mscale 2 (outer (V3 1 0 0) (V3 1 0 0))) mid).
      split; [apply rot_id|]. split; [exact H1|]. split; [congruence|]. now rewrite !mv_0.
    - set (f := V3 x y z) in *. assert (Nf : f <> v0) by (intro E; rewrite E in Z; apply Z; lring).
      pose proof (normalized_unit f Nf) as U. destruct (HT (normalized f) U) as [H1 H2].
      exists mid, (msub (mscale 2 (outer (normalized f) (normalized f))) mid).
      split; [apply rot_id|]. split; [exact H1|]. split; [congruence|].
      rewrite mv_id. set (n := normalized f) in *.
      assert (E : f = vscale (norm f) n) by (now apply norm_normalized). rewrite E. unfold unit in U.
      replace (mv (msub (mscale 2 (outer n n)) mid) (vscale (norm f) n)) with (vscale (norm f * (2 * norm2 n - 1)) n)
        by (generalize (norm f), n; intros; lring).
      rewrite U. f_equal. ring. }
  destruct T as (A & B & HA & HB & NE & E).
  destruct (Classical_Prop.classic (twopt_rotationOnly svd (mv A (V3 x y z)) (V3 x y z) (mv A (V3 x y z)) (V3 x y z) = A)) as [Y|Y].
  - exists B. split; auto. rewrite <- E, Y. exact NE.
  - exists A. auto.
Qed.

(** * Non-vacuity *)
(** What is assumed of the decomposition can be met, for every matrix. *)
Example svd_function_exists : exists svd : svd_t, forall H, is_svd H (svd H).
Proof.
  apply (choice is_svd). intro H. destruct (svd_exists H) as (U & s & V & P). exists (U, s, V). exact P.
Qed.
Example C30_nonvacuous : exists (l : list (vec3 * vec3)) A t, rotation A /\
  (forall p, In p l -> fst p = vadd (mv A (snd p)) t) /\
  (exists p q r, In p l /\ In q l /\ In r l /\ ~ collinear3 (snd p) (snd q) (snd r)).
Proof.
  set (A := cayley2rot (V3 1 2 3)). set (t := V3 1 (-1) 5).
  set (f := fun v => (vadd (mv A v) t, v)).
  exists (map f [V3 0 0 0; V3 1 0 0; V3 0 1 0; V3 0 0 1]), A, t.
  split; [apply C24_cayley2rot_is_rotation|]. split.
  - intros p Hp. apply in_map_iff in Hp. destruct Hp as (v & <- & _). reflexivity.
  - exists (f (V3 0 0 0)), (f (V3 1 0 0)), (f (V3 0 1 0)). cbn [map].
    split; [left; auto|]. split; [right; left; auto|]. split; [right; right; left; auto|].
    unfold f, collinear3; cbn [snd]. lunf. intro E. injection E. lra.
Qed.
Example C40_nonvacuous : cross (V3 1 0 0) (V3 0 1 0) <> v0 /\
  unit (V3 1 0 0) /\ unit (V3 0 1 0) /\ unit (V3 0 0 1) /\ V3 1 0 0 <> V3 0 1 0 /\ V3 1 0 0 <> V3 0 0 1 /\ V3 0 1 0 <> V3 0 0 1.
Proof. repeat split; try (lunf; ring); lunf; intro E; injection E; lra. Qed.
