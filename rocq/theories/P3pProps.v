(** C42: p3p_kneip. *)
From Coq Require Import Reals Lra List Lia.
From Verif Require Import Lin Cplx GeoModel RootsModel RootsProps P3pModel.
Import ListNotations.
Local Open Scope R_scope.

(** ** Specification *)
(** the camera X sees the point P along the ray of f at the signed distance lam *)
Definition sees (X : pose) (f P : vec3) (lam : R) : Prop := vsub P (pt X) = vscale lam (mv (pR X) f).
(** the bearing mirrored at the plane of f1 and f2 *)
Definition mirrored (f1 f2 f : vec3) : vec3 :=
  let n := normalized (cross f1 f2) in vsub f (vscale (2 * dot n f) n).
(** the cosine of the angle between the plane of the first two rays and the
    plane of the points *)
Definition plane_cos (f1 f2 P1 P2 P3 : vec3) (X : pose) : R :=
  dot (mv (pR X) (normalized (cross f1 f2))) (normalized (cross (vsub P2 P1) (vsub P3 P1))).

(** ** The frames *)
Lemma cross_zero_norm a : norm a = 0 <-> a = v0.
Proof.
  split; intro H.
  - apply norm2_zero. rewrite <- norm_sq, H. ring.
  - subst. unfold norm. replace (norm2 v0) with 0 by (lunf; ring). apply sqrt_0.
Qed.
Lemma rows_rotation a c : unit a -> unit c -> dot a c = 0 -> rotation (of_rows a (cross c a) c).
Proof.
  intros Ua Uc O. apply rot_T. pose proof (frame_rotation c a Uc Ua) as F. rewrite dot_comm in F. specialize (F O).
  destruct F as [Fo _]. apply of_cols_orth in Fo. destruct Fo as (F1&F2&F3&F4&F5&F6). split.
  - apply of_cols_orth. repeat split; auto; rewrite dot_comm; auto.
  - rewrite det_cols, triple_cycle. exact F3.
Qed.
Lemma mv_rows a b c v : mv (of_rows a b c) v = V3 (dot a v) (dot b v) (dot c v).
Proof. lunf. reflexivity. Qed.

Lemma T_spec f1 f2 T : unit f1 -> unit f2 -> kneip_T f1 f2 = Some T ->
  rotation T /\ exists sb, 0 < sb /\ dot f1 f2 ^ 2 + sb ^ 2 = 1 /\
    mv T f1 = V3 1 0 0 /\ mv T f2 = V3 (dot f1 f2) sb 0 /\
    (forall v, vz (mv T v) = dot (normalized (cross f1 f2)) v) /\
    (forall v, sb * vy (mv T v) = dot f2 v - dot f1 f2 * dot f1 v) /\ (forall v, vx (mv T v) = dot f1 v) /\
    sb = norm (cross f1 f2).
Proof.
  intros U1 U2 E. unfold kneip_T, normalize in E. destruct (Req_EM_T (norm (cross f1 f2)) 0) as [|N]; [discriminate|].
  injection E as <-. set (n := norm (cross f1 f2)) in *.
  assert (NZ : cross f1 f2 <> v0) by (intro Z; apply N; now apply cross_zero_norm).
  assert (P : 0 < n) by now apply norm_pos.
  pose proof (normalized_unit _ NZ) as Ue. set (e := normalized (cross f1 f2)) in *.
  assert (Ee : cross f1 f2 = vscale n e) by now apply norm_normalized.
  assert (Oe : forall v, dot v (cross f1 f2) = n * dot v e) by (intro; rewrite Ee; apply dot_scale_r).
  assert (O1 : dot f1 e = 0).
  { pose proof (Oe f1) as X. rewrite dot_cross_l in X. symmetry in X. apply Rmult_integral in X. lra. }
  assert (O2 : dot f2 e = 0).
  { pose proof (Oe f2) as X. rewrite dot_cross_r in X. symmetry in X. apply Rmult_integral in X. lra. }
  split; [now apply rows_rotation|].
  assert (Y : forall v, n * dot (cross e f1) v = dot f2 v - dot f1 f2 * dot f1 v).
  { intro v. transitivity (dot (cross (cross f1 f2) f1) v).
    - rewrite Ee, cross_scale_l, dot_scale_l. reflexivity.
    - unfold unit in U1. transitivity (norm2 f1 * dot f2 v - dot f1 f2 * dot f1 v); [clear; lring|rewrite U1; ring]. }
  assert (L : dot f1 f2 ^ 2 + n ^ 2 = 1).
  { pose proof (lagrange f1 f2) as L. rewrite U1, U2 in L. pose proof (norm_sq (cross f1 f2)) as Q. fold n in Q. lra. }
  exists n. split; auto. split; auto.
  assert (W2 : dot (cross e f1) f2 = n).
  { apply (Rmult_eq_reg_l n); [|lra]. rewrite Y. unfold unit, norm2 in U2. rewrite U2. lra. }
  split; [|split; [|split; [|split; [|split; auto]]]].
  - rewrite mv_rows. f_equal; [exact U1|clear; lring|now rewrite dot_comm].
  - rewrite mv_rows. f_equal; auto. now rewrite dot_comm.
  - intro v. rewrite mv_rows. reflexivity.
  - intro v. rewrite mv_rows. cbn [vy]. apply Y.
Qed.
Lemma T_swap f1 f2 T : unit f1 -> unit f2 -> kneip_T f1 f2 = Some T ->
  exists T', kneip_T f2 f1 = Some T' /\ forall v, vz (mv T' v) = - vz (mv T v).
Proof.
  intros U1 U2 E. pose proof E as E'. unfold kneip_T, normalize in E |- *.
  assert (A : cross f2 f1 = vscale (-1) (cross f1 f2)) by (clear; lring).
  destruct (Req_EM_T (norm (cross f1 f2)) 0) as [|N]; [discriminate|].
  assert (NZ : cross f1 f2 <> v0) by (intro Z; apply N; now apply cross_zero_norm).
  rewrite A. destruct (Req_EM_T (norm (vscale (-1) (cross f1 f2))) 0) as [Z|N'].
  { exfalso. apply N. rewrite norm_scale in Z. apply Rmult_integral in Z. destruct Z; auto.
    exfalso. rewrite Rabs_left in H; lra. }
  eexists. split; [reflexivity|]. intro v. rewrite normalized_scale_neg by (auto; lra). injection E as <-.
  rewrite !mv_rows. cbn [vz]. generalize (normalized (cross f1 f2)). clear. intros. lring.
Qed.

Lemma N_spec P1 P2 P3 : cross (vsub P2 P1) (vsub P3 P1) <> v0 ->
  exists N p1 p2, kneip_N P1 P2 P3 = Some N /\ rotation N /\ 0 < p2 /\ 0 < norm (vsub P2 P1) /\
    mv N (vsub P2 P1) = V3 (norm (vsub P2 P1)) 0 0 /\ mv N (vsub P3 P1) = V3 p1 p2 0.
Proof.
  intro NC. set (a := vsub P2 P1) in *. set (c := vsub P3 P1) in *.
  assert (Na : a <> v0). { intro Z. apply NC. rewrite Z. clear; lring. }
  pose proof (norm_pos a Na) as Pa. pose proof (normalized_unit a Na) as Ua.
  set (n := normalized a) in *. assert (Ea : a = vscale (norm a) n) by now apply norm_normalized.
  unfold kneip_N. fold a c. unfold normalize. fold n. destruct (Req_EM_T (norm a) 0) as [|_]; [lra|].
  assert (Nn : cross n c <> v0).
  { intro Z. apply NC. rewrite Ea, cross_scale_l, Z. clear. lring. }
  destruct (Req_EM_T (norm (cross n c)) 0) as [Z|_]; [apply cross_zero_norm in Z; contradiction|].
  pose proof (norm_pos _ Nn) as Pn. pose proof (normalized_unit _ Nn) as Ue. set (e := normalized (cross n c)) in *.
  assert (Ee : cross n c = vscale (norm (cross n c)) e) by now apply norm_normalized.
  assert (Oe : forall v, dot v (cross n c) = norm (cross n c) * dot v e) by (intro v; rewrite Ee at 1; apply dot_scale_r).
  assert (O1 : dot n e = 0).
  { pose proof (Oe n) as X. rewrite dot_cross_l in X. symmetry in X. apply Rmult_integral in X. lra. }
  assert (O2 : dot c e = 0).
  { pose proof (Oe c) as X. rewrite dot_cross_r in X. symmetry in X. apply Rmult_integral in X. lra. }
  do 3 eexists. split; [reflexivity|]. split; [now apply rows_rotation|].
  assert (W : dot (cross e n) c = norm (cross n c)).
  { transitivity (dot e (cross n c)); [clear; lring|]. rewrite dot_comm, dot_comm, Oe. unfold unit, norm2 in Ue. rewrite Ue. ring. }
  split; [rewrite <- W in Pn; exact Pn|]. split; auto. split.
  - rewrite mv_rows. rewrite Ea at 1 2 3. rewrite !dot_scale_r. unfold unit, norm2 in Ua. rewrite Ua.
    rewrite (dot_comm e n), O1. f_equal; try ring. clear. lring.
  - rewrite mv_rows. f_equal. now rewrite dot_comm.
Qed.

Lemma b_spec c s : 0 < s -> c ^ 2 + s ^ 2 = 1 -> kneip_b c = c / s.
Proof.
  intros Hs E. unfold kneip_b. replace (1 - c ^ 2) with (s ^ 2) by lra.
  assert (X : 1 / s ^ 2 - 1 = (c / s) * (c / s)).
  { replace 1 with (c ^ 2 + s ^ 2) at 1 by lra. field. lra. }
  rewrite X. destruct (Rlt_dec c 0).
  - replace (c / s * (c / s)) with (- c / s * (- c / s)) by (field; lra). rewrite sqrt_square.
    + field; lra.
    + apply Rmult_le_pos; [lra|]. left. now apply Rinv_0_lt_compat.
  - rewrite sqrt_square; auto. apply Rmult_le_pos; [lra|]. left. now apply Rinv_0_lt_compat.
Qed.
(** the angle of a cotangent *)
Lemma cot_spec ct : let sa := sqrt (1 / (ct ^ 2 + 1)) in
  let ca := if Rlt_dec ct 0 then - sqrt (1 - sa ^ 2) else sqrt (1 - sa ^ 2) in
  0 < sa /\ sa ^ 2 + ca ^ 2 = 1 /\ ca = ct * sa.
Proof.
  intros sa ca. assert (Q : 0 < ct ^ 2 + 1) by nra.
  assert (P : 0 < 1 / (ct ^ 2 + 1)) by (apply Rdiv_lt_0_compat; lra).
  assert (Hs : 0 < sa) by now apply sqrt_lt_R0.
  assert (Sq : sa ^ 2 = 1 / (ct ^ 2 + 1)) by (unfold sa; rewrite <- Rsqr_pow2; apply Rsqr_sqrt; lra).
  assert (X : 1 - sa ^ 2 = (Rabs ct * sa) * (Rabs ct * sa)).
  { replace (Rabs ct * sa * (Rabs ct * sa)) with (Rsqr (Rabs ct) * sa ^ 2) by (unfold Rsqr; ring).
    rewrite <- Rsqr_abs, Sq. unfold Rsqr. field. lra. }
  assert (Y : sqrt (1 - sa ^ 2) = Rabs ct * sa).
  { rewrite X. apply sqrt_square. apply Rmult_le_pos; [apply Rabs_pos|lra]. }
  assert (Ca : ca = ct * sa).
  { unfold ca. rewrite Y. destruct (Rlt_dec ct 0); [rewrite Rabs_left by auto; ring|rewrite Rabs_right by lra; ring]. }
  split; auto. split; auto. rewrite Ca. replace ((ct * sa) ^ 2) with (ct ^ 2 * sa ^ 2) by ring. rewrite Sq. field. lra.
Qed.
Lemma cot_unique sa ca ct : 0 < sa -> sa ^ 2 + ca ^ 2 = 1 -> ca = ct * sa ->
  sqrt (1 / (ct ^ 2 + 1)) = sa /\ (if Rlt_dec ct 0 then - sqrt (1 - sa ^ 2) else sqrt (1 - sa ^ 2)) = ca.
Proof.
  intros Hs E Ec. destruct (cot_spec ct) as (H1&H2&H3). set (sa' := sqrt (1 / (ct ^ 2 + 1))) in *.
  assert (S : sa' = sa).
  { rewrite Ec in E. rewrite H3 in H2. assert (Q : 0 < ct ^ 2 + 1) by nra.
    assert (X : (ct ^ 2 + 1) * (sa' ^ 2) = (ct ^ 2 + 1) * sa ^ 2) by nra.
    apply Rmult_eq_reg_l in X; [|lra]. replace (sa' ^ 2) with (Rsqr sa') in X by (unfold Rsqr; ring).
    replace (sa ^ 2) with (Rsqr sa) in X by (unfold Rsqr; ring). apply Rsqr_inj; lra. }
  split; auto. rewrite S in *. rewrite H3. auto.
Qed.

Lemma kneip_R_rot sa ca st ct : sa ^ 2 + ca ^ 2 = 1 -> st ^ 2 + ct ^ 2 = 1 -> rotation (kneip_R sa ca st ct).
Proof.
  intros A B. assert (A' : ca ^ 2 = 1 - sa ^ 2) by lra. assert (B' : ct ^ 2 = 1 - st ^ 2) by lra.
  unfold kneip_R. split.
  - lunf. f_equal; ring [A' B'].
  - lunf. ring [A' B'].
Qed.

(** ** The quartic *)
Section Core.
Variables (f_1 f_2 p1 p2 d b : R).
Let X (r : R) := f_2 * (d - p1) + f_1 * r * p2.
Let Y (r : R) := f_1 * p1 + f_2 * r * p2 - f_2 * d * b.
Let G (r : R) := - p1 ^ 2 + p1 * d - r ^ 2 * p2 ^ 2 + d * b * r * p2.
Definition kquartic (r : R) : R :=
  kneip_A f_1 f_2 p2 * r ^ 4 + kneip_B f_1 f_2 p2 d b * r ^ 3 + kneip_C f_1 f_2 p1 p2 d b * r ^ 2
  + kneip_D f_1 f_2 p1 p2 d b * r + kneip_E f_1 f_2 p1 p2 d b.
Lemma quartic_id r : kquartic r = (1 - r ^ 2) * p2 ^ 2 * (X r ^ 2 + Y r ^ 2) - G r ^ 2.
Proof. unfold kquartic, kneip_A, kneip_B, kneip_C, kneip_D, kneip_E, X, Y, G. ring. Qed.
Lemma G_id r : p1 * X r - Y r * r * p2 = f_2 * G r.
Proof. unfold X, Y, G. ring. Qed.
Lemma cot_id r c : kneip_cot f_1 f_2 p1 p2 d b r = Some c <-> f_2 <> 0 /\ X r <> 0 /\ c = Y r / X r.
Proof.
  unfold kneip_cot. destruct (Req_EM_T f_2 0) as [Z|Z].
  { split; [discriminate|intuition]. }
  assert (E : - f_1 * r * p2 / f_2 + p1 - d = - X r / f_2) by (unfold X; field; auto).
  assert (F : - f_1 * p1 / f_2 - r * p2 + d * b = - Y r / f_2) by (unfold Y; field; auto).
  rewrite E, F. destruct (Req_EM_T (- X r / f_2) 0) as [W|W].
  - split; [discriminate|]. intros (_&N&_). exfalso. apply N.
    assert (X r = - (- X r / f_2) * f_2) as -> by (field; auto). rewrite W. ring.
  - assert (XN : X r <> 0) by (intro Q; apply W; rewrite Q; field; auto).
    split.
    + intro Q. injection Q as <-. split; auto. split; auto. field. auto.
    + intros (_&_&->). f_equal. field. auto.
Qed.
(** the two equations of the third point, up to the sign of the sine *)
Lemma root_equations r c sa ca st : kneip_cot f_1 f_2 p1 p2 d b r = Some c ->
  0 < sa -> sa ^ 2 + ca ^ 2 = 1 -> ca = c * sa -> st ^ 2 + r ^ 2 = 1 -> kquartic r = 0 ->
  exists e, (e = 1 \/ e = -1) /\
    - ca * p1 - sa * r * p2 + d * (sa * b + ca) = e * f_1 * (- st * p2) /\ sa * p1 - ca * r * p2 = e * f_2 * (- st * p2).
Proof.
  intros Hc Hs E Ec Est Q. apply cot_id in Hc. destruct Hc as (Nf&NX&Ecc).
  rewrite quartic_id in Q. set (x := X r) in *. set (y := Y r) in *. set (g := G r) in *.
  assert (Cxy : ca * x = sa * y) by (rewrite Ec, Ecc; field; auto).
  set (w := sa * x + ca * y).
  assert (Ex : x = sa * w). { unfold w. transitivity ((sa ^ 2 + ca ^ 2) * x); [rewrite E; ring|]. transitivity (sa ^ 2 * x + ca * (ca * x)); [ring|]. rewrite Cxy. ring. }
  assert (Ey : y = ca * w). { unfold w. transitivity ((sa ^ 2 + ca ^ 2) * y); [rewrite E; ring|]. transitivity (sa * (sa * y) + ca ^ 2 * y); [ring|]. rewrite <- Cxy. ring. }
  assert (W : w <> 0) by (intro Z; apply NX; rewrite Ex, Z; ring).
  assert (G2 : (g - st * p2 * w) * (g + st * p2 * w) = 0).
  { replace (1 - r ^ 2) with (st ^ 2) in Q by lra.
    assert (XY : x ^ 2 + y ^ 2 = w ^ 2).
    { rewrite Ex, Ey. transitivity ((sa ^ 2 + ca ^ 2) * w ^ 2); [ring|rewrite E; ring]. }
    rewrite XY in Q. replace ((g - st * p2 * w) * (g + st * p2 * w)) with (g ^ 2 - st ^ 2 * p2 ^ 2 * w ^ 2) by ring. lra. }
  pose proof (G_id r) as GI. fold x y g in GI.
  assert (E2 : forall e, g = - e * st * p2 * w -> sa * p1 - ca * r * p2 = e * f_2 * (- st * p2)).
  { intros e Eg. apply (Rmult_eq_reg_l w); auto. transitivity (p1 * x - y * r * p2); [rewrite Ex, Ey; ring|].
    rewrite GI, Eg. ring. }
  assert (E1 : forall e, sa * p1 - ca * r * p2 = e * f_2 * (- st * p2) ->
     - ca * p1 - sa * r * p2 + d * (sa * b + ca) = e * f_1 * (- st * p2)).
  { intros e K. apply (Rmult_eq_reg_l f_2); auto. transitivity (f_1 * (sa * p1 - ca * r * p2)); [|rewrite K; ring].
    unfold x, y, X, Y in Cxy. clear - Cxy. lra. }
  apply Rmult_integral in G2. destruct G2 as [Z|Z].
  - exists (-1). split; auto. assert (K := E2 (-1)). split; [apply E1|]; apply K; lra.
  - exists 1. split; auto. assert (K := E2 1). split; [apply E1|]; apply K; lra.
Qed.
Lemma equations_root r sa ca st : f_2 <> 0 -> 0 < sa -> sa ^ 2 + ca ^ 2 = 1 -> st ^ 2 + r ^ 2 = 1 ->
  - ca * p1 - sa * r * p2 + d * (sa * b + ca) = f_1 * (- st * p2) -> sa * p1 - ca * r * p2 = f_2 * (- st * p2) ->
  kquartic r = 0 /\ (sa * X r + ca * Y r <> 0 -> exists c, kneip_cot f_1 f_2 p1 p2 d b r = Some c /\ ca = c * sa).
Proof.
  intros Nf Hs E Est E1 E2. rewrite quartic_id.
  pose proof (G_id r) as GI.
  assert (Cxy : ca * X r = sa * Y r).
  { assert (K : f_2 * (- ca * p1 - sa * r * p2 + d * (sa * b + ca)) = f_1 * (sa * p1 - ca * r * p2)) by (rewrite E1, E2; ring).
    unfold X, Y. lra. }
  assert (CI := cot_id r).
  set (x := X r) in *. set (y := Y r) in *. set (g := G r) in *.
  set (w := sa * x + ca * y).
  assert (Ex : x = sa * w). { unfold w. transitivity ((sa ^ 2 + ca ^ 2) * x); [rewrite E; ring|]. transitivity (sa ^ 2 * x + ca * (ca * x)); [ring|]. rewrite Cxy. ring. }
  assert (Ey : y = ca * w). { unfold w. transitivity ((sa ^ 2 + ca ^ 2) * y); [rewrite E; ring|]. transitivity (sa * (sa * y) + ca ^ 2 * y); [ring|]. rewrite <- Cxy. ring. }
  assert (Eg : g = - st * p2 * w).
  { apply (Rmult_eq_reg_l f_2); auto. rewrite <- GI. transitivity (w * (sa * p1 - ca * r * p2)); [rewrite Ex, Ey; ring|].
    rewrite E2. ring. }
  split.
  - replace (1 - r ^ 2) with (st ^ 2) by lra.
    assert (XY : x ^ 2 + y ^ 2 = w ^ 2).
    { rewrite Ex, Ey. transitivity ((sa ^ 2 + ca ^ 2) * w ^ 2); [ring|rewrite E; ring]. }
    rewrite XY, Eg. ring.
  - intro W. assert (NX : x <> 0) by (rewrite Ex; apply Rmult_integral_contrapositive; split; auto; lra).
    exists (y / x). split; [apply CI; auto|]. rewrite Ex, Ey. field. split; auto. lra.
Qed.
End Core.

(** ** One solution *)
Lemma sees_frame N K T P1 c P f lam : rotation N -> rotation K ->
  (mv K (vsub (mv N (vsub P P1)) c) = vscale lam (mv T f) <->
   sees (Pose (mmul (mmul (mT N) (mT K)) T) (vadd P1 (mv (mT N) c))) f P lam).
Proof.
  intros RN RK. unfold sees. cbn [pR pt]. rewrite !mv_mmul.
  assert (E : vsub P (vadd P1 (mv (mT N) c)) = mv (mT N) (vsub (mv N (vsub P P1)) c)).
  { rewrite mv_sub, rot_T_mv by auto. generalize (mv (mT N) c). clear. lring. }
  rewrite E. set (u := vsub (mv N (vsub P P1)) c). set (g := mv T f). split; intro H.
  - assert (U : u = vscale lam (mv (mT K) g)).
    { rewrite <- (rot_T_mv K u) by auto. rewrite H. apply mv_scale. }
    rewrite U. apply mv_scale.
  - assert (U : u = vscale lam (mv (mT K) g)).
    { rewrite <- (rot_mv_T N u) by auto. rewrite H, mv_scale, rot_mv_T; auto. }
    rewrite U, mv_scale, rot_mv_T; auto.
Qed.

Lemma sub_chain P C O : vsub (vsub P O) (vsub C O) = vsub P C. Proof. lring. Qed.
Lemma add_sub_r P C : vadd P (vsub C P) = C. Proof. lring. Qed.
Lemma neg_vec v l : vsub v0 v = vscale l (V3 1 0 0) -> v = V3 (- l) 0 0.
Proof. destruct v. lunf. intro H. injection H; intros. f_equal; lra. Qed.
Lemma first_col M d l1 l2 cb sb : vsub (mv M (V3 d 0 0)) (V3 (- l1) 0 0) = vscale l2 (V3 cb sb 0) ->
  m00 M * d = l2 * cb - l1 /\ m10 M * d = l2 * sb /\ m20 M * d = 0.
Proof. destruct M. lunf. intro H. injection H; intros. repeat split; lra. Qed.
Lemma third_eq sa ca st ct p1 p2 l1 l3 z f_1 f_2 :
  vsub (mv (kneip_R sa ca st ct) (V3 p1 p2 0)) (V3 (- l1) 0 0) = vscale l3 (vscale z (V3 f_1 f_2 1)) ->
  - ca * p1 - sa * ct * p2 + l1 = l3 * (z * f_1) /\ sa * p1 - ca * ct * p2 = l3 * (z * f_2) /\ - st * p2 = l3 * z.
Proof. unfold kneip_R. lunf. intro H. injection H; intros. repeat split; lra. Qed.
Lemma center_eq sa ca st ct d b :
  mv (mT (kneip_R sa ca st ct)) (V3 (- (d * (sa * b + ca))) 0 0)
  = V3 (d * ca * (sa * b + ca)) (ct * d * sa * (sa * b + ca)) (st * d * sa * (sa * b + ca)).
Proof. unfold kneip_R. lunf. f_equal; ring. Qed.
Lemma center_img sa ca st ct d b : sa ^ 2 + ca ^ 2 = 1 -> st ^ 2 + ct ^ 2 = 1 -> mv (kneip_R sa ca st ct)
  (V3 (d * ca * (sa * b + ca)) (ct * d * sa * (sa * b + ca)) (st * d * sa * (sa * b + ca))) = V3 (- d * (sa * b + ca)) 0 0.
Proof.
  intros E Est. unfold kneip_R. lunf. assert (E' : ca ^ 2 = 1 - sa ^ 2) by lra. assert (Est' : st ^ 2 = 1 - ct ^ 2) by lra.
  f_equal; ring [E' Est'].
Qed.
Lemma img_p2 sa ca st ct d b cb sb : sb <> 0 -> b = cb / sb ->
  vsub (mv (kneip_R sa ca st ct) (V3 d 0 0)) (V3 (- d * (sa * b + ca)) 0 0) = vscale (d * sa / sb) (V3 cb sb 0).
Proof. intros H ->. unfold kneip_R. lunf. f_equal; field; auto. Qed.
Lemma img_p3 sa ca st ct p1 p2 k : vsub (mv (kneip_R sa ca st ct) (V3 p1 p2 0)) (V3 (- k) 0 0)
  = V3 (- ca * p1 - sa * ct * p2 + k) (sa * p1 - ca * ct * p2) (- st * p2).
Proof. unfold kneip_R. lunf. f_equal; ring. Qed.

Section Solution.
Variables (T N : mat3) (f1 f2 f3 P1 P2 P3 : vec3) (cb sb p1 p2 d : R).
Hypotheses (RT : rotation T) (RN : rotation N) (Hsb : 0 < sb) (Ecs : cb ^ 2 + sb ^ 2 = 1)
  (T1 : mv T f1 = V3 1 0 0) (T2 : mv T f2 = V3 cb sb 0) (Hp2 : 0 < p2) (Hd : 0 < d)
  (N2 : mv N (vsub P2 P1) = V3 d 0 0) (N3 : mv N (vsub P3 P1) = V3 p1 p2 0).
Let z := vz (mv T f3).
Hypothesis Hz : z < 0.
Let f_1 := vx (mv T f3) / z.
Let f_2 := vy (mv T f3) / z.
Let b := cb / sb.
Lemma T3 : mv T f3 = vscale z (V3 f_1 f_2 1).
Proof. unfold f_1, f_2, vscale; cbn [vx vy vz]. apply vext; cbn [vx vy vz]; [field; lra|field; lra|fold z; ring]. Qed.
Lemma N1 : mv N (vsub P1 P1) = v0.
Proof. rewrite vsub_self. apply mv_0. Qed.

Lemma sol_sound r S : kneip_solution T N P1 f_1 f_2 p1 p2 d b r = Some S ->
  rotation (pR S) /\ (exists l1 l2, sees S f1 P1 l1 /\ sees S f2 P2 l2 /\ 0 < l2) /\
  (kquartic f_1 f_2 p1 p2 d b r = 0 ->
     exists l3, 0 <= l3 /\ (sees S f3 P3 l3 \/ sees S (mv (mT T) (V3 (- f_1 * z) (- f_2 * z) z)) P3 l3)).
Proof.
  unfold kneip_solution. destruct (kneip_cot f_1 f_2 p1 p2 d b r) as [c|] eqn:Ec; [|discriminate].
  destruct (Rlt_dec (1 - r ^ 2) 0) as [|Hr]; [discriminate|].
  destruct (cot_spec c) as (Hs&E&Eca). cbv zeta.
  set (sa := sqrt (1 / (c ^ 2 + 1))) in *.
  set (ca := if Rlt_dec c 0 then - sqrt (1 - sa ^ 2) else sqrt (1 - sa ^ 2)) in *. clearbody sa ca.
  assert (Est : sqrt (1 - r ^ 2) ^ 2 + r ^ 2 = 1).
  { rewrite <- Rsqr_pow2, Rsqr_sqrt by lra. ring. }
  assert (Pst : 0 <= sqrt (1 - r ^ 2)) by apply sqrt_pos.
  set (st := sqrt (1 - r ^ 2)) in *. clearbody st.
  assert (RK := kneip_R_rot sa ca st r E Est). set (K := kneip_R sa ca st r) in *.
  intro H. injection H as <-.
  set (cv := V3 (d * ca * (sa * b + ca)) (r * d * sa * (sa * b + ca)) (st * d * sa * (sa * b + ca))).
  assert (Kc : mv K cv = V3 (- d * (sa * b + ca)) 0 0).
  { now apply center_img. }
  split; [cbn [pR]; apply rot_mmul; auto; apply rot_mmul; apply rot_T; auto|]. split.
  - exists (d * (sa * b + ca)), (d * sa / sb). split; [|split].
    + apply sees_frame; auto. rewrite N1, T1, mv_sub, mv_0, Kc. unfold vsub, vscale, v0; cbn [vx vy vz]. f_equal; ring.
    + apply sees_frame; auto. rewrite N2, T2, mv_sub, Kc. apply img_p2; [lra|reflexivity].
    + apply Rdiv_lt_0_compat; auto. apply Rmult_lt_0_compat; auto.
  - intro Q. destruct (root_equations f_1 f_2 p1 p2 d b r c sa ca st Ec Hs E Eca Est Q) as (e&He&E1&E2).
    exists (- st * p2 / z).
    assert (Kp : mv K (vsub (mv N (vsub P3 P1)) cv) = V3 (e * f_1 * (- st * p2)) (e * f_2 * (- st * p2)) (- st * p2)).
    { rewrite mv_sub, Kc, N3, <- E1, <- E2.
      replace (- d * (sa * b + ca)) with (- (d * (sa * b + ca))) by ring. apply img_p3. }
    split.
    { replace (- st * p2 / z) with (st * p2 * / - z) by (field; lra). apply Rmult_le_pos.
      - apply Rmult_le_pos; lra.
      - left. apply Rinv_0_lt_compat. lra. }
    destruct He as [He|He]; [left|right]; apply sees_frame; auto; rewrite Kp, He.
    + rewrite T3. unfold vscale; cbn [vx vy vz]. f_equal; field; lra.
    + rewrite rot_mv_T by auto. unfold vscale; cbn [vx vy vz]. f_equal; field; lra.
Qed.

Lemma rot_shape M : rotation M -> m20 M = 0 -> 0 < m10 M ->
  exists sa ca st ct, 0 < sa /\ sa ^ 2 + ca ^ 2 = 1 /\ st ^ 2 + ct ^ 2 = 1 /\ M = kneip_R sa ca st ct.
Proof.
  intros RM Z P. pose proof (rot_adj M RM) as A. pose proof (rot_l M RM) as B. pose proof (rot_r M RM) as B'.
  destruct M as [a0 a1 a2 b0 b1 b2 c0 c1 c2]. unfold adj, mT, mmul, mid in *. cbn [m00 m01 m02 m10 m11 m12 m20 m21 m22] in *. subst c0.
  exists b0, (- a0), (- c1), c2. split; auto.
  assert (B00 := f_equal m00 B). assert (B22 := f_equal m22 B'). cbn in B00, B22.
  split; [lra|]. split; [lra|].
  assert (A1 := f_equal m01 A). assert (A2 := f_equal m02 A). assert (A3 := f_equal m10 A). assert (A4 := f_equal m11 A).
  assert (A5 := f_equal m12 A). assert (A0 := f_equal m20 A). assert (A6 := f_equal m21 A). cbn in A0, A1, A2, A3, A4, A5, A6.
  unfold kneip_R. f_equal; lra.
Qed.

Lemma sol_complete S l1 l2 l3 : rotation (pR S) -> sees S f1 P1 l1 -> sees S f2 P2 l2 -> sees S f3 P3 l3 ->
  0 < l2 -> 0 < l3 -> f_2 <> 0 ->
  exists r, kquartic f_1 f_2 p1 p2 d b r = 0 /\
    (l1 * (f_1 * z - cb / sb * (f_2 * z)) + l2 * (f_2 * z) / sb <> l3 * ((f_1 * z) ^ 2 + (f_2 * z) ^ 2) ->
     kneip_solution T N P1 f_1 f_2 p1 p2 d b r = Some S).
Proof.
  intros RS S1 S2 S3 L2 L3 Nf. destruct S as [Q C]. unfold sees in *. cbn [pR pt] in *.
  set (M := mmul T (mmul (mT Q) (mT N))).
  assert (RM : rotation M) by (apply rot_mmul; auto; apply rot_mmul; apply rot_T; auto).
  set (cv := mv N (vsub C P1)).
  assert (K : forall P f lam, vsub P C = vscale lam (mv Q f) -> mv M (vsub (mv N (vsub P P1)) cv) = vscale lam (mv T f)).
  { intros P f lam H. unfold cv. rewrite <- mv_sub. unfold M. rewrite !mv_mmul, rot_T_mv by auto.
    rewrite sub_chain.
    rewrite H, mv_scale, rot_T_mv, mv_scale; auto. }
  apply K in S1. apply K in S2. apply K in S3. rewrite N1 in S1. rewrite T1 in S1. rewrite N2, T2 in S2. rewrite N3, T3 in S3.
  rewrite mv_sub in S1, S2, S3. rewrite mv_0 in S1.
  assert (Mc : mv M cv = V3 (- l1) 0 0).
  { now apply neg_vec. }
  rewrite Mc in S2, S3.
  assert (C0 : m00 M * d = l2 * cb - l1 /\ m10 M * d = l2 * sb /\ m20 M * d = 0).
  { now apply first_col. }
  destruct C0 as (C0&C1&C2).
  destruct (rot_shape M RM) as (sa&ca&st&ct&Hs&E&Est&EM).
  { apply Rmult_integral in C2. destruct C2; [auto|lra]. }
  { assert (0 < m10 M * d) by (rewrite C1; apply Rmult_lt_0_compat; auto). apply (Rmult_lt_reg_r d); lra. }
  rewrite EM in *. unfold kneip_R in C0, C1. cbn [m00 m10] in C0, C1.
  assert (El2 : l2 = d * sa / sb) by (field_simplify_eq; lra).
  assert (El1 : l1 = d * (sa * b + ca)) by (unfold b; rewrite El2 in C0; field_simplify_eq; [|lra]; field_simplify_eq in C0; [|lra]; lra).
  assert (E3 : - ca * p1 - sa * ct * p2 + d * (sa * b + ca) = l3 * (z * f_1) /\ sa * p1 - ca * ct * p2 = l3 * (z * f_2) /\ - st * p2 = l3 * z).
  { rewrite <- El1. now apply third_eq. }
  destruct E3 as (E1&E2&E3).
  assert (Pst : 0 < st).
  { assert (0 < l3 * - z) by (apply Rmult_lt_0_compat; lra). assert (0 < st * p2) by lra.
    apply (Rmult_lt_reg_r p2); lra. }
  assert (E1' : - ca * p1 - sa * ct * p2 + d * (sa * b + ca) = f_1 * (- st * p2)) by (rewrite E1, E3; ring).
  assert (E2' : sa * p1 - ca * ct * p2 = f_2 * (- st * p2)) by (rewrite E2, E3; ring).
  destruct (equations_root f_1 f_2 p1 p2 d b ct sa ca st Nf Hs E Est E1' E2') as (Qr&Cot).
  exists ct. split; auto. intro ND.
  destruct Cot as (c&Ec&Eca).
  { intro W. apply ND. clear ND.
    assert (Ci : ca * p1 + sa * ct * p2 = l1 - l3 * (z * f_1)) by (rewrite El1; lra).
    assert (Wz : z * (f_1 * (ca * p1 + sa * ct * p2) - f_2 * (sa * p1 - ca * ct * p2) + d * f_2 * (sa - ca * b)) = 0)
      by (rewrite <- (Rmult_0_r z), <- W; ring).
    rewrite Ci, E2 in Wz.
    assert (Dd : d * (sa - ca * b) = l2 / sb - l1 * (cb / sb)).
    { rewrite El2, El1. unfold b. replace (d * sa / sb / sb) with (d * sa / sb ^ 2) by (field; lra).
      apply (Rmult_eq_reg_r (sb ^ 2)); [|apply pow_nonzero; lra].
      field_simplify; try lra. replace (cb ^ 2) with (1 - sb ^ 2) by lra. ring. }
    replace (d * f_2 * (sa - ca * b)) with (f_2 * (d * (sa - ca * b))) in Wz by ring. rewrite Dd in Wz.
    unfold Rdiv in *. lra. }
  assert (Est' : sqrt (1 - ct ^ 2) = st).
  { replace (1 - ct ^ 2) with (st * st) by lra. apply sqrt_square. lra. }
  unfold kneip_solution. rewrite Ec. destruct (cot_unique sa ca c Hs E Eca) as [U1 U2].
  destruct (Rlt_dec (1 - ct ^ 2) 0) as [Bad|_]; [exfalso; replace (1 - ct ^ 2) with (st * st) in Bad by lra; nra|].
  cbv zeta. rewrite U1, U2, Est'.
  rewrite <- EM in *. f_equal. f_equal.
  - unfold M. rewrite !mT_mmul, !mT_mT.
    rewrite !mmul_assoc. rewrite rot_l, mmul_id_l by auto. rewrite <- mmul_assoc, rot_l, mmul_id_r; auto.
  - assert (Ecv : cv = V3 (d * ca * (sa * b + ca)) (ct * d * sa * (sa * b + ca)) (st * d * sa * (sa * b + ca))).
    { rewrite <- (rot_T_mv M cv RM), Mc, EM, El1. apply center_eq. }
    rewrite <- Ecv. unfold cv. rewrite rot_T_mv by auto. apply add_sub_r.
Qed.
Lemma vz_dot v : vz v = dot (V3 0 0 1) v.
Proof. destruct v. lunf. ring. Qed.
Lemma sol_cos n m r S : mv T n = V3 0 0 1 -> mv N m = V3 0 0 1 ->
  kneip_solution T N P1 f_1 f_2 p1 p2 d b r = Some S -> dot (mv (pR S) n) m = r.
Proof.
  intros Tn Nm. unfold kneip_solution. destruct (kneip_cot f_1 f_2 p1 p2 d b r) as [c|]; [|discriminate].
  destruct (Rlt_dec _ 0) as [|_]; [discriminate|]. cbv zeta. intro H. injection H as <-. cbn [pR].
  rewrite !mv_mmul, Tn. rewrite <- (rot_dot N) by auto. rewrite rot_mv_T, Nm by auto.
  generalize (sqrt (1 / (c ^ 2 + 1))). intro sa.
  generalize (if Rlt_dec c 0 then - sqrt (1 - sa ^ 2) else sqrt (1 - sa ^ 2)) (sqrt (1 - r ^ 2)). clear.
  intros. unfold kneip_R. lunf. ring.
Qed.
Lemma sol_root n m S f e l1 l2 l3 : mv T n = V3 0 0 1 -> mv N m = V3 0 0 1 -> e = 1 \/ e = -1 ->
  mv T f = vscale z (V3 (e * f_1) (e * f_2) 1) ->
  rotation (pR S) -> sees S f1 P1 l1 -> sees S f2 P2 l2 -> sees S f P3 l3 -> 0 < l2 -> f_2 <> 0 ->
  kquartic f_1 f_2 p1 p2 d b (dot (mv (pR S) n) m) = 0.
Proof.
  intros Tn Nm He Tf RS S1 S2 S3 L2 Nf. destruct S as [Q C]. unfold sees in *. cbn [pR pt] in *.
  set (M := mmul T (mmul (mT Q) (mT N))).
  assert (RM : rotation M) by (apply rot_mmul; auto; apply rot_mmul; apply rot_T; auto).
  set (cv := mv N (vsub C P1)).
  assert (K : forall P g lam, vsub P C = vscale lam (mv Q g) -> mv M (vsub (mv N (vsub P P1)) cv) = vscale lam (mv T g)).
  { intros P g lam H. unfold cv. rewrite <- mv_sub. unfold M. rewrite !mv_mmul, rot_T_mv by auto.
    rewrite sub_chain.
    rewrite H, mv_scale, rot_T_mv, mv_scale; auto. }
  apply K in S1. apply K in S2. apply K in S3. rewrite N1 in S1. rewrite T1 in S1. rewrite N2, T2 in S2. rewrite N3, Tf in S3.
  rewrite mv_sub in S1, S2, S3. rewrite mv_0 in S1.
  assert (Mc : mv M cv = V3 (- l1) 0 0).
  { now apply neg_vec. }
  rewrite Mc in S2, S3.
  assert (C0 : m00 M * d = l2 * cb - l1 /\ m10 M * d = l2 * sb /\ m20 M * d = 0).
  { now apply first_col. }
  destruct C0 as (C0&C1&C2).
  assert (Dm : dot (mv Q n) m = vz (mv M (V3 0 0 1))).
  { rewrite vz_dot. transitivity (dot (mv T n) (mv M (mv N m))); [|now rewrite Tn, Nm].
    unfold M. rewrite !mv_mmul, rot_dot by auto. rewrite rot_T_mv by auto.
    rewrite <- (rot_dot Q n) by auto. now rewrite rot_mv_T. }
  destruct (rot_shape M RM) as (sa&ca&st&ct&Hs&E&Est&EM).
  { apply Rmult_integral in C2. destruct C2; [auto|lra]. }
  { assert (0 < m10 M * d) by (rewrite C1; apply Rmult_lt_0_compat; auto). apply (Rmult_lt_reg_r d); lra. }
  rewrite Dm. rewrite EM in *. replace (vz (mv (kneip_R sa ca st ct) (V3 0 0 1))) with ct by (unfold kneip_R; lunf; ring).
  unfold kneip_R in C0, C1. cbn [m00 m10] in C0, C1.
  assert (El2 : l2 = d * sa / sb) by (field_simplify_eq; lra).
  assert (El1 : l1 = d * (sa * b + ca)) by (unfold b; rewrite El2 in C0; field_simplify_eq; [|lra]; field_simplify_eq in C0; [|lra]; lra).
  apply third_eq in S3. destruct S3 as (E1&E2&E3).
  assert (Ee : e * e = 1) by (destruct He; subst e; ring).
  apply (equations_root f_1 f_2 p1 p2 d b ct sa ca (e * st)); auto.
  - transitivity (e * e * st ^ 2 + ct ^ 2); [ring|rewrite Ee; lra].
  - rewrite <- El1, E1. transitivity (e * f_1 * (l3 * z)); [ring|]. rewrite <- E3. ring.
  - rewrite E2. transitivity (e * f_2 * (l3 * z)); [ring|]. rewrite <- E3. ring.
Qed.
End Solution.
