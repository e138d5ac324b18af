(** Triangulation, the two-point solvers, scoring and candidate selection:
    specifications and theorems. *)
From Coq Require Import Reals Lra Psatz List Lia Arith.
From Verif Require Import SacModel Lin Spectral ArunModel ArunProps AdapterModel AdapterProps GeoModel.
Import ListNotations.
Local Open Scope R_scope.

(** * Helpers *)
Lemma v_dec (v : vec3) : v = v0 \/ v <> v0.
Proof. apply Classical_Prop.classic. Qed.
Lemma norm_v0 : norm v0 = 0.
Proof. unfold norm, norm2. replace (dot v0 v0) with 0 by lring. apply sqrt_0. Qed.
Lemma normalize_none v : normalize v = None <-> v = v0.
Proof.
  unfold normalize. destruct (Req_EM_T (norm v) 0) as [E|E]; split; intro H; try discriminate; auto.
  - apply norm2_zero. rewrite <- norm_sq, E. ring.
  - subst. now rewrite norm_v0 in E.
Qed.
Lemma normalize_some v : v <> v0 -> normalize v = Some (normalized v).
Proof.
  intro H. unfold normalize. destruct (Req_EM_T (norm v) 0) as [E|E]; auto.
  exfalso. pose proof (norm_pos v H). lra.
Qed.
Lemma normalize_inv v w : normalize v = Some w -> v <> v0 /\ w = normalized v.
Proof.
  intro H. destruct (v_dec v) as [E|E].
  - apply normalize_none in E. rewrite E in H. discriminate.
  - rewrite normalize_some in H by auto. inversion H. auto.
Qed.
Lemma normalized_eq v f : v <> v0 -> unit f -> (normalized v = f <-> exists k, 0 < k /\ v = vscale k f).
Proof.
  intros Hv Hf. split.
  - intro E. exists (norm v). split; [now apply norm_pos|]. rewrite <- E. now apply norm_normalized.
  - intros (k & Hk & E). subst v. rewrite normalized_scale_pos; auto using unit_nonzero. now apply normalized_of_unit.
Qed.
Lemma normalized_eq_neg v f : v <> v0 -> unit f -> (normalized v = vneg f <-> exists k, k < 0 /\ v = vscale k f).
Proof.
  intros Hv Hf. split.
  - intro E. exists (- norm v). split; [pose proof (norm_pos v Hv); lra|].
    rewrite (norm_normalized v Hv) at 1. rewrite E. lring.
  - intros (k & Hk & E). subst v. rewrite normalized_scale_neg; auto using unit_nonzero. f_equal. now apply normalized_of_unit.
Qed.
Lemma vscale_zero k v : v <> v0 -> vscale k v = v0 -> k = 0.
Proof.
  intros Hv E. assert (H : norm2 (vscale k v) = 0) by (rewrite E; lring).
  rewrite norm2_scale in H. pose proof (norm2_pos v Hv).
  apply Rmult_integral in H. destruct H as [H|H]; [|lra]. apply Rmult_integral in H. tauto.
Qed.
Lemma cross_zero_scale n t : n <> v0 -> cross n t = v0 -> exists s, t = vscale s n.
Proof.
  intros Hn E. exists (dot n t / norm2 n). pose proof (norm2_pos n Hn) as Hp.
  assert (G : vscale (norm2 n) t = vscale (dot n t) n).
  { pose proof (cross_cross n n t) as C. rewrite E in C.
    assert (Z : cross n v0 = v0) by lring. rewrite Z in C.
    revert C. unfold norm2. ldes. lunf. intro C. linj C. f_equal; lra. }
  rewrite <- (vscale_1 t) at 1. replace 1 with (/ norm2 n * norm2 n) by (field; lra).
  rewrite <- vscale_scale, G, vscale_scale. f_equal. field. lra.
Qed.

Lemma row_mmul A B i : row (mmul A B) i = mv (mT B) (row A i).
Proof. unfold row. destruct i as [|[|i]]; lring. Qed.
Lemma row_of_rows_0 a b c : row (of_rows a b c) 0 = a.
Proof. now destruct a. Qed.
Lemma row_of_rows_1 a b c : row (of_rows a b c) 1 = b.
Proof. now destruct b. Qed.
Lemma m00_row A : m00 A = vx (row A 0).
Proof. now destruct A. Qed.
Lemma m10_row A : m10 A = vx (row A 1).
Proof. now destruct A. Qed.
Lemma vx_mv A v : vx (mv A v) = dot (row A 0) v.
Proof. lring. Qed.

(** * C37: mid-point triangulation *)
Definition ray2_gap (f1 t g : vec3) (a b : R) : vec3 := vsub (vscale a f1) (vadd t (vscale b g)).

Lemma tri2_det f g : dot f f * - dot g g - dot f g * - dot f g = - norm2 (cross f g).
Proof. rewrite lagrange. unfold norm2. ring. Qed.

Theorem C37_failure_iff_parallel :
  forall t R f1 f2, triangulate2 t R f1 f2 = None <-> parallel f1 (mv R f2).
Proof.
  intros t R f1 f2. unfold triangulate2. rewrite tri2_det.
  destruct (Req_EM_T _ 0) as [E|E]; split; intro H; try discriminate; auto.
  - apply norm2_zero. lra.
  - exfalso. apply E. unfold parallel in H. rewrite H. lring.
Qed.

(** The returned point is the middle of the two points, one on each ray
    (extended to a line), that are closest to one another. *)
Theorem C37_midpoint_of_shortest_segment :
  forall t R f1 f2 X, triangulate2 t R f1 f2 = Some X ->
    exists a b,
      let P := vscale a f1 in
      let Q := vadd t (vscale b (mv R f2)) in
      X = vscale (1/2) (vadd P Q)
      /\ dot (vsub P Q) f1 = 0 /\ dot (vsub P Q) (mv R f2) = 0
      /\ forall a' b', norm (vsub P Q) <= norm (vsub (vscale a' f1) (vadd t (vscale b' (mv R f2)))).
Proof.
  intros t R f1 f2 X. unfold triangulate2. rewrite tri2_det. set (g := mv R f2).
  destruct (Req_EM_T _ 0) as [E|E]; intro H; [discriminate|]. injection H as <-.
  assert (D : norm2 (cross f1 g) <> 0) by lra. clear E.
  eexists _, _. cbv zeta. split; [|split; [|split]].
  - rewrite vdivs_scale. unfold Rdiv at 3. rewrite Rmult_1_l. reflexivity.
  - rewrite lagrange in D.
    rewrite dot_sub_l, dot_scale_l, dot_add_l, dot_scale_l, (lagrange f1 g), (dot_comm g f1).
    unfold norm2 in *. field. lra.
  - rewrite lagrange in D.
    rewrite dot_sub_l, dot_scale_l, dot_add_l, dot_scale_l, (lagrange f1 g).
    unfold norm2 in *. field. lra.
  - match goal with |- context [vsub (vscale ?x f1) (vadd t (vscale ?y g))] => set (a := x); set (b := y) end.
    assert (A1 : dot (vsub (vscale a f1) (vadd t (vscale b g))) f1 = 0).
    { unfold a, b. rewrite lagrange in D. rewrite dot_sub_l, dot_scale_l, dot_add_l, dot_scale_l, (lagrange f1 g), (dot_comm g f1).
      unfold norm2 in *. field. lra. }
    assert (A2 : dot (vsub (vscale a f1) (vadd t (vscale b g))) g = 0).
    { unfold a, b. rewrite lagrange in D. rewrite dot_sub_l, dot_scale_l, dot_add_l, dot_scale_l, (lagrange f1 g).
      unfold norm2 in *. field. lra. }
    intros a' b'. unfold norm. apply sqrt_le_1_alt.
    set (w := vsub (vscale a f1) (vadd t (vscale b g))) in *.
    assert (E : vsub (vscale a' f1) (vadd t (vscale b' g))
                = vadd w (vsub (vscale (a' - a) f1) (vscale (b' - b) g))).
    { unfold w. generalize a b. clear. generalize g. clear. lring. }
    rewrite E. set (u := vsub (vscale (a' - a) f1) (vscale (b' - b) g)).
    assert (dot w u = 0).
    { unfold u. rewrite dot_sub_r, !dot_scale_r, A1, A2. ring. }
    assert (norm2 (vadd w u) = norm2 w + 2 * dot w u + norm2 u).
    { generalize w u. clear. lring. }
    pose proof (norm2_nonneg u). lra.
Qed.

(** Noise-free rays that meet in X, whatever the signs of the depths. *)
Theorem C37_exact :
  forall t R f1 f2 X a b, ~ parallel f1 (mv R f2) ->
    X = vscale a f1 -> X = vadd t (vscale b (mv R f2)) ->
    triangulate2 t R f1 f2 = Some X.
Proof.
  intros t R f1 f2 X a b NP E1 E2. unfold triangulate2. rewrite tri2_det. set (g := mv R f2) in *.
  assert (Et : t = vsub (vscale a f1) (vscale b g)).
  { rewrite <- E1, E2. now rewrite vadd_sub. }
  assert (D : norm2 (cross f1 g) <> 0) by (intro Z; apply NP; now apply norm2_zero).
  destruct (Req_EM_T _ 0) as [E|E]; [lra|]. f_equal.
  match goal with |- vdivs (vadd (vscale ?x f1) (vadd t (vscale ?y g))) 2 = _ =>
    assert (Ea : x = a); [|assert (Eb : y = b)] end.
  - rewrite Et, !dot_sub_l, !dot_scale_l, (dot_comm g f1), lagrange. rewrite lagrange in D. unfold norm2 in *. field. lra.
  - rewrite Et, !dot_sub_l, !dot_scale_l, (dot_comm g f1), lagrange. rewrite lagrange in D. unfold norm2 in *. field. lra.
  - rewrite Ea, Eb, <- E2, <- E1. clear. destruct X; lunf; f_equal; field.
Qed.

Example C37_nonvacuous :
  ~ parallel (V3 (3/5) 0 (4/5)) (mv mid (V3 (-3/5) 0 (4/5)))
  /\ triangulate2 (V3 6 0 0) mid (V3 (3/5) 0 (4/5)) (V3 (-3/5) 0 (4/5)) = Some (V3 3 0 4).
Proof.
  assert (NP : ~ parallel (V3 (3/5) 0 (4/5)) (mv mid (V3 (-3/5) 0 (4/5)))).
  { unfold parallel. lunf. intro H. linj H. lra. }
  split; auto. eapply (C37_exact _ _ _ _ _ 5 5); auto; lunf; f_equal; lra.
Qed.

(** * C39: two-point translation *)
(** The translation is a unit vector orthogonal to both epipolar plane
    normals, and the apparent motion of the first point agrees with it. *)
Theorem C39_epipolar :
  forall R f1 f1' f2 f2' t, twopt R true f1 f1' f2 f2' = Some t ->
    unit t
    /\ dot f1 (cross t (mv R f1')) = 0 /\ dot f2 (cross t (mv R f2')) = 0
    /\ 0 <= dot (vsub f1 (mv R f1')) t.
Proof.
  intros R f1 f1' f2 f2' t. unfold twopt. set (g1 := mv R f1'). set (g2 := mv R f2').
  destruct (normalize _) as [w|] eqn:E; cbn; intro H; [|discriminate]. injection H as <-.
  apply normalize_inv in E. destruct E as [Nz ->].
  set (n := cross (cross f1 g1) (cross f2 g2)) in *.
  assert (U : unit (normalized n)) by (now apply normalized_unit).
  assert (P1 : dot f1 (cross (normalized n) g1) = 0).
  { unfold normalized. rewrite vdivs_scale, cross_scale_l, dot_scale_r.
    assert (Z : dot f1 (cross n g1) = 0) by (unfold n; generalize g1 g2; clear; lring).
    rewrite Z. ring. }
  assert (P2 : dot f2 (cross (normalized n) g2) = 0).
  { unfold normalized. rewrite vdivs_scale, cross_scale_l, dot_scale_r.
    assert (Z : dot f2 (cross n g2) = 0) by (unfold n; generalize g1 g2; clear; lring).
    rewrite Z. ring. }
  revert U P1 P2. generalize (normalized n). clear. intros w U P1 P2.
  assert (N : forall a b, dot a (cross (vneg w) b) = - dot a (cross w b)) by (intros; lring).
  destruct (Rlt_dec _ 0) as [L|L].
  - split; [|split; [|split]]; rewrite ?N, ?P1, ?P2; try ring; [now apply unit_neg|].
    assert (M : dot (vsub f1 g1) (vneg w) = - dot (vsub f1 g1) w) by lring. lra.
  - split; [|split; [|split]]; auto. lra.
Qed.

Theorem C39_failure_iff_same_plane :
  forall R f1 f1' f2 f2',
    twopt R true f1 f1' f2 f2' = None
    <-> parallel (cross f1 (mv R f1')) (cross f2 (mv R f2')).
Proof.
  intros. unfold twopt. destruct (normalize _) as [w|] eqn:E; cbn.
  - split; intro H; [discriminate|]. apply normalize_none in H. rewrite E in H. discriminate.
  - split; auto. intros _. now apply normalize_none.
Qed.

(** Noise-free data with positive depths: the true direction, sign included. *)
Theorem C39_exact :
  forall R t f1 f1' f2 f2' a1 b1 a2 b2,
    unit f1 -> unit (mv R f1') -> 0 < a1 -> 0 < b1 ->
    vscale a1 f1 = vadd t (vscale b1 (mv R f1')) ->
    vscale a2 f2 = vadd t (vscale b2 (mv R f2')) ->
    ~ parallel (cross f1 (mv R f1')) (cross f2 (mv R f2')) ->
    twopt R true f1 f1' f2 f2' = Some (normalized t).
Proof.
  intros R t f1 f1' f2 f2' a1 b1 a2 b2 U1 U1' Ha Hb E1 E2 NP. unfold twopt.
  set (g1 := mv R f1') in *. set (g2 := mv R f2') in *.
  set (n := cross (cross f1 g1) (cross f2 g2)) in *.
  assert (Nz : n <> v0) by exact NP.
  rewrite normalize_some by auto. cbn.
  assert (T1 : t = vsub (vscale a1 f1) (vscale b1 g1)) by (rewrite E1; now rewrite vadd_sub).
  assert (T2 : t = vsub (vscale a2 f2) (vscale b2 g2)) by (rewrite E2; now rewrite vadd_sub).
  assert (C : cross n t = v0).
  { unfold n. assert (D1 : dot (cross f1 g1) t = 0) by (rewrite T1; clear; generalize g1; lring).
    assert (D2 : dot (cross f2 g2) t = 0) by (rewrite T2; clear; generalize g2; lring).
    revert D1 D2. generalize (cross f1 g1) (cross f2 g2). clear. intros x y D1 D2.
    rewrite (cross_anti _ t), cross_cross.
    rewrite (dot_comm t y), (dot_comm t x), D1, D2. clear. lring. }
  destruct (cross_zero_scale n t Nz C) as [s Es].
  assert (N1 : f1 <> g1).
  { intro Q. apply Nz. unfold n. rewrite <- Q, cross_self. clear. generalize (cross f2 g2). lring. }
  assert (Flow : dot (vsub f1 g1) t = (a1 + b1) * (1 - dot f1 g1)).
  { rewrite T1, dot_sub_l, !dot_sub_r, !dot_scale_r. rewrite (dot_comm g1 f1).
    unfold unit, norm2 in U1, U1'. rewrite U1, U1'. ring. }
  assert (L1 : dot f1 g1 < 1).
  { pose proof (unit_dot_bound f1 g1 U1 U1'). destruct (Req_dec (dot f1 g1) 1) as [Q|Q]; [|lra].
    apply unit_dot_1 in Q; auto. contradiction. }
  assert (Pos : 0 < dot (vsub f1 g1) t) by (rewrite Flow; apply Rmult_lt_0_compat; lra).
  assert (Hs : s <> 0).
  { intro Q. rewrite Es, Q, vscale_0 in Pos. assert (Z : dot (vsub f1 g1) v0 = 0) by (clear; lring). lra. }
  assert (Pn : dot (vsub f1 g1) t = s * norm n * dot (vsub f1 g1) (normalized n)).
  { rewrite Es, dot_scale_r. rewrite (norm_normalized n Nz) at 1. rewrite dot_scale_r. ring. }
  pose proof (norm_pos n Nz) as Hn.
  destruct (Rlt_dec _ 0) as [L|L]; f_equal.
  - assert (s < 0).
    { destruct (Rlt_dec s 0); auto. exfalso. assert (0 < s) by lra.
      assert (0 < s * norm n) by nra. nra. }
    rewrite Es. now rewrite normalized_scale_neg.
  - assert (0 < s).
    { destruct (Rlt_dec 0 s); auto. exfalso. assert (s < 0) by lra.
      assert (s * norm n < 0) by nra. nra. }
    rewrite Es. now rewrite normalized_scale_pos.
Qed.

Example C39_nonvacuous :
  exists t, twopt mid true (V3 (3/5) 0 (4/5)) (V3 (-3/5) 0 (4/5)) (V3 (3/5) (4/5) 0) (V3 (-3/5) (4/5) 0) = Some t
    /\ t = normalized (V3 6 0 0).
Proof.
  eexists. split; [|reflexivity].
  eapply (C39_exact _ _ _ _ _ _ 5 5 5 5); try lra; try (unfold unit; lunf; lra); try (lunf; f_equal; lra).
  unfold parallel. lunf. intro H. linj H. lra.
Qed.

(** * C41: two-point absolute position *)
Definition p2p_tie (p0 p1 : vec3) : Prop :=
  vz (vsub p1 p0) = 0 /\ Rabs (vx (vsub p1 p0)) = Rabs (vy (vsub p1 p0)).

Lemma p2p_n3_spec n1 : unit n1 ->
  (vz n1 = 0 /\ Rabs (vx n1) = Rabs (vy n1) -> p2p_n3 n1 = None)
  /\ (~ (vz n1 = 0 /\ Rabs (vx n1) = Rabs (vy n1)) -> exists n3, p2p_n3 n1 = Some n3 /\ unit n3 /\ dot n1 n3 = 0).
Proof.
  intro U. unfold p2p_n3. split.
  - intros [Z A]. rewrite A. destruct (Rgt_dec (Rabs (vy n1)) (Rabs (vy n1))) as [G|G]; [lra|]. cbn [andb].
    unfold rdiv. rewrite Z. destruct (Req_EM_T 0 0); [reflexivity|lra].
  - intro NT.
    assert (Nrm : forall v, v <> v0 -> dot n1 v = 0 -> exists n3, normalize v = Some n3 /\ unit n3 /\ dot n1 n3 = 0).
    { intros v Hv D. exists (normalized v). split; [now apply normalize_some|]. split; [now apply normalized_unit|].
      unfold normalized. rewrite vdivs_scale, dot_scale_r, D. ring. }
    destruct n1 as [x y z]. cbn [vx vy vz] in *. unfold rdiv.
    destruct (Rgt_dec (Rabs x) (Rabs y)) as [G1|G1]; cbn [andb].
    1: destruct (Rgt_dec (Rabs x) (Rabs z)) as [G2|G2]; cbn [andb].
    1: { assert (x <> 0) by (intro Q; rewrite Q, Rabs_R0 in G1; pose proof (Rabs_pos y); lra).
         destruct (Req_EM_T x 0) as [Q|Q]; [contradiction|]. cbn [obindO]. apply Nrm.
         - unfold v0. intro K. linj K. lra.
         - lunf. field. auto. }
    all: destruct (Rgt_dec (Rabs y) (Rabs x)) as [G3|G3]; try lra; cbn [andb].
    2: destruct (Rgt_dec (Rabs y) (Rabs z)) as [G4|G4]; cbn [andb].
    2: { assert (y <> 0) by (intro Q; rewrite Q, Rabs_R0 in G3; pose proof (Rabs_pos x); lra).
         destruct (Req_EM_T y 0) as [Q|Q]; [contradiction|]. cbn [obindO]. apply Nrm.
         - unfold v0. intro K. linj K. lra.
         - lunf. field. auto. }
    all: assert (Hz : z <> 0) by
      (intro Q; rewrite Q, ?Rabs_R0 in *; pose proof (Rabs_pos x); pose proof (Rabs_pos y);
       first [lra | apply NT; split; [reflexivity | lra]]).
    all: destruct (Req_EM_T z 0) as [Q|Q]; [contradiction|]; cbn [obindO]; apply Nrm;
      [unfold v0; intro K; linj K; lra | lunf; field; auto].
Qed.

Lemma tie_scale p0 p1 : p1 <> p0 ->
  (p2p_tie p0 p1 <-> vz (normalized (vsub p1 p0)) = 0
     /\ Rabs (vx (normalized (vsub p1 p0))) = Rabs (vy (normalized (vsub p1 p0)))).
Proof.
  intro Hd. assert (Nz : vsub p1 p0 <> v0).
  { intro Q. apply Hd. rewrite <- (vsub_add p1 p0), Q. apply vadd_0_l. }
  unfold p2p_tie. set (d := vsub p1 p0) in *. pose proof (norm_pos d Nz) as Hn.
  unfold normalized. rewrite vdivs_scale. unfold vscale. cbn [vx vy vz].
  rewrite !Rabs_mult. assert (Hi : 0 < / norm d) by (now apply Rinv_0_lt_compat).
  rewrite (Rabs_pos_eq (/ norm d)) by lra. split; intros [A B].
  - rewrite A, B. split; ring.
  - split; [nra|]. apply Rmult_eq_reg_l with (/ norm d); lra.
Qed.

(** Exact recovery of the camera position from two noise-free points. *)
Theorem C41_exact :
  forall Rc t f0 f1 p0 p1 d0 d1,
    rotation Rc -> unit f0 -> unit f1 -> ~ parallel f0 f1 -> 0 < d0 -> 0 < d1 ->
    p0 = vadd t (vscale d0 (mv Rc f0)) -> p1 = vadd t (vscale d1 (mv Rc f1)) ->
    ~ p2p_tie p0 p1 ->
    p2p Rc f0 f1 p0 p1 = t.
Proof.
  intros Rc t f0 f1 p0 p1 d0 d1 HR U0 U1 NP Hd0 Hd1 E0 E1 NT.
  unfold p2p, p2p_raw.
  set (k := cross f0 f1). assert (Hk : k <> v0) by exact NP.
  rewrite (normalize_some k) by auto. cbn [obindO].
  assert (Dd : vsub p1 p0 = mv Rc (vsub (vscale d1 f1) (vscale d0 f0))).
  { rewrite E0, E1, mv_sub, !mv_scale. generalize (mv Rc f0) (mv Rc f1). clear. lring. }
  assert (Nz : vsub p1 p0 <> v0).
  { rewrite Dd. apply rot_nonzero; auto. intro Q.
    apply NP. unfold parallel. assert (Z : cross f0 (vsub (vscale d1 f1) (vscale d0 f0)) = vscale d1 (cross f0 f1)) by (clear; lring).
    rewrite Q in Z. assert (Z0 : cross f0 v0 = v0) by (clear; lring). rewrite Z0 in Z.
    assert (vscale (/ d1) v0 = v0) by (clear; generalize (/ d1); lring).
    rewrite Z, vscale_scale in H. replace (/ d1 * d1) with 1 in H by (field; lra).
    rewrite vscale_1 in H. rewrite <- Z in H. exact H. }
  rewrite (normalize_some _ Nz). cbn [obindO].
  assert (Hp : p1 <> p0) by (intro Q; apply Nz; rewrite Q; apply vsub_self).
  set (n1 := normalized (vsub p1 p0)) in *.
  assert (Un : unit n1) by (now apply normalized_unit).
  destruct (p2p_n3_spec n1 Un) as [_ P3].
  destruct P3 as (n3 & En3 & U3 & D13).
  { intro Q. apply NT. apply (proj2 (tie_scale p0 p1 Hp)). exact Q. }
  rewrite En3. cbn [obindO].
  set (N := of_rows n1 (cross n3 n1) n3).
  assert (Orth : orthogonal (mT N)).
  { unfold N, of_rows. rewrite mT_mT. apply of_cols_orth.
    assert (D31 : dot n3 n1 = 0) by (rewrite dot_comm; auto).
    assert (U2 : norm2 (cross n3 n1) = 1).
    { rewrite lagrange, D31. unfold unit in *. rewrite U3, Un. ring. }
    unfold unit in *. repeat split; auto;
      first [rewrite dot_comm; apply dot_cross_r | apply dot_cross_r | rewrite dot_comm; apply dot_cross_l | apply dot_cross_l | idtac]. }
  set (c := dot f0 f1).
  assert (S2 : 1 - c ^ 2 = norm2 k).
  { unfold k. rewrite lagrange. unfold unit in *. rewrite U0, U1. unfold c. ring. }
  pose proof (norm2_pos k Hk) as Pk. pose proof (norm_pos k Hk) as Pnk.
  unfold rdiv. destruct (Req_EM_T (1 - c ^ 2) 0) as [Q|_]; [lra|]. cbn [obindO].
  assert (Eb : (if Rlt_dec c 0 then - sqrt (1 / (1 - c ^ 2) - 1) else sqrt (1 / (1 - c ^ 2) - 1)) = c / norm k).
  { assert (B : 1 / (1 - c ^ 2) - 1 = Rsqr (c / norm k)).
    { rewrite S2. unfold Rsqr. transitivity (c * c / (norm k * norm k)); [|field; lra].
      rewrite norm_sq. assert (1 = norm2 k + c * c) by lra.
      transitivity ((1 - norm2 k) / norm2 k); [field; lra|]. f_equal. lra. }
    rewrite B. rewrite sqrt_Rsqr_abs. destruct (Rlt_dec c 0) as [L|L].
    - rewrite Rabs_left; [ring|]. apply Ropp_lt_cancel. rewrite Ropp_0.
      replace (- (c / norm k)) with ((- c) * / norm k) by (field; lra). apply Rmult_lt_0_compat; [lra|]. now apply Rinv_0_lt_compat.
    - rewrite Rabs_pos_eq; auto. apply Rmult_le_pos; [lra|]. left. now apply Rinv_0_lt_compat. }
  rewrite Eb. clear Eb.
  set (e3 := normalized k).
  set (Q := mmul (mmul (of_rows f0 (cross e3 f0) e3) (mT Rc)) (mT N)).
  assert (Row0 : row Q 0 = mv N (mv Rc f0)).
  { unfold Q. now rewrite row_mmul, row_mmul, !mT_mT, row_of_rows_0. }
  assert (Q00 : m00 Q = dot (mv Rc f0) n1).
  { unfold Q. now rewrite m00_row, row_mmul, row_mmul, !mT_mT, row_of_rows_0, vx_mv, dot_comm; unfold N; rewrite row_of_rows_0. }
  assert (Q10 : m10 Q = dot (mv Rc (cross e3 f0)) n1).
  { unfold Q. now rewrite m10_row, row_mmul, row_mmul, !mT_mT, row_of_rows_1, vx_mv, dot_comm; unfold N; rewrite row_of_rows_0. }
  assert (Dn : vscale (norm (vsub p1 p0)) n1 = vsub p1 p0) by (unfold n1; symmetry; now apply norm_normalized).
  assert (DQ00 : norm (vsub p1 p0) * m00 Q = d1 * c - d0).
  { rewrite Q00, <- dot_scale_r, Dn, Dd, rot_dot by auto. rewrite dot_sub_r, !dot_scale_r.
    unfold unit, norm2 in U0. rewrite U0. unfold c. ring. }
  assert (DQ10 : norm (vsub p1 p0) * m10 Q = d1 * norm k).
  { rewrite Q10, <- dot_scale_r, Dn, Dd, rot_dot by auto. rewrite dot_sub_r, !dot_scale_r.
    assert (Z : dot (cross e3 f0) f0 = 0) by (clear; generalize e3; lring). rewrite Z.
    assert (Z2 : dot (cross e3 f0) f1 = dot e3 k) by (unfold k; clear; generalize e3; lring). rewrite Z2.
    rewrite (norm_normalized k Hk) at 1. fold e3. rewrite dot_scale_r.
    pose proof (normalized_unit k Hk) as Ue. fold e3 in Ue. unfold unit, norm2 in Ue. rewrite Ue. ring. }
  rewrite Rmult_minus_distr_l, <- Rmult_assoc, DQ00, DQ10, Row0.
  replace (d1 * norm k * (c / norm k) - (d1 * c - d0)) with d0 by (field; lra).
  assert (NN : mv (mT N) (mv N (mv Rc f0)) = mv Rc f0).
  { rewrite <- mv_mmul. apply orth_T in Orth. rewrite mT_mT in Orth.
    unfold orthogonal in Orth. rewrite Orth. apply mv_id. }
  rewrite mv_scale, NN, E0. generalize (mv Rc f0). clear. intros. ldes. lunf. f_equal; ring.
Qed.

(** The result is never NaN: it is the solution, or the origin. *)
Theorem C41_never_nan :
  forall Rc f0 f1 p0 p1,
    (p2p_raw Rc f0 f1 p0 p1 = None -> p2p Rc f0 f1 p0 p1 = v0)
    /\ (forall s, p2p_raw Rc f0 f1 p0 p1 = Some s -> p2p Rc f0 f1 p0 p1 = s)
    /\ (parallel f0 f1 \/ p0 = p1 -> p2p Rc f0 f1 p0 p1 = v0).
Proof.
  intros. unfold p2p. split; [|split].
  - now intros ->.
  - now intros s ->.
  - intros [H|H].
    + unfold p2p_raw. apply normalize_none in H. now rewrite H.
    + subst p1. unfold p2p_raw. destruct (normalize (cross f0 f1)); auto. cbn [obindO].
      assert (E : normalize (vsub p0 p0) = None) by (apply normalize_none; apply vsub_self). now rewrite E.
Qed.

(** But for points whose difference is parallel to (1,1,0) or (1,-1,0) the
    third branch divides by zero and the origin is returned, although the data
    are noise free and in general position. *)
Theorem C41_exact_for_all_points_refuted :
  (forall Rc f0 f1 p0 p1, p2p_tie p0 p1 -> p2p Rc f0 f1 p0 p1 = v0)
  /\ exists t f0 f1 p0 p1 d0 d1,
       unit f0 /\ unit f1 /\ ~ parallel f0 f1 /\ 0 < d0 /\ 0 < d1
       /\ p0 = vadd t (vscale d0 (mv mid f0)) /\ p1 = vadd t (vscale d1 (mv mid f1))
       /\ p2p mid f0 f1 p0 p1 <> t.
Proof.
  assert (G : forall Rc f0 f1 p0 p1, p2p_tie p0 p1 -> p2p Rc f0 f1 p0 p1 = v0).
  { intros Rc f0 f1 p0 p1 T. unfold p2p, p2p_raw.
    destruct (normalize (cross f0 f1)); auto. cbn [obindO].
    destruct (normalize (vsub p1 p0)) as [n1|] eqn:E; auto. cbn [obindO].
    apply normalize_inv in E. destruct E as [Nz ->].
    assert (Hp : p1 <> p0) by (intro Q; apply Nz; rewrite Q; apply vsub_self).
    destruct (p2p_n3_spec _ (normalized_unit _ Nz)) as [P _].
    rewrite P; auto. now apply tie_scale. }
  split; auto.
  exists (V3 0 0 (-4)), (V3 (3/5) 0 (4/5)), (V3 0 (-3/5) (4/5)), (V3 3 0 0), (V3 0 (-3) 0), 5, 5.
  repeat split; try lra; try (unfold unit; lunf; lra); try (lunf; f_equal; lra).
  - unfold parallel. lunf. intro H. linj H. lra.
  - rewrite G; [unfold v0; intro H; linj H; lra|]. unfold p2p_tie. lunf. split; [lra|].
    rewrite !Rabs_left; lra.
Qed.

Example C41_nonvacuous :
  p2p mid (V3 (3/5) 0 (4/5)) (V3 0 0 1) (V3 3 0 0) (V3 0 0 0) = V3 0 0 (-4).
Proof.
  apply (C41_exact mid (V3 0 0 (-4)) _ _ _ _ 5 4); try lra; try apply rot_id; try (unfold unit; lunf; lra); try (lunf; f_equal; lra).
  - unfold parallel. lunf. intro H. linj H. lra.
  - unfold p2p_tie. lunf. intros [_ H]. rewrite Rabs_left in H by lra. replace (0 - 0) with 0 in H by lra.
    rewrite Rabs_R0 in H. lra.
Qed.

(** * C21: the absolute-pose score *)
(** Where the camera mounted at (camR, camt) on a body at pose T sees the world
    point p. *)
Definition seen_at (T : pose) (camR : mat3) (camt p : vec3) : vec3 :=
  mv (mT camR) (vsub (mv (mT (pR T)) (vsub p (pt T))) camt).
Lemma inverse_pose_transform T p : transform (inverse_pose T) p = mv (mT (pR T)) (vsub p (pt T)).
Proof. destruct T as [M t]. unfold transform, inverse_pose. cbn [pR pt]. lring. Qed.

Theorem C21_range_and_zero :
  forall T camR camt p f, unit f ->
    match abs_score T camR camt p f with
    | None => seen_at T camR camt p = v0
    | Some s => 0 <= s <= 2
        /\ (s = 0 <-> exists k, 0 < k /\ seen_at T camR camt p = vscale k f)
        /\ (s = 2 <-> exists k, k < 0 /\ seen_at T camR camt p = vscale k f)
    end.
Proof.
  intros T camR camt p f Hf. unfold abs_score. rewrite inverse_pose_transform.
  fold (seen_at T camR camt p). set (q := seen_at T camR camt p).
  destruct (normalize q) as [w|] eqn:E; cbn [obindO]; [|now apply normalize_none].
  apply normalize_inv in E. destruct E as [Nz ->].
  pose proof (normalized_unit q Nz) as U. pose proof (unit_dot_bound _ _ U Hf).
  split; [lra|]. split.
  - rewrite <- (normalized_eq q f Nz Hf), <- (unit_dot_1 _ _ U Hf). lra.
  - rewrite <- (normalized_eq_neg q f Nz Hf), <- (unit_dot_m1 _ _ U Hf). lra.
Qed.

(** Noise-free correspondence: depth d along f in a camera with any mount. *)
Theorem C21_noise_free :
  forall T camR camt p f d, rotation (pR T) -> rotation camR -> unit f -> 0 < d ->
    p = transform T (vadd (mv camR (vscale d f)) camt) ->
    abs_score T camR camt p f = Some 0.
Proof.
  intros T camR camt p f d HT HC Hf Hd ->.
  pose proof (C21_range_and_zero T camR camt (transform T (vadd (mv camR (vscale d f)) camt)) f Hf) as C.
  assert (S : seen_at T camR camt (transform T (vadd (mv camR (vscale d f)) camt)) = vscale d f).
  { unfold seen_at, transform. rewrite vadd_sub, rot_T_mv by auto. now rewrite vadd_sub, rot_T_mv. }
  rewrite S in C. destruct (abs_score _ _ _ _ _) as [s|].
  - destruct C as (_ & C & _). f_equal. apply C. exists d. auto.
  - exfalso. apply vscale_zero in C; [lra|]. now apply unit_nonzero.
Qed.

Example C21_nonvacuous :
  abs_score (Pose (M3 0 (-1) 0 1 0 0 0 0 1) (V3 1 2 3)) (M3 1 0 0 0 0 (-1) 0 1 0) (V3 (1/2) 0 0)
    (transform (Pose (M3 0 (-1) 0 1 0 0 0 0 1) (V3 1 2 3))
      (vadd (mv (M3 1 0 0 0 0 (-1) 0 1 0) (vscale 5 (V3 (3/5) 0 (4/5)))) (V3 (1/2) 0 0)))
    (V3 (3/5) 0 (4/5)) = Some 0.
Proof.
  apply C21_noise_free with (d := 5); try lra; auto; try (unfold unit; lunf; lra);
    split; unfold orthogonal; cbn [pR]; lunf; try ring; unfold mid; f_equal; ring.
Qed.

(** * C53: the relative-pose score *)
Theorem C53_range :
  forall T f1 f2 s, unit f1 -> unit f2 -> rel_score T f1 f2 f1 f2 = Some s -> 0 <= s <= 4.
Proof.
  intros T f1 f2 s U1 U2. unfold rel_score.
  destruct (triangulate2 _ _ _ _) as [X|]; cbn [obindO]; [|discriminate].
  destruct (normalize X) as [r1|] eqn:E1; cbn [obindO]; [|discriminate].
  destruct (normalize (transform _ X)) as [r2|] eqn:E2; cbn [obindO]; [|discriminate].
  intro H. injection H as <-. apply normalize_inv in E1, E2. destruct E1 as [N1 ->], E2 as [N2 ->].
  pose proof (unit_dot_bound _ _ U1 (normalized_unit _ N1)).
  pose proof (unit_dot_bound _ _ U2 (normalized_unit _ N2)). lra.
Qed.

(** The score is zero exactly if the two rays meet in a point in front of both
    cameras. *)
Theorem C53_zero_iff_rays_meet :
  forall T f1 f2, rotation (pR T) -> unit f1 -> unit f2 -> ~ parallel f1 (mv (pR T) f2) ->
    (rel_score T f1 f2 f1 f2 = Some 0
     <-> exists a b, 0 < a /\ 0 < b /\ vscale a f1 = vadd (pt T) (vscale b (mv (pR T) f2))).
Proof.
  intros T f1 f2 HR U1 U2 NP. unfold rel_score. split.
  - destruct (triangulate2 _ _ _ _) as [X|]; cbn [obindO]; [|discriminate].
    destruct (normalize X) as [r1|] eqn:E1; cbn [obindO]; [|discriminate].
    destruct (normalize (transform _ X)) as [r2|] eqn:E2; cbn [obindO]; [|discriminate].
    intro H. injection H as H. apply normalize_inv in E1, E2. destruct E1 as [N1 ->], E2 as [N2 ->].
    pose proof (normalized_unit _ N1) as W1. pose proof (normalized_unit _ N2) as W2.
    pose proof (unit_dot_bound _ _ U1 W1). pose proof (unit_dot_bound _ _ U2 W2).
    assert (D1 : dot f1 (normalized X) = 1) by lra. assert (D2 : dot f2 (normalized (transform (inverse_pose T) X)) = 1) by lra.
    apply unit_dot_1 in D1, D2; auto. symmetry in D1, D2.
    apply normalized_eq in D1; auto. apply normalized_eq in D2; auto.
    destruct D1 as (a & Ha & Ea), D2 as (b & Hb & Eb). exists a, b. repeat split; auto.
    rewrite inverse_pose_transform in Eb. rewrite <- mv_scale, <- Eb, rot_mv_T by auto. rewrite <- Ea, vadd_comm. now rewrite vsub_add.
  - intros (a & b & Ha & Hb & E).
    rewrite (C37_exact _ _ _ _ _ a b NP eq_refl E). cbn [obindO].
    assert (N1 : vscale a f1 <> v0) by (intro Q; apply vscale_zero in Q; [lra|now apply unit_nonzero]).
    rewrite normalize_some by auto. cbn [obindO].
    assert (E2 : transform (inverse_pose T) (vscale a f1) = vscale b f2).
    { rewrite inverse_pose_transform, E, vadd_comm, vadd_sub, <- mv_scale. now apply rot_T_mv. }
    rewrite E2. assert (N2 : vscale b f2 <> v0) by (intro Q; apply vscale_zero in Q; [lra|now apply unit_nonzero]).
    rewrite normalize_some by auto. cbn [obindO]. f_equal.
    rewrite !normalized_scale_pos, !normalized_of_unit by auto using unit_nonzero.
    unfold unit, norm2 in U1, U2. rewrite U1, U2. ring.
Qed.

(** The scores are those of the model passed in, for every stored prior. *)
Lemma score_step_eq A T i :
  score_step (set_prior A T) (inverse_pose T) i = rel_score T (rf1 A i) (rf2 A i) (rf1 A i) (rf2 A i).
Proof. reflexivity. Qed.
Theorem C53_independent_of_adapter_pose :
  forall A T idx,
    fst (central_distances A T idx) = map (fun i => rel_score T (rf1 A i) (rf2 A i) (rf1 A i) (rf2 A i)) idx
    /\ fst (eigensolver_distances A T idx) = map (fun i => rel_score T (rf1 A i) (rf2 A i) (rf1 A i) (rf2 A i)) idx
    /\ fst (noncentral_distances A T idx)
       = map (fun i => rel_score (direct T (rr1 A i) (ro1 A i) (rr2 A i) (ro2 A i)) (rf1 A i) (rf2 A i) (rf1 A i) (rf2 A i)) idx
    /\ forall P, fst (central_distances (set_prior A P) T idx) = fst (central_distances A T idx)
       /\ fst (eigensolver_distances (set_prior A P) T idx) = fst (eigensolver_distances A T idx)
       /\ fst (noncentral_distances (set_prior A P) T idx) = fst (noncentral_distances A T idx).
Proof.
  intros A T idx.
  assert (NC : forall A, fst (noncentral_distances A T idx)
       = map (fun i => rel_score (direct T (rr1 A i) (ro1 A i) (rr2 A i) (ro2 A i)) (rf1 A i) (rf2 A i) (rf1 A i) (rf2 A i)) idx).
  { clear A. induction idx as [|i r IH]; intros A; auto. cbn [noncentral_distances map].
    destruct (noncentral_distances (set_prior A _) T r) as [l A'] eqn:E. cbn [fst].
    f_equal. specialize (IH (set_prior A (direct T (rr1 A i) (ro1 A i) (rr2 A i) (ro2 A i)))).
    rewrite E in IH. exact IH. }
  repeat split; auto. rewrite !NC. reflexivity.
Qed.

Example C53_nonvacuous :
  rel_score (Pose mid (V3 6 0 0)) (V3 (3/5) 0 (4/5)) (V3 (-3/5) 0 (4/5)) (V3 (3/5) 0 (4/5)) (V3 (-3/5) 0 (4/5)) = Some 0.
Proof.
  apply C53_zero_iff_rays_meet; cbn [pR pt]; try apply rot_id; try (unfold unit; lunf; lra).
  - unfold parallel. lunf. intro H. linj H. lra.
  - exists 5, 5. repeat split; try lra. lunf. f_equal; lra.
Qed.

(** * C52: camera and body frames *)
(** Pose of a camera mounted at (camR, camt) on a body at pose T. *)
Definition camera_pose (T : pose) (camR : mat3) (camt : vec3) : pose :=
  Pose (mmul (pR T) camR) (transform T camt).
Theorem C52_absolute_body_conversion :
  forall camR camt T, rotation camR -> camera_pose (to_body camR camt T) camR camt = T.
Proof.
  intros camR camt [M t] HC. unfold camera_pose, to_body, transform. cbn [pR pt]. f_equal.
  - rewrite <- mmul_assoc, rot_l by auto. apply mmul_id_r.
  - rewrite vadd_comm. apply vsub_add.
Qed.
Theorem C52_absolute_body_conversion_inverse :
  forall camR camt T, rotation camR -> to_body camR camt (camera_pose T camR camt) = T.
Proof.
  intros camR camt [M t] HC. unfold camera_pose, to_body, transform. cbn [pR pt].
  rewrite <- mmul_assoc, rot_r, mmul_id_r by auto. f_equal. rewrite vadd_comm. apply vadd_sub.
Qed.
(** The direct motion maps points seen by camera 2 to what camera 1 sees. *)
Theorem C52_direct_motion :
  forall T R1 o1 R2 o2 q,
    transform (direct T R1 o1 R2 o2) q
    = mv (mT R1) (vsub (transform T (vadd (mv R2 q) o2)) o1).
Proof.
  intros [M t] R1 o1 R2 o2 q. unfold transform, direct. cbn [pR pt].
  rewrite !mv_mmul, <- mv_add, (mv_add M). f_equal. generalize (mv M (mv R2 q)) (mv M o2). clear. lring.
Qed.
Theorem C52_relative_body_conversion :
  forall R1 o1 R2 o2 T, rotation R1 -> rotation R2 ->
    direct (to_body_rel R1 o1 R2 o2 T) R1 o1 R2 o2 = T
    /\ to_body_rel R1 o1 R2 o2 (direct T R1 o1 R2 o2) = T.
Proof.
  intros R1 o1 R2 o2 [M t] H1 H2. unfold direct, to_body_rel. cbn [pR pt]. split; f_equal.
  - rewrite !mmul_assoc, rot_l, mmul_id_l by auto. rewrite <- mmul_assoc, rot_l by auto. apply mmul_id_r.
  - set (x := mv (mmul (mmul R1 M) (mT R2)) o2).
    assert (E : vadd (vsub (vsub (vadd o1 (mv R1 t)) x) o1) x = mv R1 t).
    { generalize (mv R1 t) x. clear. lring || (intros; ldes; lunf; f_equal; ring). }
    rewrite E. now apply rot_T_mv.
  - rewrite !mmul_assoc, rot_r, mmul_id_l by auto. rewrite <- mmul_assoc, rot_r by auto. apply mmul_id_r.
  - rewrite rot_mv_T by auto. rewrite !mmul_assoc, rot_r, mmul_id_l by auto.
    rewrite <- mmul_assoc, rot_r, mmul_id_r by auto.
    generalize (mv M o2). clear. intros. ldes. lunf. f_equal; ring.
Qed.
Example C52_nonvacuous :
  rotation (M3 0 (-1) 0 1 0 0 0 0 1) /\
  to_body (M3 0 (-1) 0 1 0 0 0 0 1) (V3 1 0 0) (Pose mid (V3 0 0 5)) = Pose (M3 0 1 0 (-1) 0 0 0 0 1) (V3 0 1 5).
Proof.
  split; [split; unfold orthogonal; lunf; try ring; unfold mid; f_equal; ring|].
  unfold to_body. cbn [pR pt]. unfold mid. lunf. f_equal; f_equal; ring.
Qed.

(** * C54: the adapter's pose prior *)
Theorem C54_eigensolver_restores_prior :
  forall A T idx, snd (eigensolver_distances A T idx) = A.
Proof. intros [] T idx. reflexivity. Qed.
(** The other problems leave the last scored model behind. *)
Theorem C54_prior_preserved_refuted :
  (forall A T idx, rprior (snd (central_distances A T idx)) = T)
  /\ (forall A T idx i, rprior (snd (noncentral_distances A T (idx ++ [i])))
        = direct T (rr1 A i) (ro1 A i) (rr2 A i) (ro2 A i))
  /\ exists A T idx, snd (central_distances A T idx) <> A.
Proof.
  split; [reflexivity|]. split.
  - intros A T idx. revert A. induction idx as [|j r IH]; intros A i; cbn [app noncentral_distances].
    + reflexivity.
    + destruct (noncentral_distances (set_prior A _) T (r ++ [i])) as [l A'] eqn:E. cbn [snd].
      specialize (IH (set_prior A (direct T (rr1 A j) (ro1 A j) (rr2 A j) (ro2 A j))) i).
      rewrite E in IH. exact IH.
  - exists (RelAdapter (fun _ => v0) (fun _ => v0) (fun _ => v0) (fun _ => v0) (fun _ => mid) (fun _ => mid) (Pose mid v0)),
           (Pose mid (V3 1 0 0)), [].
    unfold central_distances, set_prior. cbn [snd]. intro H. injection H. intro. lra.
Qed.
(** The translation-only problem reads its rotation from that prior, and
    scoring its own models does not disturb later hypotheses. *)
Theorem C54_translation_only_hypotheses_stable :
  forall A i0 i1 T idx, translation_only_model A i0 i1 = Some T ->
    forall j0 j1, translation_only_model (snd (central_distances A T idx)) j0 j1 = translation_only_model A j0 j1.
Proof.
  intros A i0 i1 T idx H j0 j1. unfold translation_only_model in H.
  destruct (twopt _ _ _ _ _ _) as [t|]; cbn [obindO] in H; [|discriminate]. injection H as <-. reflexivity.
Qed.

(** * C20: candidate selection *)
Definition best_among (scores : list (option R)) (i : nat) : Prop :=
  exists s, nth_error scores i = Some (Some s)
    /\ (forall j s', nth_error scores j = Some (Some s') -> s <= s')
    /\ (forall j s', (j < i)%nat -> nth_error scores j = Some (Some s') -> s < s').

Lemma select_best_spec : forall scores i b arg,
  match select_best scores i (Some b) arg with
  | None => arg = None /\ forall s, In (Some s) scores -> b <= s
  | Some k =>
      (arg = Some k /\ forall s, In (Some s) scores -> b <= s)
      \/ exists j s, k = (i + j)%nat /\ nth_error scores j = Some (Some s) /\ s < b
         /\ (forall j' s', nth_error scores j' = Some (Some s') -> s <= s')
         /\ (forall j' s', (j' < j)%nat -> nth_error scores j' = Some (Some s') -> s < s')
  end.
Proof.
  induction scores as [|s r IH]; intros i b arg; cbn [select_best].
  - destruct arg; [left|]; split; auto; intros ? [].
  - destruct (less s (Some b)) eqn:L.
    + destruct s as [s|]; cbn in L; [|discriminate]. destruct (Rlt_dec s b) as [Lt|]; [|discriminate].
      specialize (IH (S i) s (Some i)). destruct (select_best r (S i) (Some s) (Some i)) as [k|] eqn:E.
      * right. destruct IH as [[Ek Hb]|(j & s' & Ek & Hn & Hl & Hmin & Hfst)].
        -- injection Ek as <-. exists 0%nat, s. repeat split; auto; try lia.
           ++ intros [|j'] s' H; cbn in H; [injection H; lra|]. apply Hb. eapply nth_error_In; eauto.
        -- exists (S j), s'. repeat split; auto; try lia; try lra.
           ++ intros [|j'] s'' H; cbn in H; [injection H; intros; lra|]. eapply Hmin; eauto.
           ++ intros [|j'] s'' H1 H; cbn in H; [injection H; intros; lra|]. eapply Hfst; eauto. lia.
      * destruct IH as [IH _]. discriminate.
    + assert (Sb : forall x, s = Some x -> b <= x).
      { intros x ->. cbn in L. destruct (Rlt_dec x b); [discriminate|lra]. }
      specialize (IH (S i) b arg). destruct (select_best r (S i) (Some b) arg) as [k|] eqn:E.
      * destruct IH as [[Ek Hb]|(j & s' & Ek & Hn & Hl & Hmin & Hfst)].
        -- left. split; auto. intros x [H|H]; auto.
        -- right. exists (S j), s'. repeat split; auto; try lia.
           ++ intros [|j'] s'' H; cbn in H; [injection H as H; specialize (Sb _ H); lra|]. eapply Hmin; eauto.
           ++ intros [|j'] s'' H1 H; cbn in H; [injection H as H; specialize (Sb _ H); lra|]. eapply Hfst; eauto. lia.
      * destruct IH as [Ea Hb]. split; auto. intros x [H|H]; auto.
Qed.

Theorem C20_selection_is_first_minimum :
  forall scores,
    match best_index scores with
    | Some i => best_among scores i
    | None => forall s, In (Some s) scores -> 1000000 <= s
    end.
Proof.
  intro scores. unfold best_index. pose proof (select_best_spec scores 0 1000000 None) as H.
  destruct (select_best _ _ _ _) as [k|].
  - destruct H as [[E _]|(j & s & Ek & Hn & _ & Hm & Hf)]; [discriminate|]. cbn in Ek. subst k. exists s. auto.
  - apply H.
Qed.

(** The absolute-pose problem: no candidate, one candidate, several. *)
Theorem C20_absolute :
  forall A indices solutions k, (forall i, unit (af A i)) -> nth_error indices 3 = Some k ->
    let score T := abs_score T (ar A k) (ao A k) (ap A k) (af A k) in
    (solutions = [] -> absolute_select A indices solutions = Ret None)
    /\ (forall T, solutions = [T] -> absolute_select A indices solutions = Ret (Some T))
    /\ ((2 <= length solutions)%nat ->
        (exists T i, absolute_select A indices solutions = Ret (Some T)
           /\ nth_error solutions i = Some T /\ best_among (map score solutions) i)
        \/ (absolute_select A indices solutions = Ret None /\ forall T, In T solutions -> score T = None)).
Proof.
  intros A indices solutions k U Hk score. split; [|split].
  - now intros ->.
  - now intros T ->.
  - intro L. unfold absolute_select. destruct solutions as [|T1 [|T2 r]]; cbn [length] in L; try lia.
    assert (Ek : at_ indices 3 = Ret k) by (unfold at_; now rewrite Hk). rewrite Ek. cbn [obind].
    set (sols := T1 :: T2 :: r). fold score.
    pose proof (C20_selection_is_first_minimum (map score sols)) as B.
    replace (map (fun T => abs_score T (ar A k) (ao A k) (ap A k) (af A k)) sols) with (map score sols) by reflexivity.
    destruct (best_index (map score sols)) as [i|].
    + left. pose proof B as (s & Hn & _). rewrite nth_error_map in Hn.
      destruct (nth_error sols i) as [T|] eqn:E; [|discriminate]. exists T, i. auto.
    + right. split; auto. intros T Hin. destruct (score T) as [s|] eqn:E; auto. exfalso.
      pose proof (C21_range_and_zero T (ar A k) (ao A k) (ap A k) (af A k) (U k)) as C. fold (score T) in C. rewrite E in C.
      assert (1000000 <= s) by (apply B; rewrite <- E; now apply in_map). lra.
Qed.
(** In particular the true pose wins (or ties at zero error) whenever it is a
    candidate and the fourth point is noise free. *)
Theorem C20_absolute_true_pose :
  forall A indices solutions k T, (forall i, unit (af A i)) -> nth_error indices 3 = Some k ->
    (2 <= length solutions)%nat -> In T solutions ->
    abs_score T (ar A k) (ao A k) (ap A k) (af A k) = Some 0 ->
    exists T', absolute_select A indices solutions = Ret (Some T') /\ In T' solutions
      /\ abs_score T' (ar A k) (ao A k) (ap A k) (af A k) = Some 0.
Proof.
  intros A indices solutions k T U Hk L Hin Z.
  destruct (C20_absolute A indices solutions k U Hk) as (_ & _ & C).
  destruct (C L) as [(T' & i & E & Hn & (s & Hs & Hm & _))|[_ N]].
  - exists T'. split; auto. split; [eapply nth_error_In; eauto|].
    rewrite nth_error_map, Hn in Hs. cbn in Hs. injection Hs as Hs.
    destruct (In_nth_error _ _ Hin) as [j Hj].
    assert (s <= 0).
    { apply (Hm j). rewrite nth_error_map, Hj. cbn. now rewrite Z. }
    pose proof (C21_range_and_zero T' (ar A k) (ao A k) (ap A k) (af A k) (U k)) as C'. rewrite Hs in *.
    f_equal. lra.
  - exfalso. rewrite (N _ Hin) in Z. discriminate.
Qed.

(** The central relative problem: best of the 4 decompositions of every
    essential matrix. *)
Lemma decompose_length svd E : length (decompose svd E) = 4%nat.
Proof. unfold decompose. destruct (svd E) as [[U s] V]. reflexivity. Qed.
Lemma rederive_spec svd E j : (j < 4)%nat -> rederive svd E j = nth_error (decompose svd E) j.
Proof.
  intro H. unfold rederive, decompose. destruct (svd E) as [[U s] V].
  assert (Hv : vscale (- vx s) (col U 2) = vneg (vscale (vx s) (col U 2))) by lring.
  destruct j as [|[|[|[|j]]]]; cbn [nth_error]; rewrite ?Hv; auto. lia.
Qed.
Lemma flat_map_nth svd : forall Es f,
  nth_error (flat_map (decompose svd) Es) f
  = match nth_error Es (Nat.div f 4) with None => None | Some E => nth_error (decompose svd E) (Nat.modulo f 4) end.
Proof.
  induction Es as [|E Es IH]; intros f; cbn [flat_map].
  - destruct f; destruct (_ / 4)%nat; reflexivity.
  - destruct (le_lt_dec 4 f) as [L|L].
    + rewrite nth_error_app2 by (rewrite decompose_length; auto). rewrite decompose_length, IH.
      set (g := (f - 4)%nat). replace f with (g + 1 * 4)%nat by (unfold g; lia).
      rewrite Nat.div_add, Nat.mod_add by lia. rewrite Nat.add_1_r. reflexivity.
    + rewrite nth_error_app1 by (rewrite decompose_length; auto).
      rewrite Nat.div_small, Nat.mod_small by auto. reflexivity.
Qed.
Theorem C20_central_relative :
  forall svd A sample Es,
    let cands := flat_map (decompose svd) Es in
    let scores := map (fun T => quality A T sample) cands in
    (exists T i, central_model svd A sample Es = Some T /\ nth_error cands i = Some T /\ best_among scores i)
    \/ (central_model svd A sample Es = None /\ forall s, In (Some s) scores -> 1000000 <= s).
Proof.
  intros svd A sample Es cands scores. unfold central_model. fold cands.
  pose proof (C20_selection_is_first_minimum scores) as B. unfold scores in B at 1.
  destruct (best_index (map (fun T => quality A T sample) cands)) as [f|].
  - left. pose proof B as (s & Hn & _). unfold scores in Hn. rewrite nth_error_map in Hn.
    destruct (nth_error cands f) as [T|] eqn:E; [|discriminate]. exists T, f.
    split; [|split; auto]. unfold cands in E. rewrite flat_map_nth in E.
    destruct (nth_error Es (f / 4)) as [Em|]; [|discriminate].
    rewrite rederive_spec by (apply Nat.mod_upper_bound; lia). auto.
  - right. auto.
Qed.
(** the quality is the sum of the scores of the sample, each in [0,4] *)
Theorem C20_quality_is_total_score :
  forall A T sample q, quality A T sample = Some q <->
    exists ss, Forall2 (fun i s => rel_score T (rf1 A i) (rf2 A i) (rf1 A i) (rf2 A i) = Some s) sample ss
      /\ q = rsum ss.
Proof.
  intros A T sample q. unfold quality.
  assert (None_ : forall l, fold_left (fun acc i => obindO acc (fun a => obindO (score_step (set_prior A T) (inverse_pose T) i) (fun s => Some (a + s)))) l None = None).
  { induction l; auto. }
  assert (G : forall l a, fold_left (fun acc i => obindO acc (fun a => obindO (score_step (set_prior A T) (inverse_pose T) i) (fun s => Some (a + s)))) l (Some a) = Some q
    <-> exists ss, Forall2 (fun i s => rel_score T (rf1 A i) (rf2 A i) (rf1 A i) (rf2 A i) = Some s) l ss /\ q = a + rsum ss).
  { induction l as [|i l IH]; intros a; cbn [fold_left].
    - split; [intro H; injection H as <-; exists []; split; auto; rewrite rsum_nil; ring|].
      intros (ss & H & ->). inversion H. rewrite rsum_nil. f_equal. ring.
    - cbn [obindO]. rewrite score_step_eq. destruct (rel_score _ _ _ _ _) as [s|] eqn:E; cbn [obindO].
      + rewrite IH. split; intros (ss & H & Eq).
        * exists (s :: ss). split; [constructor; auto|]. rewrite rsum_cons, Eq. ring.
        * inversion H; subst. rewrite E in H2. injection H2 as <-. exists l'. split; auto. rewrite rsum_cons. ring.
      + rewrite None_. split; [discriminate|]. intros (ss & H & _). inversion H; subst. rewrite E in H2. discriminate. }
  rewrite G. split; intros (ss & H & Eq); exists ss; split; auto; lra.
Qed.
Example C20_nonvacuous :
  best_index [Some 3; None; Some 1; Some 2; Some 1] = Some 2%nat /\ best_index [None; None] = None.
Proof.
  assert (L : forall a b, a < b -> less (Some a) (Some b) = true).
  { intros a b H. unfold less. now destruct (Rlt_dec a b). }
  assert (G : forall a b, ~ a < b -> less (Some a) (Some b) = false).
  { intros a b H. unfold less. now destruct (Rlt_dec a b). }
  split; [|reflexivity]. unfold best_index. cbn [select_best].
  rewrite (L 3) by lra. change (less None (Some 3)) with false. cbn iota.
  rewrite (L 1) by lra. rewrite (G 2) by lra. rewrite (G 1) by lra. reflexivity.
Qed.

(** * C48: decomposition of essential matrices *)
Lemma W_orth : orthogonal Wmat.
Proof. unfold orthogonal, Wmat. lunf. f_equal; ring. Qed.
Lemma mneg_sq M : mmul (mT (mneg M)) (mneg M) = mmul (mT M) M.
Proof. lring. Qed.
Lemma fix_sign_rotation M : orthogonal M -> rotation (fix_sign M).
Proof.
  intro OM. unfold fix_sign. destruct (Rlt_dec (det M) 0) as [L|L]; destruct (orth_det_cases M OM) as [D|D]; try lra.
  - split.
    + unfold orthogonal. now rewrite mneg_sq.
    + unfold mneg. rewrite det_mscale, D. ring.
  - split; auto.
Qed.
Lemma col_mv A i : col A i = mv A (match i with 0%nat => V3 1 0 0 | 1%nat => V3 0 1 0 | _ => V3 0 0 1 end).
Proof. destruct i as [|[|i]]; destruct A; lunf; f_equal; ring. Qed.
Lemma orth_col_unit U i : orthogonal U -> unit (col U i).
Proof.
  intro O. unfold unit. rewrite col_mv. unfold norm2. rewrite orth_dot by auto.
  destruct i as [|[|i]]; lunf; ring.
Qed.

Theorem C48_candidates_are_rotations :
  forall svd E, is_svd E (svd E) -> forall T, In T (decompose svd E) ->
    rotation (pR T) /\ norm (pt T) = vx (snd (fst (svd E))).
Proof.
  intros svd E HS T. unfold decompose. destruct (svd E) as [[U s] V]. cbn [fst snd].
  destruct HS as (HU & HV & Hs1 & Hs2 & Hs3 & _).
  assert (Ra : rotation (fix_sign (mmul (mmul U Wmat) (mT V)))) by (apply fix_sign_rotation; auto using orth_mmul, orth_T, W_orth).
  assert (Rb : rotation (fix_sign (mmul (mmul U (mT Wmat)) (mT V)))) by (apply fix_sign_rotation; auto using orth_mmul, orth_T, W_orth).
  pose proof (orth_col_unit U 2 HU) as Uc.
  assert (Nt : norm (vscale (vx s) (col U 2)) = vx s) by (rewrite norm_scale, (norm_unit _ Uc), Rabs_pos_eq; lra).
  assert (Nt' : norm (vneg (vscale (vx s) (col U 2))) = vx s).
  { rewrite <- Nt at 2. unfold norm. f_equal. generalize (vscale (vx s) (col U 2)). clear. lring. }
  cbn [In]. intros [<-|[<-|[<-|[<-|[]]]]]; cbn [pR pt]; auto.
Qed.

Lemma mmul_orth_l U A B : orthogonal U -> mmul U A = B -> A = mmul (mT U) B.
Proof. intros O <-. rewrite mmul_assoc. unfold orthogonal in O. rewrite O. now rewrite mmul_id_l. Qed.
Lemma skew_rot U t : orthogonal U -> mmul (mmul (mT U) (skew (mv U t))) U = mscale (det U) (skew t).
Proof.
  intro O. apply mv_ext. intro v. rewrite !mv_mmul, skew_mv, mv_mscale, skew_mv.
  rewrite mv_cross_adj. rewrite <- mv_mmul.
  assert (A : mmul (mT U) (mT (adj U)) = mscale (det U) mid).
  { rewrite <- mT_mmul, adj_mmul. generalize (det U). clear. intros. unfold mid. lring. }
  rewrite A, mv_mscale. now rewrite mv_id.
Qed.
Lemma cross_col2 U : orthogonal U -> forall s, skew (vscale s (col U 2))
  = mscale (det U * s) (mmul (mmul U (skew (V3 0 0 1))) (mT U)).
Proof.
  intros O s. pose proof (skew_rot U (V3 0 0 1) O) as H. rewrite (col_mv U 2).
  assert (D : det U * det U = 1) by (now apply orth_det).
  assert (K : mmul (mmul U (skew (V3 0 0 1))) (mT U) = mscale (det U) (skew (mv U (V3 0 0 1)))).
  { assert (K1 : skew (V3 0 0 1) = mscale (det U) (mmul (mmul (mT U) (skew (mv U (V3 0 0 1)))) U)).
    { rewrite H, mscale_mscale, D. now rewrite mscale_1. }
    rewrite K1 at 1. rewrite mscale_mmul_r, mscale_mmul_l. f_equal.
    rewrite !mmul_assoc, orth_r, mmul_id_l by auto. rewrite <- mmul_assoc, orth_r by auto. apply mmul_id_r. }
  rewrite K, mscale_mscale. replace (det U * s * det U) with s by (rewrite (Rmult_comm _ s), Rmult_assoc, D; ring).
  generalize (mv U (V3 0 0 1)). clear. lring.
Qed.

(** Singular values of [t]x: |t|, |t|, 0. *)
Lemma trace_conj U A : orthogonal U -> trace (mmul (mmul U A) (mT U)) = trace A.
Proof. intro O. rewrite trace_mmul, mmul_assoc. unfold orthogonal in O. now rewrite O, mmul_id_l. Qed.
Lemma svd_skew_values t M U s V : rotation M -> is_svd (mmul (skew t) M) (U, s, V) -> vx s = norm t /\ vy s = norm t /\ vz s = 0.
Proof.
  intros HM (HU & HV & H1 & H2 & H3 & E).
  set (D := diag (vx s) (vy s) (vz s)) in *.
  assert (G : mmul (skew t) (mT (skew t)) = mmul (mmul U (mmul D D)) (mT U)).
  { transitivity (mmul (mmul (skew t) M) (mT (mmul (skew t) M))).
    { rewrite mT_mmul, mmul_assoc, <- (mmul_assoc (skew t)), (rot_r M), mmul_id_r by auto. reflexivity. }
    rewrite E, !mT_mmul, mT_mT. assert (TD : mT D = D) by reflexivity. rewrite TD.
    rewrite !mmul_assoc. rewrite <- (mmul_assoc (mmul U D)). unfold orthogonal in HV. rewrite HV, mmul_id_r. reflexivity. }
  assert (Tr : 2 * norm2 t = vx s * vx s + vy s * vy s + vz s * vz s).
  { assert (T1 : trace (mmul (skew t) (mT (skew t))) = 2 * norm2 t) by (clear; lring).
    rewrite <- T1, G, trace_conj by auto. unfold D. clear. lring. }
  assert (G2 : mmul (mmul (skew t) (mT (skew t))) (mmul (skew t) (mT (skew t)))
             = mmul (mmul U (mmul (mmul D D) (mmul D D))) (mT U)).
  { rewrite G. rewrite !mmul_assoc. rewrite <- (mmul_assoc (mmul (mmul U D) D) (mT U) U).
    unfold orthogonal in HU. rewrite HU, mmul_id_r. reflexivity. }
  assert (Tr2 : 2 * (norm2 t * norm2 t) = vx s ^ 4 + vy s ^ 4 + vz s ^ 4).
  { assert (T1 : trace (mmul (mmul (skew t) (mT (skew t))) (mmul (skew t) (mT (skew t)))) = 2 * (norm2 t * norm2 t)) by (clear; lring).
    rewrite <- T1, G2, trace_conj by auto. unfold D. clear. lring. }
  assert (Dt : vx s * vy s * vz s = 0).
  { assert (K : det (mmul (skew t) M) = 0) by (rewrite det_mmul; clear; assert (det (skew t) = 0) by lring; rewrite H; ring).
    rewrite E, !det_mmul, det_mT in K. assert (DD : det D = vx s * vy s * vz s) by (unfold D; clear; lring). rewrite DD in K.
    pose proof (orth_det_nz U HU). pose proof (orth_det_nz V HV).
    apply Rmult_integral in K. destruct K as [K|K]; [contradiction|]. apply Rmult_integral in K. tauto. }
  assert (Z : vz s = 0).
  { apply Rmult_integral in Dt. destruct Dt as [Q|Q]; auto.
    apply Rmult_integral in Q. destruct Q; lra. }
  rewrite Z in *. clear Dt G G2 E.
  assert (Q : (vx s * vx s - vy s * vy s) * (vx s * vx s - vy s * vy s) = 0).
  { assert (2 * (vx s ^ 4 + vy s ^ 4) = (vx s * vx s + vy s * vy s) * (vx s * vx s + vy s * vy s)) by nra. nra. }
  assert (Q' : vx s * vx s - vy s * vy s = 0) by (apply Rmult_integral in Q; tauto).
  assert (Eq : vx s = vy s) by nra.
  assert (N : norm2 t = vx s * vx s) by nra.
  assert (vx s = norm t) by (unfold norm; rewrite N, sqrt_square; lra).
  repeat split; lra.
Qed.

Lemma kernel_col2 t M U s V : t <> v0 -> rotation M -> is_svd (mmul (skew t) M) (U, s, V) ->
  t = vscale (norm t) (col U 2) \/ t = vscale (- norm t) (col U 2).
Proof.
  intros Ht HM S. pose proof (svd_skew_values t M U s V HM S) as (_ & _ & Z).
  destruct S as (HU & HV & _ & _ & _ & E).
  assert (K : cross t (col U 2) = v0).
  { assert (K1 : mv (mmul (mT M) (mT (skew t))) (col U 2) = v0).
    { rewrite <- mT_mmul, E, !mT_mmul, mT_mT, !mv_mmul.
      assert (UU : mv (mT U) (col U 2) = V3 0 0 1).
      { rewrite col_mv, <- mv_mmul. unfold orthogonal in HU. now rewrite HU, mv_id. }
      rewrite UU, Z. assert (DD : mv (mT (diag (vx s) (vy s) 0)) (V3 0 0 1) = v0) by (clear; lring).
      rewrite DD. apply mv_0. }
    rewrite mv_mmul in K1. assert (K2 : mv (mT (skew t)) (col U 2) = v0).
    { rewrite <- (rot_mv_T M (mv (mT (skew t)) (col U 2)) HM), K1. apply mv_0. }
    assert (K3 : mv (mT (skew t)) (col U 2) = vneg (cross t (col U 2))) by (generalize (col U 2); clear; lring).
    rewrite K3 in K2. rewrite <- (vneg_vneg (cross t (col U 2))), K2. clear. lring. }
  pose proof (orth_col_unit U 2 HU) as Uc.
  assert (K' : cross (col U 2) t = v0) by (rewrite cross_anti, K; clear; lring).
  destruct (cross_zero_scale (col U 2) t (unit_nonzero _ Uc) K') as [x Ex].
  assert (N : norm t = Rabs x) by (rewrite Ex, norm_scale, (norm_unit _ Uc); ring).
  rewrite N. destruct (Rle_dec 0 x) as [L|L].
  - left. now rewrite Rabs_pos_eq by lra.
  - right. rewrite Rabs_left by lra. now rewrite Ropp_involutive.
Qed.

Lemma mneg_mneg A : mneg (mneg A) = A.
Proof. destruct A. unfold mneg, mscale. cbn. f_equal; ring. Qed.
Lemma fix_sign_of M A : rotation M -> (A = M \/ A = mneg M) -> fix_sign A = M.
Proof.
  intros [_ D] [->| ->]; unfold fix_sign.
  - destruct (Rlt_dec (det M) 0); auto. lra.
  - assert (D' : det (mneg M) = -1) by (unfold mneg; rewrite det_mscale, D; ring).
    destruct (Rlt_dec _ 0); [|lra]. apply mneg_mneg.
Qed.

(** Y with first two rows +-e2, -+e1 is +-W or +-W^T. *)
Lemma middle_cases e Y : (e = 1 \/ e = -1) -> orthogonal (mT Y) ->
  diag 1 1 0 = mscale e (mmul (skew (V3 0 0 1)) Y) ->
  (Wmat = Y \/ Wmat = mneg Y) \/ (mT Wmat = Y \/ mT Wmat = mneg Y).
Proof.
  intros He O E. destruct Y as [a b c d f g h i j].
  unfold diag, skew, mmul, mscale in E. cbn [m00 m01 m02 m10 m11 m12 m20 m21 m22 vx vy vz] in E.
  unfold orthogonal in O. rewrite mT_mT in O. unfold mmul, mT, mid in O. cbn [m00 m01 m02 m10 m11 m12 m20 m21 m22] in O.
  linj E. linj O.
  assert (Hc : c = 0) by (destruct He; subst e; lra).
  assert (Hg : g = 0) by (destruct He; subst e; lra).
  assert (Ha : a = 0) by (destruct He; subst e; lra).
  assert (Hf : f = 0) by (destruct He; subst e; lra).
  assert (Hb : b = e) by (destruct He; subst e; lra).
  assert (Hd : d = - e) by (destruct He; subst e; lra).
  subst a c f g b d.
  assert (Hh : h = 0) by (destruct He; subst e; lra).
  assert (Hi : i = 0) by (destruct He; subst e; lra).
  subst h i. assert (Hj : j = 1 \/ j = -1).
  { assert (J : (j - 1) * (j + 1) = 0) by lra. apply Rmult_integral in J. destruct J; [left|right]; lra. }
  unfold Wmat, mT, mneg, mscale. cbn [m00 m01 m02 m10 m11 m12 m20 m21 m22].
  destruct He; destruct Hj; subst e j;
    [right; left | left; right | left; left | right; right]; f_equal; ring.
Qed.

(** The true motion is one of the four candidates, exactly: for E = c [t]x R
    with c <> 0 it appears with the translation scaled by |c|. *)
Theorem C48_true_motion_is_candidate :
  forall svd M t c, rotation M -> t <> v0 -> c <> 0 ->
    let E := mscale c (mmul (skew t) M) in
    is_svd E (svd E) ->
    In (Pose M (vscale (Rabs c) t)) (decompose svd E).
Proof.
  intros svd M t c HM Ht Hc E HS.
  assert (EE : E = mmul (skew (vscale c t)) M).
  { unfold E. rewrite <- mscale_mmul_l. f_equal. clear. lring. }
  set (t' := vscale c t) in *.
  assert (Ht' : t' <> v0) by (intro Q; apply Ht; apply vscale_zero in Q; auto; contradiction).
  unfold decompose. destruct (svd E) as [[U s] V].
  pose proof HS as HS'. rewrite EE in HS'.
  pose proof (svd_skew_values t' M U s V HM HS') as (S0 & S1 & S2).
  pose proof (kernel_col2 t' M U s V Ht' HM HS') as Kc.
  destruct HS' as (HU & HV & _ & _ & _ & D). rewrite S0, S1, S2 in D.
  pose proof (norm_pos t' Ht') as Hn.
  assert (Y : exists e, (e = 1 \/ e = -1) /\ diag 1 1 0 = mscale e (mmul (skew (V3 0 0 1)) (mmul (mmul (mT U) M) V))).
  { assert (Sk : exists e, (e = 1 \/ e = -1) /\ skew t' = mscale (e * norm t') (mmul (mmul U (skew (V3 0 0 1))) (mT U))).
    { destruct (orth_det_cases U HU) as [dU|dU]; destruct Kc as [K|K].
      - exists 1. split; auto. rewrite K at 1. rewrite (cross_col2 U HU), dU. reflexivity.
      - exists (-1). split; auto. rewrite K at 1. rewrite (cross_col2 U HU), dU. f_equal. ring.
      - exists (-1). split; auto. rewrite K at 1. rewrite (cross_col2 U HU), dU. reflexivity.
      - exists 1. split; auto. rewrite K at 1. rewrite (cross_col2 U HU), dU. f_equal. ring. }
    destruct Sk as (e & He & Sk). exists e. split; auto.
    assert (D2 : diag (norm t') (norm t') 0 = mmul (mmul (mT U) (mmul (skew t') M)) V).
    { rewrite D. rewrite !mmul_assoc. unfold orthogonal in HU, HV. rewrite HU, mmul_id_l.
      rewrite <- mmul_assoc, HV, mmul_id_r. reflexivity. }
    rewrite Sk in D2. rewrite !mscale_mmul_l, !mscale_mmul_r, !mscale_mmul_l in D2.
    assert (D3 : mmul (mmul (mT U) (mmul (mmul (mmul U (skew (V3 0 0 1))) (mT U)) M)) V
               = mmul (skew (V3 0 0 1)) (mmul (mmul (mT U) M) V)).
    { rewrite !mmul_assoc. unfold orthogonal in HU. rewrite HU, mmul_id_l. reflexivity. }
    rewrite D3 in D2.
    assert (D4 : diag 1 1 0 = mscale (/ norm t') (diag (norm t') (norm t') 0)).
    { clear - Hn. generalize dependent (norm t'). clear. intros. unfold diag, mscale. cbn. f_equal; field; lra. }
    rewrite D4, D2, mscale_mscale. f_equal. field. lra. }
  destruct Y as (e & He & Y).
  assert (OY : orthogonal (mT (mmul (mmul (mT U) M) V))) by (apply orth_T; destruct HM; auto using orth_mmul, orth_T).
  pose proof (middle_cases e _ He OY Y) as Cases.
  assert (Back : forall Z, Z = mmul (mmul (mT U) M) V \/ Z = mneg (mmul (mmul (mT U) M) V) ->
            fix_sign (mmul (mmul U Z) (mT V)) = M).
  { assert (B : mmul (mmul U (mmul (mmul (mT U) M) V)) (mT V) = M).
    { rewrite !mmul_assoc, orth_r, mmul_id_l by auto. rewrite <- mmul_assoc, orth_r by auto. apply mmul_id_r. }
    intros Z [->| ->]; apply fix_sign_of; auto. right. unfold mneg.
    rewrite mscale_mmul_r, mscale_mmul_l. now rewrite B. }
  assert (T : vscale (Rabs c) t = vscale (vx s) (col U 2) \/ vscale (Rabs c) t = vneg (vscale (vx s) (col U 2))).
  { rewrite S0. assert (Ng : forall x v, vneg (vscale x v) = vscale (- x) v) by (clear; lring). rewrite Ng.
    unfold Rabs. destruct (Rcase_abs c) as [L|L].
    - assert (F : vscale (- c) t = vneg t') by (unfold t'; rewrite Ng; reflexivity). rewrite F.
      destruct Kc as [K|K]; [right|left]; rewrite K at 1; rewrite Ng; f_equal; ring.
    - fold t'. destruct Kc as [K|K]; auto. }
  destruct T as [T|T]; rewrite T; destruct Cases as [W|W]; rewrite (Back _ W); cbn [In]; auto.
Qed.

Example C48_nonvacuous : exists U s V,
  is_svd (mmul (skew (V3 0 0 2)) mid) (U, s, V).
Proof. destruct (Spectral.svd_exists (mmul (skew (V3 0 0 2)) mid)) as (U & s & V & H). exists U, s, V. exact H. Qed.

(** * C19, C22: multi-camera scores *)
(** What the scores should be: for camera c and selected index k, the score of
    correspondence k of camera c under the motion of that camera. *)
Definition multi_motion (M : multi_rel) (T : pose) (cam : nat) : pose :=
  direct T (nth cam (mr M) mid) (nth cam (mo M) v0) (nth cam (mr M) mid) (nth cam (mo M) v0).
Definition expected_score (M : multi_rel) (D : pose) (cam key : nat) : option R :=
  let f1 := nth key (nth cam (mb1 M) []) v0 in
  let f2 := nth key (nth cam (mb2 M) []) v0 in
  rel_score D f1 f2 f1 f2.
Definition well_formed (M : multi_rel) : Prop :=
  map (@length _) (mb1 M) = map (@length _) (mb2 M)
  /\ length (mo M) = length (mb2 M) /\ length (mr M) = length (mb2 M).

Lemma at_nth {X} (l : list X) i d : (i < length l)%nat -> at_ l i = Ret (nth i l d).
Proof. intro H. unfold at_. now rewrite (nth_error_nth' l d H). Qed.
Lemma get_multi_nth {X} (data : list (list X)) c k d :
  (c < length data)%nat -> (k < length (nth c data []))%nat -> get_multi data c k = Ret (nth k (nth c data []) d).
Proof.
  intros Hc Hk. unfold get_multi. rewrite (at_nth data c []) by auto. cbn [obind]. now apply at_nth.
Qed.
Lemma serial_of_multi {X} (data : list (list X)) c k :
  (c < length data)%nat -> (k < length (nth c data []))%nat ->
  obind (convertMultiIndex (build (map (@length X) data)) c k) (get_serial data (build (map (@length X) data)))
  = get_multi data c k.
Proof.
  intros Hc Hk.
  destruct (C16_multi_to_serial_and_back (map (@length X) data) c k) as (i & E & Hi & A & B).
  - now rewrite map_length.
  - rewrite <- (map_nth (@length X)) in Hk. exact Hk.
  - rewrite E. cbn [obind]. unfold get_serial. now rewrite A, B.
Qed.

Lemma cam_scores M D cam : well_formed M -> (cam < length (mb2 M))%nat ->
  forall keys pos, (forall k, In k keys -> (k < length (nth cam (mb2 M) []))%nat) ->
    (pos + length keys <= length (nth cam (mb2 M) []))%nat ->
    mnr_scores_cam M D cam pos keys
    = Ret (map (fun p => rel_score D (nth (snd p) (nth cam (mb1 M) []) v0) (nth (snd p) (nth cam (mb2 M) []) v0)
                                   (nth (fst p) (nth cam (mb1 M) []) v0) (nth (fst p) (nth cam (mb2 M) []) v0))
             (combine (seq pos (length keys)) keys)).
Proof.
  intros (W1 & W2 & W3) Hc. 
  assert (L1 : length (mb1 M) = length (mb2 M)) by (rewrite <- (map_length (@length _) (mb1 M)), W1; apply map_length).
  assert (Lc : length (nth cam (mb1 M) []) = length (nth cam (mb2 M) [])).
  { rewrite <- !(map_nth (@length vec3)). now rewrite W1. }
  induction keys as [|k r IH]; intros pos Hk Hp; cbn [mnr_scores_cam length seq combine map]; auto.
  cbn [length] in Hp.
  assert (K : (k < length (nth cam (mb2 M) []))%nat) by (apply Hk; now left).
  pose proof (serial_of_multi (mb2 M) cam k Hc K) as S2.
  pose proof (serial_of_multi (mb1 M) cam k ltac:(lia) ltac:(lia)) as S1. rewrite W1 in S1.
  unfold mtables at 1.
  destruct (convertMultiIndex (build (map (@length _) (mb2 M))) cam k) as [i| |] eqn:E; cbn [obind] in *.
  2,3: rewrite (get_multi_nth (mb2 M) cam k v0) in S2 by auto; discriminate.
  unfold mtables at 1 2. rewrite S1, (get_multi_nth (mb1 M) cam k v0) by lia. cbn [obind].
  rewrite S2, (get_multi_nth (mb2 M) cam k v0) by lia. cbn [obind].
  rewrite !(get_multi_nth _ cam pos v0) by lia. cbn [obind].
  rewrite IH by (try lia; intros; apply Hk; now right). cbn [obind]. reflexivity.
Qed.

(** Right for selections 0,1,2,... of every camera. *)
Theorem C19_prefix_selection :
  forall M T counts, well_formed M -> (length counts <= length (mb2 M))%nat ->
    (forall c, (c < length counts)%nat -> (nth c counts 0 <= length (nth c (mb2 M) []))%nat) ->
    mnr_scores M T 0 (map (seq 0) counts)
    = Ret (map (fun c => map (expected_score M (multi_motion M T c) c) (seq 0 (nth c counts 0%nat))) (seq 0 (length counts))).
Proof.
  intros M T counts W HL HC.
  assert (G : forall l base, (base + length l <= length (mb2 M))%nat ->
     (forall c, (c < length l)%nat -> (nth c l 0 <= length (nth (base + c) (mb2 M) []))%nat) ->
     mnr_scores M T base (map (seq 0) l)
     = Ret (map (fun c => map (expected_score M (multi_motion M T (base + c)) (base + c)) (seq 0 (nth c l 0%nat))) (seq 0 (length l)))).
  { induction l as [|n l IH]; intros base Hb Hn; cbn [map mnr_scores length seq]; auto. cbn [length] in Hb.
    destruct W as (W1 & W2 & W3).
    rewrite (at_nth (mo M) base v0) by lia. cbn [obind]. rewrite (at_nth (mr M) base mid) by lia. cbn [obind].
    pose proof (Hn 0%nat ltac:(cbn; lia)) as H0. cbn [nth] in H0. rewrite Nat.add_0_r in H0.
    rewrite cam_scores; try lia; [|repeat split; auto|intros k Hk; apply in_seq in Hk; lia|rewrite seq_length; lia].
    cbn [obind].
    rewrite IH; [|lia|].
    2: { intros c Hc. specialize (Hn (S c) ltac:(cbn; lia)). cbn [nth] in Hn. now replace (S base + c)%nat with (base + S c)%nat by lia. }
    cbn [obind nth]. f_equal. f_equal.
    - rewrite Nat.add_0_r. unfold expected_score, multi_motion. rewrite seq_length.
      assert (C : forall (l : list nat), combine l l = map (fun x => (x, x)) l) by (induction l0; cbn; congruence).
      rewrite C, map_map. reflexivity.
    - rewrite <- seq_shift, map_map. apply map_ext. intro c. cbn [nth]. now replace (S base + c)%nat with (base + S c)%nat by lia. }
  exact (G counts 0%nat HL HC).
Qed.

(** Wrong in general: correspondence 1 is a noise-free inlier of the model,
    yet selecting it yields a score of 32/25, computed against the bearing
    vectors of correspondence 0. *)
Definition bad_rig : multi_rel :=
  MultiRel [[V3 (3/5) 0 (4/5); V3 (3/5) (4/5) 0]] [[V3 (-3/5) 0 (4/5); V3 (-3/5) (4/5) 0]] [v0] [mid].
Lemma direct_id t : direct (Pose mid t) mid v0 mid v0 = Pose mid t.
Proof.
  unfold direct. cbn [pR pt]. rewrite mT_id, !mmul_id_l, !mv_id. f_equal. destruct t. lunf. f_equal; ring.
Qed.
Theorem C19_selected_score_refuted :
  well_formed bad_rig
  /\ expected_score bad_rig (multi_motion bad_rig (Pose mid (V3 (6/5) 0 0)) 0) 0 1 = Some 0
  /\ mnr_scores bad_rig (Pose mid (V3 (6/5) 0 0)) 0 [[1%nat]] = Ret [[Some (32/25)]]
  /\ mcr_scores bad_rig [Pose mid (V3 (6/5) 0 0)] 0 [[1%nat]] = Ret [[Some (32/25)]].
Proof.
  assert (W : well_formed bad_rig) by (repeat split).
  set (T := Pose mid (V3 (6/5) 0 0)).
  assert (NP : ~ parallel (V3 (3/5) (4/5) 0) (mv (pR T) (V3 (-3/5) (4/5) 0))).
  { unfold parallel, T. cbn [pR]. lunf. intro H. linj H. lra. }
  assert (U1 : unit (V3 (3/5) (4/5) 0)) by (unfold unit; lunf; lra).
  assert (U2 : unit (V3 (-3/5) (4/5) 0)) by (unfold unit; lunf; lra).
  assert (Bad : rel_score T (V3 (3/5) (4/5) 0) (V3 (-3/5) (4/5) 0) (V3 (3/5) 0 (4/5)) (V3 (-3/5) 0 (4/5)) = Some (32/25)).
  { unfold rel_score.
    rewrite (C37_exact (pt T) (pR T) _ _ (V3 (3/5) (4/5) 0) 1 1 NP) by (unfold T; cbn [pR pt]; lunf; f_equal; lra).
    cbn [obindO]. rewrite inverse_pose_transform.
    assert (E : mv (mT (pR T)) (vsub (V3 (3/5) (4/5) 0) (pt T)) = V3 (-3/5) (4/5) 0).
    { unfold T. cbn [pR pt]. lunf. f_equal; lra. }
    rewrite E, !normalize_some, !normalized_of_unit by auto using unit_nonzero. cbn [obindO]. f_equal. lunf. lra. }
  split; auto. split; [|split].
  - unfold multi_motion, expected_score. cbn [nth bad_rig mr mo mb1 mb2]. unfold T at 1. rewrite direct_id. fold T.
    apply C53_zero_iff_rays_meet; auto; [apply rot_id|]. exists 1, 1. repeat split; try lra.
    unfold T. cbn [pR pt]. lunf. f_equal; lra.
  - unfold mnr_scores. cbn [at_ nth_error bad_rig mo mr obind]. unfold T at 1. rewrite direct_id. fold T.
    rewrite cam_scores; auto; cbn; try lia.
    rewrite Bad. reflexivity.
  - unfold mcr_scores. cbn [at_ nth_error obind].
    rewrite cam_scores; auto; cbn; try lia.
    rewrite Bad. reflexivity.
Qed.

(** C22: the multi-central hypothesis is never written.  Whatever the input,
    hypothesising from an empty model (as the consensus loop does) reports
    success with no pose at all, and scoring it then reads out of range. *)
Theorem C22_one_pose_per_pair_refuted :
  forall outModel, mcr_model outModel = (true, outModel)
  /\ (outModel = [] -> forall M keys rest, mcr_scores M outModel 0 (keys :: rest) = UB).
Proof. intros outModel. split; [reflexivity|]. now intros ->. Qed.
(** With one pose per pair the scoring itself would be in range. *)
Theorem C22_scoring_needs_one_pose_per_pair :
  forall M model, well_formed M -> forall counts,
    (length counts <= length (mb2 M))%nat -> (length counts <= length model)%nat ->
    (forall c, (c < length counts)%nat -> (nth c counts 0 <= length (nth c (mb2 M) []))%nat) ->
    mcr_scores M model 0 (map (seq 0) counts)
    = Ret (map (fun c => map (expected_score M (nth c model (Pose mid v0)) c) (seq 0 (nth c counts 0%nat))) (seq 0 (length counts))).
Proof.
  intros M model W counts HL HM HC.
  assert (G : forall l base, (base + length l <= length (mb2 M))%nat -> (base + length l <= length model)%nat ->
     (forall c, (c < length l)%nat -> (nth c l 0 <= length (nth (base + c) (mb2 M) []))%nat) ->
     mcr_scores M model base (map (seq 0) l)
     = Ret (map (fun c => map (expected_score M (nth (base + c) model (Pose mid v0)) (base + c)) (seq 0 (nth c l 0%nat))) (seq 0 (length l)))).
  { induction l as [|n l IH]; intros base Hb Hm Hn; cbn [map mcr_scores length seq]; auto. cbn [length] in Hb, Hm.
    rewrite (at_nth model base (Pose mid v0)) by lia. cbn [obind].
    pose proof (Hn 0%nat ltac:(cbn; lia)) as H0. cbn [nth] in H0. rewrite Nat.add_0_r in H0.
    rewrite cam_scores; auto; try lia; [|intros k Hk; apply in_seq in Hk; lia|rewrite seq_length; lia].
    cbn [obind].
    rewrite IH; [|lia|lia|].
    2: { intros c Hc. specialize (Hn (S c) ltac:(cbn; lia)). cbn [nth] in Hn. now replace (S base + c)%nat with (base + S c)%nat by lia. }
    cbn [obind nth]. f_equal. f_equal.
    - rewrite Nat.add_0_r. unfold expected_score. rewrite seq_length.
      assert (C : forall (l : list nat), combine l l = map (fun x => (x, x)) l) by (induction l0; cbn; congruence).
      rewrite C, map_map. reflexivity.
    - rewrite <- seq_shift, map_map. apply map_ext. intro c. cbn [nth]. now replace (S base + c)%nat with (base + S c)%nat by lia. }
  exact (G counts 0%nat HL HM HC).
Qed.

(** The multi-camera absolute problem scores the selected correspondences. *)
Theorem C21_multi_absolute_scores :
  forall bearings points offs rots T indices,
    map (@length _) bearings = map (@length _) points ->
    length offs = length points -> length rots = length points ->
    (length indices <= length points)%nat ->
    (forall c k, In k (nth c indices []) -> (k < length (nth c points []))%nat) ->
    mna_scores bearings points offs rots T 0 indices
    = Ret (map (fun c => map (fun k => abs_score T (nth c rots mid) (nth c offs v0)
                                    (nth k (nth c points []) v0) (nth k (nth c bearings []) v0)) (nth c indices []))
            (seq 0 (length indices))).
Proof.
  intros bearings points offs rots T indices W1 W2 W3 HL HK.
  assert (L1 : length bearings = length points) by (rewrite <- (map_length (@length _) bearings), W1; apply map_length).
  assert (Lc : forall cam, length (nth cam bearings []) = length (nth cam points [])).
  { intro cam. rewrite <- !(map_nth (@length vec3)). now rewrite W1. }
  assert (C : forall cam keys, (cam < length points)%nat -> (forall k, In k keys -> (k < length (nth cam points []))%nat) ->
    mna_scores_cam bearings points offs rots T cam keys
    = Ret (map (fun k => abs_score T (nth cam rots mid) (nth cam offs v0)
                                    (nth k (nth cam points []) v0) (nth k (nth cam bearings []) v0)) keys)).
  { intros cam keys Hc. induction keys as [|k r IH]; intros Hk; cbn [mna_scores_cam map]; auto.
    assert (K : (k < length (nth cam points []))%nat) by (apply Hk; now left).
    rewrite (get_multi_nth points cam k v0) by auto. cbn [obind].
    rewrite (at_nth rots cam mid) by lia. cbn [obind]. rewrite (at_nth offs cam v0) by lia. cbn [obind].
    rewrite (get_multi_nth bearings cam k v0) by (rewrite ?Lc; lia). cbn [obind].
    rewrite IH by (intros; apply Hk; now right). reflexivity. }
  assert (G : forall l base, (base + length l <= length points)%nat ->
     (forall c k, In k (nth c l []) -> (k < length (nth (base + c) points []))%nat) ->
     mna_scores bearings points offs rots T base l
     = Ret (map (fun c => map (fun k => abs_score T (nth (base + c) rots mid) (nth (base + c) offs v0)
                                    (nth k (nth (base + c) points []) v0) (nth k (nth (base + c) bearings []) v0)) (nth c l []))
            (seq 0 (length l)))).
  { induction l as [|n l IH]; intros base Hb Hn; cbn [map mna_scores length seq]; auto. cbn [length] in Hb.
    rewrite C; [|lia|intros k Hk; specialize (Hn 0%nat k Hk); now rewrite Nat.add_0_r in Hn]. cbn [obind].
    rewrite IH; [|lia|intros c k Hk; specialize (Hn (S c) k Hk); now replace (S base + c)%nat with (base + S c)%nat by lia].
    cbn [obind]. f_equal. f_equal; [cbn [nth]; now rewrite Nat.add_0_r|].
    rewrite <- seq_shift, map_map. apply map_ext. intro c. cbn [nth]. now replace (S base + c)%nat with (base + S c)%nat by lia. }
  exact (G indices 0%nat HL HK).
Qed.
