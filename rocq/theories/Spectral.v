(** Spectral theorem and singular value decomposition of 3x3 matrices: shows
    that what is assumed of Eigen's decompositions can be met. *)
From Coq Require Import Reals Lra List.
From Verif Require Import Lin.
Local Open Scope R_scope.

Lemma perp_exists a : exists v, unit v /\ dot a v = 0.
Proof.
  assert (K : forall w, w <> v0 -> dot a w = 0 -> exists v, unit v /\ dot a v = 0).
  { intros w Hw Hd. exists (normalized w). split; [now apply normalized_unit|].
    unfold normalized. rewrite vdivs_scale, dot_scale_r, Hd. ring. }
  destruct a as [x y z].
  destruct (Req_EM_T x 0) as [E|E].
  - apply (K (V3 1 0 0)); [intro H; injection H; lra|]. lunf. rewrite E. ring.
  - apply (K (V3 (- y) x 0)); [intro H; injection H; lra|]. lunf. ring.
Qed.

Lemma null_vector A : det A = 0 -> exists v, unit v /\ mv A v = v0.
Proof.
  intro D.
  set (r0 := row A 0). set (r1 := row A 1). set (r2 := row A 2).
  assert (MV : forall v, mv A v = V3 (dot r0 v) (dot r1 v) (dot r2 v)) by (intro; unfold r0, r1, r2; lring).
  assert (Dt : det A = dot r0 (cross r1 r2)) by (unfold r0, r1, r2; lring).
  assert (K : forall w, w <> v0 -> mv A w = v0 -> exists v, unit v /\ mv A v = v0).
  { intros w Hw Hd. exists (normalized w). split; [now apply normalized_unit|].
    unfold normalized. rewrite vdivs_scale, mv_scale, Hd. lring. }
  assert (Dc : forall u v : vec3, {u = v} + {u <> v}).
  { intros [a b c] [d e f]. destruct (Req_EM_T a d), (Req_EM_T b e), (Req_EM_T c f); subst; auto; right; congruence. }
  destruct (Dc (cross r0 r1) v0) as [E01|N01].
  2: { apply (K _ N01). rewrite MV. rewrite dot_cross_l, dot_cross_r.
       replace (dot r2 (cross r0 r1)) with (dot r0 (cross r1 r2)) by (generalize r0 r1 r2; lring).
       rewrite <- Dt, D. reflexivity. }
  destruct (Dc (cross r0 r2) v0) as [E02|N02].
  2: { apply (K _ N02). rewrite MV. rewrite dot_cross_l, dot_cross_r.
       replace (dot r1 (cross r0 r2)) with (- dot r0 (cross r1 r2)) by (generalize r0 r1 r2; lring).
       rewrite <- Dt, D. unfold v0; f_equal; ring. }
  destruct (Dc (cross r1 r2) v0) as [E12|N12].
  2: { apply (K _ N12). rewrite MV. rewrite dot_cross_l, dot_cross_r. rewrite <- Dt, D. reflexivity. }
  (* all rows are parallel *)
  assert (P : forall a b v, cross a b = v0 -> a <> v0 -> dot a v = 0 -> dot b v = 0).
  { intros a b v C N E.
    assert (L : vscale (dot a a) b = vscale (dot a b) a).
    { assert (Z : cross a (cross a b) = v0) by (rewrite C; lring). rewrite cross_cross in Z.
      apply vext; destruct a, b; lunf; injection Z; intros; lra. }
    pose proof (norm2_pos a N) as Pn. unfold norm2 in Pn.
    assert (H : dot a a * dot b v = 0).
    { rewrite <- dot_scale_l, L, dot_scale_l, E. ring. }
    apply Rmult_integral in H. destruct H; lra. }
  assert (C10 : cross r1 r0 = v0) by (rewrite cross_anti, E01; lring).
  assert (C20 : cross r2 r0 = v0) by (rewrite cross_anti, E02; lring).
  assert (C21 : cross r2 r1 = v0) by (rewrite cross_anti, E12; lring).
  destruct (Dc r0 v0) as [Z0|N0].
  - destruct (Dc r1 v0) as [Z1|N1].
    + destruct (perp_exists r2) as (v & U & Hv). exists v. split; auto. rewrite MV, Z0, Z1, Hv. lring.
    + destruct (perp_exists r1) as (v & U & Hv). exists v. split; auto. rewrite MV, Z0, Hv, (P r1 r2 v) by auto. lring.
  - destruct (perp_exists r0) as (v & U & Hv). exists v. split; auto. rewrite MV, Hv, (P r0 r1 v), (P r0 r2 v) by auto. reflexivity.
Qed.

(** A unit vector completes to a rotation with it as last column. *)
Lemma frame_exists c : unit c -> exists a b, rotation (of_cols a b c).
Proof.
  intro U. destruct (perp_exists c) as (a & Ua & D).
  exists a, (cross c a).
  pose proof (frame_rotation c a U Ua D) as [O Dt].
  apply of_cols_orth in O. destruct O as (O1 & O2 & O3 & O4 & O5 & O6).
  split.
  - apply of_cols_orth. repeat split; auto. rewrite dot_comm. auto. rewrite dot_comm. auto.
  - rewrite det_cols in *. rewrite triple_cycle, triple_cycle. exact Dt.
Qed.

(** Real eigenvalue of any 3x3 matrix: the characteristic cubic has a root. *)
Lemma cubic_root a b c : exists x, x ^ 3 + a * x ^ 2 + b * x + c = 0.
Proof.
  set (f := fun x => x ^ 3 + a * x ^ 2 + b * x + c).
  assert (Cf : continuity f).
  { unfold f. apply derivable_continuous. repeat (apply derivable_plus || apply derivable_mult || apply derivable_const || apply derivable_pow || apply derivable_id). }
  set (k := 1 + Rabs a + Rabs b + Rabs c).
  pose proof (Rabs_pos a) as Pa. pose proof (Rabs_pos b) as Pb. pose proof (Rabs_pos c) as Pc.
  assert (k >= 1) by (unfold k; lra).
  assert (Ba : - Rabs a <= a <= Rabs a) by (split; [pose proof (Rle_abs (- a)); rewrite Rabs_Ropp in *; lra|apply Rle_abs]).
  assert (Bb : - Rabs b <= b <= Rabs b) by (split; [pose proof (Rle_abs (- b)); rewrite Rabs_Ropp in *; lra|apply Rle_abs]).
  assert (Bc : - Rabs c <= c <= Rabs c) by (split; [pose proof (Rle_abs (- c)); rewrite Rabs_Ropp in *; lra|apply Rle_abs]).
  assert (K2 : k ^ 2 >= k) by (replace (k ^ 2) with (k * k) by ring; nra).
  assert (Fk : k ^ 3 = k ^ 2 + Rabs a * k ^ 2 + Rabs b * k ^ 2 + Rabs c * k ^ 2) by (unfold k; ring).
  assert (Fp : 0 < f k).
  { unfold f. rewrite Fk.
    assert (0 <= (Rabs a + a) * k ^ 2) by (apply Rmult_le_pos; [lra|apply pow2_ge_0]).
    assert (0 <= Rabs b * (k ^ 2 - k)) by (apply Rmult_le_pos; lra).
    assert (0 <= (Rabs b + b) * k) by (apply Rmult_le_pos; lra).
    assert (0 <= Rabs c * (k ^ 2 - 1)) by (apply Rmult_le_pos; lra).
    lra. }
  assert (Fn : f (- k) < 0).
  { unfold f. replace ((- k) ^ 3) with (- k ^ 3) by ring. rewrite Fk. replace ((- k) ^ 2) with (k ^ 2) by ring.
    assert (0 <= (Rabs a - a) * k ^ 2) by (apply Rmult_le_pos; [lra|apply pow2_ge_0]).
    assert (0 <= Rabs b * (k ^ 2 - k)) by (apply Rmult_le_pos; lra).
    assert (0 <= (Rabs b + b) * k) by (apply Rmult_le_pos; lra).
    assert (0 <= Rabs c * (k ^ 2 - 1)) by (apply Rmult_le_pos; lra).
    lra. }
  destruct (IVT f (- k) k Cf ltac:(lra) Fn Fp) as (x & _ & E). exists x. exact E.
Qed.

Lemma eigenpair A : exists l v, unit v /\ mv A v = vscale l v.
Proof.
  destruct (cubic_root (- trace A)
    (m00 A * m11 A - m01 A * m10 A + m00 A * m22 A - m02 A * m20 A + m11 A * m22 A - m12 A * m21 A) (- det A)) as (l & E).
  assert (D : det (msub A (mscale l mid)) = 0).
  { transitivity (- (l ^ 3 + - trace A * l ^ 2 + (m00 A * m11 A - m01 A * m10 A + m00 A * m22 A - m02 A * m20 A + m11 A * m22 A - m12 A * m21 A) * l + - det A)); [|rewrite E; ring].
    lring. }
  destruct (null_vector _ D) as (v & U & Hv). exists l, v. split; auto.
  destruct A, v; lunf. injection Hv; intros. f_equal; lra.
Qed.

(** Symmetric 2x2: some unit (x,y) diagonalises. *)
Lemma sym2 a b c : exists x y, x * x + y * y = 1 /\ (- x * y) * a + (x * x - y * y) * b + x * y * c = 0.
Proof.
  destruct (Req_EM_T b 0) as [Z|N].
  - exists 1, 0. rewrite Z. split; ring.
  - (* eigenvector (b, l - a) for eigenvalue l *)
    set (d := sqrt ((a - c) * (a - c) + 4 * b * b)). set (l := (a + c + d) / 2).
    assert (Hd : d * d = (a - c) * (a - c) + 4 * b * b) by (apply sqrt_sqrt; pose proof (sq_nonneg (a - c)); pose proof (sq_nonneg b); lra).
    assert (El : (a - l) * (c - l) = b * b) by (unfold l; lra).
    set (n := sqrt (b * b + (l - a) * (l - a))).
    assert (Pn : 0 < b * b + (l - a) * (l - a)).
    { pose proof (sq_nonneg (l - a)). assert (0 < b * b) by (apply Rsqr_pos_lt; auto). lra. }
    assert (Hn : n * n = b * b + (l - a) * (l - a)) by (apply sqrt_sqrt; lra).
    assert (Nn : 0 < n) by (apply sqrt_lt_R0; auto).
    exists (b / n), ((l - a) / n). split.
    + replace (b / n * (b / n) + (l - a) / n * ((l - a) / n)) with ((b * b + (l - a) * (l - a)) / (n * n)) by (field; lra).
      rewrite Hn. field. lra.
    + replace (- (b / n) * ((l - a) / n) * a + (b / n * (b / n) - (l - a) / n * ((l - a) / n)) * b + b / n * ((l - a) / n) * c)
        with (b * ((a - l) * a + b * b - (l - a) * (l - a) + (l - a) * c) / (n * n)) by (field; lra).
      replace ((a - l) * a + b * b - (l - a) * (l - a) + (l - a) * c) with (b * b - (a - l) * (c - l)) by ring.
      rewrite El. field. lra.
Qed.

Definition symmetric (M : mat3) : Prop := mT M = M.
Definition diagonalises (Q M : mat3) (d : vec3) : Prop :=
  orthogonal Q /\ M = mmul Q (mmul (diag (vx d) (vy d) (vz d)) (mT Q)).

Lemma diag_from_pairs Q M d : orthogonal Q ->
  mv M (col Q 0) = vscale (vx d) (col Q 0) -> mv M (col Q 1) = vscale (vy d) (col Q 1) ->
  mv M (col Q 2) = vscale (vz d) (col Q 2) -> diagonalises Q M d.
Proof.
  intros O E0 E1 E2. split; auto.
  assert (E : mmul M Q = mmul Q (diag (vx d) (vy d) (vz d))).
  { assert (K : mmul M Q = of_cols (mv M (col Q 0)) (mv M (col Q 1)) (mv M (col Q 2))) by lring.
    rewrite K, E0, E1, E2. clear. lring. }
  rewrite mmul_assoc, <- E, <- mmul_assoc, orth_r, mmul_id_r; auto.
Qed.

Theorem spectral : forall M, symmetric M -> exists Q d, diagonalises Q M d.
Proof.
  intros M S. destruct (eigenpair M) as (l & w & Uw & Ew).
  destruct (frame_exists w Uw) as (a & b & O & _).
  pose proof O as O'. apply of_cols_orth in O'. destruct O' as (Haa & Hbb & Hcc & Hab & Hac & Hbc).
  set (A := dot a (mv M a)). set (B := dot a (mv M b)). set (C := dot b (mv M b)).
  assert (SB : dot b (mv M a) = B) by (unfold B; rewrite (dot_mvT M a b), S; apply dot_comm).
  assert (Zw : forall u, dot u w = 0 -> dot w (mv M u) = 0).
  { intros u Hu. rewrite dot_mvT, S, Ew, dot_scale_l, dot_comm, Hu. ring. }
  (* expansion in the frame *)
  assert (X : forall v, v = vadd (vadd (vscale (dot a v) a) (vscale (dot b v) b)) (vscale (dot w v) w)).
  { intro v. pose proof (orth_r _ O) as RO.
    transitivity (mv (mmul (of_cols a b w) (mT (of_cols a b w))) v); [rewrite RO, mv_id; auto|]. clear. lring. }
  destruct (sym2 A B C) as (x & y & N & Z).
  set (u := vadd (vscale x a) (vscale y b)). set (v := vadd (vscale (- y) a) (vscale x b)).
  exists (of_cols u v w), (V3 (dot u (mv M u)) (dot v (mv M v)) l).
  assert (Duu : dot u u = 1).
  { unfold u. rewrite !dot_add_l, !dot_add_r, !dot_scale_l, !dot_scale_r, (dot_comm b a), Haa, Hbb, Hab. lra. }
  assert (Dvv : dot v v = 1).
  { unfold v. rewrite !dot_add_l, !dot_add_r, !dot_scale_l, !dot_scale_r, (dot_comm b a), Haa, Hbb, Hab. lra. }
  assert (Duv : dot u v = 0).
  { unfold u, v. rewrite !dot_add_l, !dot_add_r, !dot_scale_l, !dot_scale_r, (dot_comm b a), Haa, Hbb, Hab. lra. }
  assert (Duw : dot u w = 0) by (unfold u; rewrite dot_add_l, !dot_scale_l, Hac, Hbc; ring).
  assert (Dvw : dot v w = 0) by (unfold v; rewrite dot_add_l, !dot_scale_l, Hac, Hbc; ring).
  assert (O2 : orthogonal (of_cols u v w)) by (apply of_cols_orth; repeat split; auto).
  assert (X2 : forall t, t = vadd (vadd (vscale (dot u t) u) (vscale (dot v t) v)) (vscale (dot w t) w)).
  { intro t. pose proof (orth_r _ O2) as RO.
    transitivity (mv (mmul (of_cols u v w) (mT (of_cols u v w))) t); [rewrite RO, mv_id; auto|]. generalize u v. clear. lring. }
  assert (Zuv : dot v (mv M u) = 0).
  { unfold u, v. rewrite mv_add, !mv_scale, !dot_add_l, !dot_add_r, !dot_scale_l, !dot_scale_r, SB. fold A B C.
    rewrite <- Z. ring. }
  assert (Zvu : dot u (mv M v) = 0) by (rewrite dot_mvT, S, dot_comm; auto).
  apply diag_from_pairs; auto; cbn [vx vy vz].
  - replace (col (of_cols u v w) 0) with u by (generalize u; intros []; reflexivity).
    rewrite (X2 (mv M u)) at 1. rewrite Zuv, (Zw u Duw), !vscale_0, !vadd_0_r. reflexivity.
  - replace (col (of_cols u v w) 1) with v by (generalize v; intros []; reflexivity).
    rewrite (X2 (mv M v)) at 1. rewrite Zvu, (Zw v Dvw), !vscale_0, !vadd_0_r, vadd_0_l. reflexivity.
Qed.

(** Eigenvalues can be taken in decreasing order. *)
Definition descending (d : vec3) : Prop := vx d >= vy d /\ vy d >= vz d.
Lemma swap01 Q M d : diagonalises Q M d -> diagonalises (of_cols (col Q 1) (col Q 0) (col Q 2)) M (V3 (vy d) (vx d) (vz d)).
Proof.
  intros [O ->]. split.
  - destruct Q; lunf. injection O; intros. f_equal; lra.
  - lring.
Qed.
Lemma swap12 Q M d : diagonalises Q M d -> diagonalises (of_cols (col Q 0) (col Q 2) (col Q 1)) M (V3 (vx d) (vz d) (vy d)).
Proof.
  intros [O ->]. split.
  - destruct Q; lunf. injection O; intros. f_equal; lra.
  - lring.
Qed.
Theorem spectral_sorted : forall M, symmetric M -> exists Q d, diagonalises Q M d /\ descending d.
Proof.
  intros M S. destruct (spectral M S) as (Q & d & H).
  assert (K : exists Q d, diagonalises Q M d /\ vx d >= vy d /\ vx d >= vz d).
  { destruct (Rle_dec (vy d) (vx d)) as [A|A], (Rle_dec (vz d) (vx d)) as [B|B].
    - exists Q, d. split; auto. lra.
    - apply swap12 in H. apply swap01 in H. eexists _, _. split; [exact H|]. cbn [vx vy vz]. lra.
    - apply swap01 in H. eexists _, _. split; [exact H|]. cbn [vx vy vz]. lra.
    - destruct (Rle_dec (vy d) (vz d)).
      + apply swap12 in H. apply swap01 in H. eexists _, _. split; [exact H|]. cbn [vx vy vz]. lra.
      + apply swap01 in H. eexists _, _. split; [exact H|]. cbn [vx vy vz]. lra. }
  clear Q d H. destruct K as (Q & d & H & A & B). unfold descending.
  destruct (Rle_dec (vz d) (vy d)).
  - exists Q, d. split; auto. lra.
  - apply swap12 in H. eexists _, _. split; [exact H|]. cbn [vx vy vz]. lra.
Qed.

(** ** Singular value decomposition *)
Theorem svd_exists : forall H, exists U s V,
  orthogonal U /\ orthogonal V /\ vx s >= vy s /\ vy s >= vz s /\ vz s >= 0
  /\ H = mmul U (mmul (diag (vx s) (vy s) (vz s)) (mT V)).
Proof.
  intro H. set (M := mmul (mT H) H).
  assert (S : symmetric M) by (unfold symmetric, M; rewrite mT_mmul, mT_mT; reflexivity).
  destruct (spectral_sorted M S) as (V & d & [OV EM] & D1 & D2).
  set (w := fun i => mv H (col V i)).
  assert (G : mmul (mT (mmul H V)) (mmul H V) = diag (vx d) (vy d) (vz d)).
  { rewrite mT_mmul, <- mmul_assoc, (mmul_assoc (mT H)). fold M. rewrite EM.
    rewrite !mmul_assoc, OV, mmul_id_l, <- !mmul_assoc, OV, mmul_id_r. reflexivity. }
  set (w0 := col (mmul H V) 0). set (w1 := col (mmul H V) 1). set (w2 := col (mmul H V) 2).
  assert (EW : mmul H V = of_cols w0 w1 w2) by (unfold w0, w1, w2; generalize (mmul H V); intros []; reflexivity).
  rewrite EW in G.
  assert (G' : dot w0 w0 = vx d /\ dot w1 w1 = vy d /\ dot w2 w2 = vz d /\ dot w0 w1 = 0 /\ dot w0 w2 = 0 /\ dot w1 w2 = 0).
  { clear -G. clearbody w0 w1 w2. destruct w0, w1, w2, d; lunf. injection G; intros. repeat split; lra. }
  destruct G' as (G00 & G11 & G22 & G01 & G02 & G12).
  assert (P2 : 0 <= vz d) by (rewrite <- G22; apply norm2_nonneg).
  set (s := V3 (sqrt (vx d)) (sqrt (vy d)) (sqrt (vz d))).
  assert (Fin : forall U, orthogonal U -> w0 = vscale (vx s) (col U 0) -> w1 = vscale (vy s) (col U 1) -> w2 = vscale (vz s) (col U 2) ->
     exists U s V, orthogonal U /\ orthogonal V /\ vx s >= vy s /\ vy s >= vz s /\ vz s >= 0
  /\ H = mmul U (mmul (diag (vx s) (vy s) (vz s)) (mT V))).
  { intros U OU E0 E1 E2. exists U, s, V. split; auto. split; auto. unfold s; cbn [vx vy vz].
    split; [apply Rle_ge, sqrt_le_1_alt; lra|]. split; [apply Rle_ge, sqrt_le_1_alt; lra|]. split; [apply Rle_ge, sqrt_pos|].
    rewrite mmul_assoc.
    assert (E : mmul U (diag (vx s) (vy s) (vz s)) = mmul H V).
    { rewrite EW, E0, E1, E2. generalize s. clear. lring. }
    unfold s in E; cbn [vx vy vz] in E. rewrite E, <- mmul_assoc, orth_r, mmul_id_r; auto. }
  assert (N : forall u e, dot u u = e -> 0 < e -> unit (vscale (/ sqrt e) u) /\ u = vscale (sqrt e) (vscale (/ sqrt e) u)).
  { intros u e E Pe. assert (Q : 0 < sqrt e) by (now apply sqrt_lt_R0). split.
    - unfold unit. rewrite norm2_scale. unfold norm2. rewrite E. rewrite <- (sqrt_sqrt e) at 3 by lra. field. lra.
    - rewrite vscale_scale, Rinv_r, vscale_1; auto. lra. }
  assert (Nz : forall u e, dot u u = e -> e = 0 -> forall c, u = vscale (sqrt e) c).
  { intros u e E Ze c. rewrite Ze, sqrt_0, vscale_0. apply norm2_zero. unfold norm2. lra. }
  assert (CC : forall a b c, col (of_cols a b c) 0 = a /\ col (of_cols a b c) 1 = b /\ col (of_cols a b c) 2 = c)
    by (intros [] [] []; repeat split).
  destruct (Rlt_dec 0 (vx d)) as [P0|Z0].
  - destruct (N w0 _ G00 P0) as [U0 E0]. set (u0 := vscale (/ sqrt (vx d)) w0) in *.
    destruct (Rlt_dec 0 (vy d)) as [P1|Z1].
    + destruct (N w1 _ G11 P1) as [U1 E1]. set (u1 := vscale (/ sqrt (vy d)) w1) in *.
      assert (D01 : dot u0 u1 = 0) by (unfold u0, u1; rewrite dot_scale_l, dot_scale_r, G01; ring).
      destruct (Rlt_dec 0 (vz d)) as [P2'|Z2].
      * destruct (N w2 _ G22 P2') as [U2 E2]. set (u2 := vscale (/ sqrt (vz d)) w2) in *.
        destruct (CC u0 u1 u2) as (C0 & C1 & C2).
        apply (Fin (of_cols u0 u1 u2)); rewrite ?C0, ?C1, ?C2; auto.
        apply of_cols_orth. unfold unit, norm2 in *. repeat split; auto.
        -- unfold u0, u2; rewrite dot_scale_l, dot_scale_r, G02; ring.
        -- unfold u1, u2; rewrite dot_scale_l, dot_scale_r, G12; ring.
      * destruct (CC u0 u1 (cross u0 u1)) as (C0 & C1 & C2).
        apply (Fin (of_cols u0 u1 (cross u0 u1))); rewrite ?C0, ?C1, ?C2; auto.
        -- apply frame_rotation; auto.
        -- apply Nz; auto. lra.
    + destruct (frame_exists u0 U0) as (a & b & OF & _).
      assert (OF' : orthogonal (of_cols u0 a b)).
      { apply of_cols_orth in OF. apply of_cols_orth. destruct OF as (? & ? & ? & ? & ? & ?). repeat split; auto; rewrite dot_comm; auto. }
      destruct (CC u0 a b) as (C0 & C1 & C2).
      apply (Fin (of_cols u0 a b)); rewrite ?C0, ?C1, ?C2; auto; apply Nz; auto; cbn [vy vz s]; try lra.
  - apply (Fin mid); [apply orth_id| | |]; apply Nz; auto; lra.
Qed.
