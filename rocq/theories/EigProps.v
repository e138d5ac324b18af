(** The eigensolver: composeM is the sum of outer products of the epipolar
    plane normals, and what eigensolver returns (C44). *)
From Coq Require Import Reals List Lra Psatz Lia Permutation Sorting.Sorted.
From Verif Require Import Lin GenLin RotModel RotProps Spectral EigSums EigGen EigModel EigAlg.
Import ListNotations.
Local Open Scope R_scope.

(** * Specification *)
(** normal of the epipolar plane of a correspondence under the rotation A *)
Definition normal (A : mat3) (c : vec3 * vec3) : vec3 := cross (fst c) (mv A (snd c)).
(** sum of w n n^T *)
Definition normal_sum (A : mat3) (l : list (R * (vec3 * vec3))) : mat3 :=
  msum (map (fun q => mscale (fst q) (outer (normal A (snd q)) (normal A (snd q)))) l).
(** the two bearing vectors see a common point under the pose (A, t) of camera
    2 in camera 1, at depths d1 and d2 *)
Definition sees (A : mat3) (t : vec3) (c : vec3 * vec3) (d1 d2 : R) : Prop :=
  vscale d1 (fst c) = vadd t (vscale d2 (mv A (snd c))).
(** what Eigen's EigenSolver returns for a symmetric matrix: three independent
    unit eigenvectors with their eigenvalues *)
Definition good_eig3 (eig : mat3 -> list epair) : Prop := forall M, symmetric M ->
  exists a b c la lb lc, eig M = [(a, la); (b, lb); (c, lc)] /\
    unit a /\ unit b /\ unit c /\ det (of_cols a b c) <> 0 /\
    mv M a = vscale la a /\ mv M b = vscale lb b /\ mv M c = vscale lc c.
(** std::sort with the comparison "larger eigenvalue first" *)
Definition good_sort (sort : list epair -> list epair) : Prop := forall l,
  Permutation l (sort l) /\ StronglySorted (fun p q => snd p >= snd q) (sort l).


(** * C44 *)
Theorem C44_composeM_is_normal_sum : forall l c,
  composeM (fs_accumulate l) c = mscale ((1 + norm2 c) ^ 2) (normal_sum (cayley2rot c) l).
Proof.
  intros l c. induction l as [|q l IH].
  - change (fs_accumulate []) with fs0. rewrite composeM_0. unfold normal_sum. cbn [map]. sums. generalize ((1 + norm2 c) ^ 2). lring.
  - rewrite fs_cons, composeM_add, IH. destruct q as (w & f1 & f2). rewrite composeM_one, C24_reduced_is_scaled.
    unfold normal_sum. cbn [map fst snd]. rewrite msum_cons. unfold normal; cbn [fst snd].
    match goal with |- context [msum ?m] => generalize (msum m) end. rewrite mv_mscale.
    generalize (1 + norm2 c) (mv (cayley2rot c) f2). clear. intros s g T.
    replace (cross f1 (vscale s g)) with (vscale s (cross f1 g)) by lring. generalize (cross f1 g). clear. lring.
Qed.

Lemma normal_sum_quad A l u : dot u (mv (normal_sum A l) u) = rsum (map (fun q => fst q * dot (normal A (snd q)) u ^ 2) l).
Proof.
  unfold normal_sum. induction l as [|q l IH]; sums.
  - lring.
  - rewrite <- IH. generalize (normal A (snd q)) (fst q) (msum (map (fun q0 => mscale (fst q0) (outer (normal A (snd q0)) (normal A (snd q0)))) l)).
    clear. lring.
Qed.
Lemma normal_sum_sym A l : symmetric (normal_sum A l).
Proof.
  unfold symmetric, normal_sum. induction l as [|q l IH]; sums.
  - lring.
  - transitivity (madd (mscale (fst q) (outer (normal A (snd q)) (normal A (snd q)))) (mT (msum (map (fun q0 => mscale (fst q0) (outer (normal A (snd q0)) (normal A (snd q0)))) l)))).
    + generalize (normal A (snd q)) (fst q). lring.
    + now rewrite IH.
Qed.
Lemma normal_sum_kernel A l u : (forall q, In q l -> dot (normal A (snd q)) u = 0) -> mv (normal_sum A l) u = v0.
Proof.
  unfold normal_sum. induction l as [|q l IH]; intro H; sums.
  - lring.
  - rewrite mv_madd. rewrite IH by (intros; apply H; now right). rewrite vadd_0_r.
    transitivity (vscale (fst q * dot (normal A (snd q)) u) (normal A (snd q))); [lring|].
    rewrite (H q) by now left. rewrite Rmult_0_r. lring.
Qed.
Lemma rsum_nonneg l : (forall x, In x l -> 0 <= x) -> 0 <= rsum l.
Proof. induction l as [|a l IH]; intro H; sums; [lra|]. pose proof (H a (or_introl eq_refl)). pose proof (IH (fun x h => H x (or_intror h))). lra. Qed.
Lemma rsum_nonneg_zero l : (forall x, In x l -> 0 <= x) -> rsum l = 0 -> forall x, In x l -> x = 0.
Proof.
  induction l as [|a l IH]; intros H E x Hx; [easy|]. revert E; sums; intro E.
  pose proof (H a (or_introl eq_refl)). pose proof (rsum_nonneg l (fun x h => H x (or_intror h))).
  destruct Hx as [->|Hx]; [lra|]. apply IH; auto; [|lra]. intros; apply H; now right.
Qed.
Lemma scale_pos c : 0 < (1 + norm2 c) ^ 2.
Proof. pose proof (norm2_nonneg c). nra. Qed.

(** positive semidefinite for nonnegative weights; symmetric *)
Theorem C44_symmetric_psd : forall l c, (forall q, In q l -> 0 <= fst q) ->
  symmetric (composeM (fs_accumulate l) c) /\ forall u, 0 <= dot u (mv (composeM (fs_accumulate l) c) u).
Proof.
  intros l c W. rewrite C44_composeM_is_normal_sum. split.
  - unfold symmetric. rewrite <- (normal_sum_sym (cayley2rot c) l) at 2. generalize (normal_sum (cayley2rot c) l) ((1 + norm2 c) ^ 2). lring.
  - intro u. rewrite mv_mscale, dot_scale_r, normal_sum_quad. apply Rmult_le_pos; [apply Rlt_le, scale_pos|].
    apply rsum_nonneg. intros x Hx. apply in_map_iff in Hx as (q & <- & Hq). apply Rmult_le_pos; auto. apply pow2_ge_0.
Qed.

Lemma sees_coplanar A t c d1 d2 : sees A t c d1 d2 -> d1 <> 0 \/ d2 <> 0 -> dot (normal A c) t = 0.
Proof.
  unfold sees, normal. destruct c as (f1 & f2). cbn [fst snd]. generalize (mv A f2). intros g H D.
  assert (T : t = vsub (vscale d1 f1) (vscale d2 g)) by (rewrite H; lring). subst t. lring.
Qed.

(** noise-free data: the matrix vanishes on the true translation and nowhere
    else than on translations satisfying all epipolar constraints *)
Theorem C44_kernel : forall l c t, (forall q, In q l -> 0 < fst q) ->
  mv (composeM (fs_accumulate l) c) t = v0 <-> (forall q, In q l -> dot (normal (cayley2rot c) (snd q)) t = 0).
Proof.
  intros l c t W. rewrite C44_composeM_is_normal_sum, mv_mscale. split.
  - intros E q Hq.
    assert (K : dot t (mv (normal_sum (cayley2rot c) l) t) = 0).
    { apply Rmult_eq_reg_l with ((1 + norm2 c) ^ 2); [|pose proof (scale_pos c); lra]. rewrite <- dot_scale_r, E. lring. }
    rewrite normal_sum_quad in K.
    assert (Z : fst q * dot (normal (cayley2rot c) (snd q)) t ^ 2 = 0).
    { refine (rsum_nonneg_zero _ _ K _ _).
      - intros x Hx. apply in_map_iff in Hx as (p & <- & Hp). specialize (W p Hp). apply Rmult_le_pos; [lra|apply pow2_ge_0].
      - apply (in_map (fun q => fst q * dot (normal (cayley2rot c) (snd q)) t ^ 2)); auto. }
    specialize (W q Hq). apply Rmult_integral in Z as [Z|Z]; [lra|]. nra.
  - intro H. rewrite normal_sum_kernel by auto. lring.
Qed.
Corollary C44_true_translation : forall l c t, (forall q, In q l -> 0 < fst q) ->
  (forall q, In q l -> exists d1 d2, sees (cayley2rot c) t (snd q) d1 d2 /\ d1 <> 0) ->
  mv (composeM (fs_accumulate l) c) t = v0.
Proof.
  intros l c t W H. apply C44_kernel; auto. intros q Hq. destruct (H q Hq) as (d1 & d2 & S & D). apply sees_coplanar with d1 d2; auto.
Qed.

(** the function returns no solution only if all weights are zero *)
Lemma weight_norm_pos l : weight_norm l <> 0 <-> exists q, In q l /\ fst q <> 0.
Proof.
  unfold weight_norm.
  assert (E : forall a, fold_left (fun a q => a + fst q ^ 2) l a = a + rsum (map (fun q : R * (vec3 * vec3) => fst q ^ 2) l)).
  { induction l as [|q l IH]; intro a; cbn [fold_left]; sums; [ring|]. rewrite IH. ring. }
  rewrite E, Rplus_0_l. clear E.
  assert (P : forall x, In x (map (fun q : R * (vec3 * vec3) => fst q ^ 2) l) -> 0 <= x) by (intros x Hx; apply in_map_iff in Hx as (q & <- & _); apply pow2_ge_0).
  pose proof (rsum_nonneg _ P) as N. split.
  - intro H. destruct (Req_dec (rsum (map (fun q : R * (vec3 * vec3) => fst q ^ 2) l)) 0) as [Z|Z]; [rewrite Z, sqrt_0 in H; easy|].
    clear H N. revert Z P. induction l as [|q l IH]; sums; intros Z P; [easy|].
    destruct (Req_dec (fst q) 0) as [E|E].
    + destruct IH as (p & Hp & E'). { rewrite E in Z. intro Q. apply Z. rewrite Q. ring. } { intros x Hx. apply P. now right. } exists p. split; auto. now right.
    + exists q. split; auto. now left.
  - intros (q & Hq & NZ) E. apply sqrt_eq_0 in E; auto.
    pose proof (rsum_nonneg_zero _ P E (fst q ^ 2) (in_map (fun q : R * (vec3 * vec3) => fst q ^ 2) l q Hq)) as Z. apply NZ. nra.
Qed.
Lemma use_weights_spec b l lw : use_weights b l = Some lw -> map snd lw = map snd l /\
  forall q, In q lw -> exists p, In p l /\ snd p = snd q /\ (0 < fst p -> 0 < fst q) /\ (b = false -> fst q = 1).
Proof.
  unfold use_weights. intro H.
  destruct b; [destruct (Req_EM_T (weight_norm l) 0) as [Z|Z]; [easy|]|].
  - assert (E : lw = map (fun q => (fst q / weight_norm l, snd q)) l) by congruence. subst lw. split; [now rewrite map_map|].
    intros q Hq. apply in_map_iff in Hq as (p & <- & Hp). exists p. repeat split; auto; [|easy].
    intro P. cbn. apply Rdiv_lt_0_compat; auto. assert (0 <= weight_norm l) by apply sqrt_pos. lra.
  - assert (E : lw = map (fun q => (1, snd q)) l) by congruence. subst lw. split; [now rewrite map_map|].
    intros q Hq. apply in_map_iff in Hq as (p & <- & Hp). exists p. repeat split; auto; cbn; intros; lra.
Qed.

Lemma perm3 {X} (a b c : X) l : Permutation [a; b; c] l ->
  l = [a; b; c] \/ l = [a; c; b] \/ l = [b; a; c] \/ l = [c; a; b] \/ l = [b; c; a] \/ l = [c; b; a].
Proof.
  intro P. apply Permutation_sym in P. destruct (Permutation_vs_cons_inv P) as (l1 & l2 & ->).
  apply Permutation_sym, Permutation_cons_app_inv in P. apply Permutation_length_2_inv in P.
  destruct l1 as [|x [|y [|z l1]]]; cbn in P; destruct P as [P|P]; inversion P; subst; auto 10.
  all: destruct l1; discriminate.
Qed.
Lemma det_cols_comb a b c u : det (of_cols a b c) <> 0 ->
  exists x y z, u = vadd (vscale x a) (vadd (vscale y b) (vscale z c)).
Proof.
  intro D. pose proof (mv_minv (of_cols a b c) u D) as E. set (k := mv (minv (of_cols a b c)) u) in *. clearbody k.
  exists (vx k), (vy k), (vz k). rewrite <- E. lring.
Qed.
Lemma det_cols_0 a b c x y z : det (of_cols a b c) <> 0 ->
  vadd (vscale x a) (vadd (vscale y b) (vscale z c)) = v0 -> x = 0 /\ y = 0 /\ z = 0.
Proof.
  intros D E. assert (K : V3 x y z = v0).
  { apply (mv_inj (of_cols a b c)); auto. rewrite mv_0, <- E. lring. }
  unfold v0 in K. injection K. auto.
Qed.
Lemma perp_both n1 n2 t u : cross n1 n2 <> v0 -> t <> v0 -> dot n1 t = 0 -> dot n2 t = 0 -> dot n1 u = 0 -> dot n2 u = 0 ->
  exists k, u = vscale k t.
Proof.
  intros N T A B C D. set (m := cross n1 n2) in *.
  assert (K : forall x, dot n1 x = 0 -> dot n2 x = 0 -> vscale (norm2 m) x = vscale (dot m x) m).
  { intros x X Y. transitivity (vadd (vscale (dot m x) m) (vadd (vscale (dot n1 x) (cross n2 m)) (vscale (dot n2 x) (cross m n1)))).
    - unfold m. lring.
    - rewrite X, Y. lring. }
  assert (NZ : norm2 m <> 0) by (pose proof (norm2_pos m N); lra).
  pose proof (K t A B) as Kt. pose proof (K u C D) as Ku.
  assert (Z : dot m t <> 0).
  { intro E. rewrite E in Kt. apply T. transitivity (vscale (/ norm2 m) (vscale (norm2 m) t)).
    - destruct t; lunf; f_equal; field; exact NZ.
    - rewrite Kt. lring. }
  exists (dot m u / dot m t). transitivity (vscale (/ norm2 m) (vscale (norm2 m) u)).
  - destruct u; lunf; f_equal; field; exact NZ.
  - rewrite Ku. transitivity (vscale (dot m u / dot m t) (vscale (/ norm2 m) (vscale (dot m t) m))).
    + generalize (dot m u) (dot m t) (norm2 m) Z NZ. clear. intros. destruct m; lunf. f_equal; field; auto.
    + rewrite <- Kt. generalize (dot m u / dot m t) (norm2 m) NZ. clear. intros. destruct t; lunf. f_equal; field; auto.
Qed.

(** the sorted eigenpairs *)
Lemma sorted_pairs eig sort M : good_eig3 eig -> good_sort sort -> symmetric M ->
  exists a b c la lb lc, sort (eig M) = [(a, la); (b, lb); (c, lc)] /\ la >= lb /\ lb >= lc /\
    unit a /\ unit b /\ unit c /\ det (of_cols a b c) <> 0 /\
    mv M a = vscale la a /\ mv M b = vscale lb b /\ mv M c = vscale lc c.
Proof.
  intros GE GS Sy. destruct (GE M Sy) as (a & b & c & la & lb & lc & E & Ua & Ub & Uc & D & Ea & Eb & Ec).
  destruct (GS (eig M)) as (P & So). rewrite E in *.
  destruct (perm3 _ _ _ _ P) as [Q|[Q|[Q|[Q|[Q|Q]]]]]; rewrite Q in *; do 6 eexists; (split; [reflexivity|]);
    inversion_clear So as [|? ? S1 F1]; inversion_clear S1 as [|? ? S2 F2];
    inversion_clear F1 as [|? ? O1 F3]; inversion_clear F2 as [|? ? O2 F4]; cbn in O1, O2;
    repeat split; auto; intro Z; apply D; first [rewrite <- Z; lring | rewrite <- Ropp_0, <- Z; lring].
Qed.

(** what eigensolver returns, for any outcome of the nonlinear optimisation *)
Theorem C44_output : forall lm eig sort useWeights start l out,
  good_eig3 eig -> good_sort sort -> (forall q, In q l -> 0 < fst q) ->
  eigensolver lm eig sort useWeights start l = Some out ->
  rotation (eo_rotation out) /\
  exists lw a b c la lb lc,
    use_weights useWeights l = Some lw /\
    eo_eigenvalues out = [la; lb; lc] /\ eo_eigenvectors out = [a; b; c] /\ la >= lb /\ lb >= lc /\ lc >= 0 /\
    (exists k, 0 < k /\ let M := mscale k (normal_sum (eo_rotation out) lw) in
       mv M a = vscale la a /\ mv M b = vscale lb b /\ mv M c = vscale lc c) /\
    (exists sg, sg ^ 2 = la ^ 2 + lb ^ 2 /\ eo_translation out = vscale sg c) /\
    (forall q l', l = q :: l' -> 0 <= dot (vsub (fst (snd q)) (mv (eo_rotation out) (snd (snd q)))) (eo_translation out)).
Proof.
  intros lm eig sort b0 start l out GE GS W H. unfold eigensolver in H.
  destruct (use_weights b0 l) as [lw|] eqn:UW; [|easy]. destruct l as [|q l]; [easy|].
  unfold eigensolver_main in H. cbn [eo_rotation eo_translation eo_eigenvalues eo_eigenvectors] in H.
  set (cy := lm (fs_accumulate lw) (rot2cayley start)) in *.
  pose proof (use_weights_spec _ _ _ UW) as (_ & SW).
  assert (W' : forall p, In p lw -> 0 <= fst p).
  { intros p Hp. destruct (SW p Hp) as (p' & Hp' & _ & K & _). apply Rlt_le, K, W, Hp'. }
  destruct (C44_symmetric_psd lw cy W') as (Sy & PSD).
  destruct (sorted_pairs eig sort _ GE GS Sy) as (a & b & c & la & lb & lc & E & O1 & O2 & Ua & Ub & Uc & D & Ea & Eb & Ec).
  rewrite E in H. cbn [map fst snd nth] in H.
  set (mag := sqrt (la ^ 2 + lb ^ 2)) in *.
  assert (Mag : mag ^ 2 = la ^ 2 + lb ^ 2) by (unfold mag; rewrite <- Rsqr_pow2; apply Rsqr_sqrt; nra).
  assert (H' : EO (cayley2rot cy) (if Rlt_dec (dot (vsub (fst (snd q)) (mv (cayley2rot cy) (snd (snd q)))) (vscale mag c)) 0 then vneg (vscale mag c) else vscale mag c) [la; lb; lc] [a; b; c] = out) by congruence.
  clear H. subst out. cbn [eo_rotation eo_translation eo_eigenvalues eo_eigenvectors].
  split; [apply C24_cayley2rot_is_rotation|].
  exists lw, a, b, c, la, lb, lc. repeat (split; [solve [auto; try lra]|]).
  split. { specialize (PSD c). rewrite Ec, dot_scale_r in PSD. unfold unit, norm2 in Uc. rewrite Uc in PSD. lra. }
  split. { exists ((1 + norm2 cy) ^ 2). split; [apply scale_pos|]. cbv zeta. rewrite <- C44_composeM_is_normal_sum. auto. }
  split.
  - destruct (Rlt_dec _ 0).
    + exists (- mag). split; [rewrite <- Mag; ring|]. generalize mag. lring.
    + exists mag. auto.
  - intros q' l' EQ. assert (q' = q) by congruence. subst q'.
    destruct (Rlt_dec _ 0) as [L|L]; [|lra].
    match goal with |- 0 <= dot ?x (vneg ?y) => replace (dot x (vneg y)) with (- dot x y) by (generalize x y; lring) end. lra.
Qed.

(** if the optimisation finds the true rotation, the translation is recovered
    with its sign *)
Theorem C44_recovers_pose : forall lm eig sort useWeights start q l A t,
  good_eig3 eig -> good_sort sort -> (forall S s, cayley2rot (lm S s) = A) ->
  (forall p, In p (q :: l) -> 0 < fst p /\ unit (fst (snd p)) /\ unit (snd (snd p)) /\
     exists d1 d2, 0 < d1 /\ 0 < d2 /\ sees A t (snd p) d1 d2) ->
  fst (snd q) <> mv A (snd (snd q)) ->
  (exists p1 p2, In p1 (q :: l) /\ In p2 (q :: l) /\ cross (normal A (snd p1)) (normal A (snd p2)) <> v0) ->
  exists out k, eigensolver lm eig sort useWeights start (q :: l) = Some out /\
    eo_rotation out = A /\ 0 < k /\ eo_translation out = vscale k t.
Proof.
  intros lm eig sort b0 start q l A t GE GS LM H Par (p1 & p2 & I1 & I2 & NP).
  assert (UW : exists lw, use_weights b0 (q :: l) = Some lw).
  { unfold use_weights. destruct b0; [|eauto]. destruct (Req_EM_T (weight_norm (q :: l)) 0) as [Z|Z]; [|eauto].
    exfalso. revert Z. apply weight_norm_pos. exists q. split; [now left|]. destruct (H q (or_introl eq_refl)). lra. }
  destruct UW as (lw & UW). destruct (use_weights_spec _ _ _ UW) as (Ms & SW).
  assert (RA : rotation A) by (rewrite <- (LM fs0 None); apply C24_cayley2rot_is_rotation).
  unfold eigensolver. rewrite UW. unfold eigensolver_main. cbn [eo_rotation eo_translation eo_eigenvalues eo_eigenvectors].
  set (cy := lm (fs_accumulate lw) (rot2cayley start)). assert (CY : cayley2rot cy = A) by apply LM. clearbody cy.
  assert (W' : forall p, In p lw -> 0 < fst p).
  { intros p Hp. destruct (SW p Hp) as (p' & Hp' & _ & K & _). now apply K, H. }
  assert (W'' : forall p, In p lw -> 0 <= fst p) by (intros; apply Rlt_le; auto).
  destruct (C44_symmetric_psd lw cy W'') as (Sy & PSD).
  pose proof (fun u => C44_kernel lw cy u W') as Ker. rewrite CY in Ker.
  destruct (sorted_pairs eig sort _ GE GS Sy) as (a & b & c & la & lb & lc & E & O1 & O2 & Ua & Ub & Uc & D & Ea & Eb & Ec).
  set (M := composeM (fs_accumulate lw) cy) in *.
  rewrite E. cbn [map fst snd nth]. rewrite CY.
  assert (Tk : forall p, In p (q :: l) -> dot (normal A (snd p)) t = 0).
  { intros p Hp. destruct (H p Hp) as (_ & _ & _ & d1 & d2 & P1 & P2 & Se). apply sees_coplanar with d1 d2; auto. left; lra. }
  assert (Mt : mv M t = v0).
  { apply Ker. intros p Hp. destruct (SW p Hp) as (p' & Hp' & Es & _). rewrite <- Es. auto. }
  assert (Tn : t <> v0).
  { intro Z. destruct (H p1 I1) as (_ & _ & _ & d1 & d2 & P1 & P2 & Se). apply NP.
    replace (normal A (snd p1)) with v0; [lring|]. unfold sees in Se. unfold normal. symmetry.
    rewrite Z in Se. destruct (snd p1) as (g1 & g2). cbn [fst snd] in *. revert Se. generalize (mv A g2). intros g Se.
    transitivity (vscale (/ d1) (cross (vscale d1 g1) g)).
    - destruct g1, g; lunf; f_equal; field; lra.
    - rewrite Se. generalize (/ d1). lring. }
  assert (KerT : forall u, mv M u = v0 -> exists k, u = vscale k t).
  { intros u Hu. pose proof (proj1 (Ker u) Hu) as Hu'.
    assert (KK : forall p, In p (q :: l) -> dot (normal A (snd p)) u = 0).
    { intros p Hp. assert (X : In (snd p) (map snd lw)) by (rewrite Ms; now apply in_map).
      apply in_map_iff in X as (p' & <- & Hp'). auto. }
    apply (perp_both (normal A (snd p1)) (normal A (snd p2))); auto. }
  assert (Pos : forall v x, unit v -> mv M v = vscale x v -> 0 <= x).
  { intros v x U Ev. specialize (PSD v). rewrite Ev, dot_scale_r in PSD. unfold unit, norm2 in U. rewrite U in PSD. lra. }
  pose proof (Pos a la Ua Ea) as Pa. pose proof (Pos b lb Ub Eb) as Pb. pose proof (Pos c lc Uc Ec) as Pc.
  assert (Lc : lc = 0).
  { destruct (det_cols_comb a b c t D) as (x & y & z & Et).
    rewrite Et, !mv_add, !mv_scale, Ea, Eb, Ec in Mt.
    destruct (det_cols_0 a b c (x * la) (y * lb) (z * lc) D) as (X & Y & Z). { rewrite <- Mt. lring. }
    destruct (Req_dec lc 0) as [|N]; auto. exfalso. apply Tn. rewrite Et.
    assert (x = 0) by (apply Rmult_integral in X as [|]; lra). assert (y = 0) by (apply Rmult_integral in Y as [|]; lra).
    assert (z = 0) by (apply Rmult_integral in Z as [|]; lra). subst x y z. lring. }
  subst lc. assert (Ec' : mv M c = v0) by (rewrite Ec; lring). destruct (KerT c Ec') as (kc & Kc).
  assert (Lb : 0 < lb).
  { destruct (Req_dec lb 0) as [Z|Z]; [|lra]. exfalso. subst lb. assert (Eb' : mv M b = v0) by (rewrite Eb; lring).
    destruct (KerT b Eb') as (kb & Kb). apply D. rewrite Kb, Kc. lring. }
  set (mag := sqrt (la ^ 2 + lb ^ 2)).
  assert (Mag : 0 < mag) by (apply sqrt_lt_R0; nra).
  assert (Kn : kc <> 0). { intro Z. subst kc. unfold unit in Uc. rewrite Kc in Uc. revert Uc. clear. destruct t; lunf. lra. }
  assert (Flow : 0 < dot (vsub (fst (snd q)) (mv A (snd (snd q)))) t).
  { destruct (H q (or_introl eq_refl)) as (_ & U1 & U2 & d1 & d2 & P1 & P2 & Se). unfold sees in Se.
    assert (U2' : unit (mv A (snd (snd q)))) by (unfold unit; rewrite rot_norm2; auto).
    revert Par U1 U2' Se. generalize (fst (snd q)) (mv A (snd (snd q))). intros f g Par U1 U2' Se.
    assert (Et : t = vsub (vscale d1 f) (vscale d2 g)) by (rewrite Se; lring).
    assert (N : 0 < norm2 (vsub f g)). { apply norm2_pos. intro Z. apply Par. transitivity (vadd (vsub f g) g); [lring|]. rewrite Z. lring. }
    replace (dot (vsub f g) t) with ((d1 + d2) * (norm2 (vsub f g) / 2)).
    - apply Rmult_lt_0_compat; lra.
    - rewrite Et. unfold unit in U1, U2'.
      transitivity ((d1 + d2) * (norm2 (vsub f g) / 2) + (d1 - d2) / 2 * (norm2 f - norm2 g)); [rewrite U1, U2'; field|].
      clear. destruct f, g; lunf. field. }
  destruct (Rlt_dec (dot (vsub (fst (snd q)) (mv A (snd (snd q)))) (vscale mag c)) 0) as [L|L]; rewrite Kc in L.
  - eexists. exists (- (mag * kc)). split; [reflexivity|]. cbn [eo_rotation eo_translation]. split; [auto|]. split.
    + rewrite !dot_scale_r in L. assert (mag * kc < 0); [|lra]. nra.
    + rewrite Kc. generalize mag kc. lring.
  - eexists. exists (mag * kc). split; [reflexivity|]. cbn [eo_rotation eo_translation]. split; [auto|]. split.
    + rewrite !dot_scale_r in L. assert (mag * kc <> 0) by (apply Rmult_integral_contrapositive_currified; lra). nra.
    + rewrite Kc. generalize mag kc. lring.
Qed.
