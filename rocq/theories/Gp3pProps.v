(** GP3P: its equations, the pose of one eigenvector and the candidate test. *)
From Coq Require Import Reals Lra Lia List Arith.
From Verif Require Import Lin GenLin Cplx RotModel RotProps GeoModel GbModel GbProps GpnpGb Gp3pData Gp3pInit Gp3pModel.
Import ListNotations.
Local Open Scope R_scope.

(** * Specification *)
(** The pose with rotation Q and translation t sees the three points: point i is
    Q (n_i f_i + v_i) + t, n_i being its (signed) distance along the ray with
    direction f_i that starts at v_i. *)
Definition sees3 (f v p : nat -> vec3) (Q : mat3) (t : vec3) (n : nat -> R) : Prop :=
  forall i, (i < 3)%nat -> p i = vadd (mv Q (vadd (vscale (n i) (f i)) (v i))) t.
(** An eigenvalue that is real up to the tolerance of the code. *)
Definition nearly_real (lam : cx) : Prop := Rabs (im lam) < 1 / 10000.
Definition cconj (a : cx) : cx := Cx (re a) (- im a).
(** the unknowns of the polynomial system: Cayley parameters and distances *)
Definition gp_x (c : vec3) (n : nat -> R) : nat -> R := fun k =>
  nth k [vx c; vy c; vz c; n 0%nat; n 1%nat; n 2%nat] 0.
(** the monomials of the last eight columns of the template *)
Definition gp_basis (c : vec3) (n : nat -> R) : nat -> R := fun k =>
  nth k [vx c ^ 2; n 2%nat; n 1%nat; n 0%nat; vz c; vy c; vx c; 1] 0.

(** * Equations *)
(** world displacement minus rotated camera displacement of points a and b, times
    the Cayley denominator *)
Definition gp_eq (f v p : nat -> vec3) (c : vec3) (n : nat -> R) (a b : nat) : vec3 :=
  vsub (vscale (1 + vx c ^ 2 + vy c ^ 2 + vz c ^ 2)
          (vsub (vadd (vscale (n a) (f a)) (v a)) (vadd (vscale (n b) (f b)) (v b))))
       (mv (cayley2rot_reduced c) (vsub (p a) (p b))).
Definition vnth (u : vec3) (k : nat) : R := nth k [vx u; vy u; vz u] 0.
Lemma gp_rows f v p c n r : (r < 9)%nat ->
  cell_sum gp_mon (gp_x c n) (gp_cells f v p) r
  = vnth (gp_eq f v p c n (r / 3) (S (r / 3) mod 3)) (r mod 3).
Proof.
  intro H. do 9 (destruct r as [|r]; [cbn -[Rmult Rplus Rminus Ropp pow mono gp_x];
    cbn [mono gp_x nth]; unfold vnth, gp_eq, cayley2rot_reduced, mv, vsub, vadd, vscale; cbn [nth vx vy vz m00 m01 m02 m10 m11 m12 m20 m21 m22]; ring|]).
  lia.
Qed.
Lemma gp_rows0 f v p x r : (9 <= r)%nat -> cell_sum gp_mon x (gp_cells f v p) r = 0.
Proof. intro H. do 9 (destruct r as [|r]; [lia|]). cbn -[Rmult Rplus Rminus Ropp pow mono]. ring. Qed.
Lemma gp_keys_ok f v p : keys_ok 85 (map fst (gp_cells f v p)) = true.
Proof. change (map fst (gp_cells f v p)) with gp_keys. vm_compute. reflexivity. Qed.
Lemma gp_eq_iff f v p c n a b : gp_eq f v p c n a b = v0 <->
  vsub (p a) (p b) = mv (mT (cayley2rot c)) (vsub (vadd (vscale (n a) (f a)) (v a)) (vadd (vscale (n b) (f b)) (v b))).
Proof.
  unfold gp_eq. set (X := vsub (vadd _ _) _). set (d := vsub (p a) (p b)).
  pose proof (cayley_scale_pos c) as P. pose proof (C24_cayley2rot_is_rotation c) as [O _].
  rewrite C24_reduced_is_scaled, mv_mscale.
  replace (1 + norm2 c) with (1 + vx c ^ 2 + vy c ^ 2 + vz c ^ 2) by (unfold norm2, dot; ring).
  rewrite <- vscale_sub. set (s := 1 + vx c ^ 2 + vy c ^ 2 + vz c ^ 2) in *. split; intro H.
  - assert (E : X = mv (cayley2rot c) d).
    { assert (Z : vsub X (mv (cayley2rot c) d) = vscale (/ s) v0).
      { rewrite <- H, vscale_scale, Rinv_l, vscale_1 by lra. reflexivity. }
      revert Z. destruct X as [a1 a2 a3], (mv (cayley2rot c) d) as [b1 b2 b3]. lunf. intro Z. injection Z as Z1 Z2 Z3. f_equal; lra. }
    rewrite E, <- mv_mmul, O, mv_id. reflexivity.
  - rewrite H, <- mv_mmul, orth_r, mv_id by auto. destruct X. lunf. f_equal; ring.
Qed.

(** The initial matrix holds exactly the pose equations: its rows vanish at the
    Cayley parameters c and the distances n if and only if some translation
    makes the pose with the transposed Cayley rotation see the three points. *)
Theorem C57_equations : forall f v p c n,
  (forall r, (r < 48)%nat -> row_value 85 gp_mon (gp_x c n) (gp_init f v p) r = 0) <->
  exists t, sees3 f v p (mT (cayley2rot c)) t n.
Proof.
  intros f v p c n. set (Q := mT (cayley2rot c)). set (X := fun i => vadd (vscale (n i) (f i)) (v i)).
  assert (E : forall r, row_value 85 gp_mon (gp_x c n) (gp_init f v p) r = cell_sum gp_mon (gp_x c n) (gp_cells f v p) r)
    by (intro r; apply gcells_value, gp_keys_ok).
  split.
  - intro Z. assert (D : forall a b, (a = 0 /\ b = 1 \/ a = 1 /\ b = 2)%nat -> vsub (p a) (p b) = mv Q (vsub (X a) (X b))).
    { intros a b H. apply gp_eq_iff. assert (K : forall j, (j < 3)%nat -> vnth (gp_eq f v p c n a b) j = 0).
      { intros j Hj. destruct H as [[-> ->]|[-> ->]].
        - rewrite <- (Z j) by lia. rewrite E, gp_rows by lia. do 3 (destruct j as [|j]; [reflexivity|]). lia.
        - rewrite <- (Z (3 + j)%nat) by lia. rewrite E, gp_rows by lia. do 3 (destruct j as [|j]; [reflexivity|]). lia. }
      destruct (gp_eq f v p c n a b) as [x y z]. pose proof (K 0%nat ltac:(lia)) as K0. pose proof (K 1%nat ltac:(lia)) as K1. pose proof (K 2%nat ltac:(lia)) as K2.
      unfold vnth in K0, K1, K2. cbn [nth vx vy vz] in K0, K1, K2. rewrite K0, K1, K2. reflexivity. }
    exists (vsub (p 0%nat) (mv Q (X 0%nat))).
    pose proof (D 0%nat 1%nat ltac:(lia)) as D1. pose proof (D 1%nat 2%nat ltac:(lia)) as D2. rewrite mv_sub in D1, D2.
    intros i Hi. fold (X i). destruct i as [|[|[|i]]]; [| | |lia];
    revert D1 D2; generalize (mv Q (X 0%nat)) (mv Q (X 1%nat)) (mv Q (X 2%nat)) (p 0%nat) (p 1%nat) (p 2%nat);
    intros [a1 a2 a3] [b1 b2 b3] [e1 e2 e3] [p1 p2 p3] [r1 r2 r3] [s1 s2 s3]; lunf; intros D1 D2; injection D1; injection D2; intros; f_equal; lra.
  - intros [t S] r Hr. rewrite E. destruct (Nat.lt_ge_cases r 9) as [L|L]; [|now apply gp_rows0].
    rewrite gp_rows by auto.
    assert (K : forall a b, (a < 3)%nat -> (b < 3)%nat -> gp_eq f v p c n a b = v0).
    { intros a b Ha Hb. apply gp_eq_iff. rewrite (S a Ha), (S b Hb). fold Q. fold (X a) (X b). rewrite mv_sub.
      generalize (mv Q (X a)) (mv Q (X b)). intros [x y z] [x' y' z']. destruct t. lunf. f_equal; ring. }
    rewrite K; [destruct (r mod 3) as [|[|[|?]]]; cbn; auto; now destruct n0| |].
    + apply Nat.div_lt_upper_bound; lia.
    + apply Nat.mod_upper_bound. lia.
Qed.

(** * One eigenvector *)
Lemma gp_scaled s x : s <> c0 -> cdiv (cmul s (RtoC x)) (cmul s (RtoC 1)) = RtoC x.
Proof. intro N. change (RtoC 1) with c1. field. auto. Qed.
(** An eigenvector that is a complex multiple of the monomials at the true
    solution gives exactly the true pose, whatever the multiple. *)
Theorem C57_true_pose : forall f v p Q t n c lam w s, rotation Q -> rot2cayley (mT Q) = Some c ->
  sees3 f v p Q t n -> im lam < 1 / 10000 -> s <> c0 ->
  (forall i, (i < 8)%nat -> w i = cmul s (RtoC (gp_basis c n i))) ->
  gp_column f v p lam w = [Some (Pose Q t)].
Proof.
  intros f v p Q t n c lam w s RQ Hc S L N W. unfold gp_column. destruct (Rlt_dec _ _); [|lra]. f_equal.
  assert (HQ : rotation (mT Q)) by now apply rot_T.
  assert (Ec : cayley2rot c = mT Q).
  { destruct (C25_cayley_of_rot_and_back (mT Q) HQ) as (c'&E1&E2).
    - intro HT. apply C25_half_turn_is_singular in HT. congruence.
    - congruence. }
  rewrite (W 7%nat) by lia. cbn [gp_basis nth]. destruct (ceqb _ c0) as [Z|_].
  { exfalso. apply cmul_eq_0 in Z as [Z|Z]; [contradiction|]. apply RtoC_inj in Z. lra. }
  assert (C : gp_cayley w = c).
  { unfold gp_cayley. rewrite (W 7%nat), (W 6%nat), (W 5%nat), (W 4%nat) by lia. cbn [gp_basis nth].
    rewrite !gp_scaled by auto. now destruct c. }
  assert (D : forall i, (i < 3)%nat -> gp_depth w i = n i).
  { intros i Hi. unfold gp_depth. rewrite (W 7%nat), (W (3 - i)%nat) by lia.
    do 3 (destruct i as [|i]; [cbn [gp_basis nth Nat.sub]; rewrite gp_scaled by auto; reflexivity|]). lia. }
  f_equal. unfold gp_pose. rewrite C, Ec, mT_mT. f_equal.
  rewrite !D by lia. rewrite (S 0%nat), (S 1%nat), (S 2%nat) by lia.
  generalize (mv Q (vadd (vscale (n 0%nat) (f 0%nat)) (v 0%nat))) (mv Q (vadd (vscale (n 1%nat) (f 1%nat)) (v 1%nat))) (mv Q (vadd (vscale (n 2%nat) (f 2%nat)) (v 2%nat))).
  intros [a1 a2 a3] [b1 b2 b3] [e1 e2 e3]. destruct t. lunf. f_equal; lra.
Qed.
(** Whatever the eigenvector, an output pose has a proper rotation and maps the
    centroid of the reconstructed camera points to the centroid of the world
    points. *)
Theorem C57_output : forall f v p lam w P, In (Some P) (gp_column f v p lam w) ->
  rotation (pR P) /\
  vscale (1 / 3) (vadd (vadd (p 0%nat) (p 1%nat)) (p 2%nat)) =
  vadd (mv (pR P) (vscale (1 / 3) (vadd (vadd (vadd (vscale (gp_depth w 0) (f 0%nat)) (v 0%nat))
         (vadd (vscale (gp_depth w 1) (f 1%nat)) (v 1%nat))) (vadd (vscale (gp_depth w 2) (f 2%nat)) (v 2%nat))))) (pt P).
Proof.
  intros f v p lam w P H. unfold gp_column in H. destruct (Rlt_dec _ _); [|destruct H]. destruct H as [H|[]].
  destruct (ceqb _ _); [discriminate|]. injection H as <-. unfold gp_pose. cbn [pR pt].
  split; [apply rot_T, C24_cayley2rot_is_rotation|].
  rewrite mv_scale, !mv_add. generalize (mT (cayley2rot (gp_cayley w))). intro Q.
  generalize (mv Q (vscale (gp_depth w 0) (f 0%nat))) (mv Q (vscale (gp_depth w 1) (f 1%nat))) (mv Q (vscale (gp_depth w 2) (f 2%nat)))
   (mv Q (v 0%nat)) (mv Q (v 1%nat)) (mv Q (v 2%nat)) (p 0%nat) (p 1%nat) (p 2%nat). intros. ldes. lunf. f_equal; ring.
Qed.

(** * The candidate test *)
Theorem C57_real_accepted : forall f v p lam w, im lam = 0 -> length (gp_column f v p lam w) = 1%nat.
Proof. intros f v p lam w H. unfold gp_column. rewrite H. destruct (Rlt_dec _ _); [reflexivity|lra]. Qed.
Theorem C57_positive_rejected : forall f v p lam w, 1 / 10000 <= im lam -> gp_column f v p lam w = [].
Proof. intros f v p lam w H. unfold gp_column. destruct (Rlt_dec _ _); [lra|reflexivity]. Qed.
(** The test is not "nearly real": of two conjugate eigenvalues that are not
    nearly real exactly one is used, the one with negative imaginary part. *)
Theorem C57_conjugate_refuted : forall f v p lam w, ~ nearly_real lam ->
  length (gp_column f v p lam w ++ gp_column f v p (cconj lam) (fun i => cconj (w i))) = 1%nat /\
  (im lam < 0 -> length (gp_column f v p lam w) = 1%nat).
Proof.
  intros f v p lam w H. unfold nearly_real in H. rewrite app_length. unfold gp_column. cbn [cconj im].
  assert (im lam <= - (1 / 10000) \/ 1 / 10000 <= im lam) as [L|L] by (revert H; unfold Rabs; destruct (Rcase_abs _); lra);
  repeat (destruct (Rlt_dec _ _)); cbn; split; intros; auto; lra.
Qed.

(** ** Instances *)
Definition ex_f (i : nat) : vec3 := nth i [V3 1 0 0; V3 0 1 0; V3 0 0 1] v0.
Definition ex_v (i : nat) : vec3 := nth i [V3 0 0 0; V3 1 0 0; V3 0 2 0] v0.
Definition ex_n (i : nat) : R := nth i [3; 4; 5] 0.
Definition ex_Q : mat3 := mT (cayley2rot (V3 1 2 3)).
Definition ex_t : vec3 := V3 7 8 9.
Definition ex_p (i : nat) : vec3 := vadd (mv ex_Q (vadd (vscale (ex_n i) (ex_f i)) (ex_v i))) ex_t.
Example C57_equations_nonvacuous : exists t, sees3 ex_f ex_v ex_p (mT (cayley2rot (V3 1 2 3))) t ex_n.
Proof. exists ex_t. intros i _. reflexivity. Qed.
Example C57_true_pose_nonvacuous : rotation ex_Q /\ rot2cayley (mT ex_Q) = Some (V3 1 2 3) /\ sees3 ex_f ex_v ex_p ex_Q ex_t ex_n /\
  gp_column ex_f ex_v ex_p (RtoC 1) (fun i => cmul (Cx 0 2) (RtoC (gp_basis (V3 1 2 3) ex_n i))) = [Some (Pose ex_Q ex_t)].
Proof.
  assert (A : rotation ex_Q) by apply rot_T, C24_cayley2rot_is_rotation.
  assert (B : rot2cayley (mT ex_Q) = Some (V3 1 2 3)) by (unfold ex_Q; rewrite mT_mT; apply C25_rot_of_cayley_and_back).
  assert (C : sees3 ex_f ex_v ex_p ex_Q ex_t ex_n) by (intros i _; reflexivity).
  split; auto. split; auto. split; auto. apply (C57_true_pose _ _ _ ex_Q ex_t ex_n (V3 1 2 3) _ _ (Cx 0 2)); auto.
  - cbn. lra.
  - intro H. injection H. lra.
Qed.
Example C57_conjugate_refuted_nonvacuous : ~ nearly_real (Cx 1 (-5)) /\
  length (gp_column ex_f ex_v ex_p (Cx 1 (-5)) (fun _ => c1)) = 1%nat.
Proof.
  assert (N : ~ nearly_real (Cx 1 (-5))) by (unfold nearly_real, Rabs; cbn [im]; destruct (Rcase_abs _); lra).
  split; auto. apply (C57_conjugate_refuted ex_f ex_v ex_p _ (fun _ => c1) N). cbn. lra.
Qed.
