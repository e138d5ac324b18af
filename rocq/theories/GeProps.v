(** The generalized eigensolver: composeG is the sum of squared generalized
    epipolar constraints, its Jacobians, and what ge returns (C47). *)
From Coq Require Import Reals List Lra Psatz Lia Permutation Sorting.Sorted.
From Verif Require Import Lin GenLin GenSpectral RotModel RotProps Spectral EigSums EigGen EigAlg EigProps EigJac GeSums GeGen GeAlg GeModel.
Import ListNotations.
Local Open Scope R_scope.

(** * Specification *)
(** The rays of a correspondence meet: under the pose (A, t) of viewpoint 2 in
    viewpoint 1, the point at depth d1 along the first ray is the point at depth
    d2 along the second. *)
Definition gsees (A : mat3) (t : vec3) (q : gcorr) (d1 d2 : R) : Prop :=
  vadd (gt1 q) (vscale d1 (gf1 q)) = vadd t (mv A (vadd (gt2 q) (vscale d2 (gf2 q)))).
(** Generalized epipolar constraint for the translation t given as homogeneous
    vector (t, s): the offset s(A t2 - t1) + t is coplanar with both rays. *)
Definition gconstraint (A : mat3) (t : vec3) (s : R) (q : gcorr) : R :=
  dot (vadd t (vscale s (vsub (mv A (gt2 q)) (gt1 q)))) (cross (gf1 q) (mv A (gf2 q))).
(** first three entries of a 4-vector; the 4-vector (t, s) *)
Definition xyz (x : nat -> R) : vec3 := V3 (x 0%nat) (x 1%nat) (x 2%nat).
Definition hom (t : vec3) (s : R) : nat -> R := fun i => nth i [vx t; vy t; vz t; s] 0.
(** what EigenSolver returns for a symmetric 4x4 matrix: four independent unit
    eigenvectors with their eigenvalues *)
Definition good_eig4 (eig : (nat -> nat -> R) -> list gpair) : Prop := forall G, sym 4 G ->
  length (eig G) = 4%nat /\
  (forall p, In p (eig G) -> vdot 4 (fst p) (fst p) = 1 /\ forall i, (i < 4)%nat -> mvec 4 G (fst p) i = snd p * fst p i) /\
  (forall x, exists a : list R, length a = 4%nat /\
     forall i, (i < 4)%nat -> x i = rsum (map (fun ap => fst ap * fst (snd ap) i) (combine a (eig G)))) /\
  (forall a : list R, length a = 4%nat ->
     (forall i, (i < 4)%nat -> rsum (map (fun ap => fst ap * fst (snd ap) i) (combine a (eig G))) = 0) -> forall r, In r a -> r = 0).
Definition good_gsort (sort : list gpair -> list gpair) : Prop := forall l,
  Permutation l (sort l) /\ StronglySorted (fun p q => snd p >= snd q) (sort l).

(** * composeG *)
Lemma gvec0_spec c q x : sumn 4 (fun i => gvec0 (cayley2rot_reduced c) q i * x i) = (1 + norm2 c) * gconstraint (cayley2rot c) (xyz x) (x 3%nat) q.
Proof.
  rewrite C24_reduced_is_scaled. unfold gconstraint. cbn [sumn gvec0]. rewrite !mv_mscale, rot_cross by apply C24_cayley2rot_is_rotation.
  generalize (mv (cayley2rot c) (gf2 q)) (mv (cayley2rot c) (gt2 q)) (1 + norm2 c). intros g h s. unfold xyz.
  generalize (x 0%nat) (x 1%nat) (x 2%nat) (x 3%nat) (gf1 q) (gt1 q). clear. intros. destruct g, h, v, v0. lunf. cbn. ring.
Qed.
Lemma G_mvec l c x i : (i < 4)%nat -> mvec 4 (composeG (gs_accumulate l) c) x i =
  (1 + norm2 c) * rsum (map (fun q => gw q * gvec0 (cayley2rot_reduced c) q i * gconstraint (cayley2rot c) (xyz x) (x 3%nat) q) l).
Proof.
  intro Hi. unfold mvec, vdot.
  rewrite (sumn_ext 4 _ (fun j => rsum (map (fun q => gw q * gvec0 (cayley2rot_reduced c) q i * (gvec0 (cayley2rot_reduced c) q j * x j)) l))).
  - induction l as [|q l IH]; cbn [map]; sums; [rewrite sumn_0; [ring|]; intros; sums; reflexivity|].
    rewrite (sumn_ext 4 _ (fun j => gw q * gvec0 (cayley2rot_reduced c) q i * (gvec0 (cayley2rot_reduced c) q j * x j) + rsum (map (fun q => gw q * gvec0 (cayley2rot_reduced c) q i * (gvec0 (cayley2rot_reduced c) q j * x j)) l))) by (intros; sums; reflexivity).
    rewrite sumn_add, IH, sumn_scale, gvec0_spec. ring.
  - intros j Hj. rewrite composeG_sum by auto. rewrite Rmult_comm. clear. induction l as [|q l IH]; cbn [map]; sums; [ring|]. rewrite Rmult_plus_distr_l, IH. ring.
Qed.

(** the quadratic form of composeG is, up to the positive factor
    (1+|c|^2)^2, the weighted sum of squares of the constraints, and the matrix
    is symmetric; together these determine it *)
Theorem C47_composeG_is_constraint_sum : forall l c x,
  sym 4 (composeG (gs_accumulate l) c) /\
  bil 4 (composeG (gs_accumulate l) c) x x =
    (1 + norm2 c) ^ 2 * rsum (map (fun q => gw q * gconstraint (cayley2rot c) (xyz x) (x 3%nat) q ^ 2) l).
Proof.
  intros l c x. split.
  - intros i j Hi Hj. rewrite !composeG_sum by auto. f_equal. apply map_ext. intros; ring.
  - unfold bil, vdot. rewrite (sumn_ext 4 _ (fun i => (1 + norm2 c) * rsum (map (fun q => gw q * (gvec0 (cayley2rot_reduced c) q i * x i) * gconstraint (cayley2rot c) (xyz x) (x 3%nat) q) l))).
    + rewrite sumn_scale. replace ((1 + norm2 c) ^ 2) with ((1 + norm2 c) * (1 + norm2 c)) by ring. rewrite Rmult_assoc. f_equal.
      induction l as [|q l IH]; cbn [map]; sums; [rewrite sumn_0; [ring|]; intros; sums; reflexivity|].
      rewrite (sumn_ext 4 _ (fun i => gw q * gconstraint (cayley2rot c) (xyz x) (x 3%nat) q * (gvec0 (cayley2rot_reduced c) q i * x i) + rsum (map (fun q => gw q * (gvec0 (cayley2rot_reduced c) q i * x i) * gconstraint (cayley2rot c) (xyz x) (x 3%nat) q) l))) by (intros; sums; ring).
      rewrite sumn_add, IH, sumn_scale, gvec0_spec. ring.
    + intros i Hi. rewrite G_mvec by auto. rewrite <- Rmult_assoc, (Rmult_comm (x i)), Rmult_assoc. f_equal.
      clear. induction l as [|q l IH]; cbn [map]; sums; [ring|]. rewrite Rmult_plus_distr_l, IH. ring.
Qed.
Theorem C47_psd : forall l c, (forall q, In q l -> 0 <= gw q) -> psd 4 (composeG (gs_accumulate l) c).
Proof.
  intros l c W x. destruct (C47_composeG_is_constraint_sum l c x) as (_ & ->). apply Rmult_le_pos; [apply Rlt_le, scale_pos|].
  apply rsum_nonneg. intros y Hy. apply in_map_iff in Hy as (q & <- & Hq). apply Rmult_le_pos; auto. apply pow2_ge_0.
Qed.
(** its kernel: the homogeneous translations meeting all constraints *)
Theorem C47_kernel : forall l c x, (forall q, In q l -> 0 < gw q) ->
  (forall i, (i < 4)%nat -> mvec 4 (composeG (gs_accumulate l) c) x i = 0) <->
  (forall q, In q l -> gconstraint (cayley2rot c) (xyz x) (x 3%nat) q = 0).
Proof.
  intros l c x W. split.
  - intros E q Hq. assert (K : bil 4 (composeG (gs_accumulate l) c) x x = 0).
    { unfold bil, vdot. apply sumn_0. intros i Hi. rewrite E by auto. ring. }
    rewrite (proj2 (C47_composeG_is_constraint_sum l c x)) in K. pose proof (scale_pos c) as SP.
    apply Rmult_integral in K as [K|K]; [lra|].
    assert (Z : gw q * gconstraint (cayley2rot c) (xyz x) (x 3%nat) q ^ 2 = 0).
    { refine (rsum_nonneg_zero _ _ K _ _).
      - intros y Hy. apply in_map_iff in Hy as (p & <- & Hp). specialize (W p Hp). apply Rmult_le_pos; [lra|apply pow2_ge_0].
      - apply (in_map (fun q => gw q * gconstraint (cayley2rot c) (xyz x) (x 3%nat) q ^ 2)); auto. }
    specialize (W q Hq). apply Rmult_integral in Z as [Z|Z]; [lra|]. nra.
  - intros H i Hi. rewrite G_mvec by auto. apply Rmult_eq_0_compat_l. clear W. induction l as [|q l IH]; cbn [map]; sums; [reflexivity|].
    rewrite H by now left. rewrite IH by (intros; apply H; now right). ring.
Qed.
Lemma gsees_constraint A t q d1 d2 : gsees A t q d1 d2 -> gconstraint A t 1 q = 0.
Proof.
  unfold gsees, gconstraint. destruct q as [w f1 t1 f2 t2]. cbn [gf1 gt1 gf2 gt2]. rewrite mv_add, mv_scale.
  generalize (mv A f2) (mv A t2). intros g h H.
  assert (E : vadd t (vscale 1 (vsub h t1)) = vsub (vscale d1 f1) (vscale d2 g)).
  { transitivity (vsub (vadd t (vadd h (vscale d2 g))) (vadd t1 (vscale d2 g))); [clear; lring|]. rewrite <- H. clear. lring. }
  rewrite E. clear. lring.
Qed.
(** noise-free data: the true translation is in the kernel at the true rotation *)
Theorem C47_true_pose : forall l c t, (forall q, In q l -> 0 < gw q) ->
  (forall q, In q l -> exists d1 d2, gsees (cayley2rot c) t q d1 d2) ->
  forall i, (i < 4)%nat -> mvec 4 (composeG (gs_accumulate l) c) (hom t 1) i = 0.
Proof.
  intros l c t W H. apply C47_kernel; auto. intros q Hq. destruct (H q Hq) as (d1 & d2 & S).
  apply gsees_constraint with d1 d2. destruct t; exact S.
Qed.

(** * Jacobians *)
Definition sym9 (A : nat -> nat -> R) : Prop := forall i j, A i j = A j i.
Lemma gsums_symmetric l : sym_sums (gs_accumulate l) /\ sym9 (m11P (gs_accumulate l)) /\ sym9 (m22P (gs_accumulate l)).
Proof.
  unfold gs_accumulate.
  assert (E : forall S : gsums, sym_sums S /\ sym9 (m11P S) /\ sym9 (m22P S) ->
    let T := fold_left gs_step l S in sym_sums T /\ sym9 (m11P T) /\ sym9 (m22P T)).
  { induction l as [|q l IH]; intros S HS; cbv zeta; cbn [fold_left]; [exact HS|]. apply IH. destruct HS as (H1 & H2 & H3).
    split; [|split].
    - destruct H1 as (A & B & C & D & E & F). destruct q as [w f1 t1 f2 t2]. cbn [gs_step gf gw gf1 gf2 fs_step xxF yyF zzF xyF yzF zxF].
      assert (K : forall M k, symmetric M -> symmetric (madd M (mscale k (outer f2 f2)))).
      { clear. unfold symmetric. intros M k H. transitivity (madd (mT M) (mscale k (outer f2 f2))); [lring|now rewrite H]. }
      repeat split; apply K; auto.
    - intros i j. cbn. unfold sub2, outer2. rewrite (H2 i j). ring.
    - intros i j. cbn. unfold sub2, outer2. rewrite (H3 i j). ring. }
  apply E. repeat split; try (unfold symmetric; cbn; lring).
Qed.
Theorem C47_same_matrix : forall l c i j, (i < 4)%nat -> (j < 4)%nat ->
  composeGJ (gs_accumulate l) c i j = composeG (gs_accumulate l) c i j.
Proof.
  intros l c i j Hi Hj. destruct (gsums_symmetric l) as ((_ & _ & _ & S4 & _) & _). revert S4. generalize (gs_accumulate l). intros S S4.
  unfold composeG, composeGJ.
  assert (E : bf 3 3 (rw (cayley2rot_reduced c) 0) (mget (xyF S)) (rw (cayley2rot_reduced c) 2) = bf 3 3 (rw (cayley2rot_reduced c) 2) (mget (xyF S)) (rw (cayley2rot_reduced c) 0)).
  { apply bf_sym. intros. now apply mget_sym. }
  destruct i as [|[|[|[|i]]]]; try lia; destruct j as [|[|[|[|j]]]]; try lia; cbn [nth]; rewrite ?E; ring.
Qed.
Definition G_jac (k : nat) : gsums -> vec3 -> nat -> nat -> R := match k with O => G_jac1 | 1%nat => G_jac2 | _ => G_jac3 end.
Lemma D_cols k c i : D (fun x => cols9 (cayley2rot_reduced (put c k x)) i) (cget c k) (cols9 (R_jac k c) i).
Proof. unfold cols9. apply D_rot. Qed.
Lemma D_rows k c i : D (fun x => rows9 (cayley2rot_reduced (put c k x)) i) (cget c k) (rows9 (R_jac k c) i).
Proof. unfold rows9. apply D_rot. Qed.
(** the same for any pair of the three kinds of vectors *)
Inductive gsel := Row (a : nat) | Rows | Cols.
Definition sel (s : gsel) (A : mat3) : nat -> R := match s with Row a => rw A a | Rows => rows9 A | Cols => cols9 A end.
Lemma D_sel s k c i : D (fun x => sel s (cayley2rot_reduced (put c k x)) i) (cget c k) (sel s (R_jac k c) i).
Proof. destruct s; [apply D_rot|apply D_rows|apply D_cols]. Qed.
Lemma D_gquad s1 s2 m n k c A :
  D (fun x => bf m n (sel s1 (cayley2rot_reduced (put c k x))) A (sel s2 (cayley2rot_reduced (put c k x)))) (cget c k)
    (bf m n (sel s1 (R_jac k c)) A (sel s2 (cayley2rot_reduced c)) + bf m n (sel s1 (cayley2rot_reduced c)) A (sel s2 (R_jac k c))).
Proof.
  pose proof (D_bf m n (fun x => sel s1 (cayley2rot_reduced (put c k x))) (fun x => sel s2 (cayley2rot_reduced (put c k x))) (sel s1 (R_jac k c)) (sel s2 (R_jac k c)) A (cget c k)) as H.
  cbv beta in H. rewrite put_get in H. apply H; intros i _; apply D_sel.
Qed.
Ltac gs u := lazymatch u with fun x => rw _ ?a => constr:(Row a) | fun x => rows9 _ => constr:(Rows) | fun x => cols9 _ => constr:(Cols) end.
Ltac DG := match goal with
  | |- D (fun x => @?f x + @?g x) _ _ => eapply (D_plus f g); [DG|DG]
  | |- D (fun x => ?a * @?f x) _ _ => eapply (D_scal a f); DG
  | |- D (fun x => bf ?m ?n (@?u x) ?A (@?v x)) (cget ?c ?k) _ => let a := gs u in let b := gs v in exact (D_gquad a b m n k c A)
  end.
(** every entry of the Jacobians is the partial derivative of the entry of
    composeG *)
Theorem C47_jacobian : forall l c k i j, (k < 3)%nat -> (i < 4)%nat -> (j < 4)%nat ->
  D (fun x => composeG (gs_accumulate l) (put c k x) i j) (cget c k) (G_jac k (gs_accumulate l) c i j).
Proof.
  intros l c k i j Hk Hi Hj. destruct (gsums_symmetric l) as ((S1 & S2 & S3 & S4 & S5 & S6) & T1 & T2).
  revert S1 S2 S3 S4 S5 S6 T1 T2. generalize (gs_accumulate l). clear l. intros S S1 S2 S3 S4 S5 S6 T1 T2.
  assert (E : forall F, symmetric F -> forall a b, bf 3 3 (rw (cayley2rot_reduced c) a) (mget F) (rw (R_jac k c) b) = bf 3 3 (rw (R_jac k c) b) (mget F) (rw (cayley2rot_reduced c) a)).
  { intros F HF a b. apply bf_sym. intros. now apply mget_sym. }
  pose proof (E _ S1) as E1. pose proof (E _ S2) as E2. pose proof (E _ S3) as E3. pose proof (E _ S4) as E4. pose proof (E _ S5) as E5. pose proof (E _ S6) as E6. clear E.
  assert (E7 : bf 9 9 (cols9 (cayley2rot_reduced c)) (m11P S) (cols9 (R_jac k c)) = bf 9 9 (cols9 (R_jac k c)) (m11P S) (cols9 (cayley2rot_reduced c))) by (apply bf_sym; intros; apply T1).
  assert (E8 : bf 9 9 (rows9 (cayley2rot_reduced c)) (m22P S) (rows9 (R_jac k c)) = bf 9 9 (rows9 (R_jac k c)) (m22P S) (rows9 (cayley2rot_reduced c))) by (apply bf_sym; intros; apply T2).
  clear S1 S2 S3 S4 S5 S6 T1 T2.
  destruct i as [|[|[|[|i]]]]; try lia; destruct j as [|[|[|[|j]]]]; try lia; unfold composeG; cbn [nth].
  all: eapply D_val; [|DG].
  all: destruct k as [|[|[|k]]]; [| | |lia]; cbn [G_jac R_jac sel] in *.
  all: unfold G_jac1, G_jac2, G_jac3; cbn [nth].
  all: rewrite ?E1, ?E2, ?E3, ?E4, ?E5, ?E6, ?E7, ?E8; ring.
Qed.
