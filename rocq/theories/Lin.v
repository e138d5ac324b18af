(** Three-vectors and 3x3 matrices over the reals: the part of Eigen
    (Vector3d, Matrix3d: typedefs in include/opengv/types.hpp 55-130) that the
    modelled code uses, with doubles idealised to exact reals. *)
From Coq Require Import Reals Lra Lia List.
Import ListNotations.
Local Open Scope R_scope.

Record vec3 := V3 { vx : R; vy : R; vz : R }.
Record mat3 := M3 { m00 : R; m01 : R; m02 : R;
                    m10 : R; m11 : R; m12 : R;
                    m20 : R; m21 : R; m22 : R }.

Definition v0 : vec3 := V3 0 0 0.
Definition vadd (a b : vec3) := V3 (vx a + vx b) (vy a + vy b) (vz a + vz b).
Definition vsub (a b : vec3) := V3 (vx a - vx b) (vy a - vy b) (vz a - vz b).
Definition vneg (a : vec3) := V3 (- vx a) (- vy a) (- vz a).
Definition vscale (s : R) (a : vec3) := V3 (s * vx a) (s * vy a) (s * vz a).
Definition vdivs (a : vec3) (s : R) := V3 (vx a / s) (vy a / s) (vz a / s).
Definition dot (a b : vec3) : R := vx a * vx b + vy a * vy b + vz a * vz b.
Definition cross (a b : vec3) := V3 (vy a * vz b - vz a * vy b)
                                    (vz a * vx b - vx a * vz b)
                                    (vx a * vy b - vy a * vx b).
Definition norm2 (a : vec3) : R := dot a a.
(** Eigen's norm() and the expression v / v.norm(). *)
Definition norm (a : vec3) : R := sqrt (norm2 a).
Definition normalized (a : vec3) : vec3 := vdivs a (norm a).
Definition vget (a : vec3) (i : nat) : R :=
  match i with O => vx a | S O => vy a | _ => vz a end.

Definition mid : mat3 := M3 1 0 0 0 1 0 0 0 1.
Definition mzero : mat3 := M3 0 0 0 0 0 0 0 0 0.
Definition diag (a b c : R) : mat3 := M3 a 0 0 0 b 0 0 0 c.
Definition mT (A : mat3) : mat3 :=
  M3 (m00 A) (m10 A) (m20 A) (m01 A) (m11 A) (m21 A) (m02 A) (m12 A) (m22 A).
Definition madd (A B : mat3) : mat3 :=
  M3 (m00 A + m00 B) (m01 A + m01 B) (m02 A + m02 B)
     (m10 A + m10 B) (m11 A + m11 B) (m12 A + m12 B)
     (m20 A + m20 B) (m21 A + m21 B) (m22 A + m22 B).
Definition msub (A B : mat3) : mat3 :=
  M3 (m00 A - m00 B) (m01 A - m01 B) (m02 A - m02 B)
     (m10 A - m10 B) (m11 A - m11 B) (m12 A - m12 B)
     (m20 A - m20 B) (m21 A - m21 B) (m22 A - m22 B).
Definition mscale (s : R) (A : mat3) : mat3 :=
  M3 (s * m00 A) (s * m01 A) (s * m02 A)
     (s * m10 A) (s * m11 A) (s * m12 A)
     (s * m20 A) (s * m21 A) (s * m22 A).
Definition mneg (A : mat3) : mat3 := mscale (-1) A.
Definition mmul (A B : mat3) : mat3 :=
  M3 (m00 A * m00 B + m01 A * m10 B + m02 A * m20 B)
     (m00 A * m01 B + m01 A * m11 B + m02 A * m21 B)
     (m00 A * m02 B + m01 A * m12 B + m02 A * m22 B)
     (m10 A * m00 B + m11 A * m10 B + m12 A * m20 B)
     (m10 A * m01 B + m11 A * m11 B + m12 A * m21 B)
     (m10 A * m02 B + m11 A * m12 B + m12 A * m22 B)
     (m20 A * m00 B + m21 A * m10 B + m22 A * m20 B)
     (m20 A * m01 B + m21 A * m11 B + m22 A * m21 B)
     (m20 A * m02 B + m21 A * m12 B + m22 A * m22 B).
Definition mv (A : mat3) (a : vec3) : vec3 :=
  V3 (m00 A * vx a + m01 A * vy a + m02 A * vz a)
     (m10 A * vx a + m11 A * vy a + m12 A * vz a)
     (m20 A * vx a + m21 A * vy a + m22 A * vz a).
Definition det (A : mat3) : R :=
    m00 A * (m11 A * m22 A - m12 A * m21 A)
  - m01 A * (m10 A * m22 A - m12 A * m20 A)
  + m02 A * (m10 A * m21 A - m11 A * m20 A).
Definition trace (A : mat3) : R := m00 A + m11 A + m22 A.
Definition outer (a b : vec3) : mat3 :=
  M3 (vx a * vx b) (vx a * vy b) (vx a * vz b)
     (vy a * vx b) (vy a * vy b) (vy a * vz b)
     (vz a * vx b) (vz a * vy b) (vz a * vz b).
Definition skew (a : vec3) : mat3 :=
  M3 0 (- vz a) (vy a) (vz a) 0 (- vx a) (- vy a) (vx a) 0.
Definition col (A : mat3) (i : nat) : vec3 :=
  match i with O => V3 (m00 A) (m10 A) (m20 A)
             | S O => V3 (m01 A) (m11 A) (m21 A)
             | _ => V3 (m02 A) (m12 A) (m22 A) end.
Definition row (A : mat3) (i : nat) : vec3 := col (mT A) i.
Definition of_cols (a b c : vec3) : mat3 :=
  M3 (vx a) (vx b) (vx c) (vy a) (vy b) (vy c) (vz a) (vz b) (vz c).
Definition of_rows (a b c : vec3) : mat3 := mT (of_cols a b c).
Definition mget (A : mat3) (i j : nat) : R := vget (row A i) j.
(** Adjugate; inverse = adjugate / determinant (Eigen's fixed-size inverse()). *)
Definition adj (A : mat3) : mat3 :=
  M3 (m11 A * m22 A - m12 A * m21 A) (m02 A * m21 A - m01 A * m22 A) (m01 A * m12 A - m02 A * m11 A)
     (m12 A * m20 A - m10 A * m22 A) (m00 A * m22 A - m02 A * m20 A) (m02 A * m10 A - m00 A * m12 A)
     (m10 A * m21 A - m11 A * m20 A) (m01 A * m20 A - m00 A * m21 A) (m00 A * m11 A - m01 A * m10 A).
Definition minv (A : mat3) : mat3 := mscale (/ det A) (adj A).

Definition vsum (l : list vec3) : vec3 := fold_right vadd v0 l.
Definition msum (l : list mat3) : mat3 := fold_right madd mzero l.
Definition rsum (l : list R) : R := fold_right Rplus 0 l.

(** * Notions used in statements *)
Definition orthogonal (A : mat3) : Prop := mmul (mT A) A = mid.
Definition rotation (A : mat3) : Prop := orthogonal A /\ det A = 1.
Definition unit (a : vec3) : Prop := norm2 a = 1.
Definition parallel (a b : vec3) : Prop := cross a b = v0.

Definition lin_unfold := tt.
Ltac lunf :=
  unfold orthogonal, unit, parallel, norm2, minv, mneg, of_rows, row, mget in *;
  unfold v0, vadd, vsub, vneg, vscale, vdivs, dot, cross, mid, mzero, diag, mT, madd, msub, mscale, mmul, mv,
    det, trace, outer, skew, col, of_cols, adj, vget in *;
  cbn [vx vy vz m00 m01 m02 m10 m11 m12 m20 m21 m22] in *.
Ltac ldes :=
  repeat match goal with
  | a : vec3 |- _ => destruct a
  | A : mat3 |- _ => destruct A
  end.
(** Prove an identity between vectors / matrices / scalars, coordinate by coordinate. *)
Ltac clear_props := repeat match goal with H : ?P |- _ => match type of P with Prop => clear H end end.
Ltac lring := intros; clear_props; ldes; lunf; match goal with |- @eq R _ _ => ring | _ => f_equal; ring end.
Ltac lfield := intros; ldes; lunf; match goal with |- @eq R _ _ => field | _ => f_equal; field end.
Ltac linj H := injection H; clear H; intros.

Lemma vext a b : vx a = vx b -> vy a = vy b -> vz a = vz b -> a = b.
Proof. destruct a, b; cbn; intros; subst; auto. Qed.

(** ** Vector identities *)
Lemma dot_comm a b : dot a b = dot b a. Proof. lring. Qed.
Lemma dot_add_l a b c : dot (vadd a b) c = dot a c + dot b c. Proof. lring. Qed.
Lemma dot_add_r a b c : dot a (vadd b c) = dot a b + dot a c. Proof. lring. Qed.
Lemma dot_sub_l a b c : dot (vsub a b) c = dot a c - dot b c. Proof. lring. Qed.
Lemma dot_sub_r a b c : dot a (vsub b c) = dot a b - dot a c. Proof. lring. Qed.
Lemma dot_scale_l s a b : dot (vscale s a) b = s * dot a b. Proof. lring. Qed.
Lemma dot_scale_r s a b : dot a (vscale s b) = s * dot a b. Proof. lring. Qed.
Lemma cross_anti a b : cross a b = vneg (cross b a). Proof. lring. Qed.
Lemma cross_self a : cross a a = v0. Proof. lring. Qed.
Lemma dot_cross_l a b : dot a (cross a b) = 0. Proof. lring. Qed.
Lemma dot_cross_r a b : dot b (cross a b) = 0. Proof. lring. Qed.
Lemma triple_cycle a b c : dot a (cross b c) = dot b (cross c a). Proof. lring. Qed.
Lemma lagrange a b : norm2 (cross a b) = norm2 a * norm2 b - dot a b * dot a b. Proof. lring. Qed.
Lemma cross_cross a b c : cross a (cross b c) = vsub (vscale (dot a c) b) (vscale (dot a b) c).
Proof. lring. Qed.
Lemma cross_scale_l s a b : cross (vscale s a) b = vscale s (cross a b). Proof. lring. Qed.
Lemma cross_scale_r s a b : cross a (vscale s b) = vscale s (cross a b). Proof. lring. Qed.
Lemma cross_add_l a b c : cross (vadd a b) c = vadd (cross a c) (cross b c). Proof. lring. Qed.
Lemma cross_add_r a b c : cross a (vadd b c) = vadd (cross a b) (cross a c). Proof. lring. Qed.
Lemma cross_sub_l a b c : cross (vsub a b) c = vsub (cross a c) (cross b c). Proof. lring. Qed.
Lemma cross_sub_r a b c : cross a (vsub b c) = vsub (cross a b) (cross a c). Proof. lring. Qed.
Lemma vadd_comm a b : vadd a b = vadd b a. Proof. lring. Qed.
Lemma vadd_assoc a b c : vadd a (vadd b c) = vadd (vadd a b) c. Proof. lring. Qed.
Lemma vadd_0_l a : vadd v0 a = a. Proof. destruct a; lunf; f_equal; ring. Qed.
Lemma vadd_0_r a : vadd a v0 = a. Proof. destruct a; lunf; f_equal; ring. Qed.
Lemma vsub_self a : vsub a a = v0. Proof. lring. Qed.
Lemma vsub_add a b : vadd (vsub a b) b = a. Proof. destruct a, b; lunf; f_equal; ring. Qed.
Lemma vadd_sub a b : vsub (vadd a b) b = a. Proof. destruct a, b; lunf; f_equal; ring. Qed.
Lemma vscale_1 a : vscale 1 a = a. Proof. destruct a; lunf; f_equal; ring. Qed.
Lemma vscale_0 a : vscale 0 a = v0. Proof. lring. Qed.
Lemma vscale_scale s t a : vscale s (vscale t a) = vscale (s * t) a. Proof. lring. Qed.
Lemma vscale_add s a b : vscale s (vadd a b) = vadd (vscale s a) (vscale s b). Proof. lring. Qed.
Lemma vscale_sub s a b : vscale s (vsub a b) = vsub (vscale s a) (vscale s b). Proof. lring. Qed.
Lemma vscale_add_l s t a : vscale (s + t) a = vadd (vscale s a) (vscale t a). Proof. lring. Qed.
Lemma vdivs_scale a s : vdivs a s = vscale (/ s) a. Proof. destruct a; lunf; f_equal; apply Rmult_comm. Qed.

Lemma sq_nonneg x : 0 <= x * x.
Proof. pose proof (Rle_0_sqr x) as H. exact H. Qed.

Lemma norm2_nonneg a : 0 <= norm2 a.
Proof.
  destruct a; lunf. pose proof (sq_nonneg vx0); pose proof (sq_nonneg vy0); pose proof (sq_nonneg vz0). lra.
Qed.
Lemma norm2_zero a : norm2 a = 0 -> a = v0.
Proof.
  destruct a as [x y z]; lunf. intro H.
  pose proof (sq_nonneg x); pose proof (sq_nonneg y); pose proof (sq_nonneg z).
  assert (x * x = 0) by lra. assert (y * y = 0) by lra. assert (z * z = 0) by lra.
  f_equal; nra.
Qed.
Lemma norm2_pos a : a <> v0 -> 0 < norm2 a.
Proof.
  intro H. destruct (Rtotal_order 0 (norm2 a)) as [?|[E|?]]; auto.
  - symmetry in E. apply norm2_zero in E. contradiction.
  - pose proof (norm2_nonneg a). lra.
Qed.
Lemma norm2_scale s a : norm2 (vscale s a) = s * s * norm2 a. Proof. lring. Qed.

Lemma norm_sq a : norm a * norm a = norm2 a.
Proof. apply sqrt_sqrt, norm2_nonneg. Qed.
Lemma norm_nonneg a : 0 <= norm a.
Proof. apply sqrt_pos. Qed.
Lemma norm_pos a : a <> v0 -> 0 < norm a.
Proof. intro H. apply sqrt_lt_R0. now apply norm2_pos. Qed.
Lemma norm_unit a : unit a -> norm a = 1.
Proof. unfold unit, norm. intros ->. apply sqrt_1. Qed.
Lemma norm_scale s a : norm (vscale s a) = Rabs s * norm a.
Proof.
  unfold norm. rewrite norm2_scale, sqrt_mult.
  - f_equal. rewrite <- sqrt_Rsqr_abs. reflexivity.
  - apply sq_nonneg.
  - apply norm2_nonneg.
Qed.
Lemma normalized_unit a : a <> v0 -> unit (normalized a).
Proof.
  intro H. pose proof (norm_pos a H) as P. unfold unit, normalized. rewrite vdivs_scale, norm2_scale, <- norm_sq.
  field. lra.
Qed.
Lemma normalized_of_unit a : unit a -> normalized a = a.
Proof. intro H. unfold normalized. rewrite (norm_unit a H). destruct a; lunf; f_equal; field. Qed.
Lemma normalized_scale_pos s a : 0 < s -> a <> v0 -> normalized (vscale s a) = normalized a.
Proof.
  intros Hs Ha. unfold normalized. rewrite norm_scale, Rabs_pos_eq by lra. pose proof (norm_pos a Ha).
  destruct a; lunf. f_equal; field; lra.
Qed.
Lemma normalized_scale_neg s a : s < 0 -> a <> v0 -> normalized (vscale s a) = vneg (normalized a).
Proof.
  intros Hs Ha. unfold normalized. rewrite norm_scale, Rabs_left by lra. pose proof (norm_pos a Ha).
  destruct a; lunf. f_equal; field; lra.
Qed.
Lemma norm_normalized a : a <> v0 -> a = vscale (norm a) (normalized a).
Proof. intro H. pose proof (norm_pos a H). unfold normalized. destruct a; lunf. f_equal; field; lra. Qed.
Lemma unit_nonzero a : unit a -> a <> v0.
Proof. intros H ->. lunf. lra. Qed.

(** Cauchy-Schwarz for unit vectors. *)
Lemma unit_dot_bound a b : unit a -> unit b -> -1 <= dot a b <= 1.
Proof.
  intros Ha Hb. pose proof (norm2_nonneg (vsub a b)) as P. pose proof (norm2_nonneg (vadd a b)) as Q.
  replace (norm2 (vsub a b)) with (norm2 a + norm2 b - 2 * dot a b) in P by lring.
  replace (norm2 (vadd a b)) with (norm2 a + norm2 b + 2 * dot a b) in Q by lring.
  unfold unit in *. lra.
Qed.
Lemma unit_dot_1 a b : unit a -> unit b -> (dot a b = 1 <-> a = b).
Proof.
  intros Ha Hb. split.
  - intro H. assert (E : norm2 (vsub a b) = 0).
    { replace (norm2 (vsub a b)) with (norm2 a + norm2 b - 2 * dot a b) by lring. unfold unit in *. lra. }
    apply norm2_zero in E. rewrite <- (vsub_add a b), E. apply vadd_0_l.
  - intros ->. exact Hb.
Qed.
Lemma vneg_vneg a : vneg (vneg a) = a. Proof. destruct a; lunf; f_equal; ring. Qed.
Lemma unit_neg a : unit a -> unit (vneg a).
Proof. unfold unit. intros <-. lring. Qed.
Lemma unit_dot_m1 a b : unit a -> unit b -> (dot a b = -1 <-> a = vneg b).
Proof.
  intros Ha Hb. rewrite <- (unit_dot_1 a (vneg b)) by auto using unit_neg.
  replace (dot a (vneg b)) with (- dot a b) by lring. split; lra.
Qed.

(** ** Matrix identities *)
Lemma mmul_assoc A B C : mmul A (mmul B C) = mmul (mmul A B) C. Proof. lring. Qed.
Lemma mmul_id_l A : mmul mid A = A. Proof. destruct A; lunf; f_equal; ring. Qed.
Lemma mmul_id_r A : mmul A mid = A. Proof. destruct A; lunf; f_equal; ring. Qed.
Lemma mv_mmul A B v : mv (mmul A B) v = mv A (mv B v). Proof. lring. Qed.
Lemma mv_id v : mv mid v = v. Proof. destruct v; lunf; f_equal; ring. Qed.
Lemma mv_add A u v : mv A (vadd u v) = vadd (mv A u) (mv A v). Proof. lring. Qed.
Lemma mv_sub A u v : mv A (vsub u v) = vsub (mv A u) (mv A v). Proof. lring. Qed.
Lemma mv_neg A u : mv A (vneg u) = vneg (mv A u). Proof. lring. Qed.
Lemma mv_scale A s u : mv A (vscale s u) = vscale s (mv A u). Proof. lring. Qed.
Lemma mv_madd A B u : mv (madd A B) u = vadd (mv A u) (mv B u). Proof. lring. Qed.
Lemma mv_mscale A s u : mv (mscale s A) u = vscale s (mv A u). Proof. lring. Qed.
Lemma mv_0 A : mv A v0 = v0. Proof. lring. Qed.
Lemma mT_mmul A B : mT (mmul A B) = mmul (mT B) (mT A). Proof. lring. Qed.
Lemma mT_mT A : mT (mT A) = A. Proof. now destruct A. Qed.
Lemma mT_id : mT mid = mid. Proof. reflexivity. Qed.
Lemma dot_mv A u v : dot (mv A u) v = dot u (mv (mT A) v). Proof. lring. Qed.
Lemma dot_mvT A u v : dot u (mv A v) = dot (mv (mT A) u) v. Proof. lring. Qed.
Lemma det_mmul A B : det (mmul A B) = det A * det B. Proof. lring. Qed.
Lemma det_mT A : det (mT A) = det A. Proof. lring. Qed.
Lemma det_mid : det mid = 1. Proof. lring. Qed.
Lemma det_mscale s A : det (mscale s A) = s * s * s * det A. Proof. lring. Qed.
Lemma trace_mmul A B : trace (mmul A B) = trace (mmul B A). Proof. lring. Qed.
Lemma adj_mmul A : mmul (adj A) A = mscale (det A) mid. Proof. lring. Qed.
Lemma mmul_adj A : mmul A (adj A) = mscale (det A) mid. Proof. lring. Qed.
Lemma mscale_1 A : mscale 1 A = A. Proof. destruct A; lunf; f_equal; ring. Qed.
Lemma mscale_mmul_l s A B : mmul (mscale s A) B = mscale s (mmul A B). Proof. lring. Qed.
Lemma mscale_mmul_r s A B : mmul A (mscale s B) = mscale s (mmul A B). Proof. lring. Qed.
Lemma mscale_mscale s t A : mscale s (mscale t A) = mscale (s * t) A. Proof. lring. Qed.
Lemma mmul_madd_l A B C : mmul (madd A B) C = madd (mmul A C) (mmul B C). Proof. lring. Qed.
Lemma mmul_madd_r A B C : mmul A (madd B C) = madd (mmul A B) (mmul A C). Proof. lring. Qed.
Lemma mv_cross_adj A a b : cross (mv A a) (mv A b) = mv (mT (adj A)) (cross a b). Proof. lring. Qed.
Lemma skew_mv a b : mv (skew a) b = cross a b. Proof. lring. Qed.
Lemma trace_outer a b : trace (outer a b) = dot a b. Proof. lring. Qed.
Lemma outer_mv a b c : mv (outer a b) c = vscale (dot b c) a. Proof. lring. Qed.
Lemma mmul_outer A a b : mmul A (outer a b) = outer (mv A a) b. Proof. lring. Qed.
Lemma outer_mmul A a b : mmul (outer a b) A = outer a (mv (mT A) b). Proof. lring. Qed.
Lemma det_cols a b c : det (of_cols a b c) = dot a (cross b c). Proof. lring. Qed.
Lemma mv_ext A B : (forall v, mv A v = mv B v) -> A = B.
Proof.
  intro H. pose proof (H (V3 1 0 0)) as H0. pose proof (H (V3 0 1 0)) as H1. pose proof (H (V3 0 0 1)) as H2.
  destruct A, B; lunf. injection H0; injection H1; injection H2; intros. f_equal; lra.
Qed.

Lemma minv_l A : det A <> 0 -> mmul (minv A) A = mid.
Proof. intro H. unfold minv. rewrite mscale_mmul_l, adj_mmul, mscale_mscale, Rinv_l by auto. apply mscale_1. Qed.
Lemma minv_r A : det A <> 0 -> mmul A (minv A) = mid.
Proof. intro H. unfold minv. rewrite mscale_mmul_r, mmul_adj, mscale_mscale, Rinv_l by auto. apply mscale_1. Qed.
Lemma mv_minv A v : det A <> 0 -> mv A (mv (minv A) v) = v.
Proof. intro H. now rewrite <- mv_mmul, minv_r, mv_id. Qed.
Lemma minv_mv A v : det A <> 0 -> mv (minv A) (mv A v) = v.
Proof. intro H. now rewrite <- mv_mmul, minv_l, mv_id. Qed.
Lemma mv_inj A u v : det A <> 0 -> mv A u = mv A v -> u = v.
Proof. intros H E. rewrite <- (minv_mv A u), <- (minv_mv A v) by auto. now rewrite E. Qed.

(** ** Orthogonal matrices and rotations *)
Lemma orth_det A : orthogonal A -> det A * det A = 1.
Proof.
  intro H. pose proof (f_equal det H) as E. rewrite det_mmul, det_mT, det_mid in E. exact E.
Qed.
Lemma orth_det_cases A : orthogonal A -> det A = 1 \/ det A = -1.
Proof. intro H. apply orth_det in H. assert ((det A - 1) * (det A + 1) = 0) by lra.
  apply Rmult_integral in H0. destruct H0; [left|right]; lra. Qed.
Lemma orth_det_nz A : orthogonal A -> det A <> 0.
Proof. intro H. apply orth_det in H. intro E. rewrite E in H. lra. Qed.
Lemma orth_inv A : orthogonal A -> minv A = mT A.
Proof.
  intro H. pose proof (orth_det_nz A H) as D.
  rewrite <- (mmul_id_l (minv A)), <- H, <- mmul_assoc, minv_r by auto. apply mmul_id_r.
Qed.
Lemma orth_r A : orthogonal A -> mmul A (mT A) = mid.
Proof. intro H. rewrite <- (orth_inv A H). apply minv_r. now apply orth_det_nz. Qed.
Lemma orth_T A : orthogonal A -> orthogonal (mT A).
Proof. intro H. unfold orthogonal. rewrite mT_mT. now apply orth_r. Qed.
Lemma orth_mmul A B : orthogonal A -> orthogonal B -> orthogonal (mmul A B).
Proof.
  intros HA HB. unfold orthogonal. rewrite mT_mmul, <- mmul_assoc, (mmul_assoc (mT A)), HA, mmul_id_l. exact HB.
Qed.
Lemma orth_id : orthogonal mid.
Proof. unfold orthogonal. rewrite mT_id. apply mmul_id_l. Qed.
Lemma rot_id : rotation mid.
Proof. split; [apply orth_id|apply det_mid]. Qed.
Lemma rot_mmul A B : rotation A -> rotation B -> rotation (mmul A B).
Proof. intros [? EA] [? EB]. split; [now apply orth_mmul|]. rewrite det_mmul, EA, EB. ring. Qed.
Lemma rot_T A : rotation A -> rotation (mT A).
Proof. intros [? E]. split; [now apply orth_T|]. now rewrite det_mT. Qed.
Lemma rot_r A : rotation A -> mmul A (mT A) = mid. Proof. intros [H _]. now apply orth_r. Qed.
Lemma rot_l A : rotation A -> mmul (mT A) A = mid. Proof. intros [H _]. exact H. Qed.
Lemma rot_mv_T A v : rotation A -> mv A (mv (mT A) v) = v.
Proof. intro H. now rewrite <- mv_mmul, rot_r, mv_id. Qed.
Lemma rot_T_mv A v : rotation A -> mv (mT A) (mv A v) = v.
Proof. intro H. now rewrite <- mv_mmul, rot_l, mv_id. Qed.
Lemma orth_dot A u v : orthogonal A -> dot (mv A u) (mv A v) = dot u v.
Proof. intro H. rewrite dot_mv, <- mv_mmul, H, mv_id. reflexivity. Qed.
Lemma rot_dot A u v : rotation A -> dot (mv A u) (mv A v) = dot u v.
Proof. intros [H _]. now apply orth_dot. Qed.
Lemma rot_norm2 A u : rotation A -> norm2 (mv A u) = norm2 u.
Proof. intro H. unfold norm2. now apply rot_dot. Qed.
Lemma rot_norm A u : rotation A -> norm (mv A u) = norm u.
Proof. intro H. unfold norm. now rewrite rot_norm2. Qed.
Lemma rot_unit A u : rotation A -> unit u -> unit (mv A u).
Proof. intros H Hu. unfold unit. now rewrite rot_norm2. Qed.
Lemma rot_normalized A u : rotation A -> normalized (mv A u) = mv A (normalized u).
Proof. intro H. unfold normalized. rewrite rot_norm by auto. rewrite !vdivs_scale, mv_scale. reflexivity. Qed.
Lemma rot_adj A : rotation A -> adj A = mT A.
Proof.
  intros [H D]. rewrite <- (orth_inv A H). unfold minv. rewrite D, Rinv_1, mscale_1. reflexivity.
Qed.
Lemma rot_cross A a b : rotation A -> mv A (cross a b) = cross (mv A a) (mv A b).
Proof. intro H. rewrite mv_cross_adj, rot_adj, mT_mT by auto. reflexivity. Qed.
Lemma rot_nonzero A v : rotation A -> v <> v0 -> mv A v <> v0.
Proof. intros H Hv E. apply Hv. rewrite <- (rot_T_mv A v H), E. apply mv_0. Qed.
Lemma of_cols_orth a b c : orthogonal (of_cols a b c) <->
  (dot a a = 1 /\ dot b b = 1 /\ dot c c = 1 /\ dot a b = 0 /\ dot a c = 0 /\ dot b c = 0).
Proof.
  split.
  - intro H. destruct a, b, c; lunf. injection H; intros. repeat split; lra.
  - intros (H1 & H2 & H3 & H4 & H5 & H6). destruct a, b, c; lunf. f_equal; lra.
Qed.
(** Two unit orthogonal vectors and their cross product form a rotation. *)
Lemma frame_rotation a b : unit a -> unit b -> dot a b = 0 -> rotation (of_cols a b (cross a b)).
Proof.
  intros Ha Hb Hab. split.
  - apply of_cols_orth. unfold unit, norm2 in *. repeat split; auto.
    + pose proof (lagrange a b) as L. unfold norm2 in L. rewrite Ha, Hb, Hab in L. lra.
    + apply dot_cross_l.
    + apply dot_cross_r.
  - rewrite det_cols, triple_cycle, triple_cycle.
    pose proof (lagrange a b) as L. unfold norm2, unit in *. unfold norm2 in *. rewrite Ha, Hb, Hab in L. lra.
Qed.
(** a vector orthogonal to three independent ones vanishes *)
Lemma basis_zero a b c v : dot a (cross b c) <> 0 -> dot a v = 0 -> dot b v = 0 -> dot c v = 0 -> v = v0.
Proof.
  intros H Ha Hb Hc.
  apply (mv_inj (mT (of_cols a b c))); [now rewrite det_mT, det_cols|].
  rewrite mv_0. destruct a, b, c, v; lunf. f_equal; lra.
Qed.

(** ** Sums *)
Lemma vsum_cons a l : vsum (a :: l) = vadd a (vsum l). Proof. reflexivity. Qed.
Lemma rsum_cons a l : rsum (a :: l) = a + rsum l. Proof. reflexivity. Qed.
Lemma msum_cons a l : msum (a :: l) = madd a (msum l). Proof. reflexivity. Qed.
Lemma vsum_nil : vsum [] = v0. Proof. reflexivity. Qed.
Lemma rsum_nil : rsum [] = 0. Proof. reflexivity. Qed.
Lemma msum_nil : msum [] = mzero. Proof. reflexivity. Qed.
Global Arguments vsum : simpl never.
Global Arguments rsum : simpl never.
Global Arguments msum : simpl never.
Ltac sums := cbn [map app]; rewrite ?vsum_cons, ?rsum_cons, ?msum_cons, ?vsum_nil, ?rsum_nil, ?msum_nil.
Lemma vsum_app l m : vsum (l ++ m) = vadd (vsum l) (vsum m).
Proof. induction l; sums. - now rewrite vadd_0_l. - rewrite IHl. apply vadd_assoc. Qed.
Lemma rsum_app l m : rsum (l ++ m) = rsum l + rsum m.
Proof. induction l; sums. - ring. - rewrite IHl. ring. Qed.
Lemma mv_vsum A l : mv A (vsum l) = vsum (map (mv A) l).
Proof. induction l; sums. - apply mv_0. - now rewrite mv_add, IHl. Qed.
Lemma vscale_vsum s l : vscale s (vsum l) = vsum (map (vscale s) l).
Proof. induction l; sums. - lring. - now rewrite vscale_add, IHl. Qed.
Lemma rsum_nonneg l : (forall x, In x l -> 0 <= x) -> 0 <= rsum l.
Proof.
  induction l; sums; intro H; [lra|]. pose proof (H a (or_introl eq_refl)).
  assert (0 <= rsum l) by (apply IHl; intros; apply H; right; auto). lra.
Qed.
Lemma rsum_zero l : (forall x, In x l -> 0 <= x) -> rsum l = 0 -> forall x, In x l -> x = 0.
Proof.
  induction l as [|a l IH]; sums; intros H E x Hx; [destruct Hx|].
  pose proof (H a (or_introl eq_refl)). assert (0 <= rsum l) by (apply rsum_nonneg; intros; apply H; right; auto).
  destruct Hx as [<-|Hx]; [lra|]. apply IH; auto; [|lra]. intros; apply H; right; auto.
Qed.
Lemma rsum_map_scale {X} (f : X -> R) s l : rsum (map (fun x => s * f x) l) = s * rsum (map f l).
Proof. induction l; sums. - ring. - rewrite IHl. ring. Qed.
Lemma rsum_map_add {X} (f g : X -> R) l : rsum (map (fun x => f x + g x) l) = rsum (map f l) + rsum (map g l).
Proof. induction l; sums. - ring. - rewrite IHl. ring. Qed.
