(** composeG is additive over the correspondences (helper lemmas for C47). *)
From Coq Require Import Reals List Lra Lia.
From Verif Require Import Lin GenLin RotModel EigSums EigGen EigAlg GeSums GeGen.
Import ListNotations.
Local Open Scope R_scope.

Lemma bf_add2 m n u A B v : bf m n u (add2 A B) v = bf m n u A v + bf m n u B v.
Proof.
  unfold bf, add2. rewrite <- sumn_add. apply sumn_ext. intros i _. rewrite <- Rmult_plus_distr_l, <- sumn_add. f_equal.
  apply sumn_ext. intros; ring.
Qed.
Lemma bf_sub2 m n u A B v : bf m n u (sub2 A B) v = bf m n u A v - bf m n u B v.
Proof.
  unfold bf, sub2. rewrite <- sumn_sub. apply sumn_ext. intros i _. rewrite <- Rmult_minus_distr_l, <- sumn_sub. f_equal.
  apply sumn_ext. intros; ring.
Qed.
Lemma bf_outer2 m n u a b v : bf m n u (outer2 a b) v = vdot m u a * vdot n b v.
Proof.
  unfold bf, outer2, vdot. rewrite (Rmult_comm (sumn m _)), <- sumn_scale. apply sumn_ext. intros i _.
  transitivity (u i * (a i * sumn n (fun j => b j * v j))); [|ring]. f_equal. rewrite <- sumn_scale. apply sumn_ext. intros; ring.
Qed.
Lemma bf_zero2 m n u v : bf m n u zero2 v = 0.
Proof. unfold bf, zero2. apply sumn_0. intros. rewrite sumn_0; [ring|]. intros; ring. Qed.
Lemma bf_madd u A k f v : bf 3 3 u (mget (madd A (mscale k (outer f f)))) v =
  bf 3 3 u (mget A) v + k * vdot 3 u (vget f) * vdot 3 (vget f) v.
Proof. destruct A, f. unfold bf, vdot. cbn. ring. Qed.
Lemma bf_mzero u v : bf 3 3 u (mget mzero) v = 0.
Proof. unfold bf. cbn. ring. Qed.
Lemma rw_dot A f a : vdot 3 (rw A a) (vget f) = vget (mv A f) a.
Proof. destruct A, f, a as [|[|a]]; unfold vdot; cbn; ring. Qed.
Lemma rw_dot' A f a : vdot 3 (vget f) (rw A a) = vget (mv A f) a.
Proof. rewrite vdot_comm. apply rw_dot. Qed.
Lemma rw_dots A f a k : vdot 3 (rw A a) (fun i => k * vget f i) = k * vget (mv A f) a.
Proof. now rewrite vdot_scale, rw_dot. Qed.
Lemma cols9_dot A f2 t2 f1 : vdot 9 (v19 f2 t2 f1) (cols9 A) = dot f1 (mv A (cross f2 t2)).
Proof. destruct A, f1, f2, t2. unfold vdot, v19, cols9. cbn. unfold dot; cbn. ring. Qed.
Lemma rows9_dot A f1 t1 f2 : vdot 9 (v19 f1 t1 f2) (rows9 A) = dot (cross f1 t1) (mv A f2).
Proof. destruct A, f1, f2, t1. unfold vdot, v19, rows9. cbn. unfold dot; cbn. ring. Qed.

(** the 4-vector a correspondence contributes, for a 3x3 matrix A *)
Definition gvec0 (A : mat3) (q : gcorr) (i : nat) : R :=
  match i with
  | 3%nat => dot (gf1 q) (mv A (cross (gf2 q) (gt2 q))) + dot (cross (gf1 q) (gt1 q)) (mv A (gf2 q))
  | _ => vget (cross (gf1 q) (mv A (gf2 q))) i
  end.
Lemma composeG_step S q c i j : (i < 4)%nat -> (j < 4)%nat ->
  composeG (gs_step S q) c i j = composeG S c i j + gw q * gvec0 (cayley2rot_reduced c) q i * gvec0 (cayley2rot_reduced c) q j.
Proof.
  intros Hi Hj. unfold composeG. generalize (cayley2rot_reduced c). intro A. destruct q as [w f1 t1 f2 t2]. cbv zeta.
  assert (E : gvec0 A (GC w f1 t1 f2 t2) 3 = vdot 9 (v19 f2 t2 f1) (cols9 A) + vdot 9 (v19 f1 t1 f2) (rows9 A)) by (now rewrite cols9_dot, rows9_dot).
  assert (E0 : gvec0 A (GC w f1 t1 f2 t2) 0 = vy f1 * vget (mv A f2) 2 - vz f1 * vget (mv A f2) 1) by reflexivity.
  assert (E1 : gvec0 A (GC w f1 t1 f2 t2) 1 = vz f1 * vget (mv A f2) 0 - vx f1 * vget (mv A f2) 2) by reflexivity.
  assert (E2 : gvec0 A (GC w f1 t1 f2 t2) 2 = vx f1 * vget (mv A f2) 1 - vy f1 * vget (mv A f2) 0) by reflexivity.
  destruct i as [|[|[|[|i]]]]; try lia; destruct j as [|[|[|[|j]]]]; try lia; rewrite ?E, ?E0, ?E1, ?E2; clear; cbn [nth].
  all: unfold gs_step; cbn [gw gf1 gt1 gf2 gt2 gf x1P y1P z1P x2P y2P z2P m11P m12P m22P fs_step xxF yyF zzF xyF yzF zxF].
  all: rewrite ?bf_madd, ?bf_add2, ?bf_sub2, ?bf_outer2, ?rw_dots, ?rw_dot, ?rw_dot'.
  all: rewrite ?(vdot_comm 9 (cols9 A)), ?(vdot_comm 9 (rows9 A)).
  all: rewrite ?(vdot_comm 9 (fun k => w * _)), ?vdot_scale, ?(vdot_comm 9 (cols9 A)), ?(vdot_comm 9 (rows9 A)).
  all: ring.
Qed.
Lemma composeG_0 c i j : (i < 4)%nat -> (j < 4)%nat -> composeG gs0 c i j = 0.
Proof.
  intros Hi Hj. unfold composeG.
  destruct i as [|[|[|[|i]]]]; try lia; destruct j as [|[|[|[|j]]]]; try lia; cbn [nth gs0 gf fs0 x1P y1P z1P x2P y2P z2P m11P m12P m22P xxF yyF zzF xyF yzF zxF]; rewrite ?bf_mzero, ?bf_zero2; ring.
Qed.
Lemma composeG_sum l c i j : (i < 4)%nat -> (j < 4)%nat ->
  composeG (gs_accumulate l) c i j = rsum (map (fun q => gw q * gvec0 (cayley2rot_reduced c) q i * gvec0 (cayley2rot_reduced c) q j) l).
Proof.
  intros Hi Hj. unfold gs_accumulate.
  assert (E : forall S, composeG (fold_left gs_step l S) c i j = composeG S c i j + rsum (map (fun q => gw q * gvec0 (cayley2rot_reduced c) q i * gvec0 (cayley2rot_reduced c) q j) l)).
  { induction l as [|q l IH]; intro S; cbn [fold_left map]; sums; [ring|]. rewrite IH, composeG_step by auto. ring. }
  rewrite E, composeG_0 by auto. ring.
Qed.
