(** The hypotheses of C55 are met. *)
From Coq Require Import Reals Lra List Lia.
From Verif Require Import Lin GenLin RotModel RotProps UpnpModel UpnpProps UpnpProps2 UpnpProps3.
Import ListNotations.
Local Open Scope R_scope.

(** Three cameras' worth of rays along the coordinate axes; the points are the
    images of unit points on the rays under the inverse of a rotation. *)
Definition ex_l (Q : mat3) (t : vec3) : list ucorr :=
  map (fun e => UC e v0 (mv (mT Q) (vsub e t))) [V3 1 0 0; V3 0 1 0; V3 0 0 1].
Definition ex_H : mat3 := diag (1 / 2) (1 / 2) (1 / 2).

Lemma ex_unit Q t : unit_bearings (ex_l Q t).
Proof. intros c [<-|[<-|[<-|[]]]]; cbn [uf]; lunf; ring. Qed.
Lemma ex_uH Q t : uH (ex_l Q t) = Some ex_H.
Proof.
  assert (E : uHinv (ex_l Q t) = diag 2 2 2).
  { unfold uHinv, uF, ex_l. cbn [map fold_left uf length INR]. lunf. f_equal; ring. }
  unfold uH, inverse. rewrite E. destruct (Req_EM_T (det (diag 2 2 2)) 0) as [Z|Z].
  - exfalso. lunf. lra.
  - f_equal. unfold ex_H, minv. lunf. f_equal; field.
Qed.
Lemma ex_front Q t : rotation Q -> in_front (ex_l Q t) Q t.
Proof.
  intros HQ c Hc. assert (K : forall e, vsub (vadd (mv Q (mv (mT Q) (vsub e t))) t) v0 = vscale 1 e).
  { intro e. rewrite rot_mv_T by auto. lring. }
  exists 1. split; [lra|].
  destruct Hc as [<-|[<-|[<-|[]]]]; cbn [uf uv up]; apply K.
Qed.
(** The axes, their projectors and the products with H. *)
Definition e1 := V3 1 0 0.
Definition e2 := V3 0 1 0.
Definition e3 := V3 0 0 1.
Lemma tmp1 : utemp e1 = diag 0 (-1) (-1). Proof. unfold utemp, e1. lunf. f_equal; ring. Qed.
Lemma tmp2 : utemp e2 = diag (-1) 0 (-1). Proof. unfold utemp, e2. lunf. f_equal; ring. Qed.
Lemma tmp3 : utemp e3 = diag (-1) (-1) 0. Proof. unfold utemp, e3. lunf. f_equal; ring. Qed.
Lemma vk1 : uVk ex_H e1 = diag 0 (- (1/2)) (- (1/2)). Proof. unfold uVk, ex_H. rewrite tmp1. lunf. f_equal; field. Qed.
Lemma vk2 : uVk ex_H e2 = diag (- (1/2)) 0 (- (1/2)). Proof. unfold uVk, ex_H. rewrite tmp2. lunf. f_equal; field. Qed.
Lemma vk3 : uVk ex_H e3 = diag (- (1/2)) (- (1/2)) 0. Proof. unfold uVk, ex_H. rewrite tmp3. lunf. f_equal; field. Qed.

Definition ex_I : mat3x10 := fun j =>
  nth j [v0; v0; v0; v0; V3 0 1 (-1); V3 (-1) 0 1; V3 1 (-1) 0; V3 (-1) (-1) 0; V3 (-1) 0 (-1); V3 0 (-1) (-1)] v0.

Lemma ex_sub0 (e : vec3) : vsub e v0 = e.
Proof. lring. Qed.

Section Ex.
Variable q : quat.
Hypothesis N : qnorm2 q = 1.
Let Q := quaternion2rot q.
Let pt := fun c => mv Q (up c).
Let l := ex_l Q v0.
Lemma ex_pt : forall e, pt (UC e v0 (mv (mT Q) (vsub e v0))) = e.
Proof. intro e. unfold pt. cbn [up]. rewrite rot_mv_T by now apply q2r_rot. apply ex_sub0. Qed.
Lemma ex_uI : forall j, (j < 10)%nat -> uI ex_H pt l j = ex_I j.
Proof.
  intros j Hj. unfold uI, l, ex_l. fold e1 e2 e3. cbn [map fold_left uf]. rewrite !ex_pt, vk1, vk2, vk3. clear - Hj.
  do 10 (destruct j as [|j]; [unfold fill3x10, ex_I, e1, e2, e3; cbn [nth vx vy vz]; lunf; f_equal; field|]). lia.
Qed.
Lemma ex_uJ : uJ ex_H l = v0.
Proof. unfold uJ, l, ex_l. cbn [map fold_left uv]. rewrite !mv_0, !vadd_0_l. reflexivity. Qed.
Definition ex_A (T : mat3) (e : vec3) (j : nat) : vec3 := mv T (vadd (fill3x10 e j) (ex_I j)).
Lemma ex_M j k : (j < 10)%nat -> (k < 10)%nat -> uM (uI ex_H pt l) pt l j k =
  dot (ex_A (diag 0 (-1) (-1)) e1 j) (ex_A (diag 0 (-1) (-1)) e1 k)
  + dot (ex_A (diag (-1) 0 (-1)) e2 j) (ex_A (diag (-1) 0 (-1)) e2 k)
  + dot (ex_A (diag (-1) (-1) 0) e3 j) (ex_A (diag (-1) (-1) 0) e3 k).
Proof.
  intros Hj Hk. unfold uM. set (I := uI ex_H pt l). unfold l, ex_l. fold e1 e2 e3. cbn [map fold_left].
  unfold uA. cbn [uf]. rewrite !ex_pt, tmp1, tmp2, tmp3. unfold I. rewrite !ex_uI by auto.
  unfold ex_A. ring.
Qed.
Lemma ex_C j : uC (uI ex_H pt l) (uJ ex_H l) pt l j = 0.
Proof.
  rewrite ex_uJ. unfold uC. set (I := uI ex_H pt l). unfold l, ex_l. cbn [map fold_left].
  unfold ub. cbn [uv]. rewrite vadd_0_l, !mv_0.
  assert (Z : forall x, dot v0 x = 0) by (clear; lring). rewrite !Z. ring.
Qed.
Lemma ex_hess : hess_at ex_H l q = M3 8 4 4 4 8 4 4 4 8.
Proof.
  unfold hess_at. fold Q. fold pt. unfold uhess. rewrite !ex_C, !ex_M by lia. clear.
  unfold ex_A, ex_I, fill3x10, e1, e2, e3. cbn [nth vx vy vz]. lunf. f_equal; ring.
Qed.
End Ex.

Lemma ex_det q : qnorm2 q = 1 -> det (hess_at ex_H (ex_l (quaternion2rot q) v0) q) <> 0.
Proof. intro N. rewrite ex_hess by auto. lunf. lra. Qed.
Lemma ex_candidate Q q : qnorm2 q = 1 -> is_candidate (ex_l Q v0) [qscale 2 q] q.
Proof.
  intro N. exists (qscale 2 q), 2. split; [left; auto|]. split; [lra|]. split; auto.
  right. intros e' [<-|[]]. auto.
Qed.
Lemma ex_nonzero q : qnorm2 q = 1 -> forall e, In e [qscale 2 q] -> e <> qzero.
Proof.
  intros N e [<-|[]] Z. destruct q as [a b c d]. unfold qscale, qzero, qnorm2 in *. qc. injection Z. intros.
  assert (a = 0 /\ b = 0 /\ c = 0 /\ d = 0) as (->&->&->&->) by (repeat split; lra). lra.
Qed.

(** The cyclic permutation of the axes is recovered ... *)
Example C55_nonvacuous : let q := Q4 (1 / 2) (1 / 2) (1 / 2) (1 / 2) in let Q := quaternion2rot q in
  exists out, upnp [qscale 2 q] (ex_l Q v0) = Some out /\
    In (Some (mT Q), Some (vneg (mv (mT Q) v0))) out.
Proof.
  intros q Q. assert (N : qnorm2 q = 1) by (unfold qnorm2, q; qc; field).
  apply (C55_recovers_pose (ex_l Q v0) ex_H [qscale 2 q] q v0); auto.
  - apply ex_unit.
  - apply ex_uH.
  - now apply ex_nonzero.
  - apply ex_front. now apply q2r_rot.
  - now apply ex_candidate.
  - now apply ex_det.
  - unfold q; qc. lra.
Qed.
(** ... and for the identity the translation is NaN. *)
Example C55_identity_nonvacuous : let q := Q4 1 0 0 0 in let Q := quaternion2rot q in
  Q = mid /\ exists out, upnp [qscale 2 q] (ex_l Q v0) = Some out /\ In (Some (mT Q), None) out.
Proof.
  intros q Q. assert (N : qnorm2 q = 1) by (unfold qnorm2, q; qc; field).
  split; [unfold Q, q, quaternion2rot, mid; qc; f_equal; ring|].
  apply (C55_zero_component_refuted (ex_l Q v0) ex_H [qscale 2 q] q v0); auto.
  - apply ex_unit.
  - apply ex_uH.
  - now apply ex_nonzero.
  - apply ex_front. now apply q2r_rot.
  - now apply ex_candidate.
  - now apply ex_det.
  - unfold q; qc. ring.
Qed.
