(** Values of the UPnP matrices in the two scenes of UpnpActData.v (examples only). *)
From Coq Require Import Reals Lra Lia List Arith NArith ZArith Bool Znumtheory.
From Verif Require Import Lin GenLin RotModel RotProps GbModel GbMod GbProps GpnpGb MacModel UpnpModel UpnpProps UpnpProps2 UpnpProps3
  UpnpGen UpnpActModel UpnpActGrad UpnpActData.
Import ListNotations.
Local Open Scope R_scope.

(** the tables as real matrices *)
Definition rtab (d : Z) (t : list (list Z)) (i j : nat) : R := IZR (nth j (nth i t []) 0%Z) / IZR d.

Definition hq : quat := Q4 (1 / 2) (1 / 2) (1 / 2) (1 / 2).
Lemma hq_norm : qnorm2 hq = 1. Proof. unfold qnorm2, hq; cbn [q0 q1 q2 q3]. field. Qed.
Lemma hq_rot : quaternion2rot hq = M3 0 0 1 1 0 0 0 1 0.
Proof. unfold quaternion2rot, hq; cbn [q0 q1 q2 q3]. f_equal; field. Qed.

Lemma t1 : utemp (V3 1 0 0) = diag 0 (-1) (-1). Proof. unfold utemp. lunf. f_equal; ring. Qed.
Lemma t2 : utemp (V3 0 1 0) = diag (-1) 0 (-1). Proof. unfold utemp. lunf. f_equal; ring. Qed.
Lemma t3 : utemp (V3 0 0 1) = diag (-1) (-1) 0. Proof. unfold utemp. lunf. f_equal; ring. Qed.

Lemma o1 : outer (V3 1 0 0) (V3 1 0 0) = diag 1 0 0. Proof. lunf. f_equal; ring. Qed.
Lemma o2 : outer (V3 0 1 0) (V3 0 1 0) = diag 0 1 0. Proof. lunf. f_equal; ring. Qed.
Lemma o3 : outer (V3 0 0 1) (V3 0 0 1) = diag 0 0 1. Proof. lunf. f_equal; ring. Qed.
Lemma dadd a b c d e f : madd (diag a b c) (diag d e f) = diag (a + d) (b + e) (c + f). Proof. lunf. f_equal; ring. Qed.
Lemma d0 : mzero = diag 0 0 0. Proof. lunf. f_equal; ring. Qed.
Lemma dsub s a b c : msub (mscale s mid) (diag a b c) = diag (s - a) (s - b) (s - c). Proof. lunf. f_equal; ring. Qed.

(** * Four correspondences *)
Lemma s4_unit : unit_bearings s4_l.
Proof. intros c [<-|[<-|[<-|[<-|[]]]]]; unfold s4_c; cbn [nth uf]; lunf; ring. Qed.
Lemma s4_uH : uH s4_l = Some s4_H.
Proof.
  assert (E : uHinv s4_l = diag 2 3 3).
  { unfold uHinv, uF, s4_l, s4_c. cbn [nth fold_left uf length INR]. rewrite o1, o2, o3, d0, !dadd, dsub. f_equal; ring. }
  unfold uH, inverse. rewrite E. destruct (Req_EM_T (det (diag 2 3 3)) 0) as [Z|Z].
  - exfalso. lunf. lra.
  - f_equal. unfold s4_H, minv. lunf. f_equal; field.
Qed.
Lemma s4_front : in_front s4_l (quaternion2rot hq) s4_t.
Proof.
  rewrite hq_rot. intros c [<-|[<-|[<-|[<-|[]]]]]; unfold s4_c, s4_t; cbn [nth uf uv up].
  - exists 2. split; [lra|]. lunf. f_equal; ring.
  - exists 2. split; [lra|]. lunf. f_equal; ring.
  - exists 1. split; [lra|]. lunf. f_equal; ring.
  - exists 2. split; [lra|]. lunf. f_equal; ring.
Qed.
Ltac vk := unfold uVk; rewrite ?t1, ?t2, ?t3; unfold s4_H, s5_H; lunf; f_equal; field.
Lemma s4_v1 : uVk s4_H (V3 1 0 0) = diag 0 (- (1/3)) (- (1/3)). Proof. vk. Qed.
Lemma s4_v2 : uVk s4_H (V3 0 1 0) = diag (- (1/2)) 0 (- (1/3)). Proof. vk. Qed.
Lemma s4_v3 : uVk s4_H (V3 0 0 1) = diag (- (1/2)) (- (1/3)) 0. Proof. vk. Qed.
Lemma s4_uI j : (j < 10)%nat -> uI s4_H up s4_l j = s4_I j.
Proof.
  intro Hj. unfold uI, s4_l. cbn [fold_left]. unfold s4_c; cbn [nth uf up]. rewrite s4_v1, s4_v2, s4_v3.
  do 10 (destruct j as [|j]; [unfold fill3x10, s4_I; cbn [nth vx vy vz]; lunf; f_equal; field|]). lia.
Qed.
Lemma s4_uJ : uJ s4_H s4_l = s4_J.
Proof. unfold uJ, s4_l, s4_J. cbn [fold_left]. unfold s4_c; cbn [nth uf uv]. rewrite s4_v1, s4_v2, s4_v3. lunf. f_equal; field. Qed.
Lemma s4_uA i j : (i < 4)%nat -> (j < 10)%nat -> uA (uI s4_H up s4_l) up (s4_c i) j = s4_A i j.
Proof.
  intros Hi Hj. unfold uA. rewrite s4_uI by auto.
  do 4 (destruct i as [|i]; [unfold s4_c; cbn [nth uf up]; rewrite ?t1, ?t2, ?t3;
    do 10 (destruct j as [|j]; [unfold fill3x10, s4_I, s4_A; cbn [nth vx vy vz]; lunf; f_equal; ring|]); lia|]). lia.
Qed.
Lemma s4_ub i : (i < 4)%nat -> ub (uJ s4_H s4_l) (s4_c i) = s4_b i.
Proof.
  intro Hi. rewrite s4_uJ. unfold ub.
  do 4 (destruct i as [|i]; [unfold s4_c; cbn [nth uf uv]; rewrite ?t1, ?t2, ?t3; unfold s4_J, s4_b; cbn [nth]; lunf; f_equal; ring|]). lia.
Qed.
Definition s4_M := uM (uI s4_H up s4_l) up s4_l.
Definition s4_C := uC (uI s4_H up s4_l) (uJ s4_H s4_l) up s4_l.
Lemma s4_uM j k : (j < 10)%nat -> (k < 10)%nat -> s4_M j k = rtab 1 s4_Mz j k.
Proof.
  intros Hj Hk. unfold s4_M, uM. pose proof s4_uA as EA. set (I := uI s4_H up s4_l) in *. unfold s4_l. cbn [fold_left]. rewrite !EA by lia. clear I EA.
  do 10 (destruct j as [|j]; [do 10 (destruct k as [|k]; [unfold s4_A, rtab, s4_Mz; cbn [nth]; unfold dot; cbn [vx vy vz]; field|]); lia|]). lia.
Qed.
Lemma s4_uC j : (j < 10)%nat -> s4_C j = IZR (nth j s4_Cz 0%Z).
Proof.
  intros Hj. unfold s4_C, uC. pose proof s4_uA as EA. pose proof s4_ub as EB. set (I := uI s4_H up s4_l) in *. set (J := uJ s4_H s4_l) in *. unfold s4_l. cbn [fold_left]. rewrite !EA, !EB by lia. clear I J EA EB.
  do 10 (destruct j as [|j]; [unfold s4_A, s4_b, s4_Cz; cbn [nth]; unfold dot; cbn [vx vy vz]; ring|]). lia.
Qed.

(** * Five correspondences *)
Lemma s5_unit : unit_bearings s5_l.
Proof. intros c [<-|[<-|[<-|[<-|[<-|[]]]]]]; unfold s5_c; cbn [nth uf]; lunf; ring. Qed.
Lemma s5_uH : uH s5_l = Some s5_H.
Proof.
  assert (E : uHinv s5_l = diag 3 3 4).
  { unfold uHinv, uF, s5_l, s5_c. cbn [nth fold_left uf length INR]. rewrite o1, o2, o3, d0, !dadd, dsub. f_equal; ring. }
  unfold uH, inverse. rewrite E. destruct (Req_EM_T (det (diag 3 3 4)) 0) as [Z|Z].
  - exfalso. lunf. lra.
  - f_equal. unfold s5_H, minv. lunf. f_equal; field.
Qed.
Lemma s5_front : in_front s5_l (quaternion2rot hq) s5_t.
Proof.
  rewrite hq_rot. intros c [<-|[<-|[<-|[<-|[<-|[]]]]]]; unfold s5_c, s5_t; cbn [nth uf uv up].
  - exists 1. split; [lra|]. lunf. f_equal; ring.
  - exists 1. split; [lra|]. lunf. f_equal; ring.
  - exists 1. split; [lra|]. lunf. f_equal; ring.
  - exists 1. split; [lra|]. lunf. f_equal; ring.
  - exists 2. split; [lra|]. lunf. f_equal; ring.
Qed.
Lemma s5_v1 : uVk s5_H (V3 1 0 0) = diag 0 (- (1/3)) (- (1/4)). Proof. vk. Qed.
Lemma s5_v2 : uVk s5_H (V3 0 1 0) = diag (- (1/3)) 0 (- (1/4)). Proof. vk. Qed.
Lemma s5_v3 : uVk s5_H (V3 0 0 1) = diag (- (1/3)) (- (1/3)) 0. Proof. vk. Qed.
Lemma s5_uI j : (j < 10)%nat -> uI s5_H up s5_l j = s5_I j.
Proof.
  intro Hj. unfold uI, s5_l. cbn [fold_left]. unfold s5_c; cbn [nth uf up]. rewrite s5_v1, s5_v2, s5_v3.
  do 10 (destruct j as [|j]; [unfold fill3x10, s5_I; cbn [nth vx vy vz]; lunf; f_equal; field|]). lia.
Qed.
Lemma s5_uJ : uJ s5_H s5_l = s5_J.
Proof. unfold uJ, s5_l, s5_J. cbn [fold_left]. unfold s5_c; cbn [nth uf uv]. rewrite s5_v1, s5_v2, s5_v3. lunf. f_equal; field. Qed.
Lemma s5_uA i j : (i < 5)%nat -> (j < 10)%nat -> uA (uI s5_H up s5_l) up (s5_c i) j = s5_A i j.
Proof.
  intros Hi Hj. unfold uA. rewrite s5_uI by auto.
  do 5 (destruct i as [|i]; [unfold s5_c; cbn [nth uf up]; rewrite ?t1, ?t2, ?t3;
    do 10 (destruct j as [|j]; [unfold fill3x10, s5_I, s5_A; cbn [nth vx vy vz]; lunf; f_equal; field|]); lia|]). lia.
Qed.
Lemma s5_ub i : (i < 5)%nat -> ub (uJ s5_H s5_l) (s5_c i) = s5_b i.
Proof.
  intro Hi. rewrite s5_uJ. unfold ub.
  do 5 (destruct i as [|i]; [unfold s5_c; cbn [nth uf uv]; rewrite ?t1, ?t2, ?t3; unfold s5_J, s5_b; cbn [nth]; lunf; f_equal; field|]). lia.
Qed.
Definition s5_M := uM (uI s5_H up s5_l) up s5_l.
Definition s5_C := uC (uI s5_H up s5_l) (uJ s5_H s5_l) up s5_l.
Lemma s5_uM j k : (j < 10)%nat -> (k < 10)%nat -> s5_M j k = rtab 3 s5_Mz j k.
Proof.
  intros Hj Hk. unfold s5_M, uM. pose proof s5_uA as EA. set (I := uI s5_H up s5_l) in *. unfold s5_l. cbn [fold_left]. rewrite !EA by lia. clear I EA.
  do 10 (destruct j as [|j]; [do 10 (destruct k as [|k]; [unfold s5_A, rtab, s5_Mz; cbn [nth]; unfold dot; cbn [vx vy vz]; field|]); lia|]). lia.
Qed.
Lemma s5_uC j : (j < 10)%nat -> s5_C j = IZR (nth j s5_Cz 0%Z) / 3.
Proof.
  intros Hj. unfold s5_C, uC. pose proof s5_uA as EA. pose proof s5_ub as EB. set (I := uI s5_H up s5_l) in *. set (J := uJ s5_H s5_l) in *. unfold s5_l. cbn [fold_left]. rewrite !EA, !EB by lia. clear I J EA EB.
  do 10 (destruct j as [|j]; [unfold s5_A, s5_b, s5_Cz; cbn [nth]; unfold dot; cbn [vx vy vz]; field|]). lia.
Qed.
(** the Hessian at the true rotation *)
Definition ptr (c : ucorr) : vec3 := mv (quaternion2rot hq) (up c).
Lemma s5_ptr i : (i < 5)%nat -> ptr (s5_c i) = s5_p i.
Proof.
  intro H. unfold ptr. rewrite hq_rot. do 5 (destruct i as [|i]; [unfold s5_c, s5_p; cbn [nth up]; lunf; f_equal; ring|]). lia.
Qed.
Lemma s5_uIr j : (j < 10)%nat -> uI s5_H ptr s5_l j = s5_Ir j.
Proof.
  intro Hj. unfold uI, s5_l. cbn [fold_left]. rewrite !s5_ptr by lia. unfold s5_c, s5_p; cbn [nth uf]. rewrite s5_v1, s5_v2, s5_v3.
  do 10 (destruct j as [|j]; [unfold fill3x10, s5_Ir; cbn [nth vx vy vz]; lunf; f_equal; field|]). lia.
Qed.
Lemma s5_uAr i j : (i < 5)%nat -> (j < 10)%nat -> uA (uI s5_H ptr s5_l) ptr (s5_c i) j = s5_Ar i j.
Proof.
  intros Hi Hj. unfold uA. rewrite s5_uIr, s5_ptr by auto.
  do 5 (destruct i as [|i]; [unfold s5_c, s5_p; cbn [nth uf]; rewrite ?t1, ?t2, ?t3;
    do 10 (destruct j as [|j]; [unfold fill3x10, s5_Ir, s5_Ar; cbn [nth vx vy vz]; lunf; f_equal; field|]); lia|]). lia.
Qed.
Lemma s5_uMr j k : (j < 10)%nat -> (k < 10)%nat -> uM (uI s5_H ptr s5_l) ptr s5_l j k =
  dot (s5_Ar 0 j) (s5_Ar 0 k) + dot (s5_Ar 1 j) (s5_Ar 1 k) + dot (s5_Ar 2 j) (s5_Ar 2 k) + dot (s5_Ar 3 j) (s5_Ar 3 k) + dot (s5_Ar 4 j) (s5_Ar 4 k).
Proof.
  intros Hj Hk. unfold uM. pose proof s5_uAr as EA. set (I := uI s5_H ptr s5_l) in *. unfold s5_l. cbn [fold_left]. rewrite !EA by lia. ring.
Qed.
Lemma s5_uCr j : (j < 10)%nat -> uC (uI s5_H ptr s5_l) (uJ s5_H s5_l) ptr s5_l j =
  dot (s5_b 0) (s5_Ar 0 j) + dot (s5_b 1) (s5_Ar 1 j) + dot (s5_b 2) (s5_Ar 2 j) + dot (s5_b 3) (s5_Ar 3 j) + dot (s5_b 4) (s5_Ar 4 j).
Proof.
  intros Hj. unfold uC. pose proof s5_uAr as EA. pose proof s5_ub as EB. set (I := uI s5_H ptr s5_l) in *. set (J := uJ s5_H s5_l) in *.
  unfold s5_l. cbn [fold_left]. rewrite !EA, !EB by lia. ring.
Qed.
Lemma s5_hess_ok : hess_at s5_H s5_l hq = s5_hess.
Proof.
  unfold hess_at. fold ptr. unfold uhess. rewrite !s5_uMr, !s5_uCr by lia. unfold s5_Ar, s5_b, s5_hess, dot. cbn [nth vx vy vz]. f_equal; field.
Qed.
Lemma s5_det : det (hess_at s5_H s5_l hq) <> 0.
Proof. rewrite s5_hess_ok. unfold s5_hess. lunf. lra. Qed.
