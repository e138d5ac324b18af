(** UPnP with four correspondences misses the true pose of exact data. *)
From Coq Require Import Reals Lra Lia List Arith NArith ZArith Bool Znumtheory.
From Verif Require Import Lin GenLin RotModel RotProps SturmModel GaussModel GaussProps GbModel GbMod GbProps GpnpGb MacModel MacProps ModElim GjSolve
  UpnpModel UpnpProps UpnpProps2 UpnpProps3 UpnpGen UpnpActModel UpnpActGrad UpnpActProps UpnpActData UpnpActEx1 UpnpActEx2.
Import ListNotations.
Local Open Scope R_scope.

Lemma s4_cells : Forall (fun e => snd e = rtab 1 s4_m1 (fst (fst e)) (snd (fst e))) (u2_cells s4_M s4_C).
Proof.
  unfold u2_cells. repeat constructor; cbn [fst snd]; rewrite ?s4_uM, ?s4_uC by lia; unfold rtab, s4_Mz, s4_Cz, s4_m1; cbn [nth]; lra.
Qed.
Definition A4 := gcells (u2_cells s4_M s4_C).
Lemma s4_A4 i j : A4 i j = rtab 1 s4_m1 i j.
Proof. apply (cells_table 1 s4_m1 _ 5 29); [apply s4_cells|vm_compute; reflexivity]. Qed.
Lemma s4_M1 inv i j : inverts 4 A4 (inv 4%nat (lead_block 4 A4)) -> u2_M1 inv s4_M s4_C i j = rtab 2 s4_fin i j.
Proof.
  intro I. unfold u2_M1. fold A4. destruct (Nat.lt_ge_cases i 4) as [H|H].
  - apply (lead_values inv 4 5 29 1 2 s4_m1 s4_fin A4 s4_A4); [lra|lra|vm_compute; reflexivity|exact I|exact H].
  - rewrite reduce_lead_rest, s4_A4 by auto. unfold rtab. 
    assert (K : (2 * zat s4_m1 i j = zat s4_fin i j)%Z).
    { destruct (Nat.lt_ge_cases i 5) as [Hi|Hi].
      - assert (i = 4%nat) by lia. subst i. do 29 (destruct j as [|j]; [reflexivity|]). reflexivity || (unfold zat; cbn [s4_m1 s4_fin nth]; destruct j; reflexivity).
      - rewrite (zat_out s4_m1 5 29), (zat_out s4_fin 5 29); auto. }
    unfold zat in K. rewrite <- K, mult_IZR. field.
Qed.
Definition inv4 : nat -> (nat -> nat -> R) -> nat -> nat -> R := fun _ _ => rtab s4_di s4_inv.
Lemma s4_inverts : inverts 4 A4 (inv4 4%nat (lead_block 4 A4)).
Proof. apply (inv_inverts 4 1 s4_di s4_m1 s4_inv A4 s4_A4); [lra|unfold s4_di; lra|vm_compute; reflexivity]. Qed.
Lemma s4_res_ok inv : inverts 4 A4 (inv 4%nat (lead_block 4 A4)) -> forall i k, residue s4_P (u2_M1 inv s4_M s4_C i k) (nth k (nth i s4_res []) 0%Z).
Proof.
  intros I i k. rewrite s4_M1 by auto. apply (tab_residue s4_P 2 5 29); [reflexivity|lra|vm_compute; reflexivity].
Qed.
Lemma s4_regular : regular s4_P (length (map N.to_nat s4_cs)) (map (fun r => map (zcell s4_res (nth r u2_rows (0%nat, []))) s4_cs) s4_rs) = true.
Proof. vm_cast_no_check (@eq_refl bool true). Qed.
Lemma s4_reduced : exists m, gauss_jordan 0 340 (u2_M2 inv4 s4_M s4_C) = Reduced m.
Proof.
  unfold u2_M2.
  refine (mac_regular s4_P ltac:(reflexivity) (u2_M1 inv4 s4_M s4_C) s4_res 395 412 340 u2_rows s4_rs (map N.to_nat s4_cs) s4_cs (s4_res_ok inv4 s4_inverts) eq_refl _ _ _ eq_refl _ _ _ _ s4_regular).
  - discriminate.
  - lia.
  - lia.
  - vm_compute; reflexivity.
  - vm_compute; reflexivity.
  - vm_compute; reflexivity.
  - vm_compute; reflexivity.
Qed.
Lemma s4_kernel : ker_ok s4_fin s4_y u2_rows = true.
Proof. vm_cast_no_check (@eq_refl bool true). Qed.

Lemma s4_well inv : well_shaped (u2_M2 inv s4_M s4_C) (395 + 17).
Proof.
  unfold u2_M2. split; [|split].
  - discriminate.
  - intros q Hq. unfold mac in Hq. apply in_map_iff in Hq as (row & <- & _). now rewrite map_length, seq_length.
  - unfold mac. rewrite map_length. vm_compute. lia.
Qed.
(** the dropped column is not zero *)
Lemma s4_dropped inv precision m : inverts 4 A4 (inv 4%nat (lead_block 4 A4)) -> 0 <= precision < 1 -> clean precision 340 (u2_M2 inv s4_M s4_C) ->
  gauss_jordan precision 340 (u2_M2 inv s4_M s4_C) = Reduced m -> dropped m 1 <> 0.
Proof.
  intros I P Cl Rd. set (y := fun c => IZR (nth c s4_y 0%Z)).
  assert (K : forall q, In q (u2_M2 inv s4_M s4_C) -> dotlist q (map y (seq 0 (395 + 17))) = 0).
  { unfold u2_M2. apply (ker_mac 29 412 4 u2_mon1 u2_mon2 u2_supp 2 s4_fin s4_y u2_rows); [exact u2_table|lra|intros; now apply s4_M1|exact s4_kernel]. }
  assert (Lm : length (u2_M2 inv s4_M s4_C) = 395%nat) by (unfold u2_M2, mac; rewrite map_length; reflexivity).
  assert (W := s4_well inv). remember (u2_M2 inv s4_M s4_C) as m2 eqn:E2. clear E2.
  assert (G := gj_row precision 340 m2 m 395 17 P W Lm ltac:(lia) Cl Rd y 372 K ltac:(lia) ltac:(lia)).
  rewrite (sumn_first 16) in G. cbn [dropped]. intro Z. replace (395 + 0)%nat with 395%nat in G by lia. rewrite Z in G.
  rewrite sumn_0 in G.
  - assert (N : y 372%nat <> 0); [|lra]. unfold y. apply IZR_neq. vm_compute. discriminate.
  - intros s Hs. unfold y. rewrite (nth_overflow s4_y); [ring|]. change (length s4_y) with 396%nat. lia.
Qed.

(** Noise-free data, four points in front of the cameras and in general enough
    position that the elimination succeeds: the true quaternion is not an
    eigenvector of the action matrix for its last component, because
    setupAction_gj copies only sixteen of the seventeen trailing columns. *)
Theorem C75_four_points_refuted : exists l H q t, length l = 4%nat /\ unit_bearings l /\ uH l = Some H /\ qnorm2 q = 1 /\
  in_front l (quaternion2rot q) t /\
  let M := uM (uI H up l) up l in let C := uC (uI H up l) (uJ H l) up l in
  let regular inv := inverts 4 (gcells (u2_cells M C)) (inv 4%nat (lead_block 4 (gcells (u2_cells M C)))) in
  (exists inv A, regular inv /\ u2_action inv 0 M C = Some A) /\
  forall inv precision A, regular inv -> 0 <= precision < 1 -> clean precision 340 (u2_M2 inv M C) ->
    u2_action inv precision M C = Some A -> ~ eigenpair 16 A (q3 q) (u2_basis q).
Proof.
  exists s4_l, s4_H, hq, s4_t. split; [reflexivity|]. split; [exact s4_unit|]. split; [exact s4_uH|]. split; [exact hq_norm|]. split; [exact s4_front|].
  cbv zeta. fold s4_M s4_C. fold A4. split.
  - destruct s4_reduced as [m E]. exists inv4, (u2_action_of m). split; [exact s4_inverts|]. rewrite u2_action_def, E. reflexivity.
  - intros inv precision A I P Cl E B. rewrite u2_action_def in E.
    remember (u2_M2 inv s4_M s4_C) as m2 eqn:E2. destruct (gauss_jordan precision 340 m2) as [m| |] eqn:Rd; try discriminate. injection E as <-.
    rewrite E2 in Cl, Rd. clear E2 m2.
    assert (D := s4_dropped inv precision m I P Cl Rd).
    assert (T := proj1 (C75_plain_eigenvector inv precision s4_M s4_C (ugamma (uJ s4_H s4_l) s4_l) hq m
      (fun j k => uM_sym _ _ _ _ _) (exact_stationary s4_l s4_H hq s4_t s4_unit s4_uH (in_front_on_rays _ _ _ s4_front)) hq_norm I P Cl Rd) B 1%nat ltac:(lia)).
    apply Rmult_integral in T as [T|T]; [now apply D|]. revert T. unfold lost, hq; cbn [q0 q1 q2 q3]. lra.
Qed.

(** the hypotheses of C75_plain_residual and C75_plain_eigenvector are met *)
Example C75_plain_nonvacuous : exists inv m, inverts 4 A4 (inv 4%nat (lead_block 4 A4)) /\
  clean 0 340 (u2_M2 inv s4_M s4_C) /\ gauss_jordan 0 340 (u2_M2 inv s4_M s4_C) = Reduced m /\
  (forall j k, s4_M j k = s4_M k j) /\ stationary s4_M s4_C (ugamma (uJ s4_H s4_l) s4_l) hq /\ qnorm2 hq = 1.
Proof.
  destruct s4_reduced as [m E]. exists inv4, m. split; [exact s4_inverts|]. split; [apply clean_0|]. split; [exact E|].
  split; [intros; apply uM_sym|]. split; [|exact hq_norm].
  exact (exact_stationary s4_l s4_H hq s4_t s4_unit s4_uH (in_front_on_rays _ _ _ s4_front)).
Qed.
