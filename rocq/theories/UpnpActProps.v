(** The action matrices of UPnP: theorems. *)
From Coq Require Import Reals Lra Lia List Arith Bool NArith ZArith.
From Verif Require Import Lin GenLin Cplx CEig RotModel RotProps SturmModel GaussModel GaussProps GbModel GbProps GpnpGb MacModel MacProps
  UpnpModel UpnpProps UpnpProps2 UpnpProps3 UpnpGen UpnpActModel UpnpActGrad.
Import ListNotations.
Local Open Scope R_scope.

(** * The reduced small matrices *)
Lemma reduce_value inv n A n1 (m : nat -> R) i : (forall k, (k < n)%nat -> sumn n1 (fun c => A k c * m c) = 0) -> (i < n)%nat ->
  sumn n1 (fun c => reduce_lead inv n A i c * m c) = 0.
Proof.
  intros H Hi. unfold reduce_lead. destruct (Nat.ltb_spec i n); [|lia].
  rewrite (sumn_ext n1 _ (fun c => sumn n (fun k => inv n (lead_block n A) i k * (A k c * m c)))).
  - rewrite sumn_swap. apply sumn_0. intros k Hk. rewrite sumn_scale, H by auto. ring.
  - intros c Hc. rewrite Rmult_comm, <- sumn_scale. apply sumn_ext. intros; ring.
Qed.
Lemma reduce_lead_id inv n A i j : inverts n A (inv n (lead_block n A)) -> (i < n)%nat -> (j < n)%nat -> reduce_lead inv n A i j = delta i j.
Proof. intros I Hi Hj. unfold reduce_lead. destruct (Nat.ltb_spec i n); [|lia]. now apply I. Qed.
Lemma reduce_lead_rest inv n A i j : (n <= i)%nat -> reduce_lead inv n A i j = A i j.
Proof. intro H. unfold reduce_lead. destruct (Nat.ltb_spec i n); [lia|auto]. Qed.
Lemma reduce_lead_zero inv n A i j : (i < n)%nat -> (forall k, (k < n)%nat -> A k j = 0) -> reduce_lead inv n A i j = 0.
Proof. intros Hi H. unfold reduce_lead. destruct (Nat.ltb_spec i n); [|lia]. apply sumn_0. intros k Hk. rewrite H by auto. ring. Qed.

Definition u2_keyb (r c : nat) : bool := existsb (fun k => Nat.eqb (fst k) r && Nat.eqb (snd k) c) (map fst (u2_cells (fun _ _ => 0) (fun _ => 0))).
Definition u4_keyb (r c : nat) : bool := existsb (fun k => Nat.eqb (fst k) r && Nat.eqb (snd k) c) (map fst (u4_cells (fun _ _ => 0) (fun _ => 0))).
Lemma u2_zero M C r c : u2_keyb r c = false -> gcells (u2_cells M C) r c = 0.
Proof. intro H. unfold gcells. now rewrite gcells_fold. Qed.
Lemma u4_zero M C r c : u4_keyb r c = false -> gcells (u4_cells M C) r c = 0.
Proof. intro H. unfold gcells. now rewrite gcells_fold. Qed.

(** entries that survive the reduction *)
Definition u2_supp (i k : nat) : bool :=
  if Nat.ltb i 4 then Nat.eqb k i || (Nat.leb 4 k && Nat.ltb k 20) || (Nat.leb 24 k && Nat.ltb k 28)
  else (Nat.leb 20 k && Nat.ltb k 24) || Nat.eqb k 28.
Definition u4_supp (i k : nat) : bool :=
  if Nat.ltb i 7 then Nat.eqb k i || (Nat.leb 7 k && negb (Nat.eqb k 10)) else u4_keyb 7 k.
Lemma u2_table : forallb (mac_ok 29 412 4 u2_mon1 u2_mon2 u2_supp) u2_rows = true.
Proof. vm_cast_no_check (@eq_refl bool true). Qed.
Lemma u4_table : forallb (mac_ok 24 149 4 u4_mon1 u4_mon2 u4_supp) u4_rows = true.
Proof. vm_cast_no_check (@eq_refl bool true). Qed.
Lemma u2_row_range : forallb (fun row => Nat.ltb (fst row) 5) u2_rows = true. Proof. vm_compute. reflexivity. Qed.
Lemma u4_row_range : forallb (fun row => Nat.ltb (fst row) 8) u4_rows = true. Proof. vm_compute. reflexivity. Qed.

Lemma stationary_grad M C g q i : stationary M C g q -> dcost M C q (qe i) = 0.
Proof. intro S. now apply (stationary_dcost M C g q). Qed.
Lemma unit_qn2 q : qnorm2 q = 1 -> qn2 q - 1 = 0.
Proof. unfold qnorm2, qn2. intro H. rewrite <- H. ring. Qed.

Lemma u2_vanish inv M C g q i : (forall j k, M j k = M k j) -> stationary M C g q -> qnorm2 q = 1 -> (i < 5)%nat ->
  sumn 29 (fun k => u2_M1 inv M C i k * mono (qp q) 0 (nth k u2_mon1 [])) = 0.
Proof.
  intros Sy St N Hi. unfold u2_M1.
  assert (G : forall k, (k < 4)%nat -> sumn 29 (fun c => gcells (u2_cells M C) k c * mono (qp q) 0 (nth c u2_mon1 [])) = 0).
  { intros k Hk. rewrite <- (stationary_grad M C g q k St). now apply u2_gradient. }
  destruct (Nat.lt_ge_cases i 4) as [L|L].
  - apply (reduce_value inv 4 _ 29 (fun c => mono (qp q) 0 (nth c u2_mon1 []))); auto.
  - assert (i = 4%nat) by lia. subst i. rewrite (sumn_ext 29 _ (fun c => gcells (u2_cells M C) 4%nat c * mono (qp q) 0 (nth c u2_mon1 []))) by (intros; rewrite reduce_lead_rest; auto).
    rewrite <- (unit_qn2 q N). apply u2_unit.
Qed.
Lemma u2_zeros inv M C i k : inverts 4 (gcells (u2_cells M C)) (inv 4%nat (lead_block 4 (gcells (u2_cells M C)))) ->
  (i < 5)%nat -> (k < 29)%nat -> u2_supp i k = false -> u2_M1 inv M C i k = 0.
Proof.
  intros I Hi Hk Z. unfold u2_M1, u2_supp in *. destruct (Nat.ltb_spec i 4) as [L|L].
  - destruct (Nat.lt_ge_cases k 4) as [K|K].
    + rewrite reduce_lead_id by auto. unfold delta. destruct (Nat.eq_dec i k) as [->|]; auto. rewrite Nat.eqb_refl in Z. discriminate.
    + apply reduce_lead_zero; auto. intros r Hr. apply u2_zero.
      assert (T : forallb (fun r => forallb (fun k => implb (negb ((Nat.leb 4 k && Nat.ltb k 20) || (Nat.leb 24 k && Nat.ltb k 28)) && Nat.leb 4 k) (negb (u2_keyb r k))) (seq 0 29)) (seq 0 4) = true)
        by (vm_compute; reflexivity).
      rewrite forallb_forall in T. specialize (T r). rewrite in_seq in T. specialize (T ltac:(lia)).
      rewrite forallb_forall in T. specialize (T k). rewrite in_seq in T. specialize (T ltac:(lia)).
      apply orb_false_iff in Z as [Z Z3]. apply orb_false_iff in Z as [_ Z2]. rewrite Z2, Z3 in T. cbn [orb negb andb] in T.
      destruct (Nat.leb_spec 4 k); [|lia]. cbn [implb] in T. now apply negb_true_iff in T.
  - rewrite reduce_lead_rest by auto. apply u2_zero. assert (i = 4%nat) by lia. subst i.
    assert (T : forallb (fun k => implb (negb ((Nat.leb 20 k && Nat.ltb k 24) || Nat.eqb k 28)) (negb (u2_keyb 4 k))) (seq 0 29) = true) by (vm_compute; reflexivity).
    rewrite forallb_forall in T. specialize (T k). rewrite in_seq in T. specialize (T ltac:(lia)). rewrite Z in T. now apply negb_true_iff in T.
Qed.

Lemma u4_10 M C : gcells (u4_cells M C) 7%nat 10%nat = 1.
Proof. reflexivity. Qed.
Lemma u4_red_vanish inv M C g q i : (forall j k, M j k = M k j) -> stationary M C g q -> qnorm2 q = 1 -> (i < 8)%nat ->
  sumn 24 (fun k => reduce_lead inv 7 (gcells (u4_cells M C)) i k * mono (qp q) 0 (nth k u4_mon1 [])) = 0.
Proof.
  intros Sy St N Hi.
  assert (G : forall k, (k < 8)%nat -> sumn 24 (fun c => gcells (u4_cells M C) k c * mono (qp q) 0 (nth c u4_mon1 [])) = 0).
  { intros k Hk. destruct (Nat.lt_ge_cases k 4).
    - rewrite <- (stationary_grad M C g q k St). now apply u4_gradient.
    - replace k with (4 + (k - 4))%nat by lia. transitivity (qp q (k - 4) * (qn2 q - 1)); [apply u4_unit; lia|]. rewrite (unit_qn2 q N). ring. }
  destruct (Nat.lt_ge_cases i 7) as [L|L].
  - apply (reduce_value inv 7 _ 24 (fun c => mono (qp q) 0 (nth c u4_mon1 []))); auto.
  - rewrite (sumn_ext 24 _ (fun c => gcells (u4_cells M C) i c * mono (qp q) 0 (nth c u4_mon1 []))) by (intros; rewrite reduce_lead_rest; auto). now apply G.
Qed.
Lemma u4_vanish inv M C g q i : (forall j k, M j k = M k j) -> stationary M C g q -> qnorm2 q = 1 -> (i < 8)%nat ->
  sumn 24 (fun k => u4_M1 inv M C i k * mono (qp q) 0 (nth k u4_mon1 [])) = 0.
Proof.
  intros Sy St N Hi. unfold u4_M1, cancel10. set (A := reduce_lead inv 7 (gcells (u4_cells M C))).
  assert (V : forall r, (r < 8)%nat -> sumn 24 (fun k => A r k * mono (qp q) 0 (nth k u4_mon1 [])) = 0) by (intros; now apply (u4_red_vanish inv M C g)).
  destruct (Nat.ltb_spec i 7); [|now apply V].
  rewrite (sumn_ext 24 _ (fun k => A i k * mono (qp q) 0 (nth k u4_mon1 []) + - (A i 10%nat / A 7%nat 10%nat) * (A 7%nat k * mono (qp q) 0 (nth k u4_mon1 []))))
    by (intros; ring).
  rewrite sumn_add, sumn_scale, !V by lia. ring.
Qed.
Lemma u4_zeros inv M C i k : inverts 7 (gcells (u4_cells M C)) (inv 7%nat (lead_block 7 (gcells (u4_cells M C)))) ->
  (i < 8)%nat -> (k < 24)%nat -> u4_supp i k = false -> u4_M1 inv M C i k = 0.
Proof.
  intros I Hi Hk Z. unfold u4_M1, u4_supp, cancel10 in *. destruct (Nat.ltb_spec i 7) as [L|L].
  - rewrite !(reduce_lead_rest inv 7 _ 7) by lia. rewrite u4_10. destruct (Nat.lt_ge_cases k 7) as [K|K].
    + rewrite reduce_lead_id by auto. rewrite (u4_zero M C 7 k).
      * unfold delta. destruct (Nat.eq_dec i k) as [->|]; [rewrite Nat.eqb_refl in Z; discriminate|]. field.
      * do 7 (destruct k as [|k]; [reflexivity|]). lia.
    + apply orb_false_iff in Z as [_ Z]. destruct (Nat.leb_spec 7 k); [|lia]. cbn [andb] in Z. apply negb_false_iff, Nat.eqb_eq in Z. subst k.
      rewrite u4_10. field.
  - assert (i = 7%nat) by lia. subst i. rewrite reduce_lead_rest by lia. now apply u4_zero.
Qed.

(** * Theorems *)
Ltac mono_value := match goal with |- mono _ _ ?e = _ => let v := eval vm_compute in e in change e with v end; cbn [mono qp nth pow].
Lemma u4_last q s : (s < 8)%nat -> mono (qp q) 0 (nth (141 + s) u4_mon2 []) = u4_basis q s.
Proof. intro H. do 8 (destruct s as [|s]; [mono_value; unfold u4_basis; cbn [nth]; ring|]). lia. Qed.
Lemma u4_lead q i : (i < 4)%nat -> mono (qp q) 0 (nth (121 + i) u4_mon2 []) = q3 q ^ 2 * u4_basis q i.
Proof. intro H. do 4 (destruct i as [|i]; [mono_value; unfold u4_basis; cbn [nth]; ring|]). lia. Qed.
Lemma sumn_neg n f : sumn n (fun i => - f i) = - sumn n f.
Proof. induction n as [|n IH]; cbn [sumn]; [ring|]. rewrite IH. ring. Qed.

Lemma u4_reduced inv precision M C gamma q m2 m : (forall j k, M j k = M k j) -> stationary M C gamma q -> qnorm2 q = 1 ->
  inverts 7 (gcells (u4_cells M C)) (inv 7%nat (lead_block 7 (gcells (u4_cells M C)))) -> 0 <= precision < 1 ->
  m2 = u4_M2 inv M C -> clean precision 121 m2 -> gauss_jordan precision 121 m2 = Reduced m ->
  forall r, (r < 141)%nat -> (121 <= Z.of_nat r)%Z ->
    mono (qp q) 0 (nth r u4_mon2 []) = - sumn 8 (fun s => nth (141 + s) (nth r m []) 0 * mono (qp q) 0 (nth (141 + s) u4_mon2 [])).
Proof.
  intros Sy St N I P E2 Cl Rd.
  apply (mac_reduced_eq 24 141 8 149 4 u4_mon1 u4_mon2 u4_supp u4_rows (u4_M1 inv M C) (qp q) precision 121 m2 m eq_refl E2 u4_table eq_refl); auto.
  - discriminate.
  - intros row Hin. pose proof u4_row_range as Rg. rewrite forallb_forall in Rg. specialize (Rg row Hin). apply Nat.ltb_lt in Rg. split.
    + intros k Hk Z. now apply u4_zeros.
    + now apply (u4_vanish inv M C gamma).
  - lia.
Qed.

Lemma u4_action_eig m q : (forall r, (r < 141)%nat -> (121 <= Z.of_nat r)%Z ->
    mono (qp q) 0 (nth r u4_mon2 []) = - sumn 8 (fun s => nth (141 + s) (nth r m []) 0 * mono (qp q) 0 (nth (141 + s) u4_mon2 []))) ->
  eigenpair 8 (u4_action_of m) (q3 q ^ 2) (u4_basis q).
Proof.
  intro K.
  assert (L : forall i, (i < 4)%nat -> sumn 8 (fun j => - nth (141 + j) (nth (121 + i) m []) 0 * u4_basis q j) = q3 q ^ 2 * u4_basis q i).
  { intros i Hi. rewrite <- u4_lead by auto. rewrite K by lia. rewrite <- sumn_neg. apply sumn_ext. intros s Hs. rewrite u4_last by auto. ring. }
  intros i Hi.
  destruct i as [|i]; [exact (L 0%nat ltac:(lia))|]. destruct i as [|i]; [exact (L 1%nat ltac:(lia))|].
  destruct i as [|i]; [exact (L 2%nat ltac:(lia))|]. destruct i as [|i]; [exact (L 3%nat ltac:(lia))|].
  do 4 (destruct i as [|i]; [unfold u4_action_of; rewrite sumn_delta by lia; unfold u4_basis; cbn [nth]; ring|]). lia.
Qed.

(** (written out so that the kernel unfolds the left side and not the elimination) *)
Lemma u4_action_def inv p M C : u4_action inv p M C = match gauss_jordan p 121 (u4_M2 inv M C) with Reduced m => Some (u4_action_of m) | _ => None end.
Proof. exact (@eq_refl _ (match gauss_jordan p 121 (u4_M2 inv M C) with Reduced m => Some (u4_action_of m) | _ => None end)). Qed.
Lemma u2_action_def inv p M C : u2_action inv p M C = match gauss_jordan p 340 (u2_M2 inv M C) with Reduced m => Some (u2_action_of m) | _ => None end.
Proof. exact (@eq_refl _ (match gauss_jordan p 340 (u2_M2 inv M C) with Reduced m => Some (u2_action_of m) | _ => None end)). Qed.
(** At every unit quaternion where the cost is stationary, the monomials of the
    basis form an eigenvector of the action matrix of the version for five and
    more correspondences, for the eigenvalue q3^2 - so every local minimum of the
    error over the rotations that is a stationary point of the cost is in reach
    of the solver. *)
Theorem C75_eigenvector : forall inv precision M C gamma q A,
  (forall j k, M j k = M k j) -> stationary M C gamma q -> qnorm2 q = 1 ->
  inverts 7 (gcells (u4_cells M C)) (inv 7%nat (lead_block 7 (gcells (u4_cells M C)))) ->
  0 <= precision < 1 -> clean precision 121 (u4_M2 inv M C) ->
  u4_action inv precision M C = Some A ->
  eigenpair 8 A (q3 q ^ 2) (u4_basis q).
Proof.
  intros inv precision M C gamma q A Sy St N I P Cl E. rewrite u4_action_def in E.
  remember (u4_M2 inv M C) as m2 eqn:E2. destruct (gauss_jordan precision 121 m2) as [m| |] eqn:Rd; try discriminate. injection E as <-.
  assert (K := u4_reduced inv precision M C gamma q m2 m Sy St N I P E2 Cl Rd). now apply u4_action_eig.
Qed.

(** The version for up to four correspondences reduces a matrix with seventeen
    trailing columns and copies sixteen of them: [dropped] is the column left out
    (of the monomial q0 q1^2 q3^5), for each row of the action matrix. *)
Definition dropped (m : list (list R)) (i : nat) : R :=
  match i with
  | 0%nat => nth 395 (nth 340 m []) 0 | 1%nat => nth 395 (nth 372 m []) 0 | 2%nat => nth 395 (nth 373 m []) 0 | 3%nat => nth 395 (nth 374 m []) 0
  | 5%nat => nth 395 (nth 389 m []) 0 | 6%nat => nth 395 (nth 390 m []) 0 | _ => 0
  end.
Definition lost (q : quat) : R := q0 q * q1 q ^ 2 * q3 q ^ 5.
Lemma u2_last q s : (s < 17)%nat -> mono (qp q) 0 (nth (395 + s) u2_mon2 []) = match s with 0%nat => lost q | S s' => u2_basis q s' end.
Proof. intro H. do 17 (destruct s as [|s]; [mono_value; unfold u2_basis, lost; cbn [nth]; ring|]). lia. Qed.
Definition u2_lead_row (i : nat) : nat := nth i [340; 372; 373; 374; 0; 389; 390]%nat 0%nat.
Lemma u2_lead q i : (i < 7)%nat -> i <> 4%nat -> mono (qp q) 0 (nth (u2_lead_row i) u2_mon2 []) = q3 q * u2_basis q i.
Proof. intros H N. do 7 (destruct i as [|i]; [try congruence; mono_value; unfold u2_basis; cbn [nth]; ring|]). lia. Qed.
Lemma sumn_first n f : sumn (S n) f = f 0%nat + sumn n (fun i => f (S i)).
Proof. induction n as [|n IH]; [cbn; ring|]. change (sumn (S (S n)) f) with (sumn (S n) f + f (S n)). rewrite IH. cbn [sumn]. ring. Qed.
Lemma u2_reduced inv precision M C gamma q m2 m : (forall j k, M j k = M k j) -> stationary M C gamma q -> qnorm2 q = 1 ->
  inverts 4 (gcells (u2_cells M C)) (inv 4%nat (lead_block 4 (gcells (u2_cells M C)))) -> 0 <= precision < 1 ->
  m2 = u2_M2 inv M C -> clean precision 340 m2 -> gauss_jordan precision 340 m2 = Reduced m ->
  forall r, (r < 395)%nat -> (340 <= Z.of_nat r)%Z ->
    mono (qp q) 0 (nth r u2_mon2 []) = - sumn 17 (fun s => nth (395 + s) (nth r m []) 0 * mono (qp q) 0 (nth (395 + s) u2_mon2 [])).
Proof.
  intros Sy St N I P E2 Cl Rd.
  apply (mac_reduced_eq 29 395 17 412 4 u2_mon1 u2_mon2 u2_supp u2_rows (u2_M1 inv M C) (qp q) precision 340 m2 m eq_refl E2 u2_table eq_refl); auto.
  - discriminate.
  - intros row Hin. pose proof u2_row_range as Rg. rewrite forallb_forall in Rg. specialize (Rg row Hin). apply Nat.ltb_lt in Rg. split.
    + intros k Hk Z. now apply u2_zeros.
    + now apply (u2_vanish inv M C gamma).
  - lia.
Qed.

Theorem C75_plain_residual : forall inv precision M C gamma q m,
  (forall j k, M j k = M k j) -> stationary M C gamma q -> qnorm2 q = 1 ->
  inverts 4 (gcells (u2_cells M C)) (inv 4%nat (lead_block 4 (gcells (u2_cells M C)))) ->
  0 <= precision < 1 -> clean precision 340 (u2_M2 inv M C) ->
  gauss_jordan precision 340 (u2_M2 inv M C) = Reduced m ->
  forall i, (i < 16)%nat ->
  sumn 16 (fun j => u2_action_of m i j * u2_basis q j) = q3 q * u2_basis q i + dropped m i * lost q.
Proof.
  intros inv precision M C gamma q m Sy St N I P Cl Rd.
  assert (K := u2_reduced inv precision M C gamma q _ m Sy St N I P eq_refl Cl Rd). clear Cl Rd.
  assert (L : forall i, (i < 7)%nat -> i <> 4%nat -> sumn 16 (fun j => - nth (396 + j) (nth (u2_lead_row i) m []) 0 * u2_basis q j)
      = q3 q * u2_basis q i + nth 395 (nth (u2_lead_row i) m []) 0 * lost q).
  { intros i Hi Ni. rewrite <- u2_lead by auto. rewrite K.
    - rewrite (sumn_first 16). cbv beta. rewrite u2_last by lia. cbv iota. replace (395 + 0)%nat with 395%nat by lia.
      rewrite (sumn_ext 16 (fun s => nth (395 + S s) (nth (u2_lead_row i) m []) 0 * mono (qp q) 0 (nth (395 + S s) u2_mon2 []))
        (fun s => nth (396 + s) (nth (u2_lead_row i) m []) 0 * u2_basis q s)).
      + rewrite (sumn_ext 16 (fun j => - nth (396 + j) (nth (u2_lead_row i) m []) 0 * u2_basis q j)
          (fun j => - (nth (396 + j) (nth (u2_lead_row i) m []) 0 * u2_basis q j))) by (intros; ring). rewrite sumn_neg. ring.
      + intros s Hs. rewrite u2_last by lia. reflexivity.
    - do 7 (destruct i as [|i]; [cbn; lia|]). lia.
    - do 7 (destruct i as [|i]; [try congruence; cbn; lia|]). lia. }
  intros i Hi.
  destruct i as [|i]; [exact (L 0%nat ltac:(lia) ltac:(lia))|]. destruct i as [|i]; [exact (L 1%nat ltac:(lia) ltac:(lia))|].
  destruct i as [|i]; [exact (L 2%nat ltac:(lia) ltac:(lia))|]. destruct i as [|i]; [exact (L 3%nat ltac:(lia) ltac:(lia))|].
  destruct i as [|i]; [unfold u2_action_of; rewrite sumn_delta by lia; unfold u2_basis; cbn [nth dropped]; ring|].
  destruct i as [|i]; [exact (L 5%nat ltac:(lia) ltac:(lia))|]. destruct i as [|i]; [exact (L 6%nat ltac:(lia) ltac:(lia))|].
  do 9 (destruct i as [|i]; [unfold u2_action_of; rewrite sumn_delta by lia; unfold u2_basis; cbn [nth dropped]; ring|]). lia.
Qed.
(** Hence the true solution is an eigenvector of the action matrix exactly if
    the dropped entries do not matter. *)
Theorem C75_plain_eigenvector : forall inv precision M C gamma q m,
  (forall j k, M j k = M k j) -> stationary M C gamma q -> qnorm2 q = 1 ->
  inverts 4 (gcells (u2_cells M C)) (inv 4%nat (lead_block 4 (gcells (u2_cells M C)))) ->
  0 <= precision < 1 -> clean precision 340 (u2_M2 inv M C) ->
  gauss_jordan precision 340 (u2_M2 inv M C) = Reduced m ->
  (eigenpair 16 (u2_action_of m) (q3 q) (u2_basis q) <-> forall i, (i < 16)%nat -> dropped m i * lost q = 0).
Proof.
  intros inv precision M C gamma q m Sy St N I P Cl Rd.
  assert (K := C75_plain_residual inv precision M C gamma q m Sy St N I P Cl Rd). clear Cl Rd. split; intros H i Hi.
  - specialize (H i Hi). rewrite K in H by auto. lra.
  - rewrite K, H by auto. ring.
Qed.

(** * Noise-free data *)
Lemma exact_stationary l H q t : unit_bearings l -> uH l = Some H -> on_rays l (quaternion2rot q) t ->
  stationary (uM (uI H up l) up l) (uC (uI H up l) (uJ H l) up l) (ugamma (uJ H l) l) q.
Proof.
  intros U EH O. destruct (C55_true_pose l H q t U EH O) as (_ & Z & P). apply minimum_stationary.
  intro p. unfold cost. rewrite Z. apply P.
Qed.
(** Noise-free data, five or more correspondences: the true quaternion is an
    eigenvector. *)
Theorem C75_true_pose : forall inv precision l H q t A, unit_bearings l -> uH l = Some H -> qnorm2 q = 1 ->
  on_rays l (quaternion2rot q) t ->
  let M := uM (uI H up l) up l in let C := uC (uI H up l) (uJ H l) up l in
  inverts 7 (gcells (u4_cells M C)) (inv 7%nat (lead_block 7 (gcells (u4_cells M C)))) ->
  0 <= precision < 1 -> clean precision 121 (u4_M2 inv M C) -> u4_action inv precision M C = Some A ->
  eigenpair 8 A (q3 q ^ 2) (u4_basis q).
Proof.
  intros inv precision l H q t A U EH N O M C I P Cl E.
  apply (C75_eigenvector inv precision M C (ugamma (uJ H l) l) q A); auto.
  - intros. apply uM_sym.
  - now apply (exact_stationary l H q t).
Qed.

(** ... and upnp returns the true pose, if the eigenvalue is simple, the
    EigenSolver finds an eigenvector for every eigenvalue, with real entries for
    real eigenvalues, and no candidate is zero. *)
Lemma csum_real n f : csum n (fun i => RtoC (f i)) = RtoC (sumn n f).
Proof. induction n as [|n IH]; cbn [csum sumn]; [reflexivity|]. rewrite IH, RtoC_add. reflexivity. Qed.
Definition real_columns (n : nat) (A : nat -> nat -> R) (V : nat -> nat -> cx) : Prop :=
  forall k lam, (k < n)%nat -> ceigen n A (RtoC lam) (fun i => V i k) -> forall i, (i < n)%nat -> im (V i k) = 0.
Theorem C75_recovers : forall inv precision eig l H q t A, unit_bearings l -> uH l = Some H -> (4 < length l)%nat -> qnorm2 q = 1 ->
  in_front l (quaternion2rot q) t ->
  let M := uM (uI H up l) up l in let C := uC (uI H up l) (uJ H l) up l in
  inverts 7 (gcells (u4_cells M C)) (inv 7%nat (lead_block 7 (gcells (u4_cells M C)))) ->
  0 <= precision < 1 -> clean precision 121 (u4_M2 inv M C) -> u4_action inv precision M C = Some A ->
  good_ceig 8 A (eig 8%nat A) -> real_columns 8 A (eig 8%nat A) ->
  (forall k, (k < 8)%nat -> exists i, (4 <= i < 8)%nat /\ re (eig 8%nat A i k) <> 0) ->
  (forall w, ceigen 8 A (RtoC (q3 q ^ 2)) w -> exists c, forall i, (i < 8)%nat -> w i = cmul c (RtoC (u4_basis q i))) ->
  det (hess_at H l q) <> 0 -> q0 q * q1 q * q2 q * q3 q <> 0 ->
  exists out, upnp_complete inv precision eig l = Some out /\
    In (Some (mT (quaternion2rot q)), Some (vneg (mv (mT (quaternion2rot q)) t))) out.
Proof.
  intros inv precision eig l H q t A U EH L N F M C I P Cl E GE RC NZ Sim DH Zq.
  assert (EP := C75_true_pose inv precision l H q t A U EH N (in_front_on_rays _ _ _ F) I P Cl E). clear Cl.
  assert (Ev : upnp_evs inv precision eig l = Some (u4_evs (eig 8%nat A))).
  { unfold upnp_evs. rewrite EH. cbv zeta. fold M C. apply Nat.ltb_lt in L. rewrite L, E. reflexivity. }
  unfold upnp_complete. rewrite Ev. clear E Ev.
  assert (NB : exists i, (i < 8)%nat /\ u4_basis q i <> 0).
  { exists 7%nat. split; [lia|]. unfold u4_basis; cbn [nth]. intro X. apply Zq. rewrite X. ring. }
  destruct (GE (RtoC (q3 q ^ 2)) (fun i => RtoC (u4_basis q i))) as (k & Hk & Ek).
  { split.
    - destruct NB as (i & Hi & Ni). exists i. split; auto. intro X. apply Ni. unfold RtoC, c0 in X. now injection X.
    - intros i Hi. rewrite (csum_ext 8 _ (fun j => RtoC (A i j * u4_basis q j))) by (intros; now rewrite RtoC_mul).
      rewrite csum_real, <- RtoC_mul. f_equal. now apply EP. }
  destruct (Sim _ Ek) as (c & Hc). cbv beta in Hc.
  assert (Im : im c = 0).
  { destruct NB as (i & Hi & Ni). pose proof (RC k _ Hk Ek i Hi) as R0. rewrite Hc in R0 by auto.
    unfold cmul, RtoC in R0. cbn [im re] in R0. apply (Rmult_eq_reg_r (u4_basis q i)); auto. lra. }
  assert (Re : re c <> 0).
  { destruct Ek as [(i & Hi & Ni) _]. intro X. apply Ni. rewrite Hc by auto. replace c with c0; [ring|]. destruct c as [cr ci]. cbn [re im] in X, Im. subst. reflexivity. }
  apply (C55_recovers_pose l H); auto; [lia| |].
  - intros e He. unfold u4_evs in He. apply in_map_iff in He as (k' & <- & Hk'). apply in_seq in Hk'.
    destruct (NZ k' ltac:(lia)) as (i & Hi & Ni). intro X. unfold qzero in X. injection X as X0 X1 X2 X3.
    assert (i = 4 \/ i = 5 \/ i = 6 \/ i = 7)%nat as [->|[->|[->| ->]]] by lia; auto.
  - exists (qscale (re c) q), (re c). split; [|split; [auto|split; [reflexivity|now left]]].
    unfold u4_evs. apply in_map_iff. exists k. split; [|apply in_seq; lia].
    rewrite !Hc by lia. unfold qscale, u4_basis, cmul, RtoC; cbn [re im nth]. f_equal; ring.
Qed.
