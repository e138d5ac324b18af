(** C77: the six-point solver needs more than one camera. *)
From Coq Require Import Reals Lra Lia List Arith NArith Bool.
From Verif Require Import Lin GenLin GbProps RotModel RotProps GeoModel SeventeenModel SeventeenProps LinSolve
  SixptGen SixptModel SixptRow2 SixptDet Mac3 SixptProps.
Import ListNotations.
Local Open Scope R_scope.

(** a sum of different powers that is zero everywhere has zero coefficients *)
Lemma pow2_inj m n : 2 ^ m = 2 ^ n -> m = n.
Proof. intro H. destruct (Nat.lt_trichotomy m n) as [L|[E|L]]; auto; apply (Rlt_pow 2) in L; lra. Qed.
Lemma powers_zero n : forall l : list (R * nat), length l = n -> NoDup (map snd l) -> (forall s, lsum (fun p => fst p * s ^ snd p) l = 0) -> forall p, In p l -> fst p = 0.
Proof.
  induction n as [|n IH]; intros [|[a e] l] En Nd H p Hp; try discriminate; [destruct Hp|].
  cbn [map snd] in Nd; inversion Nd as [|? ? N1 N2]; subst; cbn [lsum fst snd] in H; cbn [length] in En.
  assert (Z : forall q, In q l -> fst q = 0).
  { intros q Hq. assert (Q : In (fst q * (2 ^ snd q - 2 ^ e), snd q) (map (fun q => (fst q * (2 ^ snd q - 2 ^ e), snd q)) l)) by (apply in_map_iff; eauto).
    apply IH in Q; cbn [fst] in Q.
    - apply (Rmult_eq_reg_r (2 ^ snd q - 2 ^ e)); [rewrite Q; ring|].
      intro E. apply N1. assert (snd q = e) by (apply pow2_inj; lra). subst e. now apply in_map.
    - rewrite map_length. lia.
    - rewrite map_map. exact N2.
    - intro s. rewrite lsum_map. cbn [fst snd].
      rewrite (lsum_ext _ (fun q => fst q * (2 * s) ^ snd q + - (2 ^ e) * (fst q * s ^ snd q))) by (intros; rewrite Rpow_mult_distr; ring).
      pose proof (H s) as H1. pose proof (H (2 * s)) as H2. rewrite Rpow_mult_distr in H2.
      assert (Sp : forall (f g : R * nat -> R) k, lsum (fun q => f q + k * g q) l = lsum f l + k * lsum g l).
      { intros f g k. clear. induction l as [|x l IHl]; cbn [lsum]; [ring|]. rewrite IHl. ring. }
      rewrite (Sp (fun q => fst q * (2 * s) ^ snd q) (fun q => fst q * s ^ snd q)).
      replace (lsum (fun q => fst q * (2 * s) ^ snd q) l) with (- (a * (2 ^ e * s ^ e))) by lra.
      replace (lsum (fun q => fst q * s ^ snd q) l) with (- (a * s ^ e)) by lra. ring. }
  destruct Hp as [<-|Hp]; [|now apply Z]. cbn [fst]. specialize (H 1). rewrite pow1 in H.
  rewrite (lsum_ext _ (fun q => 0 * 0)) in H by (intros q Hq; rewrite (Z q Hq); ring). rewrite lsum_scale in H. lra.
Qed.

Definition kron (m : N * N * N) : nat := let '(a, b, c) := m in (49 * N.to_nat a + 7 * N.to_nat b + N.to_nat c)%nat.
Lemma mval_kron s m : mval (V3 (s ^ 49) (s ^ 7) s) m = s ^ kron m.
Proof. destruct m as [[a b] c]. cbn [mval vx vy vz kron]. now rewrite !pow_add, !pow_mult. Qed.
Lemma kron_nodup : NoDup (map kron six_mon1).
Proof. apply nodupb_NoDup. vm_compute. reflexivity. Qed.
(** six of the 84 coefficients: a polynomial that vanishes at every Cayley vector is zero *)
Lemma zero_everywhere (c : nat -> R) : (forall v, sumn 84 (fun k => c k * mval v (monat six_mon1 k)) = 0) -> forall k, (k < 84)%nat -> c k = 0.
Proof.
  intros H k Hk. change (c k) with (fst (c k, kron (monat six_mon1 k))).
  apply (powers_zero 84 (map (fun k => (c k, kron (monat six_mon1 k))) (seq 0 84))).
  - now rewrite map_length, seq_length.
  - rewrite map_map. cbn [snd]. exact kron_nodup.
  - intro s. rewrite lsum_map. cbn [fst snd]. rewrite lsum_seq. rewrite <- (H (V3 (s ^ 49) (s ^ 7) s)). apply sumn_ext. intros j _. now rewrite mval_kron.
  - apply in_map_iff. exists k. split; auto. apply in_seq. lia.
Qed.

(** If the six correspondences are seen by the same camera of the rig in each
    view, all equations are zero and no solution can be computed: the matrix
    that is inverted first is zero. *)
Theorem C77_single_camera : forall A idx o1 o2, length idx = 6%nat ->
  (forall k, In k idx -> centre1 A k = o1 /\ centre2 A k = o2 /\ norm2 (ray1 A k) = 1 /\ norm2 (ray2 A k) = 1) ->
  (forall row k, (row < 60)%nat -> (k < 84)%nat -> six_eqs A idx row k = 0) /\ ~ nonsingular 15 (six_BtB (six_eqs A idx)).
Proof.
  intros A idx o1 o2 L X.
  assert (Z : forall row k, (row < 60)%nat -> (k < 84)%nat -> six_eqs A idx row k = 0).
  { intros row k Hr Hk. apply (zero_everywhere (six_eqs A idx row)); auto. intro v.
    apply (C77_equations (mT (cayley2rot v)) (vsub o1 (mv (mT (cayley2rot v)) o2)) A idx v L eq_refl); auto.
    intros j Hj. destruct (X j Hj) as (E1 & E2 & U1 & U2). split; [|auto]. exists 0, 0. rewrite E1, E2.
    generalize (mT (cayley2rot v)) (ray1 A j) (ray2 A j). intros M u w. clear. destruct M, u, w, o1, o2. lunf. f_equal; ring. }
  split; auto. intro NS. enough (E : (fun _ : nat => 1) 0%nat = 0) by (cbn in E; lra).
  apply (NS (fun _ => 1)) with (j := 0%nat); [|lia]. intros i Hi. apply sumn_0. intros j Hj. unfold six_BtB. rewrite sumn_0; [ring|]. intros r Hr. rewrite (Z r i) by lia. ring.
Qed.
