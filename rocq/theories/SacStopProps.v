(** C09: the adaptive stopping rule of Ransac. *)
From Coq Require Import ZArith List Bool Floats Lia Reals Lra.
From Verif Require Import SacModel SacSpec SacDrawProofs SacRansacProofs SacProps SacStopProofs.
Import ListNotations.
Open Scope Z_scope.

(** The loop never stops early: a returning run evaluated max_iterations+1
    hypotheses, or exhausted the skip budget, or a sample request failed, or
    the number of evaluated hypotheses reached k for the best inlier count. *)
Theorem C09_stops_only_for_a_reason :
  forall (A M : Type) flog fpow (C : sac_class A M) idx m0 s r s' r' ok tr,
    history C idx s -> 0 <= o_max_iterations r ->
    ransac_computeModel flog fpow C m0 s r = Ret (s', r', ok, tr) ->
    n_evaluated tr = o_max_iterations r + 1
    \/ n_rejected tr = 10 * o_max_iterations r
    \/ (exists s1 it s2 it', s_indices s1 = idx /\ getSamples C s1 it = Ret (s2, it', []))
    \/ (exists best, first_best tr (o_model r') (o_coef r') best
        /\ PrimFloat.ltb (float_of_Z (n_evaluated tr))
             (ransac_k flog fpow (o_probability r) best
                (Z.of_nat (length idx)) (Z.of_nat (length (o_model r')))) = false).
Proof.
  intros A M flog fpow C idx m0 s r s' r' ok tr H H0 E.
  destruct (history_wf C idx s H) as [Ei W].
  destruct (C03_ransac_budget _ _ _ _ _ _ _ _ _ _ _ _ _ H H0 E) as [HB _].
  pose proof (ransac_run flog fpow C m0 s r W) as RR. rewrite E in RR. destruct RR as [Hr _].
  destruct (ransac_stop flog fpow C m0 s r s' r' ok tr W E) as [R|[R|[R|R]]].
  - left. change (tried_count tr) with (n_evaluated tr) in R. lia.
  - right; left. rewrite Z.mod_small in R by (unfold UNSIGNED_MOD; lia).
    rewrite Z.mul_comm, <- R. unfold n_rejected, skipped_count.
    rewrite (filter_ext _ (fun e => negb (is_tried e))) by (intros []; reflexivity). reflexivity.
  - right; right; left. destruct R as (s1 & it & s2 & it' & R1 & _ & R2).
    exists s1, it, s2, it'. split; congruence.
  - right; right; right. destruct R as (best & B & P & L). exists best.
    split; [|rewrite Ei in L; exact L].
    destruct B as [(_ & T0 & _)|(pre & post & sel & coef & Et & _ & Em & Ec & _ & B1 & B2)]; [lia|].
    exists pre, post. rewrite Em, Ec. auto.
Qed.

Open Scope R_scope.

(** The same expression in exact reals.  [eps] is the clamp (DBL_EPSILON). *)
Definition k_real (eps prob best total : R) (n : nat) : R :=
  k_formula Rminus Rdiv Rmax Rmin ln (fun w _ => w ^ n) 1 eps prob best total (INR n).

Theorem C09_confidence :
  forall eps prob best total n k,
    0 < eps < 1/2 -> 0 < prob < 1 -> 0 <= best <= total -> 0 < total ->
    eps <= (best / total) ^ n ->
    k_real eps prob best total n <= INR k ->
    (1 - (best / total) ^ n) ^ k <= 1 - prob.
Proof. exact k_confidence. Qed.

Theorem C09_k_positive : forall eps prob best total n,
    0 < eps < 1/2 -> 0 < prob < 1 -> 0 < k_real eps prob best total n.
Proof. exact k_pos. Qed.

Theorem C09_k_never_increases : forall eps prob b1 b2 total n,
    0 < eps < 1/2 -> 0 < prob < 1 -> 0 <= b1 <= b2 -> 0 < total ->
    k_real eps prob b2 total n <= k_real eps prob b1 total n.
Proof. exact k_antitone. Qed.

(** k is not larger than needed: with fewer samples (and no clamping) the
    advertised confidence is not reached. *)
Theorem C09_k_tight : forall eps prob best total n k,
    0 < eps < 1/2 -> 0 < prob < 1 -> 0 <= best <= total -> 0 < total ->
    eps <= (best / total) ^ n <= 1 - eps ->
    INR k < k_real eps prob best total n ->
    1 - prob < (1 - (best / total) ^ n) ^ k.
Proof.
  intros eps prob best total n k He Hp Hb Ht Hw Hk.
  unfold k_real, k_formula in Hk. set (v := (best / total) ^ n) in *.
  replace (Rmin (1 - eps) (Rmax eps (1 - v))) with (1 - v) in Hk
    by (unfold Rmin, Rmax; destruct (Rle_dec eps _); destruct (Rle_dec (1 - eps) _); lra).
  assert (L : ln (1 - v) < 0) by (apply ln_neg; lra).
  rewrite <- Rpower_pow by lra. unfold Rpower. rewrite <- (exp_ln (1 - prob)) at 1 by lra.
  apply exp_increasing.
  apply Rmult_lt_gt_compat_neg_l with (r := ln (1 - v)) in Hk; [|exact L].
  replace (ln (1 - v) * (ln (1 - prob) / ln (1 - v))) with (ln (1 - prob)) in Hk by (field; lra).
  lra.
Qed.

(** Below the clamp (w^n < eps) the advertised confidence is not reached. *)
Theorem C09_tiny_ratio_refuted : forall eps prob best total n,
    0 < eps < 1/2 -> 0 < prob < 1 -> 0 <= best <= total -> 0 < total ->
    (best / total) ^ n < eps ->
    1 - prob < Rpower (1 - (best / total) ^ n) (k_real eps prob best total n).
Proof. exact k_tiny. Qed.

Example C09_nonvacuous :
  let eps := / 2 ^ 52 in
  0 < eps < 1/2 /\ eps <= (4 / 8) ^ 2 <= 1 - eps
  /\ (exists k, k_real eps (99/100) 4 8 2 <= INR k) /\ (0/8)^2 < eps.
Proof.
  intro eps. assert (0 < eps < 1/8).
  { unfold eps. split; [apply Rinv_0_lt_compat; apply pow_lt; lra|].
    replace (1/8) with (/ 2 ^ 3) by (simpl; lra). apply Rinv_lt_contravar.
    - apply Rmult_lt_0_compat; apply pow_lt; lra.
    - apply Rlt_pow; [lra|lia]. }
  repeat split; try lra.
  set (y := k_real eps (99/100) 4 8 2). destruct (archimed y) as [Hk _].
  exists (Z.to_nat (up y)). rewrite INR_IZR_INZ.
  assert (0 < y) by (apply k_pos; lra).
  rewrite Z2Nat.id; [lra|]. apply le_IZR. lra.
Qed.
