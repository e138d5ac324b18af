(** Why a RANSAC run stops, and the real-number reading of k (C09). *)
From Coq Require Import ZArith List Bool Floats Lia Reals Lra.
From Verif Require Import SacModel WhileLib SacDrawProofs SacRansacProofs.
Import ListNotations.
Open Scope Z_scope.

Section Stop.
  Context {A M : Type}.
  Variable flog : float -> float.
  Variable fpow : float -> float -> float.
  Variable C : sac_class A M.
  Variable s0 : sac_state A.
  Variable r0 : sac_object (list Z) M.
  Variable ms : Z.
  Hypothesis Hms : 0 <= ms < UNSIGNED_MOD.

  Definition k_inv (x : @run_state A M) : Prop :=
    let '(s, r, l, tr) := x in
    (tried_count tr = 0 /\ l_k l = 1%float)
    \/ (0 < tried_count tr /\ l_k l = ransac_k flog fpow (o_probability r0) (l_best l)
                    (Z.of_nat (length (s_indices s0))) (Z.of_nat (length (o_model r)))).

  Definition IK (x : @run_state A M) : Prop := Iloop s0 r0 ms x /\ k_inv x.

  Definition stop_reason (x : @run_state A M) : Prop :=
    let '(s, r, l, tr) := x in
    o_max_iterations r0 < tried_count tr
    \/ skipped_count tr = ms
    \/ (exists s1 it s2 it', s_indices s1 = s_indices s0 /\ wf_sac s1
          /\ getSamples C s1 it = Ret (s2, it', []))
    \/ (0 < tried_count tr /\
        PrimFloat.ltb (float_of_Z (tried_count tr))
          (ransac_k flog fpow (o_probability r0) (l_best l)
             (Z.of_nat (length (s_indices s0))) (Z.of_nat (length (o_model r)))) = false).

  Definition JK (x : @run_state A M) : Prop := Jloop s0 r0 ms x /\ stop_reason x.

  Lemma k_step : forall x, IK x -> ransac_guard ms x = true ->
    match ransac_body flog fpow C x with
    | Ret (true, y) => IK y
    | Ret (false, y) => JK y
    | _ => True
    end.
  Proof.
    intros x [Ix Kx] G. pose proof (body_step flog fpow C s0 r0 ms Hms x Ix G) as B.
    destruct x as [[[s r] l] tr].
    destruct Ix as [(W & E1 & E2 & E3 & E4 & E5 & E6 & E7 & E8 & BI) [It Tc]].
    unfold ransac_body in *.
    destruct (getSamples_ok C s (o_iterations r) W)
      as (s1 & it & sel & Eg & F1 & F2 & F3 & W1 & F4).
    rewrite Eg in *. cbn [obind] in *.
    destruct sel as [|z sel'].
    - split; [exact B|]. right; right; left. exists s, (o_iterations r), s1, it. auto.
    - assert (Hit : it = o_iterations r).
      { destruct F4 as [(?&_)|[(?&_)|(?&_)]]; auto; discriminate. }
      subst it. remember (z :: sel') as sel.
      destruct (computeModelCoefficients C s1 sel (l_coef l)) as [[s2 ok] coef] eqn:EC.
      assert (S2 : s_indices s2 = s_indices s1).
      { unfold computeModelCoefficients in EC. destruct (c_compute C _ _ _) as [[a o] m].
        inversion EC; subst. reflexivity. }
      destruct ok; cbn [negb] in *.
      + destruct (countWithinDistance C s2 coef _) as [[s3 n]| |] eqn:EN; cbn [obind] in *; auto.
        assert (S3 : s_indices s3 = s_indices s2).
        { unfold countWithinDistance in EN. destruct (c_dist C _ _ _).
          destruct (INT_MAX <? _); inversion EN; subst. reflexivity. }
        assert (TR : tried_count (tr ++ [Tried sel coef n]) = o_iterations r + 1)
          by (rewrite tried_count_app, Tc; cbn; lia).
        destruct (Z.ltb_spec (l_best l) n); cbn [o_iterations set_model set_iterations o_max_iterations] in *;
          (destruct (INT_MAX <=? o_iterations r); auto);
          (destruct (Z.ltb_spec (o_max_iterations r) (o_iterations r + 1)); cbn [negb] in *).
        * split; [exact B|]. left. lia.
        * split; [tauto|]. right. split; [lia|]. cbn. rewrite E5, S3, S2, F1, E1. reflexivity.
        * split; [exact B|]. left. lia.
        * split; [tauto|]. destruct Kx as [[K1 K2]|[K1 K2]].
          -- exfalso. destruct BI as [(Eb & _)|(pre & post & sx & cx & Et & _)].
             ++ unfold countWithinDistance in EN. destruct (c_dist C _ _ _) as [a d].
                destruct (INT_MAX <? _); inversion EN; subst.
                pose proof (count_loop_nonneg d (o_threshold r) 0 ltac:(lia)).
                unfold INT_MAX in *. cbn [o_threshold set_iterations] in *. lia.
             ++ rewrite Et, tried_count_app in K1. unfold tried_count in K1.
                cbn [filter is_tried length] in K1. lia.
          -- right. split; [lia|]. cbn. exact K2.
      + split; [tauto|]. unfold k_inv in *. rewrite tried_count_app.
        change (tried_count [Skipped sel]) with 0. cbn. rewrite Z.add_0_r. exact Kx.
  Qed.

  Lemma k_stop : forall x, IK x -> ransac_guard ms x = false -> JK x.
  Proof.
    intros [[[s r] l] tr] [Ix Kx] G. split; [now apply I_impl_J|].
    destruct Ix as [(W & E1 & E2 & E3 & E4 & E5 & E6 & E7 & E8 & BI) [It Tc]].
    unfold ransac_guard in G. apply andb_false_iff in G. destruct G as [G|G].
    - destruct Kx as [[K1 K2]|[K1 K2]].
      + exfalso. rewrite K2, <- Tc, K1 in G. vm_compute in G. discriminate.
      + right; right; right. split; auto. rewrite <- K2, Tc. exact G.
    - right; left. apply Z.ltb_ge in G. lia.
  Qed.

  Lemma loop_JK : forall fuel x y, IK x ->
    ransac_loop flog fpow C fuel ms x = Ret y -> JK y.
  Proof.
    intros fuel x y Ix. rewrite ransac_loop_while.
    apply (while_inv _ _ IK JK); auto.
    - apply k_stop.
    - intros z w Iz G E. pose proof (k_step z Iz G) as B. now rewrite E in B.
    - intros z w Iz G E. pose proof (k_step z Iz G) as B. now rewrite E in B.
  Qed.
End Stop.

Lemma ransac_stop {A M} flog fpow (C : sac_class A M) m0 s r s' r' ok tr :
  wf_sac s -> ransac_computeModel flog fpow C m0 s r = Ret (s', r', ok, tr) ->
  o_max_iterations r < tried_count tr
  \/ skipped_count tr = (o_max_iterations r * 10) mod UNSIGNED_MOD
  \/ (exists s1 it s2 it', s_indices s1 = s_indices s /\ wf_sac s1
        /\ getSamples C s1 it = Ret (s2, it', []))
  \/ (exists best, best_inv (o_model r) (o_coef r) r' best tr /\ 0 < tried_count tr /\
      PrimFloat.ltb (float_of_Z (tried_count tr))
        (ransac_k flog fpow (o_probability r) best
           (Z.of_nat (length (s_indices s))) (Z.of_nat (length (o_model r')))) = false).
Proof.
  intros W. unfold ransac_computeModel.
  destruct (max_skip_of_cases (o_max_iterations r)) as [[Hr E]|[Hr E]]; rewrite E; cbn [obind]; [|discriminate].
  cbv zeta. cbn [o_max_iterations set_iterations].
  set (ms := (o_max_iterations r * 10) mod UNSIGNED_MOD).
  assert (Hms : 0 <= ms < UNSIGNED_MOD) by apply max_skip_range.
  pose proof (I_init s r m0 W) as I0. fold ms in I0.
  destruct (ransac_loop flog fpow C (ransac_fuel (o_max_iterations r) ms) ms
    (s, set_iterations r 0, mkLoc (- INT_MAX) 1%float 0 [] m0, [])) as [[[[s1 r1] l1] tr1]| |] eqn:EL;
    cbn [obind]; try discriminate.
  assert (IK0 : IK flog fpow s r ms (s, set_iterations r 0, mkLoc (- INT_MAX) 1%float 0 [] m0, [])).
  { split; [exact I0|]. left. split; reflexivity. }
  destruct (loop_JK flog fpow C s r ms Hms _ _ _ IK0 EL) as [[(_ & _ & _ & _ & _ & _ & _ & _ & _ & B) _] R].
  intro H.
  assert (HH : tr = tr1 /\ o_model r' = o_model r1 /\ o_coef r' = o_coef r1).
  { destruct (o_model r1) eqn:Em.
    - inversion H; subst; cbn; auto.
    - destruct (selectWithinDistance C s1 _ _) as [[s2 inl2]| |]; cbn [obind] in H; try discriminate.
      inversion H; subst; cbn; auto. }
  clear H. destruct HH as (-> & HM1 & HM2).
  destruct R as [R|[R|[R|[R1 R2]]]]; [auto|auto|auto|].
  right; right; right. exists (l_best l1). rewrite HM1. split; [|split; auto].
  unfold best_inv in *. rewrite HM1, HM2. exact B.
Qed.

(** * The formula in exact reals *)
Open Scope R_scope.

(** pow(w, n) for an integral exponent. *)
Definition Rkf (eps prob best total : R) (n : nat) : R :=
  k_formula Rminus Rdiv Rmax Rmin ln (fun w _ => w ^ n) 1 eps prob best total (INR n).

Section KF.
  Variables (eps prob best total : R) (n : nat).
  Hypothesis He : 0 < eps < 1/2.
  Hypothesis Hp : 0 < prob < 1.
  Let w := best / total.
  Let q := Rmin (1 - eps) (Rmax eps (1 - w ^ n)).

  Lemma q_range : eps <= q <= 1 - eps.
  Proof.
    unfold q, Rmin, Rmax. destruct (Rle_dec eps _); destruct (Rle_dec (1 - eps) _); lra.
  Qed.

  Lemma ln_neg x : 0 < x < 1 -> ln x < 0.
  Proof. intros. rewrite <- ln_1. apply ln_increasing; lra. Qed.

  Lemma k_pos : 0 < Rkf eps prob best total n.
  Proof.
    unfold Rkf, k_formula. fold w. fold q. pose proof q_range.
    assert (ln (1 - prob) < 0) by (apply ln_neg; lra).
    assert (ln q < 0) by (apply ln_neg; lra).
    replace (ln (1 - prob) / ln q) with ((- ln (1 - prob)) / (- ln q)) by (field; lra).
    apply Rdiv_lt_0_compat; lra.
  Qed.

  Lemma k_enough : forall k : nat, Rkf eps prob best total n <= INR k -> q ^ k <= 1 - prob.
  Proof.
    intros k H. unfold Rkf, k_formula in H. fold w in H. fold q in H. pose proof q_range.
    assert (ln (1 - prob) < 0) by (apply ln_neg; lra).
    assert (Lq : ln q < 0) by (apply ln_neg; lra).
    rewrite <- Rpower_pow by lra. unfold Rpower.
    rewrite <- (exp_ln (1 - prob)) by lra.
    assert (INR k * ln q <= ln (1 - prob)).
    { apply Rmult_le_compat_neg_l with (r := ln q) in H; [|lra].
      replace (ln q * (ln (1 - prob) / ln q)) with (ln (1 - prob)) in H by (field; lra). lra. }
    destruct H2 as [H2|H2]; [left; now apply exp_increasing|right; now rewrite H2].
  Qed.
End KF.

Lemma pow_le_l a b k : 0 <= a <= b -> a ^ k <= b ^ k.
Proof. intros. now apply pow_incr. Qed.

Lemma ratio_pow best total n : 0 <= best <= total -> 0 < total -> 0 <= (best / total) ^ n <= 1.
Proof.
  intros Hb Ht. assert (0 <= best / total <= 1).
  { split; [apply Rmult_le_pos; [lra|left; now apply Rinv_0_lt_compat]|].
    apply Rmult_le_reg_r with total; auto. unfold Rdiv. rewrite Rmult_assoc, Rinv_l; lra. }
  split; [now apply pow_le|]. rewrite <- (pow1 n). apply pow_incr. lra.
Qed.

Lemma k_confidence eps prob best total n k :
  0 < eps < 1/2 -> 0 < prob < 1 -> 0 <= best <= total -> 0 < total ->
  eps <= (best / total) ^ n ->
  Rkf eps prob best total n <= INR k ->
  (1 - (best / total) ^ n) ^ k <= 1 - prob.
Proof.
  intros He Hp Hb Ht Hw Hk. pose proof (ratio_pow best total n Hb Ht).
  eapply Rle_trans; [|apply (k_enough eps prob best total n He Hp k Hk)].
  apply pow_le_l. split; [lra|].
  unfold Rmin, Rmax. destruct (Rle_dec eps _); destruct (Rle_dec (1 - eps) _); lra.
Qed.

Lemma k_tiny eps prob best total n :
  0 < eps < 1/2 -> 0 < prob < 1 -> 0 <= best <= total -> 0 < total ->
  (best / total) ^ n < eps ->
  1 - prob < Rpower (1 - (best / total) ^ n) (Rkf eps prob best total n).
Proof.
  intros He Hp Hb Ht Hw. pose proof (ratio_pow best total n Hb Ht) as RP.
  pose proof (k_pos eps prob best total n He Hp) as KP.
  unfold Rkf, k_formula in *. set (v := (best / total) ^ n) in *.
  replace (Rmin (1 - eps) (Rmax eps (1 - v))) with (1 - eps) in *
    by (unfold Rmin, Rmax; destruct (Rle_dec eps _); destruct (Rle_dec (1 - eps) _); lra).
  assert (L : ln (1 - eps) < ln (1 - v)) by (apply ln_increasing; lra).
  assert (L1 : ln (1 - eps) < 0) by (apply ln_neg; lra).
  unfold Rpower. rewrite <- (exp_ln (1 - prob)) at 1 by lra.
  apply exp_increasing.
  replace (ln (1 - prob)) with (ln (1 - prob) / ln (1 - eps) * ln (1 - eps)) at 1 by (field; lra).
  now apply Rmult_lt_compat_l.
Qed.

Lemma k_antitone eps prob b1 b2 total n :
  0 < eps < 1/2 -> 0 < prob < 1 -> 0 <= b1 <= b2 -> 0 < total ->
  Rkf eps prob b2 total n <= Rkf eps prob b1 total n.
Proof.
  intros He Hp Hb Ht.
  unfold Rkf, k_formula.
  set (q1 := Rmin (1 - eps) (Rmax eps (1 - (b1/total) ^ n))).
  set (q2 := Rmin (1 - eps) (Rmax eps (1 - (b2/total) ^ n))).
  pose proof (q_range eps b1 total n He : eps <= q1 <= 1 - eps) as R1.
  pose proof (q_range eps b2 total n He : eps <= q2 <= 1 - eps) as R2.
  assert (W : (b1/total) ^ n <= (b2/total) ^ n).
  { apply pow_le_l. split.
    - apply Rmult_le_pos; [lra|left; now apply Rinv_0_lt_compat].
    - apply Rmult_le_compat_r; [left; now apply Rinv_0_lt_compat|lra]. }
  assert (Q : q2 <= q1).
  { unfold q1, q2. apply Rle_min_compat_l, Rle_max_compat_l. lra. }
  assert (L : ln (1 - prob) < 0) by (apply ln_neg; lra).
  assert (L1 : ln q1 < 0) by (apply ln_neg; lra).
  assert (L2 : ln q2 <= ln q1).
  { destruct Q as [Q|Q]; [left; apply ln_increasing; lra|right; now rewrite Q]. }
  assert (/ ln q1 <= / ln q2).
  { assert (/ (- ln q2) <= / (- ln q1)) by (apply Rinv_le_contravar; lra).
    rewrite !Rinv_opp in H. lra. }
  unfold Rdiv. apply Rmult_le_compat_neg_l; lra.
Qed.
