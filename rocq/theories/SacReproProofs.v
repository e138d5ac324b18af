(** Reproducibility (C10): a run depends only on the random numbers it consumes. *)
From Coq Require Import ZArith List Bool Floats Lia Permutation Arith.
From Verif Require Import SacModel SacDrawProofs WhileLib SacRansacProofs.
Import ListNotations.
Open Scope Z_scope.

Section Rep.
  Context {A M : Type}.
  Variable flog : float -> float.
  Variable fpow : float -> float -> float.
  Variable C : sac_class A M.
  Variables (st st' : nat -> Z) (Q : nat).
  Hypothesis agree : forall q, (q < Q)%nat -> st q = st' q.

  (** The same object with the other random stream. *)
  Definition reseed (s : sac_state A) : sac_state A :=
    mkSac (s_indices s) (s_shuffled s) (mkRng st' (rng_pos (s_rng s))) (s_checks s) (s_user s).

  Lemma draw_loop_stream : forall n i pool g p h,
    draw_loop n i pool g = Ret (p, h) ->
    rng_stream h = rng_stream g /\ (rng_pos h = rng_pos g + n)%nat.
  Proof.
    intros n i pool g p h H.
    pose proof (draw_loop_prefix n i pool g g eq_refl (fun _ _ => eq_refl)) as P.
    rewrite H in P. intuition.
  Qed.

  Lemma draw_rep : forall n pool p smp pool' h,
    drawIndexSample n pool (mkRng st p) = Ret (smp, pool', h) ->
    (rng_pos h <= Q)%nat ->
    h = mkRng st (p + n) /\
    drawIndexSample n pool (mkRng st' p) = Ret (smp, pool', mkRng st' (p + n)).
  Proof.
    intros n pool p smp pool' h H HQ. unfold drawIndexSample in *.
    destruct (draw_loop n 0 pool (mkRng st p)) as [[q g]| |] eqn:E; try discriminate.
    cbn [obind] in H. destruct (Nat.ltb (length q) n) eqn:El; [discriminate|].
    inversion H; subst; clear H.
    pose proof (draw_loop_stream _ _ _ _ _ _ E) as [S1 S2]. cbn in S1, S2.
    assert (Hh : h = mkRng st (p + n)) by (destruct h; cbn in *; congruence).
    split; auto.
    pose proof (draw_loop_prefix n 0 pool (mkRng st p) (mkRng st' p) eq_refl) as P.
    cbn [rng_pos rng_stream] in P.
    specialize (P ltac:(intros; apply agree; lia)). rewrite E in P.
    destruct (draw_loop n 0 pool (mkRng st' p)) as [[q' g']| |] eqn:E'; try contradiction.
    destruct P as (<- & P2 & P3 & P4 & P5). cbn [obind]. rewrite El.
    do 2 f_equal. destruct g'; cbn in *. subst. f_equal. lia.
  Qed.

  Lemma sample_checks_rep : forall good tries n s s1 o,
    rng_stream (s_rng s) = st ->
    sample_checks good tries n s = Ret (s1, o) -> (rng_pos (s_rng s1) <= Q)%nat ->
    rng_stream (s_rng s1) = st /\ (rng_pos (s_rng s) <= rng_pos (s_rng s1))%nat
    /\ (rng_pos (s_rng s1) <= rng_pos (s_rng s) + tries * n)%nat
    /\ sample_checks good tries n (reseed s) = Ret (reseed s1, o).
  Proof.
    induction tries; intros n s s1 o HS H HQ; cbn [sample_checks] in *.
    - inversion H; subst. repeat split; auto; lia.
    - destruct s as [idx sh [s2 p] ck u]; cbn in HS; subst s2.
      cbn [s_shuffled s_rng reseed rng_pos] in *.
      destruct (drawIndexSample n sh (mkRng st p)) as [[[smp pool] g]| |] eqn:E; try discriminate.
      cbn [obind] in H.
      assert (G1 : g = mkRng st (p + n)).
      { unfold drawIndexSample in E.
        destruct (draw_loop n 0 sh (mkRng st p)) as [[q h]| |] eqn:E'; try discriminate. cbn [obind] in E.
        destruct (Nat.ltb _ _); [discriminate|]. inversion E; subst.
        pose proof (draw_loop_stream _ _ _ _ _ _ E') as [S1 S2]. destruct g; cbn in *; congruence. }
      subst g. cbv zeta in *. unfold set_pool in *. cbn [s_indices s_checks s_user] in *.
      destruct (good u smp) eqn:Eg.
      + inversion H; subst; clear H. cbn [s_rng rng_pos rng_stream] in *.
        destruct (draw_rep _ _ _ _ _ _ E HQ) as [_ E2]. rewrite E2. cbn [obind].
        unfold set_pool; cbn. rewrite Eg. repeat split; auto; try lia.
      + destruct (IHtries n _ s1 o (eq_refl : rng_stream (s_rng (mkSac idx pool (mkRng st (p+n)) ck u)) = st) H HQ) as (I1 & I2 & I3 & I4).
        cbn [s_rng rng_pos] in I2, I3.
        assert (HQ' : (rng_pos (mkRng st (p + n)) <= Q)%nat) by (cbn; lia).
        destruct (draw_rep _ _ _ _ _ _ E HQ') as [_ E2]. rewrite E2. cbn [obind].
        unfold set_pool, reseed; cbn [s_user s_rng rng_pos s_indices s_checks]. rewrite Eg.
        repeat split; auto; try lia.
  Qed.

  Lemma getSamples_rep : forall s it s1 it1 smp,
    rng_stream (s_rng s) = st ->
    getSamples C s it = Ret (s1, it1, smp) -> (rng_pos (s_rng s1) <= Q)%nat ->
    rng_stream (s_rng s1) = st /\ (rng_pos (s_rng s) <= rng_pos (s_rng s1))%nat
    /\ (rng_pos (s_rng s1) <= rng_pos (s_rng s) + Z.to_nat (s_checks s)
          * Z.to_nat (c_sample_size C (s_user s) mod SIZE_T_MOD))%nat
    /\ getSamples C (reseed s) it = Ret (reseed s1, it1, smp).
  Proof.
    intros s it s1 it1 smp HS H HQ. unfold getSamples in *. cbv zeta in *.
    cbn [s_indices s_user s_checks reseed] in *.
    destruct (_ <? _).
    - inversion H; subst. repeat split; auto; lia.
    - destruct (sample_checks (c_good C) _ _ s) as [[s2 o]| |] eqn:E; try discriminate. cbn [obind] in H.
      assert (s2 = s1) by (destruct o; inversion H; auto). subst s2.
      destruct (sample_checks_rep _ _ _ _ _ _ HS E HQ) as (I1 & I2 & I3 & I4).
      repeat split; auto. unfold reseed in I4 at 1. cbn [s_indices s_shuffled s_rng s_checks s_user] in *.
      unfold reseed at 1. rewrite I4. cbn [obind]. destruct o; inversion H; subst; auto.
  Qed.

  Definition reseed_run (x : @run_state A M) : @run_state A M :=
    let '(s, r, l, tr) := x in (reseed s, r, l, tr).
  Definition run_rng (x : @run_state A M) : rng := let '(s, _, _, _) := x in s_rng s.

  Lemma sample_checks_stream : forall good tries n s0 s1 o,
    @sample_checks A good tries n s0 = Ret (s1, o) ->
    rng_stream (s_rng s1) = rng_stream (s_rng s0) /\ (rng_pos (s_rng s0) <= rng_pos (s_rng s1))%nat.
  Proof.
    intros good. induction tries; intros n s0 s1 o E; cbn [sample_checks] in E.
    - inversion E; subst; auto.
    - destruct (drawIndexSample n (s_shuffled s0) (s_rng s0)) as [[[p q] g]| |] eqn:Ed; try discriminate.
      cbn [obind] in E. cbv zeta in E.
      assert (G : rng_stream g = rng_stream (s_rng s0) /\ (rng_pos (s_rng s0) <= rng_pos g)%nat).
      { unfold drawIndexSample in Ed.
        destruct (draw_loop n 0 _ _) as [[q' h]| |] eqn:E'; try discriminate. cbn [obind] in Ed.
        destruct (Nat.ltb _ _); [discriminate|]. inversion Ed; subst.
        pose proof (draw_loop_stream _ _ _ _ _ _ E') as [S1 S2]. split; [auto|lia]. }
      destruct (good _ _).
      + inversion E; subst. exact G.
      + apply IHtries in E. cbn [s_rng set_pool] in E. destruct G, E. split; [congruence|lia].
  Qed.

  Lemma getSamples_stream : forall s it s1 it1 smp,
    getSamples C s it = Ret (s1, it1, smp) ->
    rng_stream (s_rng s1) = rng_stream (s_rng s) /\ (rng_pos (s_rng s) <= rng_pos (s_rng s1))%nat.
  Proof.
    intros s it s1 it1 smp H. unfold getSamples in H. cbv zeta in H.
    destruct (_ <? _); [inversion H; subst; auto|].
    destruct (sample_checks (c_good C) _ _ s) as [[s2 o]| |] eqn:E; try discriminate. cbn [obind] in H.
    assert (s2 = s1) by (destruct o; inversion H; auto). subst s2. clear H.
    eapply sample_checks_stream; eauto.
  Qed.

  Lemma body_rep : forall x b y,
    rng_stream (run_rng x) = st ->
    ransac_body flog fpow C x = Ret (b, y) ->
    rng_stream (run_rng y) = st /\ (rng_pos (run_rng x) <= rng_pos (run_rng y))%nat
    /\ ((rng_pos (run_rng y) <= Q)%nat ->
        ransac_body flog fpow C (reseed_run x) = Ret (b, reseed_run y)).
  Proof.
    intros [[[s r] l] tr] b y HS H. cbn [run_rng reseed_run] in *.
    unfold ransac_body in *. cbn [s_rng] in *.
    destruct (getSamples C s (o_iterations r)) as [[[s1 it] sel]| |] eqn:Eg; try discriminate.
    cbn [obind] in H.
    destruct (getSamples_stream _ _ _ _ _ Eg) as [S1 S2].
    destruct sel as [|z sel'].
    - inversion H; subst b y. cbn [run_rng]. split; [congruence|]. split; [lia|]. intro HQ.
      destruct (getSamples_rep _ _ _ _ _ HS Eg HQ) as (_ & _ & _ & Er).
      rewrite Er. reflexivity.
    - unfold computeModelCoefficients in *.
      destruct (c_compute C (s_user s1) (z :: sel') (l_coef l)) as [[a2 ok] coef] eqn:Ec.
      destruct ok; cbn [negb] in *.
      + unfold countWithinDistance in *. cbn [s_user s_indices set_user] in *.
        destruct (c_dist C a2 coef (s_indices s1)) as [a3 dist] eqn:Ed.
        destruct (INT_MAX <? _) eqn:Eov; [discriminate|]. cbn [obind] in *.
        destruct (l_best l <? _) eqn:Eb; cbn [o_iterations set_model set_iterations o_max_iterations] in *;
        (destruct (INT_MAX <=? it) eqn:Ei; [discriminate|]);
        inversion H; subst y b; cbn [run_rng s_rng];
        (split; [cbn; congruence|]); (split; [cbn; lia|]);
        intro HQ; cbn [s_rng] in HQ;
        destruct (getSamples_rep _ _ _ _ _ HS Eg HQ) as (_ & _ & _ & Er);
        rewrite Er; unfold reseed, set_user; cbn [obind s_user]; rewrite Ec; cbn [negb s_user s_indices s_shuffled s_rng s_checks];
        rewrite Ed, Eov; cbn [obind]; rewrite Eb;
        cbn [o_iterations set_model set_iterations o_max_iterations]; rewrite Ei; reflexivity.
      + inversion H; subst y b; cbn [run_rng s_rng].
        split; [cbn; congruence|]. split; [cbn; lia|]. intro HQ.
        destruct (getSamples_rep _ _ _ _ _ HS Eg HQ) as (_ & _ & _ & Er).
        rewrite Er. cbn [obind reseed s_user]. rewrite Ec. reflexivity.
  Qed.

  Lemma guard_rep : forall ms x, ransac_guard ms (reseed_run x) = ransac_guard ms x.
  Proof. intros ms [[[s r] l] tr]. reflexivity. Qed.

  Lemma loop_rep : forall ms fuel x y,
    rng_stream (run_rng x) = st ->
    while (ransac_guard ms) (ransac_body flog fpow C) fuel x = Ret y ->
    rng_stream (run_rng y) = st /\ (rng_pos (run_rng x) <= rng_pos (run_rng y))%nat
    /\ ((rng_pos (run_rng y) <= Q)%nat ->
        while (ransac_guard ms) (ransac_body flog fpow C) fuel (reseed_run x) = Ret (reseed_run y)).
  Proof.
    intro ms. induction fuel; intros x y HS H; cbn [while] in *; rewrite guard_rep;
      destruct (ransac_guard ms x) eqn:G; try discriminate.
    - inversion H; subst; repeat split; auto.
    - destruct (ransac_body flog fpow C x) as [[b z]| |] eqn:B; try discriminate.
      destruct (body_rep _ _ _ HS B) as (B1 & B2 & B3).
      destruct b.
      + destruct (IHfuel _ _ B1 H) as (I1 & I2 & I3).
        repeat split; auto; try lia. intro HQ. rewrite B3 by lia. auto.
      + inversion H; subst. repeat split; auto. intro HQ. rewrite B3 by lia. auto.
    - inversion H; subst; repeat split; auto.
  Qed.

  Lemma ransac_rep : forall m0 s r s1 r1 ok tr,
    rng_stream (s_rng s) = st ->
    ransac_computeModel flog fpow C m0 s r = Ret (s1, r1, ok, tr) ->
    (rng_pos (s_rng s1) <= Q)%nat ->
    ransac_computeModel flog fpow C m0 (reseed s) r = Ret (reseed s1, r1, ok, tr).
  Proof.
    intros m0 s r s1 r1 ok tr HS H HQ. unfold ransac_computeModel in *.
    destruct (max_skip_of (o_max_iterations r)) as [ms| |]; try discriminate. cbn [obind] in *.
    cbv zeta in *.
    destruct (ransac_loop flog fpow C _ ms (s, _, _, _)) as [[[[s2 r2] l2] tr2]| |] eqn:EL; try discriminate.
    cbn [obind] in H. rewrite ransac_loop_while in EL.
    assert (HR : (rng_pos (s_rng s2) <= Q)%nat ->
      ransac_loop flog fpow C (ransac_fuel (o_max_iterations (set_iterations r 0)) ms) ms
         (reseed s, set_iterations r 0, mkLoc (- INT_MAX) 1%float 0 [] m0, [])
      = Ret (reseed s2, r2, l2, tr2)).
    { intro. rewrite ransac_loop_while.
      destruct (loop_rep _ _ _ _ (HS : rng_stream (run_rng (s, set_iterations r 0, mkLoc (- INT_MAX) 1%float 0 [] m0, [])) = st) EL) as (_ & _ & L3).
      exact (L3 H0). }
    destruct (o_model r2) eqn:Em.
    - inversion H; subst. rewrite HR by auto. cbn [obind]. rewrite Em. reflexivity.
    - unfold selectWithinDistance in H.
      destruct (c_dist C (s_user s2) (o_coef r2) (s_indices s2)) as [a d] eqn:Ed.
      destruct (select_loop (s_indices s2) d (o_threshold r2)) as [li| |] eqn:Es; try discriminate.
      cbn [obind] in H. inversion H; subst. cbn [s_rng set_user] in HQ.
      rewrite HR by auto. cbn [obind]. rewrite Em. unfold selectWithinDistance.
      cbn [s_user s_indices reseed]. rewrite Ed, Es. reflexivity.
  Qed.
End Rep.
