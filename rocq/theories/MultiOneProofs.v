(** C15: on one camera MultiRansac is Ransac, step by step. *)
From Coq Require Import ZArith List Bool Floats Lia Permutation Arith.
From Verif Require Import SacModel SacSpec SacDrawProofs WhileLib SacRansacProofs
  MultiModel MultiSpec MultiProofs.
Import ListNotations.
Open Scope Z_scope.

Section One.
  Context {A M : Type}.
  Variable flog : float -> float.
  Variable fpow : float -> float -> float.
  Variable C : sac_class A M.
  Hypothesis Hsz : forall a, 0 < c_sample_size C a mod SIZE_T_MOD.

  Lemma one_draw : forall n p g,
    multi_draw [n] [p] g = match drawIndexSample n p g with
                           | Ret (smp, p', g') => Ret ([smp], [p'], g')
                           | UB => UB | Diverge => Diverge end.
  Proof. intros. cbn [multi_draw]. destruct (drawIndexSample n p g) as [[[? ?] ?]| |]; reflexivity. Qed.

  Lemma draw_nonempty : forall n p g smp p' g', (0 < n)%nat ->
    drawIndexSample n p g = Ret (smp, p', g') -> smp <> [].
  Proof.
    intros n p g smp p' g' Hn. unfold drawIndexSample.
    destruct (draw_loop n 0 p g) as [[q h]| |]; try discriminate. cbn [obind].
    destruct (Nat.ltb_spec (length q) n); [discriminate|]. intro E; inversion E; subst.
    intro X. apply (f_equal (@length Z)) in X. rewrite firstn_length in X. cbn in X. lia.
  Qed.

  Lemma one_checks : forall tries n (s : sac_state A), (0 < n)%nat ->
    multi_checks (mc_good (one_camera C)) tries [n] (as_one s)
    = match sample_checks (c_good C) tries n s with
      | Ret (s', Some smp) => Ret (as_one s', Some (wrap smp))
      | Ret (s', None) => Ret (as_one s', None)
      | UB => UB | Diverge => Diverge end.
  Proof.
    induction tries; intros n s Hn; cbn [multi_checks sample_checks]; auto.
    cbn [as_one ms_shuffled ms_rng]. rewrite one_draw.
    destruct (drawIndexSample n (s_shuffled s) (s_rng s)) as [[[smp p] g]| |] eqn:E; cbn [obind]; auto.
    cbv zeta. unfold mset_pool, set_pool. cbn [ms_user s_user ms_indices ms_checks mc_good one_camera concat as_one].
    rewrite app_nil_r.
    destruct (c_good C (s_user s) smp).
    - unfold as_one; cbn. destruct smp; [exfalso; eapply draw_nonempty; eauto|reflexivity].
    - rewrite <- IHtries by auto. reflexivity.
  Qed.

  Lemma one_samples : forall (s : sac_state A) it,
    multi_getSamples (one_camera C) (as_one s) it
    = match getSamples C s it with
      | Ret (s', it', smp) => Ret (as_one s', it', wrap smp)
      | UB => UB | Diverge => Diverge end.
  Proof.
    intros s it. unfold multi_getSamples, getSamples.
    cbn [mc_sizes one_camera obind as_one mset_user ms_indices ms_user ms_shuffled ms_rng ms_checks enough].
    destruct (Z.of_nat (length (s_indices s)) <? c_sample_size C (s_user s) mod SIZE_T_MOD); cbn [obind negb]; auto.
    specialize (Hsz (s_user s)).
    pose proof (one_checks (Z.to_nat (s_checks s)) (Z.to_nat (c_sample_size C (s_user s) mod SIZE_T_MOD)) s ltac:(lia)) as OC.
    match goal with |- context [multi_checks ?g ?t ?n ?z] =>
      change (multi_checks g t n z) with (multi_checks (mc_good (one_camera C)) (Z.to_nat (s_checks s))
        [Z.to_nat (c_sample_size C (s_user s) mod SIZE_T_MOD)] (as_one s)) end.
    rewrite OC.
    destruct (sample_checks _ _ _ s) as [[s' [smp|]]| |]; reflexivity.
  Qed.

  Definition R (x : @run_state A M) (y : @multi_run_state A M) : Prop :=
    let '(s, r, l, tr) := x in let '(s1, r1, l1, tr1) := y in
    s1 = as_one s /\ same_object r r1 /\ l_best l1 = l_best l /\ l_k l1 = l_k l
    /\ l_skipped l1 = l_skipped l /\ l_coef l1 = l_coef l /\ tr1 = map wrap_event tr.

  Lemma one_body : forall x y, R x y ->
     match ransac_body flog fpow C x, multi_body flog fpow (one_camera C) y with
     | Ret (c, x'), Ret (d, y') => c = d /\ R x' y'
     | UB, UB => True
     | Diverge, Diverge => True
     | _, _ => False
     end.
  Proof.
    intros [[[s r] l] tr] [[[s1 r1] l1] tr1] (-> & (O1 & O2 & O3 & O4 & O5 & O6) & L1 & L2 & L3 & L4 & ->).
    unfold ransac_body, multi_body. rewrite one_samples, O2.
    destruct (getSamples C s (o_iterations r)) as [[[s2 it] sel]| |]; cbn [obind]; auto.
    destruct sel as [|z sel]; cbn [wrap].
    - split; auto. unfold R, same_object. cbn. repeat split; auto.
    - remember (z :: sel) as ss.
      unfold multi_computeModelCoefficients, computeModelCoefficients.
      cbn [mc_compute one_camera as_one ms_user concat]. rewrite app_nil_r, L4.
      destruct (c_compute C (s_user s2) ss (l_coef l)) as [[a ok] coef].
      assert (WS : wrap ss = [ss]) by (subst ss; reflexivity).
      destruct ok; cbn [negb].
      + unfold multi_countWithinDistance, countWithinDistance.
        cbn [mset_user set_user ms_user s_user ms_indices s_indices as_one mc_dist one_camera concat].
        rewrite app_nil_r.
        destruct (c_dist C a coef (s_indices s2)) as [a' d].
        cbn [multi_count_loop obind o_threshold set_iterations]. rewrite O3.
        destruct (INT_MAX <? count_loop d (o_threshold r) 0); cbn [obind]; auto.
        set (n := count_loop _ _ _). rewrite L1.
        assert (TS : total_size [ss] = Z.of_nat (length ss)) by reflexivity.
        destruct (l_best l <? n); cbn [o_iterations set_model set_iterations o_max_iterations o_probability
          s_indices set_user ms_indices mset_user as_one];
          (destruct (INT_MAX <=? it); auto); rewrite O1; (split; [reflexivity|]);
          unfold R, same_object; cbn; rewrite ?map_app, ?O4, ?L2, ?L3; cbn; rewrite ?WS; repeat split; auto.
      + split; auto. unfold R, same_object. cbn. rewrite map_app, L3. cbn. rewrite WS.
        repeat split; auto.
  Qed.

  Lemma one_run : forall m0 s r q, same_object r q ->
    match ransac_computeModel flog fpow C m0 s r,
          multi_computeModel flog fpow (one_camera C) m0 (as_one s) q with
    | Ret (s', r', ok, tr), Ret (t, q', ok', tr') =>
        t = as_one s' /\ same_object r' q' /\ ok' = ok /\ tr' = map wrap_event tr
        /\ o_inliers q' = if ok then [o_inliers r'] else []
    | UB, UB => True
    | Diverge, Diverge => True
    | _, _ => False
    end.
  Proof.
    intros m0 s r q (O1 & O2 & O3 & O4 & O5 & O6).
    unfold ransac_computeModel, multi_computeModel. rewrite O1.
    destruct (max_skip_of (o_max_iterations r)) as [ms| |]; cbn [obind]; auto.
    cbv zeta. cbn [o_max_iterations set_iterations]. rewrite O1.
    rewrite ransac_loop_while, multi_loop_while.
    set (x := (s, set_iterations r 0, mkLoc (- INT_MAX) 1%float 0 [] m0, [])).
    set (y := (as_one s, set_iterations q 0, mkLoc (- INT_MAX) 1%float 0 [] m0, [])).
    assert (RR : R x y) by (unfold x, y, R, same_object; cbn; repeat split; auto).
    pose proof (while_sim (ransac_guard ms) (ransac_body flog fpow C) (multi_guard ms)
      (multi_body flog fpow (one_camera C)) R) as S.
    assert (G : forall x y, R x y -> ransac_guard ms x = multi_guard ms y).
    { intros [[[s1 r1] l1] tr1] [[[s2 r2] l2] tr2] (_ & (_ & P2 & _) & _ & K2 & K3 & _).
      unfold ransac_guard, multi_guard. now rewrite P2, K2, K3. }
    specialize (S G (fun x y H _ => one_body x y H) (ransac_fuel (o_max_iterations r) ms) x y RR).
    destruct (while (ransac_guard ms) _ _ x) as [[[[s1 r1] l1] tr1]| |];
      destruct (while (multi_guard ms) _ _ y) as [[[[s2 r2] l2] tr2]| |]; try contradiction; cbn [obind]; auto.
    destruct S as (-> & (P1 & P2 & P3 & P4 & P5 & P6) & _ & _ & _ & _ & ->).
    rewrite P5. destruct (o_model r1) as [|z zs] eqn:Em; cbn [wrap].
    - unfold same_object. cbn. rewrite P5, Em. repeat split; auto.
    - unfold multi_selectWithinDistance, selectWithinDistance.
      cbn [ms_user ms_indices as_one mc_dist one_camera concat]. rewrite app_nil_r, P6, P3.
      destruct (c_dist C (s_user s1) (o_coef r1) (s_indices s1)) as [a d]. cbn [multi_select_loop].
      destruct (select_loop (s_indices s1) d (o_threshold r1)); cbn [obind]; auto.
      unfold same_object. cbn. rewrite P5, Em. repeat split; auto.
  Qed.
End One.
