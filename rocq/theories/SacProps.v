(** Property theorems of the sample-consensus core: C01-C08, C10-C13, C58. *)
From Coq Require Import ZArith List Bool Floats Lia Permutation Arith.
From Verif Require Import SacModel SacSpec SacDrawProofs SacRansacProofs SacRansacProofs2
  SacLmedsProofs SacReproProofs SacUniformProofs FloatLib.
Import ListNotations.
Open Scope Z_scope.

(** * C01 *)
Lemma history_wf {A M} (C : sac_class A M) idx s : history C idx s ->
  s_indices s = idx /\ wf_sac s.
Proof.
  induction 1 as [g a|s it s' it' smp H [IH1 IH2] E|s n smp pool g H [IH1 IH2] E|s a H [IH1 IH2]].
  - split; [reflexivity|apply wf_setIndices].
  - destruct (getSamples_ok C s it IH2) as (s2 & it2 & smp2 & E2 & F1 & _ & _ & W & _).
    rewrite E2 in E. inversion E; subst. split; auto.
  - split; auto. unfold wf_sac in *; cbn.
    unfold drawIndexSample in E.
    destruct (draw_loop n 0 (s_shuffled s) (s_rng s)) as [[p h]| |] eqn:El; try discriminate.
    cbn [obind] in E. destruct (Nat.ltb_spec (length p) n); [discriminate|]. inversion E; subst.
    destruct (le_lt_dec n (length (s_shuffled s))) as [Hl|Hl].
    + destruct (draw_loop_ok n 0 (s_shuffled s) (s_rng s) ltac:(lia)) as (p' & E' & P' & _).
      rewrite E' in El. inversion El; subst. now rewrite IH2.
    + exfalso. clear -El Hl H0.
      assert (HL : forall n i pool g p h, draw_loop n i pool g = Ret (p, h) -> length p = length pool).
      { clear. induction n; intros i pool g p h H; cbn [draw_loop rnd] in H; [inversion H; auto|].
        destruct (Nat.leb _ _); [discriminate|].
        destruct (swap pool i _) eqn:E; try discriminate. cbn [obind] in H.
        rewrite (IHn _ _ _ _ _ H). eapply swap_length; eauto. }
      apply HL in El. lia.
  - split; auto.
Qed.

Theorem C01_pool_never_damaged :
  forall (A M : Type) (C : sac_class A M) (idx : list Z) (s : sac_state A),
    history C idx s ->
    s_indices s = idx /\ Permutation idx (s_shuffled s).
Proof.
  intros A M C idx s H. destruct (history_wf C idx s H) as [E W]. split; auto.
  rewrite <- E. exact W.
Qed.

Theorem C01_samples_without_replacement :
  forall (A M : Type) (C : sac_class A M) (idx : list Z) (s : sac_state A) n,
    history C idx s -> (n <= length idx)%nat ->
    exists smp pool g, drawIndexSample n (s_shuffled s) (s_rng s) = Ret (smp, pool, g)
      /\ length smp = n /\ drawn_from idx smp.
Proof.
  intros A M C idx s n H L. destruct (history_wf C idx s H) as [E W].
  pose proof (Permutation_length W) as PL. rewrite E in PL.
  destruct (drawIndexSample_ok n (s_shuffled s) (s_rng s) ltac:(lia)) as (smp & rest & ED & Ls & P).
  exists smp, (smp ++ rest), (mkRng (rng_stream (s_rng s)) (rng_pos (s_rng s) + n)).
  repeat split; auto. exists rest. rewrite <- E. unfold wf_sac in W. now rewrite W.
Qed.

Theorem C01_samples_distinct :
  forall (A M : Type) (C : sac_class A M) (idx : list Z) (s : sac_state A) it s' it' smp,
    history C idx s -> NoDup idx -> getSamples C s it = Ret (s', it', smp) ->
    NoDup smp /\ incl smp idx.
Proof.
  intros A M C idx s it s' it' smp H N E. destruct (history_wf C idx s H) as [Ei W].
  destruct (getSamples_ok C s it W) as (s2 & it2 & smp2 & E2 & _ & _ & _ & _ & D).
  rewrite E2 in E; inversion E; subst s2 it2 smp2.
  destruct D as [(-> & _)|[(_ & _ & _ & rest & P)|(-> & _)]].
  - split; [constructor|intros ? []].
  - rewrite Ei in P. assert (N2 : NoDup (smp ++ rest)) by (eapply Permutation_NoDup; eauto).
    split.
    + clear -N2. induction smp; [constructor|]. inversion N2; subst. constructor.
      * intro. apply H1. apply in_app_iff. auto.
      * auto.
    + intros x Hx. eapply Permutation_in; [symmetry; exact P|]. apply in_app_iff; auto.
  - split; [constructor|intros ? []].
Qed.

Example C01_nonvacuous :
  exists s s' smp, history demo [4;5;6;9] s /\ getSamples demo s 0 = Ret (s', 0, smp)
    /\ smp = [5;9] /\ NoDup [4;5;6;9].
Proof.
  eexists; eexists; eexists. split; [apply (h_new demo [4;5;6;9] demo_rng tt)|].
  split; [vm_compute; reflexivity|]. split; [reflexivity|].
  repeat constructor; simpl; intuition discriminate.
Qed.

(** * C02 *)
Lemma sample_checks_refused {A M} (C : sac_class A M) : forall tries n s s' o,
  sample_checks (c_good C) tries n s = Ret (s', o) ->
  match o with
  | None => refused_draws C n tries s s'
  | Some smp => exists k s1 pool g, (k < tries)%nat /\ refused_draws C n k s s1
      /\ drawIndexSample n (s_shuffled s1) (s_rng s1) = Ret (smp, pool, g)
      /\ s' = set_pool s1 pool g
  end.
Proof.
  induction tries; intros n s s' o E; cbn [sample_checks] in E.
  - inversion E; subst. constructor.
  - destruct (drawIndexSample n (s_shuffled s) (s_rng s)) as [[[smp pool] g]| |] eqn:ED; try discriminate.
    cbn [obind] in E. destruct (c_good C (s_user (set_pool s pool g)) smp) eqn:G.
    + inversion E; subst. exists 0%nat, s, pool, g. repeat split; auto; [lia|constructor].
    + apply IHtries in E. destruct o.
      * destruct E as (k & s1 & p1 & g1 & Hk & R & D & ->).
        exists (S k), s1, p1, g1. repeat split; auto; [lia|]. econstructor; eauto.
      * econstructor; eauto.
Qed.

(** Exactly one of three outcomes: too few indices (iterations := INT_MAX, no
    sample); the first good sample among the at most [s_checks] draws; no good
    sample in that many draws (empty sample, iterations untouched). *)
Theorem C02_getSamples_outcomes :
  forall (A M : Type) (C : sac_class A M) (idx : list Z) (s : sac_state A) it,
    history C idx s -> 0 <= c_sample_size C (s_user s) <= INT_MAX ->
    let size := c_sample_size C (s_user s) in
    let tries := Z.to_nat (s_checks s) in
    exists s' it' smp, getSamples C s it = Ret (s', it', smp) /\
      (   (Z.of_nat (length idx) < size /\ smp = [] /\ it' = INT_MAX /\ s' = s)
       \/ (size <= Z.of_nat (length idx) /\ it' = it /\ Z.of_nat (length smp) = size
           /\ c_good C (s_user s) smp = true /\ drawn_from idx smp
           /\ exists k s1 pool g, (k < tries)%nat /\ refused_draws C (Z.to_nat size) k s s1
                /\ drawIndexSample (Z.to_nat size) (s_shuffled s1) (s_rng s1) = Ret (smp, pool, g)
                /\ s' = set_pool s1 pool g)
       \/ (size <= Z.of_nat (length idx) /\ it' = it /\ smp = []
           /\ refused_draws C (Z.to_nat size) tries s s')).
Proof.
  intros A M C idx s it H Hs size tries. destruct (history_wf C idx s H) as [Ei W].
  unfold getSamples. cbv zeta.
  rewrite !Z.mod_small by (unfold INT_MAX, SIZE_T_MOD in *; lia). fold size tries.
  rewrite Ei. destruct (Z.ltb_spec (Z.of_nat (length idx)) size) as [Hlt|Hge].
  { exists s, INT_MAX, []. split; auto. }
  destruct (sample_checks_ok (c_good C) tries (Z.to_nat size) s W ltac:(rewrite Ei; lia))
    as (s' & o & d & E & _ & _ & _ & _ & _ & _ & O).
  pose proof (sample_checks_refused C _ _ _ _ _ E) as R. rewrite E. cbn [obind].
  destruct o as [smp|].
  - exists s', it, smp. split; auto. right; left. destruct O as (L & G & (rest & P) & _).
    rewrite Ei in P. repeat split; auto; [lia|exists rest; exact P].
  - exists s', it, []. split; [reflexivity|]. right; right. auto.
Qed.

(** All three outcomes occur. *)
Definition picky : sac_class unit Z :=
  mkClass unit Z (fun _ => 2) (fun _ _ => false) (fun a sel m => (a, true, m))
    (fun a m l => (a, map (demo_score m) l)).
Example C02_nonvacuous :
  (exists s', getSamples demo (setIndices [3] demo_rng tt) 5 = Ret (s', INT_MAX, []))
  /\ (exists s', getSamples demo (setIndices [3;8;9] demo_rng tt) 5 = Ret (s', 5, [8;9]))
  /\ (exists s', getSamples picky (setIndices [3;8;9] demo_rng tt) 5 = Ret (s', 5, [])
                 /\ rng_pos (s_rng s') = 20%nat).
Proof.
  split; [|split]; eexists; [vm_compute; reflexivity|vm_compute; reflexivity|].
  split; [vm_compute; reflexivity|reflexivity].
Qed.

(** * C03, C11 *)
Theorem C03_ransac_terminates :
  forall (A M : Type) flog fpow (C : sac_class A M) idx m0 s r,
    history C idx s ->
    ransac_computeModel flog fpow C m0 s r <> Diverge.
Proof.
  intros A M flog fpow C idx m0 s r H. destruct (history_wf C idx s H) as [Ei W].
  pose proof (ransac_run flog fpow C m0 s r W) as R.
  destruct (ransac_computeModel flog fpow C m0 s r); [discriminate|discriminate|contradiction].
Qed.

Theorem C03_ransac_budget :
  forall (A M : Type) flog fpow (C : sac_class A M) idx m0 s r s' r' ok tr,
    history C idx s -> 0 <= o_max_iterations r ->
    ransac_computeModel flog fpow C m0 s r = Ret (s', r', ok, tr) ->
    n_evaluated tr <= o_max_iterations r + 1 /\ n_rejected tr <= 10 * o_max_iterations r.
Proof.
  intros A M flog fpow C idx m0 s r s' r' ok tr H Hm E. destruct (history_wf C idx s H) as [Ei W].
  pose proof (ransac_run flog fpow C m0 s r W) as R. rewrite E in R.
  destruct R as (Hr & _ & _ & _ & _ & _ & _ & T1 & T2 & _).
  unfold tried_count, skipped_count, is_tried in *. unfold n_evaluated, n_rejected.
  rewrite Z.mod_small in T2 by (unfold UNSIGNED_MOD; lia).
  split; [lia|].
  rewrite (filter_ext _ (fun e => negb (match e with Tried _ _ _ => true | Skipped _ => false end)))
    by (intros []; reflexivity).
  lia.
Qed.

Theorem C11_no_overflow_in_usable_range :
  forall (A M : Type) flog fpow (C : sac_class A M) idx m0 s r,
    history C idx s -> one_score_per_index C -> Z.of_nat (length idx) <= INT_MAX ->
    (0 <= o_max_iterations r <= INT_MAX / 10 ->
       exists x, ransac_computeModel flog fpow C m0 s r = Ret x)
    /\ (INT_MAX / 10 < o_max_iterations r ->
       ransac_computeModel flog fpow C m0 s r = UB).
Proof.
  intros A M flog fpow C idx m0 s r H HD HL. destruct (history_wf C idx s H) as [Ei W].
  split.
  - intro Hr. pose proof (ransac_run flog fpow C m0 s r W) as R.
    change (INT_MAX / 10) with 214748364 in Hr.
    destruct (ransac_computeModel flog fpow C m0 s r); [eauto| |contradiction].
    exfalso. destruct R as [[R|R]|R]; try lia. apply R. split; auto. congruence.
  - intro Hr. change (INT_MAX / 10) with 214748364 in Hr.
    unfold ransac_computeModel.
    destruct (max_skip_of_cases (o_max_iterations r)) as [[Hc _]|[_ E]]; [lia|].
    rewrite E. reflexivity.
Qed.

(** * C04 *)
Theorem C04_ransac_returns_best :
  forall (A M : Type) flog fpow (C : sac_class A M) idx m0 s mx thr prob mi s' r' tr,
    history C idx s ->
    ransac_computeModel flog fpow C m0 s (fresh mx thr prob mi) = Ret (s', r', true, tr) ->
    Forall (genuine C idx) tr
    /\ exists n, first_best tr (o_model r') (o_coef r') n.
Proof.
  intros A M flog fpow C idx m0 s mx thr prob mi s' r' tr H E.
  destruct (history_wf C idx s H) as [Ei W]. split.
  - rewrite <- Ei. exact (ransac_trace_sound _ _ _ _ _ _ _ _ _ _ W E).
  - pose proof (ransac_run flog fpow C m0 s (fresh mx thr prob mi) W) as R. rewrite E in R.
    destruct R as (_ & _ & _ & _ & _ & _ & _ & _ & _ & (best & B) & Ok & _ & _).
    destruct B as [(_ & _ & Em & _)|(pre & post & sel & coef & Et & _ & Em & Ec & _ & B1 & B2)].
    + cbn in Em. rewrite Em in Ok. discriminate.
    + exists best, pre, post. rewrite Em, Ec. repeat split; auto.
Qed.

(** * C05 *)
Theorem C05_select_is_strictly_below :
  forall (A M : Type) (C : sac_class A M) s m thr,
    let dist := snd (c_dist C (s_user s) m (s_indices s)) in
    (length dist <= length (s_indices s))%nat ->
    exists s', selectWithinDistance C s m thr =
      Ret (s', map fst (filter (fun p => PrimFloat.ltb (snd p) thr) (combine (s_indices s) dist))).
Proof.
  intros A M C s m thr dist L. unfold selectWithinDistance. unfold dist in *.
  destruct (c_dist C (s_user s) m (s_indices s)) as [a d]. cbn [snd] in *.
  rewrite select_loop_spec by auto. eexists. reflexivity.
Qed.

Theorem C05_count_is_number_selected :
  forall (A M : Type) (C : sac_class A M) s m thr s' n,
    (length (snd (c_dist C (s_user s) m (s_indices s))) <= length (s_indices s))%nat ->
    countWithinDistance C s m thr = Ret (s', n) ->
    exists inliers, selectWithinDistance C s m thr = Ret (s', inliers) /\ n = Z.of_nat (length inliers).
Proof.
  intros A M C s m thr s' n L E. unfold countWithinDistance, selectWithinDistance in *.
  destruct (c_dist C (s_user s) m (s_indices s)) as [a d]. cbn [snd] in *.
  destruct (INT_MAX <? _); [discriminate|]. inversion E; subst.
  rewrite select_loop_spec by auto. eexists. split; [reflexivity|].
  rewrite map_length. now apply count_loop_spec.
Qed.

Theorem C05_nan_never_inlier :
  forall d thr, PrimFloat.is_nan d = true -> PrimFloat.ltb d thr = false.
Proof. intros. now apply ltb_nan_l. Qed.

Theorem C05_ransac_inliers_of_model :
  forall (A M : Type) flog fpow (C : sac_class A M) idx m0 s mx thr prob mi s' r' tr Inv score,
    history C idx s -> scores_are_function C Inv score -> Inv (s_user s) ->
    ransac_computeModel flog fpow C m0 s (fresh mx thr prob mi) = Ret (s', r', true, tr) ->
    o_inliers r' = filter (fun i => PrimFloat.ltb (score (o_coef r') i) thr) idx
    /\ first_best tr (o_model r') (o_coef r') (Z.of_nat (length (o_inliers r'))).
Proof.
  intros A M flog fpow C idx m0 s mx thr prob mi s' r' tr Inv score H HS HI E.
  destruct (C04_ransac_returns_best _ _ _ _ _ _ _ _ _ _ _ _ _ _ _ H E) as [_ [n FB]].
  destruct (history_wf C idx s H) as [Ei W].
  destruct (ransac_stable flog fpow C Inv score m0 s _ s' r' true tr W HS HI E) as (_ & HC & HO).
  specialize (HO eq_refl). unfold scored in HO. cbn [o_threshold fresh] in HO. rewrite Ei in HO.
  split; [exact HO|].
  destruct FB as (pre & post & Et & B1 & B2).
  assert (n = Z.of_nat (length (o_inliers r'))).
  { rewrite HO. specialize (HC (o_model r') (o_coef r') n).
    unfold scored in HC. cbn [o_threshold fresh] in HC. rewrite Ei in HC. apply HC.
    rewrite Et. apply in_app_iff. right; left; reflexivity. }
  subst n. exists pre, post. auto.
Qed.

(** * C06 *)
Theorem C06_success_iff_hypothesis_evaluated :
  forall (A M : Type) flog fpow (C : sac_class A M) idx m0 s mx thr prob mi s' r' ok tr,
    history C idx s ->
    ransac_computeModel flog fpow C m0 s (fresh mx thr prob mi) = Ret (s', r', ok, tr) ->
    (ok = true <-> 0 < n_evaluated tr) /\ (ok = false -> o_inliers r' = [] /\ o_model r' = []).
Proof.
  intros A M flog fpow C idx m0 s mx thr prob mi s' r' ok tr H E.
  destruct (history_wf C idx s H) as [Ei W].
  pose proof (ransac_run flog fpow C m0 s (fresh mx thr prob mi) W) as R. rewrite E in R.
  destruct R as (_ & _ & _ & _ & _ & _ & _ & _ & _ & (best & B) & Ok & Inl & _).
  unfold n_evaluated.
  destruct B as [(_ & T0 & Em & _)|(pre & post & sel & coef & Et & Ne & Em & Ec & _ & B1 & B2)].
  - cbn in Em. rewrite Em in Ok. subst ok. unfold tried_count, is_tried in T0.
    split; [split; [discriminate|intro; lia]|auto].
  - rewrite Em in Ok. destruct sel; [congruence|]. subst ok. split; [|discriminate].
    split; [|auto]. intros _. rewrite Et, filter_app, app_length. cbn. lia.
Qed.

(** Non-vacuity for C03-C06, C11: a demo run of 12 hypotheses on 8
    correspondences finds the even model with its 5 inliers. *)
Definition demo_idx : list Z := [0;1;2;3;4;5;6;8].
Definition P99 : float := 0x1.fae147ae147aep-1%float.
Definition strip {A B C D} (o : outcome (A * B * C * D)) : outcome (B * C * D) :=
  match o with Ret (_, b, c, d) => Ret (b, c, d) | UB => UB | Diverge => Diverge end.

Example C04_nonvacuous :
  history demo demo_idx (setIndices demo_idx demo_rng tt)
  /\ scores_are_function demo (fun _ => True) demo_score
  /\ one_score_per_index demo
  /\ strip (ransac_computeModel demo_log demo_pow demo 0 (setIndices demo_idx demo_rng tt)
             (fresh 30 0.5 P99 0))
     = Ret (mkObj 30 12 0.5 P99 [0;1] 0 [0;2;4;6;8], true,
            [Tried [1; 5] 1 3; Tried [3; 4] 3 3; Tried [0; 1] 0 5;
             Tried [8; 2] 8 5; Tried [2; 8] 2 5; Tried [4; 0] 4 5;
             Tried [3; 6] 3 3; Tried [8; 4] 8 5; Tried [4; 5] 4 5;
             Tried [2; 4] 2 5; Tried [6; 1] 6 5; Tried [3; 1] 3 3]).
Proof.
  split; [constructor|]. split; [|split; [|vm_compute; reflexivity]].
  - split; [auto|]. intros a m l _. split; [auto|reflexivity].
  - intros a m l. cbn. apply map_length.
Qed.

(** * C07 *)
Theorem C07_reuse_refuted :
  exists (s1 s2 : sac_state unit) r1 r2 tr1 s1' s2',
    history demo [0;1;2;3;4;5;6;8] s1 /\ history demo [] s2
    /\ ransac_computeModel demo_log demo_pow demo 0 s1 (fresh 30 0.5 P99 0) = Ret (s1', r1, true, tr1)
    /\ ransac_computeModel demo_log demo_pow demo 0 s2 r1 = Ret (s2', r2, true, [])
    /\ n_evaluated (@nil (event (list Z) Z)) = 0
    /\ o_model r2 = o_model r1.
Proof.
  eexists (setIndices demo_idx demo_rng tt), (setIndices [] demo_rng tt), _, _, _, _, _.
  split; [constructor|]. split; [constructor|].
  split; [vm_compute; reflexivity|]. split; [vm_compute; reflexivity|].
  split; reflexivity.
Qed.

(** What reuse does guarantee: either a hypothesis of this run was stored (and
    it is the best of this run), or the stored model is the previous one. *)
Theorem C07_own_hypothesis_or_unchanged :
  forall (A M : Type) flog fpow (C : sac_class A M) idx m0 s r s' r' ok tr,
    history C idx s ->
    ransac_computeModel flog fpow C m0 s r = Ret (s', r', ok, tr) ->
    (exists n, first_best tr (o_model r') (o_coef r') n /\ ok = true)
    \/ (n_evaluated tr = 0 /\ o_model r' = o_model r /\ o_coef r' = o_coef r).
Proof.
  intros A M flog fpow C idx m0 s r s' r' ok tr H E.
  destruct (history_wf C idx s H) as [Ei W].
  pose proof (ransac_run flog fpow C m0 s r W) as R. rewrite E in R.
  destruct R as (_ & _ & _ & _ & _ & _ & _ & _ & _ & (best & B) & Ok & Inl & _).
  destruct B as [(_ & T0 & Em & Ec)|(pre & post & sel & coef & Et & Ne & Em & Ec & _ & B1 & B2)].
  - right. auto.
  - left. exists best. split.
    + exists pre, post. rewrite Em, Ec. auto.
    + rewrite Em in Ok. destruct sel; [congruence|auto].
Qed.

(** * C08 *)
Theorem C08_max_iterations_refuted :
  exists (s : sac_state unit) s' r' ok tr,
    history demo [0;1;2;3;4;5;6;7] s
    /\ ransac_computeModel demo_log demo_pow demo 0 s (fresh 3 0.5 P99 0) = Ret (s', r', ok, tr)
    /\ n_evaluated tr = 4 /\ o_iterations r' = 4.
Proof.
  eexists (setIndices [0;1;2;3;4;5;6;7] demo_rng tt), _, _, _, _.
  split; [constructor|]. split; [vm_compute; reflexivity|]. split; reflexivity.
Qed.

Theorem C08_zero_iterations_evaluates_nothing :
  forall (A M : Type) flog fpow (C : sac_class A M) m0 s r,
    o_max_iterations r = 0 -> o_model r = [] ->
    ransac_computeModel flog fpow C m0 s r
      = Ret (s, set_inliers (set_iterations r 0) [], false, []).
Proof.
  intros A M flog fpow C m0 s r H0 Hm. unfold ransac_computeModel. rewrite H0.
  change (max_skip_of 0) with (Ret 0). cbn [obind].
  destruct (ransac_fuel _ _); cbn [ransac_loop set_iterations o_iterations l_skipped l_k];
    rewrite andb_false_r; cbn [obind o_model set_iterations]; rewrite Hm; reflexivity.
Qed.

(** * C10 *)
Theorem C10_run_depends_on_consumed_randomness :
  forall (A M : Type) flog fpow (C : sac_class A M) m0 s r s1 r1 ok tr (st' : nat -> Z),
    ransac_computeModel flog fpow C m0 s r = Ret (s1, r1, ok, tr) ->
    (forall q, (q < rng_pos (s_rng s1))%nat -> rng_stream (s_rng s) q = st' q) ->
    let s' := mkSac (s_indices s) (s_shuffled s) (mkRng st' (rng_pos (s_rng s))) (s_checks s) (s_user s) in
    exists s1', ransac_computeModel flog fpow C m0 s' r = Ret (s1', r1, ok, tr)
      /\ s_shuffled s1' = s_shuffled s1 /\ s_user s1' = s_user s1
      /\ rng_pos (s_rng s1') = rng_pos (s_rng s1).
Proof.
  intros A M flog fpow C m0 s r s1 r1 ok tr st' E Ag s'.
  exists (reseed st' s1). split; [|repeat split].
  exact (ransac_rep flog fpow C (rng_stream (s_rng s)) st' _ Ag m0 s r s1 r1 ok tr eq_refl E (le_n _)).
Qed.

Theorem C10_request_consumes_bounded_randomness :
  forall (A M : Type) (C : sac_class A M) s it s' it' smp,
    getSamples C s it = Ret (s', it', smp) ->
    (rng_pos (s_rng s) <= rng_pos (s_rng s') <= rng_pos (s_rng s)
       + Z.to_nat (s_checks s) * Z.to_nat (c_sample_size C (s_user s) mod SIZE_T_MOD))%nat.
Proof.
  intros A M C s it s' it' smp E.
  destruct (getSamples_rep C (rng_stream (s_rng s)) (rng_stream (s_rng s))
    (rng_pos (s_rng s')) ltac:(auto) s it s' it' smp eq_refl E (le_n _)) as (_ & H1 & H2 & _).
  lia.
Qed.

Example C10_nonvacuous :
  exists s1 r1 tr, ransac_computeModel demo_log demo_pow demo 0 (setIndices demo_idx demo_rng tt)
             (fresh 30 0.5 P99 0) = Ret (s1, r1, true, tr)
   /\ rng_pos (s_rng s1) = 24%nat
   /\ (forall q, (q < 24)%nat -> rng_stream demo_rng q
         = (fun n => if Nat.ltb n 24 then Z.of_nat (7 * n * n + 3 * n + 1) else 0) q).
Proof.
  eexists _, _, _. split; [vm_compute; reflexivity|]. split; [reflexivity|].
  intros q Hq. cbv beta. destruct (Nat.ltb_spec q 24); [reflexivity|lia].
Qed.

(** * C12 *)
Lemma penalty_is_median : forall fsort n l p,
  sort_contract fsort -> n = length l -> (forall x, In x l -> PrimFloat.is_nan x = false) ->
  lmeds_penalty n (fsort l) = Ret (Some p) -> is_median l p.
Proof.
  intros fsort n l p HS -> HN H. destruct (HS l) as [HP HA]. specialize (HA HN).
  pose proof (Permutation_length HP) as HL.
  exists (fsort l). split; [exact HP|]. split; [exact HA|].
  unfold lmeds_penalty in H. rewrite <- HL in H.
  destruct (Nat.leb _ _); [discriminate|].
  destruct (Nat.even (length l)) eqn:Ev.
  - apply Nat.even_spec in Ev. destruct Ev as [k Ek].
    assert (D : (length l / 2 = k)%nat) by (rewrite Ek, (Nat.mul_comm 2); apply Nat.div_mul; discriminate).
    rewrite D in H. destruct k as [|m]; [discriminate|].
    destruct (nth_error (fsort l) m) eqn:E1; [|discriminate].
    destruct (nth_error (fsort l) (S m)) eqn:E2; [|discriminate].
    inversion H; subst p. exists m, f, f0. auto.
  - assert (Od : Nat.odd (length l) = true) by (rewrite <- Nat.negb_even, Ev; reflexivity).
    apply Nat.odd_spec in Od. destruct Od as [k Ek].
    assert (D : (length l / 2 = k)%nat).
    { rewrite Ek. replace (2 * k + 1)%nat with (1 + k * 2)%nat by lia.
      rewrite Nat.div_add by lia. reflexivity. }
    rewrite D in H. destruct (nth_error (fsort l) k) eqn:E1; [|discriminate].
    inversion H; subst p. exists k. auto.
Qed.

(** A concrete sort meeting the contract. *)
Fixpoint finsert (x : float) (l : list float) : list float :=
  match l with
  | [] => [x]
  | y :: t => if PrimFloat.ltb y x then y :: finsert x t else x :: l
  end.
Definition finsort (l : list float) : list float := fold_right finsert [] l.

Lemma finsert_perm x l : Permutation (x :: l) (finsert x l).
Proof.
  induction l as [|y l IH]; cbn; auto. destruct (PrimFloat.ltb y x); auto.
  rewrite perm_swap. now constructor.
Qed.

Fixpoint asc (l : list float) : Prop :=
  match l with [] => True | x :: t => (forall y, In y t -> PrimFloat.ltb y x = false) /\ asc t end.

Lemma finsert_asc x l : PrimFloat.is_nan x = false ->
  (forall y, In y l -> PrimFloat.is_nan y = false) -> asc l -> asc (finsert x l).
Proof.
  intros Nx. induction l as [|y l IH]; intros Nl HA; cbn [finsert].
  - cbn. split; auto. intros ? [].
  - destruct HA as [H1 H2]. destruct (PrimFloat.ltb y x) eqn:E; cbn [asc].
    + split; [|apply IH; auto; intros z Hz; apply Nl; right; auto].
      intros z Hz. apply (Permutation_in z (Permutation_sym (finsert_perm x l))) in Hz.
      destruct Hz as [<-|Hz]; [|auto].
      destruct (PrimFloat.ltb x y) eqn:E2; auto.
      rewrite <- (ltb_irrefl x). symmetry. eapply ltb_trans; eauto.
    + split; [|split; auto]. intros z [<-|Hz]; auto.
      destruct (PrimFloat.ltb z x) eqn:E2; auto. exfalso.
      assert (Ny : PrimFloat.is_nan y = false) by (apply Nl; left; auto).
      assert (Nz : PrimFloat.is_nan z = false) by (apply Nl; right; auto).
      pose proof (H1 z Hz) as H3.
      rewrite (ltb_leb_trans _ _ _ E2 (ltb_total _ _ Ny Nx E)) in H3. discriminate.
Qed.

Lemma finsort_contract : sort_contract finsort.
Proof.
  intro l. assert (P : forall l, Permutation l (finsort l)).
  { clear. induction l; cbn; auto. rewrite <- finsert_perm. now constructor. }
  split; [apply P|]. intro N.
  assert (HA : asc (finsort l)).
  { induction l as [|x l IH]; cbn; auto. apply finsert_asc.
    - apply N; left; auto.
    - intros y Hy. apply N. right. apply (Permutation_in y (Permutation_sym (P l)) Hy).
    - apply IH. intros; apply N; right; auto. }
  revert HA. generalize (finsort l). clear. induction l as [|x l IH]; intros HA i j a b L Ei Ej.
  - destruct i; discriminate.
  - destruct HA as [H1 H2]. destruct j; [lia|]. destruct i; cbn in *.
    + inversion Ei; subst. apply H1. eapply nth_error_In; eauto.
    + apply (IH H2 i j); auto; lia.
Qed.

Theorem C12_lmeds_terminates_in_budget :
  forall (A M : Type) fsort (C : sac_class A M) idx m0 s r,
    history C idx s ->
    lmeds_computeModel fsort C m0 s r <> Diverge
    /\ (forall s' r' ok tr, lmeds_computeModel fsort C m0 s r = Ret (s', r', ok, tr) ->
          Z.of_nat (length (filter (fun e => match e with LTried _ _ _ _ => true | _ => false end) tr))
            <= Z.max 0 (o_max_iterations r)).
Proof.
  intros A M fsort C idx m0 s r H. destruct (history_wf C idx s H) as [Ei W].
  destruct (PrimFloat.eqb (o_threshold r) DBL_MAX) eqn:HT.
  - unfold lmeds_computeModel. rewrite HT. split; [discriminate|].
    intros s' r' ok tr E; inversion E; subst. cbn. lia.
  - pose proof (lmeds_run fsort C m0 s r W HT) as R.
    destruct (lmeds_computeModel fsort C m0 s r) as [[[[s' r'] ok] tr]| |]; [|split; discriminate|contradiction].
    split; [discriminate|]. intros s2 r2 ok2 tr2 E. inversion E; subst.
    destruct R as (_ & _ & _ & _ & _ & _ & _ & T & _). exact T.
Qed.

(** Scores evaluated by the run are numbers, one per index. *)
Definition numeric_scores {A M} (C : sac_class A M) : Prop :=
  forall a m l, length (snd (c_dist C a m l)) = length l
    /\ (forall d, In d (snd (c_dist C a m l)) -> PrimFloat.is_nan (squared_score d) = false).

Lemma squared_clip l : map clip_square l = map squared_score l.
Proof.
  apply map_ext. intro d. unfold clip_square, squared_score.
  destruct (PrimFloat.ltb d 0); reflexivity.
Qed.

Theorem C12_lmeds_least_median :
  forall (A M : Type) fsort (C : sac_class A M) idx m0 s mx thr prob mi s' r' tr,
    history C idx s -> sort_contract fsort -> numeric_scores C ->
    lmeds_computeModel fsort C m0 s (fresh mx thr prob mi) = Ret (s', r', true, tr) ->
    exists pre post dist p,
      tr = pre ++ LTried (o_model r') (o_coef r') dist p :: post
      /\ drawn_from idx (o_model r')
      /\ (exists a m a', c_compute C a (o_model r') m = (a', true, o_coef r'))
      /\ is_median (map squared_score dist) p
      (* the penalties in the trace are the medians of their hypotheses *)
      /\ (forall sel c d q, In (LTried sel c d q) tr ->
            is_median (map squared_score d) q /\ exists a, d = snd (c_dist C a c idx))
      (* nothing evaluated is better, and everything earlier is worse *)
      /\ (forall sel c d q, In (LTried sel c d q) tr -> PrimFloat.ltb q p = false)
      /\ (forall sel c d q, In (LTried sel c d q) pre ->
            PrimFloat.is_nan q = true \/ PrimFloat.ltb p q = true).
Proof.
  intros A M fsort C idx m0 s mx thr prob mi s' r' tr H HS HN E.
  destruct (history_wf C idx s H) as [Ei W].
  destruct (PrimFloat.eqb thr DBL_MAX) eqn:HT.
  { unfold lmeds_computeModel in E. cbn [o_threshold fresh] in E. rewrite HT in E. discriminate. }
  pose proof (lmeds_run fsort C m0 s (fresh mx thr prob mi) W HT) as R. rewrite E in R.
  destruct R as (_ & _ & _ & _ & _ & _ & _ & _ & _ & ES & (best & BN & BA & BC) & _ & RT & _).
  destruct (RT eq_refl) as [Hm _].
  destruct BC as [(_ & Em & _)|(pre & post & sel & coef & d & Et & _ & Em & Ec & _ & Hpre)].
  { cbn in Em. congruence. }
  rewrite Ei in ES.
  assert (ALL : forall sel c d q, In (LTried sel c d q) tr ->
     drawn_from idx sel /\ (exists a m a', c_compute C a sel m = (a', true, c)) /\
     is_median (map squared_score d) q /\ exists a, d = snd (c_dist C a c idx)).
  { intros sl c d' q Hin. rewrite Forall_forall in ES. specialize (ES _ Hin). cbn in ES.
    destruct ES as (S1 & S2 & (a & Ed) & S4). split; [exact S1|]. split; [exact S2|]. split; [|eauto].
    rewrite squared_clip in S4. apply (penalty_is_median fsort (length idx)); auto.
    - rewrite map_length, Ed. symmetry. apply HN.
    - intros x Hx. apply in_map_iff in Hx. destruct Hx as (y & <- & Hy). rewrite Ed in Hy.
      exact (proj2 (HN a c idx) y Hy). }
  exists pre, post, d, best. subst sel coef.
  assert (Hin : In (LTried (o_model r') (o_coef r') d best) tr)
    by (rewrite Et; apply in_app_iff; right; left; reflexivity).
  destruct (ALL _ _ _ _ Hin) as (A1 & A2 & A3 & A4).
  split; [exact Et|]. split; [exact A1|]. split; [exact A2|]. split; [exact A3|].
  split; [intros sl c d' q Hq; destruct (ALL _ _ _ _ Hq) as (_ & _ & ? & ?); auto|].
  split; [exact BA|exact Hpre].
Qed.

(** * C13 *)
Theorem C13_lmeds_inliers_at_most_threshold :
  forall (A M : Type) fsort (C : sac_class A M) idx m0 s mx thr prob mi s' r' tr score,
    history C idx s -> (forall a m l, snd (c_dist C a m l) = map (score m) l) ->
    lmeds_computeModel fsort C m0 s (fresh mx thr prob mi) = Ret (s', r', true, tr) ->
    o_inliers r' = filter (fun i => PrimFloat.leb (score (o_coef r') i) thr) idx.
Proof.
  intros A M fsort C idx m0 s mx thr prob mi s' r' tr score H HS E.
  destruct (history_wf C idx s H) as [Ei W].
  destruct (PrimFloat.eqb thr DBL_MAX) eqn:HT.
  { unfold lmeds_computeModel in E. cbn [o_threshold fresh] in E. rewrite HT in E. discriminate. }
  pose proof (lmeds_run fsort C m0 s (fresh mx thr prob mi) W HT) as R. rewrite E in R.
  destruct R as (_ & _ & _ & _ & _ & _ & _ & _ & _ & _ & _ & _ & RT & _).
  destruct (RT eq_refl) as [_ [a [Ho _]]]. rewrite Ho, Ei, HS. cbn [o_threshold fresh].
  generalize (score (o_coef r')) as f. clear. intro f.
  induction idx as [|x idx IH]; cbn [map combine filter snd]; auto.
  destruct (PrimFloat.leb (f x) thr); cbn [map fst]; now rewrite IH.
Qed.

Theorem C13_agree_unless_equal :
  forall (score : Z -> float) thr idx,
    (forall i, In i idx -> PrimFloat.eqb (score i) thr = false) ->
    filter (fun i => PrimFloat.leb (score i) thr) idx
    = filter (fun i => PrimFloat.ltb (score i) thr) idx.
Proof.
  intros score thr idx H. apply filter_ext_in. intros i Hi.
  rewrite leb_ltb_eqb, (H i Hi). apply orb_false_r.
Qed.

(** A score equal to the threshold is an LMedS inlier but not a RANSAC inlier. *)
Theorem C13_boundary_differs_refuted :
  exists (s : sac_state unit) s1 s2 r1 r2 tr1 tr2,
    history demo demo_idx s
    /\ ransac_computeModel demo_log demo_pow demo 0 s (fresh 1 1 P99 0) = Ret (s1, r1, true, tr1)
    /\ lmeds_computeModel finsort demo 0 s (fresh 1 1 P99 0) = Ret (s2, r2, true, tr2)
    /\ o_model r1 = o_model r2 /\ o_coef r1 = o_coef r2
    /\ o_inliers r1 = [1;3;5] /\ o_inliers r2 = demo_idx.
Proof.
  eexists (setIndices demo_idx demo_rng tt), _, _, _, _, _, _.
  split; [constructor|]. split; [vm_compute; reflexivity|]. split; [vm_compute; reflexivity|].
  repeat split.
Qed.

(** Failure keeps the inliers of an earlier run. *)
Theorem C13_failure_keeps_inliers :
  forall (A M : Type) fsort (C : sac_class A M) idx m0 s r s' r' tr,
    history C idx s ->
    lmeds_computeModel fsort C m0 s r = Ret (s', r', false, tr) ->
    o_inliers r' = o_inliers r.
Proof.
  intros A M fsort C idx m0 s r s' r' tr H E.
  destruct (history_wf C idx s H) as [Ei W].
  destruct (PrimFloat.eqb (o_threshold r) DBL_MAX) eqn:HT.
  { unfold lmeds_computeModel in E. rewrite HT in E. inversion E; subst; auto. }
  pose proof (lmeds_run fsort C m0 s r W HT) as R. rewrite E in R.
  destruct R as (_ & _ & _ & _ & _ & _ & _ & _ & _ & _ & _ & RF & _). auto.
Qed.

Theorem C13_stale_inliers_refuted :
  exists s1 s2 s1' s2' r1 r2 tr1,
    lmeds_computeModel (fun l => l) demo 0 s1 (fresh 3 0.5 P99 0) = Ret (s1', r1, true, tr1)
    /\ history demo [] s2
    /\ lmeds_computeModel (fun l => l) demo 0 s2 r1 = Ret (s2', r2, false, [])
    /\ o_inliers r2 = [1;3;5].
Proof.
  eexists (setIndices demo_idx demo_rng tt), (setIndices [] demo_rng tt), _, _, _, _, _.
  split; [vm_compute; reflexivity|]. split; [constructor|].
  split; [vm_compute; reflexivity|]. reflexivity.
Qed.

Example C12_nonvacuous :
  numeric_scores demo /\ sort_contract finsort
  /\ strip (lmeds_computeModel finsort demo 0 (setIndices demo_idx demo_rng tt) (fresh 3 0.5 P99 0))
     = Ret (mkObj 3 3 0.5 P99 [0;1] 0 [0;2;4;6;8], true,
         [LTried [1; 5] 1 [1;0;1;0;1;0;1;1]%float 1;
          LTried [3; 4] 3 [1;0;1;0;1;0;1;1]%float 1;
          LTried [0; 1] 0 [0;1;0;1;0;1;0;0]%float 0]).
Proof.
  split; [|split; [apply finsort_contract|vm_compute; reflexivity]].
  intros a m l. cbn. split; [apply map_length|]. intros d Hd.
  apply in_map_iff in Hd. destruct Hd as (i & <- & _). unfold demo_score.
  destruct (Z.even (m + i)); reflexivity.
Qed.

(** * C58 *)
Theorem C58_sampling_is_unbiased :
  forall (pool smp : list Z) (n : nat),
    NoDup pool -> (n <= length pool)%nat -> Z.of_nat (length pool) <= SIZE_T_MOD ->
    length smp = n -> NoDup smp -> incl smp pool ->
    exists! cs : list nat,
      (* one choice per draw, the i-th out of (pool size - i) possibilities *)
      (length cs = n /\ forall i c, nth_error cs i = Some c -> (c < length pool - i)%nat)
      /\ (forall g : rng,
            (exists pool' g', drawIndexSample n pool g = Ret (smp, pool', g'))
            <-> (forall i, (i < n)%nat ->
                   nth_error cs i = Some (Z.to_nat ((rng_stream g (rng_pos g + i) mod SIZE_T_MOD)
                                            mod Z.of_nat (length pool - i))))).
Proof.
  intros pool smp n NP L LM Ls NS HI.
  destruct (pick_exists smp pool NS NP HI) as (cs & Lc & Bc & Pc).
  assert (CH : forall g cs', length cs' = n -> pick cs' pool = Some smp ->
     ((exists pool' g', drawIndexSample n pool g = Ret (smp, pool', g'))
      <-> choices_of g (length pool) n = cs')).
  { intros g cs' Lc' Pc'. destruct (draw_is_pick n pool g L) as (smp2 & rest & P2 & D2). split.
    - intros (pool' & g' & D). rewrite D2 in D. inversion D; subst.
      apply (pick_unique _ _ pool smp NP); auto.
      unfold choices_of. rewrite map_length, seq_length. congruence.
    - intro E. rewrite E, Pc' in P2. inversion P2; subst. eauto. }
  assert (NE : forall g cs', length cs' = n ->
     (choices_of g (length pool) n = cs' <->
      forall i, (i < n)%nat -> nth_error cs' i = Some (Z.to_nat ((rng_stream g (rng_pos g + i) mod SIZE_T_MOD)
                                            mod Z.of_nat (length pool - i))))).
  { intros g cs' Lc'. split.
    - intros <- i Hi. unfold choices_of. rewrite nth_error_map.
      rewrite (nth_error_nth' (seq 0 n) 0%nat) by (rewrite seq_length; auto).
      rewrite seq_nth by auto. reflexivity.
    - intro Hn. apply (nth_ext _ _ 0%nat 0%nat).
      + unfold choices_of. rewrite map_length, seq_length. auto.
      + intros i Hi. unfold choices_of in Hi. rewrite map_length, seq_length in Hi.
        specialize (Hn i Hi). apply (nth_error_nth _ _ 0%nat) in Hn. rewrite Hn.
        unfold choices_of.
        rewrite (nth_indep _ 0%nat (draw_choice (rng_stream g (rng_pos g + 0)) (length pool - 0)))
          by (rewrite map_length, seq_length; auto).
        rewrite (map_nth (fun i => draw_choice (rng_stream g (rng_pos g + i)) (length pool - i)) (seq 0 n) 0%nat i).
        rewrite seq_nth by auto. reflexivity. }
  exists cs. split.
  - split; [split; [congruence|exact Bc]|]. intro g.
    rewrite (CH g cs) by (auto; congruence). apply NE. congruence.
  - intros cs' ((Lc' & Bc') & Hg).
    (* realise cs' by a stream *)
    set (g := mkRng (fun i => Z.of_nat (nth i cs' 0%nat)) 0).
    assert (HC : forall i, (i < n)%nat ->
       nth_error cs' i = Some (Z.to_nat ((rng_stream g (rng_pos g + i) mod SIZE_T_MOD) mod Z.of_nat (length pool - i)))).
    { intros i Hi. cbn [rng_stream rng_pos g Nat.add].
      rewrite (nth_error_nth' cs' 0%nat) by lia.
      assert (nth i cs' 0 < length pool - i)%nat
        by (apply Bc'; apply nth_error_nth'; lia).
      rewrite (Z.mod_small _ SIZE_T_MOD) by lia. rewrite Z.mod_small by lia. f_equal. lia. }
    destruct (proj2 (Hg g) HC) as (pool' & g' & D).
    destruct (draw_is_pick n pool g L) as (smp2 & rest & P2 & D2).
    rewrite D2 in D. inversion D; subst smp2.
    apply (pick_unique cs cs' pool smp NP); [congruence|exact Pc|].
    rewrite <- P2. f_equal. symmetry. apply (NE g cs' Lc'). exact HC.
Qed.

Example C58_nonvacuous :
  NoDup [10;20;30] /\ (2 <= length [10;20;30])%nat /\ NoDup [30;10] /\ incl [30;10] [10;20;30]
  /\ exists pool' g', drawIndexSample 2 [10;20;30] (mkRng (fun i => Z.of_nat (nth i [2;1]%nat 0%nat)) 0)
       = Ret ([30;10], pool', g').
Proof.
  repeat split; try (repeat constructor; simpl; intuition discriminate).
  - intros x [<-|[<-|[]]]; simpl; auto.
  - eexists _, _. vm_compute. reflexivity.
Qed.
