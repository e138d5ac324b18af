(** Multi-camera properties C14, C15, C17, C18. *)
From Coq Require Import ZArith List Bool Floats Lia Permutation Arith.
From Verif Require Import SacModel SacSpec SacDrawProofs WhileLib SacRansacProofs SacProps
  MultiModel MultiSpec MultiProofs MultiOneProofs MultiSizesProofs.
Import ListNotations.
Open Scope Z_scope.

Lemma mhistory_wf {A M} (C : multi_class A M) idx s :
  mhistory C idx s -> ms_indices s = idx /\ wf_multi s.
Proof.
  induction 1 as [g a|s it s' it' smp H [E W] G|s ns smp pool g H [E W] D|s a H [E W]].
  - split; auto. apply Forall2_refl_perm.
  - pose proof (multi_getSamples_ok C s it W) as X. rewrite G in X. destruct X as (X & _ & X2 & _).
    split; congruence || auto.
  - split; auto. unfold wf_multi. cbn. apply Forall2_perm_trans with (ms_shuffled s); auto.
    eapply multi_draw_perm; eauto.
  - split; auto.
Qed.

(** * C14 *)
(** Each request either asks for more than a camera has (reported through the
    iteration counter), or returns, camera by camera, indices drawn without
    replacement in the number asked for, or gives up after the allowed checks. *)
Theorem C14_samples_per_camera :
  forall (A M : Type) (C : multi_class A M) idx s it s' it' smp,
    mhistory C idx s ->
    multi_getSamples C s it = Ret (s', it', smp) ->
    mhistory C idx s' /\ exists sizes, mc_sizes C (ms_user s) = Ret (ms_user s', sizes) /\
      (   (smp = [] /\ it' = INT_MAX
           /\ exists i n l, nth_error sizes i = Some n /\ nth_error idx i = Some l
                            /\ Z.of_nat (length l) < n mod SIZE_T_MOD)
       \/ (it' = it /\ map (fun l => Z.of_nat (length l)) smp = map (fun n => n mod SIZE_T_MOD) sizes
           /\ mc_good C (ms_user s') smp = true /\ mdrawn idx smp)
       \/ (smp = [] /\ it' = it)).
Proof.
  intros A M C idx s it s' it' smp H G. destruct (mhistory_wf C idx s H) as [E W].
  split; [eapply mh_samples; eauto|].
  pose proof (multi_getSamples_ok C s it W) as X. rewrite G in X.
  destruct X as (_ & _ & _ & sizes & X1 & X2). exists sizes. split; auto.
  rewrite <- E. exact X2.
Qed.

(** Cameras draw from consecutive, disjoint stretches of the random stream, each
    exactly as a single-camera problem would. *)
Theorem C14_cameras_draw_independently :
  forall ns pools g smp pools' g',
    (length ns <= length pools)%nat ->
    (forall i n p, nth_error ns i = Some n -> nth_error pools i = Some p -> (n <= length p)%nat) ->
    multi_draw ns pools g = Ret (smp, pools', g') ->
    g' = mkRng (rng_stream g) (rng_pos g + fold_right plus O ns)
    /\ forall i n p, nth_error ns i = Some n -> nth_error pools i = Some p ->
       exists sel p' h, drawIndexSample n p
           (mkRng (rng_stream g) (rng_pos g + fold_right plus O (firstn i ns))) = Ret (sel, p', h)
         /\ nth_error smp i = Some sel /\ nth_error pools' i = Some p'.
Proof. exact multi_draw_each. Qed.

Theorem C14_terminates :
  forall (A M : Type) flog fpow (C : multi_class A M) idx m0 s r,
    (forall a, mc_sizes C a <> Diverge) ->
    mhistory C idx s -> multi_computeModel flog fpow C m0 s r <> Diverge.
Proof.
  intros A M flog fpow C idx m0 s r HS H. destruct (mhistory_wf C idx s H) as [E W].
  pose proof (multi_run flog fpow C HS m0 s r W) as R. intro X. rewrite X in R. exact R.
Qed.

Theorem C14_no_undefined_behaviour :
  forall (A M : Type) flog fpow (C : multi_class A M) idx m0 s r,
    mhistory C idx s -> mone_score_per_index C -> sizes_fine C (length idx) ->
    count_all idx <= INT_MAX -> - 214748364 <= o_max_iterations r <= 214748364 ->
    exists s' r' ok tr, multi_computeModel flog fpow C m0 s r = Ret (s', r', ok, tr)
      /\ tried_count tr <= Z.max 0 (o_max_iterations r) + 1
      /\ skipped_count tr <= (o_max_iterations r * 10) mod UNSIGNED_MOD.
Proof.
  intros A M flog fpow C idx m0 s r H H1 H2 H3 H4. destruct (mhistory_wf C idx s H) as [E W].
  assert (HS : forall a, mc_sizes C a <> Diverge).
  { intro a. destruct (H2 a) as (? & ? & -> & _). discriminate. }
  pose proof (multi_run flog fpow C HS m0 s r W) as R.
  destruct (multi_computeModel flog fpow C m0 s r) as [[[[s' r'] ok] tr]| |]; [|exfalso|contradiction].
  - exists s', r', ok, tr. intuition.
  - rewrite E in R. destruct R as [R|R]; [lia|]. apply R. repeat split; auto.
Qed.

Theorem C14_returns_best :
  forall (A M : Type) flog fpow (C : multi_class A M) idx m0 s mx thr prob mi s' r' tr,
    (forall a, mc_sizes C a <> Diverge) ->
    mhistory C idx s ->
    multi_computeModel flog fpow C m0 s (mfresh mx thr prob mi) = Ret (s', r', true, tr) ->
    Forall (mgenuine C idx) tr
    /\ exists n, first_best tr (o_model r') (o_coef r') n.
Proof.
  intros A M flog fpow C idx m0 s mx thr prob mi s' r' tr HS H E.
  destruct (mhistory_wf C idx s H) as [Ei W].
  pose proof (multi_run flog fpow C HS m0 s (mfresh mx thr prob mi) W) as R. rewrite E in R.
  destruct R as (_ & _ & _ & _ & _ & _ & _ & _ & _ & G & (best & B) & Ok & _ & _).
  rewrite Ei in G. split; auto.
  destruct B as [(_ & _ & Em & _)|(pre & post & sel & coef & Et & _ & Em & Ec & _ & B1 & B2)].
  - cbn in Em. rewrite Em in Ok. discriminate.
  - exists best, pre, post. rewrite Em, Ec. repeat split; auto.
Qed.

Theorem C14_inliers_per_camera :
  forall (A M : Type) flog fpow (C : multi_class A M) idx m0 s mx thr prob mi s' r' tr Inv score,
    mhistory C idx s -> mscores_are_function C Inv score -> Inv (ms_user s) ->
    (forall a, mc_sizes C a <> Diverge) ->
    multi_computeModel flog fpow C m0 s (mfresh mx thr prob mi) = Ret (s', r', true, tr) ->
    o_inliers r' = filter_cams (fun cam i => PrimFloat.ltb (score (o_coef r') cam i) thr) 0 idx
    /\ first_best tr (o_model r') (o_coef r') (count_all (o_inliers r')).
Proof.
  intros A M flog fpow C idx m0 s mx thr prob mi s' r' tr Inv score H HS HI HD E.
  destruct (C14_returns_best _ _ _ _ _ _ _ _ _ _ _ _ _ _ _ HD H E) as [_ [n FB]].
  destruct (mhistory_wf C idx s H) as [Ei W].
  destruct (multi_stable flog fpow C Inv score m0 s _ s' r' true tr W HS HI E) as (HC & HO).
  specialize (HO eq_refl). unfold mscored in *. cbn [o_threshold mfresh] in *. rewrite Ei in *.
  split; [exact HO|].
  destruct FB as (pre & post & Et & B1 & B2).
  assert (n = count_all (o_inliers r')).
  { rewrite HO. apply (HC (o_model r') (o_coef r') n).
    rewrite Et. apply in_app_iff. right; left; reflexivity. }
  subst n. exists pre, post. auto.
Qed.

Theorem C14_success_iff_hypothesis_evaluated :
  forall (A M : Type) flog fpow (C : multi_class A M) idx m0 s mx thr prob mi s' r' ok tr,
    (forall a, mc_sizes C a <> Diverge) ->
    mhistory C idx s ->
    multi_computeModel flog fpow C m0 s (mfresh mx thr prob mi) = Ret (s', r', ok, tr) ->
    (ok = true <-> 0 < n_evaluated tr) /\ (ok = false -> o_inliers r' = [] /\ o_model r' = []).
Proof.
  intros A M flog fpow C idx m0 s mx thr prob mi s' r' ok tr HS H E.
  destruct (mhistory_wf C idx s H) as [Ei W].
  pose proof (multi_run flog fpow C HS m0 s (mfresh mx thr prob mi) W) as R. rewrite E in R.
  destruct R as (_ & _ & _ & _ & _ & _ & _ & _ & _ & _ & (best & B) & Ok & Inl & _).
  unfold n_evaluated.
  destruct B as [(_ & T0 & Em & _)|(pre & post & sel & coef & Et & Ne & Em & Ec & _ & B1 & B2)].
  - cbn in Em. rewrite Em in Ok. subst ok. unfold tried_count, is_tried in T0.
    split; [split; [discriminate|intro; lia]|auto].
  - rewrite Em in Ok. destruct sel; [congruence|]. subst ok. split; [|discriminate].
    split; [|auto]. intros _. rewrite Et, filter_app, app_length. cbn. lia.
Qed.

(** Non-vacuity: two cameras, four samples per hypothesis spread by the real
    getSampleSizes from a rand() counter. *)
Definition RAND_MAX : Z := 2147483647.
Definition demo2 : multi_class nat Z :=
  mkMultiClass
    (fun a => let! l := getSampleSizes 2 3 (Z.of_nat a * 715827883 mod RAND_MAX) RAND_MAX in Ret (S a, l))
    (fun _ _ => true)
    (fun a sel m => if existsb (Z.eqb 7) (concat sel) then (a, false, m)
                    else (a, true, hd 0 (concat sel)))
    (fun a m l => (a, map_cams (fun _ => demo_score m) 0 l)).
Definition demo2_idx : list (list Z) := [[0;1;2;3;4]; [2;5;6;7;8]].

Example C14_nonvacuous :
  mhistory demo2 demo2_idx (msetIndices demo2_idx demo_rng O)
  /\ mscores_are_function demo2 (fun _ => True) (fun m _ i => demo_score m i)
  /\ mone_score_per_index demo2 /\ sizes_fine demo2 2
  /\ exists tr, strip (multi_computeModel demo_log demo_pow demo2 0 (msetIndices demo2_idx demo_rng O)
             (mfresh 6 0.5 P99 0))
     = Ret (mkObj 6 7 0.5 P99 [[2]; [5; 6]] 2 [[0; 2; 4]; [2; 6; 8]], true, tr)
     /\ length tr = 7%nat.
Proof.
  split; [constructor|]. split; [|split; [|split; [|eexists; split; [vm_compute; reflexivity|reflexivity]]]].
  - split; [auto|]. split; [auto|]. intros a m l _. split; [auto|]. reflexivity.
  - intros a m l. cbn. apply map_cams_len.
  - intro a. cbn [mc_sizes demo2]. unfold getSampleSizes.
    destruct (sizes_ok 2 3 (Z.to_nat (start_bin (Z.of_nat 2) (Z.of_nat a * 715827883 mod RAND_MAX) RAND_MAX)))
      as (l & E & L & _).
    { unfold start_bin. pose proof (Z.mod_pos_bound (Z.of_nat a * 715827883) RAND_MAX ltac:(reflexivity)).
      assert (Z.of_nat 2 * (Z.of_nat a * 715827883 mod RAND_MAX) / RAND_MAX < 2).
      { apply Z.div_lt_upper_bound; unfold RAND_MAX in *; lia. }
      lia. }
    rewrite E. cbn [obind]. eexists _, _. split; [reflexivity|]. lia.
Qed.

(** * C15 *)
Theorem C15_one_camera_is_ransac :
  forall (A M : Type) flog fpow (C : sac_class A M) m0 s r q,
    (forall a, 0 < c_sample_size C a mod SIZE_T_MOD) ->
    same_object r q ->
    match ransac_computeModel flog fpow C m0 s r,
          multi_computeModel flog fpow (one_camera C) m0 (as_one s) q with
    | Ret (s', r', ok, tr), Ret (t, q', ok', tr') =>
        t = as_one s' /\ same_object r' q' /\ ok' = ok /\ tr' = map wrap_event tr
        /\ o_inliers q' = if ok then [o_inliers r'] else []
    | UB, UB => True
    | Diverge, Diverge => True
    | _, _ => False
    end.
Proof. intros. now apply one_run. Qed.

Example C15_nonvacuous :
  (forall a, 0 < c_sample_size demo a mod SIZE_T_MOD)
  /\ same_object (fresh 30 0.5 P99 0) (mfresh 30 0.5 P99 0)
  /\ (exists tr, strip (multi_computeModel demo_log demo_pow (one_camera demo) 0
             (as_one (setIndices demo_idx demo_rng tt)) (mfresh 30 0.5 P99 0))
     = Ret (mkObj 30 12 0.5 P99 [[0;1]] 0 [[0;2;4;6;8]], true, tr)
     /\ length tr = 12%nat).
Proof.
  split; [intro; reflexivity|]. split; [repeat split|].
  eexists. split; [vm_compute; reflexivity|reflexivity].
Qed.

(** * C17 *)
Theorem C17_sizes_even :
  forall cams k r randmax,
    (0 < cams)%nat -> 0 <= r < randmax ->
    exists sizes, getSampleSizes cams k r randmax = Ret sizes
      /\ length sizes = cams
      /\ Zsum sizes = Z.of_nat k
      /\ (forall i j, (i < cams)%nat -> (j < cams)%nat -> nth i sizes 0 <= nth j sizes 0 + 1)
      /\ (forall i, (i < cams)%nat -> 0 <= nth i sizes 0).
Proof.
  intros cams k r randmax Hc Hr. unfold getSampleSizes, start_bin.
  assert (Z.of_nat cams * r / randmax < Z.of_nat cams) by (apply Z.div_lt_upper_bound; nia).
  assert (0 <= Z.of_nat cams * r / randmax) by (apply Z.div_pos; lia).
  destruct (sizes_ok cams k (Z.to_nat (Z.of_nat cams * r / randmax)) ltac:(lia)) as (l & E & L & S & D).
  exists l. repeat split; auto.
  - intros i j Hi Hj. apply (D i j Hi Hj).
  - intros i Hi. apply (D i i Hi Hi).
Qed.

(** When rand() returns RAND_MAX the first write is out of bounds, for every
    number of cameras and every positive sample size. *)
Theorem C17_rand_max_refuted :
  forall cams k randmax, 0 < randmax -> getSampleSizes cams (S k) randmax randmax = UB.
Proof.
  intros cams k randmax H. unfold getSampleSizes, start_bin.
  rewrite Z.div_mul by lia. rewrite Nat2Z.id. cbn [distribute].
  rewrite bump_none; [reflexivity|]. rewrite repeat_length. lia.
Qed.

Theorem C17_no_camera_refuted :
  forall k r randmax, getSampleSizes 0 (S k) r randmax = UB.
Proof. reflexivity. Qed.

Example C17_nonvacuous : getSampleSizes 3 8 1500000000 RAND_MAX = Ret [3;2;3].
Proof. vm_compute. reflexivity. Qed.

(** * C18 *)
(** The serial list is the round robin from the start camera, and so a
    permutation of all samples: nothing lost, nothing twice. *)
Theorem C18_round_robin :
  forall conv b ind, (b < length ind)%nat ->
    let order := visits ind b (length ind * longest ind) in
    stratify conv b ind = Ret (map (fun p => conv (fst p) (snd p)) order)
    /\ Permutation order (pairs_from 0 ind).
Proof.
  intros conv b ind H order. split.
  - apply stratify_ok. exact H.
  - apply visits_perm. exact H.
Qed.

Lemma pairs_len : forall ind c, length (pairs_from c ind) = length (concat ind).
Proof. induction ind; intros; cbn; auto. now rewrite !app_length, map_length, IHind. Qed.

(** With at least six samples the six-point solver gets six serial indices. *)
Theorem C18_six_indices :
  forall conv b ind, (b < length ind)%nat -> (6 <= length (concat ind))%nat ->
    exists s six, stratify conv b ind = Ret s /\ first_six s = Ret six /\ length six = 6%nat
      /\ exists rest, Permutation (map (fun p => conv (fst p) (snd p)) (pairs_from 0 ind)) (six ++ rest).
Proof.
  intros conv b ind H H6. destruct (C18_round_robin conv b ind H) as [E P].
  set (order := visits _ _ _) in *. set (s := map _ order) in *.
  assert (L : (6 <= length s)%nat).
  { unfold s. rewrite map_length, (Permutation_length P), pairs_len. exact H6. }
  exists s, (firstn 6 s). unfold first_six. destruct (Nat.ltb_spec (length s) 6); [lia|].
  repeat split; auto.
  - rewrite firstn_length. lia.
  - exists (skipn 6 s). rewrite firstn_skipn. unfold s. apply Permutation_map. now symmetry.
Qed.

(** Started beyond the last camera (rand() = RAND_MAX) it reads out of bounds,
    as soon as one sample exists. *)
Theorem C18_bad_start_refuted :
  forall conv ind, concat ind <> [] -> stratify conv (length ind) ind = UB.
Proof.
  intros conv ind H. unfold stratify. cbn [round_robin].
  pose proof (is_done_spec (repeat O (length ind)) ind (repeat_length _ _)) as D.
  destruct (is_done (repeat O (length ind)) ind).
  - exfalso. apply H. clear H. 
    assert (N : forall c m, nth c (repeat 0%nat m) 0%nat = 0%nat).
    { clear. intros c m; revert c; induction m; intros [|c]; cbn; auto. }
    assert (Q : forall c, (c < length ind)%nat -> nth c ind [] = []).
    { intros c Hc. specialize (D c Hc). rewrite N in D. destruct (nth c ind []); cbn in *; auto; lia. }
    clear D N. induction ind as [|l ls IH]; auto. cbn. pose proof (Q 0%nat ltac:(cbn; lia)) as Q0. cbn in Q0. subst l.
    apply IH. intros c Hc. apply (Q (S c)). cbn. lia.
  - destruct ind as [|l ls]; [cbn in H; congruence|].
    assert (X : skip_bins (length (l :: ls)) (length (l :: ls)) (repeat 0%nat (length (l :: ls))) (l :: ls) = UB).
    { cbn [length skip_bins]. 
      replace (nth_error (repeat 0%nat (S (length ls))) (S (length ls))) with (@None nat); auto.
      symmetry. apply nth_error_None. rewrite repeat_length. lia. }
    rewrite X. reflexivity.
Qed.

Example C18_nonvacuous :
  stratify (fun c i => 100 * Z.of_nat c + i) 1 [[3;4;5]; [7]; [1;2]; []]
  = Ret [107; 201; 3; 202; 4; 5].
Proof. reflexivity. Qed.
