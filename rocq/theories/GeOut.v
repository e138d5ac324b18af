(** What ge returns (C47, continued). *)
From Coq Require Import Reals List Lra Psatz Lia Permutation Sorting.Sorted.
From Verif Require Import Lin GenLin GenSpectral RotModel RotProps Spectral EigSums EigGen EigAlg EigProps GeSums GeGen GeAlg GeModel GeProps.
Import ListNotations.
Local Open Scope R_scope.

Lemma mvec_rsum G (L : list (R * gpair)) i :
  mvec 4 G (fun j => rsum (map (fun ap => fst ap * fst (snd ap) j) L)) i = rsum (map (fun ap => fst ap * mvec 4 G (fst (snd ap)) i) L).
Proof.
  unfold mvec. induction L as [|ap L IH]; cbn [map]; sums.
  - unfold vdot. apply sumn_0. intros. sums. ring.
  - rewrite <- IH, <- vdot_scale, <- vdot_add. apply vdot_ext; auto.
Qed.
Lemma eig_in eig G x mu : good_eig4 eig -> sym 4 G -> (forall i, (i < 4)%nat -> mvec 4 G x i = mu * x i) ->
  (exists i, (i < 4)%nat /\ x i <> 0) -> exists p, In p (eig G) /\ snd p = mu.
Proof.
  intros GE Sy E (i0 & Hi0 & NZ). destruct (GE G Sy) as (Len & EV & Sp & Ind). destruct (Sp x) as (a & La & Ex).
  set (L := combine a (eig G)) in *.
  assert (LL : length L = 4%nat) by (unfold L; rewrite combine_length, La, Len; reflexivity).
  assert (HL : forall ap, In ap L -> In (snd ap) (eig G)) by (intros [r p] H; eapply in_combine_r; exact H).
  assert (Z : forall ap, In ap L -> fst ap * (snd (snd ap) - mu) = 0).
  { intros ap Hap. apply (Ind (map (fun ap => fst ap * (snd (snd ap) - mu)) L)).
    - now rewrite map_length.
    - intros i Hi.
      assert (K : forall l a', combine (map (fun ap : R * gpair => fst ap * (snd (snd ap) - mu)) (combine a' l)) l = map (fun ap => (fst ap * (snd (snd ap) - mu), snd ap)) (combine a' l)).
      { clear. induction l as [|p l IH]; intro a'; destruct a'; cbn; auto. now rewrite IH. }
      unfold L. rewrite K, map_map. cbn [fst snd].
      assert (Q : mvec 4 G x i = rsum (map (fun ap => fst ap * mvec 4 G (fst (snd ap)) i) L)).
      { rewrite <- mvec_rsum. unfold mvec. apply vdot_ext; auto. }
      rewrite E in Q by auto. rewrite (Ex i Hi) in Q.
      transitivity (rsum (map (fun ap : R * gpair => fst ap * mvec 4 G (fst (snd ap)) i) L) - mu * rsum (map (fun ap : R * gpair => fst ap * fst (snd ap) i) L)); [|apply Rminus_diag_eq; symmetry; exact Q].
      clear - EV HL Hi. fold L. induction L as [|ap l IH]; cbn [map]; sums; [ring|].
      rewrite IH by (intros; apply HL; now right). destruct (EV (snd ap) (HL ap (or_introl eq_refl))) as (_ & V). rewrite V by auto. ring.
    - apply (in_map (fun ap => fst ap * (snd (snd ap) - mu))). exact Hap. }
  assert (X : exists ap, In ap L /\ fst ap <> 0).
  { apply Classical_Prop.NNPP. intro N. apply NZ. rewrite (Ex i0 Hi0). clear - N. induction L as [|ap L IH]; cbn [map]; sums; [reflexivity|].
    rewrite IH. 2:{ intros (q & Hq & E). apply N. exists q. split; auto. now right. }
    destruct (Req_dec (fst ap) 0) as [->|E]; [ring|]. exfalso. apply N. exists ap. split; auto. now left. }
  destruct X as (ap & Hap & NA). exists (snd ap). split; auto. specialize (Z ap Hap). apply Rmult_integral in Z as [Z|Z]; lra.
Qed.
(** the last of the sorted pairs carries the minimum of the quadratic form over
    unit vectors *)
Lemma last_pair eig sort G : good_eig4 eig -> good_gsort sort -> sym 4 G -> exists p1 p2 p3 p4,
  sort (eig G) = [p1; p2; p3; p4] /\ snd p1 >= snd p2 /\ snd p2 >= snd p3 /\ snd p3 >= snd p4 /\
  (forall p, In p [p1; p2; p3; p4] -> vdot 4 (fst p) (fst p) = 1 /\ forall i, (i < 4)%nat -> mvec 4 G (fst p) i = snd p * fst p i) /\
  forall x, snd p4 * vdot 4 x x <= bil 4 G x x.
Proof.
  intros GE GS Sy. destruct (GE G Sy) as (Len & EV & _). destruct (GS (eig G)) as (P & So).
  pose proof (Permutation_length P) as PL. rewrite Len in PL.
  destruct (sort (eig G)) as [|p1 [|p2 [|p3 [|p4 [|]]]]] eqn:E; try discriminate.
  exists p1, p2, p3, p4. split; [reflexivity|].
  inversion_clear So as [|? ? S1 F1]. inversion_clear S1 as [|? ? S2 F2]. inversion_clear S2 as [|? ? S3 F3]. 
  inversion_clear F1 as [|? ? O1 F4]. inversion_clear F2 as [|? ? O2 F5]. inversion_clear F3 as [|? ? O3 F6]. cbn in O1, O2, O3.
  repeat (split; [assumption|]).
  assert (EV' : forall p, In p [p1; p2; p3; p4] -> vdot 4 (fst p) (fst p) = 1 /\ forall i, (i < 4)%nat -> mvec 4 G (fst p) i = snd p * fst p i).
  { intros p Hp. apply EV. eapply Permutation_in; [apply Permutation_sym; exact P|exact Hp]. }
  split; [exact EV'|].
  destruct (GenSpectral.spectral 4 G Sy) as (V & lam & GV). destruct (eig_in eig G (gcol V 3) (lam 3%nat) GE Sy) as (p & Hp & Ep).
  { intros i Hi. apply (eig_vec _ _ _ _ GV); lia. }
  { apply Classical_Prop.NNPP. intro N. pose proof (gorth_unit 4 V 3 (eig_orth _ _ _ _ GV) ltac:(lia)) as U.
    assert (K : vdot 4 (gcol V 3) (gcol V 3) = 0).
    { apply sumn_0. intros i Hi. destruct (Req_dec (gcol V 3 i) 0) as [->|Z]; [ring|]. exfalso. apply N. eauto. }
    lra. }
  assert (LE : snd p4 <= lam 3%nat).
  { apply Permutation_in with (l' := [p1; p2; p3; p4]) in Hp; auto. rewrite <- Ep. destruct Hp as [<-|[<-|[<-|[<-|[]]]]]; lra. }
  intro x. apply Rle_trans with (lam 3%nat * vdot 4 x x); [apply Rmult_le_compat_r; auto; apply vdot_pos|].
  assert (Q : bil 4 G x x = sumn 4 (fun k => lam k * vdot 4 (gcol V k) x ^ 2)).
  { set (c := fun k => vdot 4 (gcol V k) x).
    assert (Xe : forall i, (i < 4)%nat -> x i = sumn 4 (fun k => c k * V i k)) by (intros; apply gorth_expand; [apply (eig_orth _ _ _ _ GV)|auto]).
    unfold bil. rewrite (vdot_ext 4 _ _ x (fun i => sumn 4 (fun k => c k * (lam k * V i k)))); auto.
    - rewrite vdot_sum. apply sumn_ext. intros k Hk.
      rewrite (vdot_ext 4 _ _ x (fun i => (c k * lam k) * gcol V k i)) by (auto; intros; unfold gcol; ring).
      rewrite vdot_scale, vdot_comm. unfold c. ring.
    - intros i Hi. rewrite (mvec_ext 4 G _ (fun i => sumn 4 (fun k => c k * V i k)) i Xe). unfold mvec at 1. rewrite vdot_sum. apply sumn_ext. intros k Hk.
      rewrite (vdot_ext 4 _ _ (G i) (fun i => c k * gcol V k i)) by (auto; intros; unfold gcol; ring).
      rewrite vdot_scale. f_equal. apply (eig_vec _ _ _ _ GV); auto. }
  assert (N : vdot 4 x x = sumn 4 (fun k => vdot 4 (gcol V k) x ^ 2)).
  { transitivity (vdot 4 x (fun i => sumn 4 (fun k => vdot 4 (gcol V k) x * gcol V k i))).
    - apply vdot_ext; auto. intros i Hi. now apply (gorth_expand 4 V x (eig_orth _ _ _ _ GV)).
    - rewrite vdot_sum. apply sumn_ext. intros k Hk. rewrite vdot_scale, vdot_comm. ring. }
  rewrite Q, N, <- sumn_scale. apply sumn_le. intros k Hk. apply Rmult_le_compat_r; [apply pow2_ge_0|]. apply (eig_sorted _ _ _ _ GV); lia.
Qed.

Lemma guse_weights_spec b l lw : guse_weights b l = Some lw ->
  forall q, In q lw -> exists p, In p l /\ q = set_weight (gw q) p /\ (0 < gw p -> 0 < gw q).
Proof.
  unfold guse_weights. intro H. destruct b; [destruct (Req_EM_T (gweight_norm l) 0) as [Z|Z]; [easy|]|].
  - assert (E : lw = map (fun q => set_weight (gw q / gweight_norm l) q) l) by congruence. subst lw.
    intros q Hq. apply in_map_iff in Hq as (p & <- & Hp). exists p. split; auto. split; [reflexivity|].
    cbn. intro P. apply Rdiv_lt_0_compat; auto. assert (0 <= gweight_norm l) by apply sqrt_pos. lra.
  - assert (E : lw = map (set_weight 1) l) by congruence. subst lw.
    intros q Hq. apply in_map_iff in Hq as (p & <- & Hp). exists p. split; auto. split; [reflexivity|]. cbn. intros; lra.
Qed.
Lemma guse_weights_conv b l lw : guse_weights b l = Some lw -> forall p, In p l -> exists q, In q lw /\ q = set_weight (gw q) p.
Proof.
  unfold guse_weights. intros H p Hp. destruct b; [destruct (Req_EM_T (gweight_norm l) 0) as [Z|Z]; [easy|]|].
  - assert (E : lw = map (fun q => set_weight (gw q / gweight_norm l) q) l) by congruence. subst lw.
    eexists. split; [apply (in_map (fun q => set_weight (gw q / gweight_norm l) q)); exact Hp|reflexivity].
  - assert (E : lw = map (set_weight 1) l) by congruence. subst lw.
    eexists. split; [apply (in_map (set_weight 1)); exact Hp|reflexivity].
Qed.
Lemma guse_weights_some b l : (exists q, In q l /\ gw q <> 0) -> exists lw, guse_weights b l = Some lw.
Proof.
  intros (q & Hq & NZ). unfold guse_weights. destruct b; [|eauto]. destruct (Req_EM_T (gweight_norm l) 0) as [Z|Z]; [|eauto]. exfalso.
  unfold gweight_norm in Z.
  assert (E : forall l a, fold_left (fun a q => a + gw q ^ 2) l a = a + rsum (map (fun q : gcorr => gw q ^ 2) l)).
  { clear. induction l as [|q l IH]; intro a; cbn [fold_left]; sums; [ring|]. rewrite IH. ring. }
  rewrite E, Rplus_0_l in Z.
  assert (P : forall x, In x (map (fun q : gcorr => gw q ^ 2) l) -> 0 <= x) by (intros x Hx; apply in_map_iff in Hx as (p & <- & _); apply pow2_ge_0).
  apply sqrt_eq_0 in Z; [|now apply rsum_nonneg].
  pose proof (rsum_nonneg_zero _ P Z (gw q ^ 2) (in_map (fun q : gcorr => gw q ^ 2) l q Hq)) as K. apply NZ. nra.
Qed.

(** For every outcome of the descent: the rotation is a rotation, the
    eigenvalues are nonnegative and in decreasing order, and the homogeneous
    translation, scaled to last entry 1, minimises the weighted sum of squared
    constraints over all homogeneous translations of its length. *)
Theorem C47_output : forall arun descent eig sort useWeights l out,
  good_eig4 eig -> good_gsort sort -> (forall q, In q l -> 0 <= gw q) ->
  ge arun descent eig sort useWeights l = Some out ->
  rotation (go_rotation out) /\ go_translation out 3%nat = 1 /\
  exists lw a b c d, guse_weights useWeights l = Some lw /\
    go_eigenvalues out = [a; b; c; d] /\ a >= b /\ b >= c /\ c >= d /\ d >= 0 /\
    exists k, 0 < k /\
    let cost (x : nat -> R) := k * rsum (map (fun q => gw q * gconstraint (go_rotation out) (xyz x) (x 3%nat) q ^ 2) lw) in
    cost (go_translation out) = d * vdot 4 (go_translation out) (go_translation out) /\
    forall x, vdot 4 x x = vdot 4 (go_translation out) (go_translation out) -> cost (go_translation out) <= cost x.
Proof.
  intros arun descent eig sort b l out GE GS W H. unfold ge in H. destruct (guse_weights b l) as [lw|] eqn:UW; [|easy].
  cbv zeta in H. revert H. generalize (descent (gs_accumulate lw) (rot2cayley (arun (gHcross l)))). intros c H.
  assert (W' : forall q, In q lw -> 0 <= gw q).
  { revert UW. unfold guse_weights. destruct b; [destruct (Req_EM_T (gweight_norm l) 0); [easy|]|]; intros UW q Hq.
    - assert (E : lw = map (fun q => set_weight (gw q / gweight_norm l) q) l) by congruence. subst lw. apply in_map_iff in Hq as (p & <- & Hp). cbn.
      assert (0 <= gweight_norm l) by apply sqrt_pos. specialize (W p Hp). apply Rle_mult_inv_pos; lra.
    - assert (E : lw = map (set_weight 1) l) by congruence. subst lw. apply in_map_iff in Hq as (p & <- & Hp). cbn. lra. }
  pose proof (C47_psd lw c W') as PSD. destruct (C47_composeG_is_constraint_sum lw c (fun _ => 0)) as (Sy & _).
  pose proof (fun x => proj2 (C47_composeG_is_constraint_sum lw c x)) as CS.
  destruct (last_pair eig sort _ GE GS Sy) as (p1 & p2 & p3 & p4 & E & O1 & O2 & O3 & EV & Min).
  unfold ge_output in H. rewrite E in H. cbn [map nth] in H. destruct (Req_EM_T (fst p4 3%nat) 0) as [|NZ]; [easy|].
  assert (H' : GO (cayley2rot c) (fun i => 1 / fst p4 3%nat * fst p4 i) [snd p1; snd p2; snd p3; snd p4] [fst p1; fst p2; fst p3; fst p4] = out) by congruence.
  clear H. subst out. cbn [go_rotation go_translation go_eigenvalues].
  split; [apply C24_cayley2rot_is_rotation|]. split; [field; auto|].
  exists lw, (snd p1), (snd p2), (snd p3), (snd p4). repeat (split; [solve [auto]|]).
  destruct (EV p4) as (U & Ev); [cbn; auto|].
  split. { specialize (PSD (fst p4)). unfold bil in PSD. rewrite (vdot_ext 4 _ _ (fst p4) (fun i => snd p4 * fst p4 i)) in PSD by auto. rewrite vdot_scale, U in PSD. lra. }
  exists ((1 + norm2 c) ^ 2). split; [apply scale_pos|]. cbv zeta. rewrite <- CS.
  assert (C : bil 4 (composeG (gs_accumulate lw) c) (fun i => 1 / fst p4 3%nat * fst p4 i) (fun i => 1 / fst p4 3%nat * fst p4 i) =
    snd p4 * vdot 4 (fun i => 1 / fst p4 3%nat * fst p4 i) (fun i => 1 / fst p4 3%nat * fst p4 i)).
  { rewrite bil_scale_r, bil_scale_l. unfold bil. rewrite (vdot_ext 4 _ _ (fst p4) (fun i => snd p4 * fst p4 i)) by auto.
    rewrite !vdot_scale, (vdot_comm 4 (fun i => 1 / fst p4 3%nat * fst p4 i)), !vdot_scale. ring. }
  split; [exact C|]. intros x Hx. rewrite C, <- CS, <- Hx. apply Min.
Qed.

(** Noise-free data whose constraints determine the translation at the true
    rotation: if the descent finds the true rotation, ge returns the true pose. *)
Theorem C47_recovers_pose : forall arun descent eig sort useWeights l A t,
  good_eig4 eig -> good_gsort sort -> (forall S s, cayley2rot (descent S s) = A) ->
  (exists q, In q l) -> (forall q, In q l -> 0 < gw q /\ exists d1 d2, gsees A t q d1 d2) ->
  (forall u s, (forall q, In q l -> gconstraint A u s q = 0) -> u = vscale s t) ->
  exists out, ge arun descent eig sort useWeights l = Some out /\
    go_rotation out = A /\ xyz (go_translation out) = t /\ go_translation out 3%nat = 1.
Proof.
  intros arun descent eig sort b l A t GE GS DE (q0 & Hq0) H Uniq.
  destruct (guse_weights_some b l) as (lw & UW). { exists q0. split; auto. destruct (H q0 Hq0). lra. }
  unfold ge. rewrite UW. cbv zeta. set (c := descent (gs_accumulate lw) (rot2cayley (arun (gHcross l)))).
  assert (CA : cayley2rot c = A) by apply DE. clearbody c.
  assert (W : forall q, In q lw -> 0 < gw q). { intros q Hq. destruct (guse_weights_spec _ _ _ UW q Hq) as (p & Hp & _ & K). now apply K, H. }
  destruct (C47_composeG_is_constraint_sum lw c (fun _ => 0)) as (Sy & _).
  assert (Ker : forall i, (i < 4)%nat -> mvec 4 (composeG (gs_accumulate lw) c) (hom t 1) i = 0).
  { apply C47_true_pose; auto. intros q Hq. rewrite CA. destruct (guse_weights_spec _ _ _ UW q Hq) as (p & Hp & -> & _). exact (proj2 (H p Hp)). }
  destruct (last_pair eig sort _ GE GS Sy) as (p1 & p2 & p3 & p4 & E & O1 & O2 & O3 & EV & Min).
  assert (Z : snd p4 <= 0).
  { specialize (Min (hom t 1)).
    assert (B0 : bil 4 (composeG (gs_accumulate lw) c) (hom t 1) (hom t 1) = 0) by (unfold bil, vdot; apply sumn_0; intros i Hi; rewrite Ker by auto; ring).
    assert (0 < vdot 4 (hom t 1) (hom t 1)). { unfold vdot, hom. cbn. nra. } nra. }
  destruct (EV p4) as (U & Ev); [cbn; auto|].
  assert (P4 : snd p4 = 0).
  { pose proof (C47_psd lw c (fun q Hq => Rlt_le _ _ (W q Hq)) (fst p4)) as K. unfold bil in K.
    rewrite (vdot_ext 4 _ _ (fst p4) (fun i => snd p4 * fst p4 i)) in K by auto. rewrite vdot_scale, U in K. lra. }
  assert (K4 : forall q, In q lw -> gconstraint A (xyz (fst p4)) (fst p4 3%nat) q = 0).
  { rewrite <- CA. apply C47_kernel; auto. intros i Hi. rewrite Ev by auto. rewrite P4. ring. }
  assert (V : xyz (fst p4) = vscale (fst p4 3%nat) t).
  { apply Uniq. intros q Hq. destruct (guse_weights_conv _ _ _ UW q Hq) as (q' & Hq' & Eq). specialize (K4 q' Hq'). rewrite Eq in K4. exact K4. }
  assert (NZ : fst p4 3%nat <> 0).
  { intro Z3. rewrite Z3 in V. unfold xyz in V. revert V. destruct t as [tx ty tz]. unfold vscale; cbn [vx vy vz]. rewrite !Rmult_0_l. intro V. injection V. intros V2 V1 V0.
    unfold vdot in U. cbn [sumn] in U. rewrite V0, V1, V2, Z3 in U. lra. }
  unfold ge_output. rewrite E. cbn [map nth]. destruct (Req_EM_T (fst p4 3%nat) 0); [easy|].
  eexists. split; [reflexivity|]. cbn [go_rotation go_translation]. split; [auto|]. split; [|field; auto].
  revert V. unfold xyz. destruct t as [tx ty tz]. unfold vscale; cbn [vx vy vz]. intro V. injection V. intros -> -> ->. f_equal; field; auto.
Qed.

(** * The hypotheses are met *)
Fixpoint gins (p : gpair) (l : list gpair) : list gpair :=
  match l with [] => [p] | q :: r => if Rge_dec (snd p) (snd q) then p :: l else q :: gins p r end.
Definition gisort (l : list gpair) : list gpair := fold_right gins [] l.
Lemma gins_perm p l : Permutation (p :: l) (gins p l).
Proof.
  induction l as [|q l IH]; cbn; auto. destruct (Rge_dec _ _); auto.
  apply perm_trans with (q :: p :: l); [constructor|]. now constructor.
Qed.
Lemma gins_sorted p l : StronglySorted (fun p q => snd p >= snd q) l -> StronglySorted (fun p q => snd p >= snd q) (gins p l).
Proof.
  induction l as [|q l IH]; intro H; cbn; [repeat constructor|].
  inversion_clear H as [|? ? Sl F]. destruct (Rge_dec (snd p) (snd q)) as [G|G].
  - constructor; [now constructor|]. constructor; auto. eapply Forall_impl; [|exact F]. cbn. intros; lra.
  - constructor; auto. apply Forall_forall. intros x Hx. apply Permutation_in with (l' := p :: l) in Hx; [|apply Permutation_sym, gins_perm].
    destruct Hx as [<-|Hx]; [lra|]. rewrite Forall_forall in F. now apply F.
Qed.
Lemma good_gsort_exists : good_gsort gisort.
Proof.
  intro l. split; induction l as [|p l IH]; cbn; auto; try constructor.
  - apply perm_trans with (p :: gisort l); [now constructor|apply gins_perm].
  - now apply gins_sorted.
Qed.
Lemma good_eig4_exists : exists eig, good_eig4 eig.
Proof.
  destruct (ClassicalChoice.choice (fun G (L : list gpair) => sym 4 G -> length L = 4%nat /\
    (forall p, In p L -> vdot 4 (fst p) (fst p) = 1 /\ forall i, (i < 4)%nat -> mvec 4 G (fst p) i = snd p * fst p i) /\
    (forall x, exists a : list R, length a = 4%nat /\ forall i, (i < 4)%nat -> x i = rsum (map (fun ap => fst ap * fst (snd ap) i) (combine a L))) /\
    (forall a : list R, length a = 4%nat -> (forall i, (i < 4)%nat -> rsum (map (fun ap => fst ap * fst (snd ap) i) (combine a L)) = 0) -> forall r, In r a -> r = 0))) as (f & Hf).
  - intro G. destruct (Classical_Prop.classic (sym 4 G)) as [Sy|N]; [|now exists []].
    destruct (GenSpectral.spectral 4 G Sy) as (V & lam & GV). pose proof (eig_orth _ _ _ _ GV) as GO.
    exists [(gcol V 0, lam 0%nat); (gcol V 1, lam 1%nat); (gcol V 2, lam 2%nat); (gcol V 3, lam 3%nat)]. intros _. split; [reflexivity|]. split; [|split].
    + assert (K : forall k, (k < 4)%nat -> vdot 4 (gcol V k) (gcol V k) = 1 /\ forall i, (i < 4)%nat -> mvec 4 G (gcol V k) i = lam k * gcol V k i).
      { intros k Hk. split; [now apply gorth_unit|]. intros i Hi. now apply (eig_vec _ _ _ _ GV). }
      intros p [<-|[<-|[<-|[<-|[]]]]]; apply K; lia.
    + intro x. exists (map (fun k => vdot 4 (gcol V k) x) [0;1;2;3]%nat). split; [reflexivity|]. intros i Hi.
      rewrite (gorth_expand 4 V x GO i Hi). cbn [map combine]. sums. cbn [sumn fst snd]. unfold gcol. ring.
    + intros a La Z r Hr. destruct a as [|a0 [|a1 [|a2 [|a3 [|]]]]]; try discriminate.
      assert (K : forall k, (k < 4)%nat -> nth k [a0; a1; a2; a3] 0 = 0).
      { intros k Hk. transitivity (vdot 4 (gcol V k) (fun i => sumn 4 (fun m => nth m [a0; a1; a2; a3] 0 * gcol V m i))).
        - rewrite vdot_sum. rewrite <- (sumn_delta 4 k (fun m => nth m [a0; a1; a2; a3] 0) Hk). apply sumn_ext. intros m Hm. rewrite vdot_scale.
          destruct GO as [O _]. rewrite (O k m) by auto. rewrite delta_sym. ring.
        - rewrite (vdot_ext 4 _ _ (gcol V k) (fun i => 0 * 0)). + rewrite vdot_scale. ring. + auto.
          + intros i Hi. specialize (Z i Hi). revert Z. cbn [map combine fst snd]. sums. intro Z. cbn [sumn nth]. lra. }
      pose proof (K 0%nat ltac:(lia)). pose proof (K 1%nat ltac:(lia)). pose proof (K 2%nat ltac:(lia)). pose proof (K 3%nat ltac:(lia)). cbn in *.
      destruct Hr as [<-|[<-|[<-|[<-|[]]]]]; auto.
  - exists f. exact Hf.
Qed.
(** three rays from three cameras, meeting the rays of a viewpoint moved by
    (1,2,3) *)
Example C47_nonvacuous : exists eig sort (arun : mat3 -> mat3) descent l,
  good_eig4 eig /\ good_gsort sort /\ (forall (S : gsums) (s : option vec3), cayley2rot (descent S s) = mid) /\
  (exists q, In q l) /\ (forall q, In q l -> 0 < gw q /\ exists d1 d2, 0 < d1 /\ 0 < d2 /\ gsees mid (V3 1 2 3) q d1 d2) /\
  (forall u s, (forall q, In q l -> gconstraint mid u s q = 0) -> u = vscale s (V3 1 2 3)) /\
  exists out, ge arun descent eig sort true l = Some out /\
    go_rotation out = mid /\ xyz (go_translation out) = V3 1 2 3 /\ go_translation out 3%nat = 1.
Proof.
  destruct good_eig4_exists as (eig & GE).
  set (l := [GC 1 (V3 0 1 0) (V3 1 0 0) (V3 0 0 (-1)) v0; GC 2 (V3 0 0 1) (V3 0 2 0) (V3 (-1) 0 0) v0; GC 3 (V3 1 0 0) (V3 0 0 3) (V3 0 (-1) 0) v0]).
  exists eig, gisort, (fun H => H), (fun _ _ => v0), l.
  assert (H1 : forall (S : gsums) (s : option vec3), cayley2rot v0 = mid) by (intros; unfold cayley2rot; lunf; f_equal; field).
  assert (H2 : exists q, In q l) by (eexists; left; reflexivity).
  assert (H3 : forall q, In q l -> 0 < gw q /\ exists d1 d2, 0 < d1 /\ 0 < d2 /\ gsees mid (V3 1 2 3) q d1 d2).
  { intros q [<-|[<-|[<-|[]]]]; (split; [cbn; lra|]); unfold gsees; cbn [gf1 gt1 gf2 gt2]; [exists 2, 3|exists 3, 1|exists 1, 2]; repeat split; try lra; lunf; f_equal; ring. }
  assert (H4 : forall u s, (forall q, In q l -> gconstraint mid u s q = 0) -> u = vscale s (V3 1 2 3)).
  { intros [x y z] s H. pose proof (H _ (or_introl eq_refl)) as A. pose proof (H _ (or_intror (or_introl eq_refl))) as B. pose proof (H _ (or_intror (or_intror (or_introl eq_refl)))) as C.
    unfold gconstraint in A, B, C. cbn [gf1 gt1 gf2 gt2] in A, B, C. lunf. cbn in A, B, C. f_equal; lra. }
  split; [auto|]. split; [apply good_gsort_exists|]. repeat (split; [solve [auto]|]).
  apply C47_recovers_pose; auto using good_gsort_exists. intros q Hq. destruct (H3 q Hq) as (P & d1 & d2 & _ & _ & Q). eauto.
Qed.
