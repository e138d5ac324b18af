(** Trace soundness and score consistency of Ransac (C04, C05). *)
From Coq Require Import ZArith List Bool Floats Lia Permutation Arith.
From Verif Require Import SacModel SacDrawProofs WhileLib SacRansacProofs.
Import ListNotations.
Open Scope Z_scope.

Section R2.
  Context {A M : Type}.
  Variable flog : float -> float.
  Variable fpow : float -> float -> float.
  Variable C : sac_class A M.

  (** [sel] is a legal sample of the index set: entries at distinct positions. *)
  Definition sample_of (idx sel : list Z) : Prop :=
    exists rest, Permutation idx (sel ++ rest).

  (** The user state obeys [Inv], under which scores are a function of the
      model and the index alone. *)
  Definition stable_scores (Inv : A -> Prop) (score : M -> Z -> float) : Prop :=
    (forall a sel m, Inv a -> Inv (fst (fst (c_compute C a sel m))))
    /\ (forall a m l, Inv a ->
          Inv (fst (c_dist C a m l)) /\ snd (c_dist C a m l) = map (score m) l).

  Definition event_sound (idx : list Z) (e : event (list Z) M) : Prop :=
    match e with
    | Skipped sel => sample_of idx sel
                     /\ exists a m a' m', c_compute C a sel m = (a', false, m')
    | Tried sel coef n => sample_of idx sel /\
        exists a m a', c_compute C a sel m = (a', true, coef)
    end.

  Definition scored (idx : list Z) (score : M -> Z -> float) (thr : float) (coef : M) : list Z :=
    filter (fun i => PrimFloat.ltb (score coef i) thr) idx.

  Lemma filter_combine_map : forall (idx : list Z) (f : Z -> float) thr,
    map fst (filter (below thr) (combine idx (map f idx)))
    = filter (fun i => PrimFloat.ltb (f i) thr) idx.
  Proof.
    induction idx as [|a idx IH]; intros; cbn [map combine filter]; auto.
    unfold below at 1; cbn [snd].
    destruct (PrimFloat.ltb (f a) thr); cbn [map fst]; rewrite IH; auto.
  Qed.

  Variable idx : list Z.
  Variable thr : float.

  Definition Kinv (x : @run_state A M) : Prop :=
    let '(s, r, l, tr) := x in
    wf_sac s /\ s_indices s = idx /\ o_threshold r = thr /\ Forall (event_sound idx) tr.

  Lemma K_body : forall x b y, Kinv x ->
    ransac_body flog fpow C x = Ret (b, y) -> Kinv y.
  Proof.
    intros [[[s r] l] tr] b y (W & E1 & Et & F) H.
    unfold ransac_body in H.
    destruct (getSamples_ok C s (o_iterations r) W)
      as (s1 & it & sel & Eg & F1 & F2 & F3 & W1 & F4).
    rewrite Eg in H. cbn [obind] in H.
    destruct sel as [|z sel'].
    - inversion H; subst. cbn. repeat split; auto; congruence.
    - remember (z :: sel') as sel.
      assert (SO : sample_of idx sel).
      { destruct F4 as [(?&_)|[(_&_&_&Hr)|(?&_)]]; try (subst; discriminate).
        unfold sample_of. rewrite <- E1. exact Hr. }
      destruct sel as [|z0 s0]; [discriminate|]. rewrite Heqsel in *. clear Heqsel z0 s0.
      unfold computeModelCoefficients in H.
      destruct (c_compute C (s_user s1) (z :: sel') (l_coef l)) as [[a2 ok] coef] eqn:Ec.
      destruct ok; cbn [negb] in H.
      + unfold countWithinDistance in H. cbn [s_user s_indices set_user] in H.
        destruct (c_dist C a2 coef (s_indices s1)) as [a3 dist] eqn:Ed.
        destruct (INT_MAX <? _); [discriminate|]. cbn [obind] in H.
        set (n := count_loop dist _ 0) in *.
        assert (F' : Forall (event_sound idx) (tr ++ [Tried (z :: sel') coef n])).
        { apply Forall_app; split; auto. constructor; auto. split; auto. eauto. }
        destruct (l_best l <? n); cbn [o_iterations set_model set_iterations o_max_iterations] in H;
          (destruct (INT_MAX <=? _); [discriminate|]); inversion H; subst; cbn;
          repeat split; auto; try congruence.
      + inversion H; subst. cbn. repeat split; auto; try congruence.
        apply Forall_app; split; auto. constructor; auto. split; auto. eauto 8.
  Qed.

  Section Stable.
    Variable Inv : A -> Prop.
    Variable score : M -> Z -> float.
    Hypothesis HS : stable_scores Inv score.

    Definition Linv (x : @run_state A M) : Prop :=
      Kinv x /\ let '(s, r, l, tr) := x in
      Inv (s_user s)
      /\ (forall sel coef n, In (Tried sel coef n) tr ->
            n = Z.of_nat (length (scored idx score thr coef))).

    Lemma L_body : forall x b y, Linv x ->
      ransac_body flog fpow C x = Ret (b, y) -> Linv y.
    Proof.
      intros x b y [HK HL] H. split; [eapply K_body; eauto|].
      destruct x as [[[s r] l] tr]. destruct HK as (W & E1 & Et & F).
      destruct HL as [HI HC]. destruct HS as [HS1 HS2].
      unfold ransac_body in H.
      destruct (getSamples_ok C s (o_iterations r) W)
        as (s1 & it & sel & Eg & F1 & F2 & F3 & W1 & F4).
      rewrite Eg in H. cbn [obind] in H.
      destruct sel as [|z sel'].
      - inversion H; subst. cbn. split; auto. congruence.
      - unfold computeModelCoefficients in H.
        assert (HI1 : Inv (s_user s1)) by congruence.
        pose proof (HS1 (s_user s1) (z :: sel') (l_coef l) HI1) as HI2.
        destruct (c_compute C (s_user s1) (z :: sel') (l_coef l)) as [[a2 ok] coef] eqn:Ec.
        cbn in HI2.
        destruct ok; cbn [negb] in H.
        + unfold countWithinDistance in H. cbn [s_user s_indices set_user] in H.
          pose proof (HS2 a2 coef (s_indices s1) HI2) as [HI3 HD].
          destruct (c_dist C a2 coef (s_indices s1)) as [a3 dist] eqn:Ed.
          cbn in HI3, HD.
          destruct (INT_MAX <? _); [discriminate|]. cbn [obind] in H.
          set (n := count_loop dist _ 0) in *.
          assert (Hn : n = Z.of_nat (length (scored idx score thr coef))).
          { unfold n. rewrite (count_loop_spec (s_indices s1)) by (subst dist; rewrite map_length; auto).
            rewrite HD. cbn [o_threshold set_iterations]. rewrite Et.
            unfold scored. rewrite <- filter_combine_map, map_length. congruence. }
          assert (HC' : forall sl c k, In (Tried sl c k) (tr ++ [Tried (z :: sel') coef n]) ->
                     k = Z.of_nat (length (scored idx score thr c))).
          { intros sl c k Hin. apply in_app_iff in Hin. destruct Hin as [|[Hin|[]]]; [eauto|].
            inversion Hin; subst; auto. }
          destruct (l_best l <? n); cbn [o_iterations set_model set_iterations o_max_iterations] in H;
            (destruct (INT_MAX <=? _); [discriminate|]); inversion H; subst y; cbn; split; auto.
        + inversion H; subst. cbn. split; auto.
          intros sl c k Hin. apply in_app_iff in Hin. destruct Hin as [|[Hin|[]]]; [eauto|discriminate].
    Qed.
  End Stable.
End R2.

Section R3.
  Context {A M : Type}.
  Variable flog : float -> float.
  Variable fpow : float -> float -> float.
  Variable C : sac_class A M.

  Lemma ransac_trace_sound : forall m0 s r s' r' ok tr, wf_sac s ->
    ransac_computeModel flog fpow C m0 s r = Ret (s', r', ok, tr) ->
    Forall (event_sound C (s_indices s)) tr.
  Proof.
    intros m0 s r s' r' ok tr W H. unfold ransac_computeModel in H.
    destruct (max_skip_of (o_max_iterations r)) as [ms| |]; try discriminate. cbn [obind] in H.
    destruct (ransac_loop _ _ _ _ _ _) as [[[[s1 r1] l1] tr1]| |] eqn:EL; try discriminate.
    assert (K : Kinv C (s_indices s) (o_threshold r) (s1, r1, l1, tr1)).
    { rewrite ransac_loop_while in EL.
      refine (while_inv _ _ (Kinv C (s_indices s) (o_threshold r)) _ _ _ _ _ _ _ _ EL); auto.
      - intros; eapply K_body; eauto.
      - intros; eapply K_body; eauto.
      - cbn. repeat split; auto. }
    destruct K as (_ & _ & _ & F). cbn [obind] in H.
    destruct (o_model r1).
    - inversion H; subst; auto.
    - destruct (selectWithinDistance _ _ _ _) as [[? ?]| |]; try discriminate.
      inversion H; subst; auto.
  Qed.

  Lemma ransac_stable : forall Inv score m0 s r s' r' ok tr, wf_sac s ->
    stable_scores C Inv score -> Inv (s_user s) ->
    ransac_computeModel flog fpow C m0 s r = Ret (s', r', ok, tr) ->
    Inv (s_user s')
    /\ (forall sel coef n, In (Tried sel coef n) tr ->
          n = Z.of_nat (length (scored (s_indices s) score (o_threshold r) coef)))
    /\ (ok = true -> o_inliers r' = scored (s_indices s) score (o_threshold r) (o_coef r')).
  Proof.
    intros Inv score m0 s r s' r' ok tr W HS HI H. unfold ransac_computeModel in H.
    destruct (max_skip_of (o_max_iterations r)) as [ms| |]; try discriminate. cbn [obind] in H.
    destruct (ransac_loop _ _ _ _ _ _) as [[[[s1 r1] l1] tr1]| |] eqn:EL; try discriminate.
    assert (K : Linv C (s_indices s) (o_threshold r) Inv score (s1, r1, l1, tr1)).
    { rewrite ransac_loop_while in EL.
      refine (while_inv _ _ (Linv C (s_indices s) (o_threshold r) Inv score) _ _ _ _ _ _ _ _ EL); auto.
      - intros; eapply L_body; eauto.
      - intros; eapply L_body; eauto.
      - cbn. repeat split; auto. intros; contradiction. }
    destruct K as ((W1 & E1 & E2 & F) & I1 & HC). cbn [obind] in H.
    destruct (o_model r1).
    - inversion H; subst. repeat split; auto. discriminate.
    - unfold selectWithinDistance in H.
      destruct HS as [_ HS2]. destruct (HS2 (s_user s1) (o_coef r1) (s_indices s1) I1) as [I2 D].
      destruct (c_dist C (s_user s1) (o_coef r1) (s_indices s1)) as [a d] eqn:Ed. cbn in I2, D.
      subst d. rewrite select_loop_spec in H by (rewrite map_length; auto).
      cbn [obind] in H. inversion H; subst s' r' ok tr. cbn. repeat split; auto.
      intros _. unfold scored. rewrite <- E1, <- E2. apply filter_combine_map.
  Qed.
End R3.
