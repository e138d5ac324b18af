(** Proofs about MultiRansac (C14) and its sampling. *)
From Coq Require Import ZArith List Bool Floats Lia Permutation Arith.
From Verif Require Import SacModel SacSpec SacDrawProofs WhileLib SacRansacProofs
  SacRansacProofs2 MultiModel MultiSpec.
Import ListNotations.
Open Scope Z_scope.

Definition wf_multi {A} (s : multi_state A) : Prop :=
  Forall2 (@Permutation Z) (ms_indices s) (ms_shuffled s).

Lemma Forall2_refl_perm (l : list (list Z)) : Forall2 (@Permutation Z) l l.
Proof. induction l; constructor; auto. Qed.

Lemma Forall2_perm_trans (a b c : list (list Z)) :
  Forall2 (@Permutation Z) a b -> Forall2 (@Permutation Z) b c -> Forall2 (@Permutation Z) a c.
Proof.
  intro H; revert c. induction H; intros c Hc; inversion Hc; subst; constructor.
  - etransitivity; eauto.
  - auto.
Qed.

Lemma Forall2_len {X Y} (P : X -> Y -> Prop) a b : Forall2 P a b -> length a = length b.
Proof. induction 1; cbn; auto. Qed.

Lemma mdrawn_perm : forall smp a b, Forall2 (@Permutation Z) a b -> mdrawn b smp -> mdrawn a smp.
Proof.
  induction smp as [|sel ss IH]; intros a b H D; cbn in *; auto.
  destruct b as [|y b]; [contradiction|]. inversion H as [|x y' a' b' Hp Hr]; subst.
  destruct D as [[rest D1] D2]. split; eauto.
  exists rest. now rewrite Hp.
Qed.

Lemma multi_draw_ok : forall ns pools g,
  (length ns <= length pools)%nat ->
  (forall i n p, nth_error ns i = Some n -> nth_error pools i = Some p -> (n <= length p)%nat) ->
  exists smp pools' g', multi_draw ns pools g = Ret (smp, pools', g')
    /\ map (@length Z) smp = ns /\ Forall2 (@Permutation Z) pools pools' /\ mdrawn pools smp.
Proof.
  induction ns as [|n ns IH]; intros pools g L H; cbn [multi_draw].
  - exists [], pools, g. repeat split; auto. apply Forall2_refl_perm.
  - destruct pools as [|p ps]; [cbn in L; lia|].
    destruct (drawIndexSample_ok n p g (H 0%nat n p eq_refl eq_refl)) as (smp & rest & E & Ls & P).
    rewrite E. cbn [obind].
    destruct (IH ps (mkRng (rng_stream g) (rng_pos g + n)) ltac:(cbn in L; lia)) as (smps & ps' & g' & E2 & L2 & P2 & D2).
    { intros i n0 p0 H1 H2. exact (H (S i) n0 p0 H1 H2). }
    rewrite E2. cbn [obind]. exists (smp :: smps), ((smp ++ rest) :: ps'), g'. repeat split; auto.
    + cbn. congruence.
    + exists rest. exact P.
Qed.

(** camera [i] draws what a single-camera problem would draw from its pool with
    the generator advanced by the draws of the cameras before it *)
Lemma multi_draw_each : forall ns pools g smp pools' g',
  (length ns <= length pools)%nat ->
  (forall i n p, nth_error ns i = Some n -> nth_error pools i = Some p -> (n <= length p)%nat) ->
  multi_draw ns pools g = Ret (smp, pools', g') ->
  g' = mkRng (rng_stream g) (rng_pos g + fold_right plus O ns)
  /\ forall i n p, nth_error ns i = Some n -> nth_error pools i = Some p ->
     exists sel p' h, drawIndexSample n p
         (mkRng (rng_stream g) (rng_pos g + fold_right plus O (firstn i ns))) = Ret (sel, p', h)
       /\ nth_error smp i = Some sel /\ nth_error pools' i = Some p'.
Proof.
  induction ns as [|n ns IH]; intros pools g smp pools' g' L H E; cbn [multi_draw] in E.
  - inversion E; subst. split.
    + destruct g' as [st po]. cbn [rng_stream rng_pos fold_right]. now rewrite Nat.add_0_r.
    + intros i n p Hn. destruct i; discriminate.
  - destruct pools as [|p ps]; [discriminate|].
    destruct (drawIndexSample_ok n p g (H 0%nat n p eq_refl eq_refl)) as (s1 & rest & E1 & _ & _).
    rewrite E1 in E. cbn [obind] in E.
    destruct (multi_draw ns ps _) as [[[s2 p2] g2]| |] eqn:E2; try discriminate. cbn [obind] in E.
    inversion E; subst.
    destruct (IH ps _ _ _ _ ltac:(cbn in L; lia) (fun i n0 p0 A B => H (S i) n0 p0 A B) E2) as [G D].
    split; [rewrite G; cbn [rng_stream rng_pos fold_right]; f_equal; lia|].
    intros i m q Hm Hq. destruct i as [|i]; cbn [nth_error firstn fold_right] in *.
    + inversion Hm; inversion Hq; subst. exists s1, (s1 ++ rest), (mkRng (rng_stream g) (rng_pos g + m)).
      rewrite Nat.add_0_r. destruct g as [st po]. cbn [rng_stream rng_pos] in *. auto.
    + destruct (D i m q Hm Hq) as (sel & p' & h & X1 & X2 & X3). exists sel, p', h.
      rewrite <- X1. cbn [rng_stream rng_pos]. repeat split; auto. do 2 f_equal. lia.
Qed.

(** draws that return leave permutations, whatever was asked *)
Lemma drawIndexSample_perm n p g smp p' g' :
  drawIndexSample n p g = Ret (smp, p', g') -> Permutation p p'.
Proof.
  unfold drawIndexSample. intro E.
  destruct (draw_loop n 0 p g) as [[q h]| |] eqn:El; try discriminate. cbn [obind] in E.
  destruct (Nat.ltb_spec (length q) n); [discriminate|]. inversion E; subst.
  destruct (le_lt_dec n (length p)) as [Hl|Hl].
  - destruct (draw_loop_ok n 0 p g ltac:(lia)) as (p2 & E' & P' & _).
    rewrite E' in El. inversion El; subst. exact P'.
  - exfalso.
    assert (HL : forall n i pool g p h, draw_loop n i pool g = Ret (p, h) -> length p = length pool).
    { clear. induction n; intros i pool g p h H; cbn [draw_loop rnd] in H; [inversion H; auto|].
      destruct (Nat.leb _ _); [discriminate|].
      destruct (swap pool i _) eqn:E; try discriminate. cbn [obind] in H.
      rewrite (IHn _ _ _ _ _ H). eapply swap_length; eauto. }
    apply HL in El. lia.
Qed.

Lemma multi_draw_perm : forall ns pools g smp pools' g',
  multi_draw ns pools g = Ret (smp, pools', g') -> Forall2 (@Permutation Z) pools pools'.
Proof.
  induction ns; intros pools g smp pools' g' H; cbn [multi_draw] in H.
  - inversion H; subst. apply Forall2_refl_perm.
  - destruct pools as [|p ps]; [discriminate|].
    destruct (drawIndexSample a p g) as [[[s1 p1] g1]| |] eqn:E; try discriminate. cbn [obind] in H.
    destruct (multi_draw ns ps g1) as [[[s2 p2] g2]| |] eqn:E2; try discriminate. cbn [obind] in H.
    inversion H; subst. constructor; eauto using drawIndexSample_perm.
Qed.

Lemma multi_checks_ok {A} : forall (good : A -> list (list Z) -> bool) tries ns s,
  wf_multi s -> (length ns <= length (ms_indices s))%nat ->
  (forall i n p, nth_error ns i = Some n -> nth_error (ms_indices s) i = Some p -> (n <= length p)%nat) ->
  exists s' o, multi_checks good tries ns s = Ret (s', o)
    /\ ms_indices s' = ms_indices s /\ ms_user s' = ms_user s /\ ms_checks s' = ms_checks s
    /\ wf_multi s'
    /\ match o with
       | Some smp => map (@length Z) smp = ns /\ good (ms_user s) smp = true
                     /\ mdrawn (ms_indices s) smp
       | None => True
       end.
Proof.
  induction tries; intros ns s W L H; cbn [multi_checks].
  - exists s, None. repeat split; auto.
  - destruct (multi_draw_ok ns (ms_shuffled s) (ms_rng s)) as (smp & pool & g & E & Ls & P & D).
    + unfold wf_multi in W. apply Forall2_len in W. lia.
    + intros i n p H1 H2.
      assert (exists q, nth_error (ms_indices s) i = Some q /\ Permutation q p).
      { clear -W H2. revert i H2. unfold wf_multi in W. induction W; intros i H2; [destruct i; discriminate|].
        destruct i; cbn in *; [inversion H2; subst; eauto|eauto]. }
      destruct H0 as (q & Hq & Pq). specialize (H i n q H1 Hq).
      apply Permutation_length in Pq. lia.
    + rewrite E. cbn [obind]. cbv zeta. set (s1 := mset_pool s pool g).
      assert (W1 : wf_multi s1) by (unfold wf_multi, s1; cbn; eapply Forall2_perm_trans; eauto).
      destruct (good (ms_user s1) smp) eqn:G.
      * exists s1, (Some smp). repeat split; auto. exact (mdrawn_perm _ _ _ W D).
      * destruct (IHtries ns s1 W1 L H) as (s' & o & E' & I1 & I2 & I3 & I4 & I5).
        exists s', o. rewrite E'. repeat split; auto.
Qed.

Lemma enough_spec : forall sizes idx, (length sizes <= length idx)%nat ->
  enough idx sizes = Ret true /\
    (forall i n p, nth_error (map (fun n => Z.to_nat (n mod SIZE_T_MOD)) sizes) i = Some n ->
       nth_error idx i = Some p -> (n <= length p)%nat)
  \/ enough idx sizes = Ret false /\
    (exists i n p, nth_error sizes i = Some n /\ nth_error idx i = Some p
        /\ Z.of_nat (length p) < n mod SIZE_T_MOD).
Proof.
  induction sizes as [|z sizes IH]; intros idx L; cbn [enough].
  - left. split; auto. intros i n p H; destruct i; discriminate.
  - destruct idx as [|l ls]; [cbn in L; lia|].
    pose proof (Z.mod_pos_bound z SIZE_T_MOD ltac:(unfold SIZE_T_MOD; lia)).
    destruct (Z.ltb_spec (Z.of_nat (length l)) (z mod SIZE_T_MOD)).
    + right. split; auto. exists 0%nat, z, l. auto.
    + destruct (IH ls ltac:(cbn in L; lia)) as [[E H1]|[E (i & n & p & H1)]].
      * left. split; auto. intros i n p H2 H3; destruct i as [|i]; cbn in *; [|eauto].
        inversion H2; inversion H3; subst. lia.
      * right. split; auto. exists (S i), n, p. auto.
Qed.

Definition short_camera (idx : list (list Z)) (sizes : list Z) : Prop :=
  exists i n p, nth_error sizes i = Some n /\ nth_error idx i = Some p
        /\ Z.of_nat (length p) < n mod SIZE_T_MOD.

Lemma multi_getSamples_ok {A M} : forall (C : multi_class A M) s it, wf_multi s ->
  match multi_getSamples C s it with
  | Ret (s', it', smp) =>
      ms_indices s' = ms_indices s /\ ms_checks s' = ms_checks s /\ wf_multi s'
      /\ exists sizes, mc_sizes C (ms_user s) = Ret (ms_user s', sizes)
      /\ (   (smp = [] /\ it' = INT_MAX /\ short_camera (ms_indices s) sizes)
          \/ (it' = it /\ map (fun l => Z.of_nat (length l)) smp = map (fun n => n mod SIZE_T_MOD) sizes
              /\ mc_good C (ms_user s') smp = true /\ mdrawn (ms_indices s) smp)
          \/ (smp = [] /\ it' = it))
  | UB => mc_sizes C (ms_user s) = UB
          \/ exists a sizes, mc_sizes C (ms_user s) = Ret (a, sizes) /\ (length (ms_indices s) < length sizes)%nat
  | Diverge => mc_sizes C (ms_user s) = Diverge
  end.
Proof.
  intros C s it W. unfold multi_getSamples.
  destruct (mc_sizes C (ms_user s)) as [[a sizes]| |] eqn:ES; cbn [obind]; auto.
  destruct (le_lt_dec (length sizes) (length (ms_indices s))) as [L|L].
  - destruct (enough_spec sizes (ms_indices s) L) as [[E H]|[E H]]; cbn [mset_user ms_indices];
      rewrite E; cbn [obind negb].
    + destruct (multi_checks_ok (mc_good C) (Z.to_nat (ms_checks s))
         (map (fun n => Z.to_nat (n mod SIZE_T_MOD)) sizes) (mset_user s a) W ltac:(rewrite map_length; exact L) H)
         as (s' & o & E2 & I1 & I2 & I3 & I4 & I5).
      cbn [mset_user ms_checks] in E2 |- *. rewrite E2. cbn [obind].
      destruct o as [smp|].
      * split; [auto|]. split; [auto|]. split; [auto|]. exists sizes. cbn in I2. rewrite I2. split; auto.
        right; left. destruct I5 as (J1 & J2 & J3). repeat split; auto.
        apply (f_equal (map Z.of_nat)) in J1. rewrite !map_map in J1. rewrite J1.
        apply map_ext. intro n. apply Z2Nat.id. apply Z.mod_pos_bound. unfold SIZE_T_MOD; lia.
      * split; [auto|]. split; [auto|]. split; [auto|]. exists sizes. cbn in I2. rewrite I2. auto.
    + repeat split; auto. exists sizes. split; auto.
  - assert (X : enough (ms_indices s) sizes = UB \/ enough (ms_indices s) sizes = Ret false
                /\ short_camera (ms_indices s) sizes).
    { revert L. generalize (ms_indices s) as idx. clear. induction sizes as [|z sizes IH]; intros idx L; [cbn in L; lia|].
      cbn [enough]. destruct idx as [|l ls]; auto.
      destruct (Z.ltb_spec (Z.of_nat (length l)) (z mod SIZE_T_MOD)).
      - right. split; auto. exists 0%nat, z, l. auto.
      - destruct (IH ls ltac:(cbn in L; lia)) as [?|[? (i & n & p & H1)]]; auto.
        right. split; auto. exists (S i), n, p. auto. }
    cbn [mset_user ms_indices]. destruct X as [X|[X HX]]; rewrite X; cbn [obind negb].
    + right. eauto.
    + repeat split; auto. exists sizes. split; auto.
Qed.

(** * Counting and selecting *)
Lemma multi_select_spec : forall idx dist thr,
  map (@length float) dist = map (@length Z) idx ->
  multi_select_loop idx dist thr =
    Ret (map (fun p => map fst (filter (below thr) (combine (fst p) (snd p)))) (combine idx dist)).
Proof.
  induction idx as [|l ls IH]; intros [|d ds] thr H; cbn in H; try discriminate; cbn [multi_select_loop]; auto.
  inversion H. rewrite select_loop_spec by lia. cbn [obind]. rewrite IH by auto. reflexivity.
Qed.

Lemma multi_count_spec : forall idx dist thr c,
  map (@length float) dist = map (@length Z) idx ->
  multi_count_loop idx dist thr c =
    Ret (c + Z.of_nat (length (concat (map (fun p => map fst (filter (below thr) (combine (fst p) (snd p)))) (combine idx dist))))).
Proof.
  induction idx as [|l ls IH]; intros [|d ds] thr c H; cbn in H; try discriminate; cbn [multi_count_loop].
  - cbn. f_equal. lia.
  - inversion H. rewrite IH by auto. f_equal. rewrite count_loop_acc, (count_loop_spec l) by lia.
    cbn [combine map concat fst snd]. rewrite app_length, map_length. lia.
Qed.

Lemma multi_count_nonneg : forall idx dist thr c n, 0 <= c ->
  multi_count_loop idx dist thr c = Ret n -> 0 <= n.
Proof.
  induction idx as [|l ls IH]; intros [|d ds] thr c n Hc H; cbn in H; try discriminate;
    try (inversion H; subst; auto; fail).
  eapply IH; [|exact H]. now apply count_loop_nonneg.
Qed.

Lemma multi_count_not_diverge : forall idx dist thr c, multi_count_loop idx dist thr c <> Diverge.
Proof. induction idx; intros [|] thr c; cbn; try discriminate. auto. Qed.

Lemma select_not_diverge : forall d i thr, select_loop i d thr <> Diverge.
Proof.
  induction d; intros i thr; simpl; try discriminate.
  destruct (PrimFloat.ltb a _); auto. destruct i; try discriminate.
  specialize (IHd i thr). destruct (select_loop i d thr); simpl; congruence.
Qed.

Lemma multi_select_not_diverge : forall idx dist thr, multi_select_loop idx dist thr <> Diverge.
Proof.
  induction idx; intros [|d ds] thr; cbn; try discriminate.
  pose proof (select_not_diverge d a thr). destruct (select_loop a d thr); cbn; try congruence.
  specialize (IHidx ds thr). destruct (multi_select_loop idx ds thr); cbn; congruence.
Qed.

Section R.
  Context {A M : Type}.
  Variable flog : float -> float.
  Variable fpow : float -> float -> float.
  Variable C : multi_class A M.

  Notation mrun := (@multi_run_state A M).

  Definition multi_guard (ms : Z) (x : mrun) : bool :=
    let '(s, r, l, tr) := x in
    PrimFloat.ltb (float_of_Z (o_iterations r)) (l_k l) && (l_skipped l <? ms).

  Definition multi_body (x : mrun) : outcome (bool * mrun) :=
    let '(s, r, l, tr) := x in
    let! (s1, it, sel) := multi_getSamples C s (o_iterations r) in
    let r := set_iterations r it in
    match sel with
    | [] => Ret (false, (s1, r, mkLoc (l_best l) (l_k l) (l_skipped l) sel (l_coef l), tr))
    | _ :: _ =>
        let '(s2, ok, coef) := multi_computeModelCoefficients C s1 sel (l_coef l) in
        if negb ok then
          Ret (true, (s2, r,
                 mkLoc (l_best l) (l_k l) ((l_skipped l + 1) mod UNSIGNED_MOD) sel coef,
                 tr ++ [Skipped sel]))
        else
          let! (s3, n) := multi_countWithinDistance C s2 coef (o_threshold r) in
          let tr := tr ++ [Tried sel coef n] in
          let '(r, best, k) :=
            if l_best l <? n then
              (set_model r sel coef, n,
               ransac_k flog fpow (o_probability r) n
                 (total_size (ms_indices s3)) (total_size sel))
            else (r, l_best l, l_k l) in
          let l := mkLoc best k (l_skipped l) sel coef in
          if INT_MAX <=? o_iterations r then UB
          else
            let r := set_iterations r (o_iterations r + 1) in
            Ret (negb (o_max_iterations r <? o_iterations r), (s3, r, l, tr))
    end.

  Lemma multi_loop_while : forall ms fuel x,
    multi_loop flog fpow C fuel ms x = while (multi_guard ms) multi_body fuel x.
  Proof.
    intro ms. induction fuel; intros [[[s r] l] tr]; cbn [multi_loop while];
      unfold multi_guard at 1; fold (multi_guard ms);
      destruct (_ && _); auto.
    unfold multi_body at 1; fold multi_body.
    destruct (multi_getSamples C s (o_iterations r)) as [[[s1 it] sel]| |]; cbn [obind]; auto.
    destruct sel as [|z sel]; auto.
    destruct (multi_computeModelCoefficients C s1 (z :: sel) (l_coef l)) as [[s2 ok] coef].
    destruct ok; cbn [negb]; auto.
    destruct (multi_countWithinDistance C s2 coef _) as [[s3 n]| |]; cbn [obind]; auto.
    match goal with |- context [if ?b then (set_model _ _ _, _, _) else _] => destruct b end;
      destruct (INT_MAX <=? _); auto; destruct (_ <? _); cbn [negb]; auto.
  Qed.

  Definition mbest_inv (mod0 : list (list Z)) (c0 : M) (r : sac_object (list (list Z)) M)
      (best : Z) (tr : list (event (list (list Z)) M)) : Prop :=
    (best = - INT_MAX /\ tried_count tr = 0 /\ o_model r = mod0 /\ o_coef r = c0)
    \/ (exists pre post sel coef,
          tr = pre ++ Tried sel coef best :: post
          /\ sel <> [] /\ o_model r = sel /\ o_coef r = coef /\ 0 <= best
          /\ (forall s c n, In (Tried s c n) pre -> n < best)
          /\ (forall s c n, In (Tried s c n) post -> n <= best)).

  (** The contract under which a run has no undefined behaviour. *)
  Definition mgood_class (ncams : nat) : Prop := mone_score_per_index C /\ sizes_fine C ncams.

  Section Fixed.
    Variable s0 : multi_state A.
    Variable r0 : sac_object (list (list Z)) M.
    Variable ms : Z.
    Hypothesis Hms : 0 <= ms < UNSIGNED_MOD.

    Definition mframe (x : mrun) : Prop :=
      let '(s, r, l, tr) := x in
      wf_multi s /\ ms_indices s = ms_indices s0 /\ ms_checks s = ms_checks s0
      /\ o_max_iterations r = o_max_iterations r0
      /\ o_threshold r = o_threshold r0 /\ o_probability r = o_probability r0
      /\ o_inliers r = o_inliers r0
      /\ 0 <= l_skipped l <= ms
      /\ skipped_count tr = l_skipped l
      /\ mbest_inv (o_model r0) (o_coef r0) r (l_best l) tr
      /\ Forall (mgenuine C (ms_indices s0)) tr.

    Definition mI (x : mrun) : Prop :=
      mframe x /\ let '(s, r, l, tr) := x in
      0 <= o_iterations r <= Z.max 0 (o_max_iterations r0)
      /\ tried_count tr = o_iterations r.

    Definition mJ (x : mrun) : Prop :=
      mframe x /\ let '(s, r, l, tr) := x in
      tried_count tr <= Z.max 0 (o_max_iterations r0) + 1.

    Lemma mbest_skip : forall m0 c0 r b tr sel,
      mbest_inv m0 c0 r b tr -> mbest_inv m0 c0 r b (tr ++ [Skipped sel]).
    Proof.
      intros m0 c0 r b tr sel [(-> & H & ? & ?)|(pre & post & s & c & -> & H)].
      - left. repeat split; auto. rewrite tried_count_app, H. reflexivity.
      - right. exists pre, (post ++ [Skipped sel]), s, c.
        rewrite <- app_assoc. simpl. split; [reflexivity|].
        destruct H as (?&?&?&?&?&Hp). repeat split; auto.
        intros s' c' n Hin. apply in_app_iff in Hin. destruct Hin as [|[|[]]]; [eauto|discriminate].
    Qed.

    Lemma mbest_all : forall m0 c0 r b tr, mbest_inv m0 c0 r b tr ->
      forall s c n, In (Tried s c n) tr -> n <= b.
    Proof.
      intros m0 c0 r b tr [(-> & H & _)|(pre & post & s & c & -> & H)] s' c' n Hin.
      - unfold tried_count in H. exfalso.
        assert (In (Tried s' c' n) (filter is_tried tr)) by (apply filter_In; auto).
        destruct (filter is_tried tr); [contradiction|simpl in H; lia].
      - destruct H as (_&_&_&_&Hpre&Hpost).
        apply in_app_iff in Hin. destruct Hin as [Hin|[Hin|Hin]].
        + apply Hpre in Hin. lia.
        + inversion Hin; lia.
        + eauto.
    Qed.

    Lemma mbest_ge : forall m0 c0 r b tr, mbest_inv m0 c0 r b tr -> - INT_MAX <= b.
    Proof. intros m0 c0 r b tr [(-> & _)|(?&?&?&?&?&?&?&?&?&_)]; unfold INT_MAX in *; lia. Qed.

    Lemma mbody_step : (forall a, mc_sizes C a <> Diverge) ->
      forall x, mI x -> multi_guard ms x = true ->
      match multi_body x with
      | Ret (true, y) =>
          mI y /\ (let '(_, r, l, _) := y in let '(_, r1, l1, _) := x in
             (l_skipped l = l_skipped l1 + 1 /\ o_iterations r = o_iterations r1)
             \/ (l_skipped l = l_skipped l1 /\ o_iterations r = o_iterations r1 + 1))
      | Ret (false, y) => mJ y
      | UB => ~ (mgood_class (length (ms_indices s0))
                 /\ count_all (ms_indices s0) <= INT_MAX
                 /\ o_max_iterations r0 < INT_MAX)
      | Diverge => False
      end.
    Proof.
      intros HSD [[[s r] l] tr] [(W & E1 & E2 & E3 & E4 & E5 & E6 & E7 & E8 & B & GE) [It Tc]] G.
      unfold multi_guard in G. apply andb_prop in G. destruct G as [_ G].
      apply Z.ltb_lt in G.
      unfold multi_body.
      pose proof (multi_getSamples_ok C s (o_iterations r) W) as GS.
      destruct (multi_getSamples C s (o_iterations r)) as [[[s1 it] sel]| |]; cbn [obind].
      2:{ intros ((_ & HF) & _). destruct (HF (ms_user s)) as (a' & sz & Ea & La).
          destruct GS as [GS|(a2 & sz2 & GS & L2)]; [congruence|]. rewrite Ea in GS. inversion GS; subst.
          rewrite E1 in L2. lia. }
      2:{ exact (HSD _ GS). }
      destruct GS as (F1 & F3 & W1 & sizes & FS & F4).
      destruct sel as [|z sel'].
      - split.
        + unfold mframe; cbn. repeat split; auto; try congruence; try lia.
        + lia.
      - assert (Hit : it = o_iterations r).
        { destruct F4 as [(?&_)|[(?&_)|(?&_)]]; auto; discriminate. }
        assert (SO : mdrawn (ms_indices s0) (z :: sel')).
        { destruct F4 as [(?&_)|[(_&_&_&Hr)|(?&_)]]; try discriminate. now rewrite <- E1. }
        subst it. remember (z :: sel') as sel.
        unfold multi_computeModelCoefficients.
        destruct (mc_compute C (ms_user s1) sel (l_coef l)) as [[a2 ok] coef] eqn:Ecc.
        destruct ok; cbn [negb].
        + unfold multi_countWithinDistance. cbn [ms_user ms_indices mset_user].
          destruct (mc_dist C a2 coef (ms_indices s1)) as [a3 dist] eqn:Ed.
          destruct (multi_count_loop (ms_indices s1) dist (o_threshold (set_iterations r (o_iterations r))) 0)
            as [n| |] eqn:EN; cbn [obind].
          2:{ intros ((HD & _) & _). specialize (HD a2 coef (ms_indices s1)). rewrite Ed in HD. cbn in HD.
              rewrite multi_count_spec in EN by auto. discriminate. }
          2:{ exact (multi_count_not_diverge _ _ _ _ EN). }
          destruct (Z.ltb_spec INT_MAX n) as [Hov|Hov].
          * cbn [obind]. intros ((HD & _) & HL & _). specialize (HD a2 coef (ms_indices s1)).
            rewrite Ed in HD. cbn in HD. rewrite multi_count_spec in EN by auto. inversion EN; subst n.
            assert (HLE : forall idx d thr, map (@length float) d = map (@length Z) idx ->
              (length (concat (map (fun p => map fst (filter (below thr) (combine (fst p) (snd p)))) (combine idx d)))
               <= length (concat idx))%nat).
            { clear. induction idx as [|l ls IH]; intros [|d ds] thr H; cbn in H; try discriminate; auto.
              inversion H. cbn [combine map concat fst snd]. rewrite !app_length, map_length.
              specialize (IH ds thr H2).
              assert (X : (length (filter (below thr) (combine l d)) <= length l)%nat).
              { eapply Nat.le_trans; [|apply Nat.eq_le_incl; reflexivity].
                assert (Y : forall (f : Z * float -> bool) q, (length (filter f q) <= length q)%nat)
                  by (induction q; cbn; [lia|destruct (f a); cbn; lia]).
                eapply Nat.le_trans; [apply Y|]. rewrite combine_length. lia. }
              lia. }
            specialize (HLE _ _ (o_threshold (set_iterations r (o_iterations r))) HD).
            unfold count_all in HL. rewrite F1, E1 in HLE, Hov.
            apply (Z.lt_irrefl INT_MAX). eapply Z.lt_le_trans; [exact Hov|].
            eapply Z.le_trans; [apply Nat2Z.inj_le, HLE|]. exact HL.
          * cbn [obind].
            assert (Hn : 0 <= n) by (eapply multi_count_nonneg; [|exact EN]; lia).
            pose proof (mbest_all _ _ _ _ _ B) as BA.
            pose proof (mbest_ge _ _ _ _ _ B) as BG.
            assert (HB : forall rr, (o_model rr = o_model r /\ o_coef rr = o_coef r) ->
                   n <= l_best l ->
                   mbest_inv (o_model r0) (o_coef r0) rr (l_best l) (tr ++ [Tried sel coef n])).
            { intros rr [M1 M2] Hle. destruct B as [(Eb & _)|(pre & post & sx & cx & -> & N1 & N2 & N3 & N4 & N5 & N6)].
              - rewrite Eb in Hle. unfold INT_MAX in *. lia.
              - right. exists pre, (post ++ [Tried sel coef n]), sx, cx.
                rewrite <- app_assoc. simpl. rewrite M1, M2. repeat split; auto.
                intros s' c' n' Hin. apply in_app_iff in Hin.
                destruct Hin as [|[Hin|[]]]; [eauto|inversion Hin; subst; lia]. }
            assert (HB2 : forall rr, (o_model rr = sel /\ o_coef rr = coef) ->
                   l_best l < n ->
                   mbest_inv (o_model r0) (o_coef r0) rr n (tr ++ [Tried sel coef n])).
            { intros rr [M1 M2] Hlt. right. exists tr, [], sel, coef.
              repeat split; auto; try (rewrite Heqsel; discriminate).
              - intros s' c' n' Hin. specialize (BA _ _ _ Hin). lia.
              - intros s' c' n' []. }
            assert (SK : skipped_count (tr ++ [Tried sel coef n]) = l_skipped l)
              by (rewrite skipped_count_app, E8; cbn; lia).
            assert (TR : tried_count (tr ++ [Tried sel coef n]) = o_iterations r + 1)
              by (rewrite tried_count_app, Tc; cbn; lia).
            assert (GE' : Forall (mgenuine C (ms_indices s0)) (tr ++ [Tried sel coef n])).
            { apply Forall_app; split; auto. constructor; auto. split; eauto. }
            destruct (Z.ltb_spec (l_best l) n); cbn [o_iterations set_model set_iterations o_max_iterations];
              (destruct (Z.leb_spec INT_MAX (o_iterations r));
               [intros (_ & _ & HM); unfold INT_MAX in *; lia|]);
              (destruct (Z.ltb_spec (o_max_iterations r) (o_iterations r + 1)); cbn [negb]).
            -- split; [unfold mframe; cbn; repeat split; auto; try congruence; try lia|]. lia.
            -- split; [split; [unfold mframe; cbn; repeat split; auto; try congruence; try lia|]|].
               ++ cbn. lia.
               ++ cbn. right; lia.
            -- split; [unfold mframe; cbn; repeat split; auto; try congruence; try lia|]. lia.
            -- split; [split; [unfold mframe; cbn; repeat split; auto; try congruence; try lia|]|].
               ++ cbn. lia.
               ++ cbn. right; lia.
        + assert (Hm : (l_skipped l + 1) mod UNSIGNED_MOD = l_skipped l + 1)
            by (apply Z.mod_small; lia).
          split; [split|].
          * unfold mframe; cbn. rewrite Hm. repeat split; auto; try congruence; try lia.
            -- rewrite skipped_count_app, E8. cbn. lia.
            -- apply mbest_skip.
               destruct B as [(?&?&?&?)|(?&?&?&?&?&?&?&?&?)]; [left|right]; cbn; eauto 20.
            -- apply Forall_app; split; auto. constructor; auto. split; eauto 8.
          * cbn. rewrite tried_count_app, Tc. cbn. lia.
          * cbn. rewrite Hm. left; lia.
    Qed.

    Definition mmu (x : mrun) : nat :=
      let '(_, r, l, _) := x in
      Z.to_nat (Z.max 0 (o_max_iterations r0) - o_iterations r + (ms - l_skipped l)).

    Lemma mI_mJ : forall x, mI x -> mJ x.
    Proof. intros [[[s r] l] tr] [F [It Tc]]. split; auto. lia. Qed.

    Lemma mloop_not_diverge : (forall a, mc_sizes C a <> Diverge) ->
      forall fuel x, mI x -> (mmu x < fuel)%nat -> multi_loop flog fpow C fuel ms x <> Diverge.
    Proof.
      intros HSD fuel x Ix L. rewrite multi_loop_while.
      apply (while_term _ _ mI mmu); auto.
      intros y Iy G. pose proof (mbody_step HSD y Iy G) as B.
      destruct (multi_body y) as [[[] z]| |]; auto. destruct B as [Iz D]. split; auto.
      destruct y as [[[s r] l] tr], z as [[[s' r'] l'] tr'].
      destruct Iy as [(_&_&_&_&_&_&_&K1&_&_) K2]. destruct Iz as [(_&_&_&_&_&_&_&K3&_&_) K4].
      unfold mmu. lia.
    Qed.

    Lemma mloop_ret : mgood_class (length (ms_indices s0)) ->
      count_all (ms_indices s0) <= INT_MAX -> o_max_iterations r0 < INT_MAX ->
      forall fuel x, mI x -> (mmu x < fuel)%nat ->
      exists y, multi_loop flog fpow C fuel ms x = Ret y.
    Proof.
      intros HG HC HM fuel x Ix L. rewrite multi_loop_while.
      assert (HSD : forall a, mc_sizes C a <> Diverge).
      { intro a. destruct (proj2 HG a) as (? & ? & -> & _). discriminate. }
      apply (while_ret _ _ mI mmu); auto.
      intros y Iy G. pose proof (mbody_step HSD y Iy G) as B.
      destruct (multi_body y) as [[[] z]| |]; auto. destruct B as [Iz D]. split; auto.
      destruct y as [[[s r] l] tr], z as [[[s' r'] l'] tr'].
      destruct Iy as [(_&_&_&_&_&_&_&K1&_&_) K2]. destruct Iz as [(_&_&_&_&_&_&_&K3&_&_) K4].
      unfold mmu. lia.
    Qed.

    Lemma mloop_J : (forall a, mc_sizes C a <> Diverge) ->
      forall fuel x y, mI x -> multi_loop flog fpow C fuel ms x = Ret y -> mJ y.
    Proof.
      intros HSD fuel x y Ix. rewrite multi_loop_while.
      apply (while_inv _ _ mI mJ); auto.
      - intros; now apply mI_mJ.
      - intros z w Iz G E. pose proof (mbody_step HSD z Iz G) as B. rewrite E in B. tauto.
      - intros z w Iz G E. pose proof (mbody_step HSD z Iz G) as B. rewrite E in B. tauto.
    Qed.
  End Fixed.

  Lemma mI_init : forall s r m0, wf_multi s ->
    mI s r ((o_max_iterations r * 10) mod UNSIGNED_MOD)
      (s, set_iterations r 0, mkLoc (- INT_MAX) 1%float 0 [] m0, []).
  Proof.
    intros. pose proof (max_skip_range (o_max_iterations r)).
    split; [unfold mframe; cbn -[Z.modulo Z.max]; repeat split; auto; try lia|cbn -[Z.modulo Z.max]; split; [lia|reflexivity]].
    left. repeat split; auto.
  Qed.

  Lemma mmu_init : forall (s : multi_state A) r (m0 : M),
    (mmu r ((o_max_iterations r * 10) mod UNSIGNED_MOD)
       (s, set_iterations r 0, mkLoc (- INT_MAX) 1%float 0 [] m0, [])
     < ransac_fuel (o_max_iterations r) ((o_max_iterations r * 10) mod UNSIGNED_MOD))%nat.
  Proof.
    intros. pose proof (max_skip_range (o_max_iterations r)).
    unfold mmu, ransac_fuel. cbn -[Z.modulo]. lia.
  Qed.

  Lemma multi_run : (forall a, mc_sizes C a <> Diverge) -> forall m0 s r, wf_multi s ->
    match multi_computeModel flog fpow C m0 s r with
    | Diverge => False
    | UB => (o_max_iterations r < - 214748364 \/ 214748364 < o_max_iterations r)
            \/ ~ (mgood_class (length (ms_indices s)) /\ count_all (ms_indices s) <= INT_MAX)
    | Ret (s', r', ok, tr) =>
        - 214748364 <= o_max_iterations r <= 214748364
        /\ wf_multi s' /\ ms_indices s' = ms_indices s /\ ms_checks s' = ms_checks s
        /\ o_max_iterations r' = o_max_iterations r
        /\ o_threshold r' = o_threshold r /\ o_probability r' = o_probability r
        /\ tried_count tr <= Z.max 0 (o_max_iterations r) + 1
        /\ skipped_count tr <= (o_max_iterations r * 10) mod UNSIGNED_MOD
        /\ Forall (mgenuine C (ms_indices s)) tr
        /\ (exists best, mbest_inv (o_model r) (o_coef r) r' best tr)
        /\ ok = match o_model r' with [] => false | _ => true end
        /\ (ok = false -> o_inliers r' = [])
        /\ (ok = true -> exists s1,
              multi_selectWithinDistance C s1 (o_coef r') (o_threshold r) = Ret (s', o_inliers r'))
    end.
  Proof.
    intros HSD m0 s r W. unfold multi_computeModel.
    destruct (max_skip_of_cases (o_max_iterations r)) as [[Hr E]|[Hr E]]; rewrite E; cbn [obind]; [|auto].
    cbv zeta. cbn [o_max_iterations set_iterations].
    set (ms := (o_max_iterations r * 10) mod UNSIGNED_MOD).
    assert (Hms : 0 <= ms < UNSIGNED_MOD) by apply max_skip_range.
    pose proof (mI_init s r m0 W) as I0. pose proof (mmu_init s r m0) as M0. fold ms in I0, M0.
    pose proof (mloop_not_diverge s r ms Hms HSD _ _ I0 M0) as ND.
    destruct (multi_loop flog fpow C (ransac_fuel (o_max_iterations r) ms) ms
      (s, set_iterations r 0, mkLoc (- INT_MAX) 1%float 0 [] m0, [])) as [[[[s1 r1] l1] tr]| |] eqn:EL;
      cbn [obind].
    - pose proof (mloop_J s r ms Hms HSD _ _ _ I0 EL) as [(W1 & F1 & F2 & F3 & F4 & F5 & F6 & F7 & F8 & B & GE) T].
      destruct (o_model r1) as [|z zs] eqn:Em.
      + repeat split; auto; try congruence; try lia. exists (l_best l1).
        destruct B as [B|B]; [left|right]; cbn; auto.
        cbn. now rewrite Em.
      + destruct (multi_selectWithinDistance C s1 (o_coef r1) (o_threshold r1)) as [[s2 inls]| |] eqn:ES; cbn [obind].
        * assert (S2 : ms_indices s2 = ms_indices s1 /\ ms_shuffled s2 = ms_shuffled s1 /\ ms_checks s2 = ms_checks s1).
          { unfold multi_selectWithinDistance in ES. destruct (mc_dist C _ _ _).
            destruct (multi_select_loop _ _ _); try discriminate. cbn in ES. inversion ES; subst; auto. }
          destruct S2 as (S2 & S3 & S4).
          repeat split; auto; try congruence; try lia.
          -- unfold wf_multi. rewrite S2, S3. exact W1.
          -- exists (l_best l1). destruct B as [B|B]; [left|right]; cbn; auto.
          -- cbn. now rewrite Em.
          -- intros _. exists s1. cbn. rewrite <- F4. exact ES.
        * right. intros [[HD _] HL]. unfold multi_selectWithinDistance in ES.
          specialize (HD (ms_user s1) (o_coef r1) (ms_indices s1)).
          destruct (mc_dist C _ _ _) as [a d]. simpl in HD.
          rewrite multi_select_spec in ES by auto. discriminate.
        * unfold multi_selectWithinDistance in ES. destruct (mc_dist C _ _ _) as [a d].
          pose proof (multi_select_not_diverge (ms_indices s1) d (o_threshold r1)).
          destruct (multi_select_loop _ _ _); cbn in ES; congruence.
    - right. intros [HG HL].
      destruct (mloop_ret s r ms Hms HG HL ltac:(unfold INT_MAX; lia) _ _ I0 M0) as [y Hy].
      congruence.
    - congruence.
  Qed.

  (** Score consistency. *)
  Section Stable.
    Variable Inv : A -> Prop.
    Variable score : M -> nat -> Z -> float.
    Hypothesis HS : mscores_are_function C Inv score.
    Variable idx : list (list Z).
    Variable thr : float.

    Definition mscored (coef : M) : list (list Z) :=
      filter_cams (fun cam i => PrimFloat.ltb (score coef cam i) thr) 0 idx.

    Definition mL (x : mrun) : Prop :=
      let '(s, r, l, tr) := x in
      wf_multi s /\ ms_indices s = idx /\ o_threshold r = thr /\ Inv (ms_user s)
      /\ (forall sel coef n, In (Tried sel coef n) tr -> n = count_all (mscored coef)).

    Lemma map_cams_len {X} (f : nat -> Z -> X) : forall l cam,
      map (@length X) (map_cams f cam l) = map (@length Z) l.
    Proof. induction l; intros; cbn; auto. now rewrite map_length, IHl. Qed.

    Lemma filter_cams_combine : forall l cam (f : nat -> Z -> float),
      map (fun p => map fst (filter (below thr) (combine (fst p) (snd p)))) (combine l (map_cams f cam l))
      = filter_cams (fun c i => PrimFloat.ltb (f c i) thr) cam l.
    Proof.
      induction l; intros; cbn; auto. rewrite IHl. f_equal. apply filter_combine_map.
    Qed.

    Lemma mL_body : forall x b y, mL x -> multi_body x = Ret (b, y) -> mL y.
    Proof.
      intros [[[s r] l] tr] b y (W & E1 & Et & HI & HC) H.
      destruct HS as [HS0 [HS1 HS2]].
      unfold multi_body in H.
      pose proof (multi_getSamples_ok C s (o_iterations r) W) as GS.
      destruct (multi_getSamples C s (o_iterations r)) as [[[s1 it] sel]| |]; cbn [obind] in H; try discriminate.
      destruct GS as (F1 & F3 & W1 & sizes & FS & F4).
      assert (HI1 : Inv (ms_user s1)) by (eapply HS0; eauto).
      destruct sel as [|z sel'].
      - inversion H; subst. cbn. repeat split; auto; congruence.
      - unfold multi_computeModelCoefficients in H.
        pose proof (HS1 (ms_user s1) (z :: sel') (l_coef l) HI1) as HI2.
        destruct (mc_compute C (ms_user s1) (z :: sel') (l_coef l)) as [[a2 ok] coef] eqn:Ec.
        cbn in HI2.
        destruct ok; cbn [negb] in H.
        + unfold multi_countWithinDistance in H. cbn [ms_user ms_indices mset_user] in H.
          pose proof (HS2 a2 coef (ms_indices s1) HI2) as [HI3 HD].
          destruct (mc_dist C a2 coef (ms_indices s1)) as [a3 dist] eqn:Ed.
          cbn in HI3, HD. rewrite HD in H. rewrite multi_count_spec in H by apply map_cams_len.
          cbn [obind o_threshold set_iterations] in H. rewrite Et, filter_cams_combine in H.
          destruct (INT_MAX <? _); [discriminate|]. cbn [obind] in H.
          set (n := 0 + _) in *.
          assert (Hn : n = count_all (mscored coef)).
          { unfold n, count_all, mscored. rewrite F1, E1. lia. }
          assert (HC' : forall sl c k, In (Tried sl c k) (tr ++ [Tried (z :: sel') coef n]) ->
                     k = count_all (mscored c)).
          { intros sl c k Hin. apply in_app_iff in Hin. destruct Hin as [|[Hin|[]]]; [eauto|].
            inversion Hin; subst; auto. }
          destruct (l_best l <? n); cbn [o_iterations set_model set_iterations o_max_iterations] in H;
            (destruct (INT_MAX <=? _); [discriminate|]); inversion H; subst y; cbn;
            (split; [exact W1|]); (split; [congruence|]); auto.
        + inversion H; subst. cbn. split; [exact W1|]. split; [congruence|]. split; auto. split; auto.
          intros sl c k Hin. apply in_app_iff in Hin. destruct Hin as [|[Hin|[]]]; [eauto|discriminate].
    Qed.
  End Stable.

  Lemma multi_stable : forall Inv score m0 s r s' r' ok tr, wf_multi s ->
    mscores_are_function C Inv score -> Inv (ms_user s) ->
    multi_computeModel flog fpow C m0 s r = Ret (s', r', ok, tr) ->
    (forall sel coef n, In (Tried sel coef n) tr ->
          n = count_all (mscored score (ms_indices s) (o_threshold r) coef))
    /\ (ok = true -> o_inliers r' = mscored score (ms_indices s) (o_threshold r) (o_coef r')).
  Proof.
    intros Inv score m0 s r s' r' ok tr W HS HI H. unfold multi_computeModel in H.
    destruct (max_skip_of (o_max_iterations r)) as [ms| |]; try discriminate. cbn [obind] in H.
    destruct (multi_loop _ _ _ _ _ _) as [[[[s1 r1] l1] tr1]| |] eqn:EL; try discriminate.
    assert (K : mL Inv score (ms_indices s) (o_threshold r) (s1, r1, l1, tr1)).
    { rewrite multi_loop_while in EL.
      refine (while_inv _ _ (mL Inv score (ms_indices s) (o_threshold r)) _ _ _ _ _ _ _ _ EL); auto.
      - intros; eapply mL_body; eauto.
      - intros; eapply mL_body; eauto.
      - cbn. repeat split; auto. intros; contradiction. }
    destruct K as (W1 & E1 & E2 & I1 & HC). cbn [obind] in H.
    destruct (o_model r1).
    - inversion H; subst. split; auto. discriminate.
    - unfold multi_selectWithinDistance in H.
      destruct HS as [_ [_ HS2]]. destruct (HS2 (ms_user s1) (o_coef r1) (ms_indices s1) I1) as [I2 D].
      destruct (mc_dist C (ms_user s1) (o_coef r1) (ms_indices s1)) as [a d] eqn:Ed. cbn in I2, D.
      subst d. rewrite multi_select_spec in H by apply map_cams_len.
      cbn [obind] in H. inversion H; subst s' r' ok tr. cbn. split; auto.
      intros _. rewrite filter_cams_combine. unfold mscored. now rewrite E1, E2.
  Qed.
End R.
