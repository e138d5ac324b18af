(** Proofs about Lmeds::computeModel (C12, C13, C11). *)
From Coq Require Import ZArith List Bool Floats Lia Permutation Arith.
From Verif Require Import SacModel SacDrawProofs WhileLib SacRansacProofs SacRansacProofs2 FloatLib.
Import ListNotations.
Open Scope Z_scope.

Section L.
  Context {A M : Type}.
  Variable fsort : list float -> list float.
  Variable C : sac_class A M.

  Notation lmeds_state := (@lmeds_state A M).
  Notation lmeds_event := (@lmeds_event M).

  Definition lmeds_guard (ms : Z) (x : lmeds_state) : bool :=
    let '(s, r, l, tr) := x in
    (o_iterations r <? o_max_iterations r) && (ll_skipped l <? ms).

  Definition lmeds_body (x : lmeds_state) : outcome (bool * lmeds_state) :=
    let '(s, r, l, tr) := x in
    let! (s1, it, sel) := getSamples C s (o_iterations r) in
    let r := set_iterations r it in
    match sel with
    | [] => Ret (false, (s1, r, mkLLoc (ll_best l) (ll_skipped l) sel (ll_coef l), tr))
    | _ :: _ =>
        let '(s2, ok, coef) := computeModelCoefficients C s1 sel (ll_coef l) in
        let skip := fun s =>
          Ret (true, (s, r, mkLLoc (ll_best l) ((ll_skipped l + 1) mod UNSIGNED_MOD) sel coef,
                 tr ++ [LSkipped sel])) in
        if negb ok then skip s2
        else
          let (a, dist) := c_dist C (s_user s2) coef (s_indices s2) in
          let s3 := set_user s2 a in
          match dist with
          | [] => skip s3
          | _ :: _ =>
              let! o := lmeds_penalty (length (s_indices s3)) (fsort (map clip_square dist)) in
              match o with
              | None => skip s3
              | Some pen =>
                  let '(r, best) :=
                    if PrimFloat.ltb pen (ll_best l)
                    then (set_model r sel coef, pen) else (r, ll_best l) in
                  if INT_MAX <=? o_iterations r then UB
                  else
                    Ret (true, (s3, set_iterations r (o_iterations r + 1),
                           mkLLoc best (ll_skipped l) sel coef,
                           tr ++ [LTried sel coef dist pen]))
              end
          end
    end.

  Lemma lmeds_loop_while : forall ms fuel x,
    lmeds_loop fsort C fuel ms x = while (lmeds_guard ms) lmeds_body fuel x.
  Proof.
    intro ms. induction fuel; intros [[[s r] l] tr]; cbn [lmeds_loop while];
      unfold lmeds_guard at 1; fold (lmeds_guard ms); destruct (_ && _); auto.
    unfold lmeds_body at 1; fold lmeds_body.
    destruct (getSamples C s (o_iterations r)) as [[[s1 it] sel]| |]; cbn [obind]; auto.
    destruct sel as [|z sel]; auto.
    destruct (computeModelCoefficients C s1 (z :: sel) (ll_coef l)) as [[s2 ok] coef].
    destruct ok; cbn [negb]; auto.
    destruct (c_dist C _ _ _) as [a dist]. destruct dist as [|d dist]; auto.
    destruct (lmeds_penalty _ _) as [[pen|]| |]; cbn [obind]; auto.
    destruct (PrimFloat.ltb pen (ll_best l)); destruct (INT_MAX <=? _); auto.
  Qed.

  Definition is_ltried (e : lmeds_event) : bool :=
    match e with LTried _ _ _ _ => true | LSkipped _ => false end.
  Definition ltried_count (tr : list lmeds_event) : Z :=
    Z.of_nat (length (filter is_ltried tr)).
  Definition lskipped_count (tr : list lmeds_event) : Z :=
    Z.of_nat (length (filter (fun e => negb (is_ltried e)) tr)).
  Lemma ltried_count_app : forall t1 t2,
    ltried_count (t1 ++ t2) = ltried_count t1 + ltried_count t2.
  Proof. intros. unfold ltried_count. rewrite filter_app, app_length. lia. Qed.
  Lemma lskipped_count_app : forall t1 t2,
    lskipped_count (t1 ++ t2) = lskipped_count t1 + lskipped_count t2.
  Proof. intros. unfold lskipped_count. rewrite filter_app, app_length. lia. Qed.

  Definition lbest_inv (mod0 : list Z) (c0 : M) (r : sac_object (list Z) M)
      (best : float) (tr : list lmeds_event) : Prop :=
    PrimFloat.is_nan best = false
    /\ (forall s c d p, In (LTried s c d p) tr -> PrimFloat.ltb p best = false)
    /\ ((best = DBL_MAX /\ o_model r = mod0 /\ o_coef r = c0)
        \/ (exists pre post sel coef d,
              tr = pre ++ LTried sel coef d best :: post
              /\ sel <> [] /\ o_model r = sel /\ o_coef r = coef
              /\ PrimFloat.ltb best DBL_MAX = true
              /\ (forall s c d p, In (LTried s c d p) pre ->
                    PrimFloat.is_nan p = true \/ PrimFloat.ltb best p = true))).

  Definition levent_sound (idx : list Z) (e : lmeds_event) : Prop :=
    match e with
    | LSkipped sel => sample_of idx sel
    | LTried sel coef d p => sample_of idx sel
        /\ (exists a m a', c_compute C a sel m = (a', true, coef))
        /\ (exists a, d = snd (c_dist C a coef idx))
        /\ lmeds_penalty (length idx) (fsort (map clip_square d)) = Ret (Some p)
    end.

  Section Fixed.
    Variable s0 : sac_state A.
    Variable r0 : sac_object (list Z) M.
    Variable ms : Z.
    Hypothesis Hms : 0 <= ms < UNSIGNED_MOD.

    Definition lframe (x : lmeds_state) : Prop :=
      let '(s, r, l, tr) := x in
      wf_sac s /\ s_indices s = s_indices s0 /\ s_checks s = s_checks s0
      /\ o_max_iterations r = o_max_iterations r0
      /\ o_threshold r = o_threshold r0 /\ o_probability r = o_probability r0
      /\ o_inliers r = o_inliers r0
      /\ 0 <= ll_skipped l <= ms
      /\ lskipped_count tr = ll_skipped l
      /\ Forall (levent_sound (s_indices s0)) tr
      /\ lbest_inv (o_model r0) (o_coef r0) r (ll_best l) tr.

    Definition LIloop (x : lmeds_state) : Prop :=
      lframe x /\ let '(s, r, l, tr) := x in
      0 <= o_iterations r <= Z.max 0 (o_max_iterations r0)
      /\ ltried_count tr = o_iterations r.

    Definition LJloop (x : lmeds_state) : Prop :=
      lframe x /\ let '(s, r, l, tr) := x in
      ltried_count tr <= Z.max 0 (o_max_iterations r0).

    Lemma lbest_skip : forall m0 c0 r b tr sel rr,
      o_model rr = o_model r -> o_coef rr = o_coef r ->
      lbest_inv m0 c0 r b tr -> lbest_inv m0 c0 rr b (tr ++ [LSkipped sel]).
    Proof.
      intros m0 c0 r b tr sel rr Em Ec (HN & HA & H). split; [auto|split].
      - intros s c d p Hin. apply in_app_iff in Hin.
        destruct Hin as [|[|[]]]; [eauto|discriminate].
      - rewrite Em, Ec. destruct H as [?|(pre & post & s & c & d & -> & H)]; [auto|].
        right. exists pre, (post ++ [LSkipped sel]), s, c, d.
        rewrite <- app_assoc. simpl. auto.
    Qed.

    Lemma lbody_step : forall x, LIloop x -> lmeds_guard ms x = true ->
      match lmeds_body x with
      | Ret (true, y) =>
          LIloop y /\ (let '(_, r, l, _) := y in let '(_, r1, l1, _) := x in
             (ll_skipped l = ll_skipped l1 + 1 /\ o_iterations r = o_iterations r1)
             \/ (ll_skipped l = ll_skipped l1 /\ o_iterations r = o_iterations r1 + 1))
      | Ret (false, y) => LJloop y
      | UB => ~ (dist_len C /\ (forall l, length (fsort l) = length l)
                 /\ o_max_iterations r0 < INT_MAX)
      | Diverge => False
      end.
    Proof.
      intros [[[s r] l] tr] [(W & E1 & E2 & E3 & E4 & E5 & E6 & E7 & E8 & ES & B) [It Tc]] G.
      unfold lmeds_guard in G. apply andb_prop in G. destruct G as [G1 G].
      apply Z.ltb_lt in G. apply Z.ltb_lt in G1.
      unfold lmeds_body.
      destruct (getSamples_ok C s (o_iterations r) W)
        as (s1 & it & sel & Eg & F1 & F2 & F3 & W1 & F4).
      rewrite Eg. cbn [obind].
      destruct sel as [|z sel'].
      - split.
        + unfold lframe; cbn. repeat split; auto; try congruence; try lia.
          all: destruct B as (B1 & B2 & B3); auto.
        + lia.
      - assert (Hit : it = o_iterations r).
        { destruct F4 as [(?&_)|[(?&_)|(?&_)]]; auto; discriminate. }
        subst it.
        assert (SO : sample_of (s_indices s0) (z :: sel')).
        { destruct F4 as [(?&_)|[(_&_&_&Hr)|(?&_)]]; try discriminate.
          unfold sample_of. rewrite <- E1. exact Hr. }
        assert (Hm : (ll_skipped l + 1) mod UNSIGNED_MOD = ll_skipped l + 1)
          by (apply Z.mod_small; lia).
        unfold computeModelCoefficients.
        destruct (c_compute C (s_user s1) (z :: sel') (ll_coef l)) as [[a2 ok] coef] eqn:Ec.
        assert (SKIP : forall a, LIloop (set_user s1 a, set_iterations r (o_iterations r),
                   mkLLoc (ll_best l) ((ll_skipped l + 1) mod UNSIGNED_MOD) (z :: sel') coef,
                   tr ++ [LSkipped (z :: sel')])
                 /\ ((ll_skipped l + 1) mod UNSIGNED_MOD = ll_skipped l + 1
                     /\ o_iterations (set_iterations r (o_iterations r)) = o_iterations r
                     \/ (ll_skipped l + 1) mod UNSIGNED_MOD = ll_skipped l
                     /\ o_iterations (set_iterations r (o_iterations r)) = o_iterations r + 1)).
        { intro a. rewrite Hm. split; [split|left; cbn; lia].
          - unfold lframe. cbn [ll_best ll_skipped].
            assert (HH1 : Forall (levent_sound (s_indices s0)) (tr ++ [LSkipped (z :: sel')]))
              by (apply Forall_app; split; auto).
            assert (HH2 : lbest_inv (o_model r0) (o_coef r0) (set_iterations r (o_iterations r))
                           (ll_best l) (tr ++ [LSkipped (z :: sel')]))
              by (apply lbest_skip with r; auto).
            assert (HH3 : lskipped_count (tr ++ [LSkipped (z :: sel')]) = ll_skipped l + 1)
              by (rewrite lskipped_count_app, E8; reflexivity).
            cbn [s_indices s_checks set_user o_max_iterations o_threshold o_probability o_inliers set_iterations].
            repeat (split; [first [assumption|congruence|lia]|]). first [exact HH2|apply HH2].
          - cbn. rewrite ltried_count_app, Tc. cbn. lia. }
        destruct ok; cbn [negb]; [|exact (SKIP a2)].
        cbn [s_user s_indices set_user].
        destruct (c_dist C a2 coef (s_indices s1)) as [a3 dist] eqn:Ed.
        destruct dist as [|d0 dist']; [exact (SKIP a3)|].
        set (dist := d0 :: dist') in *.
        destruct (lmeds_penalty (length (s_indices s1)) (fsort (map clip_square dist)))
          as [[pen|]| |] eqn:EP; cbn [obind].
        + (* tried *)
          assert (HE : levent_sound (s_indices s0) (LTried (z :: sel') coef dist pen)).
          { cbn. repeat split; eauto.
            - exists a2. rewrite <- E1, <- F1, Ed. reflexivity.
            - rewrite <- E1, <- F1. exact EP. }
          assert (HF : Forall (levent_sound (s_indices s0)) (tr ++ [LTried (z :: sel') coef dist pen]))
            by (apply Forall_app; split; auto).
          assert (SK : lskipped_count (tr ++ [LTried (z :: sel') coef dist pen]) = ll_skipped l)
            by (rewrite lskipped_count_app, E8; cbn; lia).
          assert (TR : ltried_count (tr ++ [LTried (z :: sel') coef dist pen]) = o_iterations r + 1)
            by (rewrite ltried_count_app, Tc; cbn; lia).
          destruct B as (BN & BA & BC).
          destruct (PrimFloat.ltb pen (ll_best l)) eqn:EL;
            cbn [o_iterations set_model set_iterations];
            (destruct (Z.leb_spec INT_MAX (o_iterations r));
              [intros (_ & _ & HM); unfold INT_MAX in *; lia|]).
          * (* improvement *)
            assert (HB : lbest_inv (o_model r0) (o_coef r0)
               (set_iterations (set_model (set_iterations r (o_iterations r)) (z :: sel') coef) (o_iterations r + 1))
               pen (tr ++ [LTried (z :: sel') coef dist pen])).
            { destruct (ltb_not_nan _ _ EL) as [PN _].
              assert (PM : PrimFloat.ltb pen DBL_MAX = true).
              { destruct BC as [(Eb & _)|(?&?&?&?&?&_&_&_&_&Hd&_)]; [now rewrite Eb in EL|].
                eapply ltb_trans; eauto. }
              split; [auto|split].
              - intros s' c' d' p' Hin. apply in_app_iff in Hin. destruct Hin as [Hin|[Hin|[]]].
                + specialize (BA _ _ _ _ Hin).
                  destruct (PrimFloat.ltb p' pen) eqn:E'; auto.
                  rewrite (ltb_trans _ _ _ E' EL) in BA. discriminate.
                + inversion Hin; subst. apply ltb_irrefl.
              - right. exists tr, [], (z :: sel'), coef, dist. cbn.
                repeat split; auto; try discriminate.
                intros s' c' d' p' Hin. specialize (BA _ _ _ _ Hin).
                destruct (PrimFloat.is_nan p') eqn:En; auto. right.
                apply (ltb_leb_trans pen (ll_best l) p' EL). apply ltb_total; auto. }
            split; [split|right; cbn; lia].
            -- unfold lframe. cbn [s_indices s_checks set_user o_max_iterations o_threshold o_probability o_inliers set_iterations set_model ll_best ll_skipped].
               repeat (split; [first [assumption|congruence|lia]|]). first [exact HB|apply HB].
            -- cbn. lia.
          * assert (HB : lbest_inv (o_model r0) (o_coef r0)
               (set_iterations (set_iterations r (o_iterations r)) (o_iterations r + 1))
               (ll_best l) (tr ++ [LTried (z :: sel') coef dist pen])).
            { split; [auto|split].
              - intros s' c' d' p' Hin. apply in_app_iff in Hin. destruct Hin as [Hin|[Hin|[]]].
                + eauto.
                + inversion Hin; subst. auto.
              - cbn. destruct BC as [?|(pre & post & s' & c' & d' & -> & H')]; [auto|].
                right. exists pre, (post ++ [LTried (z :: sel') coef dist pen]), s', c', d'.
                rewrite <- app_assoc. simpl. auto. }
            split; [split|right; cbn; lia].
            -- unfold lframe. cbn [s_indices s_checks set_user o_max_iterations o_threshold o_probability o_inliers set_iterations set_model ll_best ll_skipped].
               repeat (split; [first [assumption|congruence|lia]|]). first [exact HB|apply HB].
            -- cbn. lia.
        + exact (SKIP a3).
        + (* penalty UB impossible under contracts *)
          intros (HD & HS & _). specialize (HD a2 coef (s_indices s1)). rewrite Ed in HD. simpl in HD.
          unfold lmeds_penalty in EP. rewrite HS, map_length in EP.
          change (length dist) with (S (length dist')) in *.
          destruct (Nat.leb_spec (S (length dist')) (length (s_indices s1) / 2)); [discriminate|].
          assert (HH : exists q, nth_error (fsort (map clip_square dist)) (length (s_indices s1) / 2) = Some q).
          { destruct (nth_error (fsort (map clip_square dist)) (length (s_indices s1) / 2)) eqn:E'; eauto.
            apply nth_error_None in E'. rewrite HS, map_length in E'. change (length dist) with (S (length dist')) in E'. lia. }
          destruct HH as [q Hq].
          destruct (Nat.even (length (s_indices s1))) eqn:EE.
          * destruct (length (s_indices s1) / 2)%nat as [|m1] eqn:EM.
            -- assert (length (s_indices s1) < 2)%nat by (apply Nat.div_small_iff; lia).
               rewrite <- HD in EE. destruct dist'; [discriminate|]. rewrite <- HD in H0. simpl in H0. lia.
            -- rewrite Hq in EP.
               destruct (nth_error (fsort (map clip_square dist)) m1) eqn:E'; [discriminate|].
               apply nth_error_None in E'. rewrite HS, map_length in E'. change (length dist) with (S (length dist')) in E'. lia.
          * rewrite Hq in EP. discriminate.
        + unfold lmeds_penalty in EP. destruct (Nat.leb _ _); try discriminate.
          destruct (Nat.even _); [destruct (_ / 2)%nat; try discriminate|];
          repeat match type of EP with context [match nth_error ?a ?b with _ => _ end] => destruct (nth_error a b); try discriminate end.
    Qed.

    Definition lmu (x : lmeds_state) : nat :=
      let '(_, r, l, _) := x in
      Z.to_nat (Z.max 0 (o_max_iterations r0) - o_iterations r + (ms - ll_skipped l)).

    Lemma lloop_facts : forall fuel x, LIloop x -> (lmu x < fuel)%nat ->
      match lmeds_loop fsort C fuel ms x with
      | Ret y => LJloop y
      | UB => ~ (dist_len C /\ (forall l, length (fsort l) = length l)
                 /\ o_max_iterations r0 < INT_MAX)
      | Diverge => False
      end.
    Proof.
      intros fuel x Ix L. rewrite lmeds_loop_while.
      assert (MU : forall y z, LIloop y -> LIloop z ->
         (let '(_, r, l, _) := z in let '(_, r1, l1, _) := y in
             (ll_skipped l = ll_skipped l1 + 1 /\ o_iterations r = o_iterations r1)
             \/ (ll_skipped l = ll_skipped l1 /\ o_iterations r = o_iterations r1 + 1)) ->
         (lmu z < lmu y)%nat).
      { intros [[[s r] l] tr] [[[s' r'] l'] tr'] [(_&_&_&_&_&_&_&K1&_&_) K2] [(_&_&_&_&_&_&_&K3&_&_) K4] D.
        unfold lmu. lia. }
      destruct (while (lmeds_guard ms) lmeds_body fuel x) as [y| |] eqn:E.
      - revert E. apply (while_inv _ _ LIloop LJloop); auto.
        + intros [[[s r] l] tr] [F [H1 H2]] _. split; auto. lia.
        + intros z w Iz G E. pose proof (lbody_step z Iz G) as B. rewrite E in B. tauto.
        + intros z w Iz G E. pose proof (lbody_step z Iz G) as B. rewrite E in B. tauto.
      - intro HC.
        destruct (while_ret (lmeds_guard ms) lmeds_body LIloop lmu) with (fuel := fuel) (x := x) as [y Hy]; auto; [|congruence].
        intros z Iz G. pose proof (lbody_step z Iz G) as B.
        destruct (lmeds_body z) as [[[] w]| |]; auto. destruct B; split; auto.
      - revert E. apply (while_term (lmeds_guard ms) lmeds_body LIloop lmu); auto.
        intros z Iz G. pose proof (lbody_step z Iz G) as B.
        destruct (lmeds_body z) as [[[] w]| |]; auto. destruct B; split; auto.
    Qed.
  End Fixed.

  Lemma lmeds_select_spec : forall idx dist thr, length dist = length idx ->
    lmeds_select idx dist thr
    = map fst (filter (fun p => PrimFloat.leb (snd p) thr) (combine idx dist)).
  Proof.
    induction idx; intros [|d dist] thr L; cbn [length] in L; try discriminate; auto.
    cbn [lmeds_select combine filter snd]. rewrite IHidx by lia.
    destruct (PrimFloat.leb d thr); reflexivity.
  Qed.

  Lemma lmeds_run : forall m0 s r, wf_sac s -> PrimFloat.eqb (o_threshold r) DBL_MAX = false ->
    match lmeds_computeModel fsort C m0 s r with
    | Diverge => False
    | UB => (o_max_iterations r < - 214748364 \/ 214748364 < o_max_iterations r)
            \/ ~ (dist_len C /\ forall l, length (fsort l) = length l)
    | Ret (s', r', ok, tr) =>
        - 214748364 <= o_max_iterations r <= 214748364
        /\ wf_sac s' /\ s_indices s' = s_indices s /\ s_checks s' = s_checks s
        /\ o_max_iterations r' = o_max_iterations r
        /\ o_threshold r' = o_threshold r /\ o_probability r' = o_probability r
        /\ ltried_count tr <= Z.max 0 (o_max_iterations r)
        /\ lskipped_count tr <= (o_max_iterations r * 10) mod UNSIGNED_MOD
        /\ Forall (levent_sound (s_indices s)) tr
        /\ (exists best, lbest_inv (o_model r) (o_coef r) r' best tr)
        /\ (ok = false -> o_inliers r' = o_inliers r)
        /\ (ok = true -> o_model r' <> [] /\ exists a,
              o_inliers r' = map fst (filter (fun p => PrimFloat.leb (snd p) (o_threshold r))
                               (combine (s_indices s) (snd (c_dist C a (o_coef r') (s_indices s)))))
              /\ length (snd (c_dist C a (o_coef r') (s_indices s))) = length (s_indices s))
        /\ (ok = false -> dist_len C -> o_model r' = [] \/ s_indices s = [])
    end.
  Proof.
    intros m0 s r W HT. unfold lmeds_computeModel. rewrite HT.
    destruct (max_skip_of_cases (o_max_iterations r)) as [[Hr E]|[Hr E]]; rewrite E; cbn [obind]; [|auto].
    cbv zeta. cbn [o_max_iterations set_iterations].
    set (ms := (o_max_iterations r * 10) mod UNSIGNED_MOD).
    assert (Hms : 0 <= ms < UNSIGNED_MOD) by apply max_skip_range.
    assert (I0 : LIloop s r ms (s, set_iterations r 0, mkLLoc DBL_MAX 0 [] m0, [])).
    { split; [unfold lframe; cbn -[Z.max]; repeat split; auto; try lia|cbn -[Z.max]; split; [lia|reflexivity]].
      intros; contradiction. }
    assert (M0 : (lmu r ms (s, set_iterations r 0, mkLLoc DBL_MAX 0 [] m0, [])
                  < lmeds_fuel (o_max_iterations r) ms)%nat).
    { unfold lmu, lmeds_fuel. cbn [ll_skipped o_iterations set_iterations]. lia. }
    pose proof (lloop_facts s r ms Hms _ _ I0 M0) as LF.
    destruct (lmeds_loop fsort C (lmeds_fuel (o_max_iterations r) ms) ms
      (s, set_iterations r 0, mkLLoc DBL_MAX 0 [] m0, [])) as [[[[s1 r1] l1] tr]| |] eqn:EL;
      cbn [obind]; [|right; intros [? ?]; apply LF; repeat split; auto; unfold INT_MAX; lia|auto].
    destruct LF as [(W1 & F1 & F2 & F3 & F4 & F5 & F6 & F7 & F8 & ES & B) T].
    assert (HB : exists best, lbest_inv (o_model r) (o_coef r) r1 best tr) by eauto.
    assert (BASE : forall a rr okk,
       (rr = r1 /\ okk = false /\ (dist_len C -> o_model r1 = [] \/ s_indices s = []))
       \/ (okk = true /\ o_model r1 <> []
           /\ length (snd (c_dist C (s_user s1) (o_coef r1) (s_indices s1))) = length (s_indices s1)
           /\ rr = set_inliers r1 (lmeds_select (s_indices s1)
                   (snd (c_dist C (s_user s1) (o_coef r1) (s_indices s1))) (o_threshold r1))) ->
        - 214748364 <= o_max_iterations r <= 214748364
        /\ wf_sac (set_user s1 a) /\ s_indices (set_user s1 a) = s_indices s
        /\ s_checks (set_user s1 a) = s_checks s
        /\ o_max_iterations rr = o_max_iterations r
        /\ o_threshold rr = o_threshold r /\ o_probability rr = o_probability r
        /\ ltried_count tr <= Z.max 0 (o_max_iterations r)
        /\ lskipped_count tr <= ms
        /\ Forall (levent_sound (s_indices s)) tr
        /\ (exists best, lbest_inv (o_model r) (o_coef r) rr best tr)
        /\ (okk = false -> o_inliers rr = o_inliers r)
        /\ (okk = true -> o_model rr <> [] /\ exists a,
              o_inliers rr = map fst (filter (fun p => PrimFloat.leb (snd p) (o_threshold r))
                               (combine (s_indices s) (snd (c_dist C a (o_coef rr) (s_indices s)))))
              /\ length (snd (c_dist C a (o_coef rr) (s_indices s))) = length (s_indices s))
        /\ (okk = false -> dist_len C -> o_model rr = [] \/ s_indices s = [])).
    { intros a rr okk [(-> & -> & HH)|(-> & HM & HLn & ->)].
      - repeat (split; [first [assumption|congruence|lia|auto]|]). auto.
      - assert (E' : o_inliers (set_inliers r1 (lmeds_select (s_indices s1)
            (snd (c_dist C (s_user s1) (o_coef r1) (s_indices s1))) (o_threshold r1)))
          = map fst (filter (fun p => PrimFloat.leb (snd p) (o_threshold r))
              (combine (s_indices s) (snd (c_dist C (s_user s1) (o_coef r1) (s_indices s)))))).
        { cbn [o_inliers set_inliers]. rewrite lmeds_select_spec by auto. rewrite F1, F4. reflexivity. }
        split; [lia|]. split; [exact W1|].
        split; [exact F1|]. split; [exact F2|]. split; [exact F3|]. split; [exact F4|].
        split; [exact F5|]. split; [lia|]. split; [lia|]. split; [exact ES|].
        split; [exact HB|]. split; [discriminate|]. split; [|discriminate].
        intros _. split; [exact HM|]. exists (s_user s1). split; [exact E'|].
        cbn [o_coef set_inliers]. rewrite <- F1. exact HLn. }
    destruct (o_model r1) as [|z zs] eqn:Em.
    - assert (s1 = set_user s1 (s_user s1)) as -> by (destruct s1; reflexivity).
      apply BASE. left. repeat split; auto.
    - specialize (BASE (fst (c_dist C (s_user s1) (o_coef r1) (s_indices s1)))).
      assert (HDL : dist_len C -> length (snd (c_dist C (s_user s1) (o_coef r1) (s_indices s1))) = length (s_indices s1)) by (intro H; apply H).
      destruct (c_dist C (s_user s1) (o_coef r1) (s_indices s1)) as [a dist] eqn:Ed. cbn [fst snd] in *.
      destruct dist as [|d0 dist'].
      + apply BASE. left. repeat split; auto. intro HD. right.
        specialize (HDL HD). rewrite <- F1. destruct (s_indices s1); [auto|discriminate].
      + destruct (Nat.eqb_spec (length (d0 :: dist')) (length (s_indices (set_user s1 a)))) as [e|e]; cbn [negb].
        * apply BASE. right. repeat split; auto. discriminate.
        * apply BASE. left. repeat split; auto. intro HD. exfalso. apply e. cbn [s_indices set_user]. rewrite <- (HDL HD). reflexivity.
  Qed.
End L.
