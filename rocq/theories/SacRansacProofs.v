(** Proofs about Ransac::computeModel (C03-C08, C11). *)
From Coq Require Import ZArith List Bool Floats Lia Permutation Arith.
From Verif Require Import SacModel SacDrawProofs WhileLib.
Import ListNotations.
Open Scope Z_scope.

Lemma count_loop_acc : forall dist thr c, count_loop dist thr c = c + count_loop dist thr 0.
Proof.
  induction dist; intros; cbn [count_loop]; [lia|].
  rewrite IHdist. rewrite (IHdist thr (if PrimFloat.ltb a thr then 0 + 1 else 0)).
  destruct (PrimFloat.ltb a thr); lia.
Qed.

Lemma count_loop_nonneg : forall dist thr c, 0 <= c -> 0 <= count_loop dist thr c.
Proof.
  induction dist; intros; simpl; auto. apply IHdist. destruct (PrimFloat.ltb a thr); lia.
Qed.

Lemma count_loop_le : forall dist thr c, count_loop dist thr c <= c + Z.of_nat (length dist).
Proof.
  induction dist; intros; cbn [count_loop length]; [lia|].
  specialize (IHdist thr (if PrimFloat.ltb a thr then c + 1 else c)).
  destruct (PrimFloat.ltb a thr); lia.
Qed.

(** Independent description: pairs (index, score) filtered by score < threshold. *)
Definition below (thr : float) (p : Z * float) : bool := PrimFloat.ltb (snd p) thr.

Lemma select_loop_spec : forall idx dist thr, (length dist <= length idx)%nat ->
  select_loop idx dist thr = Ret (map fst (filter (below thr) (combine idx dist))).
Proof.
  intros idx dist; revert idx. induction dist; intros idx thr L; destruct idx; cbn in *; try lia; auto.
  unfold below at 1; simpl. destruct (PrimFloat.ltb a thr); cbn; rewrite IHdist by lia; auto.
Qed.

Lemma count_loop_spec : forall idx dist thr, (length dist <= length idx)%nat ->
  count_loop dist thr 0 = Z.of_nat (length (filter (below thr) (combine idx dist))).
Proof.
  intros idx dist; revert idx. induction dist; intros idx thr L; destruct idx; cbn [length] in L; try lia; auto.
  cbn [count_loop combine filter]. unfold below at 1; cbn [snd]. rewrite count_loop_acc.
  rewrite (IHdist idx) by lia. destruct (PrimFloat.ltb a thr); cbn [length]; lia.
Qed.

Section R.
  Context {A M : Type}.
  Variable flog : float -> float.
  Variable fpow : float -> float -> float.
  Variable C : sac_class A M.

  Notation run_state := (@run_state A M).

  Definition ransac_guard (ms : Z) (x : run_state) : bool :=
    let '(s, r, l, tr) := x in
    PrimFloat.ltb (float_of_Z (o_iterations r)) (l_k l) && (l_skipped l <? ms).

  Definition ransac_body (x : run_state) : outcome (bool * run_state) :=
    let '(s, r, l, tr) := x in
    let! (s1, it, sel) := getSamples C s (o_iterations r) in
    let r := set_iterations r it in
    match sel with
    | [] => Ret (false, (s1, r, mkLoc (l_best l) (l_k l) (l_skipped l) sel (l_coef l), tr))
    | _ :: _ =>
        let '(s2, ok, coef) := computeModelCoefficients C s1 sel (l_coef l) in
        if negb ok then
          Ret (true, (s2, r,
                 mkLoc (l_best l) (l_k l) ((l_skipped l + 1) mod UNSIGNED_MOD) sel coef,
                 tr ++ [Skipped sel]))
        else
          let! (s3, n) := countWithinDistance C s2 coef (o_threshold r) in
          let tr := tr ++ [Tried sel coef n] in
          let '(r, best, k) :=
            if l_best l <? n then
              (set_model r sel coef, n,
               ransac_k flog fpow (o_probability r) n
                 (Z.of_nat (length (s_indices s3))) (Z.of_nat (length sel)))
            else (r, l_best l, l_k l) in
          let l := mkLoc best k (l_skipped l) sel coef in
          if INT_MAX <=? o_iterations r then UB
          else
            let r := set_iterations r (o_iterations r + 1) in
            Ret (negb (o_max_iterations r <? o_iterations r), (s3, r, l, tr))
    end.

  Lemma ransac_loop_while : forall ms fuel x,
    ransac_loop flog fpow C fuel ms x = while (ransac_guard ms) ransac_body fuel x.
  Proof.
    intro ms. induction fuel; intros [[[s r] l] tr]; cbn [ransac_loop while];
      unfold ransac_guard at 1; fold (ransac_guard ms);
      destruct (_ && _); auto.
    unfold ransac_body at 1; fold ransac_body.
    destruct (getSamples C s (o_iterations r)) as [[[s1 it] sel]| |]; cbn [obind]; auto.
    destruct sel as [|z sel]; auto.
    destruct (computeModelCoefficients C s1 (z :: sel) (l_coef l)) as [[s2 ok] coef].
    destruct ok; cbn [negb]; auto.
    destruct (countWithinDistance C s2 coef _) as [[s3 n]| |]; cbn [obind]; auto.
    destruct (l_best l <? n).
    - destruct (INT_MAX <=? _); auto. destruct (_ <? _); cbn [negb]; auto.
    - destruct (INT_MAX <=? _); auto. destruct (_ <? _); cbn [negb]; auto.
  Qed.

  Definition is_tried {Sel} (e : event Sel M) : bool :=
    match e with Tried _ _ _ => true | Skipped _ => false end.
  Definition tried_count {Sel} (tr : list (event Sel M)) : Z :=
    Z.of_nat (length (filter is_tried tr)).
  Definition skipped_count {Sel} (tr : list (event Sel M)) : Z :=
    Z.of_nat (length (filter (fun e => negb (is_tried e)) tr)).

  Lemma tried_count_app : forall Sel (t1 t2 : list (event Sel M)),
    tried_count (t1 ++ t2) = tried_count t1 + tried_count t2.
  Proof. intros. unfold tried_count. rewrite filter_app, app_length. lia. Qed.
  Lemma skipped_count_app : forall Sel (t1 t2 : list (event Sel M)),
    skipped_count (t1 ++ t2) = skipped_count t1 + skipped_count t2.
  Proof. intros. unfold skipped_count. rewrite filter_app, app_length. lia. Qed.

  (** The score contract: one score per requested index. *)
  Definition dist_len (C : sac_class A M) : Prop :=
    forall a m l, length (snd (c_dist C a m l)) = length l.

  Definition best_inv (mod0 : list Z) (c0 : M) (r : sac_object (list Z) M)
      (best : Z) (tr : list (event (list Z) M)) : Prop :=
    (best = - INT_MAX /\ tried_count tr = 0 /\ o_model r = mod0 /\ o_coef r = c0)
    \/ (exists pre post sel coef,
          tr = pre ++ Tried sel coef best :: post
          /\ sel <> [] /\ o_model r = sel /\ o_coef r = coef /\ 0 <= best
          /\ (forall s c n, In (Tried s c n) pre -> n < best)
          /\ (forall s c n, In (Tried s c n) post -> n <= best)).

  Section Fixed.
    Variable s0 : sac_state A.
    Variable r0 : sac_object (list Z) M.
    Variable ms : Z.
    Hypothesis Hms : 0 <= ms < UNSIGNED_MOD.

    Definition frame (x : run_state) : Prop :=
      let '(s, r, l, tr) := x in
      wf_sac s /\ s_indices s = s_indices s0 /\ s_checks s = s_checks s0
      /\ o_max_iterations r = o_max_iterations r0
      /\ o_threshold r = o_threshold r0 /\ o_probability r = o_probability r0
      /\ o_inliers r = o_inliers r0
      /\ 0 <= l_skipped l <= ms
      /\ skipped_count tr = l_skipped l
      /\ best_inv (o_model r0) (o_coef r0) r (l_best l) tr.

    Definition Iloop (x : run_state) : Prop :=
      frame x /\ let '(s, r, l, tr) := x in
      0 <= o_iterations r <= Z.max 0 (o_max_iterations r0)
      /\ tried_count tr = o_iterations r.

    Definition Jloop (x : run_state) : Prop :=
      frame x /\ let '(s, r, l, tr) := x in
      tried_count tr <= Z.max 0 (o_max_iterations r0) + 1.

    Lemma best_inv_skip : forall m0 c0 r b tr sel,
      best_inv m0 c0 r b tr -> best_inv m0 c0 r b (tr ++ [Skipped sel]).
    Proof.
      intros m0 c0 r b tr sel [(-> & H & ? & ?)|(pre & post & s & c & -> & H)].
      - left. repeat split; auto. rewrite tried_count_app, H. reflexivity.
      - right. exists pre, (post ++ [Skipped sel]), s, c.
        rewrite <- app_assoc. simpl. split; [reflexivity|].
        destruct H as (?&?&?&?&?&Hp). repeat split; auto.
        intros s' c' n Hin. apply in_app_iff in Hin. destruct Hin as [|[|[]]]; [eauto|discriminate].
    Qed.

    Lemma best_inv_all : forall m0 c0 r b tr, best_inv m0 c0 r b tr ->
      forall s c n, In (Tried s c n) tr -> n <= b.
    Proof.
      intros m0 c0 r b tr [(-> & H & _)|(pre & post & s & c & -> & H)] s' c' n Hin.
      - unfold tried_count in H. exfalso.
        assert (In (Tried s' c' n) (filter is_tried tr)) by (apply filter_In; auto).
        destruct (filter is_tried tr); [contradiction|simpl in H; lia].
      - destruct H as (_&_&_&_&Hpre&Hpost).
        apply in_app_iff in Hin. destruct Hin as [Hin|[Hin|Hin]].
        + apply Hpre in Hin. lia.
        + inversion Hin; lia.
        + eauto.
    Qed.

    Lemma best_inv_ge : forall m0 c0 r b tr, best_inv m0 c0 r b tr -> - INT_MAX <= b.
    Proof. intros m0 c0 r b tr [(-> & _)|(?&?&?&?&?&?&?&?&?&_)]; unfold INT_MAX in *; lia. Qed.

    (** One loop body execution preserves everything. *)
    Lemma body_step : forall x, Iloop x -> ransac_guard ms x = true ->
      match ransac_body x with
      | Ret (true, y) =>
          Iloop y /\ (let '(_, r, l, _) := y in let '(_, r1, l1, _) := x in
             (l_skipped l = l_skipped l1 + 1 /\ o_iterations r = o_iterations r1)
             \/ (l_skipped l = l_skipped l1 /\ o_iterations r = o_iterations r1 + 1))
      | Ret (false, y) => Jloop y
      | UB => ~ (dist_len C
                 /\ Z.of_nat (length (s_indices s0)) <= INT_MAX
                 /\ o_max_iterations r0 < INT_MAX)
      | Diverge => False
      end.
    Proof.
      intros [[[s r] l] tr] [(W & E1 & E2 & E3 & E4 & E5 & E6 & E7 & E8 & B) [It Tc]] G.
      unfold ransac_guard in G. apply andb_prop in G. destruct G as [_ G].
      apply Z.ltb_lt in G.
      unfold ransac_body.
      destruct (getSamples_ok C s (o_iterations r) W)
        as (s1 & it & sel & Eg & F1 & F2 & F3 & W1 & F4).
      rewrite Eg. cbn [obind].
      destruct sel as [|z sel'].
      - (* break *)
        split.
        + unfold frame; cbn. repeat split; auto; try congruence; try lia.
        + lia.
      - assert (Hit : it = o_iterations r).
        { destruct F4 as [(?&_)|[(?&_)|(?&_)]]; auto; discriminate. }
        subst it. remember (z :: sel') as sel.
        unfold computeModelCoefficients.
        destruct (c_compute C (s_user s1) sel (l_coef l)) as [[a2 ok] coef].
        destruct ok; cbn [negb].
        + unfold countWithinDistance. cbn [s_user s_indices set_user].
          destruct (c_dist C a2 coef (s_indices s1)) as [a3 dist] eqn:Ed.
          destruct (Z.ltb_spec INT_MAX (count_loop dist (o_threshold (set_iterations r (o_iterations r))) 0)) as [Hov|Hov].
          * cbn [obind]. intros (HD & HL & _). specialize (HD a2 coef (s_indices s1)).
            rewrite Ed in HD. simpl in HD.
            pose proof (count_loop_le dist (o_threshold (set_iterations r (o_iterations r))) 0). rewrite F1, E1 in HD. lia.
          * cbn [obind].
            set (n := count_loop dist _ 0) in *.
            assert (Hn : 0 <= n) by (apply count_loop_nonneg; lia).
            pose proof (best_inv_all _ _ _ _ _ B) as BA.
            pose proof (best_inv_ge _ _ _ _ _ B) as BG.
            (* common facts *)
            assert (HB : forall rr, (o_model rr = o_model r /\ o_coef rr = o_coef r) ->
                   n <= l_best l ->
                   best_inv (o_model r0) (o_coef r0) rr (l_best l) (tr ++ [Tried sel coef n])).
            { intros rr [M1 M2] Hle. destruct B as [(Eb & _)|(pre & post & sx & cx & -> & N1 & N2 & N3 & N4 & N5 & N6)].
              - rewrite Eb in Hle. unfold INT_MAX in *. lia.
              - right. exists pre, (post ++ [Tried sel coef n]), sx, cx.
                rewrite <- app_assoc. simpl. rewrite M1, M2. repeat split; auto.
                intros s' c' n' Hin. apply in_app_iff in Hin.
                destruct Hin as [|[Hin|[]]]; [eauto|inversion Hin; subst; lia]. }
            assert (HB2 : forall rr, (o_model rr = sel /\ o_coef rr = coef) ->
                   l_best l < n ->
                   best_inv (o_model r0) (o_coef r0) rr n (tr ++ [Tried sel coef n])).
            { intros rr [M1 M2] Hlt. right. exists tr, [], sel, coef.
              repeat split; auto; try (rewrite Heqsel; discriminate).
              - intros s' c' n' Hin. specialize (BA _ _ _ Hin). lia.
              - intros s' c' n' []. }
            assert (SK : skipped_count (tr ++ [Tried sel coef n]) = l_skipped l)
              by (rewrite skipped_count_app, E8; cbn; lia).
            assert (TR : tried_count (tr ++ [Tried sel coef n]) = o_iterations r + 1)
              by (rewrite tried_count_app, Tc; cbn; lia).
            destruct (Z.ltb_spec (l_best l) n); cbn [o_iterations set_model set_iterations o_max_iterations];
              (destruct (Z.leb_spec INT_MAX (o_iterations r));
               [intros (_ & _ & HM); unfold INT_MAX in *; lia|]);
              (destruct (Z.ltb_spec (o_max_iterations r) (o_iterations r + 1)); cbn [negb]).
            -- split; [unfold frame; cbn; repeat split; auto; try congruence; try lia|]. lia.
            -- split; [split; [unfold frame; cbn; repeat split; auto; try congruence; try lia|]|].
               ++ cbn. lia.
               ++ cbn. right; lia.
            -- split; [unfold frame; cbn; repeat split; auto; try congruence; try lia|]. lia.
            -- split; [split; [unfold frame; cbn; repeat split; auto; try congruence; try lia|]|].
               ++ cbn. lia.
               ++ cbn. right; lia.
        + (* skip *)
          assert (Hm : (l_skipped l + 1) mod UNSIGNED_MOD = l_skipped l + 1)
            by (apply Z.mod_small; lia).
          split; [split|].
          * unfold frame; cbn. rewrite Hm. repeat split; auto; try congruence; try lia.
            -- rewrite skipped_count_app, E8. cbn. lia.
            -- apply best_inv_skip.
               destruct B as [(?&?&?&?)|(?&?&?&?&?&?&?&?&?)]; [left|right]; cbn; eauto 20.
          * cbn. rewrite tried_count_app, Tc. cbn. lia.
          * cbn. rewrite Hm. left; lia.
    Qed.

    Definition mu (x : run_state) : nat :=
      let '(_, r, l, _) := x in
      Z.to_nat (Z.max 0 (o_max_iterations r0) - o_iterations r + (ms - l_skipped l)).

    Lemma I_impl_J : forall x, Iloop x -> Jloop x.
    Proof. intros [[[s r] l] tr] [F [It Tc]]. split; auto. lia. Qed.

    Lemma loop_not_diverge : forall fuel x, Iloop x -> (mu x < fuel)%nat ->
      ransac_loop flog fpow C fuel ms x <> Diverge.
    Proof.
      intros. rewrite ransac_loop_while.
      apply (while_term _ _ Iloop mu); auto.
      intros y Iy G. pose proof (body_step y Iy G) as B.
      destruct (ransac_body y) as [[[] z]| |]; auto. destruct B as [Iz D]. split; auto.
      destruct y as [[[s r] l] tr], z as [[[s' r'] l'] tr'].
      destruct Iy as [(_&_&_&_&_&_&_&K1&_&_) K2]. destruct Iz as [(_&_&_&_&_&_&_&K3&_&_) K4].
      unfold mu. lia.
    Qed.

    Lemma loop_ret : dist_len C -> Z.of_nat (length (s_indices s0)) <= INT_MAX ->
      o_max_iterations r0 < INT_MAX ->
      forall fuel x, Iloop x -> (mu x < fuel)%nat ->
      exists y, ransac_loop flog fpow C fuel ms x = Ret y.
    Proof.
      intros. rewrite ransac_loop_while.
      apply (while_ret _ _ Iloop mu); auto.
      intros y Iy G. pose proof (body_step y Iy G) as B.
      destruct (ransac_body y) as [[[] z]| |]; auto. destruct B as [Iz D]. split; auto.
      destruct y as [[[s r] l] tr], z as [[[s' r'] l'] tr'].
      destruct Iy as [(_&_&_&_&_&_&_&K1&_&_) K2]. destruct Iz as [(_&_&_&_&_&_&_&K3&_&_) K4].
      unfold mu. lia.
    Qed.

    Lemma loop_J : forall fuel x y, Iloop x -> ransac_loop flog fpow C fuel ms x = Ret y -> Jloop y.
    Proof.
      intros fuel x y Ix. rewrite ransac_loop_while.
      apply (while_inv _ _ Iloop Jloop); auto.
      - intros; now apply I_impl_J.
      - intros z w Iz G E. pose proof (body_step z Iz G) as B. rewrite E in B. tauto.
      - intros z w Iz G E. pose proof (body_step z Iz G) as B. rewrite E in B. tauto.
    Qed.
  End Fixed.

  Lemma max_skip_of_cases : forall mx,
    (- 214748364 <= mx <= 214748364 /\ max_skip_of mx = Ret ((mx * 10) mod UNSIGNED_MOD))
    \/ ((mx < - 214748364 \/ 214748364 < mx) /\ max_skip_of mx = UB).
  Proof.
    intro mx. unfold max_skip_of. cbv zeta.
    destruct (Z.ltb_spec (mx * 10) (- INT_MAX - 1));
      destruct (Z.ltb_spec INT_MAX (mx * 10)); cbn [orb]; unfold INT_MAX in *;
      first [left; split; [lia|reflexivity] | right; split; [lia|reflexivity]].
  Qed.

  Lemma max_skip_range : forall mx, 0 <= (mx * 10) mod UNSIGNED_MOD < UNSIGNED_MOD.
  Proof. intro. apply Z.mod_pos_bound. unfold UNSIGNED_MOD. lia. Qed.

  Lemma I_init : forall s r m0, wf_sac s ->
    Iloop s r ((o_max_iterations r * 10) mod UNSIGNED_MOD)
      (s, set_iterations r 0, mkLoc (- INT_MAX) 1%float 0 [] m0, []).
  Proof.
    intros. pose proof (max_skip_range (o_max_iterations r)).
    split; [unfold frame; cbn -[Z.modulo Z.max]; repeat split; auto; try lia|cbn -[Z.modulo Z.max]; split; [lia|reflexivity]].
    left. repeat split; auto.
  Qed.

  Lemma mu_init : forall s r m0 ,
    (mu r ((o_max_iterations r * 10) mod UNSIGNED_MOD)
       (s, set_iterations r 0, mkLoc (- INT_MAX) 1%float 0 [] m0, [])
     < ransac_fuel (o_max_iterations r) ((o_max_iterations r * 10) mod UNSIGNED_MOD))%nat.
  Proof.
    intros. pose proof (max_skip_range (o_max_iterations r)).
    unfold mu, ransac_fuel. cbn -[Z.modulo]. lia.
  Qed.

  (** Everything about one call, on an object with arbitrary history. *)
  Lemma ransac_run : forall m0 s r, wf_sac s ->
    match ransac_computeModel flog fpow C m0 s r with
    | Diverge => False
    | UB => (o_max_iterations r < - 214748364 \/ 214748364 < o_max_iterations r)
            \/ ~ (dist_len C /\ Z.of_nat (length (s_indices s)) <= INT_MAX)
    | Ret (s', r', ok, tr) =>
        - 214748364 <= o_max_iterations r <= 214748364
        /\ wf_sac s' /\ s_indices s' = s_indices s /\ s_checks s' = s_checks s
        /\ o_max_iterations r' = o_max_iterations r
        /\ o_threshold r' = o_threshold r /\ o_probability r' = o_probability r
        /\ tried_count tr <= Z.max 0 (o_max_iterations r) + 1
        /\ skipped_count tr <= (o_max_iterations r * 10) mod UNSIGNED_MOD
        /\ (exists best, best_inv (o_model r) (o_coef r) r' best tr)
        /\ ok = match o_model r' with [] => false | _ => true end
        /\ (ok = false -> o_inliers r' = [])
        /\ (ok = true -> exists s1,
              selectWithinDistance C s1 (o_coef r') (o_threshold r) = Ret (s', o_inliers r'))
    end.
  Proof.
    intros m0 s r W. unfold ransac_computeModel.
    destruct (max_skip_of_cases (o_max_iterations r)) as [[Hr E]|[Hr E]]; rewrite E; cbn [obind]; [|auto].
    cbv zeta. cbn [o_max_iterations set_iterations].
    set (ms := (o_max_iterations r * 10) mod UNSIGNED_MOD).
    assert (Hms : 0 <= ms < UNSIGNED_MOD) by apply max_skip_range.
    pose proof (I_init s r m0 W) as I0. pose proof (mu_init s r m0) as M0. fold ms in I0, M0.
    pose proof (loop_not_diverge s r ms Hms _ _ I0 M0) as ND.
    destruct (ransac_loop flog fpow C (ransac_fuel (o_max_iterations r) ms) ms
      (s, set_iterations r 0, mkLoc (- INT_MAX) 1%float 0 [] m0, [])) as [[[[s1 r1] l1] tr]| |] eqn:EL;
      cbn [obind].
    - pose proof (loop_J s r ms Hms _ _ _ I0 EL) as [(W1 & F1 & F2 & F3 & F4 & F5 & F6 & F7 & F8 & B) T].
      destruct (o_model r1) as [|z zs] eqn:Em.
      + repeat split; auto; try congruence; try lia. exists (l_best l1).
        destruct B as [B|B]; [left|right]; cbn; auto.
        cbn. now rewrite Em.
      + destruct (selectWithinDistance C s1 (o_coef r1) (o_threshold r1)) as [[s2 inls]| |] eqn:ES; cbn [obind].
        * assert (S2 : s_indices s2 = s_indices s1 /\ s_shuffled s2 = s_shuffled s1 /\ s_checks s2 = s_checks s1).
          { unfold selectWithinDistance in ES. destruct (c_dist C _ _ _).
            destruct (select_loop _ _ _); try discriminate. cbn in ES. inversion ES; subst; auto. }
          destruct S2 as (S2 & S3 & S4).
          repeat split; auto; try congruence; try lia.
          -- unfold wf_sac. rewrite S2, S3. exact W1.
          -- exists (l_best l1). destruct B as [B|B]; [left|right]; cbn; auto.
          -- cbn. now rewrite Em.
          -- intros _. exists s1. cbn. rewrite <- F4. exact ES.
        * right. intros [HD HL]. unfold selectWithinDistance in ES.
          specialize (HD (s_user s1) (o_coef r1) (s_indices s1)).
          destruct (c_dist C _ _ _) as [a d]. simpl in HD.
          rewrite select_loop_spec in ES by lia. discriminate.
        * unfold selectWithinDistance in ES.
          destruct (c_dist C _ _ _) as [a d].
          clear -ES. revert ES. generalize (s_indices s1) as idx. intros idx H.
          assert (forall i, select_loop i d (o_threshold r1) <> Diverge).
          { clear. induction d; intro i; simpl; try discriminate.
            destruct (PrimFloat.ltb a _); auto. destruct i; try discriminate.
            specialize (IHd i). destruct (select_loop i d _); simpl; congruence. }
          specialize (H0 idx). destruct (select_loop idx d _); cbn in H; congruence.
    - right. intros [HD HL].
      destruct (loop_ret s r ms Hms HD HL ltac:(unfold INT_MAX; lia) _ _ I0 M0) as [y Hy].
      congruence.
    - congruence.
  Qed.
End R.
