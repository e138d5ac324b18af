(** Proofs about sample drawing (C01, C02, C10, C58). *)
From Coq Require Import ZArith List Bool Floats Lia Permutation Arith.
From Verif Require Import SacModel.
Import ListNotations.
Open Scope Z_scope.

Lemma set_nth_length {X} : forall (l : list X) i x, length (set_nth l i x) = length l.
Proof. induction l; destruct i; simpl; intros; auto. Qed.

Lemma nth_error_set_nth_eq {X} : forall (l : list X) i x,
  (i < length l)%nat -> nth_error (set_nth l i x) i = Some x.
Proof. induction l; destruct i; simpl; intros; try lia; auto. apply IHl; lia. Qed.

Lemma nth_error_set_nth_neq {X} : forall (l : list X) i j x,
  i <> j -> nth_error (set_nth l i x) j = nth_error l j.
Proof.
  induction l; destruct i, j; simpl; intros; auto; try congruence.
Qed.

Lemma set_nth_same {X} : forall (l : list X) i x, nth_error l i = Some x -> set_nth l i x = l.
Proof.
  induction l; destruct i; simpl; intros; try congruence. f_equal; auto.
Qed.

Lemma set_nth_split {X} : forall (l : list X) i x,
  (i < length l)%nat -> set_nth l i x = firstn i l ++ x :: skipn (S i) l.
Proof.
  induction l; destruct i; simpl; intros; try lia; auto. f_equal. apply IHl. lia.
Qed.

Lemma nth_error_split_at {X} : forall (l : list X) i a,
  nth_error l i = Some a -> l = firstn i l ++ a :: skipn (S i) l.
Proof.
  induction l; destruct i; intros b H; try discriminate.
  - injection H; intros; subst; reflexivity.
  - cbn [firstn skipn app]. f_equal. apply IHl. exact H.
Qed.

Lemma set_nth_perm {X} : forall (l : list X) i a b,
  nth_error l i = Some a -> Permutation (a :: set_nth l i b) (b :: l).
Proof.
  induction l; destruct i; simpl; intros; try congruence.
  - inversion H; subst. apply perm_swap.
  - specialize (IHl _ _ b H).
    rewrite perm_swap, IHl, perm_swap. reflexivity.
Qed.

Lemma swap_perm {X} : forall (l l' : list X) i j, swap l i j = Ret l' -> Permutation l l'.
Proof.
  unfold swap; intros l l' i j.
  destruct (nth_error l i) as [a|] eqn:Ha; try discriminate.
  destruct (nth_error l j) as [b|] eqn:Hb; try discriminate.
  intro E; inversion E; subst; clear E.
  destruct (Nat.eq_dec i j) as [->|N].
  - rewrite Ha in Hb; inversion Hb; subst.
    rewrite (set_nth_same l j b Ha), (set_nth_same l j b Ha). reflexivity.
  - assert (Hj : nth_error (set_nth l i b) j = Some b)
      by (rewrite nth_error_set_nth_neq; auto).
    pose proof (set_nth_perm _ _ _ a Hj) as P1.
    pose proof (set_nth_perm _ _ _ b Ha) as P2.
    apply (Permutation_cons_inv (a := b)).
    rewrite P1, P2. reflexivity.
Qed.

Lemma swap_length {X} : forall (l l' : list X) i j, swap l i j = Ret l' -> length l' = length l.
Proof. intros. apply swap_perm in H. symmetry. now apply Permutation_length. Qed.

Lemma swap_ret {X} : forall (l : list X) i j,
  (i < length l)%nat -> (j < length l)%nat -> exists l', swap l i j = Ret l'.
Proof.
  intros l i j Hi Hj. unfold swap.
  destruct (nth_error l i) eqn:E1; [|apply nth_error_None in E1; lia].
  destruct (nth_error l j) eqn:E2; [|apply nth_error_None in E2; lia]. eauto.
Qed.

Definition draw_choice (r : Z) (span : nat) : nat :=
  Z.to_nat ((r mod SIZE_T_MOD) mod Z.of_nat span).

Lemma draw_choice_lt : forall r span, (0 < span)%nat -> (draw_choice r span < span)%nat.
Proof.
  intros. unfold draw_choice.
  pose proof (Z.mod_pos_bound (r mod SIZE_T_MOD) (Z.of_nat span)). lia.
Qed.

Lemma draw_loop_ok : forall n i pool g, (i + n <= length pool)%nat ->
  exists pool' , draw_loop n i pool g
                 = Ret (pool', mkRng (rng_stream g) (rng_pos g + n))
    /\ Permutation pool pool' /\ firstn i pool' = firstn i pool.
Proof.
  induction n; intros i pool g H.
  - exists pool. simpl. rewrite Nat.add_0_r. destruct g; simpl. auto.
  - cbn [draw_loop rnd].
    destruct (Nat.leb_spec (length pool) i); [lia|].
    set (j := (i + Z.to_nat _)%nat).
    assert (Hj : (j < length pool)%nat).
    { unfold j. pose proof (draw_choice_lt (rng_stream g (rng_pos g)) (length pool - i)).
      unfold draw_choice in H1. lia. }
    assert (Hij : (i <= j)%nat) by (unfold j; lia).
    destruct (swap_ret pool i j ltac:(lia) Hj) as [p1 E]. rewrite E. cbn [obind].
    pose proof (swap_length _ _ _ _ E) as L.
    destruct (IHn (S i) p1 (mkRng (rng_stream g) (S (rng_pos g))) ltac:(lia))
      as (p' & E' & P' & F').
    exists p'. rewrite E'. cbn [rng_stream rng_pos]. split; [|split].
    + do 3 f_equal. lia.
    + rewrite (swap_perm _ _ _ _ E). exact P'.
    + assert (F1 : firstn i p1 = firstn i pool).
      { unfold swap in E.
        destruct (nth_error pool i); try discriminate.
        destruct (nth_error pool j); try discriminate. inversion E; subst p1.
        rewrite (set_nth_split _ j) by (rewrite set_nth_length; lia).
        rewrite (set_nth_split _ i) by lia.
        assert (FL : length (firstn i pool) = i) by (rewrite firstn_length; lia).
        rewrite firstn_app.
        rewrite firstn_firstn. replace (Nat.min i j) with i by lia.
        rewrite firstn_app, FL, Nat.sub_diag. simpl (firstn 0 _). rewrite app_nil_r.
        rewrite firstn_firstn. replace (Nat.min i i) with i by lia.
        rewrite firstn_length, app_length, FL. cbn [length]. rewrite skipn_length.
        replace (i - Nat.min j (i + S (length pool - S i)))%nat with 0%nat by lia.
        simpl. now rewrite app_nil_r. }
      rewrite <- F1.
      rewrite <- (firstn_firstn p' i (S i)) at 1 || idtac.
      replace (firstn i p') with (firstn i (firstn (S i) p'))
        by (rewrite firstn_firstn; f_equal; lia).
      rewrite F'. rewrite firstn_firstn. f_equal. lia.
Qed.

Lemma drawIndexSample_ok : forall n pool g, (n <= length pool)%nat ->
  exists smp rest,
    drawIndexSample n pool g
      = Ret (smp, smp ++ rest, mkRng (rng_stream g) (rng_pos g + n))
    /\ length smp = n /\ Permutation pool (smp ++ rest).
Proof.
  intros n pool g H.
  destruct (draw_loop_ok n 0 pool g ltac:(lia)) as (p & E & P & _).
  exists (firstn n p), (skipn n p).
  unfold drawIndexSample. rewrite E. cbn [obind].
  pose proof (Permutation_length P).
  destruct (Nat.ltb_spec (length p) n); [lia|].
  rewrite firstn_skipn. split; [reflexivity|]. split; [rewrite firstn_length; lia|exact P].
Qed.

(** Determinism on the consumed prefix. *)
Lemma draw_loop_prefix : forall n i pool g g',
  rng_pos g = rng_pos g' ->
  (forall q, (rng_pos g <= q < rng_pos g + n)%nat -> rng_stream g q = rng_stream g' q) ->
  match draw_loop n i pool g, draw_loop n i pool g' with
  | Ret (p, h), Ret (p', h') => p = p' /\ rng_pos h = rng_pos h' /\ rng_pos h = (rng_pos g + n)%nat
                                /\ rng_stream h = rng_stream g /\ rng_stream h' = rng_stream g'
  | UB, UB => True
  | _, _ => False
  end.
Proof.
  induction n; intros i pool g g' Hp Hs; cbn [draw_loop rnd].
  - repeat split; auto; lia.
  - destruct (Nat.leb (length pool) i); [exact I|].
    rewrite <- Hp. rewrite <- (Hs (rng_pos g)) by lia.
    destruct (swap pool i _) as [p| |]eqn:E; cbn [obind]; auto.
    2:{ unfold swap in E. destruct (nth_error pool i); try discriminate.
        destruct (nth_error pool _) in E; discriminate. }
    specialize (IHn (S i) p (mkRng (rng_stream g) (S (rng_pos g)))
                  (mkRng (rng_stream g') (S (rng_pos g))) eq_refl).
    cbn [rng_pos rng_stream] in IHn.
    specialize (IHn ltac:(intros; apply Hs; lia)).
    revert IHn.
    generalize (draw_loop n (S i) p (mkRng (rng_stream g) (S (rng_pos g)))).
    generalize (draw_loop n (S i) p (mkRng (rng_stream g') (S (rng_pos g)))).
    intros [[? ?]| |] [[? ?]| |]; auto. intros (->&->&?&->&->). repeat split; auto. lia.
Qed.

(** Well-formed problem objects: the pool is a permutation of the indices. *)
Definition wf_sac {A} (s : sac_state A) : Prop := Permutation (s_indices s) (s_shuffled s).

Lemma wf_setIndices {A} : forall idx g (a : A), wf_sac (setIndices idx g a).
Proof. intros. unfold wf_sac, setIndices. simpl. reflexivity. Qed.

Lemma sample_checks_ok {A} : forall (good : A -> list Z -> bool) tries n s,
  wf_sac s -> (n <= length (s_indices s))%nat ->
  exists s' o d, sample_checks good tries n s = Ret (s', o)
    /\ s_indices s' = s_indices s /\ s_user s' = s_user s /\ s_checks s' = s_checks s
    /\ wf_sac s' /\ (d <= tries)%nat
    /\ s_rng s' = mkRng (rng_stream (s_rng s)) (rng_pos (s_rng s) + d * n)
    /\ match o with
       | Some smp => length smp = n /\ good (s_user s) smp = true
                     /\ (exists rest, Permutation (s_indices s) (smp ++ rest))
                     /\ (exists rest, s_shuffled s' = smp ++ rest) /\ (1 <= d)%nat
       | None => d = tries
       end.
Proof.
  induction tries; intros n s W H; cbn [sample_checks].
  - exists s, None, 0%nat. destruct s as [? ? [? ?] ? ?]; simpl. rewrite Nat.add_0_r.
    repeat split; auto.
  - pose proof (Permutation_length W) as L.
    destruct (drawIndexSample_ok n (s_shuffled s) (s_rng s) ltac:(lia))
      as (smp & rest & E & Ls & P).
    rewrite E. cbn [obind]. cbv zeta.
    set (s1 := set_pool s _ _).
    assert (W1 : wf_sac s1) by (unfold wf_sac, s1, set_pool; simpl; rewrite W; exact P).
    destruct (good (s_user s1) smp) eqn:G.
    + exists s1, (Some smp), 1%nat. unfold s1, set_pool; simpl. rewrite Nat.add_0_r.
      repeat split; auto; try lia.
      * exists rest. unfold wf_sac in W. now rewrite W.
      * eauto.
    + destruct (IHtries n s1 W1 ltac:(simpl; lia)) as (s' & o & d & E' & I1 & I2 & I3 & I4 & I5 & I6 & I7).
      exists s', o, (S d). rewrite E'.
      unfold s1, set_pool in *; simpl in *.
      repeat split; auto; try lia.
      * rewrite I6. f_equal. lia.
      * destruct o; [|lia]. destruct I7 as (?&?&?&?&?); repeat split; auto; lia.
Qed.

(** getSamples: full characterisation. *)
Lemma getSamples_ok {A M} : forall (C : sac_class A M) s it,
  wf_sac s ->
  exists s' it' smp, getSamples C s it = Ret (s', it', smp)
    /\ s_indices s' = s_indices s /\ s_user s' = s_user s /\ s_checks s' = s_checks s
    /\ wf_sac s'
    /\ (   (smp = [] /\ it' = INT_MAX /\ s' = s
            /\ Z.of_nat (length (s_indices s)) < c_sample_size C (s_user s) mod SIZE_T_MOD)
        \/ (it' = it /\ Z.of_nat (length smp) = c_sample_size C (s_user s) mod SIZE_T_MOD
            /\ c_good C (s_user s) smp = true
            /\ (exists rest, Permutation (s_indices s) (smp ++ rest)))
        \/ (smp = [] /\ it' = it
            /\ s_rng s' = mkRng (rng_stream (s_rng s))
                 (rng_pos (s_rng s) + Z.to_nat (s_checks s)
                    * Z.to_nat (c_sample_size C (s_user s) mod SIZE_T_MOD))
            /\ c_sample_size C (s_user s) mod SIZE_T_MOD <= Z.of_nat (length (s_indices s)))).
Proof.
  intros C s it W. unfold getSamples. cbv zeta.
  pose proof (Z.mod_pos_bound (c_sample_size C (s_user s)) SIZE_T_MOD ltac:(unfold SIZE_T_MOD; lia)).
  destruct (Z.ltb_spec (Z.of_nat (length (s_indices s))) (c_sample_size C (s_user s) mod SIZE_T_MOD)).
  - exists s, INT_MAX, []. repeat split; auto.
  - destruct (sample_checks_ok (c_good C) (Z.to_nat (s_checks s))
      (Z.to_nat (c_sample_size C (s_user s) mod SIZE_T_MOD)) s W ltac:(lia))
      as (s' & o & d & E & I1 & I2 & I3 & I4 & I5 & I6 & I7).
    rewrite E. cbn [obind]. destruct o as [smp|].
    + exists s', it, smp. repeat split; auto. right; left.
      destruct I7 as (J1 & J2 & J3 & _). repeat split; auto. lia.
    + exists s', it, []. repeat split; auto. right; right. subst d. repeat split; auto.
Qed.
