(** Unbiasedness of drawIndexSample (C58): random choices and ordered samples
    are in bijection. *)
From Coq Require Import ZArith List Bool Floats Lia Permutation Arith.
From Verif Require Import SacModel SacDrawProofs.
Import ListNotations.
Open Scope Z_scope.

(** What remains of [h :: t] after its [c]-th entry was moved to the front. *)
Definition rest_after {X} (h : X) (t : list X) (c : nat) : list X :=
  match c with O => t | S c' => set_nth t c' h end.

Lemma set_nth_app_r {X} : forall (pre l : list X) i x,
  set_nth (pre ++ l) (length pre + i) x = pre ++ set_nth l i x.
Proof. induction pre; simpl; intros; auto. now rewrite IHpre. Qed.

Lemma nth_error_app_r {X} : forall (pre l : list X) i,
  nth_error (pre ++ l) (length pre + i) = nth_error l i.
Proof. induction pre; simpl; intros; auto. Qed.

Lemma swap_app {X} : forall (pre t : list X) h c x,
  nth_error (h :: t) c = Some x ->
  swap (pre ++ h :: t) (length pre) (length pre + c) = Ret (pre ++ x :: rest_after h t c).
Proof.
  intros pre t h c x H. unfold swap.
  rewrite <- (Nat.add_0_r (length pre)) at 1. rewrite !nth_error_app_r. rewrite H. simpl nth_error.
  cbv iota. f_equal.
  rewrite <- (Nat.add_0_r (length pre)) at 1.
  rewrite set_nth_app_r. rewrite set_nth_app_r. f_equal.
  destruct c; simpl in *; [inversion H; auto|reflexivity].
Qed.

Lemma rest_after_perm {X} : forall (h : X) t c x,
  nth_error (h :: t) c = Some x -> Permutation (h :: t) (x :: rest_after h t c).
Proof.
  intros h t [|c] x H; simpl in *; [inversion H; reflexivity|].
  symmetry. apply set_nth_perm. exact H.
Qed.

(** The ordered sample selected by a list of choices. *)
Fixpoint pick (cs : list nat) (l : list Z) : option (list Z) :=
  match cs with
  | [] => Some []
  | c :: cs' =>
      match l with
      | [] => None
      | h :: t => match nth_error (h :: t) c with
                  | None => None
                  | Some x => match pick cs' (rest_after h t c) with
                              | Some r => Some (x :: r) | None => None end
                  end
      end
  end.

Lemma draw_loop_pick : forall cs pre l g smp,
  pick cs l = Some smp ->
  (forall i c, nth_error cs i = Some c ->
     draw_choice (rng_stream g (rng_pos g + i)) (length l - i) = c) ->
  exists rest g', draw_loop (length cs) (length pre) (pre ++ l) g = Ret (pre ++ smp ++ rest, g').
Proof.
  induction cs as [|c cs IH]; intros pre l g smp HP HC; cbn [pick] in HP.
  - inversion HP; subst. simpl. eauto.
  - destruct l as [|h t]; [discriminate|].
    destruct (nth_error (h :: t) c) as [x|] eqn:Ex; [|discriminate].
    destruct (pick cs (rest_after h t c)) as [r|] eqn:Ep; [|discriminate].
    inversion HP; subst; clear HP.
    cbn [length draw_loop rnd].
    destruct (Nat.leb_spec (length (pre ++ h :: t)) (length pre)) as [HL|HL].
    { rewrite app_length in HL. cbn in HL. lia. }
    pose proof (HC 0%nat c eq_refl) as H0. rewrite Nat.add_0_r, Nat.sub_0_r in H0.
    unfold draw_choice in H0.
    replace (length (pre ++ h :: t) - length pre)%nat with (length (h :: t)) by (rewrite app_length; lia).
    rewrite H0. rewrite (swap_app _ _ _ _ _ Ex). cbn [obind].
    assert (RL : length (rest_after h t c) = length t)
      by (destruct c; simpl; [auto|apply set_nth_length]).
    destruct (IH (pre ++ [x]) (rest_after h t c) (mkRng (rng_stream g) (S (rng_pos g))) r Ep) as (rest & g' & E).
    + intros i c' Hi. cbn [rng_stream rng_pos].
      replace (S (rng_pos g) + i)%nat with (rng_pos g + S i)%nat by lia.
      rewrite RL. replace (length t - i)%nat with (length (h :: t) - S i)%nat by (simpl; lia).
      apply HC. exact Hi.
    + exists rest, g'. rewrite app_length in E. cbn [length] in E.
      replace (length pre + 1)%nat with (S (length pre)) in E by lia.
      rewrite <- app_assoc in E. cbn [app] in E. rewrite E.
      now rewrite <- app_assoc.
Qed.

Lemma pick_exists : forall smp l, NoDup smp -> NoDup l -> incl smp l ->
  exists cs, length cs = length smp
    /\ (forall i c, nth_error cs i = Some c -> (c < length l - i)%nat)
    /\ pick cs l = Some smp.
Proof.
  induction smp as [|x smp IH]; intros l N1 N2 HI.
  - exists []. repeat split; auto. intros [|i] c; discriminate.
  - destruct l as [|h t]; [exfalso; apply (HI x); now left|].
    assert (Hx : In x (h :: t)) by (apply HI; now left).
    destruct (In_nth_error _ _ Hx) as [c Hc].
    pose proof (rest_after_perm h t c x Hc) as P.
    inversion N1; subst.
    assert (N3 : NoDup (x :: rest_after h t c)) by (eapply Permutation_NoDup; eauto).
    inversion N3; subst.
    destruct (IH (rest_after h t c)) as (cs & L & B & E); auto.
    { intros y Hy. assert (In y (x :: rest_after h t c)).
      { eapply Permutation_in; [exact P|]. apply HI. now right. }
      destruct H; [subst; contradiction|auto]. }
    assert (RL : length (rest_after h t c) = length t)
      by (destruct c; simpl; [auto|apply set_nth_length]).
    exists (c :: cs). repeat split.
    + simpl. now rewrite L.
    + intros [|i] c' Hi; cbn [nth_error] in Hi.
      * inversion Hi; subst. rewrite Nat.sub_0_r. apply nth_error_Some. congruence.
      * apply B in Hi. rewrite RL in Hi. simpl. lia.
    + cbn [pick]. rewrite Hc, E. reflexivity.
Qed.

Lemma pick_unique : forall cs cs' l smp, NoDup l -> length cs = length cs' ->
  pick cs l = Some smp -> pick cs' l = Some smp -> cs = cs'.
Proof.
  induction cs as [|c cs IH]; intros [|c' cs'] l smp N L H1 H2; cbn [length] in L; try discriminate; auto.
  cbn [pick] in *. destruct l as [|h t]; [discriminate|].
  destruct (nth_error (h :: t) c) as [x|] eqn:E1; [|discriminate].
  destruct (nth_error (h :: t) c') as [x'|] eqn:E2; [|discriminate].
  destruct (pick cs (rest_after h t c)) as [r|] eqn:P1; [|discriminate].
  destruct (pick cs' (rest_after h t c')) as [r'|] eqn:P2; [|discriminate].
  inversion H1; subst. inversion H2; subst.
  assert (c = c').
  { apply (proj1 (NoDup_nth_error (h :: t)) N); [|congruence].
    apply nth_error_Some. congruence. }
  subst c'. f_equal. eapply (IH cs' (rest_after h t c) r); eauto; try lia.
  pose proof (rest_after_perm h t c x E1) as P.
  assert (N3 : NoDup (x :: rest_after h t c)) by (eapply Permutation_NoDup; eauto).
  now inversion N3.
Qed.

Lemma pick_total : forall cs l,
  (forall i c, nth_error cs i = Some c -> (c < length l - i)%nat) ->
  exists smp, pick cs l = Some smp.
Proof.
  induction cs as [|c cs IH]; intros l H; [simpl; eauto|].
  pose proof (H 0%nat c eq_refl) as H0. rewrite Nat.sub_0_r in H0.
  destruct l as [|h t]; [simpl in H0; lia|].
  destruct (nth_error (h :: t) c) as [x|] eqn:E; [|apply nth_error_None in E; lia].
  assert (RL : length (rest_after h t c) = length t)
    by (destruct c; simpl; [auto|apply set_nth_length]).
  destruct (IH (rest_after h t c)) as [r Er].
  { intros i c' Hi. specialize (H (S i) c' Hi). rewrite RL. simpl in H. lia. }
  exists (x :: r). cbn [pick]. rewrite E, Er. reflexivity.
Qed.

Lemma pick_length : forall cs l smp, pick cs l = Some smp -> length smp = length cs.
Proof.
  induction cs; intros l smp H; cbn [pick] in H; [inversion H; auto|].
  destruct l; [discriminate|]. destruct (nth_error _ _); [|discriminate].
  destruct (pick _ _) eqn:E; [|discriminate]. inversion H; subst. simpl. f_equal. eauto.
Qed.

(** The choices actually made from a stream. *)
Definition choices_of (g : rng) (N n : nat) : list nat :=
  map (fun i => draw_choice (rng_stream g (rng_pos g + i)) (N - i)) (seq 0 n).

Lemma nth_error_choices_of : forall g N n i c,
  nth_error (choices_of g N n) i = Some c ->
  (i < n)%nat /\ c = draw_choice (rng_stream g (rng_pos g + i)) (N - i).
Proof.
  intros g N n i c H.
  assert (Hi : (i < n)%nat).
  { assert (nth_error (choices_of g N n) i <> None) by congruence.
    apply nth_error_Some in H0. unfold choices_of in H0. rewrite map_length, seq_length in H0. auto. }
  split; auto. unfold choices_of in H.
  rewrite nth_error_map in H.
  rewrite (nth_error_nth' (seq 0 n) 0%nat) in H by (rewrite seq_length; auto).
  rewrite seq_nth in H by auto. simpl in H. congruence.
Qed.

Lemma draw_is_pick : forall n pool g, (n <= length pool)%nat ->
  exists smp rest, pick (choices_of g (length pool) n) pool = Some smp
    /\ drawIndexSample n pool g = Ret (smp, smp ++ rest, mkRng (rng_stream g) (rng_pos g + n)).
Proof.
  intros n pool g H.
  destruct (pick_total (choices_of g (length pool) n) pool) as [smp HP].
  { intros i c Hi. apply nth_error_choices_of in Hi. destruct Hi as [Hi ->].
    apply draw_choice_lt. lia. }
  pose proof (pick_length _ _ _ HP) as PL. unfold choices_of in PL. rewrite map_length, seq_length in PL.
  destruct (draw_loop_pick (choices_of g (length pool) n) [] pool g smp HP) as (rest & g' & E).
  { intros i c Hi. apply nth_error_choices_of in Hi. symmetry. tauto. }
  unfold choices_of in E at 1. rewrite map_length, seq_length in E. simpl in E.
  destruct (drawIndexSample_ok n pool g H) as (smp2 & rest2 & E2 & L2 & _).
  exists smp, rest2. split; auto.
  unfold drawIndexSample in *. rewrite E in *. cbn [obind] in *.
  destruct (Nat.ltb _ _); [discriminate|].
  inversion E2. rewrite firstn_app in *.
  rewrite PL in *. rewrite Nat.sub_diag in *. simpl (firstn 0 _) in *. rewrite app_nil_r in *.
  assert (firstn n smp = smp) by (rewrite firstn_all2; auto; lia). rewrite H3 in *. congruence.
Qed.
