(** C60: the descent of the generalized eigensolver terminates for every objective, and a
    trial never ends at a worse objective value than it started with. *)
From Coq Require Import ZArith List Bool Floats Lia.
From Verif Require Import FloatLib DescentModel.
Import ListNotations.
Local Open Scope float_scope.

Notation nan x := (PrimFloat.is_nan x = true).

(** Some coordinate is NaN / every coordinate is NaN / numerically equal (+0 equals -0). *)
Definition somenan (c : fvec) : Prop := nan (fx c) \/ nan (fy c) \/ nan (fz c).
Definition allnan (c : fvec) : Prop := nan (fx c) /\ nan (fy c) /\ nan (fz c).
Definition feq3 (c d : fvec) : Prop :=
  PrimFloat.eqb (fx c) (fx d) = true /\ PrimFloat.eqb (fy c) (fy d) = true /\
  PrimFloat.eqb (fz c) (fz d) = true.

(** What is assumed of the objective: NaN inputs give NaN, and numerically equal inputs do
    not give values one of which is above the other.  It may otherwise be any function,
    continuous or not. *)
Definition good_cost (cost : fvec -> float) : Prop :=
  (forall c, somenan c -> nan (cost c)) /\
  (forall c d, feq3 c d -> PrimFloat.ltb (cost c) (cost d) = false).

(** ** NaN propagation *)
Lemma nan_SF : forall x, nan x <-> Prim2SF x = S754_nan.
Proof.
  intro x. unfold PrimFloat.is_nan. rewrite negb_true_iff, eqb_spec.
  split.
  - intro H. unfold SFeqb in H.
    destruct (Prim2SF x) as [s|s| |s m e]; cbn in H; try (destruct s; discriminate); auto.
    exfalso. destruct s; rewrite Z.compare_refl in H;
    change (Pos.compare_cont Eq m m) with (Pos.compare m m) in H;
    rewrite Pos.compare_refl in H; discriminate.
  - intro H. rewrite H. reflexivity.
Qed.

Lemma nan_sub_l : forall x y, nan x -> nan (x - y).
Proof. intros x y. rewrite !nan_SF, sub_spec. intros ->. reflexivity. Qed.
Lemma nan_sub_r : forall x y, nan y -> nan (x - y).
Proof.
  intros x y. rewrite !nan_SF, sub_spec. intros ->. unfold SF64sub, SFsub.
  destruct (Prim2SF x); reflexivity.
Qed.
Lemma nan_add_l : forall x y, nan x -> nan (x + y).
Proof. intros x y. rewrite !nan_SF, add_spec. intros ->. reflexivity. Qed.
Lemma nan_mul_l : forall x y, nan x -> nan (x * y).
Proof. intros x y. rewrite !nan_SF, mul_spec. intros ->. reflexivity. Qed.
Lemma nan_mul_r : forall x y, nan y -> nan (x * y).
Proof.
  intros x y. rewrite !nan_SF, mul_spec. intros ->. unfold SF64mul, SFmul.
  destruct (Prim2SF x); reflexivity.
Qed.
Lemma nan_div_r : forall x y, nan y -> nan (x / y).
Proof.
  intros x y. rewrite !nan_SF, div_spec. intros ->. unfold SF64div, SFdiv.
  destruct (Prim2SF x); reflexivity.
Qed.
Lemma nan_sqrt : forall x, nan x -> nan (PrimFloat.sqrt x).
Proof. intros x. rewrite !nan_SF, sqrt_spec. intros ->. reflexivity. Qed.
Lemma ltb_nan_r : forall x y, nan y -> PrimFloat.ltb x y = false.
Proof.
  intros x y H. destruct (PrimFloat.ltb x y) eqn:E; auto.
  apply ltb_not_nan in E. destruct E. congruence.
Qed.

(** A step of length zero does not move, unless the direction is not finite. *)
Lemma SFeqb_refl : forall x, x <> S754_nan -> SFeqb x x = true.
Proof.
  intros [s|s| |s m e] H; unfold SFeqb; cbn; try (destruct s); auto; try congruence;
  rewrite Z.compare_refl; change (Pos.compare_cont Eq m m) with (Pos.compare m m);
  rewrite Pos.compare_refl; reflexivity.
Qed.

Lemma zero_step : forall c n, nan (c - 0 * n) \/ PrimFloat.eqb (c - 0 * n) c = true.
Proof.
  intros c n. rewrite nan_SF, eqb_spec, sub_spec, mul_spec.
  change (Prim2SF 0) with (S754_zero false).
  destruct (Prim2SF n) as [s|s| |s m e]; cbn [SF64mul SFmul]; unfold SF64sub, SFsub, SF64mul, SFmul.
  2,3: destruct (Prim2SF c); auto.
  all: destruct (Prim2SF c) as [sc|sc| |sc mc ec]; auto; right;
    try (apply SFeqb_refl; discriminate);
    destruct sc, s; reflexivity.
Qed.

(** ** The sequence of step lengths: 0.08 halved i times *)
Fixpoint halved (i : nat) : float :=
  match i with O => maxLambda | S k => halved k / 2 end.

Lemma halved_zero_at : halved 1080 = 0.
Proof. vm_compute. reflexivity. Qed.

Lemma halved_zero : forall i, (1080 <= i)%nat -> halved i = 0.
Proof.
  intros i H. replace i with ((i - 1080) + 1080)%nat by lia.
  set (k := (i - 1080)%nat). clearbody k. clear.
  induction k as [|k IH]; [apply halved_zero_at|].
  change (halved (k + 1080) / 2 = 0). rewrite IH. reflexivity.
Qed.

Section Descent.
Variables (cost : fvec -> float) (pow2 : float -> float).
Hypothesis HC : good_cost cost.

Let pt c i n := samplingPoint c (halved i) n.

(** The halving loop, entered with the value at the current point as reference. *)
Lemma dec_ok : forall c n best, best = cost c -> forall fuel i,
  (1080 <= i + fuel)%nat ->
  exists i', decLoop fuel cost c n (halved i) (pt c i n) (cost (pt c i n)) best =
               Some (halved i', pt c i' n, cost (pt c i' n)) /\
             PrimFloat.ltb best (cost (pt c i' n)) = false.
Proof.
  intros c n best Hb. induction fuel; intros i Hi.
  - cbn [decLoop]. assert (E : PrimFloat.ltb best (cost (pt c i n)) = false).
    { subst best. unfold pt, samplingPoint. rewrite (halved_zero i) by lia.
      destruct HC as [Hn He].
      destruct (zero_step (fx c) (fx n)) as [X|X]; [apply ltb_nan_r, Hn; left; exact X|].
      destruct (zero_step (fy c) (fy n)) as [Y|Y]; [apply ltb_nan_r, Hn; right; left; exact Y|].
      destruct (zero_step (fz c) (fz n)) as [Z|Z]; [apply ltb_nan_r, Hn; right; right; exact Z|].
      apply He. repeat split; cbn [fx fy fz];
        rewrite eqb_spec in *; unfold SFeqb in *; rewrite SFcompare_antisym.
      + destruct (SFcompare (Prim2SF (fx c - 0 * fx n)) (Prim2SF (fx c))) as [[]|]; try discriminate; reflexivity.
      + destruct (SFcompare (Prim2SF (fy c - 0 * fy n)) (Prim2SF (fy c))) as [[]|]; try discriminate; reflexivity.
      + destruct (SFcompare (Prim2SF (fz c - 0 * fz n)) (Prim2SF (fz c))) as [[]|]; try discriminate; reflexivity. }
    rewrite E. exists i. split; auto.
  - cbn [decLoop]. destruct (PrimFloat.ltb best (cost (pt c i n))) eqn:E.
    + change (halved i / 2) with (halved (S i)).
      change (samplingPoint c (halved (S i)) n) with (pt c (S i) n).
      apply IHfuel. lia.
    + exists i. split; auto.
Qed.

(** The doubling loop is entered with lambda = 0.01 and ends after at most three doublings. *)
Lemma inc_ok : forall c n fuel, (3 <= fuel)%nat -> forall best,
  exists i best', incLoop fuel cost c n (halved 3) (pt c 3 n) (cost (pt c 3 n)) best =
               Some (halved i, pt c i n, cost (pt c i n), best') /\
     ((i = 3%nat /\ best' = best /\ PrimFloat.ltb (cost (pt c 3 n)) best = false) \/
      (PrimFloat.ltb best' best = true /\
       (best' = cost (pt c i n) \/ best' = cost (pt c (S i) n)))).
Proof.
  intros c n fuel Hf best.
  destruct fuel as [|[|[|fuel]]]; try lia. cbn [incLoop].
  change (halved 3 * 2) with (halved 2). change (samplingPoint c (halved 2) n) with (pt c 2 n).
  change (halved 2 * 2) with (halved 1). change (samplingPoint c (halved 1) n) with (pt c 1 n).
  change (halved 1 * 2) with (halved 0). change (samplingPoint c (halved 0) n) with (pt c 0 n).
  change (PrimFloat.ltb maxLambda (halved 2)) with false.
  change (PrimFloat.ltb maxLambda (halved 1)) with false.
  change (PrimFloat.ltb maxLambda (halved 0)) with false.
  cbv iota.
  destruct (PrimFloat.ltb (cost (pt c 3 n)) best) eqn:E3;
    [|exists 3%nat, best; split; auto].
  destruct (PrimFloat.ltb (cost (pt c 2 n)) (cost (pt c 3 n))) eqn:E2;
    [|exists 2%nat, (cost (pt c 3 n)); split; auto].
  pose proof (ltb_trans _ _ _ E2 E3) as E2'.
  destruct (PrimFloat.ltb (cost (pt c 1 n)) (cost (pt c 2 n))) eqn:E1;
    [|exists 1%nat, (cost (pt c 2 n)); split; auto].
  pose proof (ltb_trans _ _ _ E1 E2') as E1'.
  assert (L : PrimFloat.ltb maxLambda (halved 0 * 2) = true) by (vm_compute; reflexivity).
  destruct fuel; cbn [incLoop]; rewrite L;
  (destruct (PrimFloat.ltb (cost (pt c 0 n)) (cost (pt c 1 n))) eqn:E0;
    [|exists 0%nat, (cost (pt c 1 n)); split; auto]);
  pose proof (ltb_trans _ _ _ E0 E1') as E0';
  exists 0%nat, (cost (pt c 0 n)); split; auto.
Qed.

(** Not above: NaN, or at most. *)
Lemma not_gt : forall a b, PrimFloat.ltb b a = false -> PrimFloat.is_nan b = false ->
  nan a \/ PrimFloat.leb a b = true.
Proof.
  intros a b H Hb. destruct (PrimFloat.is_nan a) eqn:E; auto. right. now apply ltb_total.
Qed.

Lemma jac_nan : forall c, nan (cost c) ->
  allnan (normalizedJac pow2 (quickJac cost c (cost c))).
Proof.
  intros c H. unfold normalizedJac, quickJac. cbn [fx fy fz].
  repeat split; cbn [fx fy fz]; apply nan_mul_r, nan_sub_r, H.
Qed.

Lemma pt_nan : forall c l n, allnan n -> allnan (samplingPoint c l n).
Proof.
  intros c l n (A&B&C). repeat split; cbn [samplingPoint fx fy fz]; apply nan_sub_r, nan_mul_r; auto.
Qed.

Lemma step_ok : forall fuel, (1080 <= fuel)%nat -> forall first c i,
  (first = true -> i = 3%nat) ->
  exists i' c', descentStep fuel pow2 cost first c (halved i) (cost c) =
                  Some (halved i', c', cost c') /\
     (nan (cost c) -> allnan c') /\
     (PrimFloat.is_nan (cost c) = false -> nan (cost c') \/ PrimFloat.leb (cost c') (cost c) = true).
Proof.
  intros fuel Hf first c i Hi. unfold descentStep.
  remember (normalizedJac pow2 (quickJac cost c (cost c))) as n eqn:En.
  change (samplingPoint c (halved i) n) with (pt c i n).
  assert (NN : nan (cost c) -> forall k, allnan (pt c k n)).
  { intros H k. apply pt_nan. subst n. now apply jac_nan. }
  destruct first.
  - rewrite Hi by reflexivity.
    destruct (inc_ok c n fuel ltac:(lia) (cost c)) as (i1&b1&E1&Cs). rewrite E1.
    destruct Cs as [(->&->&_)|(Lt&Cs)].
    + destruct (dec_ok c n (cost c) eq_refl fuel 3 ltac:(lia)) as (i2&E2&L2).
      exists i2, (pt c i2 n). split; [exact E2|]. split; [intros H; now apply NN|].
      intros Hn. now apply not_gt.
    + pose proof (ltb_not_nan _ _ Lt) as (Nb&Nc).
      assert (Q : exists i2, decLoop fuel cost c n (halved i1) (pt c i1 n) (cost (pt c i1 n)) b1 =
                    Some (halved i2, pt c i2 n, cost (pt c i2 n)) /\
                    PrimFloat.ltb b1 (cost (pt c i2 n)) = false).
      { destruct fuel as [|fuel]; [lia|]. cbn [decLoop].
        destruct (PrimFloat.ltb b1 (cost (pt c i1 n))) eqn:E; [|exists i1; auto].
        destruct Cs as [->| ->]; [rewrite ltb_irrefl in E; discriminate|].
        change (halved i1 / 2) with (halved (S i1)).
        change (samplingPoint c (halved (S i1)) n) with (pt c (S i1) n).
        exists (S i1). destruct fuel; cbn [decLoop]; rewrite ltb_irrefl; auto. }
      destruct Q as (i2&E2&L2). exists i2, (pt c i2 n). split; [exact E2|].
      split; [intros H; congruence|]. intros _.
      destruct (not_gt _ _ L2 Nb) as [H|H]; auto. right.
      rewrite leb_ltb_eqb. rewrite leb_ltb_eqb in H. apply orb_prop in H.
      destruct H as [H|H]; [rewrite (ltb_trans _ _ _ H Lt); reflexivity|].
      apply orb_true_intro; left.
      rewrite ltb_spec in *. rewrite eqb_spec in H. unfold SFltb, SFeqb in *.
      rewrite SFcompare_antisym.
      rewrite (SFcompare_eq_compat _ _ (Prim2SF b1)).
      * rewrite SFcompare_antisym.
        destruct (SFcompare (Prim2SF b1) (Prim2SF (cost c))) as [[]|]; try discriminate. reflexivity.
      * destruct (SFcompare (Prim2SF (cost (pt c i2 n))) (Prim2SF b1)) as [[]|]; try discriminate; reflexivity.
  - destruct (dec_ok c n (cost c) eq_refl fuel i ltac:(lia)) as (i2&E2&L2).
    exists i2, (pt c i2 n). split; [exact E2|]. split; [intros H; now apply NN|].
    intros Hn. now apply not_gt.
Qed.

Lemma leb_trans : forall x y z, PrimFloat.leb x y = true -> PrimFloat.leb y z = true ->
  PrimFloat.leb x z = true.
Proof.
  intros x y z H1 H2. rewrite leb_ltb_eqb in H1. apply orb_prop in H1. destruct H1 as [H1|H1].
  - rewrite leb_ltb_eqb. rewrite (ltb_leb_trans _ _ _ H1 H2). reflexivity.
  - rewrite leb_spec in *. rewrite eqb_spec in H1. unfold SFleb, SFeqb in *.
    rewrite SFcompare_antisym.
    rewrite (SFcompare_eq_compat (Prim2SF z) (Prim2SF x) (Prim2SF y)).
    + rewrite SFcompare_antisym.
      destruct (SFcompare (Prim2SF y) (Prim2SF z)) as [[]|]; try discriminate; reflexivity.
    + destruct (SFcompare (Prim2SF x) (Prim2SF y)) as [[]|]; try discriminate; reflexivity.
Qed.

Lemma iter_ok : forall fuel, (1080 <= fuel)%nat -> forall left first c i,
  (first = true -> i = 3%nat) ->
  exists c', iterLoop left fuel pow2 cost first c (halved i) (cost c) = Some c' /\
     (nan (cost c) -> left <> 0%nat -> allnan c') /\
     (nan (cost c') \/ PrimFloat.leb (cost c') (cost c) = true).
Proof.
  intros fuel Hf. induction left as [|left IH]; intros first c i Hi.
  - exists c. cbn [iterLoop]. split; auto. split; [congruence|].
    destruct (PrimFloat.is_nan (cost c)) eqn:E; auto. right.
    rewrite leb_ltb_eqb, ltb_irrefl. unfold PrimFloat.is_nan in E.
    rewrite negb_false_iff in E. cbn. exact E.
  - cbn [iterLoop].
    destruct (step_ok fuel Hf first c i Hi) as (i1&c1&E1&N1&L1). rewrite E1.
    destruct (PrimFloat.ltb (halved i1) min_xtol).
    + exists c1. split; auto. split; auto.
      destruct (PrimFloat.is_nan (cost c)) eqn:E; auto.
      left. apply (proj1 HC). left. apply N1; auto.
    + destruct (IH false c1 i1 ltac:(discriminate)) as (c2&E2&N2&L2).
      exists c2. split; auto. split.
      * intros H _. specialize (N1 H).
        assert (nan (cost c1)) by (apply (proj1 HC); left; apply N1).
        destruct left; [cbn in E2; congruence|]. apply N2; auto.
      * destruct (PrimFloat.is_nan (cost c)) eqn:E.
        -- left. specialize (N1 eq_refl).
           assert (nan (cost c1)) by (apply (proj1 HC); left; apply N1).
           destruct left; [cbn in E2; congruence|].
           apply (proj1 HC). left. apply N2; auto.
        -- destruct (L1 eq_refl) as [L|L].
           ++ left. destruct left; [cbn in E2; congruence|].
              apply (proj1 HC). left. apply N2; auto.
           ++ destruct L2 as [L2|L2]; auto. right. eapply leb_trans; eauto.
Qed.

Lemma trial_ok : forall fuel, (1080 <= fuel)%nat -> forall c,
  exists c', descentTrial fuel pow2 cost c = Some c' /\
     (nan (cost c) -> allnan c') /\
     (nan (cost c') \/ PrimFloat.leb (cost c') (cost c) = true).
Proof.
  intros fuel Hf c. unfold descentTrial.
  change lambda0 with (halved 3).
  destruct (iter_ok fuel Hf 50 true c 3 ltac:(auto)) as (c'&E&N&L).
  exists c'. split; auto.
Qed.

End Descent.

(** ** C60 *)

(** The search of the generalized eigensolver ends for every objective, every sequence of
    random numbers and every starting vector: none of its loops runs for ever (1080 passes of
    the inner loops always suffice).  It makes at most five trials; the vector it returns is
    the end of the last trial made; and along a trial the objective never goes up: it ends
    not above the value at the trial's starting vector, or at NaN.  Fewer than five failed
    trials means that the result passed the test of the code. *)
Theorem C60_descent_ends : forall cost pow2 cost0 rnd start fuel,
  good_cost cost -> (1080 <= fuel)%nat ->
  exists r k last, ge_descent fuel pow2 cost cost0 rnd start = Some (r, k) /\
    (k <= 5)%nat /\ last = Nat.min k 4 /\
    (accepted cost0 r = true <-> (k < 5)%nat) /\
    descentTrial fuel pow2 cost (trialStart rnd start last) = Some r /\
    (nan (cost r) \/ PrimFloat.leb (cost r) (cost (trialStart rnd start last)) = true).
Proof.
  intros cost pow2 cost0 rnd start fuel HC Hf. unfold ge_descent.
  assert (G : forall left k c, (left + k = 5)%nat -> (0 < left)%nat ->
    exists r k' last, trialLoop left fuel pow2 cost cost0 rnd start k c = Some (r, k') /\
      (k' <= 5)%nat /\ last = Nat.min k' 4 /\
      (accepted cost0 r = true <-> (k' < 5)%nat) /\
      descentTrial fuel pow2 cost (trialStart rnd start last) = Some r /\
      (nan (cost r) \/ PrimFloat.leb (cost r) (cost (trialStart rnd start last)) = true)).
  { induction left as [|left IH]; intros k c Hk Hl; [lia|]. cbn [trialLoop].
    destruct (trial_ok cost pow2 HC fuel Hf (trialStart rnd start k)) as (c'&E&N&L).
    rewrite E. destruct (accepted cost0 c') eqn:A.
    - exists c', k, k. rewrite A. repeat split; auto; try lia.
    - destruct left as [|left].
      + cbn [trialLoop]. exists c', (S k), k. rewrite A.
        repeat split; auto; try lia.
      + apply IH; lia. }
  apply G; lia.
Qed.

(** The starting rotation is never made worse when the first trial is accepted. *)
Corollary C60_first_trial_improves : forall cost pow2 cost0 rnd start fuel r,
  good_cost cost -> (1080 <= fuel)%nat ->
  ge_descent fuel pow2 cost cost0 rnd start = Some (r, O) ->
  nan (cost r) \/ PrimFloat.leb (cost r) (cost start) = true.
Proof.
  intros cost pow2 cost0 rnd start fuel r HC Hf E.
  destruct (C60_descent_ends cost pow2 cost0 rnd start fuel HC Hf)
    as (r'&k&last&E'&_&->&_&_&L).
  rewrite E in E'. injection E' as <- <-. exact L.
Qed.

(** A finite number (neither NaN nor infinite). *)
Definition ffinite (x : float) : Prop := PrimFloat.eqb (x - x) 0 = true.

Lemma self_sub : forall x, ffinite x -> x - x = 0 \/ x - x = -0.
Proof.
  intros x H. unfold ffinite in H. rewrite eqb_spec in H.
  assert (E : Prim2SF (x - x) = S754_zero false \/ Prim2SF (x - x) = S754_zero true).
  { change (Prim2SF 0) with (S754_zero false) in H.
    destruct (Prim2SF (x - x)) as [[]|[]| |[] m e]; cbn in H; try discriminate; auto. }
  destruct E as [E|E]; [left|right]; apply Prim2SF_inj; rewrite E; reflexivity.
Qed.

(** The claim that a search started at a point with a finite objective value returns a finite
    rotation is false.  Where the three forward differences are zero in binary64 (for example
    at a flat minimum) the code divides zero by zero, and the Cayley vector it accepts and
    returns has three NaN coordinates. *)
Theorem C60_flat_refuted : forall cost pow2 cost0 rnd start fuel,
  good_cost cost -> pow2 0 = 0 -> pow2 (-0) = 0 -> (1080 <= fuel)%nat ->
  ffinite (cost start) ->
  cost (FV (fx start + jac_eps) (fy start) (fz start)) = cost start ->
  cost (FV (fx start) (fy start + jac_eps) (fz start)) = cost start ->
  cost (FV (fx start) (fy start) (fz start + jac_eps)) = cost start ->
  exists r, ge_descent fuel pow2 cost cost0 rnd start = Some (r, O) /\
    nan (fx r) /\ nan (fy r) /\ nan (fz r).
Proof.
  intros cost pow2 cost0 rnd start fuel HC P0 P0' Hf Fin Hx Hy Hz.
  assert (J : allnan (normalizedJac pow2 (quickJac cost start (cost start)))).
  { unfold normalizedJac, quickJac. cbn [fx fy fz]. rewrite Hx, Hy, Hz.
    destruct (self_sub _ Fin) as [->| ->].
    - rewrite P0. repeat split; vm_compute; reflexivity.
    - rewrite P0'. repeat split; vm_compute; reflexivity. }
  assert (T : exists r, descentTrial fuel pow2 cost start = Some r /\ allnan r).
  { unfold descentTrial.
    assert (D : exists c1, descentStep fuel pow2 cost true start lambda0 (cost start) =
                  Some (lambda0, c1, cost c1) /\ allnan c1).
    { unfold descentStep. set (n := normalizedJac _ _) in *.
      set (sp := samplingPoint start lambda0 n).
      assert (A : allnan sp) by (apply pt_nan; exact J).
      assert (NC : nan (cost sp)) by (apply (proj1 HC); left; apply A).
      exists sp. split; [|exact A]. destruct fuel as [|fuel]; [lia|]. cbn [incLoop decLoop].
      rewrite (ltb_nan_l _ _ NC), (ltb_nan_r _ _ NC). reflexivity. }
    destruct D as (c1&D&A1). cbn [iterLoop]. rewrite D.
    change (PrimFloat.ltb lambda0 min_xtol) with false. cbv iota.
    change lambda0 with (halved 3).
    destruct (iter_ok cost pow2 HC fuel Hf 49 false c1 3 ltac:(discriminate)) as (c2&E2&N2&_).
    exists c2. split; [exact E2|]. apply N2; [|discriminate].
    apply (proj1 HC). left. apply A1. }
  destruct T as (r&T&A). exists r. split; [|exact A].
  unfold ge_descent. cbn [trialLoop trialStart]. rewrite T.
  replace (accepted cost0 r) with true; [reflexivity|].
  unfold accepted. rewrite ltb_nan_l; [reflexivity|].
  unfold fnorm. apply nan_sqrt, nan_add_l, nan_add_l, nan_mul_l, A.
Qed.

(** ** Hypotheses are met *)

(** A bowl: the squared distance to the origin. *)
Definition bowl (c : fvec) : float := fx c * fx c + fy c * fy c + fz c * fz c.

Lemma eqb_sq : forall a b, PrimFloat.eqb a b = true -> a * a = b * b.
Proof.
  intros a b H. apply Prim2SF_inj. rewrite !mul_spec. rewrite eqb_spec in H. unfold SFeqb in H.
  destruct (Prim2SF a) as [s|s| |s m e]; destruct (Prim2SF b) as [s'|s'| |s' m' e'];
    cbn in H; try discriminate; try (destruct s, s'; try discriminate; reflexivity);
    try (destruct s; discriminate); try (destruct s'; discriminate).
  assert (s = s' /\ m = m' /\ e = e').
  { destruct s, s'; try discriminate; destruct (Z.compare_spec e e'); try discriminate; subst;
    change (Pos.compare_cont Eq m m') with (Pos.compare m m') in H;
    destruct (Pos.compare_spec m m'); try discriminate; subst; auto. }
  destruct H0 as (->&->&->). reflexivity.
Qed.

Lemma nan_add_r : forall x y, nan y -> nan (x + y).
Proof.
  intros x y. rewrite !nan_SF, add_spec. intros ->. unfold SF64add, SFadd.
  destruct (Prim2SF x); reflexivity.
Qed.

Lemma bowl_good : good_cost bowl.
Proof.
  split.
  - intros c [H|[H|H]]; unfold bowl.
    + apply nan_add_l, nan_add_l, nan_mul_l, H.
    + apply nan_add_l, nan_add_r, nan_mul_l, H.
    + apply nan_add_r, nan_mul_l, H.
  - intros c d (A&B&C). unfold bowl. rewrite (eqb_sq _ _ A), (eqb_sq _ _ B), (eqb_sq _ _ C).
    apply ltb_irrefl.
Qed.

Definition sq (x : float) : float := x * x.

(** A run on the bowl: it ends, and the objective has gone down by more than a factor 10. *)
Example C60_nonvacuous :
  good_cost bowl /\
  match ge_descent 1080 sq bowl (fun _ => 0) (fun _ _ => 0) (FV 0x1p-1 0x1p-2 0) with
  | Some (r, O) => PrimFloat.ltb (bowl r * 10) (bowl (FV 0x1p-1 0x1p-2 0)) = true
  | _ => False
  end.
Proof. split; [apply bowl_good|]. vm_compute. reflexivity. Qed.

(** A plateau: value 1 at every vector of numbers. *)
Definition plateau (c : fvec) : float :=
  if PrimFloat.is_nan (fx c) || PrimFloat.is_nan (fy c) || PrimFloat.is_nan (fz c)
  then PrimFloat.nan else 1.

Example C60_flat_nonvacuous :
  good_cost plateau /\ sq 0 = 0 /\ sq (-0) = 0 /\ ffinite (plateau (FV 0 0 0)) /\
  plateau (FV jac_eps 0 0) = plateau (FV 0 0 0) /\
  ge_descent 1080 sq plateau (fun _ => 0) (fun _ _ => 0) (FV 0 0 0) =
    Some (FV PrimFloat.nan PrimFloat.nan PrimFloat.nan, O).
Proof.
  split.
  - split.
    + intros c [H|[H|H]]; unfold plateau; rewrite H; rewrite ?orb_true_r; reflexivity.
    + intros c d _. unfold plateau.
      destruct (_ || _ || _); destruct (_ || _ || _); vm_compute; reflexivity.
  - repeat split; vm_compute; reflexivity.
Qed.
