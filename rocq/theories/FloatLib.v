(** Order facts about binary64 comparison (including NaN and infinities). *)
From Coq Require Import ZArith List Bool Floats Lia.
Open Scope Z_scope.

Lemma SFltb_trans : forall x y z,
  SFltb x y = true -> SFltb y z = true -> SFltb x z = true.
Proof.
  intros x y z. unfold SFltb.
  destruct x as [sx|sx| |sx mx ex]; destruct y as [sy|sy| |sy my ey];
    destruct z as [sz|sz| |sz mz ez]; cbn [SFcompare]; try discriminate; auto;
    try (destruct sx); try (destruct sy); try (destruct sz); cbn; try discriminate; auto.
  all: intros H1 H2.
  all: destruct (Z.compare_spec ex ey); try discriminate;
       destruct (Z.compare_spec ey ez); try discriminate;
       destruct (Z.compare_spec ex ez); try lia; auto; subst; try lia.
  all: repeat match goal with
       | H : context [Pos.compare_cont Eq ?a ?b] |- _ =>
           change (Pos.compare_cont Eq a b) with (Pos.compare a b) in H
       | |- context [Pos.compare_cont Eq ?a ?b] =>
           change (Pos.compare_cont Eq a b) with (Pos.compare a b)
       end.
  all: repeat match goal with
       | H : context [Pos.compare ?a ?b] |- _ => destruct (Pos.compare_spec a b); cbn in H; try discriminate
       | |- context [Pos.compare ?a ?b] => destruct (Pos.compare_spec a b); cbn; try lia; auto
       end; try lia.
Qed.

Lemma ltb_trans : forall x y z,
  PrimFloat.ltb x y = true -> PrimFloat.ltb y z = true -> PrimFloat.ltb x z = true.
Proof. intros x y z. rewrite !ltb_spec. apply SFltb_trans. Qed.

Lemma SFltb_irrefl : forall x, SFltb x x = false.
Proof.
  intros [sx|sx| |sx mx ex]; unfold SFltb; cbn; try (destruct sx); auto;
  rewrite Z.compare_refl; change (Pos.compare_cont Eq mx mx) with (Pos.compare mx mx);
  rewrite Pos.compare_refl; reflexivity.
Qed.

Lemma ltb_irrefl : forall x, PrimFloat.ltb x x = false.
Proof. intro. rewrite ltb_spec. apply SFltb_irrefl. Qed.

Lemma leb_ltb_eqb : forall x y,
  PrimFloat.leb x y = PrimFloat.ltb x y || PrimFloat.eqb x y.
Proof.
  intros. rewrite leb_spec, ltb_spec, eqb_spec. unfold SFleb, SFltb, SFeqb.
  destruct (SFcompare _ _) as [[]|]; reflexivity.
Qed.

(** NaN is never below anything, and nothing is below NaN. *)
Lemma ltb_nan_l : forall x y, PrimFloat.is_nan x = true -> PrimFloat.ltb x y = false.
Proof.
  intros x y H. rewrite ltb_spec. unfold SFltb.
  unfold PrimFloat.is_nan in H. rewrite eqb_spec in H.
  destruct (Prim2SF x) as [s|s| |s m e]; cbn in H; try (destruct s; discriminate); auto.
  exfalso. destruct s; cbn in H; rewrite Z.compare_refl in H;
  change (Pos.compare_cont Eq m m) with (Pos.compare m m) in H;
  rewrite Pos.compare_refl in H; discriminate.
Qed.

(** Trichotomy for numbers. *)
Lemma SF_not_nan_cmp : forall x y,
  SFeqb x x = true -> SFeqb y y = true -> SFcompare x y <> None.
Proof.
  intros [sx|sx| |sx mx ex] [sy|sy| |sy my ey]; unfold SFeqb; cbn; try (destruct sx); try (destruct sy); try discriminate; auto;
  intros; destruct (ex ?= ey); discriminate.
Qed.

Lemma SFcompare_antisym : forall x y,
  SFcompare y x = match SFcompare x y with Some c => Some (CompOpp c) | None => None end.
Proof.
  intros [sx|sx| |sx mx ex] [sy|sy| |sy my ey]; cbn; try (destruct sx); try (destruct sy); auto;
  rewrite (Z.compare_antisym ex ey); destruct (ex ?= ey); cbn; auto;
  change (Pos.compare_cont Eq my mx) with (Pos.compare my mx);
  change (Pos.compare_cont Eq mx my) with (Pos.compare mx my);
  rewrite (Pos.compare_antisym mx my); destruct (mx ?= my)%positive; auto.
Qed.

Lemma ltb_total : forall x y,
  PrimFloat.is_nan x = false -> PrimFloat.is_nan y = false ->
  PrimFloat.ltb x y = false -> PrimFloat.leb y x = true.
Proof.
  intros x y Hx Hy. unfold PrimFloat.is_nan in *.
  rewrite negb_false_iff in Hx, Hy. rewrite eqb_spec in Hx, Hy.
  rewrite ltb_spec, leb_spec. unfold SFltb, SFleb.
  pose proof (SF_not_nan_cmp _ _ Hx Hy) as N.
  rewrite (SFcompare_antisym (Prim2SF x) (Prim2SF y)).
  destruct (SFcompare (Prim2SF x) (Prim2SF y)) as [[]|]; cbn; auto; congruence.
Qed.

Lemma SFcompare_eq_compat : forall x y z,
  SFcompare y z = Some Eq -> SFcompare x y = SFcompare x z.
Proof.
  intros [sx|sx| |sx mx ex] [sy|sy| |sy my ey] [sz|sz| |sz mz ez]; cbn;
    try (destruct sx); try (destruct sy); try (destruct sz); cbn; try discriminate; auto;
  change (Pos.compare_cont Eq my mz) with (Pos.compare my mz);
  destruct (Z.compare_spec ey ez); try discriminate; subst; cbn;
  destruct (Pos.compare_spec my mz); cbn; try discriminate; subst; auto.
Qed.

Lemma ltb_leb_trans : forall x y z,
  PrimFloat.ltb x y = true -> PrimFloat.leb y z = true -> PrimFloat.ltb x z = true.
Proof.
  intros x y z H1 H2. rewrite leb_ltb_eqb in H2. apply orb_prop in H2. destruct H2 as [H2|H2].
  - eapply ltb_trans; eauto.
  - rewrite ltb_spec in *. rewrite eqb_spec in H2. unfold SFltb, SFeqb in *.
    rewrite <- (SFcompare_eq_compat (Prim2SF x) (Prim2SF y) (Prim2SF z)); auto.
    destruct (SFcompare (Prim2SF y) (Prim2SF z)) as [[]|]; congruence.
Qed.

Lemma ltb_not_nan : forall x y, PrimFloat.ltb x y = true ->
  PrimFloat.is_nan x = false /\ PrimFloat.is_nan y = false.
Proof.
  intros x y H. split.
  - destruct (PrimFloat.is_nan x) eqn:E; auto. rewrite (ltb_nan_l x y E) in H. discriminate.
  - destruct (PrimFloat.is_nan y) eqn:E; auto.
    rewrite ltb_spec in H. unfold SFltb in H. rewrite SFcompare_antisym in H.
    assert (ltb y x = false) by now apply ltb_nan_l.
    unfold PrimFloat.is_nan in E. rewrite negb_true_iff in E. rewrite eqb_spec in E.
    unfold SFeqb in E.
    destruct (Prim2SF y) as [s|s| |s m e]; cbn in E; try (destruct s; discriminate); try discriminate.
    exfalso. destruct s; cbn in E; rewrite Z.compare_refl in E;
    change (Pos.compare_cont Eq m m) with (Pos.compare m m) in E;
    rewrite Pos.compare_refl in E; discriminate.
Qed.
