(** C38: linear triangulation. *)
From Coq Require Import Reals Lra Psatz Lia.
From Verif Require Import Lin GenLin GenSpectral TriModel.
Local Open Scope R_scope.

(** kernel of A: Y parallel to f1, R^T (Y - w t) parallel to f2 *)
Lemma triA_kernel R12 t12 f1 f2 (v : nat -> R) :
  let Y := V3 (v 0%nat) (v 1%nat) (v 2%nat) in
  let Z := mv (mT R12) (vsub Y (vscale (v 3%nat) t12)) in
  (forall i, (i < 4)%nat -> mvec 4 (triA R12 t12 f1 f2) v i = 0) <->
  vx f1 * vz Y = vz f1 * vx Y /\ vy f1 * vz Y = vz f1 * vy Y /\
  vx f2 * vz Z = vz f2 * vx Z /\ vy f2 * vz Z = vz f2 * vy Z.
Proof.
  cbv zeta. destruct R12, t12, f1, f2. split.
  - intro H. pose proof (H 0%nat ltac:(lia)) as H0. pose proof (H 1%nat ltac:(lia)) as H1.
    pose proof (H 2%nat ltac:(lia)) as H2. pose proof (H 3%nat ltac:(lia)) as H3. clear H.
    cbn in H0, H1, H2, H3. lunf. repeat split; lra.
  - intros (H0 & H1 & H2 & H3) i Hi. cbn in H0, H1, H2, H3. destruct i as [|[|[|[|i]]]]; [| | | |lia]; cbn; lunf; lra.
Qed.
Lemma proportional f Y : vz f <> 0 -> vx f * vz Y = vz f * vx Y -> vy f * vz Y = vz f * vy Y -> Y = vscale (vz Y / vz f) f.
Proof.
  destruct f as [a b c], Y as [x y z]. cbn. intros N H1 H2. lunf. f_equal.
  - apply (Rmult_eq_reg_r c); auto. field_simplify; auto. lra.
  - apply (Rmult_eq_reg_r c); auto. field_simplify; auto. lra.
  - field; auto.
Qed.
Lemma scale_parallel a b f g : cross f g <> v0 -> vscale a f = vscale b g -> a = 0 /\ b = 0.
Proof.
  intros N E. assert (H1 : vscale a (cross f g) = v0).
  { transitivity (cross (vscale a f) g); [lring|]. rewrite E. lring. }
  assert (H2 : vscale b (cross f g) = v0).
  { transitivity (cross f (vscale b g)); [lring|]. rewrite <- E. lring. }
  split.
  - destruct (Req_dec a 0); auto. exfalso. apply N. destruct (cross f g) as [x y z]. revert H1. lunf. intro Q. injection Q as Q1 Q2 Q3.
    f_equal; eapply Rmult_eq_reg_l; try eassumption; lra.
  - destruct (Req_dec b 0); auto. exfalso. apply N. destruct (cross f g) as [x y z]. revert H2. lunf. intro Q. injection Q as Q1 Q2 Q3.
    f_equal; eapply Rmult_eq_reg_l; try eassumption; lra.
Qed.

(** The true point is returned whatever decomposition the SVD computes, if the
    rays are not parallel and no bearing vector is orthogonal to the optical axis. *)
Theorem C38_exact : forall svdV R12 t12 f1 f2 X d1 d2 U s,
  is_gsvd 4 4 (triA R12 t12 f1 f2) U s (svdV (triA R12 t12 f1 f2)) ->
  rotation R12 -> vz f1 <> 0 -> vz f2 <> 0 -> ~ parallel f1 (mv R12 f2) ->
  X = vscale d1 f1 -> X = vadd (mv R12 (vscale d2 f2)) t12 ->
  triangulate svdV R12 t12 f1 f2 = Some X.
Proof.
  intros svdV R12 t12 f1 f2 X d1 d2 U s H [Ro _] N1 N2 NP E1 E2.
  unfold triangulate. set (V := svdV (triA R12 t12 f1 f2)) in *.
  assert (Oo : mmul R12 (mT R12) = mid) by (now apply orth_r).
  assert (RtR : forall v, mv R12 (mv (mT R12) v) = v).
  { intro v. transitivity (mv (mmul R12 (mT R12)) v); [lring|]. rewrite Oo. lring. }
  assert (RRt : forall v, mv (mT R12) (mv R12 v) = v).
  { intro v. transitivity (mv (mmul (mT R12) R12) v); [lring|]. rewrite Ro. lring. }
  (* the homogeneous true point is in the kernel *)
  set (x := fun k => match k with 3%nat => 1 | k => ventry X k end).
  assert (K : forall i, (i < 4)%nat -> mvec 4 (triA R12 t12 f1 f2) x i = 0).
  { apply triA_kernel. cbn [x ventry].
    assert (EX : V3 (vx X) (vy X) (vz X) = X) by (destruct X; auto).
    assert (EZ : mv (mT R12) (vsub X (vscale 1 t12)) = vscale d2 f2).
    { transitivity (mv (mT R12) (mv R12 (vscale d2 f2))); [|apply RRt]. apply f_equal. rewrite E2. lring. }
    rewrite EX, EZ, E1. clear. destruct f1, f2. cbn. repeat split; ring. }
  assert (K3 := gsvd_last_kernel 4 4 _ U V s H x ltac:(lia) K ltac:(exists 3%nat; split; [lia|cbn; lra])).
  cbn [Nat.sub] in K3. apply triA_kernel in K3. unfold gcol in K3.
  set (Y := V3 (V 0%nat 3%nat) (V 1%nat 3%nat) (V 2%nat 3%nat)) in *. set (w := V 3%nat 3%nat) in *.
  destruct K3 as (A1 & A2 & A3 & A4).
  pose proof (proportional f1 Y N1 A1 A2) as PY. pose proof (proportional f2 _ N2 A3 A4) as PZ.
  set (a := vz Y / vz f1) in *. set (b := vz (mv (mT R12) (vsub Y (vscale w t12))) / vz f2) in *.
  assert (PZ' : vsub Y (vscale w t12) = vscale b (mv R12 f2)).
  { rewrite <- (RtR (vsub Y (vscale w t12))), PZ. clearbody a b. lring. }
  assert (YX : Y = vscale w X).
  { assert (D : vscale (a - w * d1) f1 = vscale (b - w * d2) (mv R12 f2)).
    { transitivity (vsub Y (vscale w X)); [rewrite PY at 1; rewrite E1; clearbody a b w; lring|].
      transitivity (vsub (vsub Y (vscale w t12)) (vscale w (vsub X t12))); [clearbody a b w; lring|].
      rewrite PZ'. rewrite E2. clearbody a b w. lring. }
    destruct (scale_parallel _ _ _ _ NP D) as [D1 D2]. rewrite PY at 1. rewrite E1.
    replace a with (w * d1) by lra. lring. }
  destruct (Req_EM_T w 0) as [W|W].
  - exfalso. assert (Z : vdot 4 (gcol V 3) (gcol V 3) = 0).
    { assert (Y0 : Y = v0) by (rewrite YX, W; lring). unfold Y in Y0. injection Y0 as Y1 Y2 Y3.
      unfold vdot, gcol. cbn. fold w. rewrite Y1, Y2, Y3, W. ring. }
    rewrite (gorth_unit 4 V 3 (gsvd_V _ _ _ _ _ _ H) ltac:(lia)) in Z. lra.
  - apply f_equal. rewrite YX. clear - W. destruct X. lunf. f_equal; field; auto.
Qed.

(** The hypotheses are met, for a decomposition that exists by [gsvd_exists]. *)
Example C38_nonvacuous : exists svdV U s,
  is_gsvd 4 4 (triA mid (V3 6 0 0) (V3 (3/5) 0 (4/5)) (V3 (-3/5) 0 (4/5))) U s (svdV (triA mid (V3 6 0 0) (V3 (3/5) 0 (4/5)) (V3 (-3/5) 0 (4/5))))
  /\ triangulate svdV mid (V3 6 0 0) (V3 (3/5) 0 (4/5)) (V3 (-3/5) 0 (4/5)) = Some (V3 3 0 4).
Proof.
  destruct (gsvd_exists 4 4 (triA mid (V3 6 0 0) (V3 (3/5) 0 (4/5)) (V3 (-3/5) 0 (4/5)))) as (U & s & V & H).
  exists (fun _ => V), U, s. split; auto. apply (C38_exact _ _ _ _ _ _ 5 5 U s H).
  - split; [apply orth_id|lunf; lra].
  - cbn; lra.
  - cbn; lra.
  - unfold parallel. lunf. intro Q. linj Q. lra.
  - lunf. f_equal; lra.
  - lunf. f_equal; lra.
Qed.

(** Violated for bearing vectors orthogonal to the optical axis (which
    omnidirectional cameras do produce): with f1 = (1,0,0) two of the rows are
    dependent, and a valid decomposition makes the result infinite. *)
Definition trR : mat3 := M3 1 0 0  0 0 1  0 (-1) 0.
Definition trt : vec3 := V3 1 (-1) 0.
Definition trV (i j : nat) : R :=
  match i, j with
  | 0%nat, 1%nat => / sqrt 2 | 0%nat, 2%nat => / sqrt 2 | 1%nat, 3%nat => 1 | 2%nat, 0%nat => 1
  | 3%nat, 1%nat => - / sqrt 2 | 3%nat, 2%nat => / sqrt 2
  | _, _ => 0
  end.
Definition trU (i j : nat) : R :=
  match i, j with
  | 0%nat, 0%nat => / sqrt 2 | 3%nat, 0%nat => / sqrt 2 | 2%nat, 1%nat => -1 | 1%nat, 2%nat => 1
  | 0%nat, 3%nat => / sqrt 2 | 3%nat, 3%nat => - / sqrt 2
  | _, _ => 0
  end.
Definition trs (i : nat) : R := match i with 0%nat => sqrt 2 | 1%nat => sqrt 2 | _ => 0 end.
Theorem C38_orthogonal_bearing_refuted :
  let f1 := V3 1 0 0 in let f2 := V3 0 0 1 in let X := V3 1 0 0 in
  rotation trR /\ unit f1 /\ unit f2 /\ ~ parallel f1 (mv trR f2) /\
  X = vscale 1 f1 /\ X = vadd (mv trR (vscale 1 f2)) trt /\
  is_gsvd 4 4 (triA trR trt f1 f2) trU trs trV /\
  triangulate (fun _ => trV) trR trt f1 f2 = None.
Proof.
  cbv zeta. assert (Q : / sqrt 2 * / sqrt 2 = / 2).
  { rewrite <- Rinv_mult. now rewrite sqrt_sqrt by lra. }
  assert (Q2 : sqrt 2 * / sqrt 2 = 1) by (apply Rinv_r; pose proof (sqrt_lt_R0 2); lra).
  assert (P2 : 0 < sqrt 2) by (apply sqrt_lt_R0; lra).
  split; [|split; [|split; [|split; [|split; [|split; [|split]]]]]].
  - split; [unfold trR; lunf; f_equal; lra|unfold trR; lunf; lra].
  - lunf. lra.
  - lunf. lra.
  - unfold trR, parallel. lunf. intro H. linj H. lra.
  - lunf. f_equal; lra.
  - unfold trR, trt. lunf. f_equal; lra.
  - assert (Dl : forall P : nat -> nat -> Prop, (P 0 0 /\ P 0 1 /\ P 0 2 /\ P 0 3 /\ P 1 0 /\ P 1 1 /\ P 1 2 /\ P 1 3 /\ P 2 0 /\ P 2 1 /\ P 2 2 /\ P 2 3 /\ P 3 0 /\ P 3 1 /\ P 3 2 /\ P 3 3)%nat ->
      forall i j, (i < 4)%nat -> (j < 4)%nat -> P i j).
    { intros P H i j Hi Hj. destruct i as [|[|[|[|i]]]]; [| | | |lia]; (destruct j as [|[|[|[|j]]]]; [| | | |lia]); tauto. }
    constructor.
    + split; apply Dl; repeat split; unfold vdot, delta, gcol; cbn; try ring; lra.
    + split; apply Dl; repeat split; unfold vdot, delta, gcol; cbn; try ring; lra.
    + intros k Hk. destruct k as [|[|k]]; cbn; lra.
    + intros k l Hkl Hl. destruct k as [|[|k]], l as [|[|l]]; cbn; try lra; lia.
    + apply Dl. repeat split; unfold trR, trt; cbn; lunf; cbn; try ring; try lra; nra.
  - unfold triangulate. cbn. destruct (Req_EM_T 0 0); [auto|lra].
Qed.
