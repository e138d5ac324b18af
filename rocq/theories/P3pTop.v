(** C42: p3p_kneip, the theorems. *)
From Coq Require Import Reals Lra List Lia.
From Verif Require Import Lin Cplx SturmProofs GeoModel RootsModel RootsProps P3pModel P3pProps.
Import ListNotations.
Local Open Scope R_scope.

Definition all_nan : list (option pose) := [None; None; None; None].

(** the ordered problem, in the form of the section of P3pProps *)
Section Top.
Variables (csqrt ccbrt : cx -> cx).
Hypotheses (Hsq : is_csqrt csqrt) (Hcb : is_ccbrt ccbrt).

(** the root finder either finds all roots or returns NaN *)
Lemma o4_cases A B C D E : A <> 0 ->
  (o4_roots csqrt ccbrt A B C D E = None) \/
  exists zs, factorises [A; B; C; D; E] zs /\ o4_roots csqrt ccbrt A B C D E = Some (map re zs) /\ length zs = 4%nat /\
    forall x, A * x ^ 4 + B * x ^ 3 + C * x ^ 2 + D * x + E = 0 -> In x (map re zs).
Proof.
  intro HA. destruct (ceqb (o4_w csqrt ccbrt (o4_alpha A B C) (o4_beta A B C D) (o4_gamma A B C D E)) c0) as [Z|Z].
  - left. unfold o4_roots, o4_complex. destruct (Req_EM_T A 0); [contradiction|]. unfold o4_w in Z.
    fold (o4_w csqrt ccbrt (o4_alpha A B C) (o4_beta A B C D) (o4_gamma A B C D E)) in *.
    destruct (ceqb _ c0) as [_|N]; [reflexivity|contradiction].
  - right. destruct (C36_quartic_w csqrt ccbrt Hsq Hcb A B C D E HA Z) as (r1 & r2 & r3 & r4 & Eq & F).
    exists [r1; r2; r3; r4]. split; auto. split; [unfold o4_roots; now rewrite Eq|]. split; auto.
    intros x H. apply re_in. apply (factorises_real _ _ F HA). cbn. lra.
Qed.

Definition collinear (P1 P2 P3 : vec3) : Prop := cross (vsub P2 P1) (vsub P3 P1) = v0.
(** the pose X sees the third point along its bearing or against the mirrored one *)
Definition fits_third (f1 f2 f3 P3 : vec3) (X : pose) : Prop :=
  exists l3, 0 <= l3 /\ (sees X f3 P3 l3 \/ sees X (vneg (mirrored f1 f2 f3)) P3 l3).
(** what holds of a list of returned transformations *)
Definition real_root_fits (f1 f2 f3 P1 P2 P3 : vec3) (out : list (option pose)) : Prop :=
  exists p zs, hd 0 p <> 0 /\ length p = 5%nat /\ factorises p zs /\ length zs = 4%nat /\
    (forall X l1 l2, rotation (pR X) -> sees X f1 P1 l1 -> sees X f2 P2 l2 -> 0 < l1 -> 0 < l2 ->
       fits_third f1 f2 f3 P3 X -> peval p (plane_cos f1 f2 P1 P2 P3 X) = 0) /\
    forall i X, nth i out None = Some X -> plane_cos f1 f2 P1 P2 P3 X = re (nth i zs c0) /\
      (im (nth i zs c0) = 0 -> fits_third f1 f2 f3 P3 X).
(** the camera does not see the third point on the right cylinder over the
    circle through the camera and the first two points *)
Definition off_cylinder (f1 f2 f3 : vec3) (l1 l2 l3 : R) : Prop :=
  l1 * (dot f1 f3 - dot f1 f2 * dot f2 f3) + l2 * (dot f2 f3 - dot f1 f2 * dot f1 f3)
  <> l3 * (dot f1 f3 ^ 2 + dot f2 f3 ^ 2 - 2 * dot f1 f2 * dot f1 f3 * dot f2 f3).

Lemma nth_map_some {A} (g : R -> option A) zs i X : nth i (map g (map re zs)) None = Some X ->
  exists w, nth i zs c0 = w /\ g (re w) = Some X.
Proof.
  revert i. induction zs as [|w zs IH]; intros [|i] H; cbn in *; try discriminate.
  - eauto.
  - auto.
Qed.
Lemma nth_in_list {A} (l : list A) i x : nth_error l i = Some x -> In x l.
Proof. apply nth_error_In. Qed.
Lemma mirror_T f1 f2 T f3 : unit f1 -> unit f2 -> kneip_T f1 f2 = Some T ->
  mv (mT T) (V3 (- vx (mv T f3)) (- vy (mv T f3)) (vz (mv T f3))) = vneg (mirrored f1 f2 f3).
Proof.
  intros U1 U2 E. destruct (T_spec f1 f2 T U1 U2 E) as (RT&sb&Hsb&_&_&_&Tz&Ty&Tx&Esb).
  unfold mirrored. set (n := normalized (cross f1 f2)) in *.
  assert (NZ : cross f1 f2 <> v0).
  { intro Z. rewrite Z in Esb. replace (norm v0) with 0 in Esb; [lra|]. symmetry. now apply cross_zero_norm. }
  assert (En : cross f1 f2 = vscale (norm (cross f1 f2)) n) by now apply norm_normalized.
  rewrite <- Esb in En.
  assert (O1 : dot f1 n = 0).
  { apply (Rmult_eq_reg_l sb); [|lra]. rewrite <- dot_scale_r, <- En, dot_cross_l. ring. }
  assert (O2 : dot f2 n = 0).
  { apply (Rmult_eq_reg_l sb); [|lra]. rewrite <- dot_scale_r, <- En, dot_cross_r. ring. }
  assert (Tn : mv T n = V3 0 0 1).
  { apply vext; cbn [vx vy vz].
    - rewrite Tx. exact O1.
    - apply (Rmult_eq_reg_l sb); [|lra]. rewrite Ty, O1, O2. ring.
    - rewrite Tz. apply normalized_unit. exact NZ. }
  rewrite <- (rot_T_mv T (vneg (vsub f3 (vscale (2 * dot n f3) n)))) by auto. f_equal.
  rewrite mv_neg, mv_sub, mv_scale, Tn, <- Tz. generalize (mv T f3). clear. intros [x y w].
  unfold vneg, vsub, vscale; cbn [vx vy vz]. f_equal; ring.
Qed.

Lemma T_normal f1 f2 T : unit f1 -> unit f2 -> kneip_T f1 f2 = Some T -> mv T (normalized (cross f1 f2)) = V3 0 0 1.
Proof.
  intros U1 U2 ET. destruct (T_spec f1 f2 T U1 U2 ET) as (RT&sb&Hsb&Ecs&T1&T2&Tz&Ty&Tx&En).
  assert (NZ : cross f1 f2 <> v0).
  { intro Z. rewrite Z in En. replace (norm v0) with 0 in En; [lra|]. symmetry. now apply cross_zero_norm. }
  set (n := normalized (cross f1 f2)) in *.
  assert (Ec : cross f1 f2 = vscale sb n) by (rewrite En; now apply norm_normalized).
  assert (O1 : dot f1 n = 0).
  { apply (Rmult_eq_reg_l sb); [|lra]. rewrite <- dot_scale_r, <- Ec, dot_cross_l. ring. }
  assert (O2 : dot f2 n = 0).
  { apply (Rmult_eq_reg_l sb); [|lra]. rewrite <- dot_scale_r, <- Ec, dot_cross_r. ring. }
  apply vext; cbn [vx vy vz].
  - rewrite Tx. exact O1.
  - apply (Rmult_eq_reg_l sb); [|lra]. rewrite Ty, O1, O2. ring.
  - rewrite Tz. apply normalized_unit. exact NZ.
Qed.
Lemma N_normal N a c d p1 p2 : rotation N -> 0 < d -> 0 < p2 -> mv N a = V3 d 0 0 -> mv N c = V3 p1 p2 0 ->
  mv N (normalized (cross a c)) = V3 0 0 1.
Proof.
  intros RN Hd Hp Ea Ec. assert (E : mv N (cross a c) = V3 0 0 (d * p2)).
  { rewrite rot_cross, Ea, Ec by auto. lunf. f_equal; ring. }
  assert (Pp : 0 < d * p2) by now apply Rmult_lt_0_compat.
  assert (Nn : norm (cross a c) = d * p2).
  { unfold norm. rewrite <- (rot_norm2 N) by auto. rewrite E. replace (norm2 (V3 0 0 (d * p2))) with ((d * p2) * (d * p2)) by (clear; lunf; ring).
    apply sqrt_square. lra. }
  assert (E2 : mv N (cross a c) = vscale (d * p2) (mv N (normalized (cross a c)))).
  { rewrite <- mv_scale, <- Nn, <- norm_normalized; auto. intro Z. rewrite Z, mv_0 in E. injection E. lra. }
  rewrite E in E2. destruct (mv N (normalized (cross a c))) as [x y w]. unfold vscale in E2. cbn [vx vy vz] in E2. injection E2. intros.
  f_equal; apply (Rmult_eq_reg_l (d * p2)); lra.
Qed.

Section Ordered.
Variables (f1 f2 f3 P1 P2 P3 : vec3) (T : mat3).
Hypotheses (U1 : unit f1) (U2 : unit f2) (ET : kneip_T f1 f2 = Some T) (NC : ~ collinear P1 P2 P3)
  (Hz : vz (mv T f3) < 0).
Let out := kneip_core csqrt ccbrt T f1 f2 (mv T f3) P1 P2 P3 (norm (vsub P2 P1)).

Lemma core_all :
  length out = 4%nat /\
  (forall X, In (Some X) out -> rotation (pR X) /\ exists l1 l2, sees X f1 P1 l1 /\ sees X f2 P2 l2 /\ 0 < l2) /\
  (out = all_nan \/ real_root_fits f1 f2 f3 P1 P2 P3 out) /\
  (dot f2 f3 = dot f1 f2 * dot f1 f3 -> out = all_nan) /\
  (forall X l1 l2 l3, rotation (pR X) -> sees X f1 P1 l1 -> sees X f2 P2 l2 -> sees X f3 P3 l3 -> 0 < l2 -> 0 < l3 ->
     dot f2 f3 <> dot f1 f2 * dot f1 f3 -> off_cylinder f1 f2 f3 l1 l2 l3 -> out = all_nan \/ In (Some X) out).
Proof.
  destruct (T_spec f1 f2 T U1 U2 ET) as (RT&sb&Hsb&Ecs&T1&T2&Tz&Ty&Tx&_).
  destruct (N_spec P1 P2 P3 NC) as (N&p1&p2&EN&RN&Hp2&Hd&N2&N3).
  set (d := norm (vsub P2 P1)) in *.
  unfold out, kneip_core. rewrite EN, N3. cbn [vx vy]. rewrite (b_spec _ sb Hsb Ecs).
  destruct (Req_EM_T (vz (mv T f3)) 0) as [|_]; [lra|].
  set (z := vz (mv T f3)) in *. set (f_1 := vx (mv T f3) / z). set (f_2 := vy (mv T f3) / z).
  set (cb := dot f1 f2) in *. set (b := cb / sb).
  assert (HA : kneip_A f_1 f_2 p2 <> 0).
  { unfold kneip_A. replace (- f_2 ^ 2 * p2 ^ 4 - p2 ^ 4 * f_1 ^ 2 - p2 ^ 4) with (- (p2 ^ 4 * (f_1 ^ 2 + f_2 ^ 2 + 1))) by ring.
    assert (0 < p2 ^ 4 * (f_1 ^ 2 + f_2 ^ 2 + 1)).
    { apply Rmult_lt_0_compat; [now apply pow_lt|]. pose proof (pow2_ge_0 f_1). pose proof (pow2_ge_0 f_2). lra. }
    lra. }
  assert (Snd := fun r S => sol_sound T N f1 f2 f3 P1 P2 P3 cb sb p1 p2 d RT RN Hsb T1 T2 Hp2 Hd N2 N3 Hz r S).
  assert (Cmp := fun S l1 l2 l3 => sol_complete T N f1 f2 f3 P1 P2 P3 cb sb p1 p2 d RT RN Hsb Ecs T1 T2 Hp2 Hd N2 N3 Hz S l1 l2 l3).
  cbv zeta in Snd, Cmp. fold z in Snd, Cmp. fold f_1 f_2 in Snd, Cmp. fold b in Snd, Cmp.
  assert (Y : sb * (f_2 * z) = dot f2 f3 - cb * dot f1 f3).
  { rewrite <- Ty. unfold f_2. field. lra. }
  assert (Xx : f_1 * z = dot f1 f3) by (rewrite <- Tx; unfold f_1; field; lra).
  destruct (o4_cases (kneip_A f_1 f_2 p2) (kneip_B f_1 f_2 p2 d b) (kneip_C f_1 f_2 p1 p2 d b)
     (kneip_D f_1 f_2 p1 p2 d b) (kneip_E f_1 f_2 p1 p2 d b) HA) as [E|(zs&Fz&E&L&Cz)]; rewrite E.
  { split; auto. split; [intros X [H|[H|[H|[H|[]]]]]; discriminate|]. split; [left; reflexivity|]. split; [reflexivity|]. intros; left; reflexivity. }
  assert (Zn : f_2 = 0 -> map (kneip_solution T N P1 f_1 f_2 p1 p2 d b) (map re zs) = all_nan).
  { intro Z2. assert (Zs : forall r, kneip_solution T N P1 f_1 f_2 p1 p2 d b r = None).
    { intro r. unfold kneip_solution, kneip_cot. destruct (Req_EM_T f_2 0); [auto|contradiction]. }
    destruct zs as [|z1 [|z2 [|z3 [|z4 [|]]]]]; try discriminate. cbn [map]. rewrite !Zs. reflexivity. }
  assert (Tn : mv T (normalized (cross f1 f2)) = V3 0 0 1) by now apply T_normal.
  assert (Nm : mv N (normalized (cross (vsub P2 P1) (vsub P3 P1))) = V3 0 0 1).
  { apply (N_normal N (vsub P2 P1) (vsub P3 P1) d p1 p2); auto. }
  assert (Cos := fun r S => sol_cos T N f3 P1 cb sb p1 p2 d RN (normalized (cross f1 f2)) (normalized (cross (vsub P2 P1) (vsub P3 P1))) r S Tn Nm).
  assert (Rt := fun S f e l1 l2 l3 => sol_root T N f1 f2 f3 P1 P2 P3 cb sb p1 p2 d RT RN Hsb T1 T2 Hd N2 N3 (normalized (cross f1 f2)) (normalized (cross (vsub P2 P1) (vsub P3 P1))) S f e l1 l2 l3 Tn Nm).
  cbv zeta in Cos, Rt. fold z in Cos, Rt. fold f_1 f_2 in Cos, Rt. fold b in Cos, Rt.
  assert (Mir : mv T (vneg (mirrored f1 f2 f3)) = vscale z (V3 (-1 * f_1) (-1 * f_2) 1)).
  { rewrite <- (mirror_T f1 f2 T f3 U1 U2 ET), rot_mv_T by auto. fold z. unfold vscale; cbn [vx vy vz]. unfold f_1, f_2. f_equal; field; lra. }
  assert (Dir : mv T f3 = vscale z (V3 (1 * f_1) (1 * f_2) 1)).
  { apply vext; unfold vscale; cbn [vx vy vz]; unfold f_1, f_2; [field; lra|field; lra|fold z; ring]. }
  split; [now rewrite !map_length|]. split; [|split; [|split]].
  - intros X H. apply in_map_iff in H. destruct H as (r&H&_). destruct (Snd r X H) as (A&B&_). auto.
  - destruct (Req_EM_T f_2 0) as [Z2|Nf]; [left; auto|right].
    do 2 eexists. split; [|split; [|split; [exact Fz|split; [auto|split]]]]; auto.
    { intros X l1 l2 RX S1 S2 _ L2 (l3&_&S3).
      assert (Q : kquartic f_1 f_2 p1 p2 d b (plane_cos f1 f2 P1 P2 P3 X) = 0).
      { unfold plane_cos. destruct S3 as [S3|S3]; [apply (Rt X f3 1 l1 l2 l3)|apply (Rt X (vneg (mirrored f1 f2 f3)) (-1) l1 l2 l3)]; auto. }
      unfold kquartic in Q. cbn. lra. }
    intros i X H. assert (H' := H). apply nth_map_some in H. destruct H as (w&Ew&H).
    split; [unfold plane_cos; rewrite Ew; now apply Cos|]. intro Hi. rewrite Ew in Hi.
    destruct (Snd (re w) X H) as (_&_&K).
    assert (Q : kquartic f_1 f_2 p1 p2 d b (re w) = 0).
    { assert (peval [kneip_A f_1 f_2 p2; kneip_B f_1 f_2 p2 d b; kneip_C f_1 f_2 p1 p2 d b;
        kneip_D f_1 f_2 p1 p2 d b; kneip_E f_1 f_2 p1 p2 d b] (re w) = 0).
      { apply (factorises_real _ _ Fz HA). replace (RtoC (re w)) with w by (destruct w; cbn in *; now subst).
        rewrite <- Ew. apply nth_In. destruct (Nat.lt_ge_cases i (length zs)) as [|G]; auto.
        exfalso. rewrite nth_overflow in H'; [discriminate|]. now rewrite !map_length. }
      unfold kquartic. cbn in H0. lra. }
    destruct (K Q) as (l3&Hl&[S|S]); exists l3; split; auto. right.
    rewrite <- (mirror_T f1 f2 T f3 U1 U2 ET). fold z.
    replace (- vx (mv T f3)) with (- f_1 * z) by (unfold f_1; field; lra).
    replace (- vy (mv T f3)) with (- f_2 * z) by (unfold f_2; field; lra). exact S.
  - intro R. apply Zn. assert (K : sb * z * f_2 = 0) by (rewrite R in Y; lra). apply Rmult_integral in K. destruct K as [K|K]; auto.
    apply Rmult_integral in K. lra.
  - intros X l1 l2 l3 RX S1 S2 S3 L2 L3 NR OC. right.
    destruct (Cmp X l1 l2 l3 RX S1 S2 S3 L2 L3) as (r&Q&K).
    { intro Z2. apply NR. rewrite Z2 in Y. lra. }
    apply in_map_iff. exists r. split; [|apply Cz; exact Q]. apply K. intro Eq. apply OC.
    rewrite Xx in Eq. assert (Yy : f_2 * z = (dot f2 f3 - cb * dot f1 f3) / sb) by (rewrite <- Y; field; lra).
    rewrite Yy in Eq. unfold b in Eq. fold cb. clear - Eq Ecs Hsb. revert Eq. generalize (dot f1 f3) (dot f2 f3). intros u v Eq.
    assert (Sq : sb ^ 2 = 1 - cb ^ 2) by lra.
    transitivity ((l1 * (u - cb / sb * ((v - cb * u) / sb)) + l2 * ((v - cb * u) / sb) / sb) * sb ^ 2).
    + transitivity (l1 * (u * sb ^ 2 - cb * (v - cb * u)) + l2 * (v - cb * u)); [rewrite Sq; ring|field; lra].
    + rewrite Eq. transitivity (l3 * (u ^ 2 * sb ^ 2 + (v - cb * u) ^ 2)); [field; lra|rewrite Sq; ring].
Qed.
End Ordered.

(** ** The theorems *)
Lemma norm_swap a b : norm (vsub a b) = norm (vsub b a).
Proof. unfold norm. f_equal. lring. Qed.
Lemma mirrored_swap f1 f2 f : cross f1 f2 <> v0 -> mirrored f2 f1 f = mirrored f1 f2 f.
Proof.
  intro NZ. unfold mirrored. replace (cross f2 f1) with (vscale (-1) (cross f1 f2)) by (clear; lring).
  rewrite normalized_scale_neg by (auto; lra). generalize (normalized (cross f1 f2)). clear. lring.
Qed.
Lemma collinear_swap P1 P2 P3 : collinear P2 P1 P3 -> collinear P1 P2 P3.
Proof.
  unfold collinear. intro H. transitivity (vneg (cross (vsub P1 P2) (vsub P3 P2))); [clear; lring|].
  rewrite H. clear. lring.
Qed.
Lemma plane_cos_swap f1 f2 P1 P2 P3 X : cross f1 f2 <> v0 -> ~ collinear P1 P2 P3 ->
  plane_cos f2 f1 P2 P1 P3 X = plane_cos f1 f2 P1 P2 P3 X.
Proof.
  intros N1 N2. unfold plane_cos. replace (cross f2 f1) with (vscale (-1) (cross f1 f2)) by (clear; lring).
  replace (cross (vsub P1 P2) (vsub P3 P2)) with (vscale (-1) (cross (vsub P2 P1) (vsub P3 P1))) by (clear; lring).
  rewrite !normalized_scale_neg by (auto; lra). generalize (normalized (cross f1 f2)) (normalized (cross (vsub P2 P1) (vsub P3 P1))).
  destruct X as [Q C]. cbn [pR]. clear. intros. lring.
Qed.
Lemma dot_vz f1 f2 T f3 : unit f1 -> unit f2 -> kneip_T f1 f2 = Some T ->
  norm (cross f1 f2) * vz (mv T f3) = dot (cross f1 f2) f3 /\ 0 < norm (cross f1 f2).
Proof.
  intros U1 U2 E. destruct (T_spec f1 f2 T U1 U2 E) as (_&sb&Hsb&_&_&_&Tz&_&_&->). split; auto.
  rewrite Tz. rewrite <- dot_scale_l, <- norm_normalized; auto.
  intro Z. rewrite Z in Hsb. replace (norm v0) with 0 in Hsb; [lra|]. symmetry. now apply cross_zero_norm.
Qed.
Lemma kneip_T_some f1 f2 : ~ parallel f1 f2 -> exists T, kneip_T f1 f2 = Some T.
Proof.
  intro H. unfold kneip_T, normalize. destruct (Req_EM_T (norm (cross f1 f2)) 0) as [Z|Z]; eauto.
  apply cross_zero_norm in Z. contradiction.
Qed.

(** No transformation for collinear points, four otherwise. *)
Theorem C42_number : forall f1 f2 f3 P1 P2 P3,
  (collinear P1 P2 P3 -> p3p_kneip csqrt ccbrt f1 f2 f3 P1 P2 P3 = []) /\
  (~ collinear P1 P2 P3 -> length (p3p_kneip csqrt ccbrt f1 f2 f3 P1 P2 P3) = 4%nat).
Proof.
  intros f1 f2 f3 P1 P2 P3. unfold p3p_kneip. split; intro H.
  - destruct (Req_EM_T _ 0) as [|N]; auto. exfalso. apply N. now apply cross_zero_norm.
  - destruct (Req_EM_T _ 0) as [Z|_]; [apply cross_zero_norm in Z; contradiction|].
    assert (K : forall T a b c Q1 Q2 Q3 d, length (kneip_core csqrt ccbrt T a b c Q1 Q2 Q3 d) = 4%nat).
    { intros. unfold kneip_core. destruct (kneip_N Q1 Q2 Q3); auto. destruct (Req_EM_T _ 0); auto.
      unfold o4_roots, o4_complex. destruct (Req_EM_T _ 0); auto. destruct (ceqb _ c0); auto. }
    destruct (kneip_T f1 f2); auto. destruct (Rlt_dec _ _); auto. destruct (kneip_T f2 f1); auto.
Qed.

(** the four facts of [core_all] for the problem in the given order *)
Lemma p3p_all f1 f2 f3 P1 P2 P3 : unit f1 -> unit f2 -> ~ collinear P1 P2 P3 ->
  let out := p3p_kneip csqrt ccbrt f1 f2 f3 P1 P2 P3 in
  (parallel f1 f2 \/ dot (cross f1 f2) f3 = 0 -> out = all_nan) /\
  (forall X, In (Some X) out -> rotation (pR X) /\ exists l1 l2, sees X f1 P1 l1 /\ sees X f2 P2 l2 /\ (0 < l1 \/ 0 < l2)) /\
  (out = all_nan \/ real_root_fits f1 f2 f3 P1 P2 P3 out) /\
  (dot (cross f1 f2) f3 < 0 -> dot f2 f3 = dot f1 f2 * dot f1 f3 -> out = all_nan) /\
  (0 < dot (cross f1 f2) f3 -> dot f1 f3 = dot f1 f2 * dot f2 f3 -> out = all_nan) /\
  (forall X l1 l2 l3, rotation (pR X) -> sees X f1 P1 l1 -> sees X f2 P2 l2 -> sees X f3 P3 l3 ->
     0 < l1 -> 0 < l2 -> 0 < l3 -> dot (cross f1 f2) f3 <> 0 -> off_cylinder f1 f2 f3 l1 l2 l3 ->
     (dot (cross f1 f2) f3 < 0 -> dot f2 f3 <> dot f1 f2 * dot f1 f3) ->
     (0 < dot (cross f1 f2) f3 -> dot f1 f3 <> dot f1 f2 * dot f2 f3) ->
     out = all_nan \/ In (Some X) out).
Proof.
  intros U1 U2 NC out. unfold out, p3p_kneip.
  destruct (Req_EM_T _ 0) as [Z|_]; [apply cross_zero_norm in Z; contradiction|].
  assert (Nan : forall X, ~ In (Some X) all_nan) by (intros X [H|[H|[H|[H|[]]]]]; discriminate).
  destruct (kneip_T f1 f2) as [T|] eqn:ET.
  2:{ assert (Par : parallel f1 f2).
      { unfold kneip_T, normalize in ET. destruct (Req_EM_T _ 0) as [Z|]; [|discriminate]. now apply cross_zero_norm in Z. }
      assert (D0 : dot (cross f1 f2) f3 = 0) by (rewrite Par; lring).
      split; auto. split; [intros X H; now apply Nan in H|]. auto 10. }
  destruct (dot_vz f1 f2 T f3 U1 U2 ET) as [Dz Pn].
  assert (NP : ~ parallel f1 f2).
  { intro Par. rewrite Par in Pn. replace (norm v0) with 0 in Pn; [lra|]. symmetry. now apply cross_zero_norm. }
  destruct (T_swap f1 f2 T U1 U2 ET) as (T'&ET'&Sw).
  destruct (Rlt_dec 0 (vz (mv T f3))) as [Pz|Nz].
  - rewrite ET'.
    assert (Hz' : vz (mv T' f3) < 0) by (rewrite Sw; lra).
    assert (NC' : ~ collinear P2 P1 P3) by (intro H; apply NC; now apply collinear_swap).
    destruct (core_all f2 f1 f3 P2 P1 P3 T' U2 U1 ET' NC' Hz') as (K1&K2&K3&K4&K5).
    rewrite (norm_swap P1 P2) in *. set (o := kneip_core _ _ _ _ _ _ _ _ _ _) in *.
    assert (Dp : 0 < dot (cross f1 f2) f3) by (rewrite <- Dz; now apply Rmult_lt_0_compat).
    rewrite (dot_comm f2 f1) in *.
    split; [intros [H|H]; [contradiction|lra]|].
    split; [intros X H; destruct (K2 X H) as (RX&a&b&Sa&Sb&Hb); split; auto; exists b, a; auto|].
    split; [|split; [lra|split; [auto|]]].
    + destruct K3 as [K3|(p&zs&H1&H2&H3&H4&H6&H5)]; auto. right. exists p, zs. repeat (split; [auto; fail|]).
      assert (Fs : forall X, fits_third f2 f1 f3 P3 X <-> fits_third f1 f2 f3 P3 X).
      { intro X. unfold fits_third. rewrite mirrored_swap by auto. tauto. }
      split.
      * intros X l1 l2 RX S1 S2 L1 L2 F. rewrite <- plane_cos_swap by auto. apply (H6 X l2 l1); auto. now apply Fs.
      * intros i X Hi. destruct (H5 i X Hi) as (G1&G2). rewrite <- plane_cos_swap by auto. split; auto. intro Q. apply Fs. auto.
    + intros X l1 l2 l3 RX S1 S2 S3 L1 L2 L3 _ OC _ C2. apply (K5 X l2 l1 l3); auto.
      unfold off_cylinder in *. rewrite (dot_comm f2 f1). intro Q. apply OC. lra.
  - destruct (Req_EM_T (vz (mv T f3)) 0) as [Z|NZ].
    { assert (D0 : dot (cross f1 f2) f3 = 0) by (rewrite <- Dz, Z; ring).
      assert (Eo : kneip_core csqrt ccbrt T f1 f2 (mv T f3) P1 P2 P3 (norm (vsub P2 P1)) = all_nan).
      { unfold kneip_core. destruct (N_spec P1 P2 P3 NC) as (N&p1&p2&EN&_). rewrite EN.
        destruct (Req_EM_T _ 0); [reflexivity|contradiction]. }
      rewrite Eo. split; auto. split; [intros X H; now apply Nan in H|]. auto 10. }
    assert (Hz : vz (mv T f3) < 0) by lra.
    destruct (core_all f1 f2 f3 P1 P2 P3 T U1 U2 ET NC Hz) as (K1&K2&K3&K4&K5).
    set (o := kneip_core _ _ _ _ _ _ _ _ _ _) in *.
    assert (Dp : dot (cross f1 f2) f3 < 0).
    { rewrite <- Dz. assert (0 < norm (cross f1 f2) * - vz (mv T f3)) by (apply Rmult_lt_0_compat; lra). lra. }
    split; [intros [H|H]; [contradiction|lra]|].
    split; [intros X H; destruct (K2 X H) as (RX&a&b&Sa&Sb&Hb); split; auto; exists a, b; auto|].
    split; auto. split; auto. split; [lra|].
    intros X l1 l2 l3 RX S1 S2 S3 L1 L2 L3 _ OC C1 _. apply (K5 X l1 l2 l3); auto.
Qed.

(** Every returned finite transformation is a rigid motion that puts the first
    two points on their rays, at least one of them in front of the camera. *)
Theorem C42_first_two_points : forall f1 f2 f3 P1 P2 P3 X, unit f1 -> unit f2 ->
  In (Some X) (p3p_kneip csqrt ccbrt f1 f2 f3 P1 P2 P3) ->
  rotation (pR X) /\ exists l1 l2, sees X f1 P1 l1 /\ sees X f2 P2 l2 /\ (0 < l1 \/ 0 < l2).
Proof.
  intros f1 f2 f3 P1 P2 P3 X U1 U2 H.
  assert (NC : ~ collinear P1 P2 P3).
  { intro C. rewrite (proj1 (C42_number f1 f2 f3 P1 P2 P3) C) in H. destruct H. }
  destruct (p3p_all f1 f2 f3 P1 P2 P3 U1 U2 NC) as (_&K&_). now apply K.
Qed.
(** The i-th transformation comes from the i-th root of a polynomial of degree
    four, the cosine of the angle between the plane of the first two rays and
    the plane of the points; the cosines of all poses that fit are roots.  If
    the root is real, the third point is seen, in front of the camera, along its
    own bearing or against the bearing mirrored at the plane of the other two. *)
Theorem C42_third_point : forall f1 f2 f3 P1 P2 P3, unit f1 -> unit f2 -> ~ collinear P1 P2 P3 ->
  let out := p3p_kneip csqrt ccbrt f1 f2 f3 P1 P2 P3 in
  out = all_nan \/
  exists p zs, hd 0 p <> 0 /\ length p = 5%nat /\ factorises p zs /\ length zs = 4%nat /\
    (forall X l1 l2, rotation (pR X) -> sees X f1 P1 l1 -> sees X f2 P2 l2 -> 0 < l1 -> 0 < l2 ->
       fits_third f1 f2 f3 P3 X -> peval p (plane_cos f1 f2 P1 P2 P3 X) = 0) /\
    forall i X, nth i out None = Some X -> plane_cos f1 f2 P1 P2 P3 X = re (nth i zs c0) /\
      (im (nth i zs c0) = 0 -> fits_third f1 f2 f3 P3 X).
Proof. intros f1 f2 f3 P1 P2 P3 U1 U2 NC. apply (p3p_all f1 f2 f3 P1 P2 P3 U1 U2 NC). Qed.
(** Noise-free data: unless all four results are NaN, the true pose is one of
    them. *)
Theorem C42_true_pose : forall f1 f2 f3 P1 P2 P3 X l1 l2 l3, unit f1 -> unit f2 -> ~ collinear P1 P2 P3 ->
  rotation (pR X) -> sees X f1 P1 l1 -> sees X f2 P2 l2 -> sees X f3 P3 l3 -> 0 < l1 -> 0 < l2 -> 0 < l3 ->
  dot (cross f1 f2) f3 <> 0 -> off_cylinder f1 f2 f3 l1 l2 l3 ->
  (dot (cross f1 f2) f3 < 0 -> dot f2 f3 <> dot f1 f2 * dot f1 f3) ->
  (0 < dot (cross f1 f2) f3 -> dot f1 f3 <> dot f1 f2 * dot f2 f3) ->
  let out := p3p_kneip csqrt ccbrt f1 f2 f3 P1 P2 P3 in out = all_nan \/ In (Some X) out.
Proof.
  intros f1 f2 f3 P1 P2 P3 X l1 l2 l3 U1 U2 NC RX S1 S2 S3 L1 L2 L3 D OC C1 C2.
  destruct (p3p_all f1 f2 f3 P1 P2 P3 U1 U2 NC) as (_&_&_&_&_&K). apply (K X l1 l2 l3); auto.
Qed.
(** The excluded cases: for bearings in a plane, and when the spherical
    triangle of the bearings has a right angle at the wrong corner (for
    instance for mutually orthogonal bearings), all results are NaN. *)
Theorem C42_right_angle_refuted : forall f1 f2 f3 P1 P2 P3, unit f1 -> unit f2 -> ~ collinear P1 P2 P3 ->
  dot (cross f1 f2) f3 = 0 \/
  (dot (cross f1 f2) f3 < 0 /\ dot f2 f3 = dot f1 f2 * dot f1 f3) \/
  (0 < dot (cross f1 f2) f3 /\ dot f1 f3 = dot f1 f2 * dot f2 f3) ->
  p3p_kneip csqrt ccbrt f1 f2 f3 P1 P2 P3 = all_nan.
Proof.
  intros f1 f2 f3 P1 P2 P3 U1 U2 NC H.
  destruct (p3p_all f1 f2 f3 P1 P2 P3 U1 U2 NC) as (A&_&_&B&C&_). destruct H as [H|[[H G]|[H G]]]; auto.
Qed.
End Top.
