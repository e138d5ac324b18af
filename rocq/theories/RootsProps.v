(** C36: closed-form cubic and quartic roots. *)
From Coq Require Import Reals Lra Psatz List Field.
From Verif Require Import Cplx SturmModel SturmProofs SturmBoundProofs RootsModel.
Import ListNotations.
Local Open Scope R_scope.

(** * Specification *)
(** value of the polynomial with real coefficients p (descending) at a complex point *)
Definition cpoly (p : list R) (z : cx) : cx := fold_left (fun acc c => cadd (cmul acc z) (RtoC c)) p c0.
(** [zs] are all complex roots, with multiplicity. *)
Definition factorises (p : list R) (zs : list cx) : Prop :=
  forall z, cpoly p z = fold_left (fun acc r => cmul acc (csub z r)) zs (RtoC (hd 0 p)).

Lemma cpoly_real p x : cpoly p (RtoC x) = RtoC (peval p x).
Proof.
  unfold cpoly. assert (G : forall p a, fold_left (fun acc c => cadd (cmul acc (RtoC x)) (RtoC c)) p (RtoC a) = RtoC (a * x ^ length p + peval p x)).
  { clear. induction p as [|c p IH]; intro a; cbn [fold_left peval length].
    - f_equal. cbn. ring.
    - rewrite <- RtoC_mul, <- RtoC_add, IH. f_equal. cbn. ring. }
  unfold c0. rewrite G. f_equal. ring.
Qed.
Lemma fold_zero zs : fold_left (fun acc r => cmul acc r) zs c0 = c0.
Proof. induction zs as [|z zs IH]; cbn; auto. replace (cmul c0 z) with c0 by ring. auto. Qed.
Lemma prod_zero z : forall zs k, fold_left (fun acc r => cmul acc (csub z r)) zs k = c0 -> k = c0 \/ In z zs.
Proof.
  induction zs as [|r zs IH]; intros k H; cbn in H; auto.
  destruct (IH _ H) as [K|K]; [|right; now right].
  apply cmul_eq_0 in K. destruct K as [K|K]; auto. right. left. now apply csub_eq_0 in K.
Qed.
Lemma prod_root z : forall zs k, In z zs -> fold_left (fun acc r => cmul acc (csub z r)) zs k = c0.
Proof.
  induction zs as [|r zs IH]; intros k H; [destruct H|]. cbn. destruct H as [->|H]; auto.
  replace (cmul k (csub z z)) with c0 by ring. clear IH. induction zs as [|s zs IH]; cbn; auto. now replace (cmul c0 (csub z s)) with c0 by ring.
Qed.
(** the real roots are among the real parts; each real member is a root *)
Lemma factorises_real p zs : factorises p zs -> hd 0 p <> 0 -> forall x, peval p x = 0 <-> In (RtoC x) zs.
Proof.
  intros F N x. specialize (F (RtoC x)). rewrite cpoly_real in F. split; intro H.
  - rewrite H in F. symmetry in F. apply prod_zero in F. destruct F as [F|F]; auto. exfalso. apply (RtoC_neq _ N). exact F.
  - rewrite (prod_root _ _ _ H) in F. now apply RtoC_inj in F.
Qed.

(** * Cube roots *)
Lemma third_root x : 0 <= x -> rpow x (1 / 3) ^ 3 = x.
Proof. intro H. pose proof (rpow_root x 2 H) as E. replace (INR 3) with 3 in E by (cbn; ring). exact E. Qed.
Lemma cos3 x : cos x = 4 * cos (x / 3) ^ 3 - 3 * cos (x / 3).
Proof.
  replace (cos x) with (cos (2 * (x / 3) + x / 3)) by (f_equal; field). rewrite cos_plus, cos_2a, sin_2a.
  pose proof (sin2_cos2 (x / 3)) as H. unfold Rsqr in H. set (s := sin (x / 3)) in *. set (c := cos (x / 3)) in *.
  assert (E : s * s = 1 - c * c) by lra. replace ((c * c - s * s) * c - 2 * s * c * s) with (c * c * c - 3 * (s * s) * c) by ring. rewrite E. ring.
Qed.
Lemma sin3 x : sin x = 3 * sin (x / 3) - 4 * sin (x / 3) ^ 3.
Proof.
  replace (sin x) with (sin (2 * (x / 3) + x / 3)) by (f_equal; field). rewrite sin_plus, cos_2a, sin_2a.
  pose proof (sin2_cos2 (x / 3)) as H. unfold Rsqr in H. set (s := sin (x / 3)) in *. set (c := cos (x / 3)) in *.
  assert (E : c * c = 1 - s * s) by lra. replace (2 * s * c * c + (c * c - s * s) * s) with (3 * (c * c) * s - s * s * s) by ring. rewrite E. ring.
Qed.
Lemma polar_cube r a : let C := Cx (r * cos (a / 3)) (r * sin (a / 3)) in
  cmul (cmul C C) C = Cx (r ^ 3 * cos a) (r ^ 3 * sin a).
Proof.
  cbn zeta. rewrite (cos3 a), (sin3 a). pose proof (sin2_cos2 (a / 3)) as H. unfold Rsqr in H.
  set (s := sin (a / 3)) in *. set (c := cos (a / 3)) in *. apply cx_eq; cbn.
  - assert (E : s * s = 1 - c * c) by lra.
    replace ((r * c * (r * c) - r * s * (r * s)) * (r * c) - (r * c * (r * s) + r * s * (r * c)) * (r * s)) with (r * r * r * (c * c * c - 3 * (s * s) * c)) by ring.
    rewrite E. ring.
  - assert (E : c * c = 1 - s * s) by lra.
    replace ((r * c * (r * c) - r * s * (r * s)) * (r * s) + (r * c * (r * s) + r * s * (r * c)) * (r * c)) with (r * r * r * (3 * (c * c) * s - s * s * s)) by ring.
    rewrite E. ring.
Qed.
(** the angle computed by the code *)
Lemma polar_atan x y : 0 < y -> let r := sqrt (x ^ 2 + y ^ 2) in
  let a := (let a3 := atan_ratio y x in if Rlt_dec x 0 then a3 + PI else a3) in
  r * cos a = x /\ r * sin a = y.
Proof.
  intros Hy r a. assert (Hr : 0 < x ^ 2 + y ^ 2) by nra.
  unfold a, atan_ratio. destruct (Req_EM_T x 0) as [->|Nx].
  - destruct (Rlt_dec 0 0); [lra|]. unfold r. rewrite cos_PI2, sin_PI2.
    replace (0 ^ 2 + y ^ 2) with (y * y) by ring. rewrite sqrt_square by lra. lra.
  - set (t := y / x). assert (Et : t * x = y) by (unfold t; field; auto).
    assert (Hs : 0 < sqrt (1 + t²)) by (apply sqrt_lt_R0; pose proof (Rle_0_sqr t); lra).
    assert (Er : r = sqrt (1 + t²) * Rabs x).
    { unfold r. rewrite <- sqrt_Rsqr_abs, <- sqrt_mult; [|pose proof (Rle_0_sqr t); lra|apply Rle_0_sqr].
      f_equal. unfold Rsqr. rewrite <- Et. ring. }
    destruct (Rlt_dec x 0) as [Lx|Lx].
    + rewrite neg_cos, neg_sin, cos_atan, sin_atan. rewrite Er, Rabs_left by auto. split.
      * field. lra.
      * replace y with (t * x) by auto. field. lra.
    + rewrite cos_atan, sin_atan. rewrite Er, Rabs_pos_eq by lra. split.
      * field. lra.
      * replace y with (t * x) by auto. field. lra.
Qed.

(** The number C of the cubic solver: C^3 = K with K^2 - theta_1 K + theta_0^3 = 0. *)
Lemma o3_C_cube a b c d : let C := o3_C a b c d in let K := cmul (cmul C C) C in
  cadd (csub (cmul K K) (cmul (RtoC (theta_1 a b c d)) K)) (RtoC (theta_0 a b c ^ 3)) = c0.
Proof.
  unfold o3_C. set (t0 := theta_0 a b c). set (t1 := theta_1 a b c d). cbv zeta.
  set (term := t1 * t1 - 4 * t0 * t0 * t0). destruct (Rge_dec term 0) as [H|H].
  - assert (S : sqrt term * sqrt term = t1 * t1 - 4 * t0 * t0 * t0) by (rewrite sqrt_sqrt; [reflexivity|lra]).
    set (s := sqrt term) in *. set (C3 := 1 / 2 * (t1 + s)).
    assert (Q : C3 * C3 - t1 * C3 + t0 ^ 3 = 0).
    { replace (C3 * C3 - t1 * C3 + t0 ^ 3) with ((s * s - t1 * t1) / 4 + t0 ^ 3) by (unfold C3; field). rewrite S. field. }
    assert (E : exists u, u * u * u = C3 /\ (if Rlt_dec C3 0 then Cx (- rpow (- C3) (1 / 3)) 0 else Cx (rpow C3 (1 / 3)) 0) = Cx u 0).
    { destruct (Rlt_dec C3 0) as [L|L].
      - exists (- rpow (- C3) (1 / 3)). split; auto. pose proof (third_root (- C3) ltac:(lra)) as T. cbn in T. lra.
      - exists (rpow C3 (1 / 3)). split; auto. pose proof (third_root C3 ltac:(lra)) as T. cbn in T. lra. }
    destruct E as (u & Eu & ->).
    replace (cmul (cmul (Cx u 0) (Cx u 0)) (Cx u 0)) with (RtoC C3) by (apply cx_eq; cbn; [rewrite <- Eu|]; ring).
    rewrite <- !RtoC_mul, <- RtoC_sub, <- RtoC_add. unfold c0. now rewrite Q.
  - cbn [re im].
    assert (Hs : 0 < sqrt (- term)) by (apply sqrt_lt_R0; lra).
    assert (S : sqrt (- term) * sqrt (- term) = - term) by (apply sqrt_sqrt; lra).
    set (s := sqrt (- term)) in *. set (x := 1 / 2 * t1). set (y := 1 / 2 * s).
    destruct (polar_atan x y ltac:(unfold y; lra)) as [P1 P2]. cbv zeta in P1, P2.
    set (r3 := sqrt (x ^ 2 + y ^ 2)) in *. set (a3 := if Rlt_dec x 0 then atan_ratio y x + PI else atan_ratio y x) in *.
    rewrite polar_cube, third_root by apply sqrt_pos. rewrite P1, P2.
    apply cx_eq; cbn; unfold x, y, term in *.
    + replace (1 / 2 * t1 * (1 / 2 * t1) - 1 / 2 * s * (1 / 2 * s) + - (t1 * (1 / 2 * t1) - 0 * (1 / 2 * s)) + t0 * (t0 * (t0 * 1)))
        with (- (s * s) / 4 - t1 * t1 / 4 + t0 * t0 * t0) by field. rewrite S. field.
    + field.
Qed.
Lemma o3_C_zero a b c d : o3_C a b c d = c0 <-> theta_0 a b c = 0 /\ theta_1 a b c d <= 0.
Proof.
  pose proof (o3_C_cube a b c d) as K. cbv zeta in K. split.
  - intro H. rewrite H in K. assert (T0 : theta_0 a b c = 0).
    { apply (f_equal re) in K. cbn in K. assert (E : theta_0 a b c ^ 3 = 0) by (cbn; lra).
      destruct (Req_dec (theta_0 a b c) 0); auto. exfalso. apply (pow_nonzero _ 3 H0). exact E. }
    split; auto. revert H. unfold o3_C. rewrite T0. set (t1 := theta_1 a b c d).
    destruct (Rge_dec _ 0) as [G|G]; [|nra].
    replace (t1 * t1 - 4 * 0 * 0 * 0) with (t1 * t1) by ring.
    destruct (Rle_dec t1 0) as [|N]; auto. intro H. exfalso. revert H. rewrite sqrt_square by lra.
    destruct (Rlt_dec _ 0); [lra|]. intro H. injection H as H.
    pose proof (third_root (1 / 2 * (t1 + t1)) ltac:(lra)) as T. rewrite H in T. cbn in T. lra.
  - intros [T0 T1]. unfold o3_C. rewrite T0. set (t1 := theta_1 a b c d) in *.
    replace (t1 * t1 - 4 * 0 * 0 * 0) with (t1 * t1) by ring.
    destruct (Rge_dec _ 0) as [G|G]; [|nra].
    replace (t1 * t1) with ((- t1) * (- t1)) by ring. rewrite sqrt_square by lra.
    replace (1 / 2 * (t1 + - t1)) with 0 by ring. destruct (Rlt_dec 0 0); [lra|]. unfold rpow. destruct (Req_EM_T 0 0); [reflexivity|contradiction].
Qed.

(** * C36: the cubic *)
Lemma omega_facts : cmul u2 u2 = u3 /\ cmul u2 u3 = c1 /\ cadd (cadd u1 u2) u3 = c0 /\ cmul u3 u3 = u2.
Proof.
  assert (S : sqrt 3 * sqrt 3 = 3) by (apply sqrt_sqrt; lra).
  repeat split; apply cx_eq; cbn.
  all: match goal with |- ?l = ?r => apply Rminus_diag_uniq; replace (l - r) with ((l - r)) by ring end.
  - replace (- (1 / 2) * - (1 / 2) - 1 / 2 * sqrt 3 * (1 / 2 * sqrt 3) - - (1 / 2)) with (3/4 - sqrt 3 * sqrt 3 / 4) by field. rewrite S. field.
  - field.
  - replace (- (1 / 2) * - (1 / 2) - 1 / 2 * sqrt 3 * (- (1 / 2) * sqrt 3) - 1) with (-3/4 + sqrt 3 * sqrt 3 / 4) by field. rewrite S. field.
  - field.
  - field.
  - field.
  - replace (- (1 / 2) * - (1 / 2) - - (1 / 2) * sqrt 3 * (- (1 / 2) * sqrt 3) - - (1 / 2)) with (3/4 - sqrt 3 * sqrt 3 / 4) by field. rewrite S. field.
  - field.
Qed.
(** the cubic form *)
Lemma cubic_form o o' Y S T : cmul o o = o' -> cmul o o' = c1 -> cadd (cadd c1 o) o' = c0 -> cmul o' o' = o ->
  cmul (cmul (cadd Y (cadd S T)) (cadd Y (cadd (cmul o S) (cmul o' T)))) (cadd Y (cadd (cmul o' S) (cmul o T)))
  = (Y * Y * Y + S * S * S + T * T * T - RtoC 3 * Y * S * T)%cx.
Proof.
  intros H1 H2 H3 H4. assert (Eo : o' = (- c1 - o)%cx).
  { transitivity (cadd (csub c0 c1) (copp o)); [|ring]. rewrite <- H3. ring. }
  assert (E2 : cmul o o = (- c1 - o)%cx) by (rewrite H1; exact Eo).
  assert (E3 : RtoC 3 = cadd c1 (cadd c1 c1)) by (apply cx_eq; cbn; ring). rewrite E3. clear E3 H1 H2 H3 H4. subst o'.
  ring [E2].
Qed.

Theorem C36_cubic : forall a b c d, a <> 0 -> ~ (theta_0 a b c = 0 /\ theta_1 a b c d <= 0) ->
  exists r1 r2 r3, o3_complex a b c d = Some [r1; r2; r3] /\ factorises [a; b; c; d] [r1; r2; r3].
Proof.
  intros a b c d Ha Hc. unfold o3_complex. destruct (Req_EM_T a 0); [contradiction|].
  destruct (ceqb (o3_C a b c d) c0) as [Z|Z]; [apply o3_C_zero in Z; contradiction|].
  pose proof (o3_C_cube a b c d) as K. cbv zeta in K. set (C := o3_C a b c d) in *. clearbody C.
  do 3 eexists. split; [reflexivity|]. intro z. cbn [fold_left cpoly hd].
  destruct omega_facts as (W1 & W2 & W3 & W4).
  assert (U1 : u1 = c1) by reflexivity. rewrite U1 in W3.
  assert (N2 : u2 <> c0) by (intro Q; rewrite Q in W2; apply c1_neq_c0; rewrite <- W2; ring).
  assert (N3 : u3 <> c0) by (intro Q; rewrite Q in W2; apply c1_neq_c0; rewrite <- W2; ring).
  assert (I2 : cinv u2 = u3). { transitivity (cmul (cinv u2) (cmul u2 u3)); [rewrite W2; ring|field; auto]. }
  assert (I3 : cinv u3 = u2). { transitivity (cmul (cinv u3) (cmul u2 u3)); [rewrite W2; ring|field; auto]. }
  set (t0 := theta_0 a b c) in *. set (t1 := theta_1 a b c d) in *.
  set (ac := RtoC a). assert (Na : ac <> c0) by (now apply RtoC_neq). set (th := RtoC 3).
  assert (Nth : th <> c0) by (apply RtoC_neq; lra).
  assert (R : forall u, u <> c0 -> csub z (o3_root a b c C u) =
    cdiv (cadd (cadd (cmul (cmul th ac) z) (RtoC b)) (cadd (cmul u C) (cmul (cinv u) (cdiv (RtoC t0) C)))) (cmul th ac)).
  { intros u Nu. unfold o3_root. fold t0. rewrite RtoC_opp. rewrite RtoC_div by lra. rewrite RtoC_mul. fold ac th.
    change (RtoC 1) with c1. field. repeat split; auto. }
  rewrite !R by (auto; rewrite U1; apply c1_neq_c0). rewrite I2, I3, U1.
  replace (cinv c1) with c1 by (field; apply c1_neq_c0).
  set (Y := (th * ac * z + RtoC b)%cx). set (S := C). set (T := cdiv (RtoC t0) C).
  pose proof (cubic_form u2 u3 Y S T W1 W2 W3 W4) as F.
  transitivity (ac * ((Y + (S + T)) * (Y + (u2 * S + u3 * T)) * (Y + (u3 * S + u2 * T)) / (th * ac * (th * ac) * (th * ac))))%cx.
  2: { unfold S, T, Y. field. repeat split; auto. }
  rewrite F.
  assert (E1 : (S * S * S + T * T * T)%cx = RtoC t1).
  { set (KK := cmul (cmul C C) C) in *. assert (NK : KK <> c0).
    { intro Q. unfold KK in Q. apply cmul_eq_0 in Q. destruct Q as [Q|Q]; auto. apply cmul_eq_0 in Q. tauto. }
    assert (E : (T * T * T)%cx = cdiv (RtoC (t0 ^ 3)) KK).
    { unfold T, KK. replace (t0 ^ 3) with (t0 * t0 * t0) by ring. rewrite !RtoC_mul. field. auto. }
    rewrite E. change (S * S * S)%cx with KK. apply csub_eq_0.
    transitivity ((KK * KK - RtoC t1 * KK + RtoC (t0 ^ 3)) / KK)%cx; [field; auto|]. rewrite K. field. auto. }
  assert (E2 : cmul S T = RtoC t0) by (unfold S, T; field; auto).
  replace (Y * Y * Y + S * S * S + T * T * T - RtoC 3 * Y * S * T)%cx with (Y * Y * Y + (S * S * S + T * T * T) - RtoC 3 * Y * (S * T))%cx by ring.
  rewrite E1, E2. unfold Y, t0, t1, theta_0, theta_1. fold th.
  unfold c0 at 1. replace (RtoC 0 * z)%cx with (RtoC 0) by (apply cx_eq; cbn; ring).
  repeat rewrite ?RtoC_add, ?RtoC_sub, ?RtoC_mul. fold th ac.
  assert (H3 : th = (c1 + c1 + c1)%cx) by (apply cx_eq; cbn; ring).
  replace (RtoC 9) with (th * th)%cx by (apply cx_eq; cbn; ring). replace (RtoC 27) with (th * th * th)%cx by (apply cx_eq; cbn; ring).
  replace (RtoC 2) with (th - c1)%cx by (apply cx_eq; cbn; ring). change (RtoC 0) with c0.
  set (bb := RtoC b). set (cc := RtoC c). set (dd := RtoC d).
  clearbody th. subst th. clear - Na Nth. field. split; auto. intro Q. injection Q. lra.
Qed.

Lemma re_in x zs : In (RtoC x) zs -> In x (map re zs).
Proof. intro H. apply (in_map re) in H. exact H. Qed.
Lemma real_is z : im z = 0 -> z = RtoC (re z).
Proof. intro H. now apply cx_eq. Qed.

(** o3_roots returns three numbers among which are all real roots; the first is
    always a root, and all three are if there are three distinct real roots
    (negative [term]). *)
Theorem C36_cubic_real : forall a b c d, a <> 0 -> ~ (theta_0 a b c = 0 /\ theta_1 a b c d <= 0) ->
  exists x1 x2 x3, o3_roots a b c d = Some [x1; x2; x3]
    /\ (forall x, a * x ^ 3 + b * x ^ 2 + c * x + d = 0 -> x = x1 \/ x = x2 \/ x = x3)
    /\ (theta_1 a b c d ^ 2 < 4 * theta_0 a b c ^ 3 ->
         a * x1 ^ 3 + b * x1 ^ 2 + c * x1 + d = 0 /\ a * x2 ^ 3 + b * x2 ^ 2 + c * x2 + d = 0 /\ a * x3 ^ 3 + b * x3 ^ 2 + c * x3 + d = 0)
    /\ a * x1 ^ 3 + b * x1 ^ 2 + c * x1 + d = 0.
Proof.
  intros a b c d Ha Hc. destruct (C36_cubic a b c d Ha Hc) as (r1 & r2 & r3 & E & F).
  pose proof (factorises_real _ _ F Ha) as Fr.
  assert (Ev : forall x, peval [a; b; c; d] x = a * x ^ 3 + b * x ^ 2 + c * x + d) by (intro; cbn; ring).
  exists (re r1), (re r2), (re r3). unfold o3_roots. rewrite E. split; [reflexivity|].
  split; [|].
  { intros x H. rewrite <- Ev in H. apply Fr in H. apply re_in in H. cbn in H. intuition. }
  unfold o3_complex in E. destruct (Req_EM_T a 0); [contradiction|].
  destruct (ceqb (o3_C a b c d) c0) as [Z|Z]; [discriminate|].
  assert (Root : forall r, In r [r1; r2; r3] -> im r = 0 -> a * re r ^ 3 + b * re r ^ 2 + c * re r + d = 0).
  { intros r Hr I. rewrite <- Ev. apply Fr. now rewrite <- real_is. }
  assert (Neg : theta_1 a b c d ^ 2 < 4 * theta_0 a b c ^ 3 -> forall u, re u * re u + im u * im u = 1 -> im (o3_root a b c (o3_C a b c d) u) = 0).
  { intros T u Hu.
    assert (A : re (o3_C a b c d) ^ 2 + im (o3_C a b c d) ^ 2 = theta_0 a b c).
    { unfold o3_C. set (t0 := theta_0 a b c) in *. set (t1 := theta_1 a b c d) in *. clearbody t0 t1. cbv zeta.
      destruct (Rge_dec _ 0) as [G|G]; [cbn in T; lra|]. cbn [re im].
      assert (Ex : (1 / 2 * t1) ^ 2 + (1 / 2 * sqrt (- (t1 * t1 - 4 * t0 * t0 * t0))) ^ 2 = t0 ^ 3).
      { replace ((1 / 2 * sqrt (- (t1 * t1 - 4 * t0 * t0 * t0))) ^ 2) with (sqrt (- (t1 * t1 - 4 * t0 * t0 * t0)) * sqrt (- (t1 * t1 - 4 * t0 * t0 * t0)) / 4) by field.
        rewrite sqrt_sqrt by lra. field. }
      rewrite Ex. set (an := if Rlt_dec _ 0 then _ else _).
      set (r := rpow (sqrt (t0 ^ 3)) (1 / 3)). pose proof (sin2_cos2 (an / 3)) as SC. unfold Rsqr in SC.
      replace ((r * cos (an / 3)) ^ 2 + (r * sin (an / 3)) ^ 2) with (r ^ 2 * (sin (an / 3) * sin (an / 3) + cos (an / 3) * cos (an / 3))) by ring.
      rewrite SC, Rmult_1_r.
      assert (H0 : 0 < t0). { destruct (Rlt_dec 0 t0); auto. assert (t0 ^ 3 <= 0) by (cbn; nra). cbn in T. nra. }
      assert (R6 : (r ^ 2) ^ 3 = t0 ^ 3).
      { replace ((r ^ 2) ^ 3) with (r ^ 3 * r ^ 3) by ring. unfold r. rewrite third_root by apply sqrt_pos. apply sqrt_sqrt. apply pow_le. lra. }
      assert (0 <= r ^ 2) by (rewrite <- Rsqr_pow2; apply Rle_0_sqr).
      assert (Fz : (r ^ 2 - t0) * ((r ^ 2) ^ 2 + r ^ 2 * t0 + t0 ^ 2) = 0).
      { replace ((r ^ 2 - t0) * ((r ^ 2) ^ 2 + r ^ 2 * t0 + t0 ^ 2)) with ((r ^ 2) ^ 3 - t0 ^ 3) by ring. lra. }
      apply Rmult_integral in Fz. destruct Fz as [Fz|Fz]; [lra|]. exfalso. nra. }
    set (C := o3_C a b c d) in *. unfold o3_root. rewrite <- A.
    assert (NC : 0 < re C * re C + im C * im C) by (now apply cnorm_pos).
    assert (NU : (re u * re C - im u * im C) * (re u * re C - im u * im C) + (re u * im C + im u * re C) * (re u * im C + im u * re C) = re C * re C + im C * im C).
    { transitivity ((re u * re u + im u * im u) * (re C * re C + im C * im C)); [ring|]. rewrite Hu. ring. }
    cbn [re im cmul cadd cdiv cinv RtoC]. rewrite NU. field. lra. }
  assert (Un : forall u, In u [u1; u2; u3] -> re u * re u + im u * im u = 1).
  { assert (S3 : sqrt 3 * sqrt 3 = 3) by (apply sqrt_sqrt; lra).
    intros u [<-|[<-|[<-|[]]]]; cbn.
    - ring.
    - replace (- (1 / 2) * - (1 / 2) + 1 / 2 * sqrt 3 * (1 / 2 * sqrt 3)) with (1/4 + sqrt 3 * sqrt 3 / 4) by field. rewrite S3. field.
    - replace (- (1 / 2) * - (1 / 2) + - (1 / 2) * sqrt 3 * (- (1 / 2) * sqrt 3)) with (1/4 + sqrt 3 * sqrt 3 / 4) by field. rewrite S3. field. }
  injection E as <- <- <-.
  split.
  - intro T. repeat split; apply Root; try (cbn; tauto); apply Neg; auto; apply Un; cbn; tauto.
  - apply Root; [now left|].
    destruct (Rlt_dec (theta_1 a b c d ^ 2) (4 * theta_0 a b c ^ 3)) as [T|T].
    + apply Neg; auto. apply Un. cbn. tauto.
    + assert (I : im (o3_C a b c d) = 0).
      { unfold o3_C. cbv zeta. destruct (Rge_dec _ 0) as [G|G].
        - destruct (Rlt_dec _ 0); reflexivity.
        - exfalso. apply T. cbn. lra. }
      set (C := o3_C a b c d) in *. pose proof (cnorm_pos C Z) as NC. rewrite I in NC.
      unfold o3_root. cbn [re im cmul cadd cdiv cinv RtoC u1]. rewrite I. field. split; nra.
Qed.
(** x^3 - 6x^2 + 11x - 6 = (x-1)(x-2)(x-3) *)
Example C36_cubic_nonvacuous : 1 <> 0 /\ ~ (theta_0 1 (-6) 11 = 0 /\ theta_1 1 (-6) 11 (-6) <= 0)
  /\ theta_1 1 (-6) 11 (-6) ^ 2 < 4 * theta_0 1 (-6) 11 ^ 3.
Proof. unfold theta_0, theta_1. lra. Qed.
(** x^3 - 1: C = 0, the code divides by zero although 1 is a simple root. *)
Theorem C36_cubic_refuted : o3_roots 1 0 0 (-1) = None /\ 1 * 1 ^ 3 + 0 * 1 ^ 2 + 0 * 1 + -1 = 0.
Proof.
  split; [|ring]. unfold o3_roots, o3_complex. destruct (Req_EM_T 1 0); [lra|].
  destruct (ceqb (o3_C 1 0 0 (-1)) c0) as [|N]; [reflexivity|]. exfalso. apply N. apply o3_C_zero. unfold theta_0, theta_1. lra.
Qed.

(** * C36: the quartic *)
(** What is assumed of the complex square and cube roots of the library: they
    are roots, and the cube root (principal value) has real part 0 only at 0. *)
Definition is_csqrt (f : cx -> cx) : Prop := forall z, cmul (f z) (f z) = z.
Definition is_ccbrt (f : cx -> cx) : Prop := forall z, cmul (cmul (f z) (f z)) (f z) = z /\ (re (f z) = 0 -> f z = c0).

Ltac cside := repeat split; auto; let Q := fresh in intro Q; injection Q; lra.
Section Quartic.
Variables (csqrt ccbrt : cx -> cx).
Hypothesis Hsq : is_csqrt csqrt.
Hypothesis Hcb : is_ccbrt ccbrt.

Local Notation two := (RtoC 2).
Lemma two_c : two = (c1 + c1)%cx. Proof. apply cx_eq; cbn; ring. Qed.
Lemma c3_c : RtoC 3 = (c1 + c1 + c1)%cx. Proof. apply cx_eq; cbn; ring. Qed.

(** v^3 + P v + Q = 0 *)
Lemma o4_v alpha beta gamma : let P := o4_P alpha gamma in let Q := o4_Q alpha beta gamma in
  exists v, o4_y csqrt ccbrt alpha beta gamma = (RtoC (- (5) * alpha / 6) + v)%cx /\ (v * v * v + P * v + Q)%cx = c0.
Proof.
  intros P Q. unfold o4_y. fold P Q. set (D := (Q * Q / RtoC 4 + P * P * P / RtoC 27)%cx).
  set (s := csqrt D). assert (Es : cmul s s = D) by apply Hsq.
  set (r := (- Q / RtoC 2 + s)%cx). set (U := ccbrt r). destruct (Hcb r) as [EU ZU]. fold U in EU, ZU.
  assert (N2 : (c1 + c1)%cx <> c0) by (intro H; injection H; lra).
  assert (N3 : (c1 + c1 + c1)%cx <> c0) by (intro H; injection H; lra).
  assert (E4 : RtoC 4 = ((c1 + c1) * (c1 + c1))%cx) by (apply cx_eq; cbn; ring).
  assert (E27 : RtoC 27 = ((c1 + c1 + c1) * (c1 + c1 + c1) * (c1 + c1 + c1))%cx) by (apply cx_eq; cbn; ring).
  destruct (Req_EM_T (re U) 0) as [Z|Z].
  - (* U = 0: then P = 0 *)
    specialize (ZU Z). assert (Er : r = c0) by (rewrite <- EU, ZU; ring).
    assert (Sq : s = (Q / two)%cx).
    { transitivity (r + Q / two)%cx; [unfold r; rewrite two_c; field; cside|rewrite Er; ring]. }
    assert (P3 : (P * P * P)%cx = c0).
    { transitivity (RtoC 27 * (D - Q * Q / RtoC 4))%cx.
      - unfold D. rewrite E4, E27. field; cside.
      - rewrite <- Es, Sq, two_c, E4, E27. field; cside. }
    assert (P0 : P = c0).
    { apply cmul_eq_0 in P3. destruct P3 as [P3|P3]; auto. apply cmul_eq_0 in P3. tauto. }
    exists (- ccbrt Q)%cx. split; [ring|]. destruct (Hcb Q) as [EQ _]. rewrite P0.
    replace (- ccbrt Q * - ccbrt Q * - ccbrt Q + c0 * - ccbrt Q + Q)%cx with (Q - ccbrt Q * ccbrt Q * ccbrt Q)%cx by ring.
    rewrite EQ. ring.
  - assert (NU : U <> c0) by (intro H; apply Z; now rewrite H).
    exists (U - P / (RtoC 3 * U))%cx. split; [ring|].
    assert (Q3 : (U * U * U * (U * U * U) + Q * (U * U * U) - P * P * P / RtoC 27)%cx = c0).
    { rewrite EU. unfold r. transitivity (s * s - Q * Q / RtoC 4 - P * P * P / RtoC 27)%cx.
      - rewrite two_c, E4, E27. field; cside.
      - rewrite Es. unfold D. rewrite E4, E27. field; cside. }
    transitivity ((U * U * U * (U * U * U) + Q * (U * U * U) - P * P * P / RtoC 27) / (U * U * U))%cx.
    + rewrite c3_c, E27. field; cside.
    + rewrite Q3. field; cside.
Qed.
(** the resolvent equation *)
Lemma o4_resolvent alpha beta gamma : let y := o4_y csqrt ccbrt alpha beta gamma in
  ((RtoC alpha + two * y) * ((RtoC alpha + y) * (RtoC alpha + y) - RtoC gamma))%cx = RtoC (beta * beta / 4).
Proof.
  intro y. destruct (o4_v alpha beta gamma) as (v & Ey & Ev). unfold y. rewrite Ey.
  set (a := RtoC alpha). set (g := RtoC gamma). set (b := RtoC beta). 
  assert (N2 : (c1 + c1)%cx <> c0) by (intro H; injection H; lra).
  assert (N3 : (c1 + c1 + c1)%cx <> c0) by (intro H; injection H; lra).
  assert (EP : o4_P alpha gamma = (- (a * a) / RtoC 12 - g)%cx).
  { transitivity (RtoC (- (alpha * alpha) / 12 - gamma)); [reflexivity|]. rewrite RtoC_sub, RtoC_div, RtoC_opp, RtoC_mul by lra. reflexivity. }
  assert (EQ : o4_Q alpha beta gamma = (- (a * a * a) / RtoC 108 + a * g / RtoC 3 - b * b / RtoC 8)%cx).
  { transitivity (RtoC (- (alpha * alpha * alpha) / 108 + alpha * gamma / 3 - beta * beta / 8)).
    - apply cx_eq; cbn; field.
    - rewrite RtoC_sub, RtoC_add, !RtoC_div, RtoC_opp, !RtoC_mul by lra. reflexivity. }
  assert (E5 : RtoC (- (5) * alpha / 6) = (- RtoC 5 * a / RtoC 6)%cx) by (rewrite RtoC_div, RtoC_mul, RtoC_opp by lra; reflexivity).
  assert (E4 : RtoC (beta * beta / 4) = (b * b / RtoC 4)%cx) by (rewrite RtoC_div, RtoC_mul by lra; reflexivity).
  rewrite EP, EQ in Ev. rewrite E5, E4.
  set (t := (c1 + c1)%cx) in *. set (th := (c1 + c1 + c1)%cx) in *.
  replace two with t by (unfold t; apply cx_eq; cbn; ring).
  replace (RtoC 4) with (t * t)%cx by (unfold t; apply cx_eq; cbn; ring).
  replace (RtoC 6) with (t * th)%cx by (unfold t, th; apply cx_eq; cbn; ring).
  replace (RtoC 5) with (t + th)%cx by (unfold t, th; apply cx_eq; cbn; ring).
  replace (RtoC 12) with (t * t * th)%cx in Ev by (unfold t, th; apply cx_eq; cbn; ring).
  replace (RtoC 108) with (t * t * th * th * th)%cx in Ev by (unfold t, th; apply cx_eq; cbn; ring).
  replace (RtoC 3) with th in Ev by (unfold th; apply cx_eq; cbn; ring).
  replace (RtoC 8) with (t * t * t)%cx in Ev by (unfold t; apply cx_eq; cbn; ring).
  clearbody a g b. apply csub_eq_0.
  transitivity (t * (v * v * v + (- (a * a) / (t * t * th) - g) * v + (- (a * a * a) / (t * t * th * th * th) + a * g / th - b * b / (t * t * t))))%cx.
  - unfold t, th in *. clear - N2 N3. field; cside.
  - rewrite Ev. ring.
Qed.

Lemma o4_w_zero alpha beta gamma : o4_w csqrt ccbrt alpha beta gamma = c0 -> beta = 0.
Proof.
  intro W. unfold o4_w in W. pose proof (o4_resolvent alpha beta gamma) as Rs. cbv zeta in Rs.
  pose proof (Hsq (RtoC alpha + two * o4_y csqrt ccbrt alpha beta gamma)%cx) as S. rewrite W in S. rewrite <- S in Rs.
  assert (RtoC (beta * beta / 4) = RtoC 0) by (rewrite <- Rs; change (RtoC 0) with c0; ring). apply RtoC_inj in H. nra.
Qed.

(** The four complex numbers computed by o4_roots are exactly the roots of the
    quartic, unless w vanishes, which needs the quartic to be biquadratic after
    removing the cubic term. *)
Theorem C36_quartic_w : forall A B C D E, A <> 0 -> o4_w csqrt ccbrt (o4_alpha A B C) (o4_beta A B C D) (o4_gamma A B C D E) <> c0 ->
  exists r1 r2 r3 r4, o4_complex csqrt ccbrt A B C D E = Some [r1; r2; r3; r4] /\ factorises [A; B; C; D; E] [r1; r2; r3; r4].
Proof.
  intros A B C D E HA Hw. unfold o4_complex. destruct (Req_EM_T A 0); [contradiction|].
  set (alpha := o4_alpha A B C) in *. set (beta := o4_beta A B C D) in *. set (gamma := o4_gamma A B C D E) in *.
  destruct (ceqb _ c0) as [Z|_]; [contradiction|].
  pose proof (o4_resolvent alpha beta gamma) as Rs. cbv zeta in Rs.
  assert (W2 : cmul (o4_w csqrt ccbrt alpha beta gamma) (o4_w csqrt ccbrt alpha beta gamma) = (RtoC alpha + two * o4_y csqrt ccbrt alpha beta gamma)%cx) by apply Hsq.
  set (y := o4_y csqrt ccbrt alpha beta gamma) in *. set (w := o4_w csqrt ccbrt alpha beta gamma) in *.
  set (X1 := (- (RtoC (3 * alpha) + two * y + RtoC (2 * beta) / w))%cx).
  set (X2 := (- (RtoC (3 * alpha) + two * y - RtoC (2 * beta) / w))%cx).
  pose proof (Hsq X1) as S1. pose proof (Hsq X2) as S2. set (s1 := csqrt X1) in *. set (s2 := csqrt X2) in *.
  do 4 eexists. split; [reflexivity|]. intro z. cbn [fold_left cpoly hd].
  set (m := RtoC (- B / (4 * A))). set (h := RtoC (1 / 2)).
  set (u := csub z m).
  assert (Eh : forall q, csub z (m + h * q)%cx = csub u (h * q)%cx) by (intro; unfold u; ring).
  rewrite !Eh.
  set (a := RtoC alpha) in *. set (b := RtoC beta). set (g := RtoC gamma) in *.
  assert (N2 : (c1 + c1)%cx <> c0) by (intro H; injection H; lra).
  assert (E2 : h = cinv (c1 + c1)%cx) by (unfold h; apply cx_eq; cbn; field).
  assert (B4 : RtoC (beta * beta / 4) = (b * b / ((c1 + c1) * (c1 + c1)))%cx) by (unfold b; apply cx_eq; cbn; field).
  rewrite B4, <- W2 in Rs.
  assert (Ey : y = ((w * w - a) / (c1 + c1))%cx).
  { rewrite W2, two_c. field; cside. }
  (* the two quadratic factors *)
  assert (F1 : ((u - h * (w + s1)) * (u - h * (w - s1)) = u * u - w * u + a + y + b / ((c1 + c1) * w))%cx).
  { transitivity ((u - h * w) * (u - h * w) - h * h * (s1 * s1))%cx; [ring|]. rewrite S1. unfold X1.
    replace (RtoC (3 * alpha)) with ((c1 + c1 + c1) * a)%cx by (unfold a; apply cx_eq; cbn; ring).
    replace (RtoC (2 * beta)) with ((c1 + c1) * b)%cx by (unfold b; apply cx_eq; cbn; ring).
    rewrite E2, Ey, two_c. field; cside. }
  assert (F2 : ((u - h * (- w + s2)) * (u - h * (- w - s2)) = u * u + w * u + a + y - b / ((c1 + c1) * w))%cx).
  { transitivity ((u + h * w) * (u + h * w) - h * h * (s2 * s2))%cx; [ring|]. rewrite S2. unfold X2.
    replace (RtoC (3 * alpha)) with ((c1 + c1 + c1) * a)%cx by (unfold a; apply cx_eq; cbn; ring).
    replace (RtoC (2 * beta)) with ((c1 + c1) * b)%cx by (unfold b; apply cx_eq; cbn; ring).
    rewrite E2, Ey, two_c. field; cside. }
  transitivity (RtoC A * (((u - h * (w + s1)) * (u - h * (w - s1))) * ((u - h * (- w + s2)) * (u - h * (- w - s2)))))%cx; [|ring].
  rewrite F1, F2.
  assert (F : ((u * u - w * u + a + y + b / ((c1 + c1) * w)) * (u * u + w * u + a + y - b / ((c1 + c1) * w)) = u * u * u * u + a * u * u + b * u + g)%cx).
  { apply csub_eq_0.
    transitivity ((w * w * ((a + y) * (a + y) - g) - b * b / ((c1 + c1) * (c1 + c1))) / (w * w)
      + u * u * ((c1 + c1) * y + a - w * w))%cx.
    - field; cside.
    - rewrite Rs, Ey. field; cside. }
  rewrite F. clear F F1 F2.
  (* undepress *)
  assert (NA : RtoC A <> c0) by (now apply RtoC_neq).
  assert (Em : m = (- RtoC B / ((c1 + c1) * (c1 + c1) * RtoC A))%cx).
  { unfold m. rewrite RtoC_div, RtoC_opp, RtoC_mul by lra. f_equal. f_equal. apply cx_eq; cbn; ring. }
  assert (E8 : RtoC 8 = ((c1 + c1) * (c1 + c1) * (c1 + c1))%cx) by (apply cx_eq; cbn; ring).
  assert (E16 : RtoC 16 = ((c1 + c1) * (c1 + c1) * (c1 + c1) * (c1 + c1))%cx) by (apply cx_eq; cbn; ring).
  assert (E256 : RtoC 256 = ((c1 + c1) * (c1 + c1) * (c1 + c1) * (c1 + c1) * ((c1 + c1) * (c1 + c1) * (c1 + c1) * (c1 + c1)))%cx) by (apply cx_eq; cbn; ring).
  assert (E4 : RtoC 4 = ((c1 + c1) * (c1 + c1))%cx) by (apply cx_eq; cbn; ring).
  assert (E3 : RtoC (- 3) = (- (c1 + c1 + c1))%cx) by (apply cx_eq; cbn; ring).
  assert (PA : forall k, k <> 0 -> k * (A * A) <> 0) by (intros k Hk; repeat apply Rmult_integral_contrapositive_currified; auto).
  assert (PA3 : forall k, k <> 0 -> k * (A * A * A) <> 0) by (intros k Hk; repeat apply Rmult_integral_contrapositive_currified; auto).
  assert (PA4 : forall k, k <> 0 -> k * (A * A * A * A) <> 0) by (intros k Hk; repeat apply Rmult_integral_contrapositive_currified; auto).
  unfold u. rewrite Em. unfold a, b, g, alpha, beta, gamma, o4_alpha, o4_beta, o4_gamma.
  repeat rewrite ?RtoC_add, ?RtoC_sub. rewrite !RtoC_div by (auto; try apply PA; try apply PA3; try apply PA4; lra).
  repeat rewrite ?RtoC_mul. rewrite E3, two_c, E4, E8, E16, E256.
  unfold c0 at 1. clear - NA N2. change (RtoC 0) with c0. field; cside.
Qed.
(** In particular whenever beta <> 0. *)
Theorem C36_quartic : forall A B C D E, A <> 0 -> o4_beta A B C D <> 0 ->
  exists r1 r2 r3 r4, o4_complex csqrt ccbrt A B C D E = Some [r1; r2; r3; r4] /\ factorises [A; B; C; D; E] [r1; r2; r3; r4].
Proof. intros A B C D E HA Hb. apply C36_quartic_w; auto. intro W. apply o4_w_zero in W. contradiction. Qed.
(** Every real root is among the four returned numbers, which are the real
    parts of the four complex roots. *)
Theorem C36_quartic_real : forall A B C D E, A <> 0 -> o4_beta A B C D <> 0 ->
  exists zs, factorises [A; B; C; D; E] zs /\ o4_roots csqrt ccbrt A B C D E = Some (map re zs) /\ length zs = 4%nat
    /\ forall x, A * x ^ 4 + B * x ^ 3 + C * x ^ 2 + D * x + E = 0 -> In x (map re zs).
Proof.
  intros A B C D E HA Hb. destruct (C36_quartic A B C D E HA Hb) as (r1 & r2 & r3 & r4 & Eq & F).
  exists [r1; r2; r3; r4]. split; auto. split; [unfold o4_roots; now rewrite Eq|]. split; auto.
  intros x H. apply re_in. apply (factorises_real _ _ F HA). cbn. lra.
Qed.
End Quartic.

(** Principal branches meet the assumptions. *)
Definition cnorm (z : cx) : R := sqrt (re z ^ 2 + im z ^ 2).
Definition csqrt_p (z : cx) : cx :=
  Cx (sqrt ((cnorm z + re z) / 2)) ((if Rlt_dec (im z) 0 then -1 else 1) * sqrt ((cnorm z - re z) / 2)).
Definition carg (z : cx) : R :=
  if Rlt_dec (im z) 0 then - (let a := atan_ratio (- im z) (re z) in if Rlt_dec (re z) 0 then a + PI else a)
  else if Rlt_dec 0 (im z) then (let a := atan_ratio (im z) (re z) in if Rlt_dec (re z) 0 then a + PI else a)
  else if Rlt_dec (re z) 0 then PI else 0.
Definition ccbrt_p (z : cx) : cx :=
  Cx (rpow (cnorm z) (1 / 3) * cos (carg z / 3)) (rpow (cnorm z) (1 / 3) * sin (carg z / 3)).
Lemma cnorm_bounds z : - cnorm z <= re z <= cnorm z /\ cnorm z * cnorm z = re z ^ 2 + im z ^ 2.
Proof.
  unfold cnorm. assert (0 <= re z ^ 2) by (rewrite <- Rsqr_pow2; apply Rle_0_sqr). assert (0 <= im z ^ 2) by (rewrite <- Rsqr_pow2; apply Rle_0_sqr).
  assert (S : sqrt (re z ^ 2 + im z ^ 2) * sqrt (re z ^ 2 + im z ^ 2) = re z ^ 2 + im z ^ 2) by (apply sqrt_sqrt; lra).
  pose proof (sqrt_pos (re z ^ 2 + im z ^ 2)). set (n := sqrt _) in *. split; auto. cbn in *. split; nra.
Qed.
Lemma csqrt_p_ok : is_csqrt csqrt_p.
Proof.
  intro z. destruct (cnorm_bounds z) as [B N]. set (n := cnorm z) in *. unfold csqrt_p. fold n.
  assert (S1 : sqrt ((n + re z) / 2) * sqrt ((n + re z) / 2) = (n + re z) / 2) by (apply sqrt_sqrt; lra).
  assert (S2 : sqrt ((n - re z) / 2) * sqrt ((n - re z) / 2) = (n - re z) / 2) by (apply sqrt_sqrt; lra).
  assert (S3 : sqrt ((n + re z) / 2) * sqrt ((n - re z) / 2) = Rabs (im z) / 2).
  { rewrite <- sqrt_mult by lra. replace ((n + re z) / 2 * ((n - re z) / 2)) with ((Rabs (im z) / 2)²).
    - apply sqrt_Rsqr. pose proof (Rabs_pos (im z)). lra.
    - replace ((n + re z) / 2 * ((n - re z) / 2)) with ((n * n - re z ^ 2) / 4) by field. rewrite N.
      rewrite Rsqr_div' || unfold Rsqr. unfold Rsqr. replace (Rabs (im z) * Rabs (im z)) with (im z * im z) by (rewrite <- Rabs_mult, Rabs_pos_eq; [ring|apply Rle_0_sqr]). field. }
  set (p := sqrt ((n + re z) / 2)) in *. set (q := sqrt ((n - re z) / 2)) in *.
  apply cx_eq; cbn.
  - destruct (Rlt_dec (im z) 0); lra.
  - destruct (Rlt_dec (im z) 0) as [L|L].
    + rewrite Rabs_left in S3 by auto. lra.
    + rewrite Rabs_pos_eq in S3 by lra. lra.
Qed.
Lemma atan_ratio_bounds x y : 0 < y -> 0 < (let a := atan_ratio y x in if Rlt_dec x 0 then a + PI else a) < PI.
Proof.
  intro Hy. pose proof PI_RGT_0. unfold atan_ratio. cbv zeta. destruct (Req_EM_T x 0) as [->|N].
  - destruct (Rlt_dec 0 0); lra.
  - pose proof (atan_bound (y / x)). destruct (Rlt_dec x 0) as [L|L].
    + assert (atan (y / x) < 0); [|lra]. rewrite <- atan_0. apply atan_increasing.
      unfold Rdiv. assert (/ x < 0) by (now apply Rinv_lt_0_compat). nra.
    + assert (0 < atan (y / x)); [|lra]. rewrite <- atan_0. apply atan_increasing. apply Rdiv_lt_0_compat; lra.
Qed.
Lemma carg_spec z : cnorm z * cos (carg z) = re z /\ cnorm z * sin (carg z) = im z /\ - PI <= carg z <= PI.
Proof.
  pose proof PI_RGT_0. unfold carg. destruct (Rlt_dec (im z) 0) as [L|L].
  - destruct (polar_atan (re z) (- im z) ltac:(lra)) as [P1 P2]. pose proof (atan_ratio_bounds (re z) (- im z) ltac:(lra)) as Bd.
    cbv zeta in *. set (a := if Rlt_dec (re z) 0 then _ else _) in *.
    assert (E : cnorm z = sqrt (re z ^ 2 + (- im z) ^ 2)) by (unfold cnorm; f_equal; ring). rewrite E, cos_neg, sin_neg. repeat split; lra.
  - destruct (Rlt_dec 0 (im z)) as [L'|L'].
    + destruct (polar_atan (re z) (im z) L') as [P1 P2]. pose proof (atan_ratio_bounds (re z) (im z) L') as Bd.
      cbv zeta in *. set (a := if Rlt_dec (re z) 0 then _ else _) in *. unfold cnorm. repeat split; lra.
    + assert (Z : im z = 0) by lra. assert (E : cnorm z = Rabs (re z)).
      { unfold cnorm. rewrite Z. replace (re z ^ 2 + 0 ^ 2) with ((re z)²) by (unfold Rsqr; ring). apply sqrt_Rsqr_abs. }
      rewrite E, Z. destruct (Rlt_dec (re z) 0) as [N|N].
      * rewrite cos_PI, sin_PI, Rabs_left by auto. repeat split; lra.
      * rewrite cos_0, sin_0, Rabs_pos_eq by lra. repeat split; lra.
Qed.
Lemma ccbrt_p_ok : is_ccbrt ccbrt_p.
Proof.
  intro z. destruct (carg_spec z) as (C1 & C2 & C3). split.
  - unfold ccbrt_p. rewrite polar_cube, third_root by (unfold cnorm; apply sqrt_pos). now apply cx_eq.
  - cbn. intro H. apply Rmult_integral in H. destruct H as [H|H].
    + apply cx_eq; cbn; rewrite H; ring.
    + exfalso. assert (0 < cos (carg z / 3)); [|lra]. pose proof PI_RGT_0. apply cos_gt_0; lra.
Qed.
Example C36_quartic_nonvacuous : is_csqrt csqrt_p /\ is_ccbrt ccbrt_p /\ 1 <> 0 /\ o4_beta 1 0 0 1 <> 0.
Proof. split; [apply csqrt_p_ok|]. split; [apply ccbrt_p_ok|]. split; [lra|]. assert (K : o4_beta 1 0 0 1 = 1) by (unfold o4_beta; field). lra. Qed.

(** beta = 0: for x^4 - 1 the auxiliary quantity w vanishes and the code
    divides by zero, although 1 is a simple root. *)
Theorem C36_quartic_refuted : o4_roots csqrt_p ccbrt_p 1 0 0 0 (-1) = None /\ 1 * 1 ^ 4 + 0 * 1 ^ 3 + 0 * 1 ^ 2 + 0 * 1 + -1 = 0.
Proof.
  split; [|ring]. unfold o4_roots, o4_complex. destruct (Req_EM_T 1 0); [lra|].
  assert (Ea : o4_alpha 1 0 0 = 0) by (unfold o4_alpha; field). assert (Eb : o4_beta 1 0 0 0 = 0) by (unfold o4_beta; field).
  assert (Eg : o4_gamma 1 0 0 0 (-1) = -1) by (unfold o4_gamma; field). rewrite Ea, Eb, Eg.
  assert (EP : o4_P 0 (-1) = RtoC 1) by (apply cx_eq; cbn; field). assert (EQ : o4_Q 0 0 (-1) = RtoC 0) by (apply cx_eq; cbn; field).
  assert (Y : o4_y csqrt_p ccbrt_p 0 0 (-1) = c0).
  { unfold o4_y. rewrite EP, EQ.
    assert (ED : (RtoC 0 * RtoC 0 / RtoC 4 + RtoC 1 * RtoC 1 * RtoC 1 / RtoC 27)%cx = RtoC (1/27)) by (apply cx_eq; cbn; field). rewrite ED.
    assert (N27 : cnorm (RtoC (1/27)) = 1/27).
    { unfold cnorm. cbn [re im RtoC]. replace ((1 / 27) ^ 2 + 0 ^ 2) with ((1/27)²) by (unfold Rsqr; field). apply sqrt_Rsqr. lra. }
    assert (ES : csqrt_p (RtoC (1/27)) = RtoC (sqrt (1/27))).
    { unfold csqrt_p. rewrite N27. cbn [re im RtoC]. destruct (Rlt_dec 0 0); [lra|]. replace ((1 / 27 + 1 / 27) / 2) with (1/27) by field.
      replace ((1 / 27 - 1 / 27) / 2) with 0 by field. rewrite sqrt_0. apply cx_eq; cbn; ring. }
    rewrite ES. replace (- RtoC 0 / RtoC 2 + RtoC (sqrt (1 / 27)))%cx with (RtoC (sqrt (1/27))) by (apply cx_eq; cbn; field).
    set (s := sqrt (1/27)). assert (Hs : 0 < s) by (apply sqrt_lt_R0; lra). assert (Ss : s * s = 1/27) by (apply sqrt_sqrt; lra).
    assert (Ns : cnorm (RtoC s) = s).
    { unfold cnorm. cbn [re im RtoC]. replace (s ^ 2 + 0 ^ 2) with (s²) by (unfold Rsqr; ring). apply sqrt_Rsqr. lra. }
    assert (As : carg (RtoC s) = 0).
    { unfold carg. cbn [re im RtoC]. destruct (Rlt_dec 0 0); [lra|]. destruct (Rlt_dec s 0); lra. }
    assert (EU : ccbrt_p (RtoC s) = RtoC (rpow s (1/3))).
    { unfold ccbrt_p. rewrite Ns, As. replace (0 / 3) with 0 by field. rewrite cos_0, sin_0. apply cx_eq; cbn; ring. }
    rewrite EU. set (k := rpow s (1/3)). assert (Hk : 0 <= k) by apply rpow_nonneg. assert (K3 : k ^ 3 = s) by (apply third_root; lra).
    assert (Kp : 0 < k). { destruct Hk as [|Hk]; auto. rewrite <- Hk in K3. cbn in K3. lra. }
    assert (K2 : k * k = 1/3).
    { assert (K6 : (k * k) * (k * k) * (k * k) = 1/27) by (replace ((k * k) * (k * k) * (k * k)) with (k ^ 3 * k ^ 3) by ring; rewrite K3; exact Ss).
      set (x := k * k) in *. assert (0 < x) by (unfold x; nra).
      assert (F : (x - 1/3) * (x * x + x / 3 + 1/9) = 0) by (replace ((x - 1/3) * (x * x + x / 3 + 1/9)) with (x * x * x - 1/27) by field; lra).
      apply Rmult_integral in F. destruct F; [lra|nra]. }
    cbn [re RtoC]. destruct (Req_EM_T k 0); [lra|].
    replace (RtoC (- (5) * 0 / 6) - RtoC 1 / (RtoC 3 * RtoC k) + RtoC k)%cx with (RtoC (k - 1 / (3 * k))).
    - unfold c0. f_equal. replace (k - 1 / (3 * k)) with ((k * k - 1/3) / k) by (field; lra). rewrite K2. field. lra.
    - rewrite <- RtoC_mul, <- RtoC_div, <- RtoC_sub, <- RtoC_add by lra. f_equal. field. lra. }
  assert (W : o4_w csqrt_p ccbrt_p 0 0 (-1) = c0).
  { unfold o4_w. rewrite Y. replace (RtoC 0 + RtoC 2 * c0)%cx with c0 by (apply cx_eq; cbn; ring).
    unfold csqrt_p, cnorm. cbn [re im c0 RtoC]. replace (0 ^ 2 + 0 ^ 2) with 0 by ring. rewrite sqrt_0.
    replace ((0 + 0) / 2) with 0 by field. replace ((0 - 0) / 2) with 0 by field. rewrite sqrt_0. apply cx_eq; cbn; ring. }
  rewrite W. destruct (ceqb c0 c0) as [|N]; [reflexivity|contradiction].
Qed.
