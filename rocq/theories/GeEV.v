(** The closed-form eigenvalues of the generalized eigensolver (C59). *)
From Coq Require Import Reals List Lra Psatz Lia.
From Verif Require Import Lin GenLin GenSpectral RotModel SturmModel EigSums EigEV GeSums GeGen GeModel GeProps.
Import ListNotations.
Local Open Scope R_scope.

(** * Coefficients of the characteristic polynomial in terms of the eigenvalues *)
Definition mm (A B : nat -> nat -> R) (i j : nat) : R := sumn 4 (fun k => A i k * B k j).
Definition tr (A : nat -> nat -> R) : R := sumn 4 (fun i => A i i).
Lemma tr_basis A V : gorth 4 V -> tr A = sumn 4 (fun k => bil 4 A (gcol V k) (gcol V k)).
Proof.
  intros [_ H]. unfold tr, bil, mvec, vdot, gcol.
  transitivity (sumn 4 (fun i => sumn 4 (fun j => A i j * vdot 4 (V i) (V j)))).
  - apply sumn_ext. intros i Hi. rewrite <- (sumn_delta 4 i (fun j => A i j) Hi). apply sumn_ext. intros j Hj. rewrite (H i j) by auto. rewrite delta_sym. ring.
  - unfold vdot. cbn [sumn]. ring.
Qed.
Lemma mvec_mm A B x i : mvec 4 (mm A B) x i = mvec 4 A (mvec 4 B x) i.
Proof. unfold mvec, mm, vdot. cbn [sumn]. ring. Qed.
Section Eig.
Variables (G V : nat -> nat -> R) (lam : nat -> R).
Hypothesis H : is_eig 4 G V lam.
Hypothesis Sy : sym 4 G.
Fixpoint mpow (n : nat) : nat -> nat -> R := match n with O => delta | Datatypes.S n => mm G (mpow n) end.
Lemma mpow_vec n k i : (k < 4)%nat -> (i < 4)%nat -> mvec 4 (mpow n) (gcol V k) i = lam k ^ n * V i k.
Proof.
  intro Hk. revert i. induction n as [|n IH]; intros i Hi; cbn [mpow pow].
  - unfold mvec, vdot. rewrite sumn_delta' by auto. unfold gcol. ring.
  - rewrite mvec_mm. rewrite (mvec_ext 4 G _ (fun j => lam k ^ n * gcol V k j)) by (intros; now apply IH).
    rewrite mvec_scale, (eig_vec _ _ _ _ H) by auto. ring.
Qed.
Lemma tr_pow n : tr (mpow n) = sumn 4 (fun k => lam k ^ n).
Proof.
  rewrite (tr_basis _ V (eig_orth _ _ _ _ H)). apply sumn_ext. intros k Hk. unfold bil.
  rewrite (vdot_ext 4 (gcol V k) _ (gcol V k) (fun i => lam k ^ n * gcol V k i)) by (auto; intros; now apply mpow_vec).
  rewrite vdot_scale, gorth_unit by (apply (eig_orth _ _ _ _ H) || auto). ring.
Qed.
Lemma ge_coeffs : let a := lam 0%nat in let b := lam 1%nat in let c := lam 2%nat in let d := lam 3%nat in
  ge_B G = - (a + b + c + d) /\ ge_C G = a * b + a * c + a * d + b * c + b * d + c * d /\
  ge_D G = - (a * b * c + a * b * d + a * c * d + b * c * d) /\ ge_E G = a * b * c * d.
Proof.
  pose proof (tr_pow 1) as T1. pose proof (tr_pow 2) as T2. pose proof (tr_pow 3) as T3. pose proof (tr_pow 4) as T4.
  assert (N1 : ge_B G = - tr (mpow 1)).
  { unfold ge_B, tr, mpow, mm. cbn [sumn]. unfold delta; cbn. ring. }
  assert (S10 := Sy 1%nat 0%nat ltac:(lia) ltac:(lia)). assert (S20 := Sy 2%nat 0%nat ltac:(lia) ltac:(lia)). assert (S30 := Sy 3%nat 0%nat ltac:(lia) ltac:(lia)).
  assert (S21 := Sy 2%nat 1%nat ltac:(lia) ltac:(lia)). assert (S31 := Sy 3%nat 1%nat ltac:(lia) ltac:(lia)). assert (S32 := Sy 3%nat 2%nat ltac:(lia) ltac:(lia)).
  assert (Q1 : tr (mpow 1) = tr G) by (unfold tr, mpow, mm; cbn [sumn]; unfold delta; cbn; ring).
  assert (Q2 : tr (mpow 2) = tr (mm G G)) by (unfold tr, mpow, mm; cbn [sumn]; unfold delta; cbn; ring).
  assert (Q3 : tr (mpow 3) = tr (mm G (mm G G))) by (unfold tr, mpow, mm; cbn [sumn]; unfold delta; cbn; ring).
  assert (Q4 : tr (mpow 4) = tr (mm (mm G G) (mm G G))) by (unfold tr, mpow, mm; cbn [sumn]; unfold delta; cbn; ring).
  assert (N2 : 2 * ge_C G = tr G ^ 2 - tr (mm G G)).
  { unfold ge_C, tr, mm. cbn [sumn]. rewrite S10, S20, S30, S21, S31, S32. ring. }
  assert (N3 : 6 * ge_D G = - (tr G ^ 3 - 3 * tr G * tr (mm G G) + 2 * tr (mm G (mm G G)))).
  { unfold ge_D, tr, mm. cbn [sumn]. rewrite S10, S20, S30, S21, S31, S32. ring. }
  assert (N4 : 24 * ge_E G = tr G ^ 4 - 6 * tr G ^ 2 * tr (mm G G) + 3 * tr (mm G G) ^ 2 + 8 * tr G * tr (mm G (mm G G)) - 6 * tr (mm (mm G G) (mm G G))).
  { unfold ge_E, tr, mm. cbn [sumn]. rewrite S10, S20, S30, S21, S31, S32. ring. }
  rewrite <- Q1, <- ?Q2, <- ?Q3, <- ?Q4 in *. rewrite T1, ?T2, ?T3, ?T4 in *. cbn [sumn] in *. cbv zeta.
  repeat split.
  - rewrite N1. ring.
  - apply Rmult_eq_reg_l with 2; [|lra]. rewrite N2. ring.
  - apply Rmult_eq_reg_l with 6; [|lra]. rewrite N3. ring.
  - apply Rmult_eq_reg_l with 24; [|lra]. rewrite N4. ring.
Qed.
End Eig.

(** * The closed form *)
Lemma ge_roots_spec a b c d : a >= b -> b >= c -> c >= d -> a <> c -> b <> d ->
  ge_roots (- (a + b + c + d)) (a * b + a * c + a * d + b * c + b * d + c * d)
    (- (a * b * c + a * b * d + a * c * d + b * c * d)) (a * b * c * d) = Some (c, d).
Proof.
  intros O1 O2 O3 N1 N2. unfold ge_roots.
  set (B := - (a + b + c + d)). set (C := a * b + a * c + a * d + b * c + b * d + c * d).
  set (D := - (a * b * c + a * b * d + a * c * d + b * c * d)). set (E := a * b * c * d).
  set (alpha := - (375 / 1000) * B ^ 2 + C). set (beta := B ^ 3 / 8 - B * C / 2 + D).
  set (gamma := - (1171875 / 100000000) * B ^ 4 + B ^ 2 * C / 16 - B * D / 4 + E).
  set (p := - alpha ^ 2 / 12 - gamma). set (q := - alpha ^ 3 / 108 + alpha * gamma / 3 - beta ^ 2 / 8).
  set (w0 := (a + b - c - d) / 2).
  set (u1 := w0 ^ 2 / 2 + alpha / 3).
  set (u2 := ((a + c - b - d) / 2) ^ 2 / 2 + alpha / 3). set (u3 := ((a + d - b - c) / 2) ^ 2 / 2 + alpha / 3).
  set (x := (b - c) * (a - d) / 2). set (y := (c - d) * (a - b) / 2).
  assert (U12 : u1 - u2 = x) by (unfold u1, u2, x, w0; field).
  assert (U23 : u2 - u3 = y) by (unfold u2, u3, y; field).
  assert (Us : u1 + u2 + u3 = 0) by (unfold u1, u2, u3, w0, alpha, B, C; field).
  assert (Up : p = u1 * u2 + u1 * u3 + u2 * u3) by (unfold p, u1, u2, u3, w0, gamma, alpha, B, C, D, E; field).
  assert (Uq : q = - (u1 * u2 * u3)) by (unfold q, u1, u2, u3, w0, gamma, beta, alpha, B, C, D, E; field).
  assert (Px : 0 <= x) by (unfold x; nra). assert (Py : 0 <= y) by (unfold y; nra).
  assert (Pxy : 0 < x + y).
  { destruct (Req_dec b c) as [Ebc|Nbc].
    - assert (0 < y); [|lra]. unfold y. assert (0 < c - d) by lra. assert (0 < a - b) by lra. nra.
    - assert (0 < x); [|lra]. unfold x. assert (0 < b - c) by lra. assert (0 < a - d) by lra. nra. }
  pose proof (ev_closed_spec (- u3) (- u2) (- u1) ltac:(lra) ltac:(lra) ltac:(lra)) as EV.
  replace (- (- u3 + - u2 + - u1)) with 0 in EV by lra.
  replace (- u3 * - u2 + - u3 * - u1 + - u2 * - u1) with p in EV by (rewrite Up; ring).
  replace (- (- u3 * - u2 * - u1)) with (- q) in EV by (rewrite Uq; ring).
  set (P := sqrt (x ^ 2 + x * y + y ^ 2)).
  assert (PP : 0 < x ^ 2 + x * y + y ^ 2) by nra.
  assert (PPos : 0 < P) by (now apply sqrt_lt_R0).
  assert (P2 : P ^ 2 = - 3 * p).
  { unfold P. rewrite <- Rsqr_pow2, Rsqr_sqrt by lra. rewrite Up. replace u3 with (- u1 - u2) in * by lra. rewrite <- U12, <- U23. ring. }
  assert (P3 : 0 < P ^ 3) by (now apply pow_lt).
  assert (T : EigModel.ev_t 0 p = (2 * P ^ 3) ^ 2) by (unfold EigModel.ev_t; replace (0 ^ 2 - 3 * p) with (P ^ 2) by lra; ring).
  unfold EigModel.ev_closed in EV. cbv zeta in EV. rewrite T in EV. rewrite (sqrt_pow2 (2 * P ^ 3)) in EV by lra.
  replace (EigModel.ev_s 0 p (- q)) with (- (27 * q)) in EV by (unfold EigModel.ev_s; ring).
  destruct (Rlt_dec ((2 * P ^ 3) ^ 2) 0) as [L|_]; [exfalso; pose proof (pow2_ge_0 (2 * P ^ 3)); lra|].
  destruct (Req_EM_T (2 * P ^ 3) 0); [lra|].
  assert (H1 : - p ^ 3 / 27 = (P ^ 3 / 27) ^ 2).
  { replace p with (- (P ^ 2) / 3) by lra. field. }
  assert (SH : sqrt (- p ^ 3 / 27) = P ^ 3 / 27) by (rewrite H1; apply sqrt_pow2; lra).
  assert (AR : - q / 2 / (P ^ 3 / 27) = - (27 * q) / (2 * P ^ 3)) by (field; lra).
  cbv zeta. rewrite SH, AR.
  destruct (Rlt_dec 1 (Rabs (- (27 * q) / (2 * P ^ 3)))) as [L|L]; [discriminate|].
  assert (T2 : rpow (- p ^ 3 / 27) (1 / 3) = P ^ 2 / 9).
  { replace (- p ^ 3 / 27) with ((P ^ 2 / 9) ^ 3) by (rewrite H1; field). apply rpow_cube. nra. }
  rewrite T2.
  destruct (Rlt_dec (- p ^ 3 / 27) 0) as [L'|_]; [exfalso; rewrite H1 in L'; pose proof (pow2_ge_0 (P ^ 3 / 27)); lra|].
  destruct (Req_EM_T (P ^ 2 / 9) 0) as [Z|_]; [exfalso; nra|].
  assert (ST : sqrt (P ^ 2 / 9) = P / 3) by (replace (P ^ 2 / 9) with ((P / 3) ^ 2) by field; apply sqrt_pow2; lra).
  rewrite ST. replace (1 / 2 * (2 * P ^ 3)) with (P ^ 3) in EV by field. rewrite rpow_cube in EV by auto.
  replace (1 / 3 * acos (- (27 * q) / (2 * P ^ 3))) with (acos (- (27 * q) / (2 * P ^ 3)) / 3) by field.
  set (co := cos (acos (- (27 * q) / (2 * P ^ 3)) / 3)) in *.
  assert (U1 : 2 * (P / 3 * co) = u1) by (injection EV; lra).
  set (th := P / 3 * co) in *. clearbody th.
  assert (Y : - (5 / 6) * alpha - (1 / 3 * p * th - th * (P ^ 2 / 9)) / (P ^ 2 / 9) = - (5 / 6) * alpha + u1).
  { rewrite <- U1. replace p with (- (P ^ 2) / 3) by lra. field. lra. }
  rewrite Y. assert (W : alpha + 2 * (- (5 / 6) * alpha + u1) = w0 ^ 2) by (unfold u1; field). rewrite W.
  assert (Wp : 0 < w0) by (unfold w0; lra).
  destruct (Rlt_dec (w0 ^ 2) 0) as [Z|_]; [nra|]. rewrite sqrt_pow2 by lra. destruct (Req_EM_T w0 0); [lra|].
  assert (R : - 3 * alpha - 2 * (- (5 / 6) * alpha + u1) + 2 * beta / w0 = (c - d) ^ 2).
  { assert (Bw : beta = w0 * ((a * b - c * d) + (c + d - a - b) * (a + b + c + d) / 4)).
    { unfold beta, w0, B, C, D. field. }
    rewrite Bw. replace (2 * (w0 * ((a * b - c * d) + (c + d - a - b) * (a + b + c + d) / 4)) / w0) with (2 * ((a * b - c * d) + (c + d - a - b) * (a + b + c + d) / 4)) by (field; lra).
    unfold u1, w0, alpha, B, C. field. }
  rewrite R. destruct (Rlt_dec ((c - d) ^ 2) 0) as [Z|_]; [exfalso; pose proof (pow2_ge_0 (c - d)); lra|]. rewrite sqrt_pow2 by lra.
  unfold B, w0. f_equal. f_equal; field.
Qed.
Lemma ge_roots_none a b c d : a >= b -> b >= c -> c >= d -> a = c \/ b = d ->
  ge_roots (- (a + b + c + d)) (a * b + a * c + a * d + b * c + b * d + c * d)
    (- (a * b * c + a * b * d + a * c * d + b * c * d)) (a * b * c * d) = None.
Proof.
  intros O1 O2 O3 N. unfold ge_roots. cbv zeta.
  match goal with |- context [- ?p ^ 3 / 27] => assert (Z : p = 0) end.
  { destruct N as [E|E]; [assert (b = a) by lra; assert (c = a) by lra|assert (c = b) by lra; assert (d = b) by lra]; subst; field. }
  rewrite Z. replace (- 0 ^ 3 / 27) with 0 by field.
  destruct (Rlt_dec 0 0); [reflexivity|]. unfold rpow. destruct (Req_EM_T 0 0); [|easy]. destruct (Req_EM_T 0 0); [reflexivity|easy].
Qed.

(** * C59 *)
(** at most two of the eigenvalues coincide: no eigenspace of dimension 3 *)
Definition no_triple (G : nat -> nat -> R) : Prop := forall k x y z,
  (forall i, (i < 4)%nat -> mvec 4 G x i = k * x i) -> (forall i, (i < 4)%nat -> mvec 4 G y i = k * y i) -> (forall i, (i < 4)%nat -> mvec 4 G z i = k * z i) ->
  exists a b c, (a <> 0 \/ b <> 0 \/ c <> 0) /\ forall i, (i < 4)%nat -> a * x i + b * y i + c * z i = 0.
Lemma three_indep V i j k : gorth 4 V -> (i < 4)%nat -> (j < 4)%nat -> (k < 4)%nat -> i <> j -> i <> k -> j <> k ->
  forall a b c, (forall l, (l < 4)%nat -> a * gcol V i l + b * gcol V j l + c * gcol V k l = 0) -> a = 0 /\ b = 0 /\ c = 0.
Proof.
  intros GV Hi Hj Hk Nij Nik Njk a b c Z.
  assert (K : forall m, (m < 4)%nat -> a * vdot 4 (gcol V m) (gcol V i) + b * vdot 4 (gcol V m) (gcol V j) + c * vdot 4 (gcol V m) (gcol V k) = 0).
  { intros m Hm. rewrite <- !vdot_scale, <- !vdot_add. unfold vdot. apply sumn_0. intros l Hl. rewrite Z by auto. ring. }
  destruct GV as [O _].
  pose proof (K i Hi) as Ki. pose proof (K j Hj) as Kj. pose proof (K k Hk) as Kk. rewrite !O in Ki, Kj, Kk by auto.
  rewrite delta_same, (delta_diff i j), (delta_diff i k) in Ki by auto.
  rewrite delta_same, (delta_diff j i), (delta_diff j k) in Kj by auto.
  rewrite delta_same, (delta_diff k i), (delta_diff k j) in Kk by auto. lra.
Qed.
(** for every symmetric matrix no three eigenvalues of which coincide, the
    result exists; its second component is the minimum of the quadratic form on
    unit vectors, attained at some v, and its first component the minimum on
    the unit vectors orthogonal to v *)
Theorem C59_two_smallest_eigenvalues : forall G, sym 4 G -> no_triple G ->
  exists e2 e1 u v, ge_ev G = Some (e2, e1) /\ e1 <= e2 /\
    vdot 4 v v = 1 /\ vdot 4 u u = 1 /\ vdot 4 v u = 0 /\
    (forall i, (i < 4)%nat -> mvec 4 G v i = e1 * v i) /\ (forall i, (i < 4)%nat -> mvec 4 G u i = e2 * u i) /\
    (forall x, e1 * vdot 4 x x <= bil 4 G x x) /\ (forall x, vdot 4 v x = 0 -> e2 * vdot 4 x x <= bil 4 G x x).
Proof.
  intros G Sy NT. destruct (spectral 4 G Sy) as (V & lam & H). pose proof (eig_orth _ _ _ _ H) as GV.
  assert (EVk : forall k, (k < 4)%nat -> forall i, (i < 4)%nat -> mvec 4 G (gcol V k) i = lam k * gcol V k i) by (intros; now apply (eig_vec _ _ _ _ H)).
  pose proof (eig_sorted _ _ _ _ H) as So.
  exists (lam 2%nat), (lam 3%nat), (gcol V 2), (gcol V 3).
  assert (Tr : forall i j k, (i < 4)%nat -> (j < 4)%nat -> (k < 4)%nat -> i <> j -> i <> k -> j <> k -> lam i = lam j -> lam j = lam k -> False).
  { intros i j k Hi Hj Hk A B C E1 E2. destruct (NT (lam i) (gcol V i) (gcol V j) (gcol V k)) as (a & b & c & NZ & Z).
    - exact (EVk i Hi). - rewrite E1. exact (EVk j Hj). - rewrite E1, E2. exact (EVk k Hk).
    - destruct (three_indep V i j k GV Hi Hj Hk A B C a b c Z) as (-> & -> & ->). destruct NZ as [|[|]]; auto. }
  pose proof (So 0 1 ltac:(lia) ltac:(lia))%nat as O1. pose proof (So 1 2 ltac:(lia) ltac:(lia))%nat as O2. pose proof (So 2 3 ltac:(lia) ltac:(lia))%nat as O3.
  split.
  { unfold ge_ev. destruct (ge_coeffs G V lam H Sy) as (-> & -> & -> & ->). apply ge_roots_spec; try lra.
    - intro E. apply (Tr 0 1 2)%nat; try lia; lra.
    - intro E. apply (Tr 1 2 3)%nat; try lia; lra. }
  split; [lra|]. repeat (split; [solve [apply gorth_unit; auto | apply gorth_perp; auto; lia]|]).
  split; [exact (EVk 3%nat ltac:(lia))|]. split; [exact (EVk 2%nat ltac:(lia))|].
  assert (Q : forall x, bil 4 G x x = sumn 4 (fun k => lam k * vdot 4 (gcol V k) x ^ 2)).
  { intro x. set (c := fun k => vdot 4 (gcol V k) x).
    assert (Xe : forall i, (i < 4)%nat -> x i = sumn 4 (fun k => c k * V i k)) by (intros; now apply gorth_expand).
    unfold bil. rewrite (vdot_ext 4 _ _ x (fun i => sumn 4 (fun k => c k * (lam k * V i k)))); auto.
    - rewrite vdot_sum. apply sumn_ext. intros k Hk.
      rewrite (vdot_ext 4 _ _ x (fun i => (c k * lam k) * gcol V k i)) by (auto; intros; unfold gcol; ring).
      rewrite vdot_scale, vdot_comm. unfold c. ring.
    - intros i Hi. rewrite (mvec_ext 4 G _ (fun i => sumn 4 (fun k => c k * V i k)) i Xe). unfold mvec at 1. rewrite vdot_sum. apply sumn_ext. intros k Hk.
      rewrite (vdot_ext 4 _ _ (G i) (fun i => c k * gcol V k i)) by (auto; intros; unfold gcol; ring).
      rewrite vdot_scale. f_equal. now apply EVk. }
  assert (N : forall x, vdot 4 x x = sumn 4 (fun k => vdot 4 (gcol V k) x ^ 2)).
  { intro x. transitivity (vdot 4 x (fun i => sumn 4 (fun k => vdot 4 (gcol V k) x * gcol V k i))).
    - apply vdot_ext; auto. intros i Hi. now apply (gorth_expand 4 V x).
    - rewrite vdot_sum. apply sumn_ext. intros k Hk. rewrite vdot_scale, vdot_comm. ring. }
  split.
  - intro x. rewrite Q, N, <- sumn_scale. apply sumn_le. intros k Hk. apply Rmult_le_compat_r; [apply pow2_ge_0|]. apply So; lia.
  - intros x Hx. rewrite Q, N. cbn [sumn]. rewrite Hx. pose proof (pow2_ge_0 (vdot 4 (gcol V 0) x)). pose proof (pow2_ge_0 (vdot 4 (gcol V 1) x)). pose proof (pow2_ge_0 (vdot 4 (gcol V 2) x)).
    nra.
Qed.
(** Otherwise it is NaN: a symmetric matrix three eigenvalues of which coincide
    is k I + mu v v^T. *)
Theorem C59_triple_refuted : forall G k mu v, (forall i j, (i < 4)%nat -> (j < 4)%nat -> G i j = k * delta i j + mu * v i * v j) -> ge_ev G = None.
Proof.
  intros G k mu v E. unfold ge_ev, ge_roots. cbv zeta.
  match goal with |- context [- ?p ^ 3 / 27] => assert (Z : p = 0) end.
  { unfold ge_B, ge_C, ge_D, ge_E. rewrite !E by lia. unfold delta; cbn. field. }
  rewrite Z. replace (- 0 ^ 3 / 27) with 0 by field.
  destruct (Rlt_dec 0 0); [reflexivity|]. unfold rpow. destruct (Req_EM_T 0 0); [|easy]. destruct (Req_EM_T 0 0); [reflexivity|easy].
Qed.
(** in particular, the cost of the true rotation is NaN for a pure rotation of a
    central camera: every constraint vanishes identically *)
Theorem C59_pure_rotation_refuted : forall l c step,
  (forall q, In q l -> gt1 q = v0 /\ gt2 q = v0 /\ gf1 q = mv (cayley2rot c) (gf2 q)) ->
  getCost (gs_accumulate l) c step = None.
Proof.
  intros l c step H. unfold getCost, getEV. rewrite (C59_triple_refuted _ 0 0 (fun _ => 0)); [reflexivity|].
  intros i j Hi Hj. rewrite GeAlg.composeG_sum by auto. rewrite Rmult_0_l, Rplus_0_l, !Rmult_0_l.
  induction l as [|q l IH]; cbn [map]; sums; [reflexivity|]. rewrite IH by (intros; apply H; now right).
  destruct (H q (or_introl eq_refl)) as (T1 & T2 & F).
  assert (Z : GeAlg.gvec0 (cayley2rot_reduced c) q i = 0).
  { rewrite RotProps.C24_reduced_is_scaled. unfold GeAlg.gvec0. rewrite T1, T2, F, !mv_mscale. generalize (mv (cayley2rot c) (gf2 q)) (1 + norm2 c) (cayley2rot c) (gf2 q). clear - Hi. intros g s A f.
    destruct i as [|[|[|[|i]]]]; [| | | |lia]; clear Hi; lring. }
  rewrite Z. ring.
Qed.

(** the cost function of the descent: it is nonnegative, and zero exactly for
    the rotations under which some homogeneous translation meets all constraints *)
Theorem C59_cost : forall l c, (forall q, In q l -> 0 < gw q) -> no_triple (composeG (gs_accumulate l) c) ->
  exists e, getCost (gs_accumulate l) c 1 = Some e /\ 0 <= e /\
    (e = 0 <-> exists t s, (t <> v0 \/ s <> 0) /\ forall q, In q l -> gconstraint (cayley2rot c) t s q = 0).
Proof.
  intros l c W NT. destruct (C47_composeG_is_constraint_sum l c (fun _ => 0)) as (Sy & _).
  destruct (C59_two_smallest_eigenvalues _ Sy NT) as (e2 & e1 & u & v & E & _ & Vu & _ & _ & Ev & _ & Min & _).
  exists e1. unfold getCost, getEV. rewrite E. split; [reflexivity|].
  assert (Bv : bil 4 (composeG (gs_accumulate l) c) v v = e1).
  { unfold bil. rewrite (vdot_ext 4 v _ v (fun i => e1 * v i)) by auto. rewrite vdot_scale, Vu. ring. }
  split; [rewrite <- Bv; apply C47_psd; intros; apply Rlt_le; auto|]. split.
  - intro Z. exists (xyz v), (v 3%nat). split.
    + destruct (Req_dec (v 3%nat) 0) as [Z3|]; [|auto]. left. intro X. unfold xyz in X. injection X. intros X2 X1 X0.
      unfold vdot in Vu. cbn [sumn] in Vu. rewrite X0, X1, X2, Z3 in Vu. lra.
    + apply C47_kernel; auto. intros i Hi. rewrite Ev by auto. rewrite Z. ring.
  - intros (t & s & NZ & K).
    assert (X : xyz (hom t s) = t) by (destruct t; reflexivity).
    assert (Bz : bil 4 (composeG (gs_accumulate l) c) (hom t s) (hom t s) = 0).
    { unfold bil, vdot. apply sumn_0. intros i Hi. rewrite (proj2 (C47_kernel l c (hom t s) W)); [ring| |auto]. rewrite X. exact K. }
    pose proof (Min (hom t s)) as M. rewrite Bz in M.
    assert (P : 0 < vdot 4 (hom t s) (hom t s)).
    { destruct t as [tx ty tz]. unfold vdot, hom. cbn. destruct NZ as [NZ|NZ]; [|nra].
      destruct (Req_dec tx 0) as [->|]; [|nra]. destruct (Req_dec ty 0) as [->|]; [|nra]. destruct (Req_dec tz 0) as [->|]; [|nra]. now contradiction NZ. }
    pose proof (C47_psd l c (fun q Hq => Rlt_le _ _ (W q Hq)) v) as N. rewrite Bv in N. nra.
Qed.
(** diag(4,3,2,1) has no triple eigenvalue, and the two results are 2 and 1 *)
Example C59_nonvacuous : let G := fun i j => delta i j * (4 - INR i) in sym 4 G /\ no_triple G /\ ge_ev G = Some (2, 1).
Proof.
  cbv zeta. split; [|split].
  - intros i j _ _. unfold delta. destruct (Nat.eq_dec i j), (Nat.eq_dec j i); subst; try lia; auto; ring.
  - intros k x y z Hx Hy Hz.
    assert (D : forall w : nat -> R, (forall i, (i < 4)%nat -> mvec 4 (fun i j => delta i j * (4 - INR i)) w i = k * w i) -> forall i, (i < 4)%nat -> (4 - INR i - k) * w i = 0).
    { intros w Hw i Hi. specialize (Hw i Hi). unfold mvec, vdot in Hw. rewrite (sumn_ext 4 _ (fun j => delta i j * ((4 - INR i) * w j))) in Hw by (intros; ring).
      rewrite sumn_delta' in Hw by auto. lra. }
    pose proof (D x Hx) as Dx. pose proof (D y Hy) as Dy. pose proof (D z Hz) as Dz.
    (* at most one index has 4 - i = k; all three vectors are multiples of it *)
    assert (K : exists m, (m < 4)%nat /\ forall i, (i < 4)%nat -> i <> m -> 4 - INR i - k <> 0).
    { destruct (Req_dec k 4) as [E|]; [exists 0%nat|destruct (Req_dec k 3) as [E|]; [exists 1%nat|destruct (Req_dec k 2) as [E|]; [exists 2%nat|exists 3%nat]]]; (split; [lia|]); intros i Hi Ni.
      all: destruct i as [|[|[|[|i]]]]; try lia; cbn; lra. }
    destruct K as (m & Hm & K).
    assert (Zo : forall w : nat -> R, (forall i, (i < 4)%nat -> (4 - INR i - k) * w i = 0) -> forall i, (i < 4)%nat -> i <> m -> w i = 0).
    { intros w Hw i Hi Ni. specialize (Hw i Hi). apply Rmult_integral in Hw as [Hw|Hw]; auto. now apply K in Hw. }
    destruct (Req_dec (x m) 0) as [Ex|Ex].
    + exists 1, 0, 0. split; [left; lra|]. intros i Hi. destruct (Nat.eq_dec i m) as [->|Ni]; [rewrite Ex; ring|rewrite (Zo x Dx i Hi Ni); ring].
    + exists (y m), (- x m), 0. split; [right; left; lra|]. intros i Hi. destruct (Nat.eq_dec i m) as [->|Ni]; [ring|]. rewrite (Zo x Dx i Hi Ni), (Zo y Dy i Hi Ni). ring.
  - unfold ge_ev. rewrite <- (ge_roots_spec 4 3 2 1) by lra.
    unfold ge_B, ge_C, ge_D, ge_E, delta; cbn. f_equal; ring.
Qed.
