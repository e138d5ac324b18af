(** C43: p3p_gao. *)
From Coq Require Import Reals Lra List Lia.
From Verif Require Import Lin Cplx SturmProofs ArunModel ArunProps GeoModel RootsModel RootsProps P3pProps P3pTop GaoModel.
Import ListNotations.
Local Open Scope R_scope.

Section Alg.
Variables (a b p q r : R).
Definition gquartic (x : R) : R :=
  gao_A a b r * x ^ 4 + gao_B a b p q r * x ^ 3 + gao_C a b p q r * x ^ 2 + gao_D a b p q r * x + gao_E a b p.
(** the polynomial part2 inverts p - r x modulo the quartic *)
Lemma part2_inverse x : gao_part2 a b p q r x * (p - r * x) + r ^ 4 * gquartic x = gao_temp a b p q r ^ 2.
Proof. unfold gao_part2, gquartic, gao_A, gao_B, gao_C, gao_D, gao_E, gao_temp. ring. Qed.
(** the quartic is the second cosine law after elimination of y *)
Lemma quartic_elim x : (b * (p - r * x)) ^ 2 * ((1 - b) * x ^ 2 - q * x + 1) - b * gao_part1 a b q x ^ 2
  + b * r * x * (gao_part1 a b q x * (b * (p - r * x))) = - b * gquartic x.
Proof. unfold gao_part1, gquartic, gao_A, gao_B, gao_C, gao_D, gao_E. ring. Qed.
End Alg.

(** ** Congruent triangles *)
Lemma gram_cross u w u' w' : norm2 u = norm2 u' -> norm2 w = norm2 w' -> norm2 (vsub u w) = norm2 (vsub u' w') ->
  dot u w = dot u' w' /\ norm2 (cross u w) = norm2 (cross u' w').
Proof.
  intros Hu Hw Hs. assert (D : dot u w = dot u' w').
  { assert (K : forall a b, norm2 (vsub a b) = norm2 a + norm2 b - 2 * dot a b) by (clear; lring).
    rewrite !K in Hs. lra. }
  split; auto. rewrite !lagrange, Hu, Hw, D. ring.
Qed.
Lemma congruent P1 P2 P3 Q1 Q2 Q3 : ~ collinear P1 P2 P3 ->
  norm2 (vsub P1 P2) = norm2 (vsub Q1 Q2) -> norm2 (vsub P2 P3) = norm2 (vsub Q2 Q3) -> norm2 (vsub P1 P3) = norm2 (vsub Q1 Q3) ->
  exists A t, rotation A /\ P1 = vadd (mv A Q1) t /\ P2 = vadd (mv A Q2) t /\ P3 = vadd (mv A Q3) t.
Proof.
  intros NC H12 H23 H13.
  assert (S : forall a b, norm2 (vsub a b) = norm2 (vsub b a)) by (clear; lring).
  assert (T : forall a b c, vsub (vsub b a) (vsub c a) = vsub b c) by (clear; lring).
  destruct (gram_cross (vsub P2 P1) (vsub P3 P1) (vsub Q2 Q1) (vsub Q3 Q1)) as [G1 G2].
  { now rewrite !(S _ P1), !(S _ Q1). } { now rewrite !(S _ P1), !(S _ Q1). } { now rewrite !T. }
  assert (NC' : ~ collinear Q1 Q2 Q3).
  { intro C. apply NC. unfold collinear in *. apply norm2_zero. rewrite G2, C. clear. lring. }
  destruct (N_spec P1 P2 P3 NC) as (N&p1&p2&_&RN&Hp&Hd&N2&N3).
  destruct (N_spec Q1 Q2 Q3 NC') as (M&q1&q2&_&RM&Hq&He&M2&M3).
  assert (Ed : norm (vsub P2 P1) = norm (vsub Q2 Q1)).
  { unfold norm. now rewrite (S P2), (S Q2), H12. }
  assert (E1 : p1 = q1).
  { apply (Rmult_eq_reg_l (norm (vsub P2 P1))); [|lra].
    transitivity (dot (vsub P2 P1) (vsub P3 P1)).
    - rewrite <- (rot_dot N) by auto. rewrite N2, N3. unfold dot; cbn [vx vy vz]. ring.
    - rewrite G1, <- (rot_dot M) by auto. rewrite M2, M3, Ed. unfold dot; cbn [vx vy vz]. ring. }
  assert (E2 : p2 = q2).
  { assert (K : p2 * p2 = q2 * q2).
    { assert (A : norm2 (vsub P3 P1) = norm2 (vsub Q3 Q1)) by now rewrite (S P3), (S Q3).
      rewrite <- (rot_norm2 N (vsub P3 P1)), <- (rot_norm2 M (vsub Q3 Q1)), N3, M3, E1 in A by auto. unfold norm2, dot in A. cbn [vx vy vz] in A. lra. }
    apply Rsqr_inj; unfold Rsqr; lra. }
  exists (mmul (mT N) M), (vsub P1 (mv (mmul (mT N) M) Q1)).
  split; [apply rot_mmul; auto; now apply rot_T|].
  assert (K : forall P Q, mv N (vsub P P1) = mv M (vsub Q Q1) -> P = vadd (mv (mmul (mT N) M) Q) (vsub P1 (mv (mmul (mT N) M) Q1))).
  { intros P Q E. transitivity (vadd (mv (mmul (mT N) M) (vsub Q Q1)) P1).
    - rewrite mv_mmul, <- E, rot_T_mv by auto. generalize P P1. clear. lring.
    - rewrite mv_sub. generalize (mv (mmul (mT N) M) Q) (mv (mmul (mT N) M) Q1). clear. lring. }
  split; [|split]; apply K.
  - now rewrite !vsub_self, !mv_0.
  - now rewrite N2, M2, Ed.
  - now rewrite N3, M3, E1, E2.
Qed.

(** ** The system of cosine laws *)
Section Alg2.
Variables (a b p q r : R).
Hypotheses (Hb : b <> 0) (Ht : gao_temp a b p q r <> 0).
Let b0 := b * gao_temp a b p q r * gao_temp a b p q r.
Lemma b0_nz : b0 <> 0.
Proof. unfold b0. repeat (apply Rmult_integral_contrapositive; split; auto). Qed.
Lemma factor_nz x : gquartic a b p q r x = 0 -> p - r * x <> 0 /\
  gao_part1 a b q x * gao_part2 a b p q r x / b0 = gao_part1 a b q x / (b * (p - r * x)).
Proof.
  intro Q. pose proof (part2_inverse a b p q r x) as I. rewrite Q in I.
  assert (N : p - r * x <> 0).
  { intro Z. rewrite Z in I. apply Ht. assert (T2 : gao_temp a b p q r * gao_temp a b p q r = 0) by lra.
    apply Rmult_integral in T2. tauto. }
  split; auto. assert (P2 : gao_part2 a b p q r x = gao_temp a b p q r ^ 2 / (p - r * x)) by (rewrite <- I; field; auto).
  rewrite P2. unfold b0. field. auto.
Qed.
Lemma root_system x y : gquartic a b p q r x = 0 -> y = gao_part1 a b q x * gao_part2 a b p q r x / b0 ->
  y ^ 2 + 1 - p * y = a * (x * x + y ^ 2 - r * (x * y)) /\ x ^ 2 + 1 - q * x = b * (x * x + y ^ 2 - r * (x * y)).
Proof.
  intros Q Ey. destruct (factor_nz x Q) as [N Ep]. rewrite Ep in Ey. clear Ep.
  assert (L : y * (b * (p - r * x)) = gao_part1 a b q x) by (rewrite Ey; field; auto).
  pose proof (quartic_elim a b p q r x) as E. rewrite Q, <- L in E.
  assert (E2 : (1 - b) * x ^ 2 - q * x + 1 - b * y ^ 2 + b * r * x * y = 0).
  { apply (Rmult_eq_reg_l ((b * (p - r * x)) ^ 2)).
    - transitivity ((b * (p - r * x)) ^ 2 * ((1 - b) * x ^ 2 - q * x + 1) - b * (y * (b * (p - r * x))) ^ 2
        + b * r * x * (y * (b * (p - r * x)) * (b * (p - r * x)))); [ring|rewrite E; ring].
    - apply pow_nonzero. apply Rmult_integral_contrapositive. auto. }
  split; [|lra]. apply (Rmult_eq_reg_l b); auto. unfold gao_part1 in L.
  assert (E1 : b * ((1 - a) * y ^ 2 - a * (x * x) - p * y + a * r * x * y + 1) = 0).
  { transitivity (b * ((1 - a) * y ^ 2 - a * (x * x) - p * y + a * r * x * y + 1)
      + (1 - a) * ((1 - b) * x ^ 2 - q * x + 1 - b * y ^ 2 + b * r * x * y)); [rewrite E2; ring|].
    transitivity ((1 - a - b) * (x * x) + (q * a - q) * x + (1 - a + b) - y * (b * (p - r * x))); [ring|rewrite L; ring]. }
  lra.
Qed.
Lemma system_root x y : y ^ 2 + 1 - p * y = a * (x * x + y ^ 2 - r * (x * y)) ->
  x ^ 2 + 1 - q * x = b * (x * x + y ^ 2 - r * (x * y)) ->
  gquartic a b p q r x = 0 /\ y = gao_part1 a b q x * gao_part2 a b p q r x / b0.
Proof.
  intros E1 E2.
  assert (L : y * (b * (p - r * x)) = gao_part1 a b q x).
  { unfold gao_part1. assert (b * (y ^ 2 + 1 - p * y) = b * (a * (x * x + y ^ 2 - r * (x * y)))) by (rewrite E1; ring).
    assert ((1 - a) * (x ^ 2 + 1 - q * x) = (1 - a) * (b * (x * x + y ^ 2 - r * (x * y)))) by (rewrite E2; ring). lra. }
  assert (Q : gquartic a b p q r x = 0).
  { apply (Rmult_eq_reg_l (- b)); [|lra]. rewrite <- quartic_elim, <- L.
    transitivity ((b * (p - r * x)) ^ 2 * ((x ^ 2 + 1 - q * x) - b * (x * x + y ^ 2 - r * (x * y)))); [ring|rewrite E2; ring]. }
  split; auto. destruct (factor_nz x Q) as [N ->]. rewrite <- L. field. auto.
Qed.
End Alg2.

(** ** One candidate *)
Lemma dist_rays f g X Y : unit f -> unit g -> norm2 (vsub (vscale X f) (vscale Y g)) = X ^ 2 + Y ^ 2 - 2 * (X * Y) * dot f g.
Proof.
  unfold unit. intros Uf Ug.
  replace (norm2 (vsub (vscale X f) (vscale Y g))) with (X ^ 2 * norm2 f + Y ^ 2 * norm2 g - 2 * (X * Y) * dot f g) by (clear; revert f g; lring).
  rewrite Uf, Ug. ring.
Qed.
Lemma noncollinear_distinct A B C : ~ collinear A B C -> 0 < norm2 (vsub A B) /\ 0 < norm2 (vsub A C) /\ 0 < norm2 (vsub B C).
Proof.
  intro NC. unfold collinear in NC.
  assert (K : forall u w, vsub u w = v0 -> u = w).
  { clear. intros [] []. lunf. intro H. injection H. intros. f_equal; lra. }
  assert (K1 : forall u w, cross (vsub u u) w = v0) by (clear; lring).
  assert (K2 : forall u w, cross w (vsub u u) = v0) by (clear; lring).
  assert (K3 : forall u, cross u u = v0) by (clear; lring).
  repeat split; apply norm2_pos; intro Z; apply K in Z; subst; apply NC; auto.
Qed.
Lemma ratio_sq u w : 0 < norm2 w -> (norm u / norm w) ^ 2 = norm2 u / norm2 w.
Proof.
  intro H. assert (norm w <> 0) by (intro Z; rewrite <- norm_sq, Z in H; lra).
  rewrite <- (norm_sq u), <- (norm_sq w). field. auto.
Qed.

Section One.
Variables (svd : svd_t).
Hypothesis Hsvd : forall H, is_svd H (svd H).
Variables (f1 f2 f3 A B C : vec3).
Hypotheses (U1 : unit f1) (U2 : unit f2) (U3 : unit f3) (NC : ~ collinear A B C).
Let AB := norm (vsub A B).
Let a := norm2 (vsub B C) / norm2 (vsub A B).
Let b := norm2 (vsub A C) / norm2 (vsub A B).
Let p := 2 * dot f2 f3.
Let q := 2 * dot f1 f3.
Let r := 2 * dot f1 f2.

Lemma gao_sound x X : gquartic a b p q r x = 0 -> gao_solution svd f1 f2 f3 A B C AB a b p q r x = Some X ->
  rotation (pR X) /\ exists l1 l2 l3, l1 = x * l3 /\ 0 < l3 /\ sees X f1 A l1 /\ sees X f2 B l2 /\ sees X f3 C l3.
Proof.
  intros Q E. unfold gao_solution in E. cbv zeta in E.
  set (b0 := b * gao_temp a b p q r * gao_temp a b p q r) in *. destruct (Req_EM_T b0 0) as [|Nb]; [discriminate|].
  set (y := gao_part1 a b q x * gao_part2 a b p q r x / b0) in *.
  set (v := x * x + y ^ 2 - r * (x * y)) in *. destruct (Rle_dec v 0) as [|Hv]; [discriminate|].
  apply Rnot_le_lt in Hv.
  assert (Hb : b <> 0) by (intro Z; apply Nb; unfold b0; rewrite Z; ring).
  assert (Ht : gao_temp a b p q r <> 0) by (intro Z; apply Nb; unfold b0; rewrite Z; ring).
  destruct (root_system a b p q r Hb Ht x y Q eq_refl) as [S1 S2]. fold v in S1, S2.
  destruct (noncollinear_distinct A B C NC) as (D1&D2&D3).
  set (Z := AB / sqrt v) in *.
  assert (HZ : 0 < Z) by (apply Rdiv_lt_0_compat; [apply sqrt_lt_R0; auto|now apply sqrt_lt_R0]).
  assert (Z2 : Z ^ 2 * v = norm2 (vsub A B)).
  { rewrite <- norm_sq. fold AB. unfold Z. pose proof (sqrt_lt_R0 v Hv). rewrite <- (sqrt_sqrt v) at 2 by lra. field. lra. }
  destruct (congruent A B C (vscale (x * Z) f1) (vscale (y * Z) f2) (vscale Z f3) NC) as (M&t&RM&E1&E2&E3).
  - rewrite dist_rays by auto. rewrite <- Z2. unfold v, r. ring.
  - rewrite dist_rays by auto. transitivity (Z ^ 2 * (a * v)).
    + replace (Z ^ 2 * (a * v)) with (a * (Z ^ 2 * v)) by ring. rewrite Z2. unfold a. field. lra.
    + rewrite <- S1. unfold p. ring.
  - rewrite dist_rays by auto. transitivity (Z ^ 2 * (b * v)).
    + replace (Z ^ 2 * (b * v)) with (b * (Z ^ 2 * v)) by ring. rewrite Z2. unfold b. field. lra.
    + rewrite <- S2. unfold q. ring.
  - destruct (C30_exact_alignment svd [(A, vscale (x * Z) f1); (B, vscale (y * Z) f2); (C, vscale Z f3)] M t Hsvd) as [RR FF]; auto; [discriminate| |].
    + intros w [<-|[<-|[<-|[]]]]; auto.
    + unfold threept_arun in *. injection E as <-. cbn [pR pt]. split; auto.
      exists (x * Z), (y * Z), Z. split; auto. split; auto. unfold sees. cbn [pR pt].
      assert (K : forall P l f, P = vadd (mv (fst (arun_complete svd [(A, vscale (x * Z) f1); (B, vscale (y * Z) f2); (C, vscale Z f3)])) (vscale l f))
         (snd (arun_complete svd [(A, vscale (x * Z) f1); (B, vscale (y * Z) f2); (C, vscale Z f3)])) ->
         vsub P (snd (arun_complete svd [(A, vscale (x * Z) f1); (B, vscale (y * Z) f2); (C, vscale Z f3)]))
         = vscale l (mv (fst (arun_complete svd [(A, vscale (x * Z) f1); (B, vscale (y * Z) f2); (C, vscale Z f3)])) f)).
      { intros P l f EP. rewrite EP at 1. generalize (arun_complete svd [(A, vscale (x * Z) f1); (B, vscale (y * Z) f2); (C, vscale Z f3)]).
        clear. intros [m u]. cbn [fst snd]. revert l f m u. lring. }
      split; [|split]; apply K.
      * apply (FF (A, vscale (x * Z) f1)). cbn; auto.
      * apply (FF (B, vscale (y * Z) f2)). cbn; auto.
      * apply (FF (C, vscale Z f3)). cbn; auto.
Qed.
Lemma gao_complete X l1 l2 l3 : rotation (pR X) -> 0 < l3 -> sees X f1 A l1 -> sees X f2 B l2 -> sees X f3 C l3 ->
  gao_temp a b p q r <> 0 ->
  exists x, gquartic a b p q r x = 0 /\ gao_solution svd f1 f2 f3 A B C AB a b p q r x = Some X.
Proof.
  intros RX L3 S1 S2 S3 Ht. destruct X as [Rm t]. unfold sees in *. cbn [pR pt] in *.
  destruct (noncollinear_distinct A B C NC) as (D1&D2&D3).
  assert (Hb : b <> 0) by (apply Rgt_not_eq; apply Rdiv_lt_0_compat; auto).
  assert (DS : forall P Q f g l m, unit f -> unit g -> vsub P t = vscale l (mv Rm f) -> vsub Q t = vscale m (mv Rm g) ->
     norm2 (vsub P Q) = l ^ 2 + m ^ 2 - 2 * (l * m) * dot f g).
  { intros P Q f g l m Uf Ug EP EQ. replace (vsub P Q) with (vsub (vsub P t) (vsub Q t)) by (generalize P Q t; clear; lring).
    rewrite EP, EQ, dist_rays by (unfold unit in *; rewrite rot_norm2; auto). now rewrite rot_dot. }
  pose proof (DS A B f1 f2 l1 l2 U1 U2 S1 S2) as D12. pose proof (DS B C f2 f3 l2 l3 U2 U3 S2 S3) as D23.
  pose proof (DS A C f1 f3 l1 l3 U1 U3 S1 S3) as D13.
  set (x := l1 / l3). set (y := l2 / l3).
  assert (X1 : l1 = x * l3) by (unfold x; field; lra). assert (Y1 : l2 = y * l3) by (unfold y; field; lra).
  assert (V : x * x + y ^ 2 - r * (x * y) = norm2 (vsub A B) / l3 ^ 2) by (rewrite D12, X1, Y1; unfold r; field; lra).
  destruct (system_root a b p q r Hb Ht x y) as [Q Ey].
  { rewrite V. unfold a. replace (norm2 (vsub B C) / norm2 (vsub A B) * (norm2 (vsub A B) / l3 ^ 2)) with (norm2 (vsub B C) / l3 ^ 2) by (field; split; lra).
    rewrite D23, Y1. unfold p. field. lra. }
  { rewrite V. unfold b. replace (norm2 (vsub A C) / norm2 (vsub A B) * (norm2 (vsub A B) / l3 ^ 2)) with (norm2 (vsub A C) / l3 ^ 2) by (field; split; lra).
    rewrite D13, X1. unfold q. field. lra. }
  exists x. split; auto. unfold gao_solution. cbv zeta.
  destruct (Req_EM_T _ 0) as [Z0|_]; [exfalso; revert Z0; now apply b0_nz|]. rewrite <- Ey, V.
  assert (VP : 0 < norm2 (vsub A B) / l3 ^ 2) by (apply Rdiv_lt_0_compat; auto; now apply pow_lt).
  destruct (Rle_dec _ 0) as [|_]; [lra|].
  assert (EZ : AB / sqrt (norm2 (vsub A B) / l3 ^ 2) = l3).
  { rewrite sqrt_div_alt by (now apply pow_lt). rewrite sqrt_pow2 by lra. unfold AB, norm. field.
    split; [lra|]. apply Rgt_not_eq. now apply sqrt_lt_R0. }
  rewrite EZ, <- X1, <- Y1.
  assert (E : threept_arun svd [(A, vscale l1 f1); (B, vscale l2 f2); (C, vscale l3 f3)] = (Rm, t)).
  { assert (K : forall P l f, vsub P t = vscale l (mv Rm f) -> P = vadd (mv Rm (vscale l f)) t).
    { clear. intros P l f E. transitivity (vadd (vsub P t) t); [revert P t E; lring|]. rewrite E. clear. revert Rm t l f; lring. }
    apply K in S1, S2, S3. apply C30_recovers_the_motion; auto.
    - intros w [<-|[<-|[<-|[]]]]; auto.
    - exists (A, vscale l1 f1), (B, vscale l2 f2), (C, vscale l3 f3). repeat (split; [cbn; auto|]). cbn [snd].
      intro K0. apply NC. unfold collinear, collinear3 in *. rewrite S1, S2, S3.
      assert (KD : forall u w, vsub (vadd (mv Rm u) t) (vadd (mv Rm w) t) = mv Rm (vsub u w)).
      { clear. intros u w. rewrite mv_sub. generalize (mv Rm u) (mv Rm w). revert t. lring. }
      rewrite !KD.
      apply norm2_zero. rewrite lagrange, !rot_norm2, rot_dot, <- lagrange, K0 by auto. clear. lring. }
  unfold threept_arun in E. now rewrite E.
Qed.
End One.

(** ** The theorems *)
Section Top.
Variables (svd : svd_t) (csqrt ccbrt : cx -> cx).
Hypotheses (Hsvd : forall H, is_svd H (svd H)) (Hsq : is_csqrt csqrt) (Hcb : is_ccbrt ccbrt).

Lemma gao_A_nz f1 f2 A B C : ~ collinear A B C ->
  (norm2 (vsub A B) - norm2 (vsub B C) - norm2 (vsub A C)) ^ 2 <> 4 * norm2 (vsub B C) * norm2 (vsub A C) * dot f1 f2 ^ 2 <->
  gao_A (norm2 (vsub B C) / norm2 (vsub A B)) (norm2 (vsub A C) / norm2 (vsub A B)) (2 * dot f1 f2) <> 0.
Proof.
  intro NC. destruct (noncollinear_distinct A B C NC) as (D1&_&_).
  assert (E : gao_A (norm2 (vsub B C) / norm2 (vsub A B)) (norm2 (vsub A C) / norm2 (vsub A B)) (2 * dot f1 f2)
    = ((norm2 (vsub A B) - norm2 (vsub B C) - norm2 (vsub A C)) ^ 2 - 4 * norm2 (vsub B C) * norm2 (vsub A C) * dot f1 f2 ^ 2) / norm2 (vsub A B) ^ 2).
  { unfold gao_A. field. lra. }
  rewrite E. split; intros H G; apply H.
  - apply (Rmult_eq_compat_r (norm2 (vsub A B) ^ 2)) in G. field_simplify in G; lra.
  - rewrite G. field. lra.
Qed.
(** vanishes when the two cosine laws do not determine the second distance from the first *)
Definition gao_singular (f1 f2 f3 A B C : vec3) : Prop :=
  dot f2 f3 ^ 2 * (norm2 (vsub B C) + norm2 (vsub A C) - norm2 (vsub A B))
  + 2 * dot f2 f3 * dot f1 f3 * dot f1 f2 * (norm2 (vsub A B) - norm2 (vsub B C))
  - dot f1 f2 ^ 2 * (norm2 (vsub A B) + norm2 (vsub A C) - norm2 (vsub B C)) = 0.
Lemma gao_temp_z f1 f2 f3 A B C : ~ collinear A B C -> gao_singular f1 f2 f3 A B C <->
  gao_temp (norm2 (vsub B C) / norm2 (vsub A B)) (norm2 (vsub A C) / norm2 (vsub A B)) (2 * dot f2 f3) (2 * dot f1 f3) (2 * dot f1 f2) = 0.
Proof.
  intro NC. destruct (noncollinear_distinct A B C NC) as (D1&_&_).
  assert (E : gao_temp (norm2 (vsub B C) / norm2 (vsub A B)) (norm2 (vsub A C) / norm2 (vsub A B)) (2 * dot f2 f3) (2 * dot f1 f3) (2 * dot f1 f2)
    = 4 * (dot f2 f3 ^ 2 * (norm2 (vsub B C) + norm2 (vsub A C) - norm2 (vsub A B))
  + 2 * dot f2 f3 * dot f1 f3 * dot f1 f2 * (norm2 (vsub A B) - norm2 (vsub B C))
  - dot f1 f2 ^ 2 * (norm2 (vsub A B) + norm2 (vsub A C) - norm2 (vsub B C))) / norm2 (vsub A B)).
  { unfold gao_temp. field. lra. }
  rewrite E. unfold gao_singular. split; intro H.
  - rewrite H. field. lra.
  - apply (Rmult_eq_compat_r (norm2 (vsub A B))) in H. field_simplify in H; lra.
Qed.
(** the shape of the result *)
Lemma gao_shape f1 f2 f3 A B C : ~ collinear A B C ->
  let a := norm2 (vsub B C) / norm2 (vsub A B) in let b := norm2 (vsub A C) / norm2 (vsub A B) in
  let p := 2 * dot f2 f3 in let q := 2 * dot f1 f3 in let r := 2 * dot f1 f2 in
  let out := p3p_gao svd csqrt ccbrt f1 f2 f3 A B C in
  (out = [] /\ (p * p + q * q + r * r - p * q * r - 1 = 0 \/ gao_A a b r = 0)) \/
  (gao_A a b r <> 0 /\ p * p + q * q + r * r - p * q * r - 1 <> 0 /\
   (out = all_nan \/ exists zs, factorises [gao_A a b r; gao_B a b p q r; gao_C a b p q r; gao_D a b p q r; gao_E a b p] zs /\ length zs = 4%nat /\
     out = map (gao_solution svd f1 f2 f3 A B C (norm (vsub A B)) a b p q r) (map re zs) /\
     forall x, gquartic a b p q r x = 0 -> In x (map re zs))).
Proof.
  intro NC. destruct (noncollinear_distinct A B C NC) as (D1&D2&D3). cbv zeta.
  unfold p3p_gao. cbv zeta. rewrite !ratio_sq by auto.
  destruct (Req_EM_T (norm _) 0) as [Z|_]; [rewrite <- norm_sq, Z in D1; lra|].
  destruct (Req_EM_T _ 0) as [Z|N1]; [left; split; auto|].
  destruct (Req_EM_T _ 0) as [Z|N2]; [left; split; auto|]. right. split; auto. split; auto.
  destruct (o4_cases csqrt ccbrt Hsq Hcb _ (gao_B (norm2 (vsub B C) / norm2 (vsub A B)) (norm2 (vsub A C) / norm2 (vsub A B)) (2 * dot f2 f3) (2 * dot f1 f3) (2 * dot f1 f2))
     (gao_C (norm2 (vsub B C) / norm2 (vsub A B)) (norm2 (vsub A C) / norm2 (vsub A B)) (2 * dot f2 f3) (2 * dot f1 f3) (2 * dot f1 f2))
     (gao_D (norm2 (vsub B C) / norm2 (vsub A B)) (norm2 (vsub A C) / norm2 (vsub A B)) (2 * dot f2 f3) (2 * dot f1 f3) (2 * dot f1 f2))
     (gao_E (norm2 (vsub B C) / norm2 (vsub A B)) (norm2 (vsub A C) / norm2 (vsub A B)) (2 * dot f2 f3)) N2) as [E|(zs&F&E&L&R)].
  - left. rewrite E. reflexivity.
  - right. exists zs. rewrite E. auto.
Qed.

(** the cosine laws for the distances x, y, 1 up to scale *)
Definition cosine_laws (f1 f2 f3 A B C : vec3) (x y : R) : Prop :=
  let v := x ^ 2 + y ^ 2 - 2 * (x * y) * dot f1 f2 in
  (y ^ 2 + 1 - 2 * y * dot f2 f3) * norm2 (vsub A B) = norm2 (vsub B C) * v /\
  (x ^ 2 + 1 - 2 * x * dot f1 f3) * norm2 (vsub A B) = norm2 (vsub A C) * v.
Lemma cosine_laws_quartic f1 f2 f3 A B C x : ~ collinear A B C -> ~ gao_singular f1 f2 f3 A B C ->
  gquartic (norm2 (vsub B C) / norm2 (vsub A B)) (norm2 (vsub A C) / norm2 (vsub A B)) (2 * dot f2 f3) (2 * dot f1 f3) (2 * dot f1 f2) x = 0
  <-> exists y, cosine_laws f1 f2 f3 A B C x y.
Proof.
  intros NC NS. rewrite gao_temp_z in NS by auto. destruct (noncollinear_distinct A B C NC) as (D1&D2&_).
  assert (Hb : norm2 (vsub A C) / norm2 (vsub A B) <> 0) by (apply Rgt_not_eq, Rdiv_lt_0_compat; auto).
  split.
  - intro Q. pose proof (root_system _ _ _ _ _ Hb NS x _ Q eq_refl) as [E1 E2].
    match type of E1 with ?y ^ 2 + _ - _ = _ => generalize dependent y end. intros y E1 E2. exists y. unfold cosine_laws. cbv zeta. split.
    + replace (y ^ 2 + 1 - 2 * y * dot f2 f3) with (y ^ 2 + 1 - 2 * dot f2 f3 * y) by ring. rewrite E1. field. lra.
    + replace (x ^ 2 + 1 - 2 * x * dot f1 f3) with (x ^ 2 + 1 - 2 * dot f1 f3 * x) by ring. rewrite E2. field. lra.
  - intros (y&E1&E2). apply (system_root _ _ _ _ _ Hb NS x y).
    + apply (Rmult_eq_reg_r (norm2 (vsub A B))); [|lra].
      replace ((y ^ 2 + 1 - 2 * dot f2 f3 * y) * norm2 (vsub A B)) with ((y ^ 2 + 1 - 2 * y * dot f2 f3) * norm2 (vsub A B)) by ring.
      rewrite E1. field. lra.
    + apply (Rmult_eq_reg_r (norm2 (vsub A B))); [|lra].
      replace ((x ^ 2 + 1 - 2 * dot f1 f3 * x) * norm2 (vsub A B)) with ((x ^ 2 + 1 - 2 * x * dot f1 f3) * norm2 (vsub A B)) by ring.
      rewrite E2. field. lra.
Qed.

(** A real root of the quartic gives a pose that sees the three points along
    their bearings, the third one in front of the camera; the quartic is the
    one whose real roots are the ratios of the first to the third distance
    that satisfy the cosine laws. *)
Theorem C43_real_roots : forall f1 f2 f3 A B C, unit f1 -> unit f2 -> unit f3 -> ~ collinear A B C ->
  let out := p3p_gao svd csqrt ccbrt f1 f2 f3 A B C in
  out = [] \/ out = all_nan \/
  (length out = 4%nat /\ exists p zs, hd 0 p <> 0 /\ length p = 5%nat /\ factorises p zs /\ length zs = 4%nat /\
    (~ gao_singular f1 f2 f3 A B C -> forall x, peval p x = 0 <-> exists y, cosine_laws f1 f2 f3 A B C x y) /\
    forall i X, nth i out None = Some X -> im (nth i zs c0) = 0 ->
      rotation (pR X) /\ exists l1 l2 l3, l1 = re (nth i zs c0) * l3 /\ 0 < l3 /\ sees X f1 A l1 /\ sees X f2 B l2 /\ sees X f3 C l3).
Proof.
  intros f1 f2 f3 A B C U1 U2 U3 NC out. unfold out.
  destruct (gao_shape f1 f2 f3 A B C NC) as [[E _]|(NA&_&[E|(zs&F&L&E&R)])]; auto.
  right. right. rewrite E. split; [now rewrite !map_length|].
  eexists. exists zs. split; [|split; [|split; [exact F|split; [exact L|split]]]]; auto.
  - intros NS x. rewrite <- cosine_laws_quartic by auto. unfold gquartic. cbn. split; intro H; lra.
  - intros i X Hi Hm. destruct (nth_map_some _ _ _ _ Hi) as (w&Ew&Hw). rewrite Ew in *.
    apply (gao_sound svd Hsvd f1 f2 f3 A B C U1 U2 U3 NC (re w) X); auto.
    assert (Iw : In w zs).
    { rewrite <- Ew. apply nth_In. destruct (Nat.lt_ge_cases i (length zs)) as [|G]; auto.
      rewrite nth_overflow in Hi by (rewrite !map_length; auto). discriminate. }
    replace w with (RtoC (re w)) in Iw by (destruct w; cbn in *; unfold RtoC; now rewrite Hm).
    apply (factorises_real _ _ F NA) in Iw. cbn in Iw. unfold gquartic. lra.
Qed.
(** Noise-free data: outside the three singular cases, and unless the root
    finder divides by zero, the true pose is among the results.  The first two
    points may be behind the camera. *)
Theorem C43_true_pose : forall f1 f2 f3 A B C X l1 l2 l3, unit f1 -> unit f2 -> unit f3 -> ~ collinear A B C ->
  rotation (pR X) -> sees X f1 A l1 -> sees X f2 B l2 -> sees X f3 C l3 -> 0 < l3 ->
  4 * (dot f2 f3 ^ 2 + dot f1 f3 ^ 2 + dot f1 f2 ^ 2 - 2 * dot f2 f3 * dot f1 f3 * dot f1 f2) <> 1 ->
  (norm2 (vsub A B) - norm2 (vsub B C) - norm2 (vsub A C)) ^ 2 <> 4 * norm2 (vsub B C) * norm2 (vsub A C) * dot f1 f2 ^ 2 ->
  ~ gao_singular f1 f2 f3 A B C ->
  let out := p3p_gao svd csqrt ccbrt f1 f2 f3 A B C in out = all_nan \/ In (Some X) out.
Proof.
  intros f1 f2 f3 A B C X l1 l2 l3 U1 U2 U3 NC RX S1 S2 S3 L3 H1 H2 H3 out. unfold out.
  rewrite gao_temp_z in H3 by auto. rewrite gao_A_nz in H2 by auto.
  destruct (gao_shape f1 f2 f3 A B C NC) as [[_ [Z|Z]]|(NA&_&[E|(zs&F&L&E&R)])]; auto; [exfalso; apply H1; lra|contradiction|].
  right. destruct (gao_complete svd Hsvd f1 f2 f3 A B C U1 U2 U3 NC X l1 l2 l3) as (x&Q&G); auto.
  rewrite E, <- G. apply in_map. now apply R.
Qed.
(** The three cases. *)
Theorem C43_three_cases_refuted : forall f1 f2 f3 A B C, ~ collinear A B C ->
  let out := p3p_gao svd csqrt ccbrt f1 f2 f3 A B C in
  (4 * (dot f2 f3 ^ 2 + dot f1 f3 ^ 2 + dot f1 f2 ^ 2 - 2 * dot f2 f3 * dot f1 f3 * dot f1 f2) = 1 -> out = []) /\
  ((norm2 (vsub A B) - norm2 (vsub B C) - norm2 (vsub A C)) ^ 2 = 4 * norm2 (vsub B C) * norm2 (vsub A C) * dot f1 f2 ^ 2 -> out = []) /\
  (gao_singular f1 f2 f3 A B C -> forall X, ~ In (Some X) out).
Proof.
  intros f1 f2 f3 A B C NC out. unfold out. pose proof (gao_A_nz f1 f2 A B C NC) as KA. pose proof (gao_temp_z f1 f2 f3 A B C NC) as KT.
  destruct (gao_shape f1 f2 f3 A B C NC) as [[E _]|(NA&N1&K)].
  - rewrite E. auto.
  - split; [intro Z; exfalso; apply N1; lra|]. split; [intro Z; exfalso; apply KA in NA; lra|].
    intros T X. apply KT in T. destruct K as [E|(zs&_&_&E&_)]; rewrite E.
    + cbn. intuition discriminate.
    + intro I. apply in_map_iff in I. destruct I as (x&G&_). unfold gao_solution in G. cbv zeta in G. rewrite T in G.
      destruct (Req_EM_T _ 0) as [_|N]; [discriminate|apply N; ring].
Qed.
End Top.
