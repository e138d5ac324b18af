(** C49: the seven- and eight-point solvers. *)
From Coq Require Import Reals Lra Psatz Lia List.
From Verif Require Import Lin GenLin GenSpectral Spectral ArunProps TriModel Cplx SturmModel SturmProofs RootsProps EpiModel.
Import ListNotations.
Local Open Scope R_scope.

(** * Specification *)
(** epipolar constraint of a correspondence: bearing1^T F bearing2 *)
Definition epi (F : mat3) (c : vec3 * vec3) : R := dot (fst c) (mv F (snd c)).
Definition satisfies (F : mat3) (l : list (vec3 * vec3)) : Prop := forall c, In c l -> epi F c = 0.
(** squared Frobenius norm *)
Definition fnorm2 (F : mat3) : R := trace (mmul (mT F) F).
(** sum of the squared algebraic errors *)
Definition epi_error (F : mat3) (l : list (vec3 * vec3)) : R := rsum (map (fun c => epi F c ^ 2) l).
(** essential matrix of the relative pose (R, t) *)
Definition essential (R12 : mat3) (t12 : vec3) : mat3 := mmul (skew t12) R12.
(** [svdV] is correct on the coefficient matrix of l *)
Definition good_svdV (svdV : (nat -> nat -> R) -> nat -> nat -> R) (l : list (vec3 * vec3)) : Prop :=
  exists U s, is_gsvd (length l) 9 (epiA l) U s (svdV (epiA l)).

(** * Lemmas *)
Lemma epi_mvec l f i : mvec 9 (epiA l) f i = epi (to_mat f) (nth i l (v0, v0)).
Proof. unfold mvec, vdot, epiA, epi_row, epi, to_mat. destruct (nth i l (v0, v0)) as [[] []]. cbn. lunf. ring. Qed.
Definition of_mat (F : mat3) (j : nat) : R := ventry (mrow3 F (Nat.div j 3)) (Nat.modulo j 3).
Lemma to_of F : to_mat (of_mat F) = F.
Proof. destruct F. reflexivity. Qed.
Lemma to_mat_ext f g : (forall j, (j < 9)%nat -> f j = g j) -> to_mat f = to_mat g.
Proof. intro H. unfold to_mat. rewrite !H by lia. reflexivity. Qed.
Lemma to_mat_inj f g : to_mat f = to_mat g -> forall j, (j < 9)%nat -> f j = g j.
Proof.
  unfold to_mat. intro H. lunf. injection H as H0 H1 H2 H3 H4 H5 H6 H7 H8. intros j Hj.
  do 9 (destruct j as [|j]; [auto|]). lia.
Qed.
Lemma fnorm_vdot f : vdot 9 f f = fnorm2 (to_mat f).
Proof. unfold fnorm2, to_mat, vdot. cbn. lunf. ring. Qed.
Lemma err_vdot l F f : F = to_mat f -> vdot (length l) (mvec 9 (epiA l) f) (mvec 9 (epiA l) f) = epi_error F l.
Proof.
  intros ->. unfold vdot. rewrite (sumn_ext _ _ (fun i => epi (to_mat f) (nth i l (v0, v0)) ^ 2)) by (intros; rewrite epi_mvec; ring).
  unfold epi_error. induction l as [|c l IH] using rev_ind; [reflexivity|].
  rewrite app_length, Nat.add_1_r. cbn [sumn]. rewrite map_app. cbn [map].
  rewrite (sumn_ext _ _ (fun i => epi (to_mat f) (nth i l (v0, v0)) ^ 2)) by (intros i Hi; now rewrite app_nth1).
  rewrite IH. rewrite app_nth2, Nat.sub_diag by lia. cbn [nth]. rewrite rsum_app. sums. ring.
Qed.
Lemma satisfies_kernel F f l : F = to_mat f -> satisfies F l <-> forall i, (i < length l)%nat -> mvec 9 (epiA l) f i = 0.
Proof.
  intros ->. split.
  - intros H i Hi. rewrite epi_mvec. apply H. now apply nth_In.
  - intros H c Hc. apply (In_nth _ _ (v0, v0)) in Hc. destruct Hc as (i & Hi & <-). rewrite <- epi_mvec. auto.
Qed.
Lemma mat_nonzero f : to_mat f <> mzero -> exists j, (j < 9)%nat /\ f j <> 0.
Proof.
  intro N. destruct (Classical_Prop.classic (exists j, (j < 9)%nat /\ f j <> 0)) as [|A]; auto. exfalso. apply N.
  rewrite (to_mat_ext f (fun _ => 0)); [reflexivity|]. intros j Hj. destruct (Req_dec (f j) 0); auto. exfalso. eauto.
Qed.

(** * Eight points *)
(** The result is always singular (rank at most two). *)
Theorem C49_eightpt_rank : forall svdV svd3 l, det (eightpt svdV svd3 l) = 0.
Proof.
  intros. unfold eightpt. destruct (svd3 _) as [[U s] V]. rewrite !det_mmul.
  assert (E : det (diag (vx s) (vy s) 0) = 0) by (lunf; ring). rewrite E. ring.
Qed.

Lemma orth_n2 A u : orthogonal A -> norm2 (mv A u) = norm2 u.
Proof. intro H. unfold norm2. now apply orth_dot. Qed.
Lemma fnorm_rows F : fnorm2 F = norm2 (row F 0) + norm2 (row F 1) + norm2 (row F 2).
Proof. unfold fnorm2. destruct F. lunf. ring. Qed.
Lemma fnorm_ge F x : unit x -> norm2 (mv F x) <= fnorm2 F.
Proof.
  intro U. unfold unit in U. destruct F as [a b c d e f g h i], x as [x y z]. unfold fnorm2. revert U. lunf. intro U.
  assert (CS : forall a b c, (a * x + b * y + c * z) ^ 2 <= a * a + b * b + c * c).
  { clear - U. intros a b c. replace (a * a + b * b + c * c) with ((a * a + b * b + c * c) * (x * x + y * y + z * z)) by (rewrite U; ring).
    pose proof (pow2_ge_0 (a * y - b * x)). pose proof (pow2_ge_0 (a * z - c * x)). pose proof (pow2_ge_0 (b * z - c * y)). nra. }
  pose proof (CS a b c). pose proof (CS d e f). pose proof (CS g h i). lra.
Qed.
Lemma fnorm_orth U V F : orthogonal U -> orthogonal V -> fnorm2 (mmul U (mmul F (mT V))) = fnorm2 F.
Proof.
  intros HU HV. unfold fnorm2. rewrite !mT_mmul, mT_mT.
  transitivity (trace (mmul V (mmul (mmul (mT F) F) (mT V)))).
  - apply f_equal. rewrite <- !mmul_assoc. rewrite (mmul_assoc (mT U) U), HU, mmul_id_l. reflexivity.
  - transitivity (trace (mmul (mT V) (mmul V (mmul (mT F) F)))); [generalize (mmul (mT F) F); clear; intro; lring|].
    rewrite mmul_assoc, HV, mmul_id_l. reflexivity.
Qed.
Lemma smallest_diag p q r a b c : q <= p -> r <= q -> 0 <= r -> a * a + b * b + c * c = 1 ->
  r * r <= p * a * (p * a) + q * b * (q * b) + r * c * (r * c).
Proof.
  intros H1 H2 H3 H. assert (P : r * r <= p * p) by (clear - H1 H2 H3; nra). assert (Q : r * r <= q * q) by (clear - H2 H3; nra).
  pose proof (Rmult_le_compat_r (a * a) _ _ (Rle_0_sqr a) P). pose proof (Rmult_le_compat_r (b * b) _ _ (Rle_0_sqr b) Q).
  assert (r * r = r * r * (a * a + b * b + c * c)) by (rewrite H; ring). lra.
Qed.
(** In general it is the singular matrix closest to a unit matrix with the
    smallest algebraic error. *)
Theorem C49_eightpt_optimal : forall svdV svd3 l, good_svdV svdV l -> (forall F, is_svd F (svd3 F)) ->
  exists F, fnorm2 F = 1 /\ (forall G, fnorm2 G = 1 -> epi_error F l <= epi_error G l) /\
    (forall B, det B = 0 -> fnorm2 (msub (eightpt svdV svd3 l) F) <= fnorm2 (msub B F)).
Proof.
  intros svdV svd3 l (U & s & H) S3. exists (to_mat (gcol (svdV (epiA l)) 8)). split; [|split].
  - rewrite <- fnorm_vdot. apply (gorth_unit 9); [apply (gsvd_V _ _ _ _ _ _ H)|lia].
  - intros G HG. rewrite <- (err_vdot l _ (gcol (svdV (epiA l)) 8) eq_refl), <- (err_vdot l G (of_mat G)) by (now rewrite to_of).
    pose proof (gsvd_last_min _ _ _ _ _ _ (of_mat G) H ltac:(lia)) as M. cbn [Nat.sub] in M.
    rewrite (fnorm_vdot (of_mat G)), to_of, HG, Rmult_1_r in M. exact M.
  - intros B HB. unfold eightpt. set (F := to_mat (gcol (svdV (epiA l)) 8)). clearbody F.
    specialize (S3 F). destruct (svd3 F) as [[U3 s3] V3]. destruct S3 as (OU & OV & S1 & S2 & S0 & EF).
    assert (E : fnorm2 (msub (mmul (mmul U3 (diag (vx s3) (vy s3) 0)) (mT V3)) F) = vz s3 * vz s3).
    { transitivity (fnorm2 (mmul U3 (mmul (diag 0 0 (- vz s3)) (mT V3)))).
      - apply f_equal. rewrite EF. clear. lring.
      - rewrite fnorm_orth by auto. unfold fnorm2. lunf. ring. }
    rewrite E. destruct (null_vector B HB) as (x & Ux & Kx).
    apply Rle_trans with (norm2 (mv (msub B F) x)); [|now apply fnorm_ge].
    assert (E2 : norm2 (mv (msub B F) x) = norm2 (mv F x)).
    { assert (mv (msub B F) x = vneg (mv F x)). { transitivity (vsub (mv B x) (mv F x)); [clear; lring|]. rewrite Kx. clear. lring. }
      rewrite H0. clear. lring. }
    rewrite E2, EF.
    assert (E3 : norm2 (mv (mmul U3 (mmul (diag (vx s3) (vy s3) (vz s3)) (mT V3))) x) = norm2 (mv (diag (vx s3) (vy s3) (vz s3)) (mv (mT V3) x))).
    { rewrite mv_mmul, orth_n2 by auto. rewrite mv_mmul. reflexivity. }
    rewrite E3. assert (Uy : norm2 (mv (mT V3) x) = 1) by (rewrite orth_n2; auto; now apply orth_T).
    destruct (mv (mT V3) x) as [a b c]. revert Uy. lunf. intro Uy.
    pose proof (smallest_diag (vx s3) (vy s3) (vz s3) a b c ltac:(lra) ltac:(lra) ltac:(lra) Uy). lra.
Qed.

(** Noise-free correspondences that determine the essential matrix up to scale. *)
Theorem C49_eightpt_exact : forall svdV svd3 l R12 t12, good_svdV svdV l -> (forall F, is_svd F (svd3 F)) ->
  rotation R12 -> t12 <> v0 -> satisfies (essential R12 t12) l ->
  (forall G, satisfies G l -> exists c, G = mscale c (essential R12 t12)) ->
  exists c, c <> 0 /\ eightpt svdV svd3 l = mscale c (essential R12 t12).
Proof.
  intros svdV svd3 l R12 t12 (U & s & H) S3 [Ro _] Nt Sat Uni. unfold eightpt. set (F := to_mat (gcol (svdV (epiA l)) 8)).
  assert (NE : essential R12 t12 <> mzero).
  { intro Z. apply Nt. unfold essential in Z. assert (Zs : skew t12 = mzero).
    { transitivity (mmul (mmul (skew t12) R12) (mT R12)); [rewrite <- mmul_assoc, (orth_r _ Ro); clear; lring|]. rewrite Z. clear. lring. }
    clear - Zs. destruct t12. revert Zs. lunf. intro Q. injection Q as Q1 Q2 Q3 Q4 Q5 Q6. f_equal; lra. }
  assert (SF : satisfies F l).
  { apply (satisfies_kernel F _ l eq_refl).
    apply (gsvd_last_kernel _ _ _ _ _ _ H (of_mat (essential R12 t12)) ltac:(lia)).
    - apply (satisfies_kernel (essential R12 t12)); [symmetry; apply to_of|auto].
    - apply mat_nonzero. now rewrite to_of. }
  destruct (Uni F SF) as (c & EFc). exists c. split.
  - intros ->. assert (N1 : fnorm2 F = 1).
    { unfold F. rewrite <- fnorm_vdot. apply (gorth_unit 9); [apply (gsvd_V _ _ _ _ _ _ H)|lia]. }
    rewrite EFc in N1. revert N1. clear. unfold fnorm2. generalize (essential R12 t12). intros [] N1. revert N1. lunf. lra.
  - rewrite <- EFc. assert (DF : det F = 0).
    { rewrite EFc, det_mscale. unfold essential. rewrite det_mmul. assert (E : det (skew t12) = 0) by (clear; lring). rewrite E. ring. }
    clearbody F. specialize (S3 F). destruct (svd3 F) as [[U3 s3] V3]. destruct S3 as (OU & OV & S1 & S2 & S0 & EF).
    assert (Z : vz s3 = 0).
    { rewrite EF, !det_mmul, det_mT in DF. pose proof (orth_det_nz _ OU). pose proof (orth_det_nz _ OV).
      apply Rmult_integral in DF. destruct DF as [DF|DF]; [contradiction|]. apply Rmult_integral in DF. destruct DF as [DF|DF]; [|contradiction].
      revert DF. lunf. intro DF. assert (Q : vx s3 * vy s3 * vz s3 = 0) by lra.
      apply Rmult_integral in Q. destruct Q as [Q|]; auto. apply Rmult_integral in Q. destruct Q; lra. }
    rewrite EF at 1. rewrite Z. now rewrite mmul_assoc.
Qed.

(** * Seven points *)
(** characteristic polynomial and what the eigenvalues must be *)
Definition charpoly (M : mat3) : list R := [1; - trace M; trace (adj M); - det M].
Lemma charpoly_det M x : peval (charpoly M) x = det (msub (mscale x mid) M).
Proof. destruct M. cbn. lunf. ring. Qed.
Definition good_eig (eig : mat3 -> cx * cx * cx) : Prop := forall M, let '(a, b, c) := eig M in factorises (charpoly M) [a; b; c].

Lemma seven_kernel svdV l k : good_svdV svdV l -> (length l <= k < 9)%nat -> satisfies (to_mat (gcol (svdV (epiA l)) k)) l.
Proof.
  intros (U & s & H) Hk. apply (satisfies_kernel _ _ l eq_refl). intros i Hi. rewrite (gsvd_col _ _ _ _ _ _ H) by lia.
  replace (Nat.ltb k (Nat.min (length l) 9)) with false; auto. symmetry. apply Nat.ltb_ge. lia.
Qed.
Lemma epi_lin F G a c : epi (madd F (mneg (mscale a G))) c = epi F c - a * epi G c.
Proof. unfold epi. destruct c as [u v]. cbn [fst snd]. clear. lring. Qed.
Lemma satisfies_lin F G a l : satisfies F l -> satisfies G l -> satisfies (madd F (mneg (mscale a G))) l.
Proof. intros HF HG c Hc. rewrite epi_lin, HF, HG by auto. ring. Qed.

(** the eigenvalue chosen when not all are real *)
Lemma det_pencil F1 F2 a : det F2 <> 0 -> det (madd F1 (mneg (mscale a F2))) = - det F2 * peval (charpoly (mmul (minv F2) F1)) a.
Proof.
  intro N. rewrite charpoly_det.
  transitivity (det (mmul F2 (mneg (msub (mscale a mid) (mmul (minv F2) F1))))).
  - apply f_equal. transitivity (madd (mmul (mmul F2 (minv F2)) F1) (mneg (mscale a F2))).
    + rewrite minv_r by auto. clear. lring.
    + generalize (minv F2). clear. intro. lring.
  - rewrite det_mmul. generalize (msub (mscale a mid) (mmul (minv F2) F1)). clear. intro. lring.
Qed.
Definition cconj (z : cx) : cx := Cx (re z) (- im z).
Lemma cpoly_conj p z : cpoly p (cconj z) = cconj (cpoly p z).
Proof.
  unfold cpoly. assert (G : forall p a b, b = cconj a -> fold_left (fun acc c => cadd (cmul acc (cconj z)) (RtoC c)) p b = cconj (fold_left (fun acc c => cadd (cmul acc z) (RtoC c)) p a)).
  { clear. induction p as [|c p IH]; intros a b E; cbn [fold_left]; auto. apply IH. subst b. apply cx_eq; cbn; ring. }
  apply G. apply cx_eq; cbn; ring.
Qed.
Lemma factorises_conj p zs z : factorises p zs -> hd 0 p <> 0 -> In z zs -> In (cconj z) zs.
Proof.
  intros F N H. assert (E : cpoly p (cconj z) = c0).
  { rewrite cpoly_conj, F, (prod_root _ _ _ H). apply cx_eq; cbn; ring. }
  rewrite F in E. apply prod_zero in E. destruct E as [E|]; auto. exfalso. now apply (RtoC_neq _ N).
Qed.
Lemma conj_neq z : im z <> 0 -> cconj z <> z.
Proof. intros N E. apply N. assert (im (cconj z) = im z) by (now rewrite E). cbn in H. lra. Qed.
(** three roots of a real cubic: all real, or exactly one *)
Lemma three_roots p a b c : factorises p [a; b; c] -> hd 0 p <> 0 ->
  (im a = 0 /\ im b = 0 /\ im c = 0) \/ (im a = 0 /\ im b <> 0 /\ im c <> 0) \/ (im a <> 0 /\ im b = 0 /\ im c <> 0) \/ (im a <> 0 /\ im b <> 0 /\ im c = 0)
  \/ (im a <> 0 /\ im b <> 0 /\ im c <> 0).
Proof.
  intros F N.
  assert (K : forall z, In z [a; b; c] -> im z <> 0 -> exists w, In w [a; b; c] /\ w <> z /\ im w <> 0).
  { intros z Hz Nz. exists (cconj z). split; [now apply (factorises_conj p)|]. split; [now apply conj_neq|cbn; lra]. }
  destruct (Req_dec (im a) 0) as [A|A], (Req_dec (im b) 0) as [B|B], (Req_dec (im c) 0) as [C|C]; try tauto; exfalso.
  - destruct (K c ltac:(cbn; tauto) C) as (w & [<-|[<-|[<-|[]]]] & W1 & W2); tauto.
  - destruct (K b ltac:(cbn; tauto) B) as (w & [<-|[<-|[<-|[]]]] & W1 & W2); tauto.
  - destruct (K a ltac:(cbn; tauto) A) as (w & [<-|[<-|[<-|[]]]] & W1 & W2); tauto.
Qed.
Lemma real_root_exists M a b c : factorises (charpoly M) [a; b; c] -> exists z, In z [a; b; c] /\ im z = 0.
Proof.
  intro F. destruct (cubic_root (- trace M) (trace (adj M)) (- det M)) as (x & Hx). exists (RtoC x). split; [|reflexivity].
  apply (factorises_real _ _ F); cbn; lra.
Qed.
(** the solution made from an eigenvalue *)
Definition pencil_sol (F1 F2 : mat3) (D : cx) : mat3 := madd F1 (mneg (mscale (re D) F2)).
(** What sevenpt returns, for at most seven correspondences. *)
Lemma sevenpt_cases svdV eig l : (length l <= 7)%nat -> good_eig eig ->
  let F1 := to_mat (gcol (svdV (epiA l)) 8) in
  let F2 := to_mat (gcol (svdV (epiA l)) 7) in
  (Rabs (det F1) < eps /\ sevenpt svdV eig l = Some [F1]) \/
  (eps <= Rabs (det F1) /\ det F2 = 0 /\ sevenpt svdV eig l = None) \/
  (eps <= Rabs (det F1) /\ det F2 <> 0 /\ exists a b c, factorises (charpoly (mmul (minv F2) F1)) [a; b; c] /\ eig (mmul (minv F2) F1) = (a, b, c) /\
     ((Rabs (im a) < eps /\ Rabs (im b) < eps /\ Rabs (im c) < eps /\ sevenpt svdV eig l = Some [pencil_sol F1 F2 a; pencil_sol F1 F2 b; pencil_sol F1 F2 c]) \/
      ((eps <= Rabs (im a) \/ eps <= Rabs (im b) \/ eps <= Rabs (im c)) /\ exists d, In d [a; b; c] /\ im d = 0 /\ sevenpt svdV eig l = Some [pencil_sol F1 F2 d]))).
Proof.
  intros Hl GE F1 F2. unfold sevenpt. fold F1 F2. replace (Nat.ltb 7 (length l)) with false by (symmetry; now apply Nat.ltb_ge).
  rewrite Bool.orb_false_r. destruct (Rlt_dec (Rabs (det F1)) eps) as [L|L]; [left; auto|right].
  destruct (Req_EM_T (det F2) 0) as [Z|Z]; [left; split; [lra|auto]|right]. split; [lra|]. split; [auto|].
  pose proof (GE (mmul (minv F2) F1)) as G. destruct (eig (mmul (minv F2) F1)) as [[a b] c].
  exists a, b, c. split; [auto|]. split; [auto|]. destruct (real_root_exists _ _ _ _ G) as (z & Hz & Iz).
  assert (Rz : Rabs (im z) = 0) by (rewrite Iz; apply Rabs_R0).
  destruct (Rlt_dec (Rabs (im a)) eps) as [A|A], (Rlt_dec (Rabs (im b)) eps) as [B|B], (Rlt_dec (Rabs (im c)) eps) as [C|C]; cbn [andb];
    try (left; split; [lra|split; [lra|split; [lra|reflexivity]]]);
    right; (split; [lra|]).
  all: pose proof (Rabs_pos (im a)); pose proof (Rabs_pos (im b)); pose proof (Rabs_pos (im c)).
  all: assert (P0 : forall w, Rabs (im w) <= 0 -> im w = 0) by (intros w Hw; destruct (Req_dec (im w) 0) as [|N]; auto; pose proof (Rabs_pos_lt _ N); lra).
  all: destruct (Rlt_dec (Rabs (im b)) (Rabs (im a))) as [AB|AB]; destruct (Rlt_dec (Rabs (im c)) _) as [MC|MC].
  all: eexists; (split; [|split; [|reflexivity]]); [cbn; tauto|].
  all: apply P0; destruct Hz as [<-|[<-|[<-|[]]]]; lra.
Qed.

(** Every returned matrix satisfies all epipolar constraints. *)
Theorem C49_sevenpt_constraints : forall svdV eig l Fs F, good_svdV svdV l -> good_eig eig -> (length l <= 7)%nat ->
  sevenpt svdV eig l = Some Fs -> In F Fs -> forall c, In c l -> dot (fst c) (mv F (snd c)) = 0.
Proof.
  intros svdV eig l Fs F GS GE Hl E HF. change (satisfies F l).
  pose proof (seven_kernel svdV l 8 GS ltac:(lia)) as K8. pose proof (seven_kernel svdV l 7 GS ltac:(lia)) as K7.
  assert (KP : forall d, satisfies (pencil_sol (to_mat (gcol (svdV (epiA l)) 8)) (to_mat (gcol (svdV (epiA l)) 7)) d) l) by (intro d; now apply satisfies_lin).
  destruct (sevenpt_cases svdV eig l Hl GE) as [[_ E1]|[(_ & _ & E1)|(_ & _ & a & b & c & _ & _ & [(_ & _ & _ & E1)|(_ & d & _ & _ & E1)])]];
    rewrite E1 in E; try discriminate; injection E as <-; cbn [In] in HF.
  - destruct HF as [<-|[]]. auto.
  - destruct HF as [<-|[<-|[<-|[]]]]; auto.
  - destruct HF as [<-|[]]; auto.
Qed.
(** Every returned matrix is singular, if the tests against 1e-8 separate zero
    from nonzero. *)
Theorem C49_sevenpt_singular : forall svdV eig l Fs F, good_svdV svdV l -> good_eig eig -> (length l <= 7)%nat ->
  let F1 := to_mat (gcol (svdV (epiA l)) 8) in let F2 := to_mat (gcol (svdV (epiA l)) 7) in
  (Rabs (det F1) < eps -> det F1 = 0) ->
  (let '(a, b, c) := eig (mmul (minv F2) F1) in forall d, In d [a; b; c] -> Rabs (im d) < eps -> im d = 0) ->
  sevenpt svdV eig l = Some Fs -> In F Fs -> det F = 0.
Proof.
  intros svdV eig l Fs F GS GE Hl F1 F2 H1 H2 E HF.
  assert (KP : forall a b c d, det F2 <> 0 -> factorises (charpoly (mmul (minv F2) F1)) [a; b; c] -> In d [a; b; c] -> im d = 0 -> det (pencil_sol F1 F2 d) = 0).
  { intros a b c d N Fa Hd Id. unfold pencil_sol. rewrite det_pencil by auto.
    assert (P : peval (charpoly (mmul (minv F2) F1)) (re d) = 0).
    { apply (factorises_real _ _ Fa); [cbn; lra|]. now rewrite <- (real_is d Id). }
    rewrite P. ring. }
  destruct (sevenpt_cases svdV eig l Hl GE) as [[L E1]|[(_ & _ & E1)|(_ & N & a & b & c & Fa & Ea & [(A & B & C & E1)|(_ & d & Hd & Id & E1)])]];
    rewrite E1 in E; try discriminate; injection E as <-; cbn [In] in HF.
  - destruct HF as [<-|[]]. auto.
  - change (mmul (minv (to_mat (gcol (svdV (epiA l)) 7))) (to_mat (gcol (svdV (epiA l)) 8))) with (mmul (minv F2) F1) in Ea. rewrite Ea in H2.
    destruct HF as [<-|[<-|[<-|[]]]]; eapply KP; eauto; try (cbn; tauto); apply H2; auto; cbn; tauto.
  - destruct HF as [<-|[]]. eapply KP; eauto.
Qed.

(** The constraints of l are linearly independent. *)
Definition independent (l : list (vec3 * vec3)) : Prop :=
  forall y, (forall F, sumn (length l) (fun i => y i * epi F (nth i l (v0, v0))) = 0) -> forall i, (i < length l)%nat -> y i = 0.
Lemma seven_rank svdV l U s : is_gsvd (length l) 9 (epiA l) U s (svdV (epiA l)) -> length l = 7%nat -> independent l -> 0 < s 6%nat.
Proof.
  intros H L7 Ind. set (V := svdV (epiA l)) in *.
  destruct (Rle_lt_or_eq_dec _ _ (gsvd_pos _ _ _ _ _ _ H 6%nat ltac:(lia))) as [|Z]; auto. exfalso.
    assert (K : forall i, (i < length l)%nat -> U i 6%nat = 0).
    { apply Ind. intro F. rewrite (sumn_ext _ _ (fun i => gcol U 6 i * mvec 9 (epiA l) (of_mat F) i)) by (intros; rewrite epi_mvec, to_of; reflexivity).
      change (vdot (length l) (gcol U 6) (mvec 9 (epiA l) (of_mat F)) = 0).
      rewrite (vdot_ext (length l) _ _ (gcol U 6) (fun i => sumn (Nat.min (length l) 9) (fun k => s k * vdot 9 (gcol V k) (of_mat F) * U i k))) by (auto; intros; now apply (gsvd_mvec _ _ _ _ _ _ H)).
      rewrite vdot_sum. apply sumn_0. intros k Hk. rewrite vdot_scale. change (fun i => U i k) with (gcol U k).
      destruct (Nat.eq_dec k 6) as [->|Nk]; [rewrite <- Z; ring|]. rewrite (gorth_perp _ U 6 k) by (try apply (gsvd_U _ _ _ _ _ _ H); lia). ring. }
    pose proof (gorth_unit _ U 6 (gsvd_U _ _ _ _ _ _ H) ltac:(lia)) as Q. unfold vdot, gcol in Q.
    rewrite sumn_0 in Q; [lra|]. intros i Hi. rewrite K by auto. ring.
Qed.
Lemma seven_span svdV l G : good_svdV svdV l -> length l = 7%nat -> independent l -> satisfies G l ->
  exists a b, G = madd (mscale a (to_mat (gcol (svdV (epiA l)) 8))) (mscale b (to_mat (gcol (svdV (epiA l)) 7))).
Proof.
  intros (U & s & H) L7 Ind Sat. set (V := svdV (epiA l)) in *.
  assert (S6 := seven_rank svdV l U s H L7 Ind).
  assert (Kg : forall k, (k < 7)%nat -> vdot 9 (gcol V k) (of_mat G) = 0).
  { intros k Hk. assert (Q := gsvd_kernel_comp _ _ _ _ _ _ H (of_mat G) k).
    apply Rmult_integral in Q; [|apply (satisfies_kernel G); [symmetry; apply to_of|auto]|lia].
    destruct Q as [Q|]; auto. exfalso. pose proof (gsvd_sorted _ _ _ _ _ _ H k 6 ltac:(lia) ltac:(lia)). lra. }
  exists (vdot 9 (gcol V 8) (of_mat G)), (vdot 9 (gcol V 7) (of_mat G)).
  rewrite <- (to_of G) at 1.
  rewrite (to_mat_ext (of_mat G) (fun j => vdot 9 (gcol V 8) (of_mat G) * gcol V 8 j + vdot 9 (gcol V 7) (of_mat G) * gcol V 7 j)).
  - unfold to_mat. generalize (vdot 9 (gcol V 8) (of_mat G)) (vdot 9 (gcol V 7) (of_mat G)). clear. intros. lunf. reflexivity.
  - intros j Hj. rewrite (gorth_expand 9 V (of_mat G) (gsvd_V _ _ _ _ _ _ H) j Hj). cbn [sumn]. rewrite !Kg by lia. unfold gcol. ring.
Qed.
(** Every singular matrix satisfying seven independent constraints is returned
    up to scale, if neither null-space matrix is singular. *)
Theorem C49_sevenpt_complete : forall svdV eig l G, good_svdV svdV l -> good_eig eig -> length l = 7%nat -> independent l ->
  let F1 := to_mat (gcol (svdV (epiA l)) 8) in let F2 := to_mat (gcol (svdV (epiA l)) 7) in
  eps <= Rabs (det F1) -> det F2 <> 0 ->
  satisfies G l -> det G = 0 -> G <> mzero ->
  exists Fs F c, sevenpt svdV eig l = Some Fs /\ In F Fs /\ c <> 0 /\ G = mscale c F.
Proof.
  intros svdV eig l G GS GE L7 Ind F1 F2 H1 H2 Sat DG NG.
  destruct (seven_span svdV l G GS L7 Ind Sat) as (a & b & EG). fold F1 F2 in EG.
  destruct (Req_dec a 0) as [Za|Na].
  { exfalso. apply NG. assert (E : G = mscale b F2) by (rewrite EG, Za; clear; destruct F1, F2; lring).
    rewrite E, det_mscale in DG. assert (b = 0).
    { destruct (Req_dec b 0); auto. exfalso. apply Rmult_integral in DG. destruct DG as [DG|]; auto.
      apply Rmult_integral in DG. destruct DG as [DG|]; auto. apply Rmult_integral in DG. tauto. }
    rewrite E, H. clear. destruct F2. lring. }
  set (x := - b / a).
  assert (EG' : G = mscale a (madd F1 (mneg (mscale x F2)))).
  { rewrite EG. clearbody F1 F2. unfold x. clear - Na. destruct F1, F2. lunf. f_equal; field; auto. }
  assert (Px : peval (charpoly (mmul (minv F2) F1)) x = 0).
  { rewrite EG', det_mscale, det_pencil in DG by auto. apply Rmult_integral in DG. destruct DG as [DG|DG].
    - exfalso. apply Rmult_integral in DG. destruct DG as [DG|]; auto. apply Rmult_integral in DG. tauto.
    - apply Rmult_integral in DG. destruct DG as [DG|]; auto. exfalso. lra. }
  destruct (sevenpt_cases svdV eig l ltac:(lia) GE) as [[L E1]|[(_ & Z & E1)|(_ & N & p & q & r & Fa & Ea & C)]].
  { exfalso. fold F1 in L. lra. }
  { exfalso. fold F2 in Z. contradiction. }
  fold F1 F2 in N, Fa, Ea, C.
  assert (Hx : In (RtoC x) [p; q; r]) by (apply (factorises_real _ _ Fa); [cbn; lra|auto]).
  assert (Sx : pencil_sol F1 F2 (RtoC x) = madd F1 (mneg (mscale x F2))) by reflexivity.
  destruct C as [(_ & _ & _ & E1)|(Nr & d & Hd & Id & E1)].
  - do 2 eexists. exists a. split; [exact E1|]. split; [|split; [exact Na|]].
    2: { rewrite EG', <- Sx. reflexivity. }
    destruct Hx as [<-|[<-|[<-|[]]]]; cbn; tauto.
  - assert (d = RtoC x).
    { assert (E0 : 0 < eps) by (unfold eps; lra). assert (NZ : forall z, eps <= Rabs (im z) -> im z <> 0) by (intros z Hz Z; rewrite Z, Rabs_R0 in Hz; lra).
      assert (Ix : im (RtoC x) = 0) by reflexivity.
      destruct (three_roots _ _ _ _ Fa ltac:(cbn; lra)) as [(A & B & C)|[(A & B & C)|[(A & B & C)|[(A & B & C)|(A & B & C)]]]].
      - exfalso. destruct Nr as [Q|[Q|Q]]; apply NZ in Q; contradiction.
      - destruct Hd as [<-|[<-|[<-|[]]]]; try contradiction. destruct Hx as [Q|[Q|[Q|[]]]]; auto; exfalso; rewrite <- Q in Ix; contradiction.
      - destruct Hd as [<-|[<-|[<-|[]]]]; try contradiction. destruct Hx as [Q|[Q|[Q|[]]]]; auto; exfalso; rewrite <- Q in Ix; contradiction.
      - destruct Hd as [<-|[<-|[<-|[]]]]; try contradiction. destruct Hx as [Q|[Q|[Q|[]]]]; auto; exfalso; rewrite <- Q in Ix; contradiction.
      - exfalso. destruct Hd as [<-|[<-|[<-|[]]]]; contradiction. }
    subst d. do 2 eexists. exists a. split; [exact E1|]. split; [left; reflexivity|]. split; [exact Na|]. rewrite EG', <- Sx. reflexivity.
Qed.
