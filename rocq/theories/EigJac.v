(** The Jacobians of the eigensolver are derivatives (C46). *)
From Coq Require Import Reals List Lra Psatz Lia.
From Verif Require Import Lin GenLin RotModel RotProps SturmModel Spectral EigSums EigGen EigModel EigAlg EigProps EigEV EigJacModel.
Local Open Scope R_scope.

(** * Specification *)
(** derivative at [x] of a real function: Coq's derivable_pt_lim *)
Notation D := derivable_pt_lim.
(** c with its k-th component replaced by x *)
Definition put (c : vec3) (k : nat) (x : R) : vec3 :=
  match k with O => V3 x (vy c) (vz c) | 1%nat => V3 (vx c) x (vz c) | _ => V3 (vx c) (vy c) x end.
Definition sym_sums (S : fsums) : Prop :=
  symmetric (xxF S) /\ symmetric (yyF S) /\ symmetric (zzF S) /\ symmetric (xyF S) /\ symmetric (yzF S) /\ symmetric (zxF S).

Lemma D_ext f g x l : (forall y, f y = g y) -> D f x l -> D g x l.
Proof. intros E H eps He. destruct (H eps He) as (d & Hd). exists d. intros h. rewrite <- !E. apply Hd. Qed.
Lemma D_val f x l m : l = m -> D f x l -> D f x m. Proof. now intros ->. Qed.
Lemma D_sumn n f f' x : (forall i, (i < n)%nat -> D (fun y => f y i) x (f' i)) -> D (fun y => sumn n (f y)) x (sumn n f').
Proof.
  induction n as [|n IH]; intro H; cbn [sumn].
  - apply derivable_pt_lim_const.
  - apply (derivable_pt_lim_plus (fun y => sumn n (f y)) (fun y => f y n)); auto.
Qed.
Lemma D_bf m n u v u' v' A x : (forall i, (i < m)%nat -> D (fun y => u y i) x (u' i)) -> (forall i, (i < n)%nat -> D (fun y => v y i) x (v' i)) ->
  D (fun y => bf m n (u y) A (v y)) x (bf m n u' A (v x) + bf m n (u x) A v').
Proof.
  intros Hu Hv. unfold bf. rewrite <- sumn_add. apply (D_sumn m (fun y i => u y i * sumn n (fun j => A i j * v y j))).
  intros i Hi. apply (derivable_pt_lim_mult (fun y => u y i) (fun y => sumn n (fun j => A i j * v y j))); auto.
  apply (D_sumn n (fun y j => A i j * v y j)). intros j Hj. apply derivable_pt_lim_scal. auto.
Qed.
Lemma bf_sym n u v A : (forall i j, (i < n)%nat -> (j < n)%nat -> A i j = A j i) -> bf n n u A v = bf n n v A u.
Proof.
  intro H. unfold bf. rewrite (sumn_ext n _ (fun i => sumn n (fun j => u i * (A i j * v j)))) by (intros; now rewrite sumn_scale).
  rewrite sumn_swap. apply sumn_ext. intros j Hj. rewrite <- sumn_scale. apply sumn_ext. intros i Hi. rewrite (H i j) by auto. ring.
Qed.
Lemma mget_sym M i j : symmetric M -> mget M i j = mget M j i.
Proof. unfold symmetric. intro H. rewrite <- H at 1. destruct M, i as [|[|i]], j as [|[|j]]; reflexivity. Qed.

(** derivatives of the entries of the rotation *)
Definition R_jac (k : nat) : vec3 -> mat3 := match k with O => R_jac1 | 1%nat => R_jac2 | _ => R_jac3 end.
Definition cget (c : vec3) (k : nat) : R := match k with O => vx c | 1%nat => vy c | _ => vz c end.
Lemma put_get c k : put c k (cget c k) = c. Proof. destruct c, k as [|[|k]]; reflexivity. Qed.
Lemma D_poly2 a b c x : D (fun y => a * y ^ 2 + b * y + c) x (2 * a * x + b).
Proof.
  apply D_ext with (fun y => plus_fct (plus_fct (mult_real_fct a (fun y => y ^ 2)) (mult_real_fct b id)) (fct_cte c) y); [reflexivity|].
  apply (D_val _ _ (a * (INR 2 * x ^ 1) + b * 1 + 0)); [cbn; ring|].
  repeat apply derivable_pt_lim_plus.
  - apply derivable_pt_lim_scal, (derivable_pt_lim_pow x 2).
  - apply derivable_pt_lim_scal, derivable_pt_lim_id.
  - apply derivable_pt_lim_const.
Qed.
Lemma D_rot k c i j : D (fun x => mget (cayley2rot_reduced (put c k x)) i j) (cget c k) (mget (R_jac k c) i j).
Proof.
  destruct c as [p q r]. destruct k as [|[|k]], i as [|[|i]], j as [|[|j]]; unfold put, cget, R_jac, R_jac1, R_jac2, R_jac3, cayley2rot_reduced, mget, row, col, vget, mT; cbn [vx vy vz m00 m01 m02 m10 m11 m12 m20 m21 m22].
  all: match goal with |- D ?f ?x ?l =>
    let c0 := constr:(f 0) in
    let a := constr:((f 1 + f (-1) - 2 * f 0) / 2) in let b := constr:((f 1 - f (-1)) / 2) in
    apply (D_ext (fun y => a * y ^ 2 + b * y + f 0)); [intro; cbn beta; field|
      apply (D_val _ _ (2 * a * x + b)); [cbn beta; field|apply D_poly2]] end.
Qed.
Lemma D_quad k c A a b :
  D (fun x => bf 3 3 (rw (cayley2rot_reduced (put c k x)) a) A (rw (cayley2rot_reduced (put c k x)) b)) (cget c k)
    (bf 3 3 (rw (R_jac k c) a) A (rw (cayley2rot_reduced c) b) + bf 3 3 (rw (cayley2rot_reduced c) a) A (rw (R_jac k c) b)).
Proof.
  pose proof (D_bf 3 3 (fun x => rw (cayley2rot_reduced (put c k x)) a) (fun x => rw (cayley2rot_reduced (put c k x)) b) (rw (R_jac k c) a) (rw (R_jac k c) b) A (cget c k)) as H.
  cbv beta in H. rewrite put_get in H. apply H; intros i _; unfold rw; apply D_rot.
Qed.
Definition M_jac (k : nat) : fsums -> vec3 -> mat3 := match k with O => M_jac1 | 1%nat => M_jac2 | _ => M_jac3 end.
Ltac Dplus := match goal with
  | |- D (fun x => @?f x + @?g x) _ _ => eapply (derivable_pt_lim_plus f g); [Dplus|Dplus]
  | |- D (fun x => ?a * @?f x) _ _ => eapply (derivable_pt_lim_scal f a); Dplus
  | |- _ => apply D_quad || idtac
  end.

Definition ment (M : mat3) (i j : nat) : R := match i, j with
  | O, O => m00 M | O, 1%nat => m01 M | O, _ => m02 M | 1%nat, O => m10 M | 1%nat, 1%nat => m11 M | 1%nat, _ => m12 M
  | _, O => m20 M | _, 1%nat => m21 M | _, _ => m22 M end.
Lemma mget_ment M i j : mget M i j = ment M i j.
Proof. destruct M, i as [|[|i]], j as [|[|j]]; reflexivity. Qed.

(** every entry of the returned Jacobians is the partial derivative of the
    entry of composeM; the matrix returned with them is composeM *)
Theorem C46_composeM_jacobian : forall S c k i j, sym_sums S -> (k < 3)%nat -> (i < 3)%nat -> (j < 3)%nat ->
  D (fun x => mget (composeM S (put c k x)) i j) (cget c k) (mget (M_jac k S c) i j).
Proof.
  intros S c k i j (S1 & S2 & S3 & S4 & S5 & S6) Hk Hi Hj.
  assert (E : forall F, symmetric F -> forall a b, bf 3 3 (rw (cayley2rot_reduced c) a) (mget F) (rw (R_jac k c) b) = bf 3 3 (rw (R_jac k c) b) (mget F) (rw (cayley2rot_reduced c) a)).
  { intros F HF a b. apply bf_sym. intros. now apply mget_sym. }
  pose proof (E _ S1) as E1. pose proof (E _ S2) as E2. pose proof (E _ S3) as E3. pose proof (E _ S4) as E4. pose proof (E _ S5) as E5. pose proof (E _ S6) as E6. clear E.
  destruct i as [|[|[|i]]]; [| | |lia]; destruct j as [|[|[|j]]]; try lia; unfold composeM, mget at 1; cbn [row mT col vget m00 m01 m02 m10 m11 m12 m20 m21 m22 vx vy vz].
  all: eapply D_val; [|Dplus].
  all: destruct k as [|[|[|k]]]; [| | |lia]; cbn [M_jac R_jac] in *.
  all: rewrite ?(mget_ment (M_jac1 S c)), ?(mget_ment (M_jac2 S c)), ?(mget_ment (M_jac3 S c)); cbn [ment].
  all: unfold M_jac1, M_jac2, M_jac3; cbn [m00 m01 m02 m10 m11 m12 m20 m21 m22].
  all: rewrite ?E1, ?E2, ?E3, ?E4, ?E5, ?E6; ring.
Qed.

(** * The derivative of the closed form *)
Lemma D_plus f g x a b : D f x a -> D g x b -> D (fun y => f y + g y) x (a + b). Proof. apply derivable_pt_lim_plus. Qed.
Lemma D_minus f g x a b : D f x a -> D g x b -> D (fun y => f y - g y) x (a - b). Proof. apply derivable_pt_lim_minus. Qed.
Lemma D_opp f x a : D f x a -> D (fun y => - f y) x (- a). Proof. apply derivable_pt_lim_opp. Qed.
Lemma D_mult f g x a b : D f x a -> D g x b -> D (fun y => f y * g y) x (a * g x + f x * b). Proof. apply derivable_pt_lim_mult. Qed.
Lemma D_scal k f x a : D f x a -> D (fun y => k * f y) x (k * a). Proof. apply derivable_pt_lim_scal. Qed.
Lemma D_divc f k x a : D f x a -> D (fun y => f y / k) x (a / k).
Proof. intro H. apply D_ext with (fun y => / k * f y); [intro; unfold Rdiv; ring|]. apply D_val with (/ k * a); [unfold Rdiv; ring|]. now apply D_scal. Qed.
Lemma D_comp f g x a b : D f x a -> D g (f x) b -> D (fun y => g (f y)) x (b * a). Proof. intros. now apply (derivable_pt_lim_comp f g). Qed.
Lemma D_pow f n x a : D f x a -> D (fun y => f y ^ n) x (INR n * f x ^ pred n * a).
Proof. intro H. apply (D_comp f (fun z => z ^ n)); auto. apply derivable_pt_lim_pow. Qed.
Lemma D_div f g x a b : D f x a -> D g x b -> g x <> 0 -> D (fun y => f y / g y) x ((a * g x - b * f x) / (g x) ^ 2).
Proof. intros. apply D_val with ((a * g x - b * f x) / Rsqr (g x)); [unfold Rsqr; f_equal; ring|]. now apply derivable_pt_lim_div. Qed.
Lemma D_acos x : -1 < x < 1 -> D acos x (-1 / sqrt (1 - x ^ 2)).
Proof.
  intro H. pose proof (derive_pt_acos x H) as E. apply derive_pt_eq in E. apply D_val with (2 := E). rewrite Rsqr_pow2. reflexivity.
Qed.
Lemma D_local f g x l : (exists d, 0 < d /\ forall y, Rabs (y - x) < d -> f y = g y) -> D f x l -> D g x l.
Proof.
  intros (d & Hd & E) H eps He. destruct (H eps He) as (e & Hh). assert (M : 0 < Rmin d e) by (apply Rmin_pos; [auto|apply cond_pos]).
  exists (mkposreal _ M). intros h Nh Sh. cbn in Sh. rewrite <- !E. 
  - apply Hh; auto. eapply Rlt_le_trans; [exact Sh|apply Rmin_r].
  - rewrite Rminus_diag_eq by auto. now rewrite Rabs_R0.
  - replace (x + h - x) with h by ring. eapply Rlt_le_trans; [exact Sh|apply Rmin_l].
Qed.
Lemma D_cont f x l : D f x l -> continuity_pt f x.
Proof. intro H. apply derivable_continuous_pt. now exists l. Qed.
Lemma cont_pos f x : continuity_pt f x -> 0 < f x -> exists d, 0 < d /\ forall y, Rabs (y - x) < d -> 0 < f y.
Proof.
  intros C P. destruct (C (f x) P) as (d & Hd & K). exists d. split; auto. intros y Hy.
  destruct (Req_dec x y) as [->|N]; auto.
  specialize (K y). cbn in K. unfold R_dist in K. assert (Rabs (f y - f x) < f x). { apply K. split; auto. split; [exact I|auto]. }
  apply Rabs_def2 in H. lra.
Qed.
Lemma Rpower_mhalf t : 0 < t -> Rpower t (- (1/2)) = / sqrt t.
Proof. intro H. rewrite Rpower_Ropp. f_equal. replace (1/2) with (/2) by lra. now apply Rpower_sqrt. Qed.

(** the value of ev_closed where it exists *)
Definition ev_val (b c d : R) : R :=
  (- b - 2 * (Rpower (1/2 * sqrt (ev_t b c)) (1 / 3) * cos (acos (ev_s b c d / sqrt (ev_t b c)) / 3))) / 3.
Lemma ev_closed_val b c d : 0 < ev_t b c -> ev_s b c d ^ 2 <= ev_t b c -> ev_closed b c d = Some (ev_val b c d).
Proof.
  intros T L. unfold ev_closed, ev_val. set (s := ev_s b c d) in *. set (t := ev_t b c) in *. pose proof (sqrt_lt_R0 t T) as Q.
  destruct (Rlt_dec t 0); [lra|]. destruct (Req_EM_T (sqrt t) 0); [lra|].
  destruct (Rlt_dec 1 (Rabs (s / sqrt t))) as [K|_].
  - exfalso. assert (E : (s / sqrt t) ^ 2 <= 1).
    { unfold Rdiv. rewrite Rpow_mult_distr, pow_inv. replace (sqrt t ^ 2) with t by (rewrite <- Rsqr_pow2; symmetry; apply Rsqr_sqrt; lra).
      apply Rmult_le_reg_r with t; auto. rewrite Rmult_assoc, Rinv_l by lra. lra. }
    assert (1 < Rabs (s / sqrt t) ^ 2) by nra. rewrite <- (Rsqr_pow2 (Rabs _)), <- Rsqr_abs, Rsqr_pow2 in H. lra.
  - unfold rpow. destruct (Req_EM_T (1 / 2 * sqrt t) 0); [lra|]. reflexivity.
Qed.
Lemma D_ev b c d x b' c' d' : D b x b' -> D c x c' -> D d x d' ->
  0 < ev_t (b x) (c x) -> ev_s (b x) (c x) (d x) ^ 2 < ev_t (b x) (c x) ->
  exists j, ev_jac (b x) (c x) (d x) b' c' d' = Some j /\ D (fun y => ev_val (b y) (c y) (d y)) x j.
Proof.
  intros Hb Hc Hd T L.
  set (s := fun y => ev_s (b y) (c y) (d y)). set (t := fun y => ev_t (b y) (c y)).
  set (s' := 2 * 3 * b x ^ 2 * b' - 9 * b' * c x - 9 * b x * c' + 27 * d').
  set (t' := 4 * 3 * (b x ^ 2 - 3 * c x) ^ 2 * (2 * b x * b' - 3 * c')).
  assert (Ds : D s x s').
  { unfold s, ev_s. eapply D_val; [|apply D_plus; [apply D_minus; [apply D_scal, D_pow, Hb|apply D_mult; [apply D_scal, Hb|exact Hc]]|apply D_scal, Hd]].
    unfold s'. cbn. ring. }
  assert (Dt : D t x t').
  { unfold t, ev_t. eapply D_val; [|apply D_scal, (D_pow (fun y => b y ^ 2 - 3 * c y)), D_minus; [apply D_pow, Hb|apply D_scal, Hc]].
    unfold t'. cbn. ring. }
  change (ev_t (b x) (c x)) with (t x) in *. change (ev_s (b x) (c x) (d x)) with (s x) in *.
  pose proof (sqrt_lt_R0 _ T) as Q. assert (Q2 : sqrt (t x) ^ 2 = t x) by (rewrite <- Rsqr_pow2; apply Rsqr_sqrt; lra).
  assert (Dq : D (fun y => sqrt (t y)) x (/ (2 * sqrt (t x)) * t')) by (apply (D_comp t sqrt); auto; now apply derivable_pt_lim_sqrt).
  assert (Sm : (s x / sqrt (t x)) ^ 2 = s x ^ 2 / t x) by (unfold Rdiv; rewrite Rpow_mult_distr, pow_inv, Q2; reflexivity).
  assert (LL : s x ^ 2 / t x < 1) by (apply Rmult_lt_reg_r with (t x); auto; unfold Rdiv; rewrite Rmult_assoc, Rinv_l by lra; lra).
  assert (Rg : -1 < s x / sqrt (t x) < 1). { rewrite <- Sm in LL. split; nra. }
  assert (Rt : 0 < sqrt (1 - s x ^ 2 / t x)) by (apply sqrt_lt_R0; lra).
  assert (Da : D (fun y => acos (s y / sqrt (t y))) x (-1 / sqrt (1 - s x ^ 2 / t x) * ((s' * sqrt (t x) - / (2 * sqrt (t x)) * t' * s x) / sqrt (t x) ^ 2))).
  { rewrite <- Sm. apply (D_comp (fun y => s y / sqrt (t y)) acos); [|now apply D_acos]. apply (D_div s (fun y => sqrt (t y))); auto. lra. }
  unfold ev_jac. cbv zeta. change (ev_t (b x) (c x)) with (t x). change (ev_s (b x) (c x) (d x)) with (s x). fold s' t'.
  destruct (Req_EM_T (sqrt (1 - s x ^ 2 / t x)) 0) as [Z|_]; [lra|]. eexists. split; [reflexivity|].
  unfold ev_val. change (fun y => (- b y - 2 * (Rpower (1 / 2 * sqrt (ev_t (b y) (c y))) (1 / 3) * cos (acos (ev_s (b y) (c y) (d y) / sqrt (ev_t (b y) (c y))) / 3))) / 3)
    with (fun y => (- b y - 2 * (Rpower (1 / 2 * sqrt (t y)) (1 / 3) * cos (acos (s y / sqrt (t y)) / 3))) / 3).
  eapply D_val.
  2:{ apply D_divc, D_minus; [apply D_opp, Hb|]. apply D_scal, D_mult.
      - apply (D_comp (fun y => 1 / 2 * sqrt (t y)) (fun z => Rpower z (1 / 3))); [apply D_scal, Dq|]. apply derivable_pt_lim_power. lra.
      - apply (D_comp (fun y => acos (s y / sqrt (t y)) / 3) cos); [apply D_divc, Da|apply derivable_pt_lim_cos]. }
  cbv beta. unfold rpow. destruct (Req_EM_T (1 / 2 * sqrt (t x)) 0); [lra|]. rewrite Rpower_mhalf by auto.
  replace (1 / 3 - 1) with (- (2) / 3) by field. 
  generalize (Rpower (1 / 2 * sqrt (t x)) (- (2) / 3)) (Rpower (1 / 2 * sqrt (t x)) (1 / 3)) (sin (acos (s x / sqrt (t x)) / 3)) (cos (acos (s x / sqrt (t x)) / 3)).
  intros w1 w2 sn cs. rewrite Q2. field. lra.
Qed.
Ltac Dr := match goal with
  | |- D (fun x => @?f x + @?g x) _ _ => eapply (D_plus f g); Dr
  | |- D (fun x => @?f x - @?g x) _ _ => eapply (D_minus f g); Dr
  | |- D (fun x => - @?f x) _ _ => eapply (D_opp f); Dr
  | |- D (fun x => ?k * @?f x) _ _ => eapply (D_scal k f); Dr
  | |- D (fun x => @?f x * @?g x) _ _ => eapply (D_mult f g); Dr
  | |- D (fun x => @?f x ^ ?n) _ _ => eapply (D_pow f n); Dr
  | |- _ => eassumption
  end.
Lemma D_coeffs a b c e f h x a' b' c' e' f' h' : D a x a' -> D b x b' -> D c x c' -> D e x e' -> D f x f' -> D h x h' ->
  D (fun y => - c y ^ 2 - f y ^ 2 - b y ^ 2 + a y * e y + a y * h y + e y * h y) x
    (- (2) * c x * c' - 2 * f x * f' - 2 * b x * b' + a' * e x + a x * e' + a' * h x + a x * h' + e' * h x + e x * h') /\
  D (fun y => e y * c y ^ 2 + a y * f y ^ 2 + h y * b y ^ 2 - a y * e y * h y - 2 * b y * f y * c y) x
    (e' * c x ^ 2 + e x * 2 * c x * c' + a' * f x ^ 2 + a x * 2 * f x * f' + h' * b x ^ 2 + h x * 2 * b x * b'
     - a' * e x * h x - a x * e' * h x - a x * e x * h' - 2 * (b' * f x * c x + b x * f' * c x + b x * f x * c')).
Proof. intros. split; (eapply D_val; [|Dr]); cbn [pred INR]; ring. Qed.
Lemma composeM_symmetric S c : symmetric (composeM S c). Proof. reflexivity. Qed.
Lemma distinct_disc Q M d : symmetric M -> diagonalises Q M d -> vx d > vy d -> vy d > vz d ->
  0 < ev_t (ev_b M) (ev_c M) /\ ev_s (ev_b M) (ev_c M) (ev_d M) ^ 2 < ev_t (ev_b M) (ev_c M).
Proof.
  intros Sy Di A B. destruct (sym_coeffs Q M d Sy Di) as (-> & -> & ->). generalize (vx d) (vy d) (vz d) A B. clear. intros x y z A B.
  unfold ev_t, ev_s. split.
  - apply Rmult_lt_0_compat; [lra|]. apply pow_lt. 
    replace ((- (x + y + z)) ^ 2 - 3 * (x * y + x * z + y * z)) with ((x - y) ^ 2 + (x - y) * (y - z) + (y - z) ^ 2) by ring.
    assert (0 < (x - y) * (y - z)) by (apply Rmult_lt_0_compat; lra). pose proof (pow2_ge_0 (x - y)). pose proof (pow2_ge_0 (y - z)). lra.
  - apply Rminus_lt.
    replace ((2 * (- (x + y + z)) ^ 3 - 9 * - (x + y + z) * (x * y + x * z + y * z) + 27 * - (x * y * z)) ^ 2 - 4 * ((- (x + y + z)) ^ 2 - 3 * (x * y + x * z + y * z)) ^ 3)
      with (- (27 * (((x - y) * (y - z) * (x - z)) ^ 2))) by ring.
    assert (0 < (x - y) * (y - z) * (x - z)) by (repeat apply Rmult_lt_0_compat; lra).
    pose proof (pow_lt _ 2 H). lra.
Qed.

(** where the three eigenvalues are different, the returned Jacobian is the
    gradient of the smallest eigenvalue with respect to the Cayley vector *)
Theorem C46_smallestEV_jacobian : forall S c Q d, sym_sums S ->
  diagonalises Q (composeM S c) d -> vx d > vy d -> vy d > vz d ->
  exists e g, getSmallestEVwithJacobian S c = Some (e, g) /\ getSmallestEV S c = Some e /\
    forall k, (k < 3)%nat -> exists f,
      (exists r, 0 < r /\ forall x, Rabs (x - cget c k) < r -> getSmallestEV S (put c k x) = Some (f x)) /\
      D f (cget c k) (cget g k).
Proof.
  intros S c Q d Sy Di O1 O2.
  destruct (distinct_disc Q _ d (composeM_symmetric S c) Di O1 O2) as (T & L).
  set (b := fun k x => ev_b (composeM S (put c k x))). set (cc := fun k x => ev_c (composeM S (put c k x))). set (dd := fun k x => ev_d (composeM S (put c k x))).
  assert (E0 : forall k, b k (cget c k) = ev_b (composeM S c) /\ cc k (cget c k) = ev_c (composeM S c) /\ dd k (cget c k) = ev_d (composeM S c)).
  { intro k. unfold b, cc, dd. now rewrite put_get. }
  assert (De : forall k i j, (k < 3)%nat -> (i < 3)%nat -> (j < 3)%nat -> D (fun x => ment (composeM S (put c k x)) i j) (cget c k) (ment (M_jac k S c) i j)).
  { intros k i j Hk Hi Hj. rewrite <- mget_ment. eapply D_ext; [|apply C46_composeM_jacobian; auto]. intro y. apply mget_ment. }
  assert (Db : forall k, (k < 3)%nat -> D (b k) (cget c k) (b_jac (M_jac k S c))).
  { intros k Hk. unfold b, ev_b, b_jac. repeat apply D_minus; try apply D_opp; [apply (De k 0%nat 0%nat)|apply (De k 1%nat 1%nat)|apply (De k 2%nat 2%nat)]; auto. }
  assert (X : forall k, (k < 3)%nat -> D (cc k) (cget c k) (c_jac (composeM S c) (M_jac k S c)) /\ D (dd k) (cget c k) (d_jac (composeM S c) (M_jac k S c))).
  { intros k Hk.
    pose proof (De k 0%nat 0%nat Hk ltac:(lia) ltac:(lia)) as D00. pose proof (De k 0%nat 1%nat Hk ltac:(lia) ltac:(lia)) as D01.
    pose proof (De k 0%nat 2%nat Hk ltac:(lia) ltac:(lia)) as D02. pose proof (De k 1%nat 1%nat Hk ltac:(lia) ltac:(lia)) as D11.
    pose proof (De k 1%nat 2%nat Hk ltac:(lia) ltac:(lia)) as D12. pose proof (De k 2%nat 2%nat Hk ltac:(lia) ltac:(lia)) as D22.
    cbn [ment] in *. pose proof (D_coeffs (fun x => m00 (composeM S (put c k x))) (fun x => m01 (composeM S (put c k x))) (fun x => m02 (composeM S (put c k x)))
      (fun x => m11 (composeM S (put c k x))) (fun x => m12 (composeM S (put c k x))) (fun x => m22 (composeM S (put c k x))) (cget c k) _ _ _ _ _ _ D00 D01 D02 D11 D12 D22) as (P & P').
    cbv beta in P, P'. rewrite put_get in P, P'. split; [exact P|exact P']. }
  assert (V : getSmallestEV S c = Some (ev_val (ev_b (composeM S c)) (ev_c (composeM S c)) (ev_d (composeM S c)))).
  { unfold getSmallestEV, smallestEV. apply ev_closed_val; auto. lra. }
  assert (J : forall k, (k < 3)%nat -> exists j, ev_jac (ev_b (composeM S c)) (ev_c (composeM S c)) (ev_d (composeM S c)) (b_jac (M_jac k S c)) (c_jac (composeM S c) (M_jac k S c)) (d_jac (composeM S c) (M_jac k S c)) = Some j /\
     D (fun x => ev_val (b k x) (cc k x) (dd k x)) (cget c k) j).
  { intros k Hk. destruct (X k Hk) as (Dc & Dd). destruct (E0 k) as (Eb & Ec & Ed).
    pose proof (D_ev (b k) (cc k) (dd k) (cget c k) _ _ _ (Db k Hk) Dc Dd) as K. rewrite Eb, Ec, Ed in K. auto. }
  destruct (J 0%nat ltac:(lia)) as (j0 & J0 & D0). destruct (J 1%nat ltac:(lia)) as (j1 & J1 & D1). destruct (J 2%nat ltac:(lia)) as (j2 & J2 & D2).
  exists (ev_val (ev_b (composeM S c)) (ev_c (composeM S c)) (ev_d (composeM S c))), (V3 j0 j1 j2). split; [|split; auto].
  - unfold getSmallestEVwithJacobian, ev_with_jac. change (composeMJ S c) with (composeM S c).
    unfold getSmallestEV in V. rewrite V. cbn [M_jac] in J0, J1, J2. now rewrite J0, J1, J2.
  - intros k Hk. exists (fun x => ev_val (b k x) (cc k x) (dd k x)). split.
    + destruct (X k Hk) as (Dc & Dd). destruct (E0 k) as (Eb & Ec & Ed).
      assert (Ct : exists r, 0 < r /\ forall x, Rabs (x - cget c k) < r -> 0 < ev_t (b k x) (cc k x)).
      { apply cont_pos; [|rewrite Eb, Ec; auto]. eapply D_cont. unfold ev_t. apply D_scal, (D_pow (fun y => b k y ^ 2 - 3 * cc k y)), D_minus; [apply D_pow, Db, Hk|apply D_scal, Dc]. }
      assert (Cs : exists r, 0 < r /\ forall x, Rabs (x - cget c k) < r -> 0 < ev_t (b k x) (cc k x) - ev_s (b k x) (cc k x) (dd k x) ^ 2).
      { apply (cont_pos (fun x => ev_t (b k x) (cc k x) - ev_s (b k x) (cc k x) (dd k x) ^ 2)); [|rewrite Eb, Ec, Ed; lra]. eapply D_cont. unfold ev_t, ev_s.
        apply D_minus; [apply D_scal, (D_pow (fun y => b k y ^ 2 - 3 * cc k y)), D_minus; [apply D_pow, Db, Hk|apply D_scal, Dc]|].
        apply (D_pow (fun y => 2 * b k y ^ 3 - 9 * b k y * cc k y + 27 * dd k y)), D_plus; [apply D_minus; [apply D_scal, D_pow, Db, Hk|apply D_mult; [apply D_scal, Db, Hk|exact Dc]]|apply D_scal, Dd]. }
      destruct Ct as (r1 & R1 & C1). destruct Cs as (r2 & R2 & C2). exists (Rmin r1 r2). split; [now apply Rmin_pos|].
      intros x Hx. pose proof (C1 x (Rlt_le_trans _ _ _ Hx (Rmin_l _ _))). pose proof (C2 x (Rlt_le_trans _ _ _ Hx (Rmin_r _ _))).
      apply ev_closed_val; [exact H|]. unfold b, cc, dd in *. lra.
    + destruct k as [|[|[|k]]]; [exact D0|exact D1|exact D2|lia].
Qed.
Lemma sums_symmetric l : sym_sums (fs_accumulate l).
Proof.
  unfold sym_sums. induction l as [|q l IH]; [repeat split; reflexivity|]. rewrite fs_cons. destruct IH as (H1 & H2 & H3 & H4 & H5 & H6).
  destruct q as (w & f1 & f2). unfold symmetric in *.
  assert (K : forall X k, mT X = X -> mT (madd (madd mzero (mscale k (outer f2 f2))) X) = madd (madd mzero (mscale k (outer f2 f2))) X).
  { intros X k HX. rewrite <- HX at 2. clear. lring. }
  cbn [fs_add fs_step fs0 xxF yyF zzF xyF yzF zxF]. repeat split; apply K; auto.
Qed.
Example C46_nonvacuous : exists l c Q d, sym_sums (fs_accumulate l) /\ diagonalises Q (composeM (fs_accumulate l) c) d /\ vx d > vy d /\ vy d > vz d.
Proof.
  exists (cons (3, (V3 0 1 0, V3 0 0 1)) (cons (2, (V3 0 0 1, V3 1 0 0)) (cons (1, (V3 1 0 0, V3 0 1 0)) nil))), v0, mid, (V3 3 2 1).
  split; [apply sums_symmetric|]. cbn [vx vy vz]. split; [|lra]. split; [apply rotation_mid || (lunf; f_equal; ring)|].
  rewrite C44_composeM_is_normal_sum. replace (cayley2rot v0) with mid by (unfold cayley2rot; lunf; f_equal; field).
  unfold normal_sum, normal. cbn [map fst snd]. rewrite !mv_id.
  replace (cross (V3 0 1 0) (V3 0 0 1)) with (V3 1 0 0) by (lunf; f_equal; ring).
  replace (cross (V3 0 0 1) (V3 1 0 0)) with (V3 0 1 0) by (lunf; f_equal; ring).
  replace (cross (V3 1 0 0) (V3 0 1 0)) with (V3 0 0 1) by (lunf; f_equal; ring).
  rewrite !msum_cons, msum_nil. replace ((1 + norm2 v0) ^ 2) with 1 by (lunf; ring).
  change (mT mid) with mid. rewrite mmul_id_l, mmul_id_r. cbv [diag mscale madd outer mzero vx vy vz m00 m01 m02 m10 m11 m12 m20 m21 m22].
  f_equal; ring.
Qed.
