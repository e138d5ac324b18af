(** General-dimension linear algebra over the reals: vectors are functions
    nat -> R, matrices nat -> nat -> R, with explicit dimensions. *)
From Coq Require Import Reals Lra Psatz Lia Classical_Prop.
Local Open Scope R_scope.

Fixpoint sumn (n : nat) (f : nat -> R) : R := match n with O => 0 | S n => sumn n f + f n end.
Definition delta (i j : nat) : R := if Nat.eq_dec i j then 1 else 0.
Definition vdot (n : nat) (x y : nat -> R) : R := sumn n (fun i => x i * y i).
(** A x for A with n columns *)
Definition mvec (n : nat) (A : nat -> nat -> R) (x : nat -> R) : nat -> R := fun i => vdot n (A i) x.
Definition gcol (V : nat -> nat -> R) (k : nat) : nat -> R := fun i => V i k.

(** n x n orthogonal matrix *)
Definition gorth (n : nat) (V : nat -> nat -> R) : Prop :=
  (forall i j, (i < n)%nat -> (j < n)%nat -> vdot n (gcol V i) (gcol V j) = delta i j) /\
  (forall i j, (i < n)%nat -> (j < n)%nat -> vdot n (V i) (V j) = delta i j).
(** What a singular value decomposition routine must return for the m x n
    matrix A (full U and V): A = U S V^T, U and V orthogonal, singular values
    nonnegative and in decreasing order. *)
Record is_gsvd (m n : nat) (A U : nat -> nat -> R) (s : nat -> R) (V : nat -> nat -> R) : Prop := {
  gsvd_U : gorth m U;
  gsvd_V : gorth n V;
  gsvd_pos : forall k, (k < Nat.min m n)%nat -> 0 <= s k;
  gsvd_sorted : forall k l, (k <= l)%nat -> (l < Nat.min m n)%nat -> s l <= s k;
  gsvd_eq : forall i j, (i < m)%nat -> (j < n)%nat -> A i j = sumn (Nat.min m n) (fun k => U i k * s k * V j k) }.

Lemma sumn_ext n f g : (forall i, (i < n)%nat -> f i = g i) -> sumn n f = sumn n g.
Proof. induction n as [|n IH]; intro H; cbn; auto. rewrite IH by (intros; apply H; lia). now rewrite H by lia. Qed.
Lemma sumn_0 n f : (forall i, (i < n)%nat -> f i = 0) -> sumn n f = 0.
Proof. induction n as [|n IH]; intro H; cbn; auto. rewrite IH by (intros; apply H; lia). rewrite H by lia. ring. Qed.
Lemma sumn_add n f g : sumn n (fun i => f i + g i) = sumn n f + sumn n g.
Proof. induction n as [|n IH]; cbn; [ring|]. rewrite IH. ring. Qed.
Lemma sumn_sub n f g : sumn n (fun i => f i - g i) = sumn n f - sumn n g.
Proof. induction n as [|n IH]; cbn; [ring|]. rewrite IH. ring. Qed.
Lemma sumn_scale n c f : sumn n (fun i => c * f i) = c * sumn n f.
Proof. induction n as [|n IH]; cbn; [ring|]. rewrite IH. ring. Qed.
Lemma sumn_swap m n f : sumn m (fun i => sumn n (fun j => f i j)) = sumn n (fun j => sumn m (fun i => f i j)).
Proof.
  induction m as [|m IH]; cbn.
  - symmetry. now apply sumn_0.
  - rewrite IH. now rewrite <- sumn_add.
Qed.
Lemma sumn_delta n k f : (k < n)%nat -> sumn n (fun i => delta i k * f i) = f k.
Proof.
  induction n as [|n IH]; intro H; [lia|]. cbn. destruct (Nat.eq_dec k n) as [->|N].
  - rewrite sumn_0. { unfold delta. destruct (Nat.eq_dec n n); [ring|lia]. }
    intros i Hi. unfold delta. destruct (Nat.eq_dec i n); [lia|ring].
  - rewrite IH by lia. unfold delta. destruct (Nat.eq_dec n k); [lia|ring].
Qed.
Lemma sumn_nonneg n f : (forall i, (i < n)%nat -> 0 <= f i) -> 0 <= sumn n f.
Proof. induction n as [|n IH]; intro H; cbn; [lra|]. assert (0 <= sumn n f) by (apply IH; intros; apply H; lia). pose proof (H n ltac:(lia)). lra. Qed.
Lemma sumn_nonneg_zero n f : (forall i, (i < n)%nat -> 0 <= f i) -> sumn n f = 0 -> forall i, (i < n)%nat -> f i = 0.
Proof.
  induction n as [|n IH]; intros H E i Hi; [lia|]. cbn in E.
  assert (0 <= sumn n f) by (apply sumn_nonneg; intros; apply H; lia). pose proof (H n ltac:(lia)).
  destruct (Nat.eq_dec i n) as [->|]; [lra|]. apply IH; try lia; try lra. intros; apply H; lia.
Qed.
Lemma sumn_le n f g : (forall i, (i < n)%nat -> f i <= g i) -> sumn n f <= sumn n g.
Proof. induction n as [|n IH]; intro H; cbn; [lra|]. assert (sumn n f <= sumn n g) by (apply IH; intros; apply H; lia). pose proof (H n ltac:(lia)). lra. Qed.
Lemma sumn_split a b f : sumn (a + b) f = sumn a f + sumn b (fun i => f (a + i)%nat).
Proof. induction b as [|b IH]; [rewrite Nat.add_0_r; cbn; ring|]. rewrite Nat.add_succ_r. cbn. rewrite IH. ring. Qed.

Lemma vdot_comm n x y : vdot n x y = vdot n y x.
Proof. apply sumn_ext. intros; ring. Qed.
Lemma vdot_ext n x y x' y' : (forall i, (i < n)%nat -> x i = x' i) -> (forall i, (i < n)%nat -> y i = y' i) -> vdot n x y = vdot n x' y'.
Proof. intros H H'. apply sumn_ext. intros i Hi. now rewrite H, H' by auto. Qed.
Lemma vdot_add n x y z : vdot n x (fun i => y i + z i) = vdot n x y + vdot n x z.
Proof. unfold vdot. rewrite <- sumn_add. apply sumn_ext. intros; ring. Qed.
Lemma vdot_scale n x c y : vdot n x (fun i => c * y i) = c * vdot n x y.
Proof. unfold vdot. rewrite <- sumn_scale. apply sumn_ext. intros; ring. Qed.
Lemma vdot_sum n m x c : vdot n x (fun i => sumn m (fun k => c k i)) = sumn m (fun k => vdot n x (c k)).
Proof.
  unfold vdot. rewrite <- (sumn_swap n m (fun i k => x i * c k i)). apply sumn_ext. intros i Hi. symmetry. apply sumn_scale.
Qed.
Lemma vdot_pos n x : 0 <= vdot n x x.
Proof. apply sumn_nonneg. intros. apply Rle_0_sqr. Qed.
Lemma vdot_zero n x : vdot n x x = 0 -> forall i, (i < n)%nat -> x i = 0.
Proof.
  intros H i Hi. pose proof (sumn_nonneg_zero n (fun i => x i * x i) (fun i _ => Rle_0_sqr (x i)) H i Hi) as E. cbn in E.
  apply Rmult_integral in E. tauto.
Qed.

(** expansion in an orthonormal basis *)
Lemma gorth_expand n V x : gorth n V -> forall i, (i < n)%nat -> x i = sumn n (fun k => vdot n (gcol V k) x * V i k).
Proof.
  intros [_ H] i Hi. unfold vdot, gcol.
  transitivity (sumn n (fun k => sumn n (fun j => V j k * x j * V i k))).
  - rewrite sumn_swap. transitivity (sumn n (fun j => delta j i * x j)); [symmetry; now apply sumn_delta|].
    apply sumn_ext. intros j Hj. transitivity (vdot n (V i) (V j) * x j).
    + rewrite H by auto. unfold delta. destruct (Nat.eq_dec j i), (Nat.eq_dec i j); auto; lia.
    + unfold vdot. rewrite Rmult_comm, <- sumn_scale. apply sumn_ext. intros; ring.
  - apply sumn_ext. intros k Hk. rewrite Rmult_comm, <- sumn_scale. apply sumn_ext. intros; ring.
Qed.
Lemma gorth_zero n V x : gorth n V -> (forall k, (k < n)%nat -> vdot n (gcol V k) x = 0) -> forall i, (i < n)%nat -> x i = 0.
Proof. intros G H i Hi. rewrite (gorth_expand n V x G i Hi). apply sumn_0. intros k Hk. rewrite H by auto. ring. Qed.
Lemma gorth_unit n V k : gorth n V -> (k < n)%nat -> vdot n (gcol V k) (gcol V k) = 1.
Proof. intros [H _] Hk. rewrite H by auto. unfold delta. destruct (Nat.eq_dec k k); [auto|lia]. Qed.
Lemma gorth_perp n V k l : gorth n V -> (k < n)%nat -> (l < n)%nat -> k <> l -> vdot n (gcol V k) (gcol V l) = 0.
Proof. intros [H _] Hk Hl N. rewrite H by auto. unfold delta. destruct (Nat.eq_dec k l); [lia|auto]. Qed.

Section Svd.
Variables (m n : nat) (A U V : nat -> nat -> R) (s : nat -> R).
Hypothesis H : is_gsvd m n A U s V.
Lemma gsvd_mvec x i : (i < m)%nat -> mvec n A x i = sumn (Nat.min m n) (fun k => s k * vdot n (gcol V k) x * U i k).
Proof.
  intro Hi. unfold mvec. transitivity (vdot n (fun j => sumn (Nat.min m n) (fun k => U i k * s k * V j k)) x).
  - apply vdot_ext; auto. intros j Hj. now apply (gsvd_eq _ _ _ _ _ _ H).
  - rewrite vdot_comm, vdot_sum. apply sumn_ext. intros k Hk. unfold vdot, gcol.
    transitivity (U i k * s k * sumn n (fun j => V j k * x j)); [|ring].
    rewrite <- sumn_scale. apply sumn_ext. intros; ring.
Qed.
(** A v_k = s_k u_k, and = 0 for the columns beyond min m n *)
Lemma gsvd_col k i : (k < n)%nat -> (i < m)%nat -> mvec n A (gcol V k) i = if Nat.ltb k (Nat.min m n) then s k * U i k else 0.
Proof.
  intros Hk Hi. rewrite gsvd_mvec by auto. destruct (Nat.ltb k (Nat.min m n)) eqn:B.
  - apply Nat.ltb_lt in B. transitivity (sumn (Nat.min m n) (fun l => delta l k * (s l * U i l))); [|now apply sumn_delta].
    apply sumn_ext. intros l Hl. destruct (gsvd_V _ _ _ _ _ _ H) as [G _]. rewrite G by lia. ring.
  - apply Nat.ltb_ge in B. apply sumn_0. intros l Hl. rewrite (gorth_perp n V l k) by (apply (gsvd_V _ _ _ _ _ _ H) || lia). ring.
Qed.
(** A x = 0 kills every component along a nonzero singular value *)
Lemma gsvd_kernel_comp x k : (forall i, (i < m)%nat -> mvec n A x i = 0) -> (k < Nat.min m n)%nat -> s k * vdot n (gcol V k) x = 0.
Proof.
  intros K Hk. pose proof (gsvd_U _ _ _ _ _ _ H) as [G _].
  transitivity (vdot m (gcol U k) (mvec n A x)).
  - rewrite (vdot_ext m _ _ (gcol U k) (fun i => sumn (Nat.min m n) (fun l => s l * vdot n (gcol V l) x * U i l))) by (auto; intros; now apply gsvd_mvec).
    rewrite vdot_sum. symmetry. transitivity (sumn (Nat.min m n) (fun l => delta l k * (s l * vdot n (gcol V l) x))); [|now apply sumn_delta].
    apply sumn_ext. intros l Hl. rewrite vdot_scale. change (fun i => U i l) with (gcol U l). rewrite G by lia.
    unfold delta. destruct (Nat.eq_dec k l), (Nat.eq_dec l k); try lia; ring.
  - apply sumn_0. intros i Hi. rewrite K by auto. ring.
Qed.
(** If A has a nonzero kernel, the last right singular vector lies in it. *)
Lemma gsvd_last_kernel x : (0 < n)%nat -> (forall i, (i < m)%nat -> mvec n A x i = 0) -> (exists j, (j < n)%nat /\ x j <> 0) ->
  forall i, (i < m)%nat -> mvec n A (gcol V (n - 1)) i = 0.
Proof.
  intros Hn K (j & Hj & Nz) i Hi. rewrite gsvd_col by (auto; lia).
  destruct (Nat.ltb (n - 1) (Nat.min m n)) eqn:B; auto. apply Nat.ltb_lt in B.
  assert (E : s (n - 1)%nat = 0); [|rewrite E; ring].
  destruct (Req_dec (s (n - 1)%nat) 0) as [|P]; auto. exfalso. apply Nz.
  apply (gorth_zero n V x); auto. { apply (gsvd_V _ _ _ _ _ _ H). }
  intros k Hk. assert (Ek := gsvd_kernel_comp x k K ltac:(lia)). apply Rmult_integral in Ek. destruct Ek as [Ek|]; auto.
  exfalso. pose proof (gsvd_sorted _ _ _ _ _ _ H k (n - 1) ltac:(lia) B). pose proof (gsvd_pos _ _ _ _ _ _ H (n - 1)%nat B). lra.
Qed.

Lemma gsvd_col_nonzero k : (k < n)%nat -> exists j, (j < n)%nat /\ gcol V k j <> 0.
Proof.
  intro Hk. pose proof (gorth_unit n V k (gsvd_V _ _ _ _ _ _ H) Hk) as E.
  destruct (Classical_Prop.classic (exists j, (j < n)%nat /\ gcol V k j <> 0)) as [|N]; auto. exfalso.
  assert (vdot n (gcol V k) (gcol V k) = 0); [|lra]. apply sumn_0. intros i Hi.
  destruct (Req_dec (gcol V k i) 0) as [->|Q]; [ring|]. exfalso. apply N. eauto.
Qed.
End Svd.

Lemma vdot_sum2 n m x y (c d : nat -> nat -> R) :
  vdot n (fun i => sumn m (fun k => x k * c k i)) (fun i => sumn m (fun k => y k * d k i)) = sumn m (fun k => sumn m (fun l => x k * y l * vdot n (c k) (d l))).
Proof.
  rewrite vdot_comm, vdot_sum. apply sumn_ext. intros k Hk. rewrite vdot_comm, vdot_sum. apply sumn_ext. intros l Hl.
  rewrite vdot_scale, vdot_comm, vdot_scale. rewrite (vdot_comm n (d l)). ring.
Qed.
Lemma sumn_delta2 n f : sumn n (fun k => sumn n (fun l => f k l * delta k l)) = sumn n (fun k => f k k).
Proof.
  apply sumn_ext. intros k Hk. rewrite (sumn_ext n _ (fun l => delta l k * f k l)); [now rewrite sumn_delta|].
  intros l Hl. unfold delta. destruct (Nat.eq_dec k l), (Nat.eq_dec l k); try lia; ring.
Qed.
Lemma parseval n V x : gorth n V -> vdot n x x = sumn n (fun k => vdot n (gcol V k) x ^ 2).
Proof.
  intro G. rewrite (vdot_ext n x x _ _ (gorth_expand n V x G) (gorth_expand n V x G)).
  rewrite (vdot_sum2 n n (fun k => vdot n (gcol V k) x) (fun k => vdot n (gcol V k) x) (fun k i => V i k) (fun k i => V i k)).
  transitivity (sumn n (fun k => vdot n (gcol V k) x * vdot n (gcol V k) x)); [|apply sumn_ext; intros; ring].
  rewrite <- (sumn_delta2 n (fun k l => vdot n (gcol V k) x * vdot n (gcol V l) x)).
  apply sumn_ext. intros k Hk. apply sumn_ext. intros l Hl. destruct G as [G _].
  change (fun i => V i k) with (gcol V k). change (fun i => V i l) with (gcol V l). now rewrite (G k l Hk Hl).
Qed.
Lemma gsvd_norm m n A U V s x : is_gsvd m n A U s V ->
  vdot m (mvec n A x) (mvec n A x) = sumn (Nat.min m n) (fun k => s k ^ 2 * vdot n (gcol V k) x ^ 2).
Proof.
  intro H. rewrite (vdot_ext m _ _ _ _ (gsvd_mvec m n A U V s H x) (gsvd_mvec m n A U V s H x)).
  rewrite (vdot_sum2 m (Nat.min m n) (fun k => s k * vdot n (gcol V k) x) (fun k => s k * vdot n (gcol V k) x) (fun k i => U i k) (fun k i => U i k)).
  transitivity (sumn (Nat.min m n) (fun k => (s k * vdot n (gcol V k) x) * (s k * vdot n (gcol V k) x))); [|apply sumn_ext; intros; ring].
  rewrite <- (sumn_delta2 (Nat.min m n) (fun k l => (s k * vdot n (gcol V k) x) * (s l * vdot n (gcol V l) x))).
  apply sumn_ext. intros k Hk. apply sumn_ext. intros l Hl. destruct (gsvd_U _ _ _ _ _ _ H) as [G _].
  change (fun i => U i k) with (gcol U k). change (fun i => U i l) with (gcol U l). now rewrite (G k l) by lia.
Qed.
(** The last right singular vector minimises |A x| over the unit sphere. *)
Lemma gsvd_last_min m n A U V s x : is_gsvd m n A U s V -> (0 < n)%nat ->
  vdot m (mvec n A (gcol V (n - 1))) (mvec n A (gcol V (n - 1))) * vdot n x x <= vdot m (mvec n A x) (mvec n A x).
Proof.
  intros H Hn. destruct (Nat.ltb (n - 1) (Nat.min m n)) eqn:B.
  - assert (B' := B). apply Nat.ltb_lt in B. assert (E : Nat.min m n = n) by lia.
    rewrite (gsvd_norm m n A U V s x H), E, (parseval n V x (gsvd_V _ _ _ _ _ _ H)).
    assert (E1 : vdot m (mvec n A (gcol V (n - 1))) (mvec n A (gcol V (n - 1))) = s (n - 1)%nat ^ 2).
    { rewrite (gsvd_norm m n A U V s _ H), E.
      transitivity (sumn n (fun k => delta k (n - 1) * s k ^ 2)); [|apply (sumn_delta n (n - 1) (fun k => s k ^ 2)); lia].
      apply sumn_ext. intros k Hk. destruct (gsvd_V _ _ _ _ _ _ H) as [G _]. rewrite G by lia. unfold delta. destruct (Nat.eq_dec k (n - 1)); ring. }
    rewrite E1, <- sumn_scale. apply sumn_le. intros k Hk. apply Rmult_le_compat_r; [apply pow2_ge_0|].
    apply pow_incr. split; [apply (gsvd_pos _ _ _ _ _ _ H); lia|apply (gsvd_sorted _ _ _ _ _ _ H); lia].
  - rewrite (vdot_ext m _ _ (fun _ => 0 * 0) (fun _ => 0 * 0)).
    + rewrite vdot_scale. pose proof (vdot_pos m (mvec n A x)). lra.
    + intros i Hi. rewrite (gsvd_col m n A U V s H) by lia. rewrite B. ring.
    + intros i Hi. rewrite (gsvd_col m n A U V s H) by lia. rewrite B. ring.
Qed.
