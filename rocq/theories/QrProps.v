(** Epnp::qr_solve (C64, C65): it returns the least squares solution whatever
    earlier calls left in its static arrays; when it gives up wrongly; what
    happens when two calls overlap. *)
From Coq Require Import Reals List Arith Lia Lra Psatz Bool.
From Verif Require Import GenLin GenSpectral QrModel.
Import ListNotations.
Local Open Scope R_scope.

(** * Specification *)
(** squared length of A x - b, for nr rows and nc columns *)
Definition misfit (nr nc : nat) (A : nat -> nat -> R) (b x : nat -> R) : R :=
  sumn nr (fun i => (sumn nc (fun j => A i j * x j) - b i) ^ 2).
(** [x] is the only minimiser *)
Definition least_squares (nr nc : nat) (A : nat -> nat -> R) (b x : nat -> R) : Prop :=
  forall y, misfit nr nc A b x <= misfit nr nc A b y
    /\ (misfit nr nc A b y <= misfit nr nc A b x -> forall j, (j < nc)%nat -> y j = x j).
Definition full_rank (nr nc : nat) (A : nat -> nat -> R) : Prop :=
  forall c, (forall i, (i < nr)%nat -> sumn nc (fun j => A i j * c j) = 0) -> forall j, (j < nc)%nat -> c j = 0.

(** * The scan *)
Lemma sumfrom_eq k n f : (k <= n)%nat -> sumfrom k n f = sumn n (fun i => if Nat.leb k i then f i else 0).
Proof.
  intro H. unfold sumfrom. replace n with (k + (n - k))%nat at 2 by lia. rewrite sumn_split.
  rewrite (sumn_0 k). 2:{ intros i Hi. destruct (Nat.leb_spec k i); [lia|reflexivity]. }
  rewrite Rplus_0_l. apply sumn_ext. intros i _. destruct (Nat.leb_spec k (k + i)); [reflexivity|lia].
Qed.
Lemma scan_max (g : nat -> R) : forall l e, let m := fold_left (fun eta i => if Rlt_dec eta (g i) then g i else eta) l e in
  e <= m /\ (forall i, In i l -> g i <= m) /\ (m = e \/ exists i, In i l /\ m = g i).
Proof.
  induction l as [|a l IH]; intros e; cbn -[Rlt_dec].
  - repeat split; [lra|tauto|auto].
  - destruct (IH (if Rlt_dec e (g a) then g a else e)) as (H1 & H2 & H3). destruct (Rlt_dec e (g a)) as [L|L].
    + repeat split; [lra| |].
      * intros i [<-|I]; [lra|auto].
      * destruct H3 as [E|(i & I & E)]; right; [exists a|exists i]; auto.
    + repeat split; [lra| |].
      * intros i [<-|I]; [lra|auto].
      * destruct H3 as [E|(i & I & E)]; [now left|right; exists i; auto].
Qed.
(** eta is zero exactly when the rows k .. nr-2 and row k vanish. *)
Lemma eta_spec nr A k : 0 <= qr_eta nr A k
  /\ Rabs (A k k) <= qr_eta nr A k
  /\ (forall i, (k <= i)%nat -> (S i < nr)%nat -> Rabs (A i k) <= qr_eta nr A k)
  /\ exists i, (k <= i)%nat /\ (i = k \/ (S i < nr)%nat) /\ qr_eta nr A k = Rabs (A i k).
Proof.
  unfold qr_eta. destruct (scan_max (fun i => Rabs (A i k)) (seq k (nr - S k)) (Rabs (A k k))) as (H1 & H2 & H3).
  cbv zeta. set (m := fold_left _ _ _) in *. cbn beta in *.
  pose proof (Rabs_pos (A k k)). repeat split; [lra|lra| |].
  - intros i Hi Hn. apply H2, in_seq. lia.
  - destruct H3 as [E|(i & I & E)]; [exists k; auto|]. apply in_seq in I. exists i. repeat split; [lia|right; lia|auto].
Qed.

(** * One reflection *)
Section Step.
Variables (nr k : nat) (A : gmat').
Hypothesis Hk : (k < nr)%nat.
Hypothesis He : qr_eta nr A k <> 0.
Let eta := qr_eta nr A k.
Let a i := A i k * (1 / eta).
Let sigma := qr_sigma nr A k.
Let v := qr_v nr A k.
Let a1 := sigma * v k.
Let msk (f : nat -> R) i := if Nat.leb k i then f i else 0.

Lemma st_A i : A i k = eta * a i.
Proof. unfold a. field. exact He. Qed.
Lemma st_sum : sumn nr (fun i => msk (fun i => a i * a i) i) = sigma * sigma /\ 0 < sigma * sigma /\ 0 <= sigma * a k.
Proof.
  set (S := sumn nr (fun i => msk (fun i => a i * a i) i)).
  assert (P : 0 < S).
  { destruct (eta_spec nr A k) as (_ & _ & _ & i & H1 & H2 & E). fold eta in E.
    assert (Hi : (i < nr)%nat) by (destruct H2; lia).
    assert (1 <= S); [|lra].
    assert (Ai : a i * a i = 1).
    { assert (B : A i k * A i k = eta * eta) by (rewrite E, <- Rabs_mult, Rabs_right; [reflexivity|nra]).
      unfold a. replace (A i k * (1 / eta) * (A i k * (1 / eta))) with (A i k * A i k * (1 / (eta * eta))) by (field; exact He).
      rewrite B. field. exact He. }
    unfold S. replace (sumn nr _) with (sumn nr (fun r => delta r i * 1 + (msk (fun i => a i * a i) r - delta r i))) by (apply sumn_ext; intros; ring).
    rewrite sumn_add, sumn_delta by lia.
    assert (0 <= sumn nr (fun r => msk (fun i => a i * a i) r - delta r i)); [|lra].
    apply sumn_nonneg. intros r _. unfold msk, delta. destruct (Nat.eq_dec r i) as [->|N].
    - destruct (Nat.leb_spec k i); [lra|lia].
    - destruct (Nat.leb_spec k r); [|lra]. pose proof (Rle_0_sqr (a r)) as Q. unfold Rsqr in Q. lra. }
  assert (E : sigma = if Rlt_dec (a k) 0 then - sqrt S else sqrt S).
  { unfold sigma, qr_sigma, S. rewrite sumfrom_eq by lia. fold eta. reflexivity. }
  pose proof (sqrt_sqrt S (Rlt_le _ _ P)) as Q. pose proof (sqrt_lt_R0 S P).
  destruct (Rlt_dec (a k) 0); rewrite E; split; [nra|split; nra|nra|split; nra].
Qed.
Lemma v_eq i : v i = a i + delta i k * sigma.
Proof. unfold v, qr_v, delta, a. fold eta sigma. destruct (Nat.eqb_spec i k) as [->|N]; destruct (Nat.eq_dec _ _); try congruence; ring. Qed.
Lemma a1_eq : a1 = sigma * sigma + sigma * a k.
Proof. unfold a1. rewrite v_eq. unfold delta. destruct (Nat.eq_dec k k); [ring|congruence]. Qed.
Lemma a1_pos : 0 < a1.
Proof. destruct st_sum as (_ & ? & ?). rewrite a1_eq. lra. Qed.
Lemma sum_msk f : sumn nr (fun i => msk (fun i => delta i k * f i) i) = f k.
Proof.
  rewrite <- (sumn_delta nr k f) by lia. apply sumn_ext. intros i _. unfold msk, delta.
  destruct (Nat.leb_spec k i), (Nat.eq_dec i k); try lia; ring.
Qed.
Lemma vv : sumfrom k nr (fun i => v i * v i) = 2 * a1.
Proof.
  rewrite sumfrom_eq by lia. destruct st_sum as (E & _ & _).
  transitivity (sumn nr (fun i => msk (fun i => a i * a i) i + (2 * sigma) * msk (fun i => delta i k * a i) i + (sigma * sigma) * msk (fun i => delta i k * 1) i)).
  - apply sumn_ext. intros i _. unfold msk. rewrite v_eq. unfold delta.
    destruct (Nat.leb k i), (Nat.eq_dec i k); ring.
  - rewrite !sumn_add, !sumn_scale, !sum_msk. unfold msk in *. rewrite E, a1_eq. ring.
Qed.
Lemma vA : sumfrom k nr (fun i => v i * A i k) = eta * a1.
Proof.
  rewrite sumfrom_eq by lia. destruct st_sum as (E & _ & _).
  transitivity (sumn nr (fun i => eta * msk (fun i => a i * a i) i + (eta * sigma) * msk (fun i => delta i k * a i) i)).
  - apply sumn_ext. intros i _. unfold msk. rewrite v_eq, st_A.
    destruct (Nat.leb k i); ring.
  - rewrite !sumn_add, !sumn_scale, !sum_msk. unfold msk in *. rewrite E, a1_eq. ring.
Qed.
(** the reflected column: -eta*sigma on the diagonal, zero below *)
Lemma reflected i : A i k - sumfrom k nr (fun i => v i * A i k) / a1 * v i = delta i k * (- eta * sigma).
Proof. pose proof a1_pos. rewrite vA, st_A, v_eq. field. lra. Qed.
Lemma a2_nz : - eta * sigma <> 0.
Proof.
  destruct st_sum as (_ & P & _). intro Z.
  assert (sigma = 0); [|nra]. apply Rmult_integral in Z. destruct Z as [Z|Z]; [exfalso; apply He; unfold eta in Z; lra|exact Z].
Qed.
End Step.

(** * The transformation of the right-hand side *)
(** [refl nr F a1 m b]: the first m passes of b <- Qt b *)
Definition refl (nr : nat) (F : gmat') (a1 : nat -> R) (m : nat) (b : nat -> R) : nat -> R :=
  fold_left (fun b j => qr_bstep nr F a1 j b) (seq 0 m) b.
Lemma refl_S nr F a1 m b : refl nr F a1 (S m) b = qr_bstep nr F a1 m (refl nr F a1 m b).
Proof. unfold refl. rewrite seq_S, fold_left_app. reflexivity. Qed.
Definition okcol (nr : nat) (F : gmat') (a1 : nat -> R) (j : nat) : Prop :=
  a1 j <> 0 /\ sumfrom j nr (fun i => F i j * F i j) = 2 * a1 j.

Lemma bstep_eq nr F a1 j b i : (i < nr)%nat -> (j <= nr)%nat ->
  qr_bstep nr F a1 j b i = b i - sumn nr (fun r => (if Nat.leb j r then F r j else 0) * b r) / a1 j * (if Nat.leb j i then F i j else 0).
Proof.
  intros Hi Hj. unfold qr_bstep. rewrite sumfrom_eq by exact Hj.
  replace (sumn nr (fun i0 => if Nat.leb j i0 then F i0 j * b i0 else 0)) with (sumn nr (fun r => (if Nat.leb j r then F r j else 0) * b r)).
  2:{ apply sumn_ext. intros r _. destruct (Nat.leb j r); ring. }
  destruct (Nat.leb_spec j i); cbn [andb]; [|ring]. destruct (Nat.ltb_spec i nr); [reflexivity|lia].
Qed.
Lemma bstep_dot nr F a1 j x y : (j <= nr)%nat -> okcol nr F a1 j ->
  vdot nr (qr_bstep nr F a1 j x) (qr_bstep nr F a1 j y) = vdot nr x y.
Proof.
  intros Hj [N V]. rewrite sumfrom_eq in V by exact Hj.
  set (w := fun r => if Nat.leb j r then F r j else 0).
  assert (W : vdot nr w w = 2 * a1 j).
  { rewrite <- V. unfold vdot, w. apply sumn_ext. intros i _. destruct (Nat.leb j i); ring. }
  transitivity (vdot nr (fun i => x i + (- (vdot nr w x / a1 j)) * w i) (fun i => y i + (- (vdot nr w y / a1 j)) * w i)).
  - apply vdot_ext; intros i Hi; rewrite bstep_eq by lia; unfold vdot, w, Rdiv; ring.
  - rewrite vdot_add, vdot_scale.
    rewrite (vdot_comm nr _ y), (vdot_comm nr _ w), !vdot_add, !vdot_scale, W.
    rewrite (vdot_comm nr y x), (vdot_comm nr y w). field. exact N.
Qed.
Lemma refl_dot nr F a1 m x y : (m <= nr)%nat -> (forall j, (j < m)%nat -> okcol nr F a1 j) ->
  vdot nr (refl nr F a1 m x) (refl nr F a1 m y) = vdot nr x y.
Proof.
  induction m as [|m IH]; intros Hm H; [reflexivity|]. rewrite !refl_S, bstep_dot by (auto; lia).
  apply IH; [lia|auto].
Qed.
Lemma refl_ext nr F a1 F' a1' m x : (forall i j, (j < m)%nat -> (j <= i)%nat -> F i j = F' i j) -> (forall j, (j < m)%nat -> a1 j = a1' j) ->
  refl nr F a1 m x = refl nr F' a1' m x.
Proof.
  induction m as [|m IH]; intros HF Ha; [reflexivity|]. rewrite !refl_S, IH by auto.
  unfold qr_bstep. rewrite (Ha m) by lia.
  assert (E : forall b, sumfrom m nr (fun i => F i m * b i) = sumfrom m nr (fun i => F' i m * b i)).
  { intro b. apply sumn_ext. intros i _. rewrite HF by lia. reflexivity. }
  apply FunctionalExtensionality.functional_extensionality. intro i. rewrite E.
  destruct (Nat.leb_spec m i); cbn [andb]; [|reflexivity]. rewrite HF by lia. reflexivity.
Qed.
(** linearity *)
Lemma refl_lin nr F a1 m n (x : nat -> nat -> R) (c y : nat -> R) i : (i < nr)%nat -> (m <= nr)%nat ->
  refl nr F a1 m (fun r => y r - sumn n (fun j => x r j * c j)) i
  = refl nr F a1 m y i - sumn n (fun j => refl nr F a1 m (fun r => x r j) i * c j).
Proof.
  revert i. induction m as [|m IH]; intros i Hi Hm; [reflexivity|].
  rewrite !refl_S, !bstep_eq by lia.
  rewrite (IH i) by lia.
  rewrite (sumn_ext n (fun j => refl nr F a1 (S m) (fun r => x r j) i * c j)
            (fun j => refl nr F a1 m (fun r => x r j) i * c j
               - (if Nat.leb m i then F i m else 0) / a1 m * (sumn nr (fun r => (if Nat.leb m r then F r m else 0) * refl nr F a1 m (fun r => x r j) r) * c j))).
  2:{ intros j _. rewrite refl_S, bstep_eq by lia. unfold Rdiv. ring. }
  rewrite sumn_sub, sumn_scale.
  replace (sumn nr (fun r => (if Nat.leb m r then F r m else 0) * refl nr F a1 m (fun r0 => y r0 - sumn n (fun j => x r0 j * c j)) r))
    with (sumn nr (fun r => (if Nat.leb m r then F r m else 0) * refl nr F a1 m y r)
          - sumn n (fun j => sumn nr (fun r => (if Nat.leb m r then F r m else 0) * refl nr F a1 m (fun r0 => x r0 j) r) * c j)).
  { unfold Rdiv. ring. }
  rewrite (sumn_ext n _ (fun j => sumn nr (fun r => (if Nat.leb m r then F r m else 0) * refl nr F a1 m (fun r0 => x r0 j) r * c j))).
  2:{ intros j _. rewrite <- sumn_scale_r. reflexivity. }
  rewrite (sumn_swap n nr), <- sumn_sub. apply sumn_ext. intros r Hr. rewrite (IH r) by lia.
  rewrite Rmult_minus_distr_l. f_equal. rewrite <- sumn_scale. apply sumn_ext. intros; ring.
Qed.

(** * The factorisation *)
Record qinv (nr nc : nat) (A0 : gmat') (k : nat) (s : qrst) : Prop := {
  i_ok : forall j, (j < k)%nat -> okcol nr (q_A s) (q_1 s) j;
  i_cols : forall i j, (k <= j)%nat -> (j < nc)%nat -> (i < nr)%nat -> q_A s i j = refl nr (q_A s) (q_1 s) k (fun r => A0 r j) i;
  i_up : forall i j, (j < k)%nat -> (i < j)%nat -> q_A s i j = refl nr (q_A s) (q_1 s) k (fun r => A0 r j) i;
  i_diag : forall j, (j < k)%nat -> refl nr (q_A s) (q_1 s) k (fun r => A0 r j) j = q_2 s j /\ q_2 s j <> 0;
  i_low : forall i j, (j < k)%nat -> (j < i)%nat -> (i < nr)%nat -> refl nr (q_A s) (q_1 s) k (fun r => A0 r j) i = 0 }.

Lemma upd_same x k v : upd x k v k = v.
Proof. unfold upd. now rewrite Nat.eqb_refl. Qed.
Lemma upd_other x k v i : i <> k -> upd x k v i = x i.
Proof. intro N. unfold upd. destruct (Nat.eqb_spec i k); congruence. Qed.

Lemma qr_step_inv nr nc A0 k s s' : (k < nc)%nat -> (nc <= nr)%nat -> qinv nr nc A0 k s -> qr_step nr k s = Some s' -> qinv nr nc A0 (S k) s'.
Proof.
  intros Hk Hn I E. unfold qr_step in E. destruct (Req_EM_T (qr_eta nr (q_A s) k) 0) as [|He]; [discriminate|].
  injection E; clear E; intros <-. destruct I as [Iok Icols Iup Idiag Ilow].
  set (A := q_A s) in *. set (v := qr_v nr A k) in *. set (sg := qr_sigma nr A k) in *.
  assert (Hkr : (k < nr)%nat) by lia.
  pose proof (a1_pos nr k A Hkr He) as P1. pose proof (vv nr k A Hkr He) as Pv.
  pose proof (a2_nz nr k A Hkr He) as P2. pose proof (reflected nr k A Hkr He) as Pr.
  fold v sg in P1, Pv, P2, Pr. set (a1 := sg * v k) in *.
  set (F := fun i j : nat => if (Nat.ltb i k || Nat.leb nr i)%bool then A i j
       else if Nat.eqb j k then v i else if Nat.ltb k j then A i j - sumfrom k nr (fun r => v r * A r j) / a1 * v i else A i j).
  assert (Fold : forall i j, (j < k)%nat -> F i j = A i j).
  { intros i j L. unfold F. destruct (_ || _)%bool; [reflexivity|]. destruct (Nat.eqb_spec j k); [lia|]. destruct (Nat.ltb_spec k j); [lia|reflexivity]. }
  assert (Fv : forall i, (k <= i)%nat -> (i < nr)%nat -> F i k = v i).
  { intros i L L'. unfold F. destruct (Nat.ltb_spec i k); [lia|]. destruct (Nat.leb_spec nr i); [lia|]. cbn [orb]. now rewrite Nat.eqb_refl. }
  assert (T : forall x, refl nr F (upd (q_1 s) k a1) k x = refl nr A (q_1 s) k x).
  { intro x. apply refl_ext; [intros; apply Fold; auto|intros; apply upd_other; lia]. }
  assert (FS : forall g, sumfrom k nr (fun i => F i k * g i) = sumfrom k nr (fun i => v i * g i)).
  { intro g. apply sumn_ext. intros i Hi. rewrite Fv by lia. reflexivity. }
  assert (T' : forall x i, (i < nr)%nat -> refl nr F (upd (q_1 s) k a1) (S k) x i =
     let y := refl nr A (q_1 s) k x in if Nat.leb k i then y i - sumfrom k nr (fun r => v r * y r) / a1 * v i else y i).
  { intros x i Hi. rewrite refl_S, T. unfold qr_bstep. rewrite upd_same. cbv zeta. rewrite FS.
    destruct (Nat.leb_spec k i); cbn [andb]; [|reflexivity]. destruct (Nat.ltb_spec i nr); [|lia]. now rewrite Fv by lia. }
  (* columns before k do not change *)
  assert (Old : forall j i, (j < k)%nat -> (i < nr)%nat -> refl nr F (upd (q_1 s) k a1) (S k) (fun r => A0 r j) i = refl nr A (q_1 s) k (fun r => A0 r j) i).
  { intros j i Hj Hi. rewrite T' by exact Hi. cbv zeta.
    replace (sumfrom k nr _) with 0; [destruct (Nat.leb k i); unfold Rdiv; ring|].
    symmetry. apply sumn_0. intros r Hr. rewrite Ilow by lia. ring. }
  assert (Cols : forall j i, (k <= j)%nat -> (j < nc)%nat -> (i < nr)%nat -> refl nr F (upd (q_1 s) k a1) (S k) (fun r => A0 r j) i
     = if Nat.leb k i then A i j - sumfrom k nr (fun r => v r * A r j) / a1 * v i else A i j).
  { intros j i H1 H2 H3. rewrite T' by exact H3. cbv zeta.
    replace (sumfrom k nr (fun r => v r * refl nr A (q_1 s) k (fun r0 => A0 r0 j) r)) with (sumfrom k nr (fun r => v r * A r j)).
    2:{ apply sumn_ext. intros r Hr. rewrite <- Icols by lia. reflexivity. }
    rewrite <- !Icols by lia. reflexivity. }
  assert (Fup : forall i j, (i < k)%nat -> F i j = A i j).
  { intros i j L. unfold F. destruct (Nat.ltb_spec i k); [reflexivity|lia]. }
  constructor; cbn [q_A q_1 q_2]; fold F.
  - intros j Hj. assert (j = k \/ j < k)%nat as [->|Hj'] by lia.
    + split; [rewrite upd_same; lra|]. rewrite upd_same, (FS (fun i => F i k)).
      transitivity (sumfrom k nr (fun i => v i * v i)); [|exact Pv]. apply sumn_ext. intros i Hi. rewrite Fv by lia. reflexivity.
    + destruct (Iok j Hj') as [N S2]. split; rewrite upd_other by lia; [exact N|]. rewrite <- S2. apply sumn_ext. intros i _. now rewrite Fold by lia.
  - intros i j H1 H2 H3. rewrite Cols by lia. unfold F. destruct (Nat.ltb_spec i k), (Nat.leb_spec nr i), (Nat.leb_spec k i); try lia; cbn [orb]; [reflexivity|].
    destruct (Nat.eqb_spec j k); [lia|]. destruct (Nat.ltb_spec k j); [reflexivity|lia].
  - intros i j H1 H2. assert (j = k \/ j < k)%nat as [->|Hj'] by lia.
    + rewrite Cols by lia. rewrite Fup by lia. destruct (Nat.leb_spec k i); [lia|reflexivity].
    + rewrite Old by lia. rewrite Fold by lia. apply Iup; lia.
  - intros j Hj. assert (j = k \/ j < k)%nat as [->|Hj'] by lia.
    + rewrite upd_same, Cols, Nat.leb_refl, Pr by lia. rewrite delta_same. split; [ring|exact P2].
    + rewrite Old, upd_other by lia. apply Idiag; lia.
  - intros i j H1 H2 H3. assert (j = k \/ j < k)%nat as [->|Hj'] by lia.
    + rewrite Cols by lia. destruct (Nat.leb_spec k i); [|lia]. rewrite Pr, delta_diff by lia. ring.
    + rewrite Old by lia. apply Ilow; lia.
Qed.

Lemma qr_factor_inv nr nc A0 : (nc <= nr)%nat -> forall m a1 a2 s, (m <= nc)%nat ->
  fold_left (fun o k => match o with Some s => qr_step nr k s | None => None end) (seq 0 m) (Some (QrSt A0 a1 a2)) = Some s ->
  qinv nr nc A0 m s.
Proof.
  intros Hn m a1 a2. induction m as [|m IH]; intros s Hm E.
  - injection E as <-. constructor; intros; try lia. reflexivity.
  - rewrite seq_S, fold_left_app in E. cbn [fold_left Nat.add] in E.
    destruct (fold_left _ (seq 0 m) _) as [s1|] eqn:E1; [|discriminate].
    apply (qr_step_inv nr nc A0 m s1 s); [lia|exact Hn|apply IH; [lia|reflexivity]|exact E].
Qed.

(** * Back substitution *)
Lemma xfold nc F a2 b X : forall m, (m <= nc)%nat -> (forall i, (i < nc)%nat -> a2 i <> 0) ->
  let Y := fold_left (fun X i => qr_xstep nc F a2 b i X) (rev (seq (nc - m) m)) X in
  (forall i, (nc - m <= i)%nat -> (i < nc)%nat -> a2 i * Y i + sumfrom (S i) nc (fun j => F i j * Y j) = b i)
  /\ (forall i, (i < nc - m)%nat -> Y i = X i).
Proof.
  induction m as [|m IH]; intros Hm Ha; cbv zeta.
  - split; [intros; lia|reflexivity].
  - destruct (IH ltac:(lia) Ha) as [H1 H2]. cbv zeta in H1, H2.
    replace (seq (nc - S m) (S m)) with ((nc - S m)%nat :: seq (nc - m) m).
    2:{ cbn [seq]. f_equal. f_equal. lia. }
    cbn [rev]. rewrite fold_left_app. cbn [fold_left]. set (Y := fold_left _ _ X) in *.
    unfold qr_xstep. set (k := (nc - S m)%nat) in *.
    assert (Sf : forall i w, (k <= i)%nat -> sumfrom (S i) nc (fun j => F i j * upd Y k w j) = sumfrom (S i) nc (fun j => F i j * Y j)).
    { intros i w Hi. apply sumn_ext. intros r _. rewrite upd_other by lia. reflexivity. }
    split.
    + intros i L1 L2. rewrite Sf by exact L1. assert (i = k \/ k < i)%nat as [->|Hi] by lia.
      * rewrite upd_same. field. apply Ha. lia.
      * rewrite upd_other by lia. apply H1; lia.
    + intros i L. rewrite upd_other by lia. apply H2. lia.
Qed.

Lemma qr_factor_some nr nc A a1 a2 s : (nc <= nr)%nat -> qr_factor nr nc (QrSt A a1 a2) = Some s -> qinv nr nc A nc s.
Proof. intros Hn E. apply (qr_factor_inv nr nc A Hn nc a1 a2 s (le_n _) E). Qed.

Lemma factor_full_rank nr nc A s : (nc <= nr)%nat -> qinv nr nc A nc s -> full_rank nr nc A.
Proof.
  intros Hn [Iok _ _ Idiag Ilow] c Hc.
  set (T := fun j => refl nr (q_A s) (q_1 s) nc (fun r => A r j)) in *.
  assert (Z : forall i, (i < nr)%nat -> sumn nc (fun j => T j i * c j) = 0).
  { intros i Hi. pose proof (refl_lin nr (q_A s) (q_1 s) nc nc (fun r j => A r j) c (fun _ => 0) i Hi Hn) as L.
    assert (N : forall x, vdot nr x x = 0 -> forall r, (r < nr)%nat -> refl nr (q_A s) (q_1 s) nc x r = 0).
    { intros x X0. apply vdot_zero. rewrite refl_dot; auto. }
    rewrite (N (fun _ => 0)) in L by (auto; apply sumn_0; intros; ring).
    rewrite N in L; [fold T in L; unfold T; lra| |exact Hi].
    apply sumn_0. intros r Hr. rewrite Hc by exact Hr. ring. }
  (* upper triangular with nonzero diagonal *)
  assert (G : forall m, (m <= nc)%nat -> forall j, (nc - m <= j)%nat -> (j < nc)%nat -> c j = 0).
  { induction m as [|m IHm]; intros Hm j H1 H2; [lia|]. assert (j = (nc - S m)%nat \/ (nc - m <= j)%nat) as [->|H] by lia; [|apply IHm; lia].
    set (k := (nc - S m)%nat) in *. pose proof (Z k ltac:(lia)) as Zk.
    rewrite (sumn_ext nc _ (fun j => delta j k * (T k k * c k))) in Zk.
    - rewrite sumn_delta in Zk by lia. destruct (Idiag k ltac:(lia)) as [D1 D2]. unfold T in Zk. rewrite D1 in Zk.
      apply Rmult_integral in Zk. tauto.
    - intros j Hj. unfold delta. destruct (Nat.eq_dec j k) as [->|N]; [ring|]. rewrite Rmult_0_l.
      assert (j < k \/ k < j)%nat as [L|L] by lia.
      + unfold T. rewrite Ilow by lia. ring.
      + rewrite (IHm ltac:(lia) j) by lia. ring. }
  intros j Hj. apply (G nc); lia.
Qed.

Lemma normal_equations nr nc A b X s : (nc <= nr)%nat -> qinv nr nc A nc s ->
  forall j, (j < nc)%nat -> vdot nr (fun i => A i j) (fun i => b i - sumn nc (fun k => A i k * qr_back nr nc s b X k)) = 0.
Proof.
  intros Hn I j Hj. pose proof I as [Iok _ Iup Idiag Ilow]. set (Y := qr_back nr nc s b X).
  rewrite <- (refl_dot nr (q_A s) (q_1 s) nc) by auto.
  apply sumn_0. intros i Hi.
  assert (i < nc \/ nc <= i)%nat as [L|L] by lia.
  - replace (refl nr (q_A s) (q_1 s) nc (fun i0 => b i0 - sumn nc (fun k => A i0 k * Y k)) i) with 0; [ring|].
    rewrite (refl_lin nr (q_A s) (q_1 s) nc nc (fun r k => A r k) Y b i Hi Hn).
    destruct (xfold nc (q_A s) (q_2 s) (refl nr (q_A s) (q_1 s) nc b) X nc (le_n _)) as [H _].
    { intros k Hk. apply Idiag; lia. }
    cbv zeta in H. replace (nc - nc)%nat with O in H by lia. specialize (H i ltac:(lia) L).
    change (fold_left _ (rev (seq 0 nc)) X) with Y in H. rewrite <- H.
    rewrite (sumn_ext nc (fun k => refl nr (q_A s) (q_1 s) nc (fun r => A r k) i * Y k)
       (fun k => delta k i * (q_2 s i * Y i) + (if Nat.leb (S i) k then q_A s i k * Y k else 0))).
    + rewrite sumn_add, sumn_delta, <- sumfrom_eq by lia. ring.
    + intros k Hk. unfold delta. destruct (Nat.eq_dec k i) as [->|N].
      * destruct (Nat.leb_spec (S i) i); [lia|]. destruct (Idiag i L) as [-> _]. ring.
      * destruct (Nat.leb_spec (S i) k); [rewrite <- Iup by lia; ring|]. rewrite Ilow by lia. ring.
  - rewrite Ilow by lia. ring.
Qed.

Lemma misfit_split nr nc A b x y : (forall j, (j < nc)%nat -> vdot nr (fun i => A i j) (fun i => b i - sumn nc (fun k => A i k * x k)) = 0) ->
  misfit nr nc A b y = misfit nr nc A b x + sumn nr (fun i => sumn nc (fun j => A i j * (y j - x j)) ^ 2).
Proof.
  intro H. unfold misfit.
  set (r := fun i => b i - sumn nc (fun k => A i k * x k)) in *. set (d := fun i => sumn nc (fun j => A i j * (y j - x j))).
  assert (Ed : forall i, sumn nc (fun j => A i j * y j) - b i = d i - r i).
  { intro i. unfold d, r. rewrite (sumn_ext nc (fun j => A i j * (y j - x j)) (fun j => A i j * y j - A i j * x j)) by (intros; ring). rewrite sumn_sub. ring. }
  assert (X : vdot nr d r = 0).
  { unfold vdot, d. rewrite (sumn_ext nr _ (fun i => sumn nc (fun j => (y j - x j) * (A i j * r i)))).
    2:{ intros i _. rewrite <- sumn_scale_r. apply sumn_ext. intros; ring. }
    rewrite sumn_swap. apply sumn_0. intros j Hj. rewrite sumn_scale. unfold vdot in H. rewrite H by exact Hj. ring. }
  rewrite (sumn_ext nr _ (fun i => r i ^ 2 + (d i ^ 2 + (-2) * (d i * r i)))).
  2:{ intros i _. rewrite Ed. ring. }
  rewrite !sumn_add, sumn_scale. unfold vdot in X. rewrite X.
  rewrite (sumn_ext nr (fun i => (sumn nc (fun j => A i j * x j) - b i) ^ 2) (fun i => r i ^ 2)) by (intros; unfold r; ring).
  unfold d. ring.
Qed.

(** * C64 *)
Lemma qr_some_ls nr nc A a1 a2 b X s : (nc <= nr)%nat -> qr_factor nr nc (QrSt A a1 a2) = Some s -> least_squares nr nc A b (qr_back nr nc s b X).
Proof.
  intros Hn E. pose proof (qr_factor_some nr nc A a1 a2 s Hn E) as I. intro y.
  pose proof (misfit_split nr nc A b _ y (normal_equations nr nc A b X s Hn I)) as M.
  set (x := qr_back nr nc s b X) in *. rewrite M. set (d := fun i => sumn nc (fun j => A i j * (y j - x j))) in *.
  assert (P : 0 <= sumn nr (fun i => d i ^ 2)) by (apply sumn_nonneg; intros; nra).
  unfold d in P. split; [lra|]. intros L.
  assert (Z : sumn nr (fun i => d i ^ 2) = 0) by (unfold d; lra).
  assert (D : forall i, (i < nr)%nat -> d i = 0).
  { intros i Hi. assert (d i ^ 2 = 0); [|nra]. apply (sumn_nonneg_zero nr (fun i => d i ^ 2)); auto. intros; nra. }
  intros j Hj. pose proof (factor_full_rank nr nc A s Hn I (fun j => y j - x j) D j Hj) as G. cbn beta in G. lra.
Qed.
(** Every call either leaves X untouched or stores the only least squares
    solution, for every size, matrix and right-hand side, and whatever the static
    arrays and X held before. *)
Theorem C64_least_squares : forall nr nc A a1 a2 b X, (nc <= nr)%nat ->
  (forall j, qr_solve nr nc A a1 a2 b X j = X j) \/ least_squares nr nc A b (qr_solve nr nc A a1 a2 b X).
Proof.
  intros nr nc A a1 a2 b X Hn. unfold qr_solve. destruct (qr_factor nr nc (QrSt A a1 a2)) as [s|] eqn:E; [right|now left].
  exact (qr_some_ls nr nc A a1 a2 b X s Hn E).
Qed.

(** A matrix without full column rank is always detected: X is left untouched. *)
Theorem C64_singular_detected : forall nr nc A a1 a2 b X, (nc <= nr)%nat -> ~ full_rank nr nc A ->
  forall j, qr_solve nr nc A a1 a2 b X j = X j.
Proof.
  intros nr nc A a1 a2 b X Hn N j. unfold qr_solve. destruct (qr_factor nr nc (QrSt A a1 a2)) as [s|] eqn:E; [|reflexivity].
  destruct N. exact (factor_full_rank nr nc A s Hn (qr_factor_some nr nc A a1 a2 s Hn E)).
Qed.

(** The scan misses only the last row: with full rank and a last row of zeros
    the solution is always found. *)
Lemma refl_last nr F a1 m x : (forall j, (j < m)%nat -> F (nr - 1)%nat j = 0) -> x (nr - 1)%nat = 0 -> refl nr F a1 m x (nr - 1)%nat = 0.
Proof.
  intros HF Hx. induction m as [|m IH]; [exact Hx|]. rewrite refl_S. unfold qr_bstep.
  destruct (_ && _)%bool; [rewrite HF by lia|]; rewrite IH by auto; ring.
Qed.
Lemma last_row_kept nr nc k s s' : (k < nc)%nat -> (nc < nr)%nat -> (forall j, (j < nc)%nat -> q_A s (nr - 1)%nat j = 0) -> qr_step nr k s = Some s' ->
  forall j, (j < nc)%nat -> q_A s' (nr - 1)%nat j = 0.
Proof.
  intros Hk Hn H E j Hj. unfold qr_step in E. destruct (Req_EM_T _ 0); [discriminate|]. injection E; clear E; intros <-. cbn [q_A].
  assert (V : qr_v nr (q_A s) k (nr - 1) = 0).
  { unfold qr_v. rewrite H by lia. destruct (Nat.eqb_spec (nr - 1) k); [lia|ring]. }
  rewrite V. destruct (_ || _)%bool; [auto|]. destruct (Nat.eqb j k); [reflexivity|]. destruct (Nat.ltb k j); rewrite H by exact Hj; ring.
Qed.
Lemma not_all_zero nr nc A k s : (k < nc)%nat -> (nc <= nr)%nat -> qinv nr nc A k s -> full_rank nr nc A ->
  exists i, (k <= i < nr)%nat /\ q_A s i k <> 0.
Proof.
  intros Hk Hn I FR.
  destruct (Classical_Prop.classic (exists i, (k <= i < nr)%nat /\ q_A s i k <> 0)) as [Y|N]; [exact Y|exfalso].
  pose proof I as [Iok Icols Iup Idiag Ilow].
  assert (Z : forall i, (k <= i)%nat -> (i < nr)%nat -> q_A s i k = 0).
  { intros i H1 H2. destruct (Req_dec (q_A s i k) 0) as [|X]; [assumption|]. destruct N. exists i. auto. }
  set (T := fun j => refl nr (q_A s) (q_1 s) k (fun r => A r j)) in *.
  (* coefficients from the triangular part *)
  set (c := fold_left (fun X i => qr_xstep k (q_A s) (q_2 s) (T k) i X) (rev (seq 0 k)) (fun _ => 0)).
  destruct (xfold k (q_A s) (q_2 s) (T k) (fun _ => 0) k (le_n _)) as [H _]; [intros; apply Idiag; lia|].
  cbv zeta in H. replace (k - k)%nat with O in H by lia. fold c in H.
  assert (Q : forall i, (i < nr)%nat -> refl nr (q_A s) (q_1 s) k (fun r => A r k - sumn k (fun j => A r j * c j)) i = 0).
  { intros i Hi. rewrite (refl_lin nr (q_A s) (q_1 s) k k (fun r j => A r j) c (fun r => A r k) i Hi) by lia. fold (T k).
    rewrite (sumn_ext k _ (fun j => if Nat.leb i j then (if Nat.eqb i j then q_2 s i else q_A s i j) * c j else 0)).
    2:{ intros j Hj. destruct (Nat.leb_spec i j), (Nat.eqb_spec i j) as [->|Ne]; try lia.
        - destruct (Idiag j Hj) as [D _]. rewrite D. reflexivity.
        - rewrite <- Iup by lia. reflexivity.
        - rewrite Ilow by lia. ring. }
    assert (i < k \/ k <= i)%nat as [L|L] by lia.
    - rewrite <- (H i) by lia.
      rewrite (sumn_ext k _ (fun j => delta j i * (q_2 s i * c i) + (if Nat.leb (S i) j then q_A s i j * c j else 0))).
      + rewrite sumn_add, sumn_delta, <- sumfrom_eq by lia. ring.
      + intros j Hj. unfold delta. destruct (Nat.leb_spec i j), (Nat.eqb_spec i j), (Nat.eq_dec j i), (Nat.leb_spec (S i) j); subst; try lia; ring.
    - rewrite sumn_0. 2:{ intros j Hj. destruct (Nat.leb_spec i j); [lia|reflexivity]. }
      unfold T. rewrite <- Icols by lia. rewrite Z by lia. ring. }
  assert (Q0 : forall i, (i < nr)%nat -> A i k - sumn k (fun j => A i j * c j) = 0).
  { apply (vdot_zero nr (fun r => A r k - sumn k (fun j => A r j * c j))). rewrite <- (refl_dot nr (q_A s) (q_1 s) k) by (auto; lia).
    apply sumn_0. intros i Hi. rewrite Q by exact Hi. ring. }
  assert (F1 : (fun j => if Nat.ltb j k then c j else if Nat.eqb j k then -1 else 0) k = 0).
  { refine (FR (fun j => if Nat.ltb j k then c j else if Nat.eqb j k then -1 else 0) _ k Hk). intros i Hi.
    replace nc with (k + S (nc - S k))%nat by lia. rewrite sumn_split.
    rewrite (sumn_ext k _ (fun j => A i j * c j)). 2:{ intros j Hj. destruct (Nat.ltb_spec j k); [reflexivity|lia]. }
    rewrite (sumn_ext (S (nc - S k)) _ (fun j => delta j 0 * (- A i k))).
    - rewrite sumn_delta by lia. specialize (Q0 i Hi). cbn beta in Q0. lra.
    - intros j Hj. unfold delta. destruct (Nat.ltb_spec (k + j) k); [lia|]. destruct (Nat.eqb_spec (k + j) k), (Nat.eq_dec j 0); try lia; try ring.
      subst j. rewrite Nat.add_0_r. ring. }
  cbn beta in F1. rewrite Nat.ltb_irrefl, Nat.eqb_refl in F1. lra.
Qed.
Theorem C64_full_rank_zero_last_row : forall nr nc A a1 a2 b X, (nc < nr)%nat -> full_rank nr nc A ->
  (forall j, (j < nc)%nat -> A (nr - 1)%nat j = 0) -> least_squares nr nc A b (qr_solve nr nc A a1 a2 b X).
Proof.
  intros nr nc A a1 a2 b X Hn FR HL.
  assert (E : forall m, (m <= nc)%nat -> exists s,
    fold_left (fun o k => match o with Some s => qr_step nr k s | None => None end) (seq 0 m) (Some (QrSt A a1 a2)) = Some s
    /\ forall j, (j < nc)%nat -> q_A s (nr - 1)%nat j = 0).
  { induction m as [|m IH]; intro Hm; [exists (QrSt A a1 a2); split; [reflexivity|exact HL]|].
    destruct (IH ltac:(lia)) as (s & E & L). rewrite seq_S, fold_left_app, E. cbn [fold_left Nat.add].
    pose proof (qr_factor_inv nr nc A ltac:(lia) m a1 a2 s ltac:(lia) E) as I.
    destruct (not_all_zero nr nc A m s ltac:(lia) ltac:(lia) I FR) as (i & Hi & Ni).
    destruct (qr_step nr m s) as [s'|] eqn:St.
    - exists s'. split; [reflexivity|]. apply (last_row_kept nr nc m s s'); auto; lia.
    - exfalso. unfold qr_step in St. destruct (Req_EM_T (qr_eta nr (q_A s) m) 0) as [Z|]; [|discriminate].
      destruct (Nat.eq_dec i (nr - 1)) as [->|Nl]; [apply Ni, L; lia|].
      destruct (eta_spec nr (q_A s) m) as (_ & _ & B & _). specialize (B i ltac:(lia) ltac:(lia)). rewrite Z in B.
      pose proof (Rabs_pos_lt _ Ni). lra. }
  destruct (E nc (le_n _)) as (s & E1 & _).
  unfold qr_solve, qr_factor. rewrite E1. apply (qr_some_ls nr nc A a1 a2 b X s); [lia|exact E1].
Qed.

(** Full rank alone is not enough: here the solver gives up and leaves X, which
    gauss_newton never initialises, although the solution is unique. *)
Definition late : gmat' := fun i j => match j with 0%nat => delta i 5 | S j => delta i j end.
Lemma late_full_rank : full_rank 6 4 late.
Proof.
  intros c H j Hj. pose proof (H 0%nat ltac:(lia)) as H0. pose proof (H 1%nat ltac:(lia)) as H1.
  pose proof (H 2%nat ltac:(lia)) as H2. pose proof (H 5%nat ltac:(lia)) as H5. cbn in H0, H1, H2, H5.
  unfold late, delta in *. cbn in *.
  destruct j as [|[|[|[|j]]]]; [lra|lra|lra|lra|lia].
Qed.
Theorem C64_full_rank_refuted : exists A, full_rank 6 4 A /\ forall a1 a2 b X j, qr_solve 6 4 A a1 a2 b X j = X j.
Proof.
  exists late. split; [exact late_full_rank|]. intros. unfold qr_solve, qr_factor.
  assert (E : qr_eta 6 late 0 = 0).
  { destruct (eta_spec 6 late 0) as (P & _ & _ & i & _ & [->|Hi] & E); rewrite E.
    - unfold late, delta. cbn. apply Rabs_R0.
    - unfold late, delta. destruct (Nat.eq_dec i 5); [lia|apply Rabs_R0]. }
  cbn [seq fold_left]. assert (S0 : qr_step 6 0 (QrSt late a1 a2) = None).
  { unfold qr_step. cbn [q_A]. destruct (Req_EM_T (qr_eta 6 late 0) 0); [reflexivity|congruence]. }
  rewrite S0. reflexivity.
Qed.

(** The result does not depend on what earlier calls left in the static arrays. *)
Lemma step_indep nr k s s' : q_A s = q_A s' ->
  match qr_step nr k s, qr_step nr k s' with Some r, Some r' => q_A r = q_A r' | None, None => True | _, _ => False end.
Proof. intro E. unfold qr_step. rewrite <- E. destruct (Req_EM_T _ 0); [exact I|reflexivity]. Qed.
Lemma factor_indep nr l : forall o o', match o, o' with Some r, Some r' => q_A r = q_A r' | None, None => True | _, _ => False end ->
  let f := fold_left (fun o k => match o with Some s => qr_step nr k s | None => None end) l in
  match f o, f o' with Some r, Some r' => q_A r = q_A r' | None, None => True | _, _ => False end.
Proof.
  induction l as [|k l IH]; intros o o' H; [exact H|]. cbn [fold_left]. apply IH.
  destruct o as [s|], o' as [s'|]; try tauto. apply step_indep, H.
Qed.
Lemma xfold_high nc F a2 b : forall l X j, (forall i, In i l -> (i < nc)%nat) -> (nc <= j)%nat ->
  fold_left (fun X i => qr_xstep nc F a2 b i X) l X j = X j.
Proof.
  induction l as [|i l IH]; intros X j H Hj; [reflexivity|]. cbn [fold_left]. rewrite IH by (auto; intros; apply H; now right).
  unfold qr_xstep. apply upd_other. specialize (H i (or_introl eq_refl)). lia.
Qed.
Theorem C64_independent_of_history : forall nr nc A a1 a2 a1' a2' b X j, (nc <= nr)%nat ->
  qr_solve nr nc A a1 a2 b X j = qr_solve nr nc A a1' a2' b X j.
Proof.
  intros nr nc A a1 a2 a1' a2' b X j Hn. unfold qr_solve.
  pose proof (factor_indep nr (seq 0 nc) (Some (QrSt A a1 a2)) (Some (QrSt A a1' a2')) eq_refl) as H. cbv zeta in H. fold (qr_factor nr nc) in H.
  unfold qr_factor at 1 2. cbv beta.
  change (fold_left _ (seq 0 nc) (Some (QrSt A a1 a2))) with (qr_factor nr nc (QrSt A a1 a2)) in *.
  change (fold_left _ (seq 0 nc) (Some (QrSt A a1' a2'))) with (qr_factor nr nc (QrSt A a1' a2')) in *.
  destruct (qr_factor nr nc (QrSt A a1 a2)) as [s|] eqn:E, (qr_factor nr nc (QrSt A a1' a2')) as [s'|] eqn:E'; try tauto.
  pose proof (qr_some_ls nr nc A a1 a2 b X s Hn E) as L. pose proof (qr_some_ls nr nc A a1' a2' b X s' Hn E') as L'.
  destruct (Nat.lt_ge_cases j nc) as [Hj|Hj].
  - apply (L' (qr_back nr nc s b X)); [|exact Hj]. apply L.
  - unfold qr_back. rewrite !xfold_high; auto; intros i Hi; apply in_rev, in_seq in Hi; lia.
Qed.

(** * C65 *)
(** Two calls that do not overlap both return what they return alone. *)
Fixpoint qiter (nr nc n : nat) (p : ((nat -> R) * (nat -> R)) * qthread) : ((nat -> R) * (nat -> R)) * qthread :=
  match n with O => p | S m => qiter nr nc m (qmove nr nc (fst p) (snd p)) end.
Lemma run_true nr nc n : forall rest sh t u, qrun nr nc (repeat true n ++ rest) sh t u = qrun nr nc rest (fst (qiter nr nc n (sh, t))) (snd (qiter nr nc n (sh, t))) u.
Proof.
  induction n as [|n IH]; intros rest sh t u; [reflexivity|]. cbn [repeat app qrun qiter fst snd].
  destruct (qmove nr nc sh t) as [sh' t']. apply IH.
Qed.
Lemma run_false nr nc n : forall rest sh t u, qrun nr nc (repeat false n ++ rest) sh t u = qrun nr nc rest (fst (qiter nr nc n (sh, u))) t (snd (qiter nr nc n (sh, u))).
Proof.
  induction n as [|n IH]; intros rest sh t u; [reflexivity|]. cbn [repeat app qrun qiter fst snd].
  destruct (qmove nr nc sh u) as [sh' u']. apply IH.
Qed.
Lemma iter_add nr nc m n p : qiter nr nc (m + n) p = qiter nr nc n (qiter nr nc m p).
Proof. revert p. induction m as [|m IH]; intro p; [reflexivity|]. cbn [Nat.add qiter]. apply IH. Qed.
Lemma iter_done nr nc n sh A b X : qiter nr nc n (sh, QT QDone A b X) = (sh, QT QDone A b X).
Proof. induction n as [|n IH]; [reflexivity|]. cbn. exact IH. Qed.
Lemma iter_x nr nc A b : forall m sh X, (m <= nc)%nat ->
  qiter nr nc (S m) (sh, QT (QX m) A b X) = (sh, QT QDone A b (fold_left (fun X i => qr_xstep nc A (snd sh) b i X) (rev (seq 0 m)) X)).
Proof.
  induction m as [|m IH]; intros sh X Hm; [reflexivity|].
  change (qiter nr nc (S (S m)) (sh, QT (QX (S m)) A b X)) with (qiter nr nc (S m) (sh, QT (QX m) A b (qr_xstep nc A (snd sh) b m X))).
  rewrite IH by lia. rewrite seq_S, rev_app_distr. reflexivity.
Qed.
Lemma iter_b nr nc A : forall m j b sh X, (j + m = nc)%nat ->
  qiter nr nc (S m) (sh, QT (QB j) A b X) = (sh, QT (QX nc) A (fold_left (fun b j => qr_bstep nr A (fst sh) j b) (seq j m) b) X).
Proof.
  induction m as [|m IH]; intros j b sh X Hm.
  - cbn [qiter seq fold_left]. unfold qmove. cbn [t_pc t_A t_b t_X fst snd]. destruct (Nat.ltb_spec j nc); [lia|reflexivity].
  - assert (M : qiter nr nc (S (S m)) (sh, QT (QB j) A b X) = qiter nr nc (S m) (sh, QT (QB (S j)) A (qr_bstep nr A (fst sh) j b) X)).
    { cbn [qiter]. unfold qmove. cbn [t_pc t_A t_b t_X fst snd]. destruct (Nat.ltb_spec j nc); [reflexivity|lia]. }
    rewrite M, IH by lia. reflexivity.
Qed.
Definition fold_f (nr : nat) (l : list nat) (o : option qrst) : option qrst :=
  fold_left (fun o k => match o with Some s => qr_step nr k s | None => None end) l o.
Lemma fold_f_none nr l : fold_f nr l None = None.
Proof. induction l as [|k l IH]; [reflexivity|exact IH]. Qed.
Lemma move_f nr nc k s b X : (k < nc)%nat -> qmove nr nc (q_1 s, q_2 s) (QT (QF k) (q_A s) b X) =
  match qr_step nr k s with
  | None => ((upd (q_1 s) k 0, upd (q_2 s) k 0), QT QDone (q_A s) b X)
  | Some s => ((q_1 s, q_2 s), QT (QF (S k)) (q_A s) b X)
  end.
Proof.
  intro Hk. unfold qmove. cbn [t_pc t_A t_b t_X fst snd]. destruct (Nat.ltb_spec k nc); [|lia].
  replace (QrSt (q_A s) (q_1 s) (q_2 s)) with s by (destruct s; reflexivity). destruct (qr_step nr k s); reflexivity.
Qed.
Lemma iter_f nr nc b X : forall m k s, (k + m = nc)%nat ->
  match fold_f nr (seq k m) (Some s) with
  | Some s' => qiter nr nc (S m) ((q_1 s, q_2 s), QT (QF k) (q_A s) b X) = ((q_1 s', q_2 s'), QT (QB 0) (q_A s') b X)
  | None => exists sh A, qiter nr nc m ((q_1 s, q_2 s), QT (QF k) (q_A s) b X) = (sh, QT QDone A b X)
  end.
Proof.
  induction m as [|m IH]; intros k s Hk.
  - cbn [qiter seq fold_left fold_f]. unfold qmove. cbn [t_pc t_A t_b t_X fst snd]. destruct (Nat.ltb_spec k nc); [lia|]. reflexivity.
  - cbn [seq]. change (fold_f nr (k :: seq (S k) m) (Some s)) with (fold_f nr (seq (S k) m) (qr_step nr k s)).
    assert (M : forall n, qiter nr nc (S n) ((q_1 s, q_2 s), QT (QF k) (q_A s) b X) = qiter nr nc n (qmove nr nc (q_1 s, q_2 s) (QT (QF k) (q_A s) b X))) by reflexivity.
    rewrite !M, move_f by lia. destruct (qr_step nr k s) as [s1|].
    + apply IH. lia.
    + rewrite fold_f_none. eexists _, _. apply iter_done.
Qed.
Lemma alone nr nc A b X a1 a2 n : (3 * nc + 3 <= n)%nat -> exists sh' A' b',
  qiter nr nc n ((a1, a2), qstart A b X) = (sh', QT QDone A' b' (qr_solve nr nc A a1 a2 b X)).
Proof.
  intro Hn. unfold qr_solve, qstart.
  pose proof (iter_f nr nc b X nc 0 (QrSt A a1 a2) eq_refl) as H. cbn [q_A q_1 q_2] in H. unfold fold_f in H. fold (qr_factor nr nc (QrSt A a1 a2)) in H.
  destruct (qr_factor nr nc (QrSt A a1 a2)) as [s|].
  - replace n with (S nc + (S nc + (S nc + (n - (3 * nc + 3)))))%nat by lia.
    rewrite iter_add, H, iter_add, iter_b by lia. rewrite iter_add, iter_x, iter_done by lia. cbn [fst snd].
    eexists _, _, _. reflexivity.
  - destruct H as (sh & A' & H). replace n with (nc + (n - nc))%nat by lia. rewrite iter_add, H, iter_done. eexists _, _, _. reflexivity.
Qed.
Theorem C65_serial : forall nr nc A b X A' b' X' a1 a2 m n, (nc <= nr)%nat -> (3 * nc + 3 <= m)%nat -> (3 * nc + 3 <= n)%nat ->
  let r := qrun nr nc (repeat true m ++ repeat false n) (a1, a2) (qstart A b X) (qstart A' b' X') in
  t_pc (fst r) = QDone /\ t_pc (snd r) = QDone
  /\ forall j, t_X (fst r) j = qr_solve nr nc A a1 a2 b X j /\ t_X (snd r) j = qr_solve nr nc A' a1 a2 b' X' j.
Proof.
  intros nr nc A b X A' b' X' a1 a2 m n Hc Hm Hn. cbv zeta. rewrite run_true.
  destruct (alone nr nc A b X a1 a2 m Hm) as ([c1 c2] & B & d & ->). cbn [fst snd].
  rewrite <- (app_nil_r (repeat false n)), run_false.
  destruct (alone nr nc A' b' X' c1 c2 n Hn) as (sh & B' & d' & ->). cbn [fst snd qrun t_pc t_X].
  repeat split. apply C64_independent_of_history, Hc.
Qed.

(** The 6x4 matrix d*[I;0] after k steps. *)
Definition dg (d : R) (k : nat) : gmat' := fun i j => if Nat.eqb i j then (if Nat.ltb j k then 2 else d) else 0.
Lemma dg_step d k a1 a2 : 0 < d -> (k < 4)%nat -> qr_step 6 k (QrSt (dg d k) a1 a2) = Some (QrSt (dg d (S k)) (upd a1 k 2) (upd a2 k (- d))).
Proof.
  intros Hd Hk. assert (K : dg d k k k = d) by (unfold dg; rewrite Nat.eqb_refl, Nat.ltb_irrefl; reflexivity).
  assert (K0 : forall i, i <> k -> dg d k i k = 0) by (intros i Ni; unfold dg; destruct (Nat.eqb_spec i k); [congruence|reflexivity]).
  assert (E : qr_eta 6 (dg d k) k = d).
  { destruct (eta_spec 6 (dg d k) k) as (_ & L & _ & i & _ & _ & E). rewrite K, Rabs_right in L by lra.
    destruct (Nat.eq_dec i k) as [->|Ni]; [rewrite K, Rabs_right in E by lra; exact E|]. rewrite K0, Rabs_R0 in E by exact Ni. lra. }
  assert (Sg : qr_sigma 6 (dg d k) k = 1).
  { unfold qr_sigma. rewrite E, K. destruct (Rlt_dec (d * (1 / d)) 0) as [L|L]; [replace (d * (1 / d)) with 1 in L by (field; lra); lra|].
    rewrite sumfrom_eq by lia. replace (sumn 6 _) with 1; [apply sqrt_1|]. symmetry.
    rewrite (sumn_ext 6 _ (fun i => delta i k * 1)); [apply sumn_delta; lia|]. intros i _. unfold delta.
    destruct (Nat.leb_spec k i), (Nat.eq_dec i k) as [->|Ni]; try lia; rewrite ?K, ?K0 by exact Ni; try ring. field. lra. }
  assert (V : forall i, qr_v 6 (dg d k) k i = 2 * delta i k).
  { intro i. unfold qr_v, delta. rewrite E, Sg. destruct (Nat.eqb_spec i k) as [->|Ni], (Nat.eq_dec _ _); try congruence; rewrite ?K, ?K0 by exact Ni; [field; lra|ring]. }
  unfold qr_step. cbn [q_A q_1 q_2]. rewrite E. destruct (Req_EM_T d 0); [lra|]. f_equal. rewrite Sg, V, delta_same. f_equal.
  - apply FunctionalExtensionality.functional_extensionality. intro i. apply FunctionalExtensionality.functional_extensionality. intro j.
    rewrite !V.
    replace (sumfrom k 6 (fun i0 => qr_v 6 (dg d k) k i0 * dg d k i0 j)) with (2 * dg d k k j).
    2:{ rewrite sumfrom_eq by lia. rewrite (sumn_ext 6 _ (fun i => delta i k * (2 * dg d k k j))); [rewrite sumn_delta by lia; reflexivity|].
        intros r _. rewrite V. unfold delta. destruct (Nat.leb_spec k r), (Nat.eq_dec r k); subst; try lia; ring. }
    unfold dg, delta.
    destruct (Nat.ltb_spec i k), (Nat.leb_spec 6 i), (Nat.eqb_spec j k), (Nat.ltb_spec k j), (Nat.eqb_spec i j), (Nat.ltb_spec j k), (Nat.eqb_spec k j), (Nat.ltb_spec j (S k)), (Nat.eq_dec i k);
      subst; cbn [orb]; try lia; try ring; try field.
  - f_equal. ring.
  - f_equal. ring.
Qed.
Lemma dg_full d : 0 < d -> full_rank 6 4 (dg d 0).
Proof.
  intros Hd c H j Hj. specialize (H j ltac:(lia)). rewrite (sumn_ext 4 _ (fun i => delta i j * (d * c j))) in H.
  - rewrite sumn_delta in H by exact Hj. apply Rmult_integral in H. destruct H; [lra|assumption].
  - intros i Hi. unfold dg, delta. destruct (Nat.eqb_spec j i), (Nat.eq_dec i j); subst; try lia; cbn; ring.
Qed.
Lemma dg_solved d a1 a2 b X : 0 < d -> least_squares 6 4 (dg d 0) b (qr_solve 6 4 (dg d 0) a1 a2 b X).
Proof.
  intro Hd. apply C64_full_rank_zero_last_row; [lia|apply dg_full, Hd|].
  intros j Hj. unfold dg. destruct (Nat.eqb_spec (6 - 1) j); [lia|reflexivity].
Qed.
(** Overlapping calls, each of which would return its least squares solution
    alone: the first one ends with half the solution. *)
Theorem C65_overlap_refuted : exists A b A' b' sched, forall X X' a1 a2,
  least_squares 6 4 A b (qr_solve 6 4 A a1 a2 b X) /\ least_squares 6 4 A' b' (qr_solve 6 4 A' a1 a2 b' X')
  /\ let r := qrun 6 4 sched (a1, a2) (qstart A b X) (qstart A' b' X') in
     t_pc (fst r) = QDone /\ t_pc (snd r) = QDone /\ ~ least_squares 6 4 A b (t_X (fst r)).
Proof.
  exists (dg 1 0), (fun i => delta i 0), (dg 2 0), (fun i => delta i 0), (repeat true 5 ++ repeat false 5 ++ repeat true 10 ++ repeat false 10).
  intros X X' a1 a2. split; [apply dg_solved; lra|]. split; [apply dg_solved; lra|]. cbv zeta.
  assert (FF : forall d c1 c2, 0 < d -> fold_f 6 (seq 0 4) (Some (QrSt (dg d 0) c1 c2)) =
    Some (QrSt (dg d 4) (upd (upd (upd (upd c1 0 2) 1 2) 2 2) 3 2) (upd (upd (upd (upd c2 0 (- d)) 1 (- d)) 2 (- d)) 3 (- d)))).
  { intros d c1 c2 Hd. unfold fold_f. cbn [seq fold_left]. rewrite !dg_step by (auto; lia). reflexivity. }
  rewrite run_true.
  pose proof (iter_f 6 4 (fun i => delta i 0) X 4 0 (QrSt (dg 1 0) a1 a2) eq_refl) as H. rewrite FF in H by lra. cbn [q_A q_1 q_2] in H.
  unfold qstart. rewrite H. clear H. cbn [fst snd].
  set (c1 := upd (upd (upd (upd a1 0 2) 1 2) 2 2) 3 2). set (c2 := upd (upd (upd (upd a2 0 (- (1))) 1 (- (1))) 2 (- (1))) 3 (- (1))).
  rewrite run_false.
  pose proof (iter_f 6 4 (fun i => delta i 0) X' 4 0 (QrSt (dg 2 0) c1 c2) eq_refl) as H. rewrite FF in H by lra. cbn [q_A q_1 q_2] in H.
  rewrite H. clear H. cbn [fst snd].
  set (d1 := upd (upd (upd (upd c1 0 2) 1 2) 2 2) 3 2). set (d2 := upd (upd (upd (upd c2 0 (-2)) 1 (-2)) 2 (-2)) 3 (-2)).
  rewrite run_true. change 10%nat with (5 + 5)%nat at 1 2. rewrite iter_add, iter_b by lia. rewrite iter_x by lia. cbn [fst snd].
  rewrite <- (app_nil_r (repeat false 10)), run_false. change 10%nat with (5 + 5)%nat. rewrite iter_add, iter_b, iter_x by lia. cbn [fst snd qrun t_pc t_X].
  split; [reflexivity|]. split; [reflexivity|].
  set (bb := fold_left (fun b j => qr_bstep 6 (dg 1 4) d1 j b) (seq 0 4) (fun i => delta i 0)).
  set (XX := fold_left (fun X i => qr_xstep 4 (dg 1 4) d2 bb i X) (rev (seq 0 4)) X).
  assert (B0 : bb 0%nat = -1).
  { unfold bb. cbn [seq fold_left]. unfold qr_bstep. cbn -[Rmult Rplus Rdiv Rminus]. unfold d1, c1, upd, dg, delta. cbn -[Rmult Rplus Rdiv Rminus IZR]. field. }
  assert (X0 : XX 0%nat = 1 / 2).
  { destruct (xfold 4 (dg 1 4) d2 bb X 4 (le_n _)) as [E _].
    - intros i Hi. unfold d2, upd. destruct i as [|[|[|[|i]]]]; cbn; try lra; lia.
    - cbv zeta in E. change (4 - 4)%nat with 0%nat in E. fold XX in E. specialize (E 0%nat ltac:(lia) ltac:(lia)). rewrite B0 in E.
      rewrite sumfrom_eq in E by lia. rewrite sumn_0 in E.
      + change (d2 0%nat) with (-2) in E. lra.
      + intros j Hj. unfold dg. destruct (Nat.leb_spec 1 j), (Nat.eqb_spec 0 j); try lia; ring. }
  change (~ least_squares 6 4 (dg 1 0) (fun i => delta i 0) XX). clearbody XX. intros L. destruct (L (fun i => delta i 0)) as [L1 _]. unfold misfit in L1.
  assert (Z : sumn 6 (fun i => (sumn 4 (fun j => dg 1 0 i j * delta j 0) - delta i 0) ^ 2) = 0).
  { apply sumn_0. intros i Hi. rewrite (sumn_ext 4 _ (fun j => delta j 0 * dg 1 0 i j)) by (intros; ring). rewrite sumn_delta by lia.
    unfold dg, delta. destruct (Nat.eqb_spec i 0), (Nat.eq_dec i 0); try lia; cbn; ring. }
  rewrite Z in L1. change 6%nat with (1 + 5)%nat in L1. rewrite sumn_split in L1.
  match type of L1 with sumn 1 ?f + sumn 5 ?g <= 0 => assert (P : 0 <= sumn 5 g) by (apply sumn_nonneg; intros; apply pow2_ge_0); assert (F0 : sumn 1 f = f 0%nat) by (cbn; ring) end.
  rewrite F0 in L1. cbv beta in L1.
  rewrite (sumn_ext 4 _ (fun j => delta j 0 * XX 0%nat)) in L1.
  - rewrite sumn_delta, X0, delta_same in L1 by lia. lra.
  - intros j Hj. unfold dg, delta. destruct (Nat.eqb_spec 0 j), (Nat.eq_dec j 0); subst; try lia; cbn -[Rmult Rplus Rminus]; ring.
Qed.

(** A case the theorems speak about: the solver completes on 2*[I;0]. *)
Example C64_nonvacuous : full_rank 6 4 (dg 2 0) /\ least_squares 6 4 (dg 2 0) (fun i => INR i) (qr_solve 6 4 (dg 2 0) (fun _ => 0) (fun _ => 0) (fun i => INR i) (fun _ => 7)).
Proof. split; [apply dg_full|apply dg_solved]; lra. Qed.
(** ... and there are matrices without full rank. *)
Example C64_singular_nonvacuous : ~ full_rank 6 4 (fun _ _ => 1).
Proof.
  intro F. specialize (F (fun j => match j with 0%nat => 1 | 1%nat => -1 | _ => 0 end)).
  assert (1 = 0); [|lra]. apply (F ltac:(intros; cbn; ring) 0%nat). lia.
Qed.
