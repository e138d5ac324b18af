(** Spectral theorem for real symmetric matrices and existence of singular
    value decompositions, in any dimension. *)
From Coq Require Import Reals Lra Psatz Lia Classical_Prop.
From Verif Require Import GenLin.
Local Open Scope R_scope.

(** * Either a nonzero kernel vector or a left inverse *)
Lemma delta_same i : delta i i = 1.
Proof. unfold delta. destruct (Nat.eq_dec i i); [auto|lia]. Qed.
Lemma delta_diff i j : i <> j -> delta i j = 0.
Proof. unfold delta. destruct (Nat.eq_dec i j); [lia|auto]. Qed.
Lemma delta_sym i j : delta i j = delta j i.
Proof. unfold delta. destruct (Nat.eq_dec i j), (Nat.eq_dec j i); auto; lia. Qed.
Lemma sumn_delta' n k f : (k < n)%nat -> sumn n (fun i => delta k i * f i) = f k.
Proof. intro H. rewrite <- (sumn_delta n k f H). apply sumn_ext. intros. now rewrite delta_sym. Qed.
Lemma sumn_scale_r n c f : sumn n (fun i => f i * c) = sumn n f * c.
Proof. rewrite Rmult_comm, <- sumn_scale. apply sumn_ext. intros; ring. Qed.

Lemma inj_or_inv m A : forall n,
  (exists x, (exists j, (j < n)%nat /\ x j <> 0) /\ forall i, (i < m)%nat -> mvec n A x i = 0) \/
  (exists L, forall i j, (i < n)%nat -> (j < n)%nat -> sumn m (fun k => L i k * A k j) = delta i j).
Proof.
  induction n as [|n IH]; [right; exists (fun _ _ => 0); intros; lia|].
  destruct IH as [(x & (j & Hj & Nz) & K)|(L & HL)].
  - left. exists (fun j => if Nat.ltb j n then x j else 0). split.
    + exists j. split; [lia|]. replace (Nat.ltb j n) with true; auto. symmetry. now apply Nat.ltb_lt.
    + intros i Hi. unfold mvec, vdot. cbn [sumn]. replace (Nat.ltb n n) with false by (symmetry; apply Nat.ltb_irrefl).
      rewrite Rmult_0_r, Rplus_0_r. transitivity (mvec n A x i); [|now apply K]. unfold mvec, vdot. apply sumn_ext. intros k Hk.
      replace (Nat.ltb k n) with true; auto. symmetry. now apply Nat.ltb_lt.
  - set (y := fun i => sumn m (fun k => L i k * A k n)).
    set (r := fun k => A k n - sumn n (fun j => A k j * y j)).
    destruct (classic (exists k0, (k0 < m)%nat /\ r k0 <> 0)) as [(k0 & Hk0 & Nr)|N].
    + right. set (l := fun k => (delta k0 k - sumn n (fun j => A k0 j * L j k)) / r k0).
      assert (l1 : forall j, (j < n)%nat -> sumn m (fun k => l k * A k j) = 0).
      { intros j Hj. transitivity (sumn m (fun k => / r k0 * (delta k0 k * A k j - sumn n (fun j' => A k0 j' * (L j' k * A k j))))).
        - apply sumn_ext. intros k Hk. unfold l. transitivity (/ r k0 * (delta k0 k * A k j - sumn n (fun j' => A k0 j' * L j' k) * A k j)); [unfold Rdiv; ring|].
          rewrite <- sumn_scale_r. do 2 f_equal. apply sumn_ext. intros; ring.
        - rewrite sumn_scale, sumn_sub, sumn_delta' by auto. rewrite sumn_swap.
          rewrite (sumn_ext n _ (fun j' => delta j' j * A k0 j')). { rewrite sumn_delta by auto. ring. }
          intros j' Hj'. rewrite sumn_scale, HL by auto. ring. }
      assert (l2 : sumn m (fun k => l k * A k n) = 1).
      { transitivity (sumn m (fun k => / r k0 * (delta k0 k * A k n - sumn n (fun j' => A k0 j' * (L j' k * A k n))))).
        - apply sumn_ext. intros k Hk. unfold l. transitivity (/ r k0 * (delta k0 k * A k n - sumn n (fun j' => A k0 j' * L j' k) * A k n)); [unfold Rdiv; ring|].
          rewrite <- sumn_scale_r. do 2 f_equal. apply sumn_ext. intros; ring.
        - rewrite sumn_scale, sumn_sub, sumn_delta' by auto. rewrite sumn_swap.
          rewrite (sumn_ext n _ (fun j' => A k0 j' * y j')). { fold (r k0). field; auto. }
          intros j' Hj'. now rewrite sumn_scale. }
      exists (fun i k => if Nat.ltb i n then L i k - y i * l k else l k). intros i j Hi Hj.
      destruct (Nat.ltb i n) eqn:Bi.
      * apply Nat.ltb_lt in Bi. rewrite (sumn_ext m _ (fun k => L i k * A k j - y i * (l k * A k j))) by (intros; ring).
        rewrite sumn_sub, sumn_scale. destruct (Nat.eq_dec j n) as [->|].
        -- rewrite l2. fold (y i). rewrite delta_diff by lia. ring.
        -- rewrite l1, HL by lia. ring.
      * apply Nat.ltb_ge in Bi. assert (i = n) by lia. subst i. destruct (Nat.eq_dec j n) as [->|].
        -- rewrite l2, delta_same. auto.
        -- rewrite l1, delta_diff by lia. auto.
    + left. exists (fun j => if Nat.ltb j n then y j else -1). split.
      * exists n. split; [lia|]. rewrite Nat.ltb_irrefl. lra.
      * intros i Hi. assert (Ri : r i = 0). { destruct (Req_dec (r i) 0); auto. exfalso. apply N. eauto. }
        unfold mvec, vdot. cbn [sumn]. rewrite Nat.ltb_irrefl.
        rewrite (sumn_ext n _ (fun j => A i j * y j)). { unfold r in Ri. lra. }
        intros k Hk. replace (Nat.ltb k n) with true; auto. symmetry. now apply Nat.ltb_lt.
Qed.

(** * Bounds *)
Lemma quad_disc a b c : 0 <= c -> (forall t, 0 <= a + 2 * b * t + c * t ^ 2) -> b ^ 2 <= a * c.
Proof.
  intros Hc H. destruct (Req_dec c 0) as [->|Nc].
  - destruct (Req_dec b 0) as [->|Nb]; [lra|]. exfalso.
    specialize (H (- (a + 1) / (2 * b))). replace (2 * b * (- (a + 1) / (2 * b))) with (- (a + 1)) in H by (field; auto). lra.
  - specialize (H (- b / c)). assert (E : a + 2 * b * (- b / c) + c * (- b / c) ^ 2 = a - b ^ 2 / c) by (field; auto).
    rewrite E in H. apply (Rmult_le_compat_r c) in H; [|lra]. replace ((a - b ^ 2 / c) * c) with (a * c - b ^ 2) in H by (field; auto). lra.
Qed.
Definition bil (n : nat) (B : nat -> nat -> R) (x y : nat -> R) : R := vdot n x (mvec n B y).
Definition sym (n : nat) (B : nat -> nat -> R) : Prop := forall i j, (i < n)%nat -> (j < n)%nat -> B i j = B j i.
Definition psd (n : nat) (B : nat -> nat -> R) : Prop := forall x, 0 <= bil n B x x.

Lemma mvec_add n B x y i : mvec n B (fun j => x j + y j) i = mvec n B x i + mvec n B y i.
Proof. unfold mvec. apply vdot_add. Qed.
Lemma mvec_scale n B c x i : mvec n B (fun j => c * x j) i = c * mvec n B x i.
Proof. unfold mvec. apply vdot_scale. Qed.
Lemma mvec_ext n B x y i : (forall j, (j < n)%nat -> x j = y j) -> mvec n B x i = mvec n B y i.
Proof. intro H. unfold mvec. apply vdot_ext; auto. Qed.
Lemma bil_sym n B x y : sym n B -> bil n B x y = bil n B y x.
Proof.
  intro Sy. unfold bil, mvec, vdot.
  rewrite (sumn_ext n _ (fun i => sumn n (fun j => x i * (B i j * y j)))) by (intros; now rewrite sumn_scale).
  rewrite sumn_swap. apply sumn_ext. intros j Hj. rewrite <- sumn_scale. apply sumn_ext. intros i Hi. rewrite (Sy i j) by auto. ring.
Qed.
Lemma bil_add_r n B x y z : bil n B x (fun j => y j + z j) = bil n B x y + bil n B x z.
Proof. unfold bil. rewrite <- vdot_add. apply vdot_ext; auto. intros. apply mvec_add. Qed.
Lemma bil_scale_r n B x c y : bil n B x (fun j => c * y j) = c * bil n B x y.
Proof. unfold bil. rewrite <- vdot_scale. apply vdot_ext; auto. intros. apply mvec_scale. Qed.
Lemma bil_add_l n B x y z : bil n B (fun j => y j + z j) x = bil n B y x + bil n B z x.
Proof. unfold bil. rewrite vdot_comm, vdot_add, (vdot_comm n _ y), (vdot_comm n _ z). reflexivity. Qed.
Lemma bil_scale_l n B x c y : bil n B (fun j => c * y j) x = c * bil n B y x.
Proof. unfold bil. rewrite vdot_comm, vdot_scale, (vdot_comm n _ y). reflexivity. Qed.
Lemma bil_ext n B x y x' y' : (forall j, (j < n)%nat -> x j = x' j) -> (forall j, (j < n)%nat -> y j = y' j) -> bil n B x y = bil n B x' y'.
Proof. intros H1 H2. unfold bil. apply vdot_ext; auto. intros. now apply mvec_ext. Qed.
Lemma psd_cs n B x y : sym n B -> psd n B -> bil n B x y ^ 2 <= bil n B x x * bil n B y y.
Proof.
  intros Sy P. apply quad_disc; [apply P|]. intro t. specialize (P (fun j => x j + t * y j)).
  rewrite bil_add_l, !bil_add_r, !bil_scale_l, !bil_scale_r, (bil_sym n B y x Sy) in P. lra.
Qed.
Lemma cauchy n x y : vdot n x y ^ 2 <= vdot n x x * vdot n y y.
Proof.
  apply quad_disc; [apply vdot_pos|]. intro t. pose proof (vdot_pos n (fun j => x j + t * y j)) as P.
  rewrite vdot_add, vdot_scale, (vdot_comm n _ x), (vdot_comm n _ y), !vdot_add, !vdot_scale, (vdot_comm n y x) in P. lra.
Qed.
Lemma mvec_bound m n L : exists C, 0 <= C /\ forall z, vdot m (mvec n L z) (mvec n L z) <= C * vdot n z z.
Proof.
  exists (sumn m (fun i => vdot n (L i) (L i))). split; [apply sumn_nonneg; intros; apply vdot_pos|].
  intro z. unfold vdot at 1. rewrite <- sumn_scale_r. apply sumn_le. intros i Hi.
  pose proof (cauchy n (L i) z). unfold mvec. lra.
Qed.
Lemma bil_bound n B : exists K, 0 < K /\ forall x, bil n B x x <= K * vdot n x x /\ - (K * vdot n x x) <= bil n B x x.
Proof.
  destruct (mvec_bound n n B) as (C & HC & H). exists (1 + C). split; [lra|]. intro x.
  pose proof (cauchy n x (mvec n B x)) as Q. fold (bil n B x x) in Q. specialize (H x). pose proof (vdot_pos n x).
  assert (bil n B x x ^ 2 <= ((1 + C) * vdot n x x) ^ 2).
  { apply Rle_trans with (vdot n x x * (C * vdot n x x)); [nra|]. nra. }
  assert (0 <= (1 + C) * vdot n x x) by nra. split; apply Rnot_lt_le; intro; nra.
Qed.
Lemma psd_inv_coercive n B L : sym n B -> psd n B ->
  (forall i j, (i < n)%nat -> (j < n)%nat -> sumn n (fun k => L i k * B k j) = delta i j) ->
  exists e, 0 < e /\ forall x, e * vdot n x x <= bil n B x x.
Proof.
  intros Sy P HL. destruct (bil_bound n B) as (K & HK & HB). destruct (mvec_bound n n L) as (C & HC & HLb).
  exists (/ (C * K + 1)). split; [apply Rinv_0_lt_compat; nra|]. intro x. set (z := mvec n B x).
  assert (Ex : forall i, (i < n)%nat -> mvec n L z i = x i).
  { intros i Hi. unfold z, mvec at 1, vdot at 1. unfold mvec, vdot.
    rewrite (sumn_ext n _ (fun k => sumn n (fun j => L i k * (B k j * x j)))) by (intros; now rewrite sumn_scale).
    rewrite sumn_swap. rewrite (sumn_ext n _ (fun j => delta i j * x j)); [now apply sumn_delta'|].
    intros j Hj. rewrite <- HL by auto. rewrite <- sumn_scale_r. apply sumn_ext. intros; ring. }
  assert (Q1 : vdot n x x <= C * vdot n z z).
  { rewrite <- (vdot_ext n _ _ x x Ex Ex). apply HLb. }
  assert (Q2 : vdot n z z <= K * bil n B x x).
  { pose proof (psd_cs n B z x Sy P) as Q. change (bil n B z x) with (vdot n z z) in Q.
    pose proof (HB z) as [Q' _]. pose proof (P x). pose proof (vdot_pos n z).
    destruct (Req_dec (vdot n z z) 0) as [E|E]; [rewrite E; nra|].
    apply (Rmult_le_reg_l (vdot n z z)); [lra|]. apply Rle_trans with (bil n B z z * bil n B x x); [nra|].
    apply Rle_trans with (K * vdot n z z * bil n B x x); [|nra]. apply Rmult_le_compat_r; auto. }
  pose proof (P x). assert (vdot n x x <= (C * K + 1) * bil n B x x) by nra.
  apply (Rmult_le_reg_l (C * K + 1)); [nra|]. rewrite <- Rmult_assoc, Rinv_r by nra. lra.
Qed.

(** * The largest eigenvalue *)
Lemma bil_shift n S lam x y : bil n (fun i j => lam * delta i j - S i j) x y = lam * vdot n x y - bil n S x y.
Proof.
  unfold bil. rewrite <- vdot_scale. unfold vdot at 1 2 3. rewrite <- sumn_sub. apply sumn_ext. intros i Hi.
  unfold mvec, vdot. rewrite (sumn_ext n _ (fun j => delta i j * (lam * y j) - S i j * y j)) by (intros; ring).
  rewrite sumn_sub, sumn_delta' by auto. ring.
Qed.
Lemma mvec_shift n S lam x i : (i < n)%nat -> mvec n (fun i j => lam * delta i j - S i j) x i = lam * x i - mvec n S x i.
Proof.
  intro Hi. unfold mvec, vdot. rewrite (sumn_ext n _ (fun j => delta i j * (lam * x j) - S i j * x j)) by (intros; ring).
  rewrite sumn_sub, sumn_delta' by auto. ring.
Qed.
Lemma normalise_vec n x : (exists j, (j < n)%nat /\ x j <> 0) -> exists c, 0 < c /\ vdot n (fun i => c * x i) (fun i => c * x i) = 1.
Proof.
  intros (j & Hj & Nz). assert (P : 0 < vdot n x x).
  { destruct (Rle_lt_or_eq_dec _ _ (vdot_pos n x)) as [|E]; auto. exfalso. apply Nz. apply (vdot_zero n x); auto. }
  exists (/ sqrt (vdot n x x)). assert (S := sqrt_lt_R0 _ P). split; [now apply Rinv_0_lt_compat|].
  set (q := sqrt (vdot n x x)) in *. rewrite vdot_scale, (vdot_comm n _ x), vdot_scale.
  replace (vdot n x x) with (q * q) by (apply sqrt_sqrt; lra). field. lra.
Qed.
Lemma top_eigen n S : (0 < n)%nat -> sym n S ->
  exists lam v, vdot n v v = 1 /\ (forall i, (i < n)%nat -> mvec n S v i = lam * v i) /\ (forall x, bil n S x x <= lam * vdot n x x).
Proof.
  intros Hn Sy. set (E := fun q => exists x, vdot n x x = 1 /\ q = bil n S x x).
  destruct (bil_bound n S) as (K & HK & HB).
  destruct (completeness E) as (lam & Ub & Lub).
  { exists K. intros q (x & Hx & ->). destruct (HB x) as [H _]. rewrite Hx in H. lra. }
  { exists (bil n S (delta 0) (delta 0)). exists (delta 0). split; auto. unfold vdot. rewrite sumn_delta' by auto. apply delta_same. }
  assert (Top : forall x, bil n S x x <= lam * vdot n x x).
  { intro x. destruct (classic (exists j, (j < n)%nat /\ x j <> 0)) as [Nz|Z].
    - destruct (normalise_vec n x Nz) as (c & Hc & Hu). assert (B : bil n S (fun i => c * x i) (fun i => c * x i) <= lam) by (apply Ub; eexists; eauto).
      rewrite bil_scale_l, bil_scale_r in B. rewrite vdot_scale, (vdot_comm n _ x), vdot_scale in Hu.
      apply (Rmult_le_reg_l (c * c)); [nra|].
      replace (c * c * (lam * vdot n x x)) with (lam * (c * (c * vdot n x x))) by ring. rewrite Hu. lra.
    - assert (X : forall j, (j < n)%nat -> x j = 0) by (intros j Hj; destruct (Req_dec (x j) 0); auto; exfalso; eauto).
      rewrite (bil_ext n S x x (fun _ => 0 * 0) (fun _ => 0 * 0)) by (intros; rewrite X by auto; ring).
      rewrite bil_scale_l, (vdot_ext n x x (fun _ => 0 * 0) (fun _ => 0 * 0)) by (intros; rewrite X by auto; ring).
      rewrite vdot_scale. lra. }
  assert (Sy' : sym n (fun i j => lam * delta i j - S i j)) by (intros i j Hi Hj; rewrite (Sy i j), (delta_sym i j) by auto; auto).
  assert (Ps : psd n (fun i j => lam * delta i j - S i j)) by (intro x; rewrite bil_shift; pose proof (Top x); lra).
  destruct (inj_or_inv n (fun i j => lam * delta i j - S i j) n) as [(x & Nz & Kx)|(L & HL)].
  - destruct (normalise_vec n x Nz) as (c & Hc & Hu). exists lam, (fun i => c * x i). split; [auto|]. split; auto.
    intros i Hi. rewrite mvec_scale. specialize (Kx i Hi). rewrite mvec_shift in Kx by auto. replace (mvec n S x i) with (lam * x i) by lra. ring.
  - exfalso. destruct (psd_inv_coercive n _ L Sy' Ps HL) as (e & He & Hc).
    assert (lam <= lam - e); [|lra]. apply Lub. intros q (x & Hx & ->). specialize (Hc x). rewrite bil_shift, Hx in Hc. lra.
Qed.

(** * Orthonormal families *)
Definition onf (n k : nat) (V : nat -> nat -> R) : Prop :=
  forall i j, (i < k)%nat -> (j < k)%nat -> vdot n (gcol V i) (gcol V j) = delta i j.
Definition Pm (k : nat) (V : nat -> nat -> R) (i j : nat) : R := sumn k (fun l => V i l * V j l).
Lemma Pm_mvec n k V x i : mvec n (Pm k V) x i = sumn k (fun l => vdot n (gcol V l) x * V i l).
Proof.
  unfold mvec, Pm, vdot, gcol. rewrite (sumn_ext n _ (fun j => sumn k (fun l => V i l * V j l * x j))) by (intros; now rewrite <- sumn_scale_r).
  rewrite sumn_swap. apply sumn_ext. intros l Hl. rewrite <- sumn_scale_r. apply sumn_ext. intros; ring.
Qed.
Lemma Pm_idem n k V : onf n k V -> forall i j, sumn n (fun l => Pm k V i l * Pm k V l j) = Pm k V i j.
Proof.
  intros O i j. unfold Pm.
  rewrite (sumn_ext n _ (fun l => sumn k (fun a => sumn k (fun b => V i a * V j b * (V l a * V l b))))).
  - rewrite sumn_swap. apply sumn_ext. intros a Ha. rewrite sumn_swap.
    rewrite (sumn_ext k _ (fun b => delta a b * (V i a * V j b))); [now rewrite sumn_delta'|].
    intros b Hb. rewrite sumn_scale. change (sumn n (fun l => V l a * V l b)) with (vdot n (gcol V a) (gcol V b)). rewrite O by auto. ring.
  - intros l Hl. rewrite <- sumn_scale_r. apply sumn_ext. intros a Ha. rewrite <- sumn_scale. apply sumn_ext. intros; ring.
Qed.
Lemma Pm_trace n k V : onf n k V -> sumn n (fun i => Pm k V i i) = INR k.
Proof.
  intro O. unfold Pm. rewrite sumn_swap. rewrite (sumn_ext k _ (fun _ => 1)).
  - clear. induction k as [|k IH]; [auto|]. rewrite S_INR. cbn [sumn]. now rewrite IH.
  - intros l Hl. change (sumn n (fun i => V i l * V i l)) with (vdot n (gcol V l) (gcol V l)). rewrite O by auto. apply delta_same.
Qed.
Lemma trace_id n : sumn n (fun i => delta i i) = INR n.
Proof. induction n as [|n IH]; [auto|]. rewrite S_INR. cbn [sumn]. rewrite IH, delta_same. auto. Qed.
(** sum of the squares of I - P *)
Lemma Pm_defect n k V : onf n k V -> sumn n (fun i => sumn n (fun j => (delta i j - Pm k V i j) ^ 2)) = INR n - INR k.
Proof.
  intro O. rewrite <- (Pm_trace n k V O), <- (trace_id n), <- sumn_sub. apply sumn_ext. intros i Hi.
  rewrite (sumn_ext n _ (fun j => delta i j * (delta i j - 2 * Pm k V i j) + Pm k V i j * Pm k V j i)).
  - rewrite sumn_add, sumn_delta' by auto. rewrite (Pm_idem n k V O). ring.
  - intros j Hj. assert (E : Pm k V j i = Pm k V i j) by (apply sumn_ext; intros; ring). rewrite E. ring.
Qed.
Lemma onf_le n k V : onf n k V -> (k <= n)%nat.
Proof.
  intro O. apply INR_le. assert (0 <= INR n - INR k); [|lra]. rewrite <- (Pm_defect n k V O).
  apply sumn_nonneg. intros. apply sumn_nonneg. intros. apply pow2_ge_0.
Qed.
Lemma onf_full n V : onf n n V -> gorth n V.
Proof.
  intro O. split; auto. intros i j Hi Hj.
  pose proof (Pm_defect n n V O) as D. replace (INR n - INR n) with 0 in D by ring.
  pose proof (sumn_nonneg_zero n (fun i => sumn n (fun j => (delta i j - Pm n V i j) ^ 2))
     (fun i _ => sumn_nonneg n _ (fun j _ => pow2_ge_0 _)) D i Hi) as D2. cbn beta in D2.
  pose proof (sumn_nonneg_zero n (fun j => (delta i j - Pm n V i j) ^ 2) (fun j _ => pow2_ge_0 _) D2 j Hj) as D3. cbn beta in D3.
  change (vdot n (V i) (V j)) with (Pm n V i j). assert (delta i j - Pm n V i j = 0); [|lra]. nra.
Qed.
(** k < n orthonormal vectors leave room for one more. *)
Lemma onf_room n k V : onf n k V -> (k < n)%nat -> exists x, vdot n x x = 1 /\ forall l, (l < k)%nat -> vdot n (gcol V l) x = 0.
Proof.
  intros O Hk. destruct (inj_or_inv n (Pm k V) n) as [(x & Nz & K)|(L & HL)].
  - destruct (normalise_vec n x Nz) as (c & Hc & Hu). exists (fun i => c * x i). split; auto. intros l Hl. rewrite vdot_scale.
    assert (E : vdot n (gcol V l) (mvec n (Pm k V) x) = vdot n (gcol V l) x).
    { rewrite (vdot_ext n _ _ (gcol V l) (fun i => sumn k (fun a => vdot n (gcol V a) x * V i a))) by (auto; intros; apply Pm_mvec).
      rewrite vdot_sum. rewrite (sumn_ext k _ (fun a => delta l a * vdot n (gcol V a) x)); [now rewrite sumn_delta'|].
      intros a Ha. rewrite vdot_scale. change (fun i => V i a) with (gcol V a). rewrite O by auto. ring. }
    assert (E0 : vdot n (gcol V l) (mvec n (Pm k V) x) = 0) by (apply sumn_0; intros i Hi; rewrite K by auto; ring).
    rewrite <- E, E0. ring.
  - exfalso. assert (I : forall i j, (i < n)%nat -> (j < n)%nat -> Pm k V i j = delta i j).
    { intros i j Hi Hj. transitivity (sumn n (fun a => delta i a * Pm k V a j)); [symmetry; now apply (sumn_delta' n i (fun a => Pm k V a j))|].
      rewrite <- (HL i j Hi Hj). rewrite (sumn_ext n _ (fun a => sumn n (fun b => L i b * (Pm k V b a * Pm k V a j)))).
      - rewrite sumn_swap. apply sumn_ext. intros b Hb. rewrite sumn_scale. now rewrite (Pm_idem n k V O).
      - intros a Ha. rewrite <- (HL i a) by auto. rewrite <- sumn_scale_r. apply sumn_ext. intros; ring. }
    pose proof (Pm_trace n k V O) as T. rewrite (sumn_ext n _ (fun i => delta i i)), trace_id in T by (intros; now apply I).
    apply INR_eq in T. lia.
Qed.
Definition add_col (V : nat -> nat -> R) (k : nat) (x : nat -> R) (i j : nat) : R := if Nat.eqb j k then x i else V i j.
Lemma add_col_old V k x l : (l < k)%nat -> gcol (add_col V k x) l = gcol V l.
Proof. intro H. unfold gcol, add_col. replace (Nat.eqb l k) with false; auto. symmetry. apply Nat.eqb_neq. lia. Qed.
Lemma add_col_new V k x : gcol (add_col V k x) k = x.
Proof. unfold gcol, add_col. now rewrite Nat.eqb_refl. Qed.
Lemma onf_add n k V x : onf n k V -> vdot n x x = 1 -> (forall l, (l < k)%nat -> vdot n (gcol V l) x = 0) -> onf n (S k) (add_col V k x).
Proof.
  intros O U P i j Hi Hj. destruct (Nat.eq_dec i k) as [->|Ni], (Nat.eq_dec j k) as [->|Nj].
  - rewrite add_col_new, delta_same. auto.
  - rewrite add_col_new, add_col_old, vdot_comm, P, delta_diff by lia. auto.
  - rewrite add_col_new, add_col_old, P, delta_diff by lia. auto.
  - rewrite !add_col_old by lia. apply O; lia.
Qed.
Lemma onf_complete n k V : onf n k V -> exists W, gorth n W /\ forall l, (l < k)%nat -> gcol W l = gcol V l.
Proof.
  intro O. pose proof (onf_le n k V O) as Hk. remember (n - k)%nat as d eqn:Ed. revert k V O Hk Ed.
  induction d as [|d IH]; intros k V O Hk Ed.
  - exists V. split; auto. apply onf_full. replace n with k at 2 by lia. auto.
  - destruct (onf_room n k V O ltac:(lia)) as (x & Hx & Px).
    destruct (IH (S k) (add_col V k x) (onf_add n k V x O Hx Px) ltac:(lia) ltac:(lia)) as (W & GW & HW).
    exists W. split; auto. intros l Hl. rewrite HW by lia. now apply add_col_old.
Qed.

(** * Spectral theorem *)
Record is_eig (n : nat) (S V : nat -> nat -> R) (lam : nat -> R) : Prop := {
  eig_orth : gorth n V;
  eig_vec : forall k i, (k < n)%nat -> (i < n)%nat -> mvec n S (gcol V k) i = lam k * V i k;
  eig_sorted : forall k l, (k <= l)%nat -> (l < n)%nat -> lam l <= lam k }.

Lemma eig_family n S : sym n S -> forall k, (k <= n)%nat -> exists V lam,
  onf n k V /\ (forall l i, (l < k)%nat -> (i < n)%nat -> mvec n S (gcol V l) i = lam l * V i l) /\
  (forall l x, (l < k)%nat -> (forall a, (a < l)%nat -> vdot n (gcol V a) x = 0) -> bil n S x x <= lam l * vdot n x x).
Proof.
  intro Sy. induction k as [|k IH]; intro Hk.
  - exists (fun _ _ => 0), (fun _ => 0). split; [intros i j; lia|]. split; intros; lia.
  - destruct (IH ltac:(lia)) as (V & lam & O & Ev & Mx).
    destruct (bil_bound n S) as (M & HM & HB).
    set (Sk := fun i j => S i j - sumn k (fun l => (lam l + (M + 1)) * (V i l * V j l))).
    assert (Sys : sym n Sk). { intros i j Hi Hj. unfold Sk. rewrite (Sy i j) by auto. f_equal. apply sumn_ext. intros; ring. }
    assert (Mk : forall x i, mvec n Sk x i = mvec n S x i - sumn k (fun l => (lam l + (M + 1)) * vdot n (gcol V l) x * V i l)).
    { intros x i. unfold mvec, Sk, vdot, gcol.
      rewrite (sumn_ext n _ (fun j => S i j * x j - sumn k (fun l => (lam l + (M + 1)) * (V i l * V j l) * x j))) by (intros; rewrite sumn_scale_r; ring).
      rewrite sumn_sub. f_equal. rewrite sumn_swap. apply sumn_ext. intros l Hl.
      rewrite <- sumn_scale, <- sumn_scale_r. apply sumn_ext. intros; ring. }
    assert (Bk : forall x, (forall l, (l < k)%nat -> vdot n (gcol V l) x = 0) -> bil n Sk x x = bil n S x x).
    { intros x Hx. unfold bil. apply vdot_ext; auto. intros i Hi. rewrite Mk, sumn_0; [ring|]. intros l Hl. rewrite Hx by auto. ring. }
    destruct (top_eigen n Sk ltac:(lia) Sys) as (mu & v & Hv & Evv & Mxv).
    destruct (onf_room n k V O ltac:(lia)) as (x0 & Hx0 & Px0).
    assert (Hmu : - M <= mu).
    { specialize (Mxv x0). rewrite Bk in Mxv by auto. destruct (HB x0) as [_ B]. rewrite Hx0 in *. lra. }
    assert (Pv : forall l, (l < k)%nat -> vdot n (gcol V l) v = 0).
    { intros l Hl. assert (E : bil n Sk (gcol V l) v = mu * vdot n (gcol V l) v).
      { unfold bil. rewrite <- vdot_scale. apply vdot_ext; auto. }
      assert (E' : bil n Sk v (gcol V l) = - (M + 1) * vdot n v (gcol V l)).
      { unfold bil. rewrite <- vdot_scale. apply vdot_ext; auto. intros i Hi. rewrite Mk, Ev by auto.
        rewrite (sumn_ext k _ (fun a => delta a l * ((lam a + (M + 1)) * V i a))). { rewrite sumn_delta by auto. unfold gcol. ring. }
        intros a Ha. rewrite O by auto. ring. }
      rewrite bil_sym, E, vdot_comm in E' by auto. assert ((mu + M + 1) * vdot n v (gcol V l) = 0) by lra.
      apply Rmult_integral in H. rewrite vdot_comm. destruct H; [lra|auto]. }
    exists (add_col V k v), (fun l => if Nat.eqb l k then mu else lam l). split; [now apply onf_add|]. split.
    + intros l i Hl Hi. destruct (Nat.eq_dec l k) as [->|Nl].
      * rewrite add_col_new, Nat.eqb_refl. unfold add_col. rewrite Nat.eqb_refl. rewrite <- Evv by auto. rewrite Mk, (sumn_0 k); [ring|].
        intros a Ha. rewrite Pv by auto. ring.
      * rewrite add_col_old by lia. replace (Nat.eqb l k) with false by (symmetry; apply Nat.eqb_neq; lia).
        rewrite Ev by lia. unfold add_col. now replace (Nat.eqb l k) with false by (symmetry; apply Nat.eqb_neq; lia).
    + intros l x Hl Hx. destruct (Nat.eq_dec l k) as [->|Nl].
      * rewrite Nat.eqb_refl, <- Bk; auto. intros a Ha. rewrite <- (add_col_old V k v a) by auto. auto.
      * replace (Nat.eqb l k) with false by (symmetry; apply Nat.eqb_neq; lia). apply Mx; [lia|].
        intros a Ha. rewrite <- (add_col_old V k v a) by lia. auto.
Qed.
Theorem spectral n S : sym n S -> exists V lam, is_eig n S V lam.
Proof.
  intro Sy. destruct (eig_family n S Sy n (le_n n)) as (V & lam & O & Ev & Mx). exists V, lam. constructor; auto.
  - now apply onf_full.
  - intros k l Hkl Hl. specialize (Mx k (gcol V l) ltac:(lia)).
    assert (E : bil n S (gcol V l) (gcol V l) = lam l).
    { unfold bil. rewrite (vdot_ext n _ _ (gcol V l) (fun i => lam l * gcol V l i)) by (auto; intros; now apply Ev).
      rewrite vdot_scale, (O l l Hl Hl), delta_same. ring. }
    rewrite E, (O l l Hl Hl), delta_same, Rmult_1_r in Mx. apply Mx. intros a Ha. rewrite O by lia. apply delta_diff. lia.
Qed.

(** * Singular value decomposition *)
Theorem gsvd_exists m n A : exists U s V, is_gsvd m n A U s V.
Proof.
  set (S := fun i j => sumn m (fun k => A k i * A k j)).
  assert (Sy : sym n S) by (intros i j _ _; apply sumn_ext; intros; ring).
  destruct (spectral n S Sy) as (V & lam & [GV Ev So]).
  assert (BS : forall x y, bil n S x y = vdot m (mvec n A x) (mvec n A y)).
  { intros x y. unfold bil, mvec, vdot, S.
    rewrite (sumn_ext n _ (fun i => sumn m (fun k => x i * A k i * sumn n (fun j => A k j * y j)))).
    - rewrite sumn_swap. apply sumn_ext. intros k Hk. rewrite <- sumn_scale_r. apply sumn_ext. intros; ring.
    - intros i Hi. rewrite (sumn_ext n _ (fun j => sumn m (fun k => A k i * (A k j * y j)))) by (intros; rewrite <- sumn_scale_r; apply sumn_ext; intros; ring).
      rewrite sumn_swap, <- sumn_scale. apply sumn_ext. intros k Hk. rewrite sumn_scale. ring. }
  assert (Bv : forall k l, (k < n)%nat -> (l < n)%nat -> vdot m (mvec n A (gcol V k)) (mvec n A (gcol V l)) = lam l * delta k l).
  { intros k l Hk Hl. rewrite <- BS. unfold bil. rewrite (vdot_ext n _ _ (gcol V k) (fun i => lam l * gcol V l i)) by (auto; intros; now apply Ev).
    rewrite vdot_scale. destruct GV as [GV _]. now rewrite GV by auto. }
  assert (Lp : forall k, (k < n)%nat -> 0 <= lam k).
  { intros k Hk. pose proof (Bv k k Hk Hk) as B. rewrite delta_same, Rmult_1_r in B. rewrite <- B. apply vdot_pos. }
  (* number of positive eigenvalues *)
  assert (R : exists r, (r <= n)%nat /\ (forall k, (k < r)%nat -> 0 < lam k) /\ (forall k, (r <= k < n)%nat -> lam k = 0)).
  { assert (Q : forall d, (d <= n)%nat -> exists r, (r <= d)%nat /\ (forall k, (k < r)%nat -> 0 < lam k) /\ (forall k, (r <= k < d)%nat -> lam k = 0)).
    { induction d as [|d IH]; intro Hd; [exists 0%nat; repeat split; intros; lia|].
      destruct (IH ltac:(lia)) as (r & Hr & H1 & H2). destruct (Req_dec (lam d) 0) as [E|E].
      - exists r. repeat split; auto. intros k Hk. destruct (Nat.eq_dec k d) as [->|]; auto. apply H2. lia.
      - assert (P : 0 < lam d) by (pose proof (Lp d ltac:(lia)); lra). exists (Datatypes.S d). repeat split; auto.
        + intros k Hk. pose proof (So k d ltac:(lia) ltac:(lia)). lra.
        + intros; lia. }
    apply (Q n); auto. }
  destruct R as (r & Hr & R1 & R2).
  set (U0 := fun i k => mvec n A (gcol V k) i / sqrt (lam k)).
  assert (OU : onf m r U0).
  { intros k l Hk Hl. pose proof (R1 k Hk). pose proof (R1 l Hl). pose proof (sqrt_lt_R0 (lam k)). pose proof (sqrt_lt_R0 (lam l)).
    unfold vdot, gcol, U0. rewrite (sumn_ext m _ (fun i => / sqrt (lam k) * / sqrt (lam l) * (mvec n A (gcol V k) i * mvec n A (gcol V l) i))) by (intros; unfold Rdiv; ring).
    rewrite sumn_scale. change (sumn m (fun i => mvec n A (gcol V k) i * mvec n A (gcol V l) i)) with (vdot m (mvec n A (gcol V k)) (mvec n A (gcol V l))). rewrite Bv by lia.
    destruct (Nat.eq_dec k l) as [->|N].
    - rewrite delta_same. assert (Q : sqrt (lam l) * sqrt (lam l) = lam l) by (apply sqrt_sqrt; lra). set (q := sqrt (lam l)) in *. rewrite <- Q. field. lra.
    - rewrite delta_diff by auto. ring. }
  pose proof (onf_le m r U0 OU) as Hrm.
  destruct (onf_complete m r U0 OU) as (U & GU & HU).
  exists U, (fun k => sqrt (lam k)), V.
  assert (Av : forall k i, (k < n)%nat -> (i < m)%nat -> mvec n A (gcol V k) i = if Nat.ltb k r then sqrt (lam k) * U i k else 0).
  { intros k i Hk Hi. destruct (Nat.ltb k r) eqn:B.
    - apply Nat.ltb_lt in B. pose proof (R1 k B). pose proof (sqrt_lt_R0 (lam k)).
      change (U i k) with (gcol U k i). rewrite HU by auto. unfold gcol at 2, U0. field. lra.
    - apply Nat.ltb_ge in B. pose proof (Bv k k Hk Hk) as Q. rewrite R2, Rmult_0_l in Q by lia. now apply (vdot_zero m _ Q). }
  constructor; auto.
  - intros k Hk. apply sqrt_pos.
  - intros k l Hkl Hl. apply sqrt_le_1; try apply Lp; try lia. apply So; lia.
  - intros i j Hi Hj.
    transitivity (mvec n A (delta j) i). { unfold mvec. rewrite vdot_comm. symmetry. apply (sumn_delta' n j (A i)); auto. }
    transitivity (sumn n (fun k => V j k * mvec n A (gcol V k) i)).
    { rewrite (mvec_ext n A (delta j) (fun a => sumn n (fun k => V j k * gcol V k a))).
      - unfold mvec. rewrite vdot_sum. apply sumn_ext. intros k Hk. now rewrite vdot_scale.
      - intros a Ha. destruct GV as [_ G]. rewrite <- G by auto. apply sumn_ext. auto. }
    assert (T : forall f, (forall k, (r <= k)%nat -> (k < n)%nat -> f k = 0) -> forall d, (r <= d <= n)%nat -> sumn d f = sumn r f).
    { intros f Hf d Hd. replace d with (r + (d - r))%nat by lia. rewrite sumn_split. rewrite (sumn_0 (d - r)); [ring|]. intros k Hk. apply Hf; lia. }
    rewrite (T (fun k => V j k * mvec n A (gcol V k) i)) by (try lia; intros k Hk Hk'; rewrite Av by auto; replace (Nat.ltb k r) with false by (symmetry; now apply Nat.ltb_ge); ring).
    rewrite (T (fun k => U i k * sqrt (lam k) * V j k)) by (try lia; intros k Hk Hk'; rewrite R2, sqrt_0 by lia; ring).
    apply sumn_ext. intros k Hk. rewrite Av by lia. replace (Nat.ltb k r) with true by (symmetry; now apply Nat.ltb_lt). ring.
Qed.
