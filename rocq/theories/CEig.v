(** What is assumed of Eigen's EigenSolver for a real n x n matrix, and a proof
    that such a function exists: every eigenvalue has one of the returned
    columns as an eigenvector.  (Complex vectors are functions nat -> cx.) *)
From Coq Require Import Reals List Arith Lia Lra Classical_Prop ClassicalChoice.
From Verif Require Import Cplx.
Import ListNotations.
Local Open Scope cx_scope.

Fixpoint csum (n : nat) (f : nat -> cx) : cx := match n with O => c0 | S n => csum n f + f n end.
(** w is an eigenvector of M for mu *)
Definition ceigen (n : nat) (M : nat -> nat -> R) (mu : cx) (w : nat -> cx) : Prop :=
  (exists i, (i < n)%nat /\ w i <> c0) /\ forall i, (i < n)%nat -> csum n (fun j => RtoC (M i j) * w j) = mu * w i.
(** what eigenvectors() must return: column k is (V i k) *)
Definition good_ceig (n : nat) (M : nat -> nat -> R) (V : nat -> nat -> cx) : Prop :=
  forall mu w, ceigen n M mu w -> exists k, (k < n)%nat /\ ceigen n M mu (fun i => V i k).

Lemma csum_ext n f g : (forall i, (i < n)%nat -> f i = g i) -> csum n f = csum n g.
Proof. induction n as [|n IH]; intro H; cbn; auto. rewrite IH by (intros; apply H; lia). now rewrite H by lia. Qed.
Lemma csum_0 n f : (forall i, (i < n)%nat -> f i = c0) -> csum n f = c0.
Proof. induction n as [|n IH]; intro H; cbn; auto. rewrite IH by (intros; apply H; lia). rewrite H by lia. ring. Qed.
Lemma csum_add n f g : csum n (fun i => f i + g i) = csum n f + csum n g.
Proof. induction n as [|n IH]; cbn; [ring|]. rewrite IH. ring. Qed.
Lemma csum_scale n c f : csum n (fun i => c * f i) = c * csum n f.
Proof. induction n as [|n IH]; cbn; [ring|]. rewrite IH. ring. Qed.
Lemma csum_swap m n f : csum m (fun i => csum n (fun j => f i j)) = csum n (fun j => csum m (fun i => f i j)).
Proof. induction m as [|m IH]; cbn; [symmetry; now apply csum_0|]. rewrite IH, <- csum_add. reflexivity. Qed.
Lemma cmul_integral a b : a * b = c0 -> a = c0 \/ b = c0.
Proof.
  intro H. destruct (ceqb a c0) as [|N]; [now left|]. right. replace b with (cinv a * (a * b)) by (field; auto). rewrite H. ring.
Qed.

(** leaving out index p *)
Definition skip (p i : nat) : nat := if Nat.ltb i p then i else S i.
Lemma csum_skip n p f : (p <= n)%nat -> csum (S n) f = f p + csum n (fun i => f (skip p i)).
Proof.
  induction n as [|n IH]; intro H.
  - assert (p = 0%nat) by lia. subst. cbn. ring.
  - destruct (Nat.eq_dec p (S n)) as [->|N].
    + assert (K : forall i, (i <= n)%nat -> skip (S n) i = i) by (intros i Hi; unfold skip; destruct (Nat.ltb_spec i (S n)); [auto|lia]).
      cbn [csum]. rewrite (csum_ext n (fun i => f (skip (S n) i)) f), K by (intros; try rewrite K; auto; lia). ring.
    + change (csum (S (S n)) f) with (csum (S n) f + f (S n)). rewrite IH by lia.
      change (csum (S n) (fun i => f (skip p i))) with (csum n (fun i => f (skip p i)) + f (skip p n)).
      replace (skip p n) with (S n); [ring|]. unfold skip. destruct (Nat.ltb_spec n p); [lia|auto].
Qed.
(** n+1 vectors with n coordinates are linearly dependent *)
Lemma dependent n : forall v : nat -> nat -> cx, exists c, (exists i, (i <= n)%nat /\ c i <> c0) /\
  forall j, (j < n)%nat -> csum (S n) (fun i => c i * v i j) = c0.
Proof.
  induction n as [|n IH]; intro v.
  - exists (fun _ => c1). split; [exists 0%nat; split; [lia|apply c1_neq_c0]|]. intros; lia.
  - destruct (classic (exists p, (p <= S n)%nat /\ v p n <> c0)) as [(p & Hp & Np)|A].
    + destruct (IH (fun i j => v (skip p i) j - v (skip p i) n / v p n * v p j)) as (c & (i0 & Hi0 & Ni0) & Hc).
      set (cp := - csum (S n) (fun i => c i * (v (skip p i) n / v p n))).
      exists (fun k => if Nat.eq_dec k p then cp else c (if Nat.ltb k p then k else pred k)).
      assert (Sk : forall i, (if Nat.eq_dec (skip p i) p then cp else c (if Nat.ltb (skip p i) p then skip p i else pred (skip p i))) = c i).
      { intro i. unfold skip. destruct (Nat.ltb_spec i p) as [L|L].
        - destruct (Nat.eq_dec i p); [lia|]. destruct (Nat.ltb_spec i p); [auto|lia].
        - destruct (Nat.eq_dec (S i) p); [lia|]. destruct (Nat.ltb_spec (S i) p); [lia|auto]. }
      split.
      * exists (skip p i0). rewrite Sk. split; auto. unfold skip. destruct (Nat.ltb i0 p); lia.
      * intros j Hj. rewrite (csum_skip (S n) p) by lia. destruct (Nat.eq_dec p p) as [_|]; [|congruence].
        rewrite (csum_ext (S n) _ (fun i => c i * (v (skip p i) j - v (skip p i) n / v p n * v p j) + v p j * (c i * (v (skip p i) n / v p n)))).
        -- rewrite csum_add, csum_scale. fold cp. destruct (Nat.eq_dec j n) as [->|Nj].
           ++ rewrite (csum_0 (S n) (fun i => c i * (v (skip p i) n - v (skip p i) n / v p n * v p n))).
              ** unfold cp. ring.
              ** intros i Hi. field. auto.
           ++ rewrite Hc by lia. unfold cp. ring.
        -- intros i Hi. rewrite Sk. ring.
    + assert (Z : forall p, (p <= S n)%nat -> v p n = c0) by (intros p Hp; apply NNPP; intro N; apply A; eauto).
      destruct (IH v) as (c & (i0 & Hi0 & Ni0) & Hc). exists (fun k => if Nat.leb k n then c k else c0). split.
      * exists i0. split; [lia|]. destruct (Nat.leb_spec i0 n); [auto|lia].
      * intros j Hj. change (csum (S (S n)) ?f) with (csum (S n) f + f (S n)). cbv beta.
        rewrite (csum_ext (S n) _ (fun i => c i * v i j)) by (intros i Hi; destruct (Nat.leb_spec i n); [auto|lia]).
        destruct (Nat.leb_spec (S n) n); [lia|]. destruct (Nat.eq_dec j n) as [->|Nj].
        -- rewrite csum_0; [ring|]. intros i Hi. rewrite Z by lia. ring.
        -- rewrite Hc by lia. ring.
Qed.
(** eigenvectors for different eigenvalues are independent *)
Lemma eig_independent n M k : forall (mu : nat -> cx) (w : nat -> nat -> cx) c,
  (forall i j, (i < k)%nat -> (j < k)%nat -> mu i = mu j -> i = j) -> (forall i, (i < k)%nat -> ceigen n M (mu i) (w i)) ->
  (forall j, (j < n)%nat -> csum k (fun i => c i * w i j) = c0) -> forall i, (i < k)%nat -> c i = c0.
Proof.
  induction k as [|k IH]; intros mu w c D E H i Hi; [lia|].
  assert (C : forall i, (i < k)%nat -> c i = c0).
  { intros i0 Hi0. assert (Z : c i0 * (mu i0 - mu k) = c0).
    { refine (IH mu w (fun i => c i * (mu i - mu k)) _ _ _ i0 Hi0).
      - intros a b Ha Hb. apply D; lia.
      - intros a Ha. apply E; lia.
      - intros j Hj.
        assert (P : csum (S k) (fun i => c i * (mu i * w i j)) = c0).
        { rewrite (csum_ext (S k) _ (fun i => csum n (fun l => RtoC (M j l) * (c i * w i l)))).
          - rewrite csum_swap. apply csum_0. intros l Hl. rewrite csum_scale, H by auto. ring.
          - intros a Ha. destruct (E a Ha) as [_ Ea]. rewrite <- Ea by auto. rewrite <- csum_scale. apply csum_ext. intros; ring. }
        pose proof (H j Hj) as Q. cbn [csum] in P, Q.
        rewrite (csum_ext k _ (fun i => c i * (mu i * w i j) + (- mu k) * (c i * w i j))) by (intros; ring).
        rewrite csum_add, csum_scale.
        transitivity ((csum k (fun i => c i * (mu i * w i j)) + c k * (mu k * w k j)) - mu k * (csum k (fun i => c i * w i j) + c k * w k j)); [ring|].
        rewrite P, Q. ring. }
    apply cmul_integral in Z as [Z|Z]; auto. exfalso. assert (i0 = k); [|lia]. apply D; try lia.
    replace (mu i0) with (mu i0 - mu k + mu k) by ring. rewrite Z. ring. }
  destruct (Nat.eq_dec i k) as [->|N]; [|apply C; lia].
  destruct (E k ltac:(lia)) as ((j & Hj & Nj) & _). specialize (H j Hj). cbn [csum] in H.
  rewrite csum_0 in H by (intros a Ha; rewrite C by auto; ring).
  assert (Z : c k * w k j = c0) by (rewrite <- H; ring). apply cmul_integral in Z as [Z|Z]; [auto|contradiction].
Qed.
Lemma eig_at_most n M L : NoDup L -> (forall mu, In mu L -> exists w, ceigen n M mu w) -> (length L <= n)%nat.
Proof.
  intros ND HL. destruct (Nat.le_gt_cases (length L) n) as [|G]; auto. exfalso.
  assert (HW : forall i, exists w, (i < length L)%nat -> ceigen n M (nth i L c0) w).
  { intro i. destruct (Nat.lt_ge_cases i (length L)) as [A|A]; [|exists (fun _ => c0); lia].
    destruct (HL (nth i L c0) (nth_In _ _ A)) as [w Hw]. eauto. }
  apply choice in HW as [w HW].
  destruct (dependent n w) as (c & (i & Hi & Ni) & Hc). apply Ni.
  apply (eig_independent n M (S n) (fun i => nth i L c0) w c); auto; [|intros; apply HW|]; try lia.
  intros a b Ha Hb Eab. apply (proj1 (NoDup_nth L c0) ND); auto; lia.
Qed.
Lemma eig_list n M : exists L, NoDup L /\ (forall mu, In mu L -> exists w, ceigen n M mu w) /\ forall mu w, ceigen n M mu w -> In mu L.
Proof.
  assert (X : forall d L, NoDup L -> (forall mu, In mu L -> exists w, ceigen n M mu w) -> (n < d + length L)%nat ->
    exists L, NoDup L /\ (forall mu, In mu L -> exists w, ceigen n M mu w) /\ forall mu w, ceigen n M mu w -> In mu L).
  { induction d as [|d IH]; intros L ND HL B.
    - pose proof (eig_at_most n M L ND HL). cbn in B. lia.
    - destruct (classic (forall mu w, ceigen n M mu w -> In mu L)) as [A|A]; [eauto|].
      apply not_all_ex_not in A as [mu A]. apply not_all_ex_not in A as [w A]. apply imply_to_and in A as [A N].
      apply (IH (mu :: L)); [now constructor| |cbn; lia].
      intros mu' [<-|I]; eauto. }
  apply (X (S n) []); [constructor|intros mu []|cbn; lia].
Qed.
(** A solver with the assumed property exists for every size. *)
Theorem ceig_function_exists : forall n, exists eig : (nat -> nat -> R) -> nat -> nat -> cx, forall M, good_ceig n M (eig M).
Proof.
  intro n. apply (choice (good_ceig n)). intro M. destruct (eig_list n M) as (L & ND & HL & AL).
  assert (Len := eig_at_most n M L ND HL).
  assert (HW : forall i, exists w, (i < length L)%nat -> ceigen n M (nth i L c0) w).
  { intro i. destruct (Nat.lt_ge_cases i (length L)) as [A|A]; [|exists (fun _ => c0); lia].
    destruct (HL (nth i L c0) (nth_In _ _ A)) as [w Hw]. eauto. }
  apply choice in HW as [w HW]. exists (fun i k => w k i). intros mu v Hv.
  destruct (In_nth L mu c0 (AL mu v Hv)) as (k & Hk & <-). exists k. split; [lia|]. now apply HW.
Qed.
