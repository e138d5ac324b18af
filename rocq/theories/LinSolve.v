(** Regular matrices: what inverse() and a linear solver must return, and that
    such functions exist. *)
From Coq Require Import Reals Lra Lia List Arith ClassicalChoice Classical_Prop.
From Verif Require Import GenLin GenSpectral.
Local Open Scope R_scope.
Local Notation matrix := (nat -> nat -> R).

(** only the zero vector is mapped to zero *)
Definition nonsingular (n : nat) (A : matrix) : Prop :=
  forall x, (forall i, (i < n)%nat -> sumn n (fun j => A i j * x j) = 0) -> forall j, (j < n)%nat -> x j = 0.
Definition good_inverse (inv : nat -> matrix -> matrix) : Prop :=
  forall n A, nonsingular n A -> forall i j, (i < n)%nat -> (j < n)%nat -> sumn n (fun k => inv n A i k * A k j) = delta i j.
Definition good_solve (solve : nat -> nat -> matrix -> matrix -> matrix) : Prop :=
  forall n m A B, nonsingular n A -> forall i j, (i < n)%nat -> (j < m)%nat -> sumn n (fun k => A i k * solve n m A B k j) = B i j.

Lemma solvable n A : nonsingular n A -> forall b, exists x, forall i, (i < n)%nat -> sumn n (fun k => A i k * x k) = b i.
Proof.
  intros NA b. destruct (gsvd_exists n n A) as (U & s & V & G). assert (Mn : Nat.min n n = n) by lia.
  assert (S0 : forall k, (k < n)%nat -> s k <> 0).
  { intros k Hk E. assert (Z : forall j, (j < n)%nat -> gcol V k j = 0).
    { apply NA. intros i Hi. transitivity (mvec n A (gcol V k) i); [reflexivity|]. rewrite (gsvd_col n n A U V s G k i Hk Hi). rewrite E. destruct (Nat.ltb _ _); ring. }
    pose proof (gorth_unit n V k (gsvd_V _ _ _ _ _ _ G) Hk) as U1. unfold vdot in U1. rewrite sumn_0 in U1; [lra|]. intros i Hi. rewrite Z by auto. ring. }
  set (c := fun k => vdot n (gcol U k) b / s k). exists (fun j => sumn n (fun k => c k * V j k)). intros i Hi.
  transitivity (mvec n A (fun j => sumn n (fun k => c k * V j k)) i); [reflexivity|]. rewrite (gsvd_mvec n n A U V s G _ i Hi), Mn.
  rewrite (gorth_expand n U b (gsvd_U _ _ _ _ _ _ G) i Hi). apply sumn_ext. intros k Hk.
  replace (vdot n (gcol V k) (fun j => sumn n (fun l => c l * V j l))) with (c k); [unfold c; field; auto|].
  symmetry. etransitivity; [apply (vdot_sum n n (gcol V k) (fun l j => c l * V j l))|].
  rewrite <- (sumn_delta n k c Hk). apply sumn_ext. intros l Hl. etransitivity; [apply (vdot_scale n (gcol V k) (c l) (gcol V l))|].
  destruct (gsvd_V _ _ _ _ _ _ G) as [O _]. rewrite O by auto. unfold delta. destruct (Nat.eq_dec k l), (Nat.eq_dec l k); try lia; ring.
Qed.
Lemma good_solve_exists : exists solve, good_solve solve.
Proof.
  destruct (choice (fun (p : nat * matrix * (nat -> R)) (x : nat -> R) =>
    let '(n, A, b) := p in nonsingular n A -> forall i, (i < n)%nat -> sumn n (fun k => A i k * x k) = b i)) as [f Hf].
  - intros [[n A] b]. destruct (classic (nonsingular n A)) as [H|H]; [|exists b; tauto]. destruct (solvable n A H b) as [x Hx]. exists x. auto.
  - exists (fun n m A B k j => f (n, A, fun i => B i j) k). intros n m A B NA i j Hi Hj. exact (Hf (n, A, fun i => B i j) NA i Hi).
Qed.
Lemma good_inverse_exists : exists inv, good_inverse inv.
Proof.
  destruct good_solve_exists as [solve Hs]. exists (fun n A => solve n n A delta). intros n A NA i j Hi Hj.
  set (X := solve n n A delta).
  assert (E : forall q, (q < n)%nat -> sumn n (fun k => X q k * A k j) - delta q j = 0).
  { apply NA. intros r Hr.
    rewrite (sumn_ext n _ (fun q => sumn n (fun k => A r q * X q k * A k j) - delta q j * A r q)).
    - rewrite sumn_sub, sumn_delta by auto. rewrite sumn_swap. rewrite (sumn_ext n _ (fun k => delta k r * A k j)).
      + rewrite sumn_delta by auto. ring.
      + intros k Hk. rewrite (sumn_ext n _ (fun q => A k j * (A r q * X q k))) by (intros; ring). rewrite sumn_scale. unfold X. rewrite (Hs n n A delta NA r k Hr Hk).
        unfold delta. destruct (Nat.eq_dec r k), (Nat.eq_dec k r); try lia; ring.
    - intros q Hq. rewrite Rmult_minus_distr_l, <- sumn_scale. rewrite (Rmult_comm (A r q) (delta q j)). f_equal. apply sumn_ext. intros; ring. }
  specialize (E i Hi). lra.
Qed.
