(** Solutions of a system reduced by math::gauss_jordan, by their trailing part. *)
From Coq Require Import Reals Lra Lia List Arith ZArith Bool.
From Verif Require Import GenLin SturmModel GaussModel GaussProps GbProps MacProps.
Import ListNotations.
Local Open Scope R_scope.

Section Solve.
Variables (prec : R) (exitc : Z) (m m' : list (list R)) (nr nf : nat).
Hypothesis Pr : 0 <= prec < 1.
Hypothesis W : well_shaped m (nr + nf).
Hypothesis Lm : length m = nr.
Hypothesis He : (0 <= exitc)%Z.
Hypothesis Cl : clean prec exitc m.
Hypothesis Rd : gauss_jordan prec exitc m = Reduced m'.

Lemma gj_dot (y : nat -> R) r : (r < nr)%nat -> dotlist (nth r m' []) (map y (seq 0 (nr + nf))) = sumn (nr + nf) (fun c => nth c (nth r m' []) 0 * y c).
Proof.
  intro Hr. destruct (C31_solution_set prec exitc _ _ m' Pr W He Cl Rd) as (L' & Sh & _).
  assert (Lr : length (nth r m' []) = (nr + nf)%nat) by (apply Sh, nth_In; lia).
  rewrite dotlist_sumn by (rewrite map_length, seq_length; auto). rewrite Lr. apply sumn_ext. intros c Hc. now rewrite nth_map_seq0.
Qed.
Lemma gj_row (y : nat -> R) r : (forall q, In q m -> dotlist q (map y (seq 0 (nr + nf))) = 0) -> (r < nr)%nat -> (exitc <= Z.of_nat r)%Z ->
  y r = - sumn nf (fun s => nth (nr + s) (nth r m' []) 0 * y (nr + s)%nat).
Proof.
  intros S Hr Hre. destruct (C31_solution_set prec exitc _ _ m' Pr W He Cl Rd) as (L' & Sh & Sol).
  destruct (C31_reduced_form prec exitc _ _ m' Pr W He Cl Rd) as (Id & _).
  assert (D : dotlist (nth r m' []) (map y (seq 0 (nr + nf))) = 0) by (apply (proj1 (Sol _) S); apply nth_In; lia).
  rewrite gj_dot in D by auto. rewrite sumn_split in D.
  assert (E : sumn nr (fun c => nth c (nth r m' []) 0 * y c) = y r).
  { rewrite <- (sumn_delta nr r y Hr). apply sumn_ext. intros c Hc. rewrite Id by lia. unfold delta.
    destruct (Nat.eq_dec r c), (Nat.eq_dec c r); subst; try congruence; auto. }
  lra.
Qed.
Lemma gj_extend (w : nat -> R) : exists y, (forall s, (s < nf)%nat -> y (nr + s)%nat = w s) /\ forall q, In q m -> dotlist q (map y (seq 0 (nr + nf))) = 0.
Proof.
  destruct (C31_solution_set prec exitc _ _ m' Pr W He Cl Rd) as (L' & Sh & Sol).
  destruct (C31_reduced_form prec exitc _ _ m' Pr W He Cl Rd) as (_ & Up).
  assert (K : forall k, (k <= nr)%nat -> exists y, (forall s, (s < nf)%nat -> y (nr + s)%nat = w s) /\
    forall r, (nr - k <= r < nr)%nat -> sumn (nr + nf) (fun c => nth c (nth r m' []) 0 * y c) = 0).
  { induction k as [|k IH]; intro Hk.
    - exists (fun c => w (c - nr)%nat). split; [intros; f_equal; lia|]. intros; lia.
    - destruct IH as (y & T & Hy); [lia|]. set (i := (nr - S k)%nat).
      exists (fun c => if Nat.eq_dec c i then - sumn (nr + nf) (fun c => if Nat.eq_dec c i then 0 else nth c (nth i m' []) 0 * y c) else y c). split.
      + intros s Hs. destruct (Nat.eq_dec (nr + s) i); [unfold i in *; lia|auto].
      + intros r Hr. destruct (Nat.eq_dec r i) as [->|N].
        * rewrite (sumn_ext _ _ (fun c => delta c i * (nth i (nth i m' []) 0 * - sumn (nr + nf) (fun c => if Nat.eq_dec c i then 0 else nth c (nth i m' []) 0 * y c))
             + (if Nat.eq_dec c i then 0 else nth c (nth i m' []) 0 * y c))).
          -- rewrite sumn_add, (sumn_delta (nr + nf) i) by (unfold i; lia). rewrite Up by (unfold i; lia). destruct (Nat.eq_dec i i); [ring|congruence].
          -- intros c Hc. unfold delta. destruct (Nat.eq_dec c i) as [->|]; ring.
        * transitivity (sumn (nr + nf) (fun c => nth c (nth r m' []) 0 * y c)); [|apply Hy; unfold i in *; lia]. apply sumn_ext. intros c Hc. destruct (Nat.eq_dec c i) as [->|]; auto.
          rewrite Up by (unfold i in *; lia). destruct (Nat.eq_dec r i); [congruence|ring]. }
  destruct (K nr (le_n nr)) as (y & T & Hy). exists y. split; auto. apply Sol. intros q Hq.
  destruct (In_nth m' q [] Hq) as (r & Hr & <-). rewrite gj_dot by lia. apply Hy. lia.
Qed.
End Solve.
