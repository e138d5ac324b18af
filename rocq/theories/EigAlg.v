(** Linearity of composeM in the summation terms. *)
From Coq Require Import Reals List Lra.
From Verif Require Import Lin GenLin RotModel EigSums EigGen.
Import ListNotations.
Local Open Scope R_scope.

(** * Linearity *)
Lemma FS_eq a b c d e f a' b' c' d' e' f' : a = a' -> b = b' -> c = c' -> d = d' -> e = e' -> f = f' ->
  FS a b c d e f = FS a' b' c' d' e' f'.
Proof. now intros -> -> -> -> -> ->. Qed.
Definition fs_add (S T : fsums) : fsums :=
  FS (madd (xxF S) (xxF T)) (madd (yyF S) (yyF T)) (madd (zzF S) (zzF T))
     (madd (xyF S) (xyF T)) (madd (yzF S) (yzF T)) (madd (zxF S) (zxF T)).
Lemma fs_step_add S q : fs_step S q = fs_add S (fs_step fs0 q).
Proof. destruct S as [a b c d e f], q as (w & f1 & f2). apply FS_eq; cbn; lring. Qed.
Lemma fs_fold l : forall S, fold_left fs_step l S = fs_add S (fs_accumulate l).
Proof.
  unfold fs_accumulate. induction l as [|q l IH]; intro S.
  - destruct S as [a b c d e f]. apply FS_eq; cbn; lring.
  - cbn [fold_left]. rewrite IH, (IH (fs_step fs0 q)), (fs_step_add S). unfold fs_add. apply FS_eq; cbn; lring.
Qed.
Lemma fs_cons q l : fs_accumulate (q :: l) = fs_add (fs_step fs0 q) (fs_accumulate l).
Proof. unfold fs_accumulate at 1. cbn [fold_left]. apply fs_fold. Qed.
Lemma bf3 u A v : bf 3 3 u A v =
  u 0%nat * (A 0%nat 0%nat * v 0%nat + A 0%nat 1%nat * v 1%nat + A 0%nat 2%nat * v 2%nat) +
  u 1%nat * (A 1%nat 0%nat * v 0%nat + A 1%nat 1%nat * v 1%nat + A 1%nat 2%nat * v 2%nat) +
  u 2%nat * (A 2%nat 0%nat * v 0%nat + A 2%nat 1%nat * v 1%nat + A 2%nat 2%nat * v 2%nat).
Proof. unfold bf. cbn [sumn]. ring. Qed.

Lemma composeM_add S T c : composeM (fs_add S T) c = madd (composeM S c) (composeM T c).
Proof.
  unfold composeM. generalize (cayley2rot_reduced c). intro Rm. rewrite ?bf3. unfold rw, madd; cbn.
  destruct S as [[] [] [] [] [] []], T as [[] [] [] [] [] []], Rm. cbn. f_equal; ring.
Qed.
Lemma composeM_0 c : composeM fs0 c = mzero.
Proof. unfold composeM. rewrite ?bf3. cbn. unfold mzero. f_equal; ring. Qed.
Lemma composeM_one w f1 f2 c : composeM (fs_step fs0 (w, (f1, f2))) c =
  mscale w (outer (cross f1 (mv (cayley2rot_reduced c) f2)) (cross f1 (mv (cayley2rot_reduced c) f2))).
Proof.
  unfold composeM. generalize (cayley2rot_reduced c). intro Rm. rewrite ?bf3. unfold rw, madd; cbn.
  destruct f1, f2, Rm. cbn. unfold mscale, outer; cbn. f_equal; ring.
Qed.
