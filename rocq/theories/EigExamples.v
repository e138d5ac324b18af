(** The hypotheses of C44 are met. *)
From Coq Require Import Reals List Lra Lia Psatz Permutation Sorting.Sorted ClassicalChoice.
From Verif Require Import Lin RotModel Spectral EigSums EigGen EigModel EigAlg EigProps.
Import ListNotations.
Local Open Scope R_scope.

Fixpoint ins (p : epair) (l : list epair) : list epair :=
  match l with [] => [p] | q :: r => if Rge_dec (snd p) (snd q) then p :: l else q :: ins p r end.
Definition isort (l : list epair) : list epair := fold_right ins [] l.
Lemma ins_perm p l : Permutation (p :: l) (ins p l).
Proof.
  induction l as [|q l IH]; cbn; auto. destruct (Rge_dec _ _); auto.
  apply perm_trans with (q :: p :: l); [constructor|]. now constructor.
Qed.
Lemma ins_sorted p l : StronglySorted (fun p q => snd p >= snd q) l -> StronglySorted (fun p q => snd p >= snd q) (ins p l).
Proof.
  induction l as [|q l IH]; intro H; cbn; [repeat constructor|].
  inversion_clear H as [|? ? Sl F]. destruct (Rge_dec (snd p) (snd q)) as [G|G].
  - constructor; [now constructor|]. constructor; auto. eapply Forall_impl; [|exact F]. cbn. intros; lra.
  - constructor; auto. apply Forall_forall. intros x Hx. apply Permutation_in with (l' := p :: l) in Hx; [|apply Permutation_sym, ins_perm].
    destruct Hx as [<-|Hx]; [lra|]. rewrite Forall_forall in F. now apply F.
Qed.
Lemma good_sort_exists : good_sort isort.
Proof.
  intro l. split; induction l as [|p l IH]; cbn; auto; try constructor.
  - apply perm_trans with (p :: isort l); [now constructor|apply ins_perm].
  - now apply ins_sorted.
Qed.
Lemma diag_pairs Q M d : diagonalises Q M d ->
  mv M (col Q 0) = vscale (vx d) (col Q 0) /\ mv M (col Q 1) = vscale (vy d) (col Q 1) /\ mv M (col Q 2) = vscale (vz d) (col Q 2).
Proof.
  intros (O & E). assert (K : mmul M Q = mmul Q (diag (vx d) (vy d) (vz d))).
  { rewrite E, <- !mmul_assoc. unfold orthogonal in O. rewrite O. now rewrite mmul_id_r. }
  assert (C : forall i, mv M (col Q i) = col (mmul M Q) i) by (intro i; clear; destruct i as [|[|i]]; lring).
  rewrite !C, K. clear. repeat split; lring.
Qed.
Lemma orth_cols Q : orthogonal Q -> unit (col Q 0) /\ unit (col Q 1) /\ unit (col Q 2).
Proof.
  intro O. assert (K : norm2 (col Q 0) = m00 (mmul (mT Q) Q) /\ norm2 (col Q 1) = m11 (mmul (mT Q) Q) /\ norm2 (col Q 2) = m22 (mmul (mT Q) Q)).
  { clear. repeat split; lring. }
  destruct K as (A & B & C). unfold unit. rewrite A, B, C, O. cbn. auto.
Qed.
Lemma good_eig3_exists : exists eig, good_eig3 eig.
Proof.
  destruct (choice (fun M L => symmetric M -> exists a b c la lb lc, L = [(a, la); (b, lb); (c, lc)] /\
    unit a /\ unit b /\ unit c /\ det (of_cols a b c) <> 0 /\
    mv M a = vscale la a /\ mv M b = vscale lb b /\ mv M c = vscale lc c)) as (f & Hf).
  - intro M. destruct (Classical_Prop.classic (symmetric M)) as [Sy|N]; [|now exists []].
    destruct (spectral M Sy) as (Q & d & H). pose proof H as (O & _).
    exists [(col Q 0, vx d); (col Q 1, vy d); (col Q 2, vz d)]. intros _.
    do 6 eexists. split; [reflexivity|].
    destruct (orth_cols Q O) as (U0 & U1 & U2). destruct (diag_pairs Q M d H) as (E0 & E1 & E2).
    repeat (split; [assumption|]). split; [|auto].
    replace (of_cols (col Q 0) (col Q 1) (col Q 2)) with Q by (destruct Q; reflexivity). now apply orth_det_nz.
  - exists f. exact Hf.
Qed.

(** two points seen from two cameras that differ by the translation (2,0,0) *)
Example C44_nonvacuous : exists eig sort lm q l t,
  good_eig3 eig /\ good_sort sort /\ (forall S s, cayley2rot (lm S s) = mid) /\
  (forall p, In p (q :: l) -> 0 < fst p /\ unit (fst (snd p)) /\ unit (snd (snd p)) /\
     exists d1 d2, 0 < d1 /\ 0 < d2 /\ sees mid t (snd p) d1 d2) /\
  fst (snd q) <> mv mid (snd (snd q)) /\
  (exists p1 p2, In p1 (q :: l) /\ In p2 (q :: l) /\ cross (normal mid (snd p1)) (normal mid (snd p2)) <> v0) /\
  exists out k, eigensolver lm eig sort true mid (q :: l) = Some out /\
    eo_rotation out = mid /\ 0 < k /\ eo_translation out = vscale k t.
Proof.
  destruct good_eig3_exists as (eig & GE).
  exists eig, isort, (fun _ _ => v0), (1, (V3 (1/3) (2/3) (2/3), V3 (-1/3) (2/3) (2/3))), [(2, (V3 (1/3) (2/3) (-2/3), V3 (-1/3) (2/3) (-2/3)))], (V3 2 0 0).
  assert (H1 : forall (S : fsums) (s : option vec3), cayley2rot v0 = mid) by (intros; unfold cayley2rot; lunf; f_equal; field).
  assert (H2 : forall p : R * (vec3 * vec3), In p [(1, (V3 (1/3) (2/3) (2/3), V3 (-1/3) (2/3) (2/3))); (2, (V3 (1/3) (2/3) (-2/3), V3 (-1/3) (2/3) (-2/3)))] ->
    0 < fst p /\ unit (fst (snd p)) /\ unit (snd (snd p)) /\ exists d1 d2, 0 < d1 /\ 0 < d2 /\ sees mid (V3 2 0 0) (snd p) d1 d2).
  { intros p [<-|[<-|[]]]; cbn [fst snd]; (split; [lra|]); unfold sees; cbn [fst snd]; lunf; (split; [lra|]); (split; [lra|]); exists 3, 3; repeat split; try lra; f_equal; lra. }
  assert (H3 : V3 (1/3) (2/3) (2/3) <> mv mid (V3 (-1/3) (2/3) (2/3))) by (lunf; intro Q; injection Q; lra).
  assert (H4 : exists p1 p2 : R * (vec3 * vec3), In p1 [(1, (V3 (1/3) (2/3) (2/3), V3 (-1/3) (2/3) (2/3))); (2, (V3 (1/3) (2/3) (-2/3), V3 (-1/3) (2/3) (-2/3)))] /\
     In p2 [(1, (V3 (1/3) (2/3) (2/3), V3 (-1/3) (2/3) (2/3))); (2, (V3 (1/3) (2/3) (-2/3), V3 (-1/3) (2/3) (-2/3)))] /\ cross (normal mid (snd p1)) (normal mid (snd p2)) <> v0).
  { eexists. eexists. split; [left; reflexivity|]. split; [right; left; reflexivity|]. unfold normal; cbn [fst snd]. lunf. intro Q. injection Q. lra. }
  repeat (split; [solve [auto using good_sort_exists]|]).
  apply C44_recovers_pose; auto using good_sort_exists.
Qed.
