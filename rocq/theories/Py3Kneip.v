(** C86: the wrapper of the five-point rotation solver. *)
From Coq Require Import Reals Lra List Lia Arith FunctionalExtensionality.
From Verif Require Import Lin GenLin Cplx CEig GbModel GbProps UpnpActGrad SixptProps GeoModel KneipModel PyModel PySpec PyProps Py2Props Py3Model KneipProps KneipEx2.
Import ListNotations.
Local Open Scope R_scope.

Lemma triple_lt r i j k : nth_error kn_triples r = Some (i, j, k) -> (i < 5 /\ j < 5 /\ k < 5)%nat.
Proof.
  intro E. apply nth_error_In in E. unfold kn_triples in E. cbn [In] in E.
  repeat (destruct E as [E|E]; [injection E as <- <- <-; lia|]). destruct E.
Qed.
Lemma init_ext f1 f2 g1 g2 : (forall i, (i < 5)%nat -> f1 i = g1 i /\ f2 i = g2 i) -> kn_init f1 f2 = kn_init g1 g2.
Proof.
  intro H. apply functional_extensionality. intro r. apply functional_extensionality. intro c. unfold kn_init.
  destruct (nth_error kn_triples r) as [[[i j] k]|] eqn:E; [|reflexivity].
  destruct (triple_lt _ _ _ _ E) as (Hi & Hj & Hk). destruct (H i Hi) as [-> ->]. destruct (H j Hj) as [-> ->]. destruct (H k Hk) as [-> ->]. reflexivity.
Qed.
Lemma nth_seq5 i : (i < 5)%nat -> nth i (seq 0 5) 0%nat = i.
Proof. intro H. rewrite seq_nth by exact H. reflexivity. Qed.
Lemma firstn_app_pairs (l : list (vec3 * vec3)) : forall r1 r2, firstn (length l) (List.combine (map fst l ++ r1) (map snd l ++ r2)) = l.
Proof. induction l as [|[x y] l IH]; intros; [reflexivity|]. cbn. now rewrite IH. Qed.
Lemma kneip_call eig b1 b2 l r1 r2 : length l = 5%nat -> rows_are num b1 (map fst l ++ r1) -> rows_are num b2 (map snd l ++ r2) ->
  py_fivept_kneip eig b1 b2 = PyOk (option_map (map arr_of_rot) (fivept_kneip eig (rel_rows l (Pose mid v0)) (seq 0 5))).
Proof.
  intros L R1 R2. unfold py_fivept_kneip.
  rewrite (both_rows_some _ _ _ _ R1 R2) by (rewrite app_length, map_length; lia).
  cbn [pybind skipn]. rewrite <- L at 1. now rewrite firstn_app_pairs.
Qed.

(** The first five rows are views of five points by two cameras: the list of
    rotations contains the rotation between them. *)
Theorem C86_kneip_recovers : forall eig b1 b2 l r1 r2 A t G,
  let f1 i := fst (nth i l (v0, v0)) in let f2 i := snd (nth i l (v0, v0)) in
  length l = 5%nat -> rows_are num b1 (map fst l ++ r1) -> rows_are num b2 (map snd l ++ r2) -> rotation A ->
  (forall q, In q l -> exists X lam mu, 0 < lam /\ 0 < mu /\ fst q = vscale lam X /\ mv A (snd q) = vscale mu (vsub X t)) ->
  kn_basis f1 f2 = Some G -> good_eigen 20 (kn_action G) (eig (kn_action G)) ->
  simple_eig 20 (kn_action G) (m00 A) (kn_vec A) ->
  exists outs out, py_fivept_kneip eig b1 b2 = PyOk (Some outs) /\ In out outs /\ mat_is Some out A.
Proof.
  intros eig b1 b2 l r1 r2 A t G f1 f2 L R1 R2 RA Sc K GE Sim.
  set (P := Pose mid v0).
  assert (Q : forall i, (i < 5)%nat -> rf1 (rel_rows l P) (nth i (seq 0 5) 0%nat) = f1 i /\ rf2 (rel_rows l P) (nth i (seq 0 5) 0%nat) = f2 i).
  { intros i Hi. rewrite nth_seq5 by exact Hi. cbn [rel_rows rf1 rf2]. unfold f1, f2.
    rewrite (nth_indep l (V3 1 0 0, V3 1 0 0) (v0, v0)) by lia. auto. }
  assert (KB : kn_basis (fun i => rf1 (rel_rows l P) (nth i (seq 0 5) 0%nat)) (fun i => rf2 (rel_rows l P) (nth i (seq 0 5) 0%nat)) = Some G).
  { unfold kn_basis in *. rewrite (init_ext _ _ f1 f2); [exact K|]. intros i Hi. apply (Q i Hi). }
  destruct (C78_recovers eig A t (rel_rows l P) (seq 0 5) RA) with (G := G) as (Ms & E & I); auto.
  { intros i Hi. destruct (Q i Hi) as [-> ->]. apply Sc. apply nth_In. lia. }
  exists (map arr_of_rot Ms), (arr_of_rot A). rewrite (kneip_call eig b1 b2 l r1 r2 L R1 R2). unfold P in E. rewrite E.
  split; [reflexivity|]. split; [now apply in_map|]. apply arr_of_rot_is.
Qed.
(** Everything in the list is a rotation up to the tolerances of the solver, under
    which the five epipolar planes have nearly a common line, and there are at
    most twenty. *)
Theorem C86_kneip_accepts : forall eig b1 b2 l r1 r2 outs,
  length l = 5%nat -> rows_are num b1 (map fst l ++ r1) -> rows_are num b2 (map snd l ++ r2) ->
  py_fivept_kneip eig b1 b2 = PyOk (Some outs) ->
  (length outs <= 20)%nat /\ forall out, In out outs -> exists M, mat_is Some out M /\ Rabs (det M - 1) < 1 / 10
    /\ (forall i j, (i < 3)%nat -> (j < 3)%nat -> Rabs (dot (row M i) (row M j) - delta i j) < 1 / 1000)
    /\ forall i j k qi qj qk, (i < j < k)%nat -> nth_error l i = Some qi -> nth_error l j = Some qj -> nth_error l k = Some qk ->
         Rabs (det (of_cols (cross (fst qi) (mv M (snd qi))) (cross (fst qj) (mv M (snd qj))) (cross (fst qk) (mv M (snd qk))))) < 1 / 1000.
Proof.
  intros eig b1 b2 l r1 r2 outs L R1 R2 E. rewrite (kneip_call eig b1 b2 l r1 r2 L R1 R2) in E.
  destruct (fivept_kneip eig (rel_rows l (Pose mid v0)) (seq 0 5)) as [Ms|] eqn:EM; [|discriminate].
  cbn [option_map] in E. injection E as <-. destruct (C78_accepts _ _ _ _ EM) as (Len & Acc). rewrite map_length. split; [exact Len|].
  intros out I. apply in_map_iff in I as (M & <- & I). exists M. split; [apply arr_of_rot_is|].
  destruct (Acc M I) as (_ & _ & Hd & Ho & Hc & _). split; [exact Hd|]. split; [exact Ho|].
  intros i j k qi qj qk Hij Ei Ej Ek.
  assert (Hk : (k < 5)%nat) by (rewrite <- L; apply nth_error_Some; congruence).
  specialize (Hc i j k Hij Hk). unfold coplanar3 in Hc. rewrite !nth_seq5 in Hc by lia. cbn [rel_rows rf1 rf2] in Hc.
  rewrite (nth_error_nth _ _ _ Ei), (nth_error_nth _ _ _ Ej), (nth_error_nth _ _ _ Ek) in Hc. exact Hc.
Qed.
(** Rows after the fifth have no influence. *)
Theorem C86_kneip_first_five : forall eig b1 b2 c1 c2 l r1 r2 s1 s2,
  length l = 5%nat -> rows_are num b1 (map fst l ++ r1) -> rows_are num b2 (map snd l ++ r2) ->
  rows_are num c1 (map fst l ++ s1) -> rows_are num c2 (map snd l ++ s2) ->
  py_fivept_kneip eig b1 b2 = py_fivept_kneip eig c1 c2.
Proof.
  intros eig b1 b2 c1 c2 l r1 r2 s1 s2 L R1 R2 S1 S2. now rewrite (kneip_call eig b1 b2 l r1 r2 L R1 R2), (kneip_call eig c1 c2 l s1 s2 L S1 S2).
Qed.
Definition k5_l : list (vec3 * vec3) := map (fun i => (k5_f1 i, k5_f2 i)) (seq 0 5).
Example C86_kneip_nonvacuous : exists eig b1 b2 outs out, length k5_l = 5%nat /\ rows_are num b1 (map fst k5_l ++ [V3 1 2 3]) /\ rows_are num b2 (map snd k5_l ++ []) /\
  rotation k5_R /\ k5_R <> mid /\ py_fivept_kneip eig b1 b2 = PyOk (Some outs) /\ In out outs /\ mat_is Some out k5_R.
Proof.
  destruct (good_eigen_exists 20) as [eig GE]. destruct k5_basis as (G & EG & Z).
  destruct (C86_kneip_recovers eig (rows (map fst k5_l ++ [V3 1 2 3])) (rows (map snd k5_l ++ [])) k5_l [V3 1 2 3] [] k5_R k5_t G)
    as (outs & out & E & I & M).
  - reflexivity.
  - apply rows_ok.
  - apply rows_ok.
  - exact k5_rot.
  - intros q I. apply in_map_iff in I as (i & <- & I). apply in_seq in I. apply k5_scene. lia.
  - change (kn_basis (fun i => fst (nth i k5_l (v0, v0))) (fun i => snd (nth i k5_l (v0, v0))) = Some G).
    unfold kn_basis in *. rewrite (init_ext _ _ k5_f1 k5_f2); [exact EG|]. intros i Hi. do 5 (destruct i as [|i]; [split; reflexivity|]). lia.
  - apply GE.
  - exact (k5_simple G EG Z).
  - exists eig, (rows (map fst k5_l ++ [V3 1 2 3])), (rows (map snd k5_l ++ [])), outs, out.
    split; [reflexivity|]. split; [apply rows_ok|]. split; [apply rows_ok|]. split; [exact k5_rot|].
    split; [intro Q; assert (H : m00 k5_R = 1) by (now rewrite Q); unfold k5_R in H; cbn in H; lra|]. auto.
Qed.
