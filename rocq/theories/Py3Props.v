(** C86: the nonlinear refinements called from Python. *)
From Coq Require Import Reals Lra List Lia Arith.
From Verif Require Import Lin GeoModel GeoProps RotModel RotProps NlModel NlProps PyModel PySpec PyProps Py2Props Py3Model.
Import ListNotations.
Local Open Scope R_scope.

(** [v] and [p] hold the bearing vectors and world points of the list of pairs
    (point, bearing vector); [p] may have further rows. *)
Definition sights (v p : parr R) (l : list (vec3 * vec3)) : Prop :=
  rows_are num v (map snd l) /\ exists extra, rows_are num p (map fst l ++ extra).
(** the camera at T sees the point in the direction of the bearing vector *)
Definition sees (T : pose) (q : vec3 * vec3) : Prop :=
  exists d, 0 < d /\ fst q = vadd (mv (pR T) (vscale d (snd q))) (pt T).
(** the viewing rays meet in one point in front of both cameras, and are not parallel *)
Definition meets (T : pose) (q : vec3 * vec3) : Prop :=
  cross (fst q) (mv (pR T) (snd q)) <> v0 /\
  exists a b, 0 < a /\ 0 < b /\ vscale a (fst q) = vadd (mv (pR T) (vscale b (snd q))) (pt T).
(** the sum of the squares of the reprojection errors 1 - cos of the angle between
    a bearing vector and the direction under which its point is seen from T *)
Definition abs_errors (T : pose) (l : list (vec3 * vec3)) : list (option R) :=
  map (fun q => match normalize (mv (mT (pR T)) (vsub (fst q) (pt T))) with
                | Some d => Some (1 - dot d (snd q)) | None => None end) l.
(** the same for both views and the point triangulated from them *)
Definition rel_errors (T : pose) (l : list (vec3 * vec3)) : list (option R) :=
  map (fun q => rel_score T (fst q) (snd q) (fst q) (snd q)) l.
(** an array of the shape of a pose and no number in it *)
Definition all_nan (a : parr (option R)) : Prop := shp a = [3%nat; 4%nat] /\ forall x, In x (dat a) -> x = None.

(** * Helpers *)
Lemma swap_firstn l : forall extra, firstn (length l) (List.combine (map fst l ++ extra) (map snd l)) = l :> list (vec3 * vec3).
Proof. induction l as [|[x y] l IH]; intro extra; [reflexivity|]. cbn. now rewrite IH. Qed.
Lemma firstn_snd l : forall extra, firstn (length l) (List.combine (map fst l) (map snd l ++ extra)) = l :> list (vec3 * vec3).
Proof. induction l as [|[x y] l IH]; intro extra; [reflexivity|]. cbn. now rewrite IH. Qed.
Lemma seq_nth_map {X Y} (g : X -> Y) (d : X) l : map (fun i => g (nth i l d)) (seq 0 (length l)) = map g l.
Proof.
  induction l as [|x l IH]; [reflexivity|]. cbn [length seq map nth]. f_equal. rewrite <- seq_shift, map_map. exact IH.
Qed.
Definition few (l : list (vec3 * vec3)) := Nat.ltb (length l) 6.
Definition read_of (l : list (vec3 * vec3)) := if few l then [] else l.
Lemma abs_call lm v p ta Ra A t l : sights v p l -> vec_is num ta t -> mat_is num Ra A ->
  py_abs_optimize lm v p ta Ra
  = PyOk (arr_of_pose (abs_optimize (if few l then Stop else lm) (abs_rows (read_of l) (Pose A t)) (seq 0 (length l)))).
Proof.
  intros (RV & extra & RP) Vt MA. unfold py_abs_optimize, refine_rows, refine_with, read_of, few. rewrite (vec_of_vec _ _ Vt). cbn [pybind].
  rewrite (rot_of_mat _ _ MA). cbn [pybind]. unfold shape0. rewrite (proj1 RV), map_length. cbn [pybind].
  destruct (Nat.ltb (length l) 6); [reflexivity|].
  rewrite (both_rows_some _ _ _ _ RP RV) by (rewrite ?app_length, ?map_length; lia).
  cbn [pybind skipn]. now rewrite swap_firstn.
Qed.
Lemma rel_call lm b1 b2 ta Ra A t l : holds b1 b2 l -> vec_is num ta t -> mat_is num Ra A ->
  py_rel_optimize lm b1 b2 ta Ra
  = PyOk (arr_of_pose (option_map fst (rel_optimize (if few l then Stop else lm) (rel_rows (read_of l) (Pose A t)) (seq 0 (length l))))).
Proof.
  intros (RV & extra & RP) Vt MA. unfold py_rel_optimize, refine_rows, refine_with, read_of, few. rewrite (vec_of_vec _ _ Vt). cbn [pybind].
  rewrite (rot_of_mat _ _ MA). cbn [pybind]. unfold shape0. rewrite (proj1 RV), map_length. cbn [pybind].
  destruct (Nat.ltb (length l) 6); [reflexivity|].
  rewrite (both_rows_some _ _ _ _ RV RP) by (rewrite ?app_length, ?map_length; lia).
  cbn [pybind skipn]. now rewrite firstn_snd.
Qed.
Lemma abs_rows_wf l T : (forall q, In q l -> unit (snd q)) -> abs_wf (abs_rows l T).
Proof.
  intros U i. cbn. split; [|apply rot_id]. destruct (nth_in_or_default i l (v0, V3 1 0 0)) as [I|E]; [now apply U|].
  rewrite E. cbn. unfold unit; lunf; lra.
Qed.
Lemma rel_rows_wf l T : (forall q, In q l -> unit (fst q) /\ unit (snd q)) -> rel_wf (rel_rows l T).
Proof.
  intros U i. cbn. destruct (nth_in_or_default i l (V3 1 0 0, V3 1 0 0)) as [I|E].
  - destruct (U _ I). repeat split; auto; apply rot_id.
  - rewrite E. cbn. repeat split; try apply rot_id; unfold unit; lunf; lra.
Qed.
Lemma nth_in_seq {X} (l : list X) q d : In q l -> exists i, In i (seq 0 (length l)) /\ nth i l d = q.
Proof. intro I. destruct (In_nth l q d I) as (i & L & E). exists i. split; auto. apply in_seq. lia. Qed.
Lemma nth_seq_in {X} (l : list X) d i : In i (seq 0 (length l)) -> In (nth i l d) l.
Proof. intro I. apply in_seq in I. apply nth_In. lia. Qed.
Lemma abs_dist T P l : absolute_distances (abs_rows l P) T (seq 0 (length l)) = abs_errors T l.
Proof.
  unfold absolute_distances, abs_errors. cbn [abs_rows ar ao ap af].
  rewrite (seq_nth_map (fun q => abs_score T mid v0 (fst q) (snd q)) (v0, V3 1 0 0) l).
  apply map_ext. intro q. unfold abs_score.
  replace (mv (mT mid) (vsub (transform (inverse_pose T) (fst q)) v0)) with (mv (mT (pR T)) (vsub (fst q) (pt T))); [reflexivity|].
  destruct T as [[] []], q as [[] ?]. unfold transform, inverse_pose. cbn [pR pt fst]. lunf. f_equal; ring.
Qed.
Lemma direct_central T : direct T mid v0 mid v0 = T.
Proof. destruct T as [[] []]. unfold direct. cbn [pR pt]. lunf. f_equal; f_equal; ring. Qed.
Lemma rel_dist T P l : fst (noncentral_distances (rel_rows l P) T (seq 0 (length l))) = rel_errors T l.
Proof.
  assert (G : forall idx Q, fst (noncentral_distances (rel_rows l Q) T idx)
     = map (fun i => let q := nth i l (V3 1 0 0, V3 1 0 0) in rel_score T (fst q) (snd q) (fst q) (snd q)) idx).
  { induction idx as [|i r IH]; intro Q; [reflexivity|]. cbn [noncentral_distances map].
    cbn [rel_rows rr1 ro1 rr2 ro2]. rewrite direct_central.
    change (set_prior _ T) with (rel_rows l T). specialize (IH T).
    destruct (noncentral_distances (rel_rows l T) T r) as [l' A'] eqn:E. cbn [fst] in *. rewrite IH. f_equal; reflexivity. }
  rewrite G. apply (seq_nth_map (fun q => rel_score T (fst q) (snd q) (fst q) (snd q))).
Qed.
Lemma nan_pose : all_nan (arr_of_pose None).
Proof. split; [reflexivity|]. intros x I. cbn in I. repeat (destruct I as [<-|I]; [reflexivity|]). destruct I. Qed.

(** * Theorems *)
(** Fewer than six correspondences: nothing is refined, the pose given comes
    back, whatever the bearing vectors and points are. *)
Theorem C86_fewer_than_six : forall lm v p ta Ra n m A t,
  shp v = n :: m -> (n < 6)%nat -> vec_is num ta t -> mat_is num Ra A -> rotation A -> ~ half_turn A ->
  (exists out, py_abs_optimize lm v p ta Ra = PyOk out /\ pose_is Some out (Pose A t))
  /\ (exists out, py_rel_optimize lm v p ta Ra = PyOk out /\ pose_is Some out (Pose A t)).
Proof.
  intros lm v p ta Ra n m A t Sh L Vt MA RA NH. unfold py_abs_optimize, py_rel_optimize, refine_rows, refine_with.
  rewrite (vec_of_vec _ _ Vt). cbn [pybind]. rewrite (rot_of_mat _ _ MA). cbn [pybind]. unfold shape0. rewrite Sh. cbn [pybind].
  apply Nat.ltb_lt in L. rewrite L. cbn [pybind].
  rewrite (C72_start (abs_rows [] (Pose A t))), (C73_start (rel_rows [] (Pose A t))) by auto.
  split; (eexists; split; [reflexivity|]); apply arr_of_pose_is.
Qed.
(** The result is a pose with a rotation, or has no number in it. *)
Theorem C86_rotation_or_nan : forall lm v p ta Ra out,
  py_abs_optimize lm v p ta Ra = PyOk out \/ py_rel_optimize lm v p ta Ra = PyOk out ->
  all_nan out \/ exists T, pose_is Some out T /\ rotation (pR T).
Proof.
  intros lm v p ta Ra out [E|E]; unfold py_abs_optimize, py_rel_optimize in E;
    (destruct (vec_of ta) as [t| |]; try discriminate); cbn [pybind] in E;
    (destruct (rot_of Ra) as [A| |]; try discriminate); cbn [pybind] in E;
    (destruct (shape0 v) as [n| |]; try discriminate); cbn [pybind] in E;
    (destruct (refine_rows _ _ n) as [l| |]; try discriminate); cbn [pybind] in E; injection E as <-.
  - destruct (abs_optimize _ _ _) as [T|] eqn:ET; [|left; apply nan_pose]. right. exists T.
    split; [apply arr_of_pose_is|]. now apply C72_rotation in ET.
  - destruct (rel_optimize _ _ _) as [[T B]|] eqn:ET; [|left; apply nan_pose]. right. exists T.
    split; [apply arr_of_pose_is|]. now apply C73_rotation in ET.
Qed.
(** From six correspondences on, the result is what the minimiser makes of the
    errors of these correspondences, started at the pose given. *)
Theorem C86_refines : forall lm v p ta Ra A t l, vec_is num ta t -> mat_is num Ra A -> rotation A -> ~ half_turn A ->
  (6 <= length l)%nat -> exists x0, pose_of x0 = Pose A t /\
  (sights v p l -> exists out, py_abs_optimize lm v p ta Ra = PyOk out
     /\ pose_is Some out (pose_of (run (fun x => abs_errors (pose_of x) l) (lm x0)))) /\
  (holds v p l -> exists out, py_rel_optimize lm v p ta Ra = PyOk out
     /\ pose_is Some out (pose_of (run (fun x => rel_errors (pose_of x) l) (lm x0)))).
Proof.
  intros lm v p ta Ra A t l Vt MA RA NH L. assert (F : few l = false) by (apply Nat.ltb_ge; exact L).
  destruct (start_exact (Pose A t) RA NH) as (x0 & E & P). exists x0. split; [exact P|]. split; intro S.
  - rewrite (abs_call lm _ _ _ _ _ _ _ S Vt MA). unfold read_of. rewrite F. unfold abs_optimize. cbn [abs_rows aprior].
    rewrite E. eexists. split; [reflexivity|].
    rewrite (run_ext _ (fun x => abs_errors (pose_of x) l)); [apply arr_of_pose_is|].
    intro x. rewrite <- (abs_dist (pose_of x) (Pose A t)). apply C72_same_as_inlier_test.
  - rewrite (rel_call lm _ _ _ _ _ _ _ S Vt MA). unfold read_of. rewrite F.
    destruct (rel_optimize_eq lm (rel_rows l (Pose A t)) (seq 0 (length l)) x0 E) as [B EB]. rewrite EB. eexists. split; [reflexivity|].
    rewrite (run_ext _ (fun x => rel_errors (pose_of x) l)); [apply arr_of_pose_is|].
    intro x. rewrite <- (rel_dist (pose_of x) (Pose A t)). unfold rel_fun. now rewrite C73_same_as_inlier_test.
Qed.
(** The total error never increases, if the minimiser is a descent method. *)
Theorem C86_abs_never_worse : forall lm v p ta Ra A t l, (forall f, descends f lm) ->
  sights v p l -> vec_is num ta t -> mat_is num Ra A -> rotation A -> ~ half_turn A ->
  exists out T, py_abs_optimize lm v p ta Ra = PyOk out /\ pose_is Some out T /\ rotation (pR T)
    /\ forall c, cost (abs_errors (Pose A t) l) = Some c -> exists c', cost (abs_errors T l) = Some c' /\ c' <= c.
Proof.
  intros lm v p ta Ra A t l D S Vt MA RA NH. rewrite (abs_call lm _ _ _ _ _ _ _ S Vt MA). unfold read_of. destruct (few l).
  - rewrite (C72_start (abs_rows [] (Pose A t))) by auto. eexists _, (Pose A t). split; [reflexivity|].
    split; [apply arr_of_pose_is|]. split; [exact RA|]. intros c H. exists c. split; [exact H|lra].
  - destruct (C72_never_worse lm (abs_rows l (Pose A t)) (seq 0 (length l)) (D _) RA NH) as (T & E & W).
    rewrite E. exists (arr_of_pose (Some T)), T. split; [reflexivity|]. split; [apply arr_of_pose_is|].
    split; [now apply C72_rotation in E|]. rewrite !abs_dist in W. exact W.
Qed.
Theorem C86_rel_never_worse : forall lm b1 b2 ta Ra A t l, (forall f, descends f lm) ->
  holds b1 b2 l -> vec_is num ta t -> mat_is num Ra A -> rotation A -> ~ half_turn A ->
  exists out T, py_rel_optimize lm b1 b2 ta Ra = PyOk out /\ pose_is Some out T /\ rotation (pR T)
    /\ forall c, cost (rel_errors (Pose A t) l) = Some c -> exists c', cost (rel_errors T l) = Some c' /\ c' <= c.
Proof.
  intros lm v p ta Ra A t l D S Vt MA RA NH. rewrite (rel_call lm _ _ _ _ _ _ _ S Vt MA). unfold read_of. destruct (few l).
  - rewrite (C73_start (rel_rows [] (Pose A t))) by auto. eexists _, (Pose A t). split; [reflexivity|].
    split; [apply arr_of_pose_is|]. split; [exact RA|]. intros c H. exists c. split; [exact H|lra].
  - destruct (C73_never_worse lm (rel_rows l (Pose A t)) (seq 0 (length l)) (D _) RA NH) as (T & B & E & W).
    rewrite E. exists (arr_of_pose (Some T)), T. split; [reflexivity|]. split; [apply arr_of_pose_is|].
    split; [now apply C73_rotation in E|]. rewrite !rel_dist in W. exact W.
Qed.
(** A pose that explains every correspondence is refined to one that does. *)
Theorem C86_abs_keeps_exact : forall lm v p ta Ra A t l, (forall f, descends f lm) ->
  sights v p l -> vec_is num ta t -> mat_is num Ra A -> rotation A -> ~ half_turn A ->
  (forall q, In q l -> unit (snd q) /\ sees (Pose A t) q) ->
  exists out T, py_abs_optimize lm v p ta Ra = PyOk out /\ pose_is Some out T /\ rotation (pR T) /\ forall q, In q l -> sees T q.
Proof.
  intros lm v p ta Ra A t l D S Vt MA RA NH Ex. rewrite (abs_call lm _ _ _ _ _ _ _ S Vt MA). unfold read_of. destruct (few l).
  - rewrite (C72_start (abs_rows [] (Pose A t))) by auto. eexists _, (Pose A t). split; [reflexivity|].
    split; [apply arr_of_pose_is|]. split; [exact RA|]. intros q I. now apply Ex.
  - destruct (C72_keeps_exact lm (abs_rows l (Pose A t)) (seq 0 (length l))) as (T & E & RT & W); auto.
    + apply abs_rows_wf. intros q I. now apply Ex.
    + intros i I. destruct (Ex _ (nth_seq_in l (v0, V3 1 0 0) i I)) as (_ & d & Hd & H). exists d. split; [exact Hd|].
      cbn [abs_rows ap ar af ao aprior]. rewrite mv_id, vadd_0_r. exact H.
    + rewrite E. exists (arr_of_pose (Some T)), T. split; [reflexivity|]. split; [apply arr_of_pose_is|]. split; [exact RT|].
      intros q I. destruct (nth_in_seq l q (v0, V3 1 0 0) I) as (i & Ii & <-). destruct (W i Ii) as (d & Hd & H).
      exists d. split; [exact Hd|]. cbn [abs_rows ap ar af ao aprior] in H. rewrite mv_id, vadd_0_r in H. exact H.
Qed.
Lemma meets_rows l T P i d : d = (V3 1 0 0, V3 1 0 0) ->
  (meets T (nth i l d) <-> rel_skew T (rel_rows l P) i /\ rel_meets T (rel_rows l P) i).
Proof.
  intros ->. unfold meets, rel_skew, rel_meets. cbn [rel_rows rr1 rr2 ro1 ro2 rf1 rf2]. rewrite !mv_id.
  split; intros (H1 & a & b & Ha & Hb & H); (split; [exact H1|]); exists a, b; (split; [exact Ha|]); (split; [exact Hb|]);
    rewrite ?mv_id, ?vadd_0_r in *; exact H.
Qed.
Theorem C86_rel_keeps_exact : forall lm b1 b2 ta Ra A t l, (forall f, descends f lm) ->
  holds b1 b2 l -> vec_is num ta t -> mat_is num Ra A -> rotation A -> ~ half_turn A ->
  (forall q, In q l -> unit (fst q) /\ unit (snd q) /\ meets (Pose A t) q) ->
  exists out T, py_rel_optimize lm b1 b2 ta Ra = PyOk out /\ pose_is Some out T /\ rotation (pR T) /\ forall q, In q l -> meets T q.
Proof.
  intros lm v p ta Ra A t l D S Vt MA RA NH Ex. rewrite (rel_call lm _ _ _ _ _ _ _ S Vt MA). unfold read_of. destruct (few l).
  - rewrite (C73_start (rel_rows [] (Pose A t))) by auto. eexists _, (Pose A t). split; [reflexivity|].
    split; [apply arr_of_pose_is|]. split; [exact RA|]. intros q I. now apply Ex.
  - destruct (C73_keeps_exact lm (rel_rows l (Pose A t)) (seq 0 (length l))) as (T & B & E & RT & W); auto.
    + apply rel_rows_wf. intros q I. destruct (Ex q I) as (? & ? & ?). auto.
    + intros i I. apply (meets_rows l _ _ i (V3 1 0 0, V3 1 0 0) eq_refl). apply Ex. now apply nth_seq_in.
    + rewrite E. exists (arr_of_pose (Some T)), T. split; [reflexivity|]. split; [apply arr_of_pose_is|]. split; [exact RT|].
      intros q I. destruct (nth_in_seq l q (V3 1 0 0, V3 1 0 0) I) as (i & Ii & <-).
      apply (meets_rows l T (Pose A t) i _ eq_refl). now apply W.
Qed.
(** Started at a half turn, even at the exact solution, the refinement returns
    an array of NaN and no error. *)
Theorem C86_half_turn_refuted : forall lm v p ta Ra A t l,
  vec_is num ta t -> mat_is num Ra A -> half_turn A ->
  (sights v p l -> exists out, py_abs_optimize lm v p ta Ra = PyOk out /\ all_nan out)
  /\ (holds v p l -> exists out, py_rel_optimize lm v p ta Ra = PyOk out /\ all_nan out).
Proof.
  intros lm v p ta Ra A t l Vt MA HA. split; intro S.
  - rewrite (abs_call lm _ _ _ _ _ _ _ S Vt MA). rewrite (proj1 C72_half_turn_refuted) by exact HA.
    eexists. split; [reflexivity|]. apply nan_pose.
  - rewrite (rel_call lm _ _ _ _ _ _ _ S Vt MA). rewrite C73_half_turn by exact HA.
    eexists. split; [reflexivity|]. apply nan_pose.
Qed.
(** The pose passed in the order R, t raises an exception. *)
Theorem C86_swapped_pose_raises : forall lm v p ta Ra A t, vec_is num ta t -> mat_is num Ra A ->
  py_abs_optimize lm v p Ra ta = PyRaise /\ py_rel_optimize lm v p Ra ta = PyRaise.
Proof.
  intros lm v p ta Ra A t Vt MA.
  assert (E1 : rot_of ta = PyRaise).
  { unfold rot_of, row_of, at_py. rewrite (proj1 Vt). reflexivity. }
  assert (E2 : exists c, vec_of Ra = PyOk c).
  { destruct MA as (Sh & F & _). unfold full in F. rewrite Sh in F. cbn in F. unfold vec_of, at_py. rewrite Sh. cbn [offset Nat.ltb Nat.leb option_map prodn fold_right].
    destruct (dat Ra) as [|x0 [|x1 [|x2 [|x3 [|x4 [|x5 [|x6 [|x7 [|x8 [|]]]]]]]]]]; try discriminate. eexists. reflexivity. }
  destruct E2 as [c E2]. unfold py_abs_optimize, py_rel_optimize. rewrite E2. cbn [pybind]. rewrite E1. split; reflexivity.
Qed.

Lemma both_short_second a b n m k0 r : shp b = m :: r -> (k0 <= m)%nat -> (m < n)%nat -> full a -> full b -> no_empty_tail 2 a -> no_empty_tail 2 b ->
  both_rows a b (n - k0) k0 = PyRaise.
Proof.
  intros Sh K M Fa Fb Na Nb. remember (m - k0)%nat as q eqn:Eq. revert k0 K Eq.
  induction q as [|q IH]; intros k0 K Eq.
  - assert (k0 = m) as -> by lia. replace (n - m)%nat with (S (n - S m)) by lia. cbn [both_rows].
    assert (E : row_of b m = PyRaise) by (unfold row_of, at_py; rewrite Sh; cbn [offset]; now rewrite Nat.ltb_irrefl).
    pose proof (row_safe a m Fa Na). destruct (row_of a m); cbn [pybind]; try congruence. now rewrite E.
  - replace (n - k0)%nat with (S (n - S k0)) by lia. cbn [both_rows].
    pose proof (row_safe a k0 Fa Na). pose proof (row_safe b k0 Fb Nb).
    destruct (row_of a k0); cbn [pybind]; try congruence. destruct (row_of b k0); cbn [pybind]; try congruence.
    rewrite IH by lia. reflexivity.
Qed.
(** From six rows on, a second array with fewer rows raises an exception. *)
Theorem C86_short_second_array_raises : forall lm b1 b2 ta Ra A t n m r r', vec_is num ta t -> mat_is num Ra A ->
  shp b1 = n :: r -> shp b2 = m :: r' -> (m < n)%nat -> (6 <= n)%nat ->
  full b1 -> full b2 -> no_empty_tail 2 b1 -> no_empty_tail 2 b2 ->
  py_abs_optimize lm b1 b2 ta Ra = PyRaise /\ py_rel_optimize lm b1 b2 ta Ra = PyRaise.
Proof.
  intros lm b1 b2 ta Ra A t n m r r' Vt MA S1 S2 M K F1 F2 N1 N2.
  pose proof (both_short_first b2 b1 n m 0 r' S2 ltac:(lia) M F2 F1 N2 N1) as B.
  pose proof (both_short_second b1 b2 n m 0 r' S2 ltac:(lia) M F1 F2 N1 N2) as B'. rewrite Nat.sub_0_r in B, B'.
  unfold py_abs_optimize, py_rel_optimize, refine_rows. rewrite (vec_of_vec _ _ Vt). cbn [pybind]. rewrite (rot_of_mat _ _ MA). cbn [pybind].
  unfold shape0. rewrite S1. cbn [pybind]. replace (Nat.ltb n 6) with false by (symmetry; apply Nat.ltb_ge; lia). rewrite B, B'. split; reflexivity.
Qed.

(** * The hypotheses are met *)
(** a descent method: tries one step and keeps the better of two points *)
Definition try_step : minimiser := fun x => Ask x (fun r0 => let y := Par (vadd (xt x) (V3 1 0 0)) (xc x) in
  Ask y (fun r1 => match cost r0, cost r1 with Some a, Some b => if Rlt_dec b a then Stop y else Stop x | _, _ => Stop x end)).
Lemma try_step_descends f : descends f try_step.
Proof.
  intros x c Hc. cbn [try_step run]. rewrite Hc.
  destruct (cost (f (Par _ _))) as [b|] eqn:E; cbn [run]; [|exists c; split; auto; lra].
  destruct (Rlt_dec b c); cbn [run]; [exists b|exists c]; split; auto; lra.
Qed.
Definition turn : mat3 := cayley2rot (V3 1 0 0).
Definition bear (i : nat) : vec3 :=
  match i with O => V3 (3/5) 0 (4/5) | S O => V3 0 (3/5) (4/5) | 2%nat => V3 (-3/5) 0 (4/5) | 3%nat => V3 0 (-3/5) (4/5)
  | 4%nat => V3 0 0 1 | _ => V3 (2/3) (1/3) (2/3) end.
Lemma bear_unit i : unit (bear i).
Proof. do 6 (destruct i as [|i]; [unfold unit, bear; lunf; field|]). unfold unit, bear; lunf; field. Qed.
Definition scene : list (vec3 * vec3) :=
  map (fun i => (vadd (mv turn (vscale 5 (bear i))) (V3 1 2 3), bear i)) (seq 0 6).
Definition vec_arr (t : vec3) : parr R := Arr [3%nat] [vx t; vy t; vz t].
Definition mat_arr (M : mat3) : parr R := Arr [3%nat; 3%nat] (List.concat (mrows M)).
Lemma vec_arr_ok t : vec_is num (vec_arr t) t.
Proof. split; [reflexivity|]. split; [reflexivity|]. intros k K. do 3 (destruct k as [|k]; [reflexivity|]). lia. Qed.
Lemma mat_arr_ok M : mat_is num (mat_arr M) M.
Proof.
  split; [reflexivity|]. split; [reflexivity|]. intros i j I J.
  do 3 (destruct i as [|i]; [do 3 (destruct j as [|j]; [reflexivity|]); lia|]). lia.
Qed.
Example C86_abs_nonvacuous : exists lm v p ta Ra A t l, (forall f, descends f lm) /\ (exists x k, lm x = Ask x k) /\
  sights v p l /\ vec_is num ta t /\ mat_is num Ra A /\ rotation A /\ ~ half_turn A /\ length l = 6%nat /\
  (forall q, In q l -> unit (snd q) /\ sees (Pose A t) q).
Proof.
  exists try_step, (rows (map snd scene)), (rows (map fst scene)), (vec_arr (V3 1 2 3)), (mat_arr turn), turn, (V3 1 2 3), scene.
  split; [apply try_step_descends|]. split; [exists (Par v0 v0); eexists; reflexivity|].
  split; [split; [apply rows_ok|exists []; rewrite app_nil_r; apply rows_ok]|].
  split; [apply vec_arr_ok|]. split; [apply mat_arr_ok|]. split; [apply C24_cayley2rot_is_rotation|].
  split; [apply (proj2 (pose_of_rotation (Par v0 (V3 1 0 0))))|]. split; [reflexivity|].
  intros q I. apply in_map_iff in I as (i & <- & _). cbn [fst snd]. split; [apply bear_unit|]. exists 5. split; [lra|reflexivity].
Qed.
(** six points seen by two cameras 14 apart *)
Definition yz6 : list (R * R) := [(0, 12); (36/5, 48/5); (-36/5, 48/5)].
Definition pairs6 : list (vec3 * vec3) :=
  map (fun w => (V3 (9/15) (fst w/15) (snd w/15), V3 (-5/13) (fst w/13) (snd w/13))) yz6
  ++ map (fun w => (V3 (5/13) (fst w/13) (snd w/13), V3 (-9/15) (fst w/15) (snd w/15))) yz6.
Example C86_rel_nonvacuous : exists lm b1 b2 ta Ra A t l, (forall f, descends f lm) /\ (exists x k, lm x = Ask x k) /\
  holds b1 b2 l /\ vec_is num ta t /\ mat_is num Ra A /\ rotation A /\ ~ half_turn A /\ length l = 6%nat /\
  (forall q, In q l -> unit (fst q) /\ unit (snd q) /\ meets (Pose A t) q).
Proof.
  exists try_step, (rows (map fst pairs6)), (rows (map snd pairs6)), (vec_arr (V3 14 0 0)), (mat_arr mid), mid, (V3 14 0 0), pairs6.
  split; [apply try_step_descends|]. split; [exists (Par v0 v0); eexists; reflexivity|].
  split; [apply holds_rows|]. split; [apply vec_arr_ok|]. split; [apply mat_arr_ok|]. split; [apply rot_id|].
  split; [intros (_ & _ & N); now apply N|]. split; [reflexivity|].
  intros q I. unfold pairs6, yz6 in I. cbn [map app fst snd] in I. unfold meets. cbn [pR pt].
  do 3 (destruct I as [<-|I]; [cbn [fst snd]; rewrite !mv_id; split; [unfold unit; lunf; field|]; split; [unfold unit; lunf; field|]; split;
    [intro H; lunf; injection H; intros; lra|exists 15, 13; split; [lra|]; split; [lra|]; lunf; f_equal; field]|]).
  do 3 (destruct I as [<-|I]; [cbn [fst snd]; rewrite !mv_id; split; [unfold unit; lunf; field|]; split; [unfold unit; lunf; field|]; split;
    [intro H; lunf; injection H; intros; lra|exists 13, 15; split; [lra|]; split; [lra|]; lunf; f_equal; field]|]).
  destruct I.
Qed.
(** an exact start at a half turn, with six correspondences, from which nothing but NaN comes back *)
Example C86_half_turn_nonvacuous : exists v p ta Ra A t l, sights v p l /\ vec_is num ta t /\ mat_is num Ra A /\ half_turn A /\
  length l = 6%nat /\ (forall q, In q l -> unit (snd q) /\ sees (Pose A t) q)
  /\ forall lm, exists out, py_abs_optimize lm v p ta Ra = PyOk out /\ all_nan out.
Proof.
  destruct C25_nonvacuous as [HT _]. set (H := diag 1 (-1) (-1)) in HT.
  set (l := map (fun i => (vadd (mv H (vscale 5 (bear i))) (V3 1 2 3), bear i)) (seq 0 6)).
  assert (SI : sights (rows (map snd l)) (rows (map fst l)) l) by (split; [apply rows_ok|exists []; rewrite app_nil_r; apply rows_ok]).
  exists (rows (map snd l)), (rows (map fst l)), (vec_arr (V3 1 2 3)), (mat_arr H), H, (V3 1 2 3), l.
  split; [exact SI|]. split; [apply vec_arr_ok|]. split; [apply mat_arr_ok|]. split; [exact HT|]. split; [reflexivity|].
  split.
  - intros q I. apply in_map_iff in I as (i & <- & _). cbn [fst snd]. split; [apply bear_unit|]. exists 5. split; [lra|reflexivity].
  - intro lm. apply (proj1 (C86_half_turn_refuted lm _ _ _ _ _ _ l (vec_arr_ok (V3 1 2 3)) (mat_arr_ok H) HT) SI).
Qed.
Example C86_fewer_than_six_nonvacuous : exists (v : parr R) n m Ra A, shp v = n :: m /\ n = 5%nat /\ mat_is num Ra A /\ rotation A /\ ~ half_turn A /\ A <> mid.
Proof.
  exists (Arr [5%nat; 2%nat] []), 5%nat, [2%nat], (mat_arr turn), turn.
  split; [reflexivity|]. split; [reflexivity|]. split; [apply mat_arr_ok|]. split; [apply C24_cayley2rot_is_rotation|].
  split; [apply (proj2 (pose_of_rotation (Par v0 (V3 1 0 0))))|].
  intro E. assert (Q : m11 turn = 1) by (now rewrite E). unfold turn, cayley2rot in Q. lunf. lra.
Qed.
