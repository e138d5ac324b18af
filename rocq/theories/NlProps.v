(** Nonlinear refinement (C72-C74): what is minimised, where it starts, what is
    returned whatever the minimiser does, and what is left in the adapter. *)
From Coq Require Import Reals List Arith Lia Lra Psatz.
From Verif Require Import SacModel Lin ArunModel ArunProps AdapterModel RotModel RotProps GeoModel GeoProps NlModel.
Import ListNotations.
Local Open Scope R_scope.

(** * Specification *)
(** Sum of squares of residuals; undefined as soon as one of them is. *)
Fixpoint cost (l : list (option R)) : option R :=
  match l with
  | [] => Some 0
  | r :: l => match r, cost l with Some a, Some b => Some (a * a + b) | _, _ => None end
  end.
(** A minimiser of f that never ends with a larger cost than it starts with. *)
Definition descends (f : params -> list (option R)) (lm : minimiser) : Prop :=
  forall x c, cost (f x) = Some c -> exists c', cost (f (run f (lm x))) = Some c' /\ c' <= c.
(** World point of correspondence i lies on its bearing vector, in front of its
    camera, when the body is at T. *)
Definition abs_sees (T : pose) (A : abs_adapter) (i : nat) : Prop :=
  exists d, 0 < d /\ ap A i = vadd (mv (pR T) (vadd (mv (ar A i) (vscale d (af A i))) (ao A i))) (pt T).
(** The two viewing rays of correspondence i meet in front of both cameras when
    T is the motion of the body; all in the first body frame. *)
Definition rel_meets (T : pose) (A : rel_adapter) (i : nat) : Prop :=
  exists a b, 0 < a /\ 0 < b
    /\ vadd (mv (rr1 A i) (vscale a (rf1 A i))) (ro1 A i)
       = vadd (mv (pR T) (vadd (mv (rr2 A i) (vscale b (rf2 A i))) (ro2 A i))) (pt T).
(** ... and their directions differ. *)
Definition rel_skew (T : pose) (A : rel_adapter) (i : nat) : Prop :=
  cross (mv (rr1 A i) (rf1 A i)) (mv (pR T) (mv (rr2 A i) (rf2 A i))) <> v0.
Definition abs_wf (A : abs_adapter) : Prop := forall i, unit (af A i) /\ rotation (ar A i).
Definition rel_wf (A : rel_adapter) : Prop :=
  forall i, unit (rf1 A i) /\ unit (rf2 A i) /\ rotation (rr1 A i) /\ rotation (rr2 A i).

(** * Parameters and poses *)
Lemma pose_of_rotation x : rotation (pR (pose_of x)) /\ ~ half_turn (pR (pose_of x)).
Proof.
  cbn. split; [apply C24_cayley2rot_is_rotation|]. intro H. apply C25_half_turn_is_singular in H.
  rewrite C25_rot_of_cayley_and_back in H. discriminate.
Qed.
Lemma start_exact T : rotation (pR T) -> ~ half_turn (pR T) -> exists x, start_of T = Some x /\ pose_of x = T.
Proof.
  intros HR NH. destruct (C25_cayley_of_rot_and_back _ HR NH) as (c & E1 & E2). unfold start_of. rewrite E1.
  eexists; split; [reflexivity|]. unfold pose_of. cbn. rewrite E2. now destruct T.
Qed.
Lemma start_inv T x : rotation (pR T) -> start_of T = Some x -> pose_of x = T.
Proof.
  intros HR E. assert (NH : ~ half_turn (pR T)).
  { intro H. unfold start_of in E. rewrite (C25_half_turn_is_singular _ H) in E. discriminate. }
  destruct (start_exact T HR NH) as (y & E' & P). rewrite E' in E. injection E as <-. exact P.
Qed.
Lemma start_half_turn T : half_turn (pR T) -> start_of T = None.
Proof. intro H. unfold start_of. now rewrite (C25_half_turn_is_singular _ H). Qed.

Lemma cost_nonneg l c : cost l = Some c -> 0 <= c.
Proof.
  revert c; induction l as [|r l IH]; intros c; cbn.
  - intro E; injection E as <-; lra.
  - destruct r as [a|]; [|discriminate]. destruct (cost l) as [b|]; [|discriminate]. intro E; injection E as <-.
    specialize (IH b eq_refl). nra.
Qed.
Lemma cost_zero l : cost l = Some 0 <-> forall r, In r l -> r = Some 0.
Proof.
  induction l as [|r l IH]; cbn; [split; [tauto|auto]|]. split.
  - destruct r as [a|]; [|discriminate]. destruct (cost l) as [b|] eqn:E; [|discriminate]. intro H. injection H as H.
    pose proof (cost_nonneg l b E). assert (b = 0) by nra. assert (a = 0) by nra. subst.
    intros r [<-|Hr]; auto. now apply IH.
  - intros H. rewrite (H r) by auto. destruct (cost l) as [b|].
    + assert (E : Some b = Some 0) by (apply IH; auto). injection E as ->. f_equal. ring.
    + assert (E : None = Some 0) by (apply IH; auto). discriminate.
Qed.

(** * C72: absolute pose *)
Lemma abs_residual_eq A x i : abs_residual A x i = abs_score (pose_of x) (ar A i) (ao A i) (ap A i) (af A i).
Proof.
  unfold abs_residual, abs_score, transform, inverse_pose, pose_of. cbn [pR pt].
  destruct (normalize _); cbn [obindO]; auto. f_equal. ring.
Qed.
(** What is minimised is the score of the inlier test. *)
Theorem C72_same_as_inlier_test : forall A idx x,
  abs_residuals A idx x = absolute_distances A (pose_of x) idx.
Proof. intros. unfold abs_residuals, absolute_distances. apply map_ext. intro. apply abs_residual_eq. Qed.

Lemma seen_scale T camR camt p f k : rotation (pR T) -> rotation camR ->
  (seen_at T camR camt p = vscale k f <-> p = vadd (mv (pR T) (vadd (mv camR (vscale k f)) camt)) (pt T)).
Proof.
  intros HT HC. unfold seen_at. split.
  - intro E. rewrite <- E, rot_mv_T, vsub_add, rot_mv_T, vsub_add; auto.
  - intros ->. rewrite vadd_sub, rot_T_mv, vadd_sub, rot_T_mv; auto.
Qed.
Theorem C72_residual : forall A x i, unit (af A i) -> rotation (ar A i) ->
  match abs_residual A x i with
  | None => ap A i = vadd (mv (pR (pose_of x)) (ao A i)) (pt (pose_of x))
  | Some r => 0 <= r <= 2 /\ (r = 0 <-> abs_sees (pose_of x) A i)
  end.
Proof.
  intros A x i U HC. rewrite abs_residual_eq. destruct (pose_of_rotation x) as [HT _].
  pose proof (C21_range_and_zero (pose_of x) (ar A i) (ao A i) (ap A i) (af A i) U) as C.
  destruct (abs_score _ _ _ _ _) as [r|].
  - destruct C as (C1 & C2 & _). split; auto. rewrite C2. unfold abs_sees.
    split; intros (k & Hk & E); exists k; split; auto; apply (seen_scale _ _ _ _ _ _ HT HC); auto.
  - assert (E : seen_at (pose_of x) (ar A i) (ao A i) (ap A i) = vscale 0 (af A i)) by (rewrite C, vscale_0; auto).
    apply (seen_scale _ _ _ _ _ _ HT HC) in E. rewrite E, vscale_0, mv_0, vadd_0_l. auto.
Qed.

(** The result is a rotation and a translation, whatever the minimiser does. *)
Theorem C72_rotation : forall lm A idx T, abs_optimize lm A idx = Some T -> rotation (pR T) /\ ~ half_turn (pR T).
Proof.
  intros lm A idx T. unfold abs_optimize. destruct (start_of _); [|discriminate].
  intro E. injection E as <-. apply pose_of_rotation.
Qed.
(** It starts exactly at the pose of the adapter. *)
Theorem C72_start : forall A idx, rotation (pR (aprior A)) -> ~ half_turn (pR (aprior A)) ->
  abs_optimize Stop A idx = Some (aprior A).
Proof.
  intros A idx HR NH. destruct (start_exact _ HR NH) as (x & E & P). unfold abs_optimize. rewrite E. cbn [run]. now rewrite P.
Qed.
Theorem C72_never_worse : forall lm A idx, descends (abs_residuals A idx) lm ->
  rotation (pR (aprior A)) -> ~ half_turn (pR (aprior A)) ->
  exists T, abs_optimize lm A idx = Some T
    /\ forall c, cost (absolute_distances A (aprior A) idx) = Some c ->
         exists c', cost (absolute_distances A T idx) = Some c' /\ c' <= c.
Proof.
  intros lm A idx D HR NH. destruct (start_exact _ HR NH) as (x & E & P). unfold abs_optimize. rewrite E.
  eexists; split; [reflexivity|]. intros c Hc. rewrite <- P, <- C72_same_as_inlier_test in Hc.
  rewrite <- C72_same_as_inlier_test. apply D; auto.
Qed.
(** Started at a pose that explains the observations, it ends at one. *)
Theorem C72_keeps_exact : forall lm A idx, abs_wf A -> descends (abs_residuals A idx) lm ->
  rotation (pR (aprior A)) -> ~ half_turn (pR (aprior A)) ->
  (forall i, In i idx -> abs_sees (aprior A) A i) ->
  exists T, abs_optimize lm A idx = Some T /\ rotation (pR T) /\ forall i, In i idx -> abs_sees T A i.
Proof.
  intros lm A idx W D HR NH S. destruct (start_exact _ HR NH) as (x & E & P).
  set (y := run (abs_residuals A idx) (lm x)).
  exists (pose_of y). unfold abs_optimize. rewrite E. split; [reflexivity|]. split; [apply pose_of_rotation|].
  assert (C0 : cost (abs_residuals A idx x) = Some 0).
  { apply cost_zero. intros r Hr. apply in_map_iff in Hr. destruct Hr as (i & <- & Hi).
    destruct (W i) as [U HC]. rewrite abs_residual_eq, P. destruct (S i Hi) as (d & Hd & Ep).
    apply C21_noise_free with (d := d); auto. }
  destruct (D x 0 C0) as (c' & Hc & Le). pose proof (cost_nonneg _ _ Hc). replace c' with 0 in Hc by lra. fold y in Hc.
  intros i Hi. destruct (W i) as [U HC]. pose proof (C72_residual A y i U HC) as K.
  assert (Z : abs_residual A y i = Some 0).
  { apply (proj1 (cost_zero _) Hc). apply in_map_iff. eauto. }
  rewrite Z in K. now apply K.
Qed.
(** A half turn cannot be refined: the result is NaN even though the starting
    pose explains the observations. *)
Theorem C72_half_turn_refuted :
  (forall lm A idx, half_turn (pR (aprior A)) -> abs_optimize lm A idx = None)
  /\ exists A idx, abs_wf A /\ (length idx >= 6)%nat /\ rotation (pR (aprior A))
       /\ (forall i, In i idx -> abs_sees (aprior A) A i) /\ forall lm, abs_optimize lm A idx = None.
Proof.
  assert (G : forall lm A idx, half_turn (pR (aprior A)) -> abs_optimize lm A idx = None).
  { intros lm A idx H. unfold abs_optimize. now rewrite start_half_turn. }
  split; auto. destruct C25_nonvacuous as [HT _].
  set (f := fun i : nat => match i with O => V3 (3/5) 0 (4/5) | S O => V3 0 (3/5) (4/5) | S (S O) => V3 (-3/5) 0 (4/5)
    | S (S (S O)) => V3 0 (-3/5) (4/5) | S (S (S (S O))) => V3 0 0 1 | _ => V3 (4/5) 0 (3/5) end).
  exists (AbsAdapter f (fun i => mv (diag 1 (-1) (-1)) (vscale 5 (f i))) (fun _ => v0) (fun _ => mid) (Pose (diag 1 (-1) (-1)) v0)), (seq 0 6).
  split.
  { intro i. cbn [af ar]. split; [|apply rot_id]. unfold f. destruct i as [|[|[|[|[|i]]]]]; unfold unit; lunf; lra. }
  split; [cbn; lia|]. split; [apply HT|]. split; [|auto].
  intros i _. exists 5. split; [lra|]. cbn [ap af ar ao aprior pR pt]. now rewrite mv_id, !vadd_0_r.
Qed.
(** The refinement of a consensus model starts at the model; the prior the user
    stored plays no role and is lost. *)
Theorem C72_model : forall lm A P inliers model,
  fst (abs_optimize_model lm (set_abs_prior A P) inliers model) = fst (abs_optimize_model lm A inliers model)
  /\ (rotation (pR model) -> ~ half_turn (pR model) -> fst (abs_optimize_model Stop A inliers model) = Some model)
  /\ aprior (snd (abs_optimize_model lm A inliers model)) = model.
Proof.
  intros. repeat split. intros HR NH. apply (C72_start (set_abs_prior A model) inliers HR NH).
Qed.
Theorem C72_prior_preserved_refuted : exists lm A inliers model,
  fst (abs_optimize_model lm A inliers model) <> None /\ aprior (snd (abs_optimize_model lm A inliers model)) <> aprior A.
Proof.
  exists Stop, (AbsAdapter (fun _ => v0) (fun _ => v0) (fun _ => v0) (fun _ => mid) (Pose mid (V3 1 0 0))), [], (Pose mid v0).
  split.
  - destruct (C72_model Stop (AbsAdapter (fun _ => v0) (fun _ => v0) (fun _ => v0) (fun _ => mid) (Pose mid (V3 1 0 0))) (Pose mid v0) [] (Pose mid v0))
      as (_ & H & _). rewrite H; [discriminate|apply rot_id|]. intros (_ & _ & N). now apply N.
  - cbn. intro E. injection E. lra.
Qed.

(** * C73: relative pose *)
Lemma rel_step_eq A x i :
  let D := direct (pose_of x) (rr1 A i) (ro1 A i) (rr2 A i) (ro2 A i) in
  rel_step A x i = (rel_score D (rf1 A i) (rf2 A i) (rf1 A i) (rf2 A i), set_prior A D).
Proof.
  unfold rel_step, direct, pose_of. cbn [pR pt]. f_equal.
  unfold adapter_triangulate2, rel_score, transform, inverse_pose. cbn [set_prior rprior rf1 rf2 pR pt].
  destruct (triangulate2 _ _ _ _) as [X|]; cbn [obindO]; auto.
  destruct (normalize X); cbn [obindO]; auto.
  destruct (normalize _); cbn [obindO]; auto. f_equal. ring.
Qed.
(** Residuals, and the adapter afterwards, are those of the inlier test of the
    non-central problem. *)
Theorem C73_same_as_inlier_test : forall A idx x,
  rel_residuals A idx x = noncentral_distances A (pose_of x) idx.
Proof.
  intros A idx x. revert A; induction idx as [|i r IH]; intro A; auto.
  cbn [rel_residuals noncentral_distances]. rewrite rel_step_eq, IH.
  rewrite <- (score_step_eq A). reflexivity.
Qed.
Lemma rel_residuals_fst A idx x : fst (rel_residuals A idx x)
  = map (fun i => rel_score (direct (pose_of x) (rr1 A i) (ro1 A i) (rr2 A i) (ro2 A i)) (rf1 A i) (rf2 A i) (rf1 A i) (rf2 A i)) idx.
Proof. rewrite C73_same_as_inlier_test. apply C53_independent_of_adapter_pose. Qed.
Lemma rel_residuals_prior A P idx x : fst (rel_residuals (set_prior A P) idx x) = fst (rel_residuals A idx x).
Proof. now rewrite !rel_residuals_fst. Qed.
Lemma rel_residuals_snd A idx x : exists P, snd (rel_residuals A idx x) = set_prior A P.
Proof.
  revert A; induction idx as [|i r IH]; intro A; cbn [rel_residuals].
  - exists (rprior A). now destruct A.
  - rewrite rel_step_eq. destruct (IH (set_prior A (direct (pose_of x) (rr1 A i) (ro1 A i) (rr2 A i) (ro2 A i)))) as [P E].
    destruct (rel_residuals _ r x) as [l B]. cbn [snd] in *. subst B. exists P. reflexivity.
Qed.

Lemma direct_rot T R1 o1 R2 o2 : rotation (pR T) -> rotation R1 -> rotation R2 -> rotation (pR (direct T R1 o1 R2 o2)).
Proof. intros. cbn. apply rot_mmul; auto. apply rot_mmul; auto. now apply rot_T. Qed.
Lemma direct_meets T A i : rotation (pR T) -> rotation (rr1 A i) -> rotation (rr2 A i) ->
  let D := direct T (rr1 A i) (ro1 A i) (rr2 A i) (ro2 A i) in
  (rel_meets T A i <-> exists a b, 0 < a /\ 0 < b /\ vscale a (rf1 A i) = vadd (pt D) (vscale b (mv (pR D) (rf2 A i))))
  /\ (rel_skew T A i <-> ~ parallel (rf1 A i) (mv (pR D) (rf2 A i))).
Proof.
  intros HT H1 H2 D.
  assert (K : forall b, vadd (pt D) (vscale b (mv (pR D) (rf2 A i)))
     = mv (mT (rr1 A i)) (vsub (vadd (mv (pR T) (vadd (mv (rr2 A i) (vscale b (rf2 A i))) (ro2 A i))) (pt T)) (ro1 A i))).
  { intro b. rewrite <- mv_scale, vadd_comm. exact (C52_direct_motion T (rr1 A i) (ro1 A i) (rr2 A i) (ro2 A i) (vscale b (rf2 A i))). }
  split.
  - unfold rel_meets. split; intros (a & b & Ha & Hb & E); exists a, b; repeat split; auto.
    + rewrite K, <- E, vadd_sub, rot_T_mv by auto. reflexivity.
    + rewrite K in E. rewrite E, rot_mv_T, vsub_add by auto. reflexivity.
  - unfold rel_skew, parallel. apply not_iff_compat. cbn [D direct pR]. rewrite !mv_mmul.
    rewrite <- (rot_mv_T (rr1 A i) (mv (pR T) (mv (rr2 A i) (rf2 A i)))) at 1 by auto.
    rewrite <- rot_cross by auto. split.
    + intro E. rewrite <- (rot_T_mv (rr1 A i) (cross _ _)) by auto. rewrite E. apply mv_0.
    + intros ->. apply mv_0.
Qed.
(** A residual is defined unless the rays are parallel or their triangulated
    point falls on a camera centre; it lies in [0,4] and vanishes exactly if the
    rays meet in front of both cameras. *)
Theorem C73_residual : forall A x i, rel_wf A ->
  let r := fst (rel_step A x i) in
  (rel_skew (pose_of x) A i -> (r = Some 0 <-> rel_meets (pose_of x) A i))
  /\ (~ rel_skew (pose_of x) A i -> r = None)
  /\ (forall s, r = Some s -> 0 <= s <= 4).
Proof.
  intros A x i W. destruct (W i) as (U1 & U2 & H1 & H2). destruct (pose_of_rotation x) as [HT _].
  cbn zeta. rewrite rel_step_eq. cbn [fst].
  destruct (direct_meets (pose_of x) A i HT H1 H2) as [M S]. split; [intro Sk; split|split].
  - intro E. apply M. apply C53_zero_iff_rays_meet; auto; [now apply direct_rot|now apply S].
  - intro E. apply C53_zero_iff_rays_meet; auto; [now apply direct_rot|now apply S|now apply M].
  - intro N. unfold rel_score. rewrite (proj2 (C37_failure_iff_parallel _ _ _ _)); auto.
    destruct (Req_EM_T (norm2 (cross (rf1 A i) (mv (pR (direct (pose_of x) (rr1 A i) (ro1 A i) (rr2 A i) (ro2 A i))) (rf2 A i)))) 0) as [Z|Z].
    + now apply norm2_zero.
    + exfalso. apply N, S. intro E. apply Z. unfold parallel in E. rewrite E. lring.
  - intros s Hs. exact (C53_range _ _ _ _ U1 U2 Hs).
Qed.

(** The residual function as the minimiser sees it. *)
Definition rel_fun (A : rel_adapter) (idx : list nat) : params -> list (option R) := fun x => fst (rel_residuals A idx x).
(** The last parameters at which the functor was evaluated. *)
Fixpoint last_asked (f : params -> list (option R)) (s : strategy) (d : option params) : option params :=
  match s with
  | Stop _ => d
  | Ask x k => last_asked f (k (f x)) (Some x)
  end.

Lemma run_ext f g s : (forall x, f x = g x) -> run f s = run g s.
Proof. intro E. induction s as [x|x k IH]; cbn; auto. rewrite E. apply IH. Qed.
Lemma last_asked_ext f g s d : (forall x, f x = g x) -> last_asked f s d = last_asked g s d.
Proof. intro E. revert d; induction s as [x|x k IH]; cbn; auto. intro. rewrite E. apply IH. Qed.
Lemma rel_run_fst idx s A : fst (rel_run idx s A) = run (rel_fun A idx) s.
Proof.
  revert A; induction s as [x|x k IH]; intro A; cbn; auto.
  destruct (rel_residuals A idx x) as [l B] eqn:E. cbn. rewrite IH.
  assert (El : l = rel_fun A idx x) by (unfold rel_fun; now rewrite E). rewrite El.
  apply run_ext. intro y. destruct (rel_residuals_snd A idx x) as [P EP]. rewrite E in EP. cbn in EP. subst B.
  apply rel_residuals_prior.
Qed.
Lemma rel_residuals_left A idx i x : snd (rel_residuals A (idx ++ [i]) x)
  = set_prior A (direct (pose_of x) (rr1 A i) (ro1 A i) (rr2 A i) (ro2 A i)).
Proof.
  revert A; induction idx as [|j r IH]; intro A; cbn [app rel_residuals]; rewrite rel_step_eq; [reflexivity|].
  specialize (IH (set_prior A (direct (pose_of x) (rr1 A j) (ro1 A j) (rr2 A j) (ro2 A j)))).
  destruct (rel_residuals _ (r ++ [i]) x) as [l B]. cbn [snd] in *. rewrite IH. reflexivity.
Qed.
Lemma rel_run_snd idx i s A d : rel_run (idx ++ [i]) s (match d with None => A | Some x => set_prior A (direct (pose_of x) (rr1 A i) (ro1 A i) (rr2 A i) (ro2 A i)) end)
  = (run (rel_fun A (idx ++ [i])) s,
     match last_asked (rel_fun A (idx ++ [i])) s d with
     | None => A
     | Some x => set_prior A (direct (pose_of x) (rr1 A i) (ro1 A i) (rr2 A i) (ro2 A i))
     end).
Proof.
  revert d; induction s as [x|x k IH]; intro d; cbn [rel_run run last_asked]; auto.
  set (B := match d with None => A | Some _ => _ end).
  assert (HB : exists P, B = set_prior A P) by (unfold B; destruct d; eexists; [reflexivity|instantiate (1 := rprior A); now destruct A]).
  destruct HB as [P HB]. clearbody B. subst B.
  destruct (rel_residuals (set_prior A P) (idx ++ [i]) x) as [l C] eqn:E.
  assert (El : l = rel_fun A (idx ++ [i]) x).
  { unfold rel_fun. rewrite <- (rel_residuals_prior A P). now rewrite E. }
  pose proof (rel_residuals_left (set_prior A P) idx i x) as EC. rewrite E in EC. cbn [snd] in EC. subst C l.
  exact (IH (rel_fun A (idx ++ [i]) x) (Some x)).
Qed.

(** What the refinement does with an adapter: it starts at its pose, minimises a
    function that does not depend on that pose, and leaves in it the motion
    between the two cameras of the last correspondence for the parameters tried
    last. *)
Theorem C73_run : forall lm A idx i x, start_of (rprior A) = Some x ->
  let f := rel_fun A (idx ++ [i]) in
  (forall P y, rel_fun (set_prior A P) (idx ++ [i]) y = f y)
  /\ rel_optimize lm A (idx ++ [i])
     = Some (pose_of (run f (lm x)),
             match last_asked f (lm x) None with
             | None => A
             | Some y => set_prior A (direct (pose_of y) (rr1 A i) (ro1 A i) (rr2 A i) (ro2 A i))
             end).
Proof.
  intros lm A idx i x E f. split; [intros P y; apply rel_residuals_prior|]. unfold rel_optimize. rewrite E.
  pose proof (rel_run_snd idx i (lm x) A None) as H. cbn in H. rewrite H. reflexivity.
Qed.

Theorem C73_rotation : forall lm A idx T B, rel_optimize lm A idx = Some (T, B) -> rotation (pR T) /\ ~ half_turn (pR T).
Proof.
  intros lm A idx T B. unfold rel_optimize. destruct (start_of _); [|discriminate]. destruct (rel_run _ _ _) as [y C].
  intro E. injection E as <- _. apply pose_of_rotation.
Qed.
Theorem C73_start : forall A idx, rotation (pR (rprior A)) -> ~ half_turn (pR (rprior A)) ->
  rel_optimize Stop A idx = Some (rprior A, A).
Proof.
  intros A idx HR NH. destruct (start_exact _ HR NH) as (x & E & P). unfold rel_optimize. rewrite E. cbn. now rewrite P.
Qed.
Lemma rel_optimize_eq lm A idx x : start_of (rprior A) = Some x ->
  exists B, rel_optimize lm A idx = Some (pose_of (run (rel_fun A idx) (lm x)), B).
Proof.
  intro E. unfold rel_optimize. rewrite E. pose proof (rel_run_fst idx (lm x) A) as F.
  destruct (rel_run idx (lm x) A) as [y B]. cbn in F. subst y. eauto.
Qed.
Theorem C73_never_worse : forall lm A idx, descends (rel_fun A idx) lm ->
  rotation (pR (rprior A)) -> ~ half_turn (pR (rprior A)) ->
  exists T B, rel_optimize lm A idx = Some (T, B)
    /\ forall c, cost (fst (noncentral_distances A (rprior A) idx)) = Some c ->
         exists c', cost (fst (noncentral_distances A T idx)) = Some c' /\ c' <= c.
Proof.
  intros lm A idx D HR NH. destruct (start_exact _ HR NH) as (x & E & P).
  destruct (rel_optimize_eq lm A idx x E) as [B EB]. eexists _, B. split; [exact EB|].
  intros c Hc. rewrite <- P, <- C73_same_as_inlier_test in Hc. rewrite <- C73_same_as_inlier_test. apply D; auto.
Qed.
Theorem C73_keeps_exact : forall lm A idx, rel_wf A -> descends (rel_fun A idx) lm ->
  rotation (pR (rprior A)) -> ~ half_turn (pR (rprior A)) ->
  (forall i, In i idx -> rel_skew (rprior A) A i /\ rel_meets (rprior A) A i) ->
  exists T B, rel_optimize lm A idx = Some (T, B) /\ rotation (pR T)
    /\ forall i, In i idx -> rel_skew T A i /\ rel_meets T A i.
Proof.
  intros lm A idx W D HR NH S. destruct (start_exact _ HR NH) as (x & E & P).
  destruct (rel_optimize_eq lm A idx x E) as [B EB]. eexists _, B. split; [exact EB|]. split; [apply pose_of_rotation|].
  set (y := run (rel_fun A idx) (lm x)) in *.
  assert (F : forall z, rel_fun A idx z = map (fun i => fst (rel_step A z i)) idx).
  { intro z. unfold rel_fun. rewrite rel_residuals_fst. apply map_ext. intro i. now rewrite rel_step_eq. }
  assert (C0 : cost (rel_fun A idx x) = Some 0).
  { apply cost_zero. intros r Hr. rewrite F in Hr. apply in_map_iff in Hr. destruct Hr as (i & <- & Hi).
    destruct (S i Hi) as [S1 S2]. rewrite <- P in S1, S2. now apply C73_residual. }
  destruct (D x 0 C0) as (c' & Hc & Le). pose proof (cost_nonneg _ _ Hc). replace c' with 0 in Hc by lra. fold y in Hc.
  intros i Hi. assert (Z : fst (rel_step A y i) = Some 0).
  { apply (proj1 (cost_zero _) Hc). rewrite F. apply in_map_iff. eauto. }
  destruct (C73_residual A y i W) as (K1 & K2 & _).
  assert (Sk : rel_skew (pose_of y) A i).
  { intro N. rewrite K2 in Z; [discriminate|]. unfold rel_skew. tauto. }
  split; auto. now apply K1.
Qed.
Theorem C73_half_turn : forall lm A idx, half_turn (pR (rprior A)) -> rel_optimize lm A idx = None.
Proof. intros lm A idx H. unfold rel_optimize. now rewrite start_half_turn. Qed.

(** The adapter is an in/out argument: after a refinement that changed nothing
    (the start was optimal and was returned) the stored pose is another one, and
    the same call made again starts, and ends, elsewhere. *)
Definition rel_example : rel_adapter :=
  RelAdapter (fun _ => V3 (3/5) 0 (4/5)) (fun _ => V3 (-3/5) 0 (4/5)) (fun _ => V3 1 0 0) (fun _ => V3 0 0 0)
    (fun _ => mid) (fun _ => mid) (Pose mid (V3 7 0 0)).
Lemma start_mid t : start_of (Pose mid t) = Some (Par t (V3 0 0 0)).
Proof.
  unfold start_of. cbn [pR pt]. replace mid with (cayley2rot (V3 0 0 0)) at 1; [now rewrite C25_rot_of_cayley_and_back|].
  unfold cayley2rot, cayley2rot_reduced, mid. lunf. f_equal; field.
Qed.
Lemma pose_mid t : pose_of (Par t (V3 0 0 0)) = Pose mid t.
Proof. unfold pose_of. cbn [xc xt]. f_equal. unfold cayley2rot, cayley2rot_reduced, mid. lunf. f_equal; field. Qed.
Theorem C73_prior_preserved_refuted : exists lm A idx B,
  rel_wf A /\ descends (rel_fun A idx) lm
  /\ (forall i, In i idx -> rel_skew (rprior A) A i /\ rel_meets (rprior A) A i)
  /\ rel_optimize lm A idx = Some (rprior A, B)
  /\ rprior B <> rprior A
  /\ (exists T C, rel_optimize lm B idx = Some (T, C) /\ T <> rprior A).
Proof.
  set (lm := fun x => Ask x (fun _ => Stop x)).
  assert (R1 : forall t, rel_optimize lm (set_prior rel_example (Pose mid t)) ([] ++ [0%nat])
     = Some (Pose mid t, set_prior rel_example (Pose mid (vsub t (V3 1 0 0))))).
  { intro t. destruct (C73_run lm (set_prior rel_example (Pose mid t)) [] 0%nat (Par t (V3 0 0 0)) (start_mid t)) as [_ ->].
    cbn [lm run last_asked]. rewrite pose_mid. f_equal. f_equal. cbn. unfold direct, set_prior. cbn. f_equal. f_equal.
    - unfold mid. lunf. f_equal; ring.
    - destruct t as [a b c]. unfold mid. lunf. f_equal; ring. }
  exists lm, rel_example, [0%nat], (set_prior rel_example (Pose mid (vsub (V3 7 0 0) (V3 1 0 0)))).
  split; [|split; [|split; [|split; [|split]]]].
  - intro i. cbn. repeat split; try (unfold unit; lunf; lra); try apply orth_id; try apply det_mid.
  - intros x c Hc. exists c. split; [exact Hc|lra].
  - intros i _. unfold rel_skew, rel_meets. cbn [rel_example rr1 rr2 rf1 rf2 ro1 ro2 rprior pR pt]. rewrite !mv_id. split.
    + lunf. intro H. injection H. intros. lra.
    + exists 5, 5. rewrite !mv_id. repeat split; try lra. lunf. f_equal; lra.
  - exact (R1 (V3 7 0 0)).
  - cbn. intro H. injection H. intros. lra.
  - eexists _, _. split; [exact (R1 (vsub (V3 7 0 0) (V3 1 0 0)))|]. cbn. intro H. injection H. intros. lra.
Qed.
(** Refining a consensus model does not depend on the stored pose. *)
Theorem C73_model : forall lm A P inliers model,
  rel_optimize_model lm (set_prior A P) inliers model = rel_optimize_model lm A inliers model
  /\ (rotation (pR model) -> ~ half_turn (pR model) ->
      rel_optimize_model Stop A inliers model = Some (model, set_prior A model)).
Proof. intros. split; [reflexivity|]. intros HR NH. apply (C73_start (set_prior A model)); auto. Qed.

(** * C74: point clouds *)
Lemma pc_cost A idx x : cost (pc_residuals A idx x) = Some (rigid_error (pR (pose_of x), pt (pose_of x)) (pc_pairs A idx)).
Proof.
  unfold rigid_error, pc_pairs. induction idx as [|i r IH]; cbn; auto. unfold pc_residuals in IH. rewrite IH.
  f_equal. unfold pc_residual. rewrite norm_sq. reflexivity.
Qed.
(** What is minimised is the sum of squared distances after the alignment. *)
Theorem C74_cost : forall A idx x,
  cost (pc_residuals A idx x)
  = Some (rsum (map (fun i => norm2 (vsub (pp1 A i) (vadd (mv (pR (pose_of x)) (pp2 A i)) (pt (pose_of x))))) idx)).
Proof. intros. rewrite pc_cost. unfold rigid_error, pc_pairs. rewrite map_map. reflexivity. Qed.
Theorem C74_rotation : forall lm A idx T, pc_optimize lm A idx = Some T -> rotation (pR T) /\ ~ half_turn (pR T).
Proof.
  intros lm A idx T. unfold pc_optimize. destruct (start_of _); [|discriminate].
  intro E. injection E as <-. apply pose_of_rotation.
Qed.
Theorem C74_never_worse : forall lm A idx, descends (pc_residuals A idx) lm ->
  rotation (pR (pprior A)) -> ~ half_turn (pR (pprior A)) ->
  exists T, pc_optimize lm A idx = Some T
    /\ rigid_error (pR T, pt T) (pc_pairs A idx) <= rigid_error (pR (pprior A), pt (pprior A)) (pc_pairs A idx).
Proof.
  intros lm A idx D HR NH. destruct (start_exact _ HR NH) as (x & E & P). unfold pc_optimize. rewrite E.
  eexists; split; [reflexivity|]. destruct (D x _ (pc_cost A idx x)) as (c' & Hc & Le). rewrite pc_cost in Hc.
  injection Hc as Hc. rewrite <- Hc in Le. now rewrite P in Le.
Qed.
(** No refinement improves on the closed-form alignment. *)
Theorem C74_closed_form_is_optimal : forall svd lm A idx T, (forall H, is_svd H (svd H)) -> idx <> [] ->
  pc_optimize lm A idx = Some T ->
  rigid_error (threept_arun svd (pc_pairs A idx)) (pc_pairs A idx) <= rigid_error (pR T, pt T) (pc_pairs A idx).
Proof.
  intros svd lm A idx T S N E. apply C29_rigid_alignment_is_optimal; auto.
  - destruct idx; [congruence|discriminate].
  - apply (C74_rotation lm A idx T E).
Qed.
Theorem C74_half_turn : forall lm A idx, half_turn (pR (pprior A)) -> pc_optimize lm A idx = None.
Proof. intros lm A idx H. unfold pc_optimize. now rewrite start_half_turn. Qed.
(** The refinement of a consensus model replaces it by the closed form: at least
    as good on the inliers, and exact on exact data. *)
Theorem C74_model : forall svd A inliers model, (forall H, is_svd H (svd H)) -> inliers <> [] -> rotation (pR model) ->
  let T := pc_optimize_model svd A inliers model in
  rotation (pR T)
  /\ rigid_error (pR T, pt T) (pc_pairs A inliers) <= rigid_error (pR model, pt model) (pc_pairs A inliers)
  /\ ((forall i, In i inliers -> cloud_score model (pp1 A i) (pp2 A i) = 0) ->
      forall i, In i inliers -> cloud_score T (pp1 A i) (pp2 A i) = 0).
Proof.
  intros svd A inliers model S N HR T.
  assert (Np : pc_pairs A inliers <> []) by (destruct inliers; [congruence|discriminate]).
  assert (ET : threept_arun svd (pc_pairs A inliers) = (pR T, pt T)).
  { unfold T, pc_optimize_model. cbn [pR pt]. now destruct (threept_arun _ _). }
  pose proof (C29_rigid_alignment_is_optimal svd (pc_pairs A inliers) Np S (pR model) (pt model) HR) as O.
  change (arun_complete svd (pc_pairs A inliers)) with (threept_arun svd (pc_pairs A inliers)) in O. rewrite ET in O.
  split; [apply C28_arun_is_rotation, S|]. split; auto.
  assert (Z : forall M i, cloud_score M (pp1 A i) (pp2 A i) = 0 <-> pp1 A i = vadd (mv (pR M) (pp2 A i)) (pt M)).
  { intros M i. unfold cloud_score, transform. split; intro E.
    - assert (E2 : norm2 (vsub (pp1 A i) (vadd (mv (pR M) (pp2 A i)) (pt M))) = 0) by (rewrite <- norm_sq, E; ring).
      apply norm2_zero in E2. rewrite <- (vsub_add (pp1 A i) (vadd (mv (pR M) (pp2 A i)) (pt M))), E2. apply vadd_0_l.
    - rewrite <- E, vsub_self. unfold norm. rewrite <- sqrt_0. f_equal. lunf. ring. }
  intros Ex i Hi. apply Z.
  destruct (C30_exact_alignment svd (pc_pairs A inliers) (pR model) (pt model) S Np HR) as [_ K].
  - intros p Hp. apply in_map_iff in Hp. destruct Hp as (j & <- & Hj). cbn [fst snd]. apply Z. auto.
  - rewrite ET in K. apply (K (pp1 A i, pp2 A i)). apply in_map_iff. eauto.
Qed.
Theorem C74_rotation_model : forall svd A inliers model M, (forall H, is_svd H (svd H)) ->
  rotation (rot_optimize_model svd A inliers model)
  /\ (rotation M -> (forall i, In i inliers -> unit (rf2 A i) /\ rf1 A i = mv M (rf2 A i)) ->
      (exists i j k, In i inliers /\ In j inliers /\ In k inliers
         /\ rf2 A i <> rf2 A j /\ rf2 A i <> rf2 A k /\ rf2 A j <> rf2 A k) ->
      rot_optimize_model svd A inliers model = M).
Proof.
  intros svd A inliers model M S. split; [apply C40_always_a_rotation, S|].
  intros HM Ex (i & j & k & Hi & Hj & Hk & D1 & D2 & D3). apply C40_rotationOnly_exact; auto.
  - intros p Hp. apply in_map_iff in Hp. destruct Hp as (l & <- & Hl). cbn [fst snd]. auto.
  - exists (rf1 A i, rf2 A i), (rf1 A j, rf2 A j), (rf1 A k, rf2 A k). cbn [snd]. repeat split; auto; apply in_map_iff; eauto.
Qed.

(** * The hypotheses are met *)
(** A minimiser that tries one step and keeps the better of the two. *)
Example C72_nonvacuous : exists A idx lm,
  abs_wf A /\ rotation (pR (aprior A)) /\ ~ half_turn (pR (aprior A)) /\ descends (abs_residuals A idx) lm
  /\ (forall i, In i idx -> abs_sees (aprior A) A i) /\ idx <> []
  /\ exists x k, lm x = Ask x k.
Proof.
  set (f := fun i : nat => match i with O => V3 (3/5) 0 (4/5) | S O => V3 0 (3/5) (4/5) | _ => V3 0 0 1 end).
  set (A := AbsAdapter f (fun i => vadd (mv (cayley2rot (V3 1 0 0)) (vscale 5 (f i))) (V3 1 2 3)) (fun _ => v0) (fun _ => mid) (Pose (cayley2rot (V3 1 0 0)) (V3 1 2 3))).
  set (lm := fun x => Ask x (fun r0 => let y := Par (vadd (xt x) (V3 1 0 0)) (xc x) in
     Ask y (fun r1 => match cost r0, cost r1 with Some a, Some b => if Rlt_dec b a then Stop y else Stop x | _, _ => Stop x end))).
  exists A, [0%nat; 1%nat; 2%nat], lm.
  split; [|split; [|split; [|split; [|split; [|split]]]]].
  - intro i. cbn. split; [|apply rot_id]. unfold f. destruct i as [|[|i]]; unfold unit; lunf; lra.
  - apply C24_cayley2rot_is_rotation.
  - apply (proj2 (pose_of_rotation (Par v0 (V3 1 0 0)))).
  - intros x c Hc. cbn [lm run]. rewrite Hc.
    destruct (cost (abs_residuals A _ (Par _ _))) as [b|] eqn:E; cbn [run]; [|exists c; split; auto; lra].
    destruct (Rlt_dec b c); cbn [run]; [exists b|exists c]; split; auto; lra.
  - intros i _. exists 5. split; [lra|]. cbn. now rewrite mv_id, !vadd_0_r.
  - discriminate.
  - exists (Par v0 v0). eexists. reflexivity.
Qed.
Example C74_nonvacuous : exists svd lm A idx T, (forall H, is_svd H (svd H)) /\ idx <> []
  /\ descends (pc_residuals A idx) lm /\ rotation (pR (pprior A)) /\ ~ half_turn (pR (pprior A))
  /\ pc_optimize lm A idx = Some T /\ T <> pprior A
  /\ (forall i, In i idx -> cloud_score T (pp1 A i) (pp2 A i) = 0).
Proof.
  destruct svd_function_exists as [svd S].
  set (A := PcAdapter (fun i => V3 (INR i) 1 0) (fun i => V3 (INR i) 0 0) (Pose mid (V3 0 0 0))).
  set (lm := fun x => let y := Par (vadd (xt x) (V3 0 1 0)) (xc x) in
     Ask x (fun r0 => Ask y (fun r1 => match cost r0, cost r1 with Some a, Some b => if Rlt_dec b a then Stop y else Stop x | _, _ => Stop x end))).
  assert (N : forall i b, norm (vsub (V3 (INR i) 1 0) (vadd (mv mid (V3 (INR i) 0 0)) (V3 0 b 0))) = Rabs (1 - b)).
  { intros i b. unfold norm. rewrite <- sqrt_Rsqr_abs. f_equal. unfold mid, Rsqr. lunf. ring. }
  assert (M : forall t, cayley2rot (xc (Par t (V3 0 0 0))) = mid) by (intro t; exact (f_equal pR (pose_mid t))).
  exists svd, lm, A, [0%nat; 1%nat], (Pose mid (V3 0 1 0)).
  split; [exact S|]. split; [discriminate|]. split; [|split; [apply rot_id|split; [|split; [|split]]]].
  - intros x c Hc. cbn [lm run]. rewrite Hc.
    destruct (cost (pc_residuals A _ (Par _ _))) as [b|] eqn:E; cbn [run]; [|exists c; split; auto; lra].
    destruct (Rlt_dec b c); cbn [run]; [exists b|exists c]; split; auto; lra.
  - intros (_ & _ & Z). now apply Z.
  - unfold pc_optimize. cbn [A pprior]. rewrite start_mid. cbn [lm run xt xc].
    replace (vadd (V3 0 0 0) (V3 0 1 0)) with (V3 0 1 0) by (lunf; f_equal; ring).
    unfold pc_residuals. cbn [map cost]. unfold pc_residual. rewrite !M. cbn [A pp1 pp2 xt]. rewrite !N.
    replace (1 - 0) with 1 by ring. replace (1 - 1) with 0 by ring. rewrite Rabs_R1, Rabs_R0.
    destruct (Rlt_dec _ _) as [L|L]; [|exfalso; apply L; lra]. cbn [run]. now rewrite pose_mid.
  - cbn. intro E. injection E. lra.
  - intros i _. unfold cloud_score, transform. cbn [A pp1 pp2 pR pt]. rewrite N. replace (1 - 1) with 0 by ring. apply Rabs_R0.
Qed.
