(** EigensolverSacProblem (C79). *)
From Coq Require Import Reals List ZArith Lra Lia Psatz.
From Verif Require Import Lin RotModel RotProps GeoModel GeoProps EigSums EigGen EigModel EigAlg EigProps EigExamples EigSacModel.
Import ListNotations.
Local Open Scope R_scope.

(** * Specification *)
(** what rand() returns: numbers between 0 and RAND_MAX *)
Definition draws_ok (mx : Z) (d : draws3) : Prop :=
  (0 < mx)%Z /\ let '(a, b, c) := d in (0 <= a <= mx /\ 0 <= b <= mx /\ 0 <= c <= mx)%Z.
(** Cayley parameters that differ by at most e in every coordinate *)
Definition near (e : R) (a b : vec3) : Prop :=
  Rabs (vx a - vx b) <= e /\ Rabs (vy a - vy b) <= e /\ Rabs (vz a - vz b) <= e.
(** the two bearing vectors of correspondence i are the unit directions to one
    point in front of both cameras, for pose (A, t) of camera 2 in camera 1 *)
Definition exact_at (Ad : rel_adapter) (A : mat3) (t : vec3) (i : nat) : Prop :=
  unit (rf1 Ad i) /\ unit (rf2 Ad i) /\ exists d1 d2, 0 < d1 /\ 0 < d2 /\
  vscale d1 (rf1 Ad i) = vadd t (vscale d2 (mv A (rf2 Ad i))).

Lemma perturb1_range v mx r c : 0 <= v -> (0 < mx)%Z -> (0 <= r <= mx)%Z -> Rabs (perturb1 v mx r c - c) <= v.
Proof.
  intros V P (L & U). unfold perturb1.
  assert (0 < IZR mx) by (now apply IZR_lt). assert (0 <= IZR r) by (now apply IZR_le). assert (IZR r <= IZR mx) by (now apply IZR_le).
  assert (0 <= IZR r / IZR mx) by (apply Rmult_le_pos; [lra|apply Rlt_le, Rinv_0_lt_compat; lra]).
  assert (IZR r / IZR mx <= 1) by (apply Rmult_le_reg_r with (IZR mx); [lra|]; unfold Rdiv; rewrite Rmult_assoc, Rinv_l; lra).
  set (x := IZR r / IZR mx) in *. apply Rabs_le. nra.
Qed.
Lemma perturb_zero mx d c : perturb 0 mx d c = c.
Proof. destruct d as ((a & b) & e), c as [x y z]. unfold perturb, perturb1; cbn [vx vy vz]. f_equal; ring. Qed.

(** eigensolver only sees the start through its Cayley parameters *)
Lemma eigensolver_start lm eig sort b s l :
  eigensolver lm eig sort b s l = eigensolver (fun S _ => lm S (rot2cayley s)) eig sort b mid l.
Proof. reflexivity. Qed.

(** * C79 *)
(** A hypothesis is the unweighted eigensolver on the sample, whose optimisation
    starts within 0.1 of the Cayley parameters of the prior, in each coordinate *)
Theorem C79_start : forall lm eig sort mx d Ad w idx, draws_ok mx d ->
  rotation (pR (rprior Ad)) -> ~ half_turn (pR (rprior Ad)) ->
  exists c0 c, cayley2rot c0 = pR (rprior Ad) /\ near (1/10) c c0 /\
    eig_sac_model lm eig sort mx d Ad w idx
    = eigensolver (fun S _ => lm S (Some c)) eig sort false (cayley2rot c) (map (fun i => (1, (rf1 Ad i, rf2 Ad i))) idx).
Proof.
  intros lm eig sort mx d Ad w idx D HR NH. destruct (C25_cayley_of_rot_and_back _ HR NH) as (c0 & E & B).
  exists c0, (perturb (1/10) mx d c0). split; [exact B|]. split.
  - destruct D as (P & D). destruct d as ((a & b) & e). destruct D as (Da & Db & De).
    unfold near, perturb; cbn [vx vy vz]. repeat split; apply perturb1_range; auto; lra.
  - unfold eig_sac_model, start_rotation, eigensolver_from. rewrite E.
    rewrite eigensolver_start, C25_rot_of_cayley_and_back.
    unfold eigensolver, use_weights, sac_data. rewrite !map_map. cbn [snd].
    destruct idx as [|i idx]; reflexivity.
Qed.
(** the offset is (2 rand() - RAND_MAX) / (10 RAND_MAX): both ends of the
    interval are reached *)
Theorem C79_start_reaches : forall lm eig sort mx Ad w idx c0 a b c, (0 < mx)%Z -> (0 <= a <= mx)%Z -> (0 <= b <= mx)%Z -> (0 <= c <= mx)%Z ->
  cayley2rot c0 = pR (rprior Ad) ->
  let off r := IZR (2 * r - mx) / (10 * IZR mx) in
  eig_sac_model lm eig sort mx (a, b, c) Ad w idx
  = eigensolver lm eig sort false (cayley2rot (vadd c0 (V3 (off a) (off b) (off c)))) (map (fun i => (1, (rf1 Ad i, rf2 Ad i))) idx).
Proof.
  intros lm eig sort mx Ad w idx c0 a b c P Ha Hb Hc E off. unfold eig_sac_model, start_rotation, eigensolver_from. rewrite <- E, C25_rot_of_cayley_and_back.
  assert (0 < IZR mx) by (now apply IZR_lt).
  replace (perturb (1/10) mx (a, b, c) c0) with (vadd c0 (V3 (off a) (off b) (off c))).
  - unfold eigensolver, use_weights, sac_data. rewrite !map_map. cbn [snd]. destruct idx; reflexivity.
  - unfold perturb, perturb1, off. lunf. f_equal; rewrite minus_IZR, mult_IZR; field; lra.
Qed.
(** a prior that is a rotation by 180 degrees gives the optimisation no finite
    start, whatever the random numbers *)
Theorem C79_half_turn_prior : forall lm eig sort mx d Ad w idx, half_turn (pR (rprior Ad)) ->
  eig_sac_model lm eig sort mx d Ad w idx
  = eigensolver (fun S _ => lm S None) eig sort false (pR (rprior Ad)) (sac_data Ad w idx).
Proof.
  intros. unfold eig_sac_model, start_rotation. rewrite C25_half_turn_is_singular by assumption. reflexivity.
Qed.
(** Refinement draws random numbers but does not depend on them: it is the
    weighted eigensolver on the inliers, started at the model's rotation *)
Theorem C79_optimize : forall lm eig sort mx ds Ad w inliers A, rotation A -> ~ half_turn A ->
  eig_sac_optimize lm eig sort mx ds Ad w inliers A
  = Some (eigensolver lm eig sort true A (map (fun i => (w i, (rf1 Ad i, rf2 Ad i))) inliers)).
Proof.
  intros lm eig sort mx ds Ad w inliers A HR NH. destruct (C25_cayley_of_rot_and_back _ HR NH) as (c0 & E & B).
  unfold eig_sac_optimize, maxIterations. cbn [seq map opt_loop]. unfold start_rotation. rewrite E, perturb_zero, B. reflexivity.
Qed.
(** with good data and positive weights the result is a proper pose hypothesis *)
Theorem C79_outputs : forall lm eig sort mx d Ad w idx out, good_eig3 eig -> good_sort sort ->
  eig_sac_model lm eig sort mx d Ad w idx = Some out -> (forall i, In i idx -> 0 < w i) ->
  rotation (eo_rotation out) /\ length (eo_eigenvalues out) = 3%nat /\
  (forall i l, idx = i :: l -> 0 <= dot (vsub (rf1 Ad i) (mv (eo_rotation out) (rf2 Ad i))) (eo_translation out)).
Proof.
  intros lm eig sort mx d Ad w idx out GE GS E W.
  assert (K : exists lm' s, eigensolver lm' eig sort false s (sac_data Ad w idx) = Some out).
  { revert E. unfold eig_sac_model, eigensolver_from. destruct (start_rotation _ _ _ _); eauto. }
  destruct K as (lm' & s & K).
  assert (W' : forall q, In q (sac_data Ad w idx) -> 0 < fst q).
  { intros q Hq. apply in_map_iff in Hq as (i & <- & Hi). now apply W. }
  destruct (C44_output lm' eig sort false s _ out GE GS W' K) as (HR & lw & a & b & c & la & lb & lc & _ & Ev & _ & _ & _ & _ & _ & _ & Fl).
  split; [exact HR|]. split; [now rewrite Ev|]. intros i l ->. exact (Fl (w i, (rf1 Ad i, rf2 Ad i)) (sac_data Ad w l) eq_refl).
Qed.

Lemma recovers lm eig sort uw s Ad w i idx A t :
  good_eig3 eig -> good_sort sort -> (forall S c, cayley2rot (lm S c) = A) ->
  (forall j, In j (i :: idx) -> 0 < w j /\ exact_at Ad A t j) ->
  rf1 Ad i <> mv A (rf2 Ad i) ->
  (exists j k, In j (i :: idx) /\ In k (i :: idx) /\
     cross (cross (rf1 Ad j) (mv A (rf2 Ad j))) (cross (rf1 Ad k) (mv A (rf2 Ad k))) <> v0) ->
  exists out k, eigensolver lm eig sort uw s (sac_data Ad w (i :: idx)) = Some out /\ eo_rotation out = A /\ 0 < k /\ eo_translation out = vscale k t.
Proof.
  intros GE GS LM EX NP (j & k & Ij & Ik & Gen).
  apply (C44_recovers_pose lm eig sort uw s (w i, (rf1 Ad i, rf2 Ad i)) (sac_data Ad w idx) A t GE GS LM).
  - intros p Hp. change (In p (sac_data Ad w (i :: idx))) in Hp. apply in_map_iff in Hp as (m & <- & Hm).
    destruct (EX m Hm) as (Wm & U1 & U2 & Se). cbn [fst snd]. auto.
  - exact NP.
  - exists (w j, (rf1 Ad j, rf2 Ad j)), (w k, (rf1 Ad k, rf2 Ad k)).
    split; [exact (in_map (fun i => (w i, (rf1 Ad i, rf2 Ad i))) _ _ Ij)|].
    split; [exact (in_map (fun i => (w i, (rf1 Ad i, rf2 Ad i))) _ _ Ik)|]. exact Gen.
Qed.
Lemma zero_scores Ad A t k (all : list nat) : rotation A -> 0 < k ->
  (forall i, In i all -> exact_at Ad A t i /\ ~ parallel (rf1 Ad i) (mv A (rf2 Ad i))) ->
  fst (eigensolver_distances Ad (Pose A (vscale k t)) all) = map (fun _ => Some 0) all.
Proof.
  intros HR K H. destruct (C53_independent_of_adapter_pose Ad (Pose A (vscale k t)) all) as (_ & -> & _).
  apply map_ext_in. intros i Hi. destruct (H i Hi) as ((U1 & U2 & d1 & d2 & P1 & P2 & Se) & NP).
  apply C53_zero_iff_rays_meet; auto. cbn [pR pt]. exists (k * d1), (k * d2).
  repeat split; try (apply Rmult_lt_0_compat; lra).
  transitivity (vscale k (vscale d1 (rf1 Ad i))); [generalize (rf1 Ad i); lring|]. rewrite Se. generalize (mv A (rf2 Ad i)). lring.
Qed.
(** Noise-free inliers: if the optimisation finds the true rotation, hypothesis
    and refinement are the true pose up to a positive scale of the translation,
    and every exact correspondence of the adapter scores zero, so it is an
    inlier for every positive threshold *)
Theorem C79_recovers : forall lm eig sort mx d ds Ad w i idx A t all,
  good_eig3 eig -> good_sort sort -> (forall S c, cayley2rot (lm S c) = A) ->
  (forall j, In j (i :: idx) -> 0 < w j /\ exact_at Ad A t j) ->
  rf1 Ad i <> mv A (rf2 Ad i) ->
  (exists j k, In j (i :: idx) /\ In k (i :: idx) /\
     cross (cross (rf1 Ad j) (mv A (rf2 Ad j))) (cross (rf1 Ad k) (mv A (rf2 Ad k))) <> v0) ->
  (forall j, In j all -> exact_at Ad A t j /\ ~ parallel (rf1 Ad j) (mv A (rf2 Ad j))) ->
  forall B, exists o1 o2 k1 k2,
    eig_sac_model lm eig sort mx d Ad w (i :: idx) = Some o1 /\
    eig_sac_optimize lm eig sort mx ds Ad w (i :: idx) B = Some (Some o2) /\
    eo_rotation o1 = A /\ eo_rotation o2 = A /\ 0 < k1 /\ 0 < k2 /\
    eo_translation o1 = vscale k1 t /\ eo_translation o2 = vscale k2 t /\
    fst (eigensolver_distances Ad (Pose (eo_rotation o1) (eo_translation o1)) all) = map (fun _ => Some 0) all /\
    fst (eigensolver_distances Ad (Pose (eo_rotation o2) (eo_translation o2)) all) = map (fun _ => Some 0) all.
Proof.
  intros lm eig sort mx d ds Ad w i idx A t all GE GS LM EX NP Gen All B.
  assert (RA : rotation A) by (rewrite <- (LM fs0 None); apply C24_cayley2rot_is_rotation).
  assert (K : forall uw st, exists out k, eigensolver_from lm eig sort uw st (sac_data Ad w (i :: idx)) = Some out /\ eo_rotation out = A /\ 0 < k /\ eo_translation out = vscale k t).
  { intros uw [s|]; unfold eigensolver_from; apply recovers; auto. }
  destruct (K false (start_rotation (1/10) mx d (pR (rprior Ad)))) as (o1 & k1 & E1 & R1 & P1 & T1).
  destruct (K true (start_rotation 0 mx (ds 0%nat) B)) as (o2 & k2 & E2 & R2 & P2 & T2).
  exists o1, o2, k1, k2. split; [exact E1|]. split; [unfold eig_sac_optimize, maxIterations; cbn [seq map opt_loop]; now rewrite E2|].
  repeat (split; [assumption|]). rewrite R1, R2, T1, T2. split; apply zero_scores; auto.
Qed.

(** * The hypotheses are met *)
Definition ex_ad (B : mat3) : rel_adapter :=
  RelAdapter (fun i => match i with 0%nat => V3 (1/3) (2/3) (2/3) | _ => V3 (1/3) (2/3) (-2/3) end)
             (fun i => match i with 0%nat => V3 (-1/3) (2/3) (2/3) | _ => V3 (-1/3) (2/3) (-2/3) end)
             (fun _ => v0) (fun _ => v0) (fun _ => mid) (fun _ => mid) (Pose B v0).
Example C79_start_nonvacuous :
  draws_ok 2147483647 (0, 2147483647, 17)%Z /\ rotation (pR (rprior (ex_ad (cayley2rot (V3 1 2 3))))) /\ ~ half_turn (pR (rprior (ex_ad (cayley2rot (V3 1 2 3))))).
Proof.
  split; [unfold draws_ok; lia|]. cbn [ex_ad rprior pR]. exact (proj2 C25_nonvacuous).
Qed.
Example C79_half_turn_nonvacuous : half_turn (pR (rprior (ex_ad (diag 1 (-1) (-1))))).
Proof. exact (proj1 C25_nonvacuous). Qed.
Example C79_recovers_nonvacuous : exists eig sort lm,
  good_eig3 eig /\ good_sort sort /\ (forall S c, cayley2rot (lm S c) = mid) /\
  forall mx d ds w, (forall i, 0 < w i) -> exists o1 o2 k1 k2,
    eig_sac_model lm eig sort mx d (ex_ad mid) w [0; 1]%nat = Some o1 /\
    eig_sac_optimize lm eig sort mx ds (ex_ad mid) w [0; 1]%nat mid = Some (Some o2) /\
    eo_rotation o1 = mid /\ eo_rotation o2 = mid /\ 0 < k1 /\ 0 < k2 /\
    eo_translation o1 = vscale k1 (V3 2 0 0) /\ eo_translation o2 = vscale k2 (V3 2 0 0) /\
    fst (eigensolver_distances (ex_ad mid) (Pose (eo_rotation o1) (eo_translation o1)) [0; 1]%nat) = [Some 0; Some 0] /\
    fst (eigensolver_distances (ex_ad mid) (Pose (eo_rotation o2) (eo_translation o2)) [0; 1]%nat) = [Some 0; Some 0].
Proof.
  destruct good_eig3_exists as (eig & GE). exists eig, isort, (fun _ _ => v0).
  assert (H1 : forall (S : fsums) (s : option vec3), cayley2rot v0 = mid) by (intros; unfold cayley2rot; lunf; f_equal; field).
  split; [exact GE|]. split; [exact good_sort_exists|]. split; [exact H1|]. intros mx d ds w W.
  assert (EX : forall j, In j [0; 1]%nat -> exact_at (ex_ad mid) mid (V3 2 0 0) j).
  { intros j [<-|[<-|[]]]; unfold exact_at, ex_ad; cbn [rf1 rf2]; lunf; (split; [lra|]); (split; [lra|]); exists 3, 3; repeat split; try lra; f_equal; lra. }
  apply (C79_recovers (fun _ _ => v0) eig isort mx d ds (ex_ad mid) w 0%nat [1%nat] mid (V3 2 0 0) [0; 1]%nat GE good_sort_exists H1).
  - intros j Hj. split; [apply W|now apply EX].
  - cbn [ex_ad rf1 rf2]. lunf. intro Q. injection Q. lra.
  - exists 0%nat, 1%nat. split; [now left|]. split; [right; now left|]. cbn [ex_ad rf1 rf2]. lunf. intro Q. injection Q. lra.
  - intros j Hj. split; [now apply EX|]. destruct Hj as [<-|[<-|[]]]; cbn [ex_ad rf1 rf2]; unfold parallel; lunf; intro Q; linj Q; lra.
Qed.
