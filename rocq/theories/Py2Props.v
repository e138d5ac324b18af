(** C85: the Python wrappers of the five-, six-, seven- and eight-point solvers
    and of EPnP. *)
From Coq Require Import Reals Lra List Lia Arith.
From Verif Require Import Lin GenLin Cplx ArunModel ArunProps GeoModel TriModel PyModel PySpec PyProps QrModel QrProps EpnpModel EpnpProps GpnpModel GpnpProps
  EpiModel EpiProps EpiExamples FiveptModel FiveptProps FiveptExamples SeventeenProps LinSolve SixptGen SixptModel SixptRow2 SixptProps SixptDegen Py2Model.
Import ListNotations.
Local Open Scope R_scope.

(** * Reading *)
Lemma both_rows_some b1 b2 l1 l2 : rows_are num b1 l1 -> rows_are num b2 l2 ->
  forall n k, (k + n <= List.length l1)%nat -> (k + n <= List.length l2)%nat ->
  both_rows b1 b2 n k = PyOk (firstn n (List.combine (skipn k l1) (skipn k l2))).
Proof.
  intros R1 R2. induction n as [|n IH]; intros k L1 L2; [reflexivity|].
  cbn [both_rows].
  destruct (nth_error l1 k) as [x|] eqn:E1; [|apply nth_error_None in E1; lia].
  destruct (nth_error l2 k) as [y|] eqn:E2; [|apply nth_error_None in E2; lia].
  rewrite (row_of_rows _ _ _ _ R1 E1), (row_of_rows _ _ _ _ R2 E2). cbn [pybind].
  rewrite IH by lia. cbn [pybind].
  destruct (nth_error_skip _ _ _ E1) as (t1 & A1 & B1). destruct (nth_error_skip _ _ _ E2) as (t2 & A2 & B2).
  rewrite A1, A2, B1, B2. reflexivity.
Qed.
Lemma swap_rows l1 : forall l2 extra, List.length l1 = List.length l2 ->
  map (fun q : vec3 * vec3 => (snd q, fst q)) (firstn (List.length l1) (List.combine (l2 ++ extra) l1)) = List.combine l1 l2.
Proof. induction l1 as [|x l1 IH]; intros [|y l2] extra L; try discriminate; [reflexivity|]. cbn. rewrite IH by (cbn in L; lia). reflexivity. Qed.
Lemma pairs_read k b1 b2 l1 l2 extra : rows_are num b1 l1 -> rows_are num b2 (l2 ++ extra) -> List.length l1 = List.length l2 ->
  (k <= List.length l1)%nat -> py_pairs k b1 b2 = PyOk (List.combine l1 l2).
Proof.
  intros R1 R2 L K. unfold py_pairs, shape0. rewrite (proj1 R1). cbn [pybind].
  apply Nat.leb_le in K. rewrite K. cbn [py_assert pybind].
  rewrite (both_rows_some _ _ _ _ R2 R1) by (rewrite ?app_length; lia). cbn [pybind skipn]. now rewrite swap_rows.
Qed.

(** * The results of the solvers reach Python unchanged *)
(** [b1] holds the bearing vectors of the first view, [b2] those of the second,
    which may be followed by further rows. *)
Definition holds (b1 b2 : parr R) (l : list (vec3 * vec3)) : Prop :=
  rows_are num b1 (map fst l) /\ exists extra, rows_are num b2 (map snd l ++ extra).
Lemma combine_fs {X Y} (l : list (X * Y)) : List.combine (map fst l) (map snd l) = l.
Proof. induction l as [|[] l IH]; [reflexivity|]. cbn. now rewrite IH. Qed.
Lemma pairs_held k b1 b2 l : holds b1 b2 l -> (k <= List.length l)%nat -> py_pairs k b1 b2 = PyOk l.
Proof.
  intros (R1 & extra & R2) K. rewrite <- (combine_fs l) at 1. apply (pairs_read _ _ _ _ _ extra); auto; rewrite ?map_length; auto.
Qed.

(** eightpt: the essential matrix of the motion up to scale, if the
    correspondences determine it. *)
Theorem C85_eightpt_exact : forall svdV svd3 b1 b2 l A t,
  good_svdV svdV l -> (forall F, is_svd F (svd3 F)) -> holds b1 b2 l -> (8 <= List.length l)%nat ->
  rotation A -> t <> v0 -> (forall f1 f2, In (f1, f2) l -> dot f1 (mv (essential A t) f2) = 0) ->
  (forall G, (forall f1 f2, In (f1, f2) l -> dot f1 (mv G f2) = 0) -> exists c, G = mscale c (essential A t)) ->
  exists out c, py_eightpt svdV svd3 b1 b2 = PyOk out /\ c <> 0 /\ mat_is Some out (mscale c (essential A t)).
Proof.
  intros svdV svd3 b1 b2 l A t GS S3 H K RA Nt Sat Uni.
  destruct (C49_eightpt_exact svdV svd3 l A t GS S3 RA Nt) as (c & Nc & E).
  - intros [f1 f2] I. exact (Sat f1 f2 I).
  - intros G SG. apply Uni. intros f1 f2 I. exact (SG (f1, f2) I).
  - exists (arr_of_rot (mscale c (essential A t))), c. unfold py_eightpt. rewrite (pairs_held 8 _ _ _ H K). cbn [pybind]. rewrite E.
    split; [reflexivity|]. split; [exact Nc|]. apply arr_of_rot_is.
Qed.
(** eightpt always returns a singular 3 x 3 matrix *)
Theorem C85_eightpt_singular : forall svdV svd3 b1 b2 out, py_eightpt svdV svd3 b1 b2 = PyOk out ->
  exists E, mat_is Some out E /\ det E = 0.
Proof.
  intros svdV svd3 b1 b2 out H. unfold py_eightpt in H. destruct (py_pairs 8 b1 b2) as [l| |]; try discriminate.
  cbn [pybind] in H. injection H as <-. eexists. split; [apply arr_of_rot_is|]. apply C49_eightpt_rank.
Qed.
(** sevenpt: the list contains the essential matrix of the motion up to scale *)
Theorem C85_sevenpt_complete : forall svdV eig b1 b2 l A t, good_svdV svdV l -> good_eig eig -> holds b1 b2 l ->
  List.length l = 7%nat -> independent l -> rotation A -> t <> v0 ->
  (forall f1 f2, In (f1, f2) l -> dot f1 (mv (essential A t) f2) = 0) ->
  eps <= Rabs (det (to_mat (gcol (svdV (epiA l)) 8))) -> det (to_mat (gcol (svdV (epiA l)) 7)) <> 0 ->
  exists outs out F c, py_sevenpt svdV eig b1 b2 = PyOk (Some outs) /\ In out outs /\ mat_is Some out F /\ c <> 0 /\ essential A t = mscale c F.
Proof.
  intros svdV eig b1 b2 l A t GS GE H L7 Ind RA Nt Sat D1 D2.
  assert (NE : essential A t <> mzero).
  { intro Z. apply Nt. assert (Q : mmul (essential A t) (mT A) = skew t) by (unfold essential; rewrite <- mmul_assoc, (orth_r A (proj1 RA)); apply mmul_id_r).
    rewrite Z in Q. clear - Q. destruct t, A. lunf. injection Q as Q1 Q2 Q3 Q4 Q5 Q6 Q7 Q8 Q9. f_equal; lra. }
  destruct (C49_sevenpt_complete svdV eig l (essential A t) GS GE L7 Ind D1 D2) as (Fs & F & c & E & I & Nc & EF); auto.
  { intros [f1 f2] I. exact (Sat f1 f2 I). }
  { apply (essential_constraints A t RA). }
  exists (map arr_of_rot Fs), (arr_of_rot F), F, c. unfold py_sevenpt. rewrite (pairs_held 7 _ _ _ H) by lia. cbn [pybind]. rewrite E.
  split; [reflexivity|]. split; [now apply in_map|]. split; [apply arr_of_rot_is|]. auto.
Qed.
(** and, from seven rows, only matrices satisfying every epipolar constraint *)
Theorem C85_sevenpt_constraints : forall svdV eig b1 b2 l outs out, good_svdV svdV l -> good_eig eig -> holds b1 b2 l ->
  List.length l = 7%nat -> py_sevenpt svdV eig b1 b2 = PyOk (Some outs) -> In out outs ->
  exists F, mat_is Some out F /\ forall f1 f2, In (f1, f2) l -> dot f1 (mv F f2) = 0.
Proof.
  intros svdV eig b1 b2 l outs out GS GE H L7 E I. unfold py_sevenpt in E. rewrite (pairs_held 7 _ _ _ H) in E by lia. cbn [pybind] in E.
  destruct (sevenpt svdV eig l) as [Fs|] eqn:ES; [|discriminate]. cbn [option_map] in E. injection E as <-. apply in_map_iff in I as (F & <- & IF).
  exists F. split; [apply arr_of_rot_is|]. intros f1 f2 I. refine (C49_sevenpt_constraints svdV eig l Fs F GS GE _ ES IF (f1, f2) I). lia.
Qed.
(** fivept_nister: the list contains the normalised essential matrix of the motion *)
Theorem C85_nister_complete : forall svdV inv10 roots lm b1 b2 l A t,
  let V := svdV (epiA l) in let E := essential A t in let z := coordinate V E 2 / coordinate V E 3 in
  let A3 := lu_solve inv10 (nister_matrix (ee_col V)) in
  good_svdV svdV l -> holds b1 b2 l -> List.length l = 5%nat -> independent l -> rotation A -> t <> v0 ->
  (forall f1 f2, In (f1, f2) l -> dot f1 (mv E f2) = 0) ->
  coordinate V E 3 <> 0 -> FiveptProps.good_inverse inv10 (nister_matrix (ee_col V)) ->
  (forall f p, (forall i, (i < 10)%nat -> f p i = 0) -> lm f p = p) ->
  In z (roots (nister_p10 A3)) -> poly_val (nister_p3 A3) z <> 0 ->
  exists outs out s, py_fivept_nister svdV inv10 roots lm b1 b2 = PyOk outs /\ In out outs /\ (s = 1 \/ s = -1) /\
    mat_is Some out (mscale (s / sqrt (fnorm2 E)) E).
Proof.
  intros svdV inv10 roots lm b1 b2 l A t V E z A3 GS H L5 Ind RA Nt Sat N3 GI LM I NP.
  destruct (C51_recovers_motion svdV inv10 roots lm l A t GS L5 Ind RA Nt) as (s & Hs & In1); auto.
  { intros [f1 f2] J. exact (Sat f1 f2 J). }
  exists (map arr_of_orot (fivept_nister svdV inv10 roots lm l)), (arr_of_orot (Some (mscale (s / sqrt (fnorm2 E)) E))), s.
  unfold py_fivept_nister. rewrite (pairs_held 5 _ _ _ H) by lia. cbn [pybind].
  split; [reflexivity|]. split; [now apply in_map|]. split; [exact Hs|]. apply arr_of_rot_is.
Qed.

(** one array for every root, all NaN exactly where the solver divides by zero *)
Definition shows (o : option mat3) (out : parr (option R)) : Prop :=
  match o with
  | Some M => mat_is Some out M
  | None => shp out = [3%nat; 3%nat] /\ full out /\ forall i j, (i < 3)%nat -> (j < 3)%nat -> elem2 out i j = Some None
  end.
Lemma orot_shows o : shows o (arr_of_orot o).
Proof.
  destruct o as [M|]; [apply arr_of_rot_is|]. split; [reflexivity|]. split; [reflexivity|].
  intros [|[|[|i]]] [|[|[|j]]] Hi Hj; try lia; reflexivity.
Qed.
Theorem C85_nister_list : forall svdV inv10 roots lm b1 b2 l, holds b1 b2 l -> (5 <= List.length l)%nat ->
  exists outs, py_fivept_nister svdV inv10 roots lm b1 b2 = PyOk outs /\ Forall2 shows (fivept_nister svdV inv10 roots lm l) outs.
Proof.
  intros svdV inv10 roots lm b1 b2 l H K. unfold py_fivept_nister. rewrite (pairs_held 5 _ _ _ H K). cbn [pybind]. eexists. split; [reflexivity|].
  induction (fivept_nister svdV inv10 roots lm l) as [|o os IH]; constructor; [apply orot_shows|exact IH].
Qed.

(** * EPnP *)
(** [v] holds the bearing vectors and [p] the points, possibly with further rows *)
Definition holds_abs (v p : parr R) (l : list ecorr) : Prop :=
  rows_are num v (map e_f l) /\ exists extra, rows_are num p (map e_p l ++ extra).
Lemma epnp_read svd3 svd12 solve a1 a2 junk v p l : holds_abs v p l -> (6 <= List.length l)%nat ->
  py_epnp svd3 svd12 solve a1 a2 junk v p =
    PyOk (arr_of_pose (option_map (fun r => Pose (fst r) (snd r)) (epnp svd3 svd12 solve a1 a2 junk l))).
Proof.
  intros (R1 & extra & R2) K. unfold py_epnp, shape0. rewrite (proj1 R1). cbn [pybind]. rewrite map_length.
  assert (K' : Nat.ltb 5 (List.length l) = true) by (apply Nat.ltb_lt; lia). rewrite K'. cbn [py_assert pybind].
  rewrite (both_rows_some _ _ _ _ R2 R1) by (rewrite ?app_length, ?map_length; lia). cbn [pybind skipn].
  replace (map _ (firstn _ _)) with l; [reflexivity|].
  clear. induction l as [|[p f] l IH]; [reflexivity|]. cbn. now rewrite <- IH.
Qed.
Theorem C85_epnp_exact : forall svd3 svd12 solve a1 a2 junk v p l A t,
  let cw := e_cw svd3 l in
  let M := e_M cw l (EC v0 v0) in
  let U := svd12 (e_MtM (2 * List.length l) M) in
  let L4 := fun i j => e_L U i (sel1 j) in
  holds_abs v p l -> (6 <= List.length l)%nat ->
  (forall H, is_svd H (svd3 H)) -> rotation A -> sees A t l -> (forall c, In c l -> vz (e_f c) <> 0) ->
  (forall B s, on_lines B s l -> exists k, B = mscale k (mT A) /\ s = vscale k (mv (mneg (mT A)) t)) ->
  null (2 * List.length l) M (gcol U 11) -> (exists j, (j < 12)%nat /\ U j 11%nat <> 0) ->
  full_rank 6 4 L4 -> (forall y, misfit 6 4 L4 (e_rho cw) (solve 4%nat L4 (e_rho cw)) <= misfit 6 4 L4 (e_rho cw) y) ->
  (forall j, (j < 4)%nat -> junk 1%nat j = 0) \/ (forall b, 0 < b -> qr_factor 6 4 (QrSt (gn_A (e_L U) (B4 b 0 0 0)) a1 a2) <> None) ->
  exists out, py_epnp svd3 svd12 solve a1 a2 junk v p = PyOk out /\ pose_is Some out (Pose A t).
Proof.
  intros svd3 svd12 solve a1 a2 junk v p l A t cw M U L4 H K S3 RA HS Hz Hu HN NU FR LS HJ.
  rewrite (epnp_read _ _ _ _ _ _ _ _ _ H K).
  rewrite (C68_recovers_pose svd3 svd12 solve a1 a2 junk l A t S3 RA HS Hz Hu HN NU FR LS HJ).
  eexists. split; [reflexivity|]. apply arr_of_pose_is.
Qed.
(** What epnp returns is a 3 x 4 array that is all NaN or whose left block is a
    rotation; for points in a plane it is all NaN. *)
Theorem C85_epnp_rotation_or_nan : forall svd3 svd12 solve a1 a2 junk v p out, (forall H, is_svd H (svd3 H)) ->
  py_epnp svd3 svd12 solve a1 a2 junk v p = PyOk out ->
  (exists T, pose_is Some out T /\ rotation (pR T)) \/
  (shp out = [3%nat; 4%nat] /\ full out /\ forall i j, (i < 3)%nat -> (j < 4)%nat -> elem2 out i j = Some None).
Proof.
  intros svd3 svd12 solve a1 a2 junk v p out S3 H. unfold py_epnp in H.
  destruct (shape0 v) as [n| |]; try discriminate. cbn [pybind] in H. destruct (py_assert _) as [u| |]; try discriminate. cbn [pybind] in H.
  destruct (both_rows p v n 0) as [q| |]; try discriminate. cbn [pybind] in H. injection H as <-.
  destruct (epnp svd3 svd12 solve a1 a2 junk _) as [[A t]|] eqn:E.
  - left. exists (Pose A t). split; [apply arr_of_pose_is|]. exact (C70_rotation svd3 svd12 solve a1 a2 junk _ A t S3 E).
  - right. split; [reflexivity|]. split; [reflexivity|]. intros [|[|[|i]]] [|[|[|[|j]]]] Hi Hj; try lia; reflexivity.
Qed.
Theorem C85_epnp_planar_refuted : forall svd3 svd12 solve a1 a2 junk v p l, (forall H, is_svd H (svd3 H)) ->
  holds_abs v p l -> (6 <= List.length l)%nat -> coplanar l ->
  exists out, py_epnp svd3 svd12 solve a1 a2 junk v p = PyOk out /\
    forall i j, (i < 3)%nat -> (j < 4)%nat -> elem2 out i j = Some None.
Proof.
  intros svd3 svd12 solve a1 a2 junk v p l S3 H K C. rewrite (epnp_read _ _ _ _ _ _ _ _ _ H K).
  rewrite (C69_coplanar svd3 svd12 solve a1 a2 junk l (S3 _) C). eexists. split; [reflexivity|].
  intros [|[|[|i]]] [|[|[|[|j]]]] Hi Hj; try lia; reflexivity.
Qed.

(** * gpnp does not look at the bearing vectors *)
Lemma gpnp_read svd3 svdP svdA lm v p fs ps extra : rows_are num v fs -> rows_are num p (ps ++ extra) -> List.length fs = List.length ps -> (6 <= List.length fs)%nat ->
  exists l, map g_p l = ps /\ (forall g, In g l -> g_off g = v0) /\
    py_gpnp svd3 svdP svdA lm v p = PyOk (arr_of_pose (Some (Pose (fst (gpnp svd3 svdP svdA lm l)) (snd (gpnp svd3 svdP svdA lm l))))).
Proof.
  intros R1 R2 L K. exists (map (fun q => GCorr (fst q) v0 (mv mid (snd q))) (List.combine ps fs)). split; [|split].
  - rewrite map_map. cbn [g_p]. clear - L. revert ps L. induction fs as [|f fs IH]; intros [|q ps] L; try discriminate; [reflexivity|]. cbn. rewrite IH by (cbn in L; lia). reflexivity.
  - intros g Hg. apply in_map_iff in Hg. destruct Hg as (q & <- & _). reflexivity.
  - unfold py_gpnp, shape0. rewrite (proj1 R1). cbn [pybind]. assert (K' : Nat.ltb 5 (List.length fs) = true) by (apply Nat.ltb_lt; lia). rewrite K'.
    cbn [py_assert pybind]. rewrite (both_rows_some _ _ _ _ R2 R1) by (rewrite ?app_length; lia). cbn [pybind skipn].
    replace (firstn (List.length fs) (List.combine (ps ++ extra) fs)) with (List.combine ps fs); [reflexivity|].
    clear - L. revert ps L. induction fs as [|f fs IH]; intros [|q ps] L; try discriminate; [reflexivity|]. cbn. rewrite <- IH by (cbn in L; lia). reflexivity.
Qed.
(** The same points with any other bearing vectors give the same pose. *)
Theorem C85_gpnp_blind_refuted : forall svd3 svdP svdA lm v v' p fs fs' ps extra,
  rows_are num v fs -> rows_are num v' fs' -> rows_are num p (ps ++ extra) ->
  List.length fs = List.length ps -> List.length fs' = List.length ps -> (6 <= List.length ps)%nat ->
  py_gpnp svd3 svdP svdA lm v p = py_gpnp svd3 svdP svdA lm v' p /\
  exists out A t, py_gpnp svd3 svdP svdA lm v p = PyOk out /\ pose_is Some out (Pose A t).
Proof.
  intros svd3 svdP svdA lm v v' p fs fs' ps extra R1 R1' R2 L L' K.
  destruct (gpnp_read svd3 svdP svdA lm v p fs ps extra R1 R2 L ltac:(lia)) as (l & P & O & E).
  destruct (gpnp_read svd3 svdP svdA lm v' p fs' ps extra R1' R2 L' ltac:(lia)) as (l' & P' & O' & E').
  rewrite E, E'. rewrite (C63_central_camera svd3 svdP svdA lm l O), (C63_central_camera svd3 svdP svdA lm l' O'). cbv zeta.
  assert (C : forall m m', map g_p m = map g_p m' -> centroid m = centroid m').
  { intros m m' H. unfold centroid. rewrite <- (map_length g_p m), <- (map_length g_p m'), <- H. f_equal. revert H. generalize v0. revert m'.
    induction m as [|x m IH]; intros [|y m'] s H; try discriminate; [reflexivity|]. injection H as H1 H2. cbn [fold_left]. rewrite H1. now apply IH. }
  assert (PP' : map g_p l = map g_p l') by congruence. rewrite (C l l' PP').
  assert (M : map (fun g => vsub (g_p g) (centroid l')) l = map (fun g => vsub (g_p g) (centroid l')) l').
  { rewrite <- (map_map g_p (fun q => vsub q (centroid l')) l), PP', map_map. reflexivity. }
  rewrite M. split; [reflexivity|]. eexists. eexists. eexists. split; [reflexivity|]. apply arr_of_pose_is.
Qed.

(** * sixpt has no information to work with *)
(** results of the numerical routines depend on the entries of the matrices only *)
Definition by_entries_solve (solve : nat -> nat -> (nat -> nat -> R) -> (nat -> nat -> R) -> nat -> nat -> R) : Prop :=
  forall n m A A' B B', (forall i j, A i j = A' i j) -> (forall i j, B i j = B' i j) -> forall i j, solve n m A B i j = solve n m A' B' i j.
Definition by_entries_eig (eig : nat -> (nat -> nat -> R) -> nat -> nat -> cx) : Prop :=
  forall n A A', (forall i j, A i j = A' i j) -> forall i j, eig n A i j = eig n A' i j.
Lemma row_or_0_unit b l i : rows_are num b l -> (forall f, In f l -> norm2 f = 1) -> (i < List.length l)%nat -> norm2 (row_or_0 b i) = 1.
Proof.
  intros R1 U Hi. destruct (nth_error l i) as [f|] eqn:E; [|apply nth_error_None in E; lia].
  unfold row_or_0. rewrite (row_of_rows _ _ _ _ R1 E). apply U. eapply nth_error_In; eauto.
Qed.
Lemma central_equations b1 b2 l1 l2 : rows_are num b1 l1 -> rows_are num b2 l2 -> List.length l1 = 6%nat -> (6 <= List.length l2)%nat ->
  (forall f, In f l1 -> norm2 f = 1) -> (forall f, In f l2 -> norm2 f = 1) ->
  (forall row k, (row < 60)%nat -> (k < 84)%nat -> six_eqs (rel_adapter_of b1 b2) (seq 0 6) row k = 0)
  /\ ~ nonsingular 15 (six_BtB (six_eqs (rel_adapter_of b1 b2) (seq 0 6))).
Proof.
  intros R1 R2 L1 L2 U1 U2. apply (C77_single_camera _ _ v0 v0); [reflexivity|].
  intros k Hk. apply in_seq in Hk. unfold centre1, centre2, ray1, ray2, rel_adapter_of. cbn [ro1 ro2 rr1 rr2 rf1 rf2]. rewrite !mv_id.
  repeat split; [apply (row_or_0_unit _ l1)|apply (row_or_0_unit _ l2)]; auto; lia.
Qed.
Lemma M1_zero inv E : (forall row k, (row < 60)%nat -> E row k = 0) -> forall i j, six_M1 inv E i j = 0.
Proof. intros Z i j. unfold six_M1. apply sumn_0. intros r Hr. rewrite (Z r j) by lia. ring. Qed.
Lemma M2_zero M1 : (forall i j, M1 i j = 0) -> forall r c, six_M2 M1 r c = 0.
Proof. intros Z r c. unfold six_M2, MacModel.mac_cell. destruct (find _ _); auto. Qed.
Lemma row2_length m0 m1 m2 : List.length (fill_row2 m0 m1 m2) = 84%nat.
Proof. rewrite fill_row2_groups, map_length. reflexivity. Qed.
Lemma eqs_zero_all A idx : (forall row k, (row < 60)%nat -> (k < 84)%nat -> six_eqs A idx row k = 0) ->
  forall row k, (row < 60)%nat -> six_eqs A idx row k = 0.
Proof.
  intros Z row k Hr. destruct (Nat.lt_ge_cases k 84) as [|G]; [auto|]. unfold six_eqs, six_M1p.
  destruct (six_state row) as [[[d r0] r1] r2]. apply nth_overflow. rewrite row2_length. exact G.
Qed.
(** The adapter of the bindings puts every camera at the origin of the
    viewpoint.  For unit bearing vectors the matrix inverted first is then
    singular, and, whatever numbers its inversion gives, the result does not
    depend on the arguments. *)
Theorem C85_sixpt_blind_refuted : forall inv solve eig b1 b2 c1 c2 l1 l2 m1 m2,
  by_entries_solve solve -> by_entries_eig eig ->
  rows_are num b1 l1 -> rows_are num b2 l2 -> rows_are num c1 m1 -> rows_are num c2 m2 ->
  List.length l1 = 6%nat -> List.length l2 = 6%nat -> List.length m1 = 6%nat -> List.length m2 = 6%nat ->
  (forall f, In f l1 \/ In f l2 \/ In f m1 \/ In f m2 -> norm2 f = 1) ->
  py_sixpt inv solve eig b1 b2 = py_sixpt inv solve eig c1 c2 /\
  exists out, py_sixpt inv solve eig b1 b2 = PyOk out /\ List.length out = 64%nat.
Proof.
  intros inv solve eig b1 b2 c1 c2 l1 l2 m1 m2 HS HE B1 B2 D1 D2 L1 L2 K1 K2 U.
  assert (ZB := proj1 (central_equations b1 b2 l1 l2 B1 B2 L1 ltac:(lia) ltac:(auto) ltac:(auto))).
  assert (ZC := proj1 (central_equations c1 c2 m1 m2 D1 D2 K1 ltac:(lia) ltac:(auto) ltac:(auto))).
  pose proof (eqs_zero_all _ _ ZB) as ZB'. pose proof (eqs_zero_all _ _ ZC) as ZC'. clear ZB ZC. rename ZB' into ZB, ZC' into ZC.
  assert (RD : forall a b l m, rows_are num a l -> rows_are num b m -> List.length l = 6%nat -> List.length m = 6%nat ->
    py_sixpt inv solve eig a b = PyOk (map arr_of_orot (sixpt inv solve eig (rel_adapter_of a b) (seq 0 6)))).
  { intros a b l m Ra Rb La Lb. unfold py_sixpt, shape0. rewrite (proj1 Ra), La. cbn [pybind]. change (Nat.eqb 6 6) with true. cbn [py_assert pybind].
    rewrite (both_rows_some _ _ _ _ Ra Rb) by lia. reflexivity. }
  rewrite (RD b1 b2 l1 l2), (RD c1 c2 m1 m2) by auto. split.
  - do 2 f_equal. unfold sixpt, sixpt_main. apply map_ext. intro c. unfold six_solution.
    assert (EA : forall i j, six_action inv solve (lines1 (rel_adapter_of b1 b2) (seq 0 6)) (lines2 (rel_adapter_of b1 b2) (seq 0 6)) i j =
                             six_action inv solve (lines1 (rel_adapter_of c1 c2) (seq 0 6)) (lines2 (rel_adapter_of c1 c2) (seq 0 6)) i j).
    { intros i j. unfold six_action, six_action_of. destruct (nth i six_action_rows (ActOne 0)); [|reflexivity]. f_equal. unfold six_M3.
      apply HS; intros; unfold six_lead, six_trail; rewrite !M2_zero; auto; intros; apply M1_zero; intros; [apply ZC|apply ZB|apply ZC|apply ZB]; auto. }
    unfold lines1, lines2 in EA.
    rewrite !(HE 64%nat _ _ EA). reflexivity.
  - eexists. split; [reflexivity|]. rewrite map_length. unfold sixpt, sixpt_main. rewrite map_length. apply seq_length.
Qed.
(** The matrix inverted first has no inverse. *)
Theorem C85_sixpt_singular_refuted : forall b1 b2 l1 l2, rows_are num b1 l1 -> rows_are num b2 l2 ->
  List.length l1 = 6%nat -> (6 <= List.length l2)%nat -> (forall f, In f l1 -> norm2 f = 1) -> (forall f, In f l2 -> norm2 f = 1) ->
  ~ exists B, forall i j, (i < 15)%nat -> (j < 15)%nat ->
      sumn 15 (fun k => B i k * six_BtB (six_eqs (rel_adapter_of b1 b2) (seq 0 6)) k j) = delta i j.
Proof.
  intros b1 b2 l1 l2 R1 R2 L1 L2 U1 U2 (B & HB).
  pose proof (proj1 (central_equations b1 b2 l1 l2 R1 R2 L1 L2 U1 U2)) as Z.
  pose proof (HB 0%nat 0%nat ltac:(lia) ltac:(lia)) as Q. rewrite sumn_0 in Q.
  - unfold delta in Q. cbn in Q. lra.
  - intros k Hk. unfold six_BtB. rewrite (sumn_0 60); [ring|]. intros r Hr. rewrite (Z r k) by lia. ring.
Qed.

(** * Numbers of rows *)
(** The solvers assert their least number of rows; sixpt wants exactly six. *)
Theorem C85_row_counts : forall b1 b2 n r, shp b1 = n :: r ->
  (forall svdV svd3 out, py_eightpt svdV svd3 b1 b2 = PyOk out -> (8 <= n)%nat) /\
  (forall svdV eig out, py_sevenpt svdV eig b1 b2 = PyOk out -> (7 <= n)%nat) /\
  (forall svdV inv10 roots lm out, py_fivept_nister svdV inv10 roots lm b1 b2 = PyOk out -> (5 <= n)%nat) /\
  (forall inv solve eig out, py_sixpt inv solve eig b1 b2 = PyOk out -> n = 6%nat) /\
  (forall svd3 svd12 solve a1 a2 junk out, py_epnp svd3 svd12 solve a1 a2 junk b1 b2 = PyOk out -> (6 <= n)%nat).
Proof.
  intros b1 b2 n r S.
  assert (P : forall k l, py_pairs k b1 b2 = PyOk l -> (k <= n)%nat).
  { intros k l H. unfold py_pairs, shape0 in H. rewrite S in H. cbn [pybind] in H. destruct (Nat.leb k n) eqn:E; [now apply Nat.leb_le|discriminate]. }
  repeat split.
  - intros svdV svd3 out H. unfold py_eightpt in H. destruct (py_pairs 8 b1 b2) eqn:E; try discriminate. eauto.
  - intros svdV eig out H. unfold py_sevenpt in H. destruct (py_pairs 7 b1 b2) eqn:E; try discriminate. eauto.
  - intros svdV inv10 roots lm out H. unfold py_fivept_nister in H. destruct (py_pairs 5 b1 b2) eqn:E; try discriminate. eauto.
  - intros inv solve eig out H. unfold py_sixpt, shape0 in H. rewrite S in H. cbn [pybind] in H. destruct (Nat.eqb n 6) eqn:E; [now apply Nat.eqb_eq|discriminate].
  - intros svd3 svd12 solve a1 a2 junk out H. unfold py_epnp, shape0 in H. rewrite S in H. cbn [pybind] in H.
    destruct (Nat.ltb 5 n) eqn:E; [now apply Nat.ltb_lt in E|discriminate].
Qed.
(** If the second array has fewer rows than the first (and there are enough),
    Python gets an exception. *)
Lemma both_short_first a b n m k0 r : shp a = m :: r -> (k0 <= m)%nat -> (m < n)%nat -> full a -> full b -> no_empty_tail 2 a -> no_empty_tail 2 b ->
  both_rows a b (n - k0) k0 = PyRaise.
Proof.
  intros Sh K M Fa Fb Na Nb. remember (m - k0)%nat as q eqn:Eq. revert k0 K Eq.
  induction q as [|q IH]; intros k0 K Eq.
  - assert (k0 = m) by lia. subst k0. destruct (n - m)%nat as [|d] eqn:En; [lia|]. cbn [both_rows].
    unfold row_of at 1. unfold at_py at 1. rewrite Sh. cbn [offset]. rewrite Nat.ltb_irrefl. reflexivity.
  - destruct (n - k0)%nat as [|d] eqn:En; [lia|]. cbn [both_rows].
    pose proof (row_safe a k0 Fa Na) as Sa. pose proof (row_safe b k0 Fb Nb) as Sb.
    destruct (row_of a k0); cbn [pybind]; [|reflexivity|congruence].
    destruct (row_of b k0); cbn [pybind]; [|reflexivity|congruence].
    replace d with (n - S k0)%nat by lia. rewrite IH by lia. reflexivity.
Qed.
Theorem C85_short_second_array_raises : forall b1 b2 n m r r', shp b1 = n :: r -> shp b2 = m :: r' -> (m < n)%nat ->
  full b1 -> full b2 -> no_empty_tail 2 b1 -> no_empty_tail 2 b2 ->
  (forall svdV svd3, (8 <= n)%nat -> py_eightpt svdV svd3 b1 b2 = PyRaise) /\
  (forall svdV eig, (7 <= n)%nat -> py_sevenpt svdV eig b1 b2 = PyRaise) /\
  (forall svdV inv10 roots lm, (5 <= n)%nat -> py_fivept_nister svdV inv10 roots lm b1 b2 = PyRaise) /\
  (forall svd3 svd12 solve a1 a2 junk, (6 <= n)%nat -> py_epnp svd3 svd12 solve a1 a2 junk b1 b2 = PyRaise).
Proof.
  intros b1 b2 n m r r' S1 S2 M F1 F2 N1 N2.
  pose proof (both_short_first b2 b1 n m 0 r' S2 ltac:(lia) M F2 F1 N2 N1) as B. rewrite Nat.sub_0_r in B.
  assert (P : forall k, (k <= n)%nat -> py_pairs k b1 b2 = PyRaise).
  { intros k K. unfold py_pairs, shape0. rewrite S1. cbn [pybind]. apply Nat.leb_le in K. rewrite K. cbn [py_assert pybind]. rewrite B. reflexivity. }
  repeat split.
  - intros svdV svd3 K. unfold py_eightpt. rewrite P by auto. reflexivity.
  - intros svdV eig K. unfold py_sevenpt. rewrite P by auto. reflexivity.
  - intros svdV inv10 roots lm K. unfold py_fivept_nister. rewrite P by auto. reflexivity.
  - intros svd3 svd12 solve a1 a2 junk K. unfold py_epnp, shape0. rewrite S1. cbn [pybind].
    assert (K' : Nat.ltb 5 n = true) by (apply Nat.ltb_lt; lia). rewrite K'. cbn [py_assert pybind]. rewrite B. reflexivity.
Qed.

(** * Arguments meeting the hypotheses *)
Definition rows (l : list vec3) : parr R := Arr [List.length l; 3%nat] (flat_map (fun v => [vx v; vy v; vz v]) l).
Lemma rows_ok l : rows_are num (rows l) l.
Proof.
  assert (F : List.length (flat_map (fun v => [vx v; vy v; vz v]) l) = (List.length l * 3)%nat) by (induction l as [|x l IH]; [reflexivity|cbn; now rewrite IH]).
  split; [reflexivity|]. split.
  { unfold full, rows. cbn [shp dat prodn fold_right]. rewrite F. lia. }
  intros i k v E K. unfold elem2, rows. cbn [shp dat].
  assert (Hi : (i < List.length l)%nat) by (apply nth_error_Some; congruence).
  apply Nat.ltb_lt in Hi. rewrite Hi. pose proof K as K0. apply Nat.ltb_lt in K. rewrite K. cbn [andb]. clear F Hi K.
  revert i E. induction l as [|x l IH]; intros [|i] E; try discriminate.
  - injection E as ->. destruct k as [|[|[|k]]]; try lia; reflexivity.
  - cbn [flat_map]. replace (S i * 3 + k)%nat with (S (S (S (i * 3 + k)))) by lia. cbn [app nth_error]. apply IH. exact E.
Qed.
Lemma holds_rows l : holds (rows (map fst l)) (rows (map snd l)) l.
Proof. split; [apply rows_ok|]. exists []. rewrite app_nil_r. apply rows_ok. Qed.
Lemma holds_abs_rows l : holds_abs (rows (map e_f l)) (rows (map e_p l)) l.
Proof. split; [apply rows_ok|]. exists []. rewrite app_nil_r. apply rows_ok. Qed.
Example C85_eightpt_nonvacuous : exists svdV svd3 b1 b2, good_svdV svdV ex8 /\ (forall F, is_svd F (svd3 F)) /\ holds b1 b2 ex8 /\
  (8 <= List.length ex8)%nat /\ exists out c, py_eightpt svdV svd3 b1 b2 = PyOk out /\ c <> 0 /\ mat_is Some out (mscale c (essential mid EpiExamples.e3)).
Proof.
  destruct C49_eightpt_nonvacuous as (svdV & svd3 & GS & S3 & RA & Nt & Sat & Uni).
  exists svdV, svd3, (rows (map fst ex8)), (rows (map snd ex8)). split; [auto|]. split; [auto|]. split; [apply holds_rows|].
  assert (K : (8 <= List.length ex8)%nat) by (vm_compute; lia). split; [exact K|].
  apply (C85_eightpt_exact svdV svd3 _ _ ex8 mid EpiExamples.e3); auto; [apply holds_rows| |].
  - intros f1 f2 I. exact (Sat _ I).
  - intros G HG. apply Uni. intros [f1 f2] I. exact (HG f1 f2 I).
Qed.
Example C85_nister_nonvacuous : exists svdV inv10 roots lm b1 b2 R12 t12 outs out s,
  py_fivept_nister svdV inv10 roots lm b1 b2 = PyOk outs /\ In out outs /\ (s = 1 \/ s = -1) /\ rotation R12 /\ t12 <> v0 /\
  mat_is Some out (mscale (s / sqrt (fnorm2 (essential R12 t12))) (essential R12 t12)).
Proof.
  destruct C51_nonvacuous as (svdV & inv10 & roots & lm & l & R12 & t12 & GS & L5 & Ind & RA & Nt & Sat & N3 & GI & LM & I & NP).
  destruct (C85_nister_complete svdV inv10 roots lm (rows (map fst l)) (rows (map snd l)) l R12 t12) as (outs & out & s & E & J & Hs & Ho); auto.
  - apply holds_rows.
  - intros f1 f2 K. exact (Sat _ K).
  - exists svdV, inv10, roots, lm, (rows (map fst l)), (rows (map snd l)), R12, t12, outs, out, s. auto 8.
Qed.
Example C85_sevenpt_nonvacuous : exists svdV eig b1 b2 A t outs out F c, rotation A /\ t <> v0 /\
  py_sevenpt svdV eig b1 b2 = PyOk (Some outs) /\ In out outs /\ mat_is Some out F /\ c <> 0 /\ essential A t = mscale c F.
Proof.
  destruct C49_sevenpt_nonvacuous as (svdV & eig & GS & GE & L7 & Ind & D1 & D2 & _).
  set (A := M3 0 (-1) 0 (-1) 0 0 0 0 (-1)).
  assert (RA : rotation A) by (split; unfold orthogonal, A; lunf; try f_equal; ring).
  assert (EE : essential A (V3 0 0 1) = diag 1 (-1) 0) by (unfold essential, A; lunf; f_equal; ring).
  assert (Nt : V3 0 0 1 <> v0) by (intro Q; injection Q; intros; lra).
  destruct (C85_sevenpt_complete svdV eig (rows (map fst exd)) (rows (map snd exd)) exd A (V3 0 0 1)) as (outs & out & F & c & P); auto.
  - apply holds_rows.
  - intros f1 f2 K. rewrite EE. assert (Z : 2 * 1 + 2 * -1 + 0 = 0) by ring. exact (exd_satisfies 1 (-1) 0 Z (f1, f2) K).
  - exists svdV, eig, (rows (map fst exd)), (rows (map snd exd)), A, (V3 0 0 1), outs, out, F, c. auto.
Qed.
Definition six_a : list vec3 := [V3 1 0 0; V3 0 1 0; V3 0 0 1; V3 (3/5) (4/5) 0; V3 0 (3/5) (4/5); V3 (3/5) 0 (4/5)].
Definition six_b : list vec3 := [V3 0 1 0; V3 0 0 1; V3 1 0 0; V3 0 (3/5) (4/5); V3 (4/5) 0 (3/5); V3 (4/5) (3/5) 0].
Lemma six_unit f : In f six_a \/ In f six_b -> norm2 f = 1.
Proof. intros [H|H]; unfold six_a, six_b in H; cbn [In] in H; repeat (destruct H as [<-|H]; [lunf; field|]); destruct H. Qed.
(** the same array twice (no motion) and two views turned by a third of a circle
    give the same answer *)
Example C85_sixpt_nonvacuous : forall inv solve eig, by_entries_solve solve -> by_entries_eig eig ->
  py_sixpt inv solve eig (rows six_a) (rows six_a) = py_sixpt inv solve eig (rows six_a) (rows six_b) /\
  by_entries_solve (fun n m A B i j => A i j + B i j) /\ by_entries_eig (fun n A i j => RtoC (A i j)).
Proof.
  intros inv solve eig HS HE. split.
  - apply (C85_sixpt_blind_refuted inv solve eig _ _ _ _ six_a six_a six_a six_b HS HE); try apply rows_ok; try reflexivity.
    intros f H. apply six_unit. tauto.
  - split; [intros n m A A' B B' HA HB i j; now rewrite HA, HB|intros n A A' HA i j; now rewrite HA].
Qed.
Example C85_epnp_nonvacuous : exists svd3 svd12 solve a1 a2 junk v p out A t,
  py_epnp svd3 svd12 solve a1 a2 junk v p = PyOk out /\ rotation A /\ pose_is Some out (Pose A t).
Proof.
  destruct C68_nonvacuous as (svd3 & svd12 & solve & a1 & a2 & junk & l & A & t & S3 & RA & HS & Hz & Hu & _ & HN & NU & FR & LS & HJ & _ & L8).
  destruct (C85_epnp_exact svd3 svd12 solve a1 a2 junk (rows (map e_f l)) (rows (map e_p l)) l A t) as (out & E & P); auto.
  - apply holds_abs_rows.
  - lia.
  - exists svd3, svd12, solve, a1, a2, junk, (rows (map e_f l)), (rows (map e_p l)), out, A, t. auto.
Qed.
(** six points on the plane z = 5 in front of a camera at the origin *)
Definition flat6 : list ecorr := map (fun p => EC p p) [V3 0 0 5; V3 1 0 5; V3 0 1 5; V3 1 2 5; V3 (-2) 1 5; V3 3 (-1) 5].
Example C85_planar_nonvacuous : exists svd3 v p, (forall H, is_svd H (svd3 H)) /\ holds_abs v p flat6 /\ (6 <= List.length flat6)%nat /\ coplanar flat6 /\
  rotation mid /\ EpnpProps.sees mid v0 flat6.
Proof.
  destruct C68_nonvacuous as (svd3 & _ & _ & _ & _ & _ & _ & _ & _ & S3 & _).
  exists svd3, (rows (map e_f flat6)), (rows (map e_p flat6)). split; [exact S3|]. split; [apply holds_abs_rows|]. split; [cbn; lia|]. split; [|split; [exact rot_id|]].
  - exists (V3 0 0 1), 5. split; [intro Q; injection Q; intros; lra|].
    intros c Hc. apply in_map_iff in Hc. destruct Hc as (q & <- & Hq). cbn [In e_p] in *. repeat (destruct Hq as [<-|Hq]; [lunf; ring|]). destruct Hq.
  - intros c Hc. exists 1. split; [lra|]. apply in_map_iff in Hc. destruct Hc as (q & <- & _). cbn [e_p e_f]. rewrite mv_id, vscale_1, vadd_0_l. reflexivity.
Qed.
(** a camera looking at six points, and one turned away from them *)
Example C85_gpnp_nonvacuous : forall svd3 svdP svdA lm, let ps := map e_p flat6 in
  py_gpnp svd3 svdP svdA lm (rows ps) (rows ps) = py_gpnp svd3 svdP svdA lm (rows (map vneg ps)) (rows ps).
Proof.
  intros svd3 svdP svdA lm ps. apply (C85_gpnp_blind_refuted svd3 svdP svdA lm _ _ _ ps (map vneg ps) ps []); try apply rows_ok; try reflexivity; cbn; lia.
Qed.
