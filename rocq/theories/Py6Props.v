(** C89: the Python wrapper of GP3P. *)
From Coq Require Import Reals Lra Lia List Arith ZArith.
From Verif Require Import Lin GenLin Cplx RotModel RotProps GeoModel TriModel GbModel GbProps Gp3pData Gp3pInit Gp3pModel Gp3pProps Gp3pElim PyModel PySpec PyProps Py6Model.
Import ListNotations.
Local Open Scope R_scope.

(** * Specification *)
(** three vectors by their index *)
Definition tri (a b c : vec3) (i : nat) : vec3 := nth i [a; b; c] v0.
(** Pose (Q, t) puts every point on its ray through the camera centre, at the
    signed distance n from it: point = Q (n f) + t. *)
Definition on_rays (fs ps : nat -> vec3) (Q : mat3) (t : vec3) (n : nat -> R) : Prop :=
  forall i, (i < 3)%nat -> ps i = vadd (mv Q (vscale (n i) (fs i))) t.
(** what the elimination of gp3p gives for these rays, all through one centre *)
Definition central_elim (fs ps : nat -> vec3) : option gmat := grun gp_compute (gp_init fs (fun _ => v0) ps).
(** column c of the eigenvectors is a multiple of the monomials at the solution
    with Cayley parameters c and distances n *)
Definition is_solution_vector (w : nat -> cx) (cay : vec3) (n : nat -> R) : Prop :=
  exists s, s <> c0 /\ forall i, (i < 8)%nat -> w i = cmul s (RtoC (gp_basis cay n i)).

(** * Reading *)
Lemma init_ext f v p f' v' p' : (forall i, (i < 3)%nat -> f i = f' i) -> (forall i, (i < 3)%nat -> v i = v' i) ->
  (forall i, (i < 3)%nat -> p i = p' i) -> gp_init f v p = gp_init f' v' p'.
Proof.
  intros Hf Hv Hp. unfold gp_init. f_equal. unfold gp_cells.
  rewrite (Hf 0%nat), (Hf 1%nat), (Hf 2%nat), (Hv 0%nat), (Hv 1%nat), (Hv 2%nat), (Hp 0%nat), (Hp 1%nat), (Hp 2%nat) by lia. reflexivity.
Qed.
Lemma column_ext f v p f' v' p' lam w : (forall i, (i < 3)%nat -> f i = f' i) -> (forall i, (i < 3)%nat -> v i = v' i) ->
  (forall i, (i < 3)%nat -> p i = p' i) -> gp_column f v p lam w = gp_column f' v' p' lam w.
Proof.
  intros Hf Hv Hp. unfold gp_column, gp_pose.
  rewrite (Hf 0%nat), (Hf 1%nat), (Hf 2%nat), (Hv 0%nat), (Hv 1%nat), (Hv 2%nat), (Hp 0%nat), (Hp 1%nat), (Hp 2%nat) by lia. reflexivity.
Qed.
Lemma main_ext eig f v p f' v' p' : (forall i, (i < 3)%nat -> f i = f' i) -> (forall i, (i < 3)%nat -> v i = v' i) ->
  (forall i, (i < 3)%nat -> p i = p' i) -> gp3p_main eig f v p = gp3p_main eig f' v' p'.
Proof.
  intros Hf Hv Hp. unfold gp3p_main. rewrite (init_ext f v p f' v' p') by assumption.
  destruct (grun gp_compute (gp_init f' v' p')) as [G|]; [|reflexivity]. f_equal.
  induction (seq 0 8) as [|c l IH]; [reflexivity|]. cbn [flat_map]. rewrite IH. f_equal. now apply column_ext.
Qed.
Lemma gp3p_call eig v p f1 f2 f3 P1 P2 P3 fs ps : rows_are num v (f1 :: f2 :: f3 :: fs) -> rows_are num p (P1 :: P2 :: P3 :: ps) ->
  py_gp3p eig v p = PyOk (option_map (map arr_of_pose) (gp3p_main eig (tri f1 f2 f3) (fun _ => v0) (tri P1 P2 P3))).
Proof.
  intros Hv Hp. unfold py_gp3p, three_rows.
  rewrite (row_of_rows _ _ 0 _ Hv eq_refl), (row_of_rows _ _ 1 _ Hv eq_refl), (row_of_rows _ _ 2 _ Hv eq_refl).
  rewrite (row_of_rows _ _ 0 _ Hp eq_refl), (row_of_rows _ _ 1 _ Hp eq_refl), (row_of_rows _ _ 2 _ Hp eq_refl). cbn [pybind].
  do 2 f_equal. unfold gp3p3, gp3p. cbn [length Nat.ltb Nat.leb].
  apply main_ext; intros [|[|[|i]]] Hi; try lia; cbn [nth gc_f gc_R gc_v gc_p]; rewrite ?mv_id; reflexivity.
Qed.
Lemma sees_central f p Q t n : on_rays f p Q t n <-> sees3 f (fun _ => v0) p Q t n.
Proof.
  unfold on_rays, sees3. split; intros H i Hi; rewrite (H i Hi); do 2 f_equal; generalize (vscale (n i) (f i)); intros [a b c]; lunf; f_equal; ring.
Qed.

(** * Results *)
(** The list contains every solution of the three-point problem of which the
    eigendecomposition contains the vector of monomials: the pose that puts the
    first three points on their rays.  The distances may have any sign: solutions
    with the points behind the camera are not removed. *)
Theorem C89_recovers : forall eig v p f1 f2 f3 P1 P2 P3 fs ps Q t n cay G c,
  rows_are num v (f1 :: f2 :: f3 :: fs) -> rows_are num p (P1 :: P2 :: P3 :: ps) ->
  rotation Q -> on_rays (tri f1 f2 f3) (tri P1 P2 P3) Q t n -> rot2cayley (mT Q) = Some cay ->
  central_elim (tri f1 f2 f3) (tri P1 P2 P3) = Some G -> (c < 8)%nat ->
  im (fst (eig (gp_M G)) c) < 1 / 10000 -> is_solution_vector (fun i => snd (eig (gp_M G)) i c) cay n ->
  exists outs out, py_gp3p eig v p = PyOk (Some outs) /\ In out outs /\ pose_is Some out (Pose Q t).
Proof.
  intros eig v p f1 f2 f3 P1 P2 P3 fs ps Q t n cay G c Hv Hp RQ On Hc EG L IM (s & Ns & W).
  rewrite (gp3p_call eig v p _ _ _ _ _ _ _ _ Hv Hp). unfold gp3p_main. unfold central_elim in EG. rewrite EG. cbn [option_map].
  eexists _, (arr_of_pose (Some (Pose Q t))). split; [reflexivity|]. split; [|apply arr_of_pose_is].
  apply in_map, in_flat_map. exists c. split; [apply in_seq; lia|].
  rewrite (C57_true_pose _ _ _ Q t n cay _ _ s RQ Hc) by (try apply sees_central; assumption). now left.
Qed.

(** The half turn about w *)
Definition turn (w : vec3) : mat3 := msub (mscale (2 / norm2 w) (outer w w)) mid.
Lemma turn_rotation w : w <> v0 -> rotation (turn w).
Proof.
  intro N. assert (D : norm2 w <> 0) by (intro Z; apply N; now apply norm2_zero). revert D. destruct w as [a b c]. unfold turn. lunf. intro D.
  split; lunf; [f_equal; field; exact D|field; exact D].
Qed.
Lemma turn_perp w u : w <> v0 -> dot w u = 0 -> mv (turn w) u = vneg u.
Proof.
  intros N H. assert (E : mv (turn w) u = vsub (vscale (2 / norm2 w * dot w u) w) u) by (destruct w, u; unfold turn; lunf; f_equal; ring).
  rewrite E, H. destruct w, u. lunf. f_equal; ring.
Qed.

(** One camera cannot tell front from back: every solution has a second one, with
    another rotation, that puts the three points on the same rays at the opposite
    distances. *)
Theorem C89_mirror : forall f p Q t n, rotation Q -> on_rays f p Q t n ->
  ~ parallel (vsub (p 0%nat) (p 1%nat)) (vsub (p 1%nat) (p 2%nat)) ->
  exists Q' t', rotation Q' /\ Q' <> Q /\ on_rays f p Q' t' (fun i => - n i).
Proof.
  intros f p Q t n RQ On NP. set (w := cross (vsub (p 0%nat) (p 1%nat)) (vsub (p 1%nat) (p 2%nat))).
  assert (Nw : w <> v0) by (intro Z; apply NP; exact Z).
  set (X := fun i => mv Q (vscale (n i) (f i))).
  assert (EX : forall i, (i < 3)%nat -> X i = vsub (p i) t).
  { intros i Hi. rewrite (On i Hi). fold (X i). generalize (X i). intros [a b c]. destruct t. lunf. f_equal; ring. }
  assert (PP : forall i, (i < 3)%nat -> dot w (vsub (p i) (p 0%nat)) = 0).
  { intros i Hi. unfold w. destruct i as [|[|[|i]]]; [| | |lia];
    generalize (p 0%nat) (p 1%nat) (p 2%nat); intros [a1 a2 a3] [b1 b2 b3] [e1 e2 e3]; lunf; ring. }
  exists (mmul (turn w) Q), (vadd (p 0%nat) (mv (turn w) (vsub (p 0%nat) t))).
  split; [apply rot_mmul; [now apply turn_rotation|exact RQ]|]. split.
  - intro E.
    assert (D : mv (turn w) (vsub (X 1%nat) (X 0%nat)) = vsub (X 1%nat) (X 0%nat)).
    { unfold X. rewrite <- mv_sub, <- mv_mmul, E. reflexivity. }
    assert (D' : vsub (X 1%nat) (X 0%nat) = vsub (p 1%nat) (p 0%nat)).
    { rewrite !EX by lia. generalize (p 0%nat) (p 1%nat). intros [a1 a2 a3] [b1 b2 b3]. destruct t. lunf. f_equal; ring. }
    rewrite D', (turn_perp w) in D by (auto; apply PP; lia). apply NP. unfold parallel. revert D.
    generalize (p 0%nat) (p 1%nat) (p 2%nat). intros [a1 a2 a3] [b1 b2 b3] [e1 e2 e3]. lunf. intro D. injection D as D1 D2 D3.
    replace a1 with b1 by lra. replace a2 with b2 by lra. replace a3 with b3 by lra. f_equal; ring.
  - intros i Hi. rewrite mv_mmul.
    replace (vscale (- n i) (f i)) with (vneg (vscale (n i) (f i))) by (destruct (f i); lunf; f_equal; ring).
    replace (mv Q (vneg (vscale (n i) (f i)))) with (vneg (X i)) by (unfold X; destruct Q, (vscale (n i) (f i)); lunf; f_equal; ring).
    rewrite (EX i Hi). pose proof (turn_perp w _ Nw (PP i Hi)) as T.
    assert (L : mv (turn w) (vneg (vsub (p i) t)) = vneg (vadd (mv (turn w) (vsub (p i) (p 0%nat))) (mv (turn w) (vsub (p 0%nat) t)))).
    { generalize (turn w) (p i) (p 0%nat). intros [] [] []. destruct t. lunf. f_equal; ring. }
    rewrite L, T. generalize (mv (turn w) (vsub (p 0%nat) t)) (p i) (p 0%nat). intros [] [] []. lunf. f_equal; ring.
Qed.
(** One array for every eigenvalue the imaginary part of which is below 1e-4, at
    most eight; each is NaN or a proper rotation with a translation, and only the
    first three rows of the arguments matter. *)
Lemma column_length f v p lam w : length (gp_column f v p lam w) = if Rlt_dec (im lam) (1 / 10000) then 1%nat else 0%nat.
Proof. unfold gp_column. destruct (Rlt_dec _ _); reflexivity. Qed.
Theorem C89_output : forall eig v p f1 f2 f3 P1 P2 P3 fs ps outs,
  rows_are num v (f1 :: f2 :: f3 :: fs) -> rows_are num p (P1 :: P2 :: P3 :: ps) -> py_gp3p eig v p = PyOk (Some outs) ->
  exists G, central_elim (tri f1 f2 f3) (tri P1 P2 P3) = Some G /\
    length outs = length (filter (fun c => if Rlt_dec (im (fst (eig (gp_M G)) c)) (1 / 10000) then true else false) (seq 0 8)) /\
    (length outs <= 8)%nat /\
    forall out, In out outs -> shp out = [3%nat; 4%nat] /\
      ((forall i j, (i < 3)%nat -> (j < 4)%nat -> elem2 out i j = Some None) \/ exists T, rotation (pR T) /\ pose_is Some out T).
Proof.
  intros eig v p f1 f2 f3 P1 P2 P3 fs ps outs Hv Hp E. rewrite (gp3p_call eig v p _ _ _ _ _ _ _ _ Hv Hp) in E. unfold gp3p_main in E.
  unfold central_elim. destruct (grun gp_compute _) as [G|]; [|discriminate]. cbn [option_map] in E.
  assert (E' : outs = map arr_of_pose (flat_map (fun c => gp_column (tri f1 f2 f3) (fun _ => v0) (tri P1 P2 P3) (fst (eig (gp_M G)) c) (fun i => snd (eig (gp_M G)) i c)) (seq 0 8)))
    by (symmetry; congruence). clear E. subst outs.
  exists G. split; [reflexivity|]. set (D := fst (eig (gp_M G))). set (V := snd (eig (gp_M G))).
  assert (LL : forall l, length (map arr_of_pose (flat_map (fun c => gp_column (tri f1 f2 f3) (fun _ => v0) (tri P1 P2 P3) (D c) (fun i => V i c)) l)) =
    length (filter (fun c => if Rlt_dec (im (D c)) (1 / 10000) then true else false) l)).
  { intro l. rewrite map_length. induction l as [|c l IH]; [reflexivity|]. cbn [flat_map filter]. rewrite app_length, column_length, IH.
    destruct (Rlt_dec _ _); reflexivity. }
  split; [apply LL|]. split.
  - rewrite LL. clear. assert (K : forall (g : nat -> bool) l, (length (filter g l) <= length l)%nat).
    { intros g l. induction l as [|c l IH]; [apply le_n|]. cbn. destruct (g c); cbn; lia. }
    etransitivity; [apply K|]. rewrite seq_length. apply le_n.
  - intros out I. apply in_map_iff in I as (o & <- & I). split; [reflexivity|]. apply in_flat_map in I as (c & _ & I).
    destruct o as [T|].
    + right. exists T. split; [exact (proj1 (C57_output _ _ _ _ _ _ I))|apply arr_of_pose_is].
    + left. intros [|[|[|i]]] [|[|[|[|j]]]] Hi Hj; try lia; reflexivity.
Qed.
(** further rows are ignored *)
Theorem C89_first_three : forall eig v p v' p' f1 f2 f3 P1 P2 P3 fs ps fs' ps',
  rows_are num v (f1 :: f2 :: f3 :: fs) -> rows_are num p (P1 :: P2 :: P3 :: ps) ->
  rows_are num v' (f1 :: f2 :: f3 :: fs') -> rows_are num p' (P1 :: P2 :: P3 :: ps') -> py_gp3p eig v p = py_gp3p eig v' p'.
Proof.
  intros eig v p v' p' f1 f2 f3 P1 P2 P3 fs ps fs' ps' Hv Hp Hv' Hp'.
  rewrite (gp3p_call eig v p _ _ _ _ _ _ _ _ Hv Hp), (gp3p_call eig v' p' _ _ _ _ _ _ _ _ Hv' Hp'). reflexivity.
Qed.
(** and fewer than three rows in either array raise an exception *)
Theorem C89_few_rows : forall eig v p n m r r', full v -> full p -> no_empty_tail 2 v -> no_empty_tail 2 p ->
  shp v = n :: r -> shp p = m :: r' -> (n < 3)%nat \/ (m < 3)%nat -> py_gp3p eig v p = PyRaise.
Proof.
  intros eig v p n m r r' Fv Fp Nv Np Sv Sp H.
  assert (K : forall a k s, shp a = k :: s -> (k < 3)%nat -> full a -> no_empty_tail 2 a -> three_rows a = PyRaise).
  { intros a k s S L F N.
    assert (RR : forall i, (k <= i)%nat -> row_of a i = PyRaise).
    { intros i Hi. unfold row_of, at_py. rewrite S. cbn [offset]. apply Nat.ltb_ge in Hi. now rewrite Hi. }
    unfold three_rows. pose proof (row_safe a 0 F N) as S0. pose proof (row_safe a 1 F N) as S1.
    destruct k as [|[|[|k]]]; [| | |lia].
    - rewrite (RR 0%nat) by lia. reflexivity.
    - destruct (row_of a 0); [|reflexivity|contradiction]. cbn [pybind]. rewrite (RR 1%nat) by lia. reflexivity.
    - destruct (row_of a 0); [|reflexivity|contradiction]. cbn [pybind]. destruct (row_of a 1); [|reflexivity|contradiction]. cbn [pybind].
      rewrite (RR 2%nat) by lia. reflexivity. }
  unfold py_gp3p. pose proof (three_safe v Fv Nv) as S0.
  destruct H as [H|H].
  - rewrite (K v n r) by assumption. reflexivity.
  - rewrite (K p m r') by assumption. destruct (three_rows v) as [[[? ?] ?]| |]; [reflexivity|reflexivity|contradiction].
Qed.

(** * Instance *)
Definition gc_n : nat -> R := fun i => nth i [15; 30; 45] 0.
Definition gc_t : vec3 := V3 (-1) 1 2.
Definition gc_Q : mat3 := mT (cayley2rot (V3 1 2 3)).
Definition gc_va : parr R := Arr [3%nat; 3%nat] [2; -3; 1; 2; 5; 3; -2; 2; -1].
Definition gc_pa : parr R := Arr [3%nat; 3%nat] [-51; 26; -3; 67; 27; 172; 119; -59; -13].
Definition gc_F := tri (V3 2 (-3) 1) (V3 2 5 3) (V3 (-2) 2 (-1)).
Definition gc_P := tri (V3 (-51) 26 (-3)) (V3 67 27 172) (V3 119 (-59) (-13)).
Definition gc_cells : list (nat * nat * Z) := [(0%nat, 20%nat, -2); (0%nat, 21%nat, 2); (0%nat, 32%nat, -2); (0%nat, 33%nat, 2); (0%nat, 52%nat, -2); (0%nat, 53%nat, 2); (0%nat, 66%nat, -118); (0%nat, 71%nat, -118); (0%nat, 75%nat, 350); (0%nat, 76%nat, 2); (0%nat, 77%nat, 118); (0%nat, 79%nat, -2); (0%nat, 80%nat, 2); (0%nat, 81%nat, -2); (0%nat, 82%nat, 350); (0%nat, 84%nat, 118); (1%nat, 20%nat, -5); (1%nat, 21%nat, -3); (1%nat, 32%nat, -5); (1%nat, 33%nat, -3); (1%nat, 52%nat, -5); (1%nat, 53%nat, -3); (1%nat, 66%nat, -1); (1%nat, 70%nat, 350); (1%nat, 71%nat, 1); (1%nat, 76%nat, 236); (1%nat, 77%nat, -1); (1%nat, 79%nat, -5); (1%nat, 80%nat, -3); (1%nat, 81%nat, 236); (1%nat, 83%nat, -350); (1%nat, 84%nat, 1); (2%nat, 20%nat, -3); (2%nat, 21%nat, 1); (2%nat, 32%nat, -3); (2%nat, 33%nat, 1); (2%nat, 52%nat, -3); (2%nat, 53%nat, 1); (2%nat, 66%nat, 175); (2%nat, 70%nat, 2); (2%nat, 71%nat, -175); (2%nat, 75%nat, 236); (2%nat, 77%nat, -175); (2%nat, 79%nat, -3); (2%nat, 80%nat, 1); (2%nat, 82%nat, -236); (2%nat, 83%nat, 2); (2%nat, 84%nat, 175); (3%nat, 19%nat, 2); (3%nat, 20%nat, 2); (3%nat, 31%nat, 2); (3%nat, 32%nat, 2); (3%nat, 51%nat, 2); (3%nat, 52%nat, 2); (3%nat, 66%nat, -52); (3%nat, 71%nat, -52); (3%nat, 75%nat, -370); (3%nat, 76%nat, -172); (3%nat, 77%nat, 52); (3%nat, 78%nat, 2); (3%nat, 79%nat, 2); (3%nat, 81%nat, 172); (3%nat, 82%nat, -370); (3%nat, 84%nat, 52); (4%nat, 19%nat, -2); (4%nat, 20%nat, 5); (4%nat, 31%nat, -2); (4%nat, 32%nat, 5); (4%nat, 51%nat, -2); (4%nat, 52%nat, 5); (4%nat, 66%nat, 86); (4%nat, 70%nat, -370); (4%nat, 71%nat, -86); (4%nat, 76%nat, 104); (4%nat, 77%nat, 86); (4%nat, 78%nat, -2); (4%nat, 79%nat, 5); (4%nat, 81%nat, 104); (4%nat, 83%nat, 370); (4%nat, 84%nat, -86); (5%nat, 19%nat, 1); (5%nat, 20%nat, 3); (5%nat, 31%nat, 1); (5%nat, 32%nat, 3); (5%nat, 51%nat, 1); (5%nat, 52%nat, 3); (5%nat, 66%nat, -185); (5%nat, 70%nat, -172); (5%nat, 71%nat, 185); (5%nat, 75%nat, 104); (5%nat, 77%nat, 185); (5%nat, 78%nat, 1); (5%nat, 79%nat, 3); (5%nat, 82%nat, -104); (5%nat, 83%nat, -172); (5%nat, 84%nat, -185); (6%nat, 19%nat, -2); (6%nat, 21%nat, -2); (6%nat, 31%nat, -2); (6%nat, 33%nat, -2); (6%nat, 51%nat, -2); (6%nat, 53%nat, -2); (6%nat, 66%nat, 170); (6%nat, 71%nat, 170); (6%nat, 75%nat, 20); (6%nat, 76%nat, 170); (6%nat, 77%nat, -170); (6%nat, 78%nat, -2); (6%nat, 80%nat, -2); (6%nat, 81%nat, -170); (6%nat, 82%nat, 20); (6%nat, 84%nat, -170); (7%nat, 19%nat, 2); (7%nat, 21%nat, 3); (7%nat, 31%nat, 2); (7%nat, 33%nat, 3); (7%nat, 51%nat, 2); (7%nat, 53%nat, 3); (7%nat, 66%nat, -85); (7%nat, 70%nat, 20); (7%nat, 71%nat, 85); (7%nat, 76%nat, -340); (7%nat, 77%nat, -85); (7%nat, 78%nat, 2); (7%nat, 80%nat, 3); (7%nat, 81%nat, -340); (7%nat, 83%nat, -20); (7%nat, 84%nat, 85); (8%nat, 19%nat, -1); (8%nat, 21%nat, -1); (8%nat, 31%nat, -1); (8%nat, 33%nat, -1); (8%nat, 51%nat, -1); (8%nat, 53%nat, -1); (8%nat, 66%nat, 10); (8%nat, 70%nat, 170); (8%nat, 71%nat, -10); (8%nat, 75%nat, -340); (8%nat, 77%nat, -10); (8%nat, 78%nat, -1); (8%nat, 80%nat, -1); (8%nat, 82%nat, 340); (8%nat, 83%nat, 170); (8%nat, 84%nat, 10)]%Z.
Lemma gc_good : match grun_i gp_compute (icells gc_cells) with Some _ => true | None => false end = true.
Proof. vm_cast_no_check (@eq_refl bool true). Qed.
Lemma gc_init : gp_cells gc_F (fun _ => v0) gc_P = map (fun e => (fst e, IZR (snd e))) gc_cells.
Proof. unfold gp_cells, gc_cells, gc_F, gc_P, tri, v0. cbn [vx vy vz nth map fst snd]. repeat (apply f_equal2; [apply f_equal2; [reflexivity|ring]|]). reflexivity. Qed.
Lemma gc_elim : exists G, central_elim gc_F gc_P = Some G.
Proof.
  unfold central_elim, gp_init. rewrite gc_init. pose proof gc_good as E. destruct (grun_i gp_compute (icells gc_cells)) as [M'|] eqn:E1; [|discriminate].
  exact (grun_i_ok _ _ _ _ (icells_ok _) E1).
Qed.
Lemma gc_rays : on_rays gc_F gc_P gc_Q gc_t gc_n.
Proof. intros i Hi. do 3 (destruct i as [|i]; [unfold gc_F, gc_P, tri, gc_Q, gc_t, gc_n; cbn [nth]; unfold cayley2rot, cayley2rot_reduced; lunf; cbn; lunf; f_equal; field|]). lia. Qed.
Lemma gc_va_rows : rows_are num gc_va [V3 2 (-3) 1; V3 2 5 3; V3 (-2) 2 (-1)].
Proof.
  split; [reflexivity|]. split; [reflexivity|]. intros i k u H Hk.
  destruct i as [|[|[|[|i]]]]; cbn in H; try discriminate; injection H as <-; destruct k as [|[|[|k]]]; try lia; reflexivity.
Qed.
Lemma gc_pa_rows : rows_are num gc_pa [V3 (-51) 26 (-3); V3 67 27 172; V3 119 (-59) (-13)].
Proof.
  split; [reflexivity|]. split; [reflexivity|]. intros i k u H Hk.
  destruct i as [|[|[|[|i]]]]; cbn in H; try discriminate; injection H as <-; destruct k as [|[|[|k]]]; try lia; reflexivity.
Qed.
Definition gc_eig (M : nat -> nat -> R) : (nat -> cx) * (nat -> nat -> cx) :=
  (fun c => if Nat.eqb c 5 then RtoC 1 else Cx 0 1, fun i c => cmul (Cx 0 2) (RtoC (gp_basis (V3 1 2 3) gc_n i))).
(** the true pose comes out, as the only array *)
Example C89_recovers_nonvacuous : exists outs out, py_gp3p gc_eig gc_va gc_pa = PyOk (Some outs) /\ In out outs /\
  pose_is Some out (Pose gc_Q gc_t) /\ length outs = 1%nat.
Proof.
  destruct gc_elim as (G & EG).
  destruct (C89_recovers gc_eig gc_va gc_pa _ _ _ _ _ _ _ _ gc_Q gc_t gc_n (V3 1 2 3) G 5 gc_va_rows gc_pa_rows) as (outs & out & E & I & Pz).
  - apply rot_T, C24_cayley2rot_is_rotation.
  - exact gc_rays.
  - unfold gc_Q. rewrite mT_mT. apply C25_rot_of_cayley_and_back.
  - exact EG.
  - lia.
  - cbn. lra.
  - exists (Cx 0 2). split; [intro H; injection H; lra|reflexivity].
  - exists outs, out. repeat split; auto; try apply Pz.
    destruct (C89_output gc_eig gc_va gc_pa _ _ _ _ _ _ _ _ outs gc_va_rows gc_pa_rows E) as (G' & _ & L & _). rewrite L.
    cbn [gc_eig fst seq filter Nat.eqb RtoC im]. repeat (destruct (Rlt_dec _ _) as [?|?]; [try (exfalso; lra)|try (exfalso; lra)]). reflexivity.
Qed.
Example C89_mirror_nonvacuous : rotation gc_Q /\ on_rays gc_F gc_P gc_Q gc_t gc_n /\
  ~ parallel (vsub (gc_P 0%nat) (gc_P 1%nat)) (vsub (gc_P 1%nat) (gc_P 2%nat)).
Proof.
  split; [apply rot_T, C24_cayley2rot_is_rotation|]. split; [exact gc_rays|].
  unfold gc_P, tri, parallel. cbn [nth]. lunf. intro H. injection H as H1 H2 H3. lra.
Qed.
Example C89_few_rows_nonvacuous : py_gp3p gc_eig (Arr [2%nat; 3%nat] [1; 2; 3; 4; 5; 6]) gc_pa = PyRaise.
Proof.
  apply (C89_few_rows gc_eig (Arr [2%nat; 3%nat] [1; 2; 3; 4; 5; 6]) gc_pa 2 3 [3%nat] [3%nat]); try reflexivity; try (left; lia); apply Forall_nil.
Qed.
