(** C81, C82: the Python bindings. *)
From Coq Require Import ZArith Reals Lra List Lia String Floats Bool.
From Verif Require Import SacModel SacSpec SacLmedsProofs SacProps Lin Cplx GenLin ArunModel GeoModel GeoProps TriModel TriProps P3pModel P3pProps GaoModel ArunProps PyModel PySpec.
Import ListNotations.
Local Open Scope R_scope.

(** * Reading *)
Lemma at2 (a : parr R) n m i j : shp a = [n; m] -> (i < n)%nat -> (j < m)%nat ->
  at_py a [i; j] = match elem2 a i j with Some x => PyOk x | None => PyUB end.
Proof.
  intros S Hi Hj. unfold at_py, elem2. rewrite S. cbn [offset].
  apply Nat.ltb_lt in Hi, Hj. rewrite Hi, Hj. cbn [andb option_map offset prodn fold_right].
  replace (i * (m * 1) + (j * 1 + 0))%nat with (i * m + j)%nat by lia. reflexivity.
Qed.
Lemma row_of_rows a l i v : rows_are num a l -> nth_error l i = Some v -> row_of a i = PyOk v.
Proof.
  intros (S & F & E) H. assert (L : (i < List.length l)%nat) by (apply nth_error_Some; congruence).
  unfold row_of. rewrite !(at2 a _ _ i _ S L) by lia. rewrite !(E i _ v H) by lia. destruct v; reflexivity.
Qed.
Lemma rot_of_mat a M : mat_is num a M -> rot_of a = PyOk M.
Proof.
  intros (S & F & E). unfold rot_of, row_of. rewrite !(at2 a _ _ _ _ S) by lia. rewrite !E by lia.
  destruct M; reflexivity.
Qed.
Lemma vec_of_vec a t : vec_is num a t -> vec_of a = PyOk t.
Proof.
  intros (S & F & E). unfold vec_of, at_py. rewrite S. cbn [offset Nat.ltb Nat.leb option_map prodn fold_right Nat.mul Nat.add].
  pose proof (E 0%nat ltac:(lia)) as E0. pose proof (E 1%nat ltac:(lia)) as E1. pose proof (E 2%nat ltac:(lia)) as E2.
  unfold elem1 in *. rewrite S in *. cbn [Nat.ltb Nat.leb] in *. rewrite E0, E1, E2. destruct t; reflexivity.
Qed.
Lemma nth_error_skip {A} (l : list A) k x : nth_error l k = Some x -> exists l', skipn k l = x :: l' /\ skipn (S k) l = l'.
Proof.
  revert k. induction l as [|y l IH]; intros [|k] H; try discriminate.
  - injection H as ->. eexists; split; reflexivity.
  - apply IH in H. destruct H as (l' & A1 & A2). exists l'. split; auto.
Qed.
Lemma both_rows_all b1 b2 l1 l2 : rows_are num b1 l1 -> rows_are num b2 l2 ->
  forall n k, (k + n = List.length l1)%nat -> (List.length l1 <= List.length l2)%nat ->
  both_rows b1 b2 n k = PyOk (combine (skipn k l1) (skipn k l2)).
Proof.
  intros R1 R2. induction n as [|n IH]; intros k E L.
  - cbn. rewrite skipn_all2 by lia. reflexivity.
  - cbn [both_rows].
    destruct (nth_error l1 k) as [x|] eqn:E1; [|apply nth_error_None in E1; lia].
    destruct (nth_error l2 k) as [y|] eqn:E2; [|apply nth_error_None in E2; lia].
    rewrite (row_of_rows _ _ _ _ R1 E1), (row_of_rows _ _ _ _ R2 E2). cbn [pybind].
    rewrite IH by lia. cbn [pybind].
    destruct (nth_error_skip _ _ _ E1) as (t1 & A1 & B1). destruct (nth_error_skip _ _ _ E2) as (t2 & A2 & B2).
    rewrite A1, A2, B1, B2. reflexivity.
Qed.

(** * Writing *)
Lemma arr_of_vec_is t : vec_is Some (arr_of_vec (Some t)) t.
Proof. split; [reflexivity|]. split; [reflexivity|]. intros [|[|[|k]]] H; try lia; reflexivity. Qed.
Lemma arr_of_rot_is M : mat_is Some (arr_of_rot M) M.
Proof.
  split; [reflexivity|]. split; [reflexivity|].
  intros [|[|[|i]]] [|[|[|j]]] H1 H2; try lia; reflexivity.
Qed.
Lemma arr_of_pose_is T : pose_is Some (arr_of_pose (Some T)) T.
Proof.
  split; [reflexivity|]. split; [reflexivity|]. split.
  - intros [|[|[|i]]] [|[|[|j]]] H1 H2; try lia; reflexivity.
  - intros [|[|[|i]]] H; try lia; reflexivity.
Qed.
Lemma flat_ovec_nth l : forall i k v, nth_error l i = Some v -> (k < 3)%nat ->
  nth_error (flat_map ovec (map Some l)) (i * 3 + k) = Some (Some (ventry v k)).
Proof.
  induction l as [|x l IH]; intros [|i] k v H Hk; try discriminate.
  - injection H as ->. destruct k as [|[|[|k]]]; try lia; reflexivity.
  - change (S i * 3 + k)%nat with (S (S (S (i * 3 + k)))). cbn [map flat_map ovec app nth_error]. now apply IH.
Qed.
Lemma flat_ovec_length l : List.length (flat_map ovec l) = (List.length l * 3)%nat.
Proof. induction l as [|x l IH]; [reflexivity|]. cbn [flat_map ovec app List.length]. rewrite IH. cbn. lia. Qed.
Lemma arr_of_points_are l : l <> [] -> exists a, arr_of_points (map Some l) = PyOk a /\ rows_are Some a l.
Proof.
  intros N. destruct l as [|x l]; [congruence|]. eexists. split; [reflexivity|].
  set (m := x :: l). change (Some x :: map Some l) with (map Some m).
  split; [cbn [shp]; now rewrite map_length|]. split.
  - unfold full. cbn [shp dat prodn fold_right]. rewrite flat_ovec_length. lia.
  - intros i k v H Hk. unfold elem2. cbn [shp dat]. rewrite map_length.
    assert (L : (i < List.length m)%nat) by (apply nth_error_Some; congruence).
    apply Nat.ltb_lt in L. rewrite L. apply Nat.ltb_lt in Hk as Hk'. rewrite Hk'. cbn [andb].
    now apply flat_ovec_nth.
Qed.

(** * C81: arrays in, arrays out *)
(** A camera at [t] sees the first two points along the first two bearings:
    absolute_pose_p2p returns [t], whatever further rows the arrays have. *)
Theorem C81_p2p_exact : forall v p Ra Rc t f0 f1 p0 p1 fs ps d0 d1,
  rows_are num v (f0 :: f1 :: fs) -> rows_are num p (p0 :: p1 :: ps) -> mat_is num Ra Rc ->
  rotation Rc -> unit f0 -> unit f1 -> ~ parallel f0 f1 -> 0 < d0 -> 0 < d1 ->
  p0 = vadd t (vscale d0 (mv Rc f0)) -> p1 = vadd t (vscale d1 (mv Rc f1)) -> ~ p2p_tie p0 p1 ->
  exists out, py_p2p v p Ra = PyOk out /\ vec_is Some out t.
Proof.
  intros v p Ra Rc t f0 f1 p0 p1 fs ps d0 d1 Hv Hp HR RR U0 U1 NP D0 D1 E0 E1 NT.
  eexists. split; [|apply arr_of_vec_is]. unfold py_p2p. rewrite (rot_of_mat _ _ HR). cbn [pybind].
  rewrite (row_of_rows _ _ 0 f0 Hv eq_refl), (row_of_rows _ _ 1 f1 Hv eq_refl).
  rewrite (row_of_rows _ _ 0 p0 Hp eq_refl), (row_of_rows _ _ 1 p1 Hp eq_refl). cbn [pybind].
  now rewrite (C41_exact Rc t f0 f1 p0 p1 d0 d1).
Qed.
(** relative_pose_twopt: the direction of the translation. *)
Theorem C81_twopt_exact : forall b1 b2 Ra A t f1 f1' f2 f2' r1 r2 a1 c1 a2 c2,
  rows_are num b1 (f1 :: f2 :: r1) -> rows_are num b2 (f1' :: f2' :: r2) -> mat_is num Ra A ->
  unit f1 -> unit (mv A f1') -> 0 < a1 -> 0 < c1 ->
  vscale a1 f1 = vadd t (vscale c1 (mv A f1')) -> vscale a2 f2 = vadd t (vscale c2 (mv A f2')) ->
  ~ parallel (cross f1 (mv A f1')) (cross f2 (mv A f2')) ->
  exists out, py_twopt b1 b2 Ra = PyOk out /\ vec_is Some out (normalized t).
Proof.
  intros b1 b2 Ra A t f1 f1' f2 f2' r1 r2 a1 c1 a2 c2 H1 H2 HR U1 U1' Ha Hc E1 E2 NP.
  eexists. split; [|apply arr_of_vec_is]. unfold py_twopt. rewrite (rot_of_mat _ _ HR). cbn [pybind].
  rewrite (row_of_rows _ _ 0 f1 H1 eq_refl), (row_of_rows _ _ 1 f2 H1 eq_refl).
  rewrite (row_of_rows _ _ 0 f1' H2 eq_refl), (row_of_rows _ _ 1 f2' H2 eq_refl). cbn [pybind].
  now rewrite (C39_exact A t f1 f1' f2 f2' a1 c1 a2 c2).
Qed.
(** relative_pose_rotation_only and relative_pose_twopt_rotation_only. *)
Theorem C81_rotation_only_exact : forall svd b1 b2 l extra A, (forall H, is_svd H (svd H)) -> rotation A ->
  rows_are num b1 (map (mv A) l) -> rows_are num b2 (l ++ extra) -> (forall f, In f l -> unit f) ->
  (exists p q r, In p l /\ In q l /\ In r l /\ p <> q /\ p <> r /\ q <> r) ->
  exists out, py_rotationOnly svd b1 b2 = PyOk out /\ mat_is Some out A.
Proof.
  intros svd b1 b2 l extra A S RA H1 H2 U (p & q & r & Ip & Iq & Ir & D1 & D2 & D3).
  eexists. split; [|apply arr_of_rot_is]. unfold py_rotationOnly, shape0. rewrite (proj1 H1). cbn [pybind].
  rewrite (both_rows_all _ _ _ _ H1 H2) by (rewrite ?app_length, ?map_length; lia). cbn [pybind skipn].
  assert (EC : combine (map (mv A) l) (l ++ extra) = map (fun f => (mv A f, f)) l).
  { clear. induction l as [|x l IH]; [reflexivity|]. cbn. now rewrite IH. }
  rewrite EC. rewrite (C40_rotationOnly_exact svd _ A S RA); [reflexivity| |].
  - intros x Hx. apply in_map_iff in Hx. destruct Hx as (f & <- & Hf). cbn. auto.
  - exists (mv A p, p), (mv A q, q), (mv A r, r). cbn [snd].
    repeat split; auto; apply in_map_iff; eauto.
Qed.
Theorem C81_twopt_rotation_only_exact : forall svd b1 b2 f0 f1 r1 r2 A, (forall H, is_svd H (svd H)) -> rotation A ->
  rows_are num b1 (mv A f0 :: mv A f1 :: r1) -> rows_are num b2 (f0 :: f1 :: r2) -> cross f0 f1 <> v0 ->
  exists out, py_twopt_rotationOnly svd b1 b2 = PyOk out /\ mat_is Some out A.
Proof.
  intros svd b1 b2 f0 f1 r1 r2 A S RA H1 H2 N. eexists. split; [|apply arr_of_rot_is].
  unfold py_twopt_rotationOnly.
  rewrite (row_of_rows _ _ 0 _ H1 eq_refl), (row_of_rows _ _ 1 _ H1 eq_refl).
  rewrite (row_of_rows _ _ 0 _ H2 eq_refl), (row_of_rows _ _ 1 _ H2 eq_refl). cbn [pybind].
  now rewrite (C40_twopt_rotationOnly_exact svd f0 f1 A S RA N).
Qed.

(** triangulation_triangulate2 and triangulation_triangulate: row i of the
    result is the i-th point.  [l] = triples (bearing 1, bearing 2, point). *)
Definition tf1 (q : vec3 * vec3 * vec3) : vec3 := fst (fst q).
Definition tf2 (q : vec3 * vec3 * vec3) : vec3 := snd (fst q).
Definition tX (q : vec3 * vec3 * vec3) : vec3 := snd q.
Lemma triangulate_with_exact f b1 b2 ta Ra l extra t A : l <> [] ->
  rows_are num b1 (map tf1 l) -> rows_are num b2 (map tf2 l ++ extra) -> vec_is num ta t -> mat_is num Ra A ->
  (forall q, In q l -> f A t (tf1 q) (tf2 q) = Some (tX q)) ->
  exists out, py_triangulate_with f b1 b2 ta Ra = PyOk out /\ rows_are Some out (map tX l).
Proof.
  intros N H1 H2 Ht HR Ex. unfold py_triangulate_with. rewrite (vec_of_vec _ _ Ht), (rot_of_mat _ _ HR). cbn [pybind].
  unfold shape0. rewrite (proj1 H1). cbn [pybind].
  rewrite (both_rows_all _ _ _ _ H1 H2) by (rewrite ?app_length, ?map_length; lia). cbn [pybind skipn].
  assert (EC : map (fun q => f A t (fst q) (snd q)) (combine (map tf1 l) (map tf2 l ++ extra)) = map Some (map tX l)).
  { clear N H1 H2. induction l as [|x l IH]; [reflexivity|]. cbn [map app combine fst snd].
    rewrite IH by (intros; apply Ex; now right). rewrite (Ex x) by now left. reflexivity. }
  rewrite EC. apply arr_of_points_are. destruct l; [congruence|discriminate].
Qed.
Theorem C81_triangulate2_exact : forall b1 b2 ta Ra l extra t A, l <> [] ->
  rows_are num b1 (map tf1 l) -> rows_are num b2 (map tf2 l ++ extra) -> vec_is num ta t -> mat_is num Ra A ->
  (forall q, In q l -> ~ parallel (tf1 q) (mv A (tf2 q)) /\
     exists a b, tX q = vscale a (tf1 q) /\ tX q = vadd t (vscale b (mv A (tf2 q)))) ->
  exists out, py_triangulate2 b1 b2 ta Ra = PyOk out /\ rows_are Some out (map tX l).
Proof.
  intros b1 b2 ta Ra l extra t A N H1 H2 Ht HR Ex. eapply triangulate_with_exact; eauto.
  intros q Hq. destruct (Ex q Hq) as (NP & a & b & E1 & E2). now apply (C37_exact t A _ _ _ a b).
Qed.
Theorem C81_triangulate_exact : forall svdV b1 b2 ta Ra l extra t A, l <> [] ->
  (forall M, exists U s, is_gsvd 4 4 M U s (svdV M)) ->
  rows_are num b1 (map tf1 l) -> rows_are num b2 (map tf2 l ++ extra) -> vec_is num ta t -> mat_is num Ra A ->
  rotation A ->
  (forall q, In q l -> vz (tf1 q) <> 0 /\ vz (tf2 q) <> 0 /\ ~ parallel (tf1 q) (mv A (tf2 q)) /\
     exists a b, tX q = vscale a (tf1 q) /\ tX q = vadd (mv A (vscale b (tf2 q))) t) ->
  exists out, py_triangulate svdV b1 b2 ta Ra = PyOk out /\ rows_are Some out (map tX l).
Proof.
  intros svdV b1 b2 ta Ra l extra t A N S H1 H2 Ht HR RA Ex. eapply triangulate_with_exact; eauto.
  intros q Hq. destruct (Ex q Hq) as (Z1 & Z2 & NP & a & b & E1 & E2).
  destruct (S (triA A t (tf1 q) (tf2 q))) as (U & s & HS). now apply (C38_exact svdV A t _ _ _ a b U s HS).
Qed.

(** The i-th array of a list of transformations is the i-th solution. *)
Theorem C81_p3p_lists : forall svd csqrt ccbrt v p f1 f2 f3 P1 P2 P3 fs ps,
  rows_are num v (f1 :: f2 :: f3 :: fs) -> rows_are num p (P1 :: P2 :: P3 :: ps) ->
  exists kn gao, py_p3p_kneip csqrt ccbrt v p = PyOk kn /\ py_p3p_gao svd csqrt ccbrt v p = PyOk gao
    /\ List.length kn = List.length (p3p_kneip csqrt ccbrt f1 f2 f3 P1 P2 P3)
    /\ List.length gao = List.length (p3p_gao svd csqrt ccbrt f1 f2 f3 P1 P2 P3)
    /\ (forall i T, nth_error (p3p_kneip csqrt ccbrt f1 f2 f3 P1 P2 P3) i = Some (Some T) ->
          exists out, nth_error kn i = Some out /\ pose_is Some out T)
    /\ (forall i T, nth_error (p3p_gao svd csqrt ccbrt f1 f2 f3 P1 P2 P3) i = Some (Some T) ->
          exists out, nth_error gao i = Some out /\ pose_is Some out T).
Proof.
  intros svd csqrt ccbrt v p f1 f2 f3 P1 P2 P3 fs ps Hv Hp.
  unfold py_p3p_kneip, py_p3p_gao, three_rows.
  rewrite (row_of_rows _ _ 0 _ Hv eq_refl), (row_of_rows _ _ 1 _ Hv eq_refl), (row_of_rows _ _ 2 _ Hv eq_refl).
  rewrite (row_of_rows _ _ 0 _ Hp eq_refl), (row_of_rows _ _ 1 _ Hp eq_refl), (row_of_rows _ _ 2 _ Hp eq_refl). cbn [pybind].
  eexists _, _. split; [reflexivity|]. split; [reflexivity|]. split; [now rewrite map_length|]. split; [now rewrite map_length|].
  split; intros i T H; exists (arr_of_pose (Some T)); (split; [now rewrite nth_error_map, H|apply arr_of_pose_is]).
Qed.

(** A returned transformation fed back as prior, R = T[:, :3] and t = T[:, 3],
    is read back as the same rotation and translation. *)
Theorem C81_round_trip : forall T Ra ta,
  let out := arr_of_pose (Some T) in
  shp Ra = [3%nat; 3%nat] -> shp ta = [3%nat] ->
  (forall i j, (i < 3)%nat -> (j < 3)%nat -> option_map Some (elem2 Ra i j) = elem2 out i j) ->
  (forall i, (i < 3)%nat -> option_map Some (elem1 ta i) = elem2 out i 3) ->
  rot_of Ra = PyOk (pR T) /\ vec_of ta = PyOk (pt T).
Proof.
  intros T Ra ta out SR St HR Ht. destruct (arr_of_pose_is T) as (_ & _ & P1 & P2). split.
  - assert (E : forall i j, (i < 3)%nat -> (j < 3)%nat -> elem2 Ra i j = Some (ventry (mrow3 (pR T) i) j)).
    { intros i j Hi Hj. specialize (HR i j Hi Hj). unfold out in HR. rewrite P1 in HR by auto.
      destruct (elem2 Ra i j); cbn in HR; congruence. }
    unfold rot_of, row_of. rewrite !(at2 Ra _ _ _ _ SR) by lia. rewrite !E by lia. destruct (pR T); reflexivity.
  - assert (E : forall i, (i < 3)%nat -> elem1 ta i = Some (ventry (pt T) i)).
    { intros i Hi. specialize (Ht i Hi). unfold out in Ht. rewrite P2 in Ht by auto.
      destruct (elem1 ta i); cbn in Ht; congruence. }
    unfold vec_of, at_py. rewrite St. cbn [offset Nat.ltb Nat.leb option_map prodn fold_right Nat.mul Nat.add].
    pose proof (E 0%nat ltac:(lia)) as E0. pose proof (E 1%nat ltac:(lia)) as E1. pose proof (E 2%nat ltac:(lia)) as E2.
    unfold elem1 in *. rewrite St in *. cbn [Nat.ltb Nat.leb] in *. rewrite E0, E1, E2. destruct (pt T); reflexivity.
Qed.

(** ** Reads stay inside the buffers *)
(** [k] indices are used; no dimension after them is empty *)
Definition no_empty_tail {E} (k : nat) (a : parr E) : Prop := Forall (fun n => (0 < n)%nat) (skipn k (shp a)).
Lemma prodn_pos l : Forall (fun n => (0 < n)%nat) l -> (0 < prodn l)%nat.
Proof. induction 1; cbn; [lia|]. fold (prodn l). nia. Qed.
Lemma offset_bound : forall shape idx o, offset shape idx = Some o ->
  Forall (fun n => (0 < n)%nat) (skipn (List.length idx) shape) -> (o < prodn shape)%nat.
Proof.
  induction shape as [|n ns IH]; intros [|i idx] o H F; cbn [offset] in H.
  - injection H as <-. cbn. lia.
  - discriminate.
  - injection H as <-. now apply prodn_pos.
  - destruct (Nat.ltb i n) eqn:L; [|discriminate]. apply Nat.ltb_lt in L.
    destruct (offset ns idx) as [o'|] eqn:E; [|discriminate]. cbn in H. injection H as <-.
    specialize (IH idx o' E F). cbn. fold (prodn ns). nia.
Qed.
Lemma at_safe {E} (a : parr E) idx : full a -> no_empty_tail (List.length idx) a -> at_py a idx <> PyUB.
Proof.
  intros F N. unfold at_py. destruct (offset (shp a) idx) eqn:O; [|discriminate].
  pose proof (offset_bound _ _ _ O N) as B. rewrite <- F in B. apply nth_error_Some in B.
  destruct (nth_error (dat a) n); [discriminate|congruence].
Qed.
Lemma pybind_safe {X Y} (a : pyres X) (f : X -> pyres Y) : a <> PyUB -> (forall x, f x <> PyUB) -> pybind a f <> PyUB.
Proof. destruct a; cbn; auto; discriminate. Qed.
Lemma row_safe a i : full a -> no_empty_tail 2 a -> row_of a i <> PyUB.
Proof. intros F N. unfold row_of. repeat (apply pybind_safe; [now apply at_safe|intro]). discriminate. Qed.
Lemma rot_safe a : full a -> no_empty_tail 2 a -> rot_of a <> PyUB.
Proof. intros F N. unfold rot_of. repeat (apply pybind_safe; [now apply row_safe|intro]). discriminate. Qed.
Lemma vec_safe a : full a -> no_empty_tail 1 a -> vec_of a <> PyUB.
Proof. intros F N. unfold vec_of. repeat (apply pybind_safe; [now apply at_safe|intro]). discriminate. Qed.
Lemma three_safe a : full a -> no_empty_tail 2 a -> three_rows a <> PyUB.
Proof. intros F N. unfold three_rows. repeat (apply pybind_safe; [now apply row_safe|intro]). discriminate. Qed.
Lemma both_safe b1 b2 : full b1 -> no_empty_tail 2 b1 -> full b2 -> no_empty_tail 2 b2 ->
  forall n k, both_rows b1 b2 n k <> PyUB.
Proof.
  intros F1 N1 F2 N2. induction n as [|n IH]; intro k; cbn [both_rows]; [discriminate|].
  apply pybind_safe; [now apply row_safe|intro]. apply pybind_safe; [now apply row_safe|intro].
  apply pybind_safe; [apply IH|intro]. discriminate.
Qed.
Lemma shape0_safe {E} (a : parr E) : shape0 a <> PyUB.
Proof. unfold shape0. destruct (shp a); discriminate. Qed.
(** Whatever the shapes of the arguments: the minimal solvers return or raise. *)
Theorem C81_reads_in_bounds : forall svd csqrt ccbrt x y Ra,
  full x -> full y -> full Ra -> no_empty_tail 2 x -> no_empty_tail 2 y -> no_empty_tail 2 Ra ->
  py_p2p x y Ra <> PyUB /\ py_p3p_kneip csqrt ccbrt x y <> PyUB /\ py_p3p_gao svd csqrt ccbrt x y <> PyUB
  /\ py_twopt x y Ra <> PyUB /\ py_twopt_rotationOnly svd x y <> PyUB /\ py_rotationOnly svd x y <> PyUB.
Proof.
  intros svd csqrt ccbrt x y Ra Fx Fy FR Nx Ny NR.
  repeat split.
  - unfold py_p2p. apply pybind_safe; [now apply rot_safe|intro]. repeat (apply pybind_safe; [now apply row_safe|intro]). discriminate.
  - unfold py_p3p_kneip. apply pybind_safe; [now apply three_safe|intros [[? ?] ?]]. apply pybind_safe; [now apply three_safe|intros [[? ?] ?]]. discriminate.
  - unfold py_p3p_gao. apply pybind_safe; [now apply three_safe|intros [[? ?] ?]]. apply pybind_safe; [now apply three_safe|intros [[? ?] ?]]. discriminate.
  - unfold py_twopt. apply pybind_safe; [now apply rot_safe|intro]. repeat (apply pybind_safe; [now apply row_safe|intro]). discriminate.
  - unfold py_twopt_rotationOnly. repeat (apply pybind_safe; [now apply row_safe|intro]). discriminate.
  - unfold py_rotationOnly. apply pybind_safe; [apply shape0_safe|intro]. apply pybind_safe; [now apply both_safe|intro]. discriminate.
Qed.
(** The triangulations too, unless the first array has no row. *)
Theorem C81_triangulate_in_bounds : forall svdV b1 b2 ta Ra,
  full b1 -> full b2 -> full ta -> full Ra -> no_empty_tail 2 b1 -> no_empty_tail 2 b2 -> no_empty_tail 1 ta -> no_empty_tail 2 Ra ->
  hd 1%nat (shp b1) <> 0%nat ->
  py_triangulate svdV b1 b2 ta Ra <> PyUB /\ py_triangulate2 b1 b2 ta Ra <> PyUB.
Proof.
  intros svdV b1 b2 ta Ra F1 F2 Ft FR N1 N2 Nt NR H0.
  assert (G : forall f, py_triangulate_with f b1 b2 ta Ra <> PyUB).
  { intro f. unfold py_triangulate_with. apply pybind_safe; [now apply vec_safe|intro]. apply pybind_safe; [now apply rot_safe|intro].
    unfold shape0. destruct (shp b1) as [|n r] eqn:E; [discriminate|]. cbn [pybind hd] in *.
    destruct n as [|n]; [congruence|]. pose proof (both_safe b1 b2 F1 N1 F2 N2 (S n) 0) as B. cbn [both_rows] in *.
    destruct (row_of b1 0); cbn [pybind] in *; try discriminate; try congruence.
    destruct (row_of b2 0); cbn [pybind] in *; try discriminate; try congruence.
    destruct (both_rows b1 b2 n 1); cbn [pybind] in *; try discriminate; congruence. }
  split; apply G.
Qed.
(** Without rows the address of element 0 of an empty vector is taken. *)
Theorem C81_no_rows_refuted : forall svdV b1 b2 ta Ra t A r,
  vec_is num ta t -> mat_is num Ra A -> shp b1 = 0%nat :: r ->
  py_triangulate svdV b1 b2 ta Ra = PyUB /\ py_triangulate2 b1 b2 ta Ra = PyUB.
Proof.
  intros svdV b1 b2 ta Ra t A r Ht HR S. unfold py_triangulate, py_triangulate2, py_triangulate_with, shape0.
  rewrite (vec_of_vec _ _ Ht), (rot_of_mat _ _ HR), S. split; reflexivity.
Qed.
(** An empty dimension behind the used ones: the checks pass and the read is
    outside the buffer. *)
Theorem C81_empty_tail_refuted : exists x y Ra : parr R,
  full x /\ full y /\ full Ra /\ mat_is num Ra mid /\ shp x = [2; 3; 0]%nat /\ py_p2p x y Ra = PyUB.
Proof.
  exists (Arr [2;3;0]%nat []), (Arr [2;3]%nat [1;0;0;0;1;0]), (Arr [3;3]%nat [1;0;0;0;1;0;0;0;1]).
  repeat split. intros [|[|[|i]]] [|[|[|j]]] H1 H2; try lia; reflexivity.
Qed.
(** Arguments with too few rows raise an exception. *)
Theorem C81_short_second_array_raises : forall svdV svd b1 b2 ta Ra t A n m,
  vec_is num ta t -> mat_is num Ra A -> full b1 -> full b2 ->
  shp b1 = [n; 3]%nat -> shp b2 = [m; 3]%nat -> (m < n)%nat ->
  py_triangulate svdV b1 b2 ta Ra = PyRaise /\ py_triangulate2 b1 b2 ta Ra = PyRaise /\ py_rotationOnly svd b1 b2 = PyRaise.
Proof.
  intros svdV svd b1 b2 ta Ra t A n m Ht HR F1 F2 S1 S2 L.
  assert (RO : forall a k i, full a -> shp a = [k; 3]%nat -> (i < k)%nat -> exists x, row_of a i = PyOk x).
  { intros a k i F S Hi. pose proof (row_safe a i F) as Sf. unfold no_empty_tail in Sf. rewrite S in Sf. specialize (Sf (Forall_nil _)).
    unfold row_of, at_py in *. rewrite S in *. cbn [offset] in *.
    apply Nat.ltb_lt in Hi. rewrite Hi in *. change (Nat.ltb 0 3) with true in *. change (Nat.ltb 1 3) with true in *. change (Nat.ltb 2 3) with true in *.
    cbn [option_map] in *.
    repeat match goal with |- context [nth_error ?l ?o] => destruct (nth_error l o); cbn [pybind] in *; [|congruence] end.
    eauto. }
  assert (RR : row_of b2 m = PyRaise).
  { unfold row_of, at_py. rewrite S2. cbn [offset]. now rewrite Nat.ltb_irrefl. }
  assert (G : forall j k, (k <= m)%nat -> (k + j = n)%nat -> both_rows b1 b2 j k = PyRaise).
  { induction j as [|j IH]; intros k K E; [lia|]. cbn [both_rows].
    destruct (RO b1 n k F1 S1 ltac:(lia)) as (x & ->). cbn [pybind].
    destruct (Nat.eq_dec k m) as [->|Ne]; [now rewrite RR|].
    destruct (RO b2 m k F2 S2 ltac:(lia)) as (y & ->). cbn [pybind]. now rewrite IH by lia. }
  unfold py_triangulate, py_triangulate2, py_triangulate_with, py_rotationOnly, shape0.
  rewrite (vec_of_vec _ _ Ht), (rot_of_mat _ _ HR), S1. cbn [pybind]. rewrite (G n 0%nat) by lia. repeat split.
Qed.

Example C81_nonvacuous :
  let b1 := Arr [2;3]%nat [3/5; 0; 4/5; 3/5; 4/5; 0] in let b2 := Arr [3;3]%nat [-3/5; 0; 4/5; -3/5; 4/5; 0; 7; 8; 9] in
  let ta := Arr [3]%nat [6; 0; 0] in let Ra := Arr [3;3]%nat [1;0;0;0;1;0;0;0;1] in
  exists out, py_triangulate2 b1 b2 ta Ra = PyOk out /\ rows_are Some out [V3 3 0 4; V3 3 4 0].
Proof.
  intros b1 b2 ta Ra.
  apply (C81_triangulate2_exact b1 b2 ta Ra
    [(V3 (3/5) 0 (4/5), V3 (-3/5) 0 (4/5), V3 3 0 4); (V3 (3/5) (4/5) 0, V3 (-3/5) (4/5) 0, V3 3 4 0)] [V3 7 8 9] (V3 6 0 0) mid).
  - discriminate.
  - split; [reflexivity|]. split; [reflexivity|]. intros [|[|[|i]]] [|[|[|k]]] v H Hk; try lia; try discriminate; injection H as <-; reflexivity.
  - split; [reflexivity|]. split; [reflexivity|]. intros [|[|[|[|i]]]] [|[|[|k]]] v H Hk; try lia; try discriminate; injection H as <-; reflexivity.
  - split; [reflexivity|]. split; [reflexivity|]. intros [|[|[|k]]] Hk; try lia; reflexivity.
  - split; [reflexivity|]. split; [reflexivity|]. intros [|[|[|i]]] [|[|[|j]]] H1 H2; try lia; reflexivity.
  - intros q [<-|[<-|[]]]; cbn [tf1 tf2 tX fst snd]; (split; [unfold parallel; lunf; intro H; linj H; lra|]);
      exists 5, 5; split; lunf; f_equal; lra.
Qed.

(** * C82: the sample-consensus wrappers *)
Section C82.
Variables (U M : Type) (flog : float -> float) (fpow : float -> float -> float) (fsort : list float -> list float)
  (toarr : M -> parr (option R)).
(** the array of a run: the best hypothesis, or the uninitialised matrix *)
Definition ransac_array (C : sac_class U M) (n : nat) (g : rng) (u : U) (m0 mi : M) thr mx prob (out : parr (option R)) : Prop :=
  exists s' r' ok tr,
    ransac_computeModel flog fpow C m0 (setUniformIndices (Z.of_nat n) g u) (fresh mx thr prob mi) = Ret (s', r', ok, tr)
    /\ ((ok = true /\ exists sel coef k, first_best tr sel coef k /\ genuine C (uniform_list (Z.of_nat n)) (Tried sel coef k) /\ out = toarr coef)
        \/ (ok = false /\ n_evaluated tr = 0%Z /\ out = toarr mi)).
Lemma run_array C n g u m0 mi thr mx prob out :
  py_ransac_run flog fpow toarr C n g u m0 mi thr mx prob = PyOk out -> ransac_array C n g u m0 mi thr mx prob out.
Proof.
  unfold py_ransac_run. intro E.
  destruct (ransac_computeModel flog fpow C m0 (setUniformIndices (Z.of_nat n) g u) (fresh mx thr prob mi)) as [[[[s' r'] ok] tr]| |] eqn:ER;
    cbn [py_of_outcome pybind] in E; try discriminate. injection E as <-.
  exists s', r', ok, tr. split; [exact ER|].
  assert (H : history C (uniform_list (Z.of_nat n)) (setUniformIndices (Z.of_nat n) g u)) by constructor.
  destruct (C06_success_iff_hypothesis_evaluated _ _ _ _ _ _ _ _ _ _ _ _ _ _ _ _ H ER) as [OK _].
  destruct (C07_own_hypothesis_or_unchanged _ _ _ _ _ _ _ _ _ _ _ _ _ H ER) as [(k & FB & ->)|(Z0 & _ & E)].
  - left. split; [reflexivity|]. exists (o_model r'), (o_coef r'), k. split; [exact FB|]. split; [|reflexivity].
    destruct (C04_ransac_returns_best _ _ _ _ _ _ _ _ _ _ _ _ _ _ _ H ER) as [G _].
    rewrite Forall_forall in G. apply G. destruct FB as (pre & post & -> & _). apply in_app_iff. right. now left.
  - right. split; [destruct ok; [exfalso; lia|reflexivity]|]. split; [exact Z0|]. now rewrite E.
Qed.
(** absolute_pose_ransac, relative_pose_ransac and
    relative_pose_ransac_rotation_only return the transformation of the
    hypothesis with the most inliers, the earliest of several, among hypotheses
    computed from samples of the rows of the first array; the failed run is the
    only exception. *)
Theorem C82_returns_best_or_uninitialised :
  (forall (problem : abs_alg -> abs_adapter -> sac_class U M) v p name g (u : U) m0 mi thr mx prob out,
     py_abs_ransac flog fpow toarr problem v p name g u m0 mi thr mx prob = PyOk out ->
     exists n r, shp v = n :: r /\
       ransac_array (problem (abs_alg_of_name name) (abs_adapter_of v p)) n g u m0 mi thr mx prob out)
  /\ (forall (problem : rel_alg -> rel_adapter -> sac_class U M) b1 b2 name g (u : U) m0 mi thr mx prob out,
     py_rel_ransac flog fpow toarr problem b1 b2 name g u m0 mi thr mx prob = PyOk out ->
     exists n r, shp b1 = n :: r /\
       ransac_array (problem (rel_alg_of_name name) (rel_adapter_of b1 b2)) n g u m0 mi thr mx prob out)
  /\ (forall (problem : rel_adapter -> sac_class U M) b1 b2 g (u : U) m0 mi thr mx prob out,
     py_ransac_rotationOnly flog fpow toarr problem b1 b2 g u m0 mi thr mx prob = PyOk out ->
     exists n r, shp b1 = n :: r /\ ransac_array (problem (rel_adapter_of b1 b2)) n g u m0 mi thr mx prob out).
Proof.
  split; [|split]; intros until out; unfold py_abs_ransac, py_rel_ransac, py_ransac_rotationOnly, shape0;
    [destruct (shp v) as [|n r]|destruct (shp b1) as [|n r]..]; cbn [pybind]; try discriminate;
    intro E; exists n, r; (split; [reflexivity|]); now apply run_array.
Qed.

(** The lmeds wrappers: the hypothesis with the least median of squared scores,
    the earliest of several, or the uninitialised matrix. *)
Definition lmeds_array (C : sac_class U M) (n : nat) (g : rng) (u : U) (m0 mi : M) thr mx prob (out : parr (option R)) : Prop :=
  exists s' r' ok tr,
    lmeds_computeModel fsort C m0 (setUniformIndices (Z.of_nat n) g u) (fresh mx thr prob mi) = Ret (s', r', ok, tr)
    /\ ((exists pre post sel coef d p, tr = pre ++ LTried sel coef d p :: post /\ out = toarr coef
          /\ drawn_from (uniform_list (Z.of_nat n)) sel /\ (exists a m a', c_compute C a sel m = (a', true, coef))
          /\ is_median (map squared_score d) p /\ (exists a, d = snd (c_dist C a coef (uniform_list (Z.of_nat n))))
          /\ (forall sel c d q, In (LTried sel c d q) tr -> PrimFloat.ltb q p = false)
          /\ (forall sel c d q, In (LTried sel c d q) pre -> PrimFloat.is_nan q = true \/ PrimFloat.ltb p q = true))
        \/ (ok = false /\ out = toarr mi)).
Lemma lmeds_run_array C n g u m0 mi thr mx prob out : sort_contract fsort -> numeric_scores C ->
  py_lmeds_run fsort toarr C n g u m0 mi thr mx prob = PyOk out -> lmeds_array C n g u m0 mi thr mx prob out.
Proof.
  intros HS HN. unfold py_lmeds_run. intro E.
  destruct (lmeds_computeModel fsort C m0 (setUniformIndices (Z.of_nat n) g u) (fresh mx thr prob mi)) as [[[[s' r'] ok] tr]| |] eqn:ER;
    cbn [py_of_outcome pybind] in E; try discriminate. injection E as <-.
  exists s', r', ok, tr. split; [exact ER|].
  assert (H : history C (uniform_list (Z.of_nat n)) (setUniformIndices (Z.of_nat n) g u)) by constructor.
  destruct ok.
  - left. destruct (C12_lmeds_least_median _ _ _ _ _ _ _ _ _ _ _ _ _ _ H HS HN ER) as (pre & post & d & p & T1 & T2 & T3 & T4 & T5 & T6 & T7).
    exists pre, post, (o_model r'), (o_coef r'), d, p. repeat split; auto.
    apply (T5 (o_model r') (o_coef r') d p). rewrite T1. apply in_app_iff. right. now left.
  - right. split; [reflexivity|]. f_equal.
    destruct (history_wf C _ _ H) as [Ei W].
    destruct (PrimFloat.eqb thr DBL_MAX) eqn:HT.
    { unfold lmeds_computeModel in ER. cbn [o_threshold fresh] in ER. rewrite HT in ER. now injection ER as _ <- _. }
    pose proof (lmeds_run fsort C m0 _ (fresh mx thr prob mi) W HT) as R. rewrite ER in R.
    destruct R as (_ & _ & _ & _ & _ & _ & _ & _ & _ & ES & (best & _ & _ & BC) & _ & _ & RF).
    destruct BC as [(_ & _ & Ec)|(pre & post & sel & coef & d & Et & Ns & Em & _ & _ & _)]; [exact Ec|].
    destruct (RF eq_refl) as [Z|Z].
    + intros a m l. apply HN.
    + congruence.
    + exfalso. rewrite Forall_forall in ES. specialize (ES (LTried sel coef d best)). rewrite Et in ES.
      specialize (ES ltac:(apply in_app_iff; right; now left)). cbn in ES. destruct ES as (SM & _).
      cbn [setUniformIndices setIndices s_indices] in Z, SM. rewrite Z in SM. destruct SM as (rest & P). apply Permutation.Permutation_nil in P. destruct sel; [congruence|discriminate].
Qed.
Theorem C82_lmeds_returns_least_median_or_uninitialised : sort_contract fsort ->
  (forall (problem : abs_alg -> abs_adapter -> sac_class U M) v p name g (u : U) m0 mi thr mx prob out,
     numeric_scores (problem (abs_alg_of_name name) (abs_adapter_of v p)) ->
     py_abs_lmeds fsort toarr problem v p name g u m0 mi thr mx prob = PyOk out ->
     exists n r, shp v = n :: r /\
       lmeds_array (problem (abs_alg_of_name name) (abs_adapter_of v p)) n g u m0 mi thr mx prob out)
  /\ (forall (problem : rel_alg -> rel_adapter -> sac_class U M) b1 b2 name g (u : U) m0 mi thr mx prob out,
     numeric_scores (problem (rel_alg_of_name name) (rel_adapter_of b1 b2)) ->
     py_rel_lmeds fsort toarr problem b1 b2 name g u m0 mi thr mx prob = PyOk out ->
     exists n r, shp b1 = n :: r /\
       lmeds_array (problem (rel_alg_of_name name) (rel_adapter_of b1 b2)) n g u m0 mi thr mx prob out)
  /\ (forall (problem : rel_adapter -> sac_class U M) b1 b2 g (u : U) m0 mi thr mx prob out,
     numeric_scores (problem (rel_adapter_of b1 b2)) ->
     py_lmeds_rotationOnly fsort toarr problem b1 b2 g u m0 mi thr mx prob = PyOk out ->
     exists n r, shp b1 = n :: r /\ lmeds_array (problem (rel_adapter_of b1 b2)) n g u m0 mi thr mx prob out).
Proof.
  intro HS. split; [|split]; intros until out; intro HN; unfold py_abs_lmeds, py_rel_lmeds, py_lmeds_rotationOnly, shape0;
    [destruct (shp v) as [|n r]|destruct (shp b1) as [|n r]..]; cbn [pybind]; try discriminate;
    intro E; exists n, r; (split; [reflexivity|]); now apply lmeds_run_array.
Qed.

(** The default number of iterations, and any up to INT_MAX/10, is inside the
    defined range of the search; more is not. *)
Theorem C82_defined_up_to : forall (problem : abs_alg -> abs_adapter -> sac_class U M) v p name g u m0 mi thr mx prob n r,
  shp v = n :: r -> (Z.of_nat n <= INT_MAX)%Z ->
  one_score_per_index (problem (abs_alg_of_name name) (abs_adapter_of v p)) ->
  ((0 <= mx <= 214748364)%Z -> exists out, py_abs_ransac flog fpow toarr problem v p name g u m0 mi thr mx prob = PyOk out)
  /\ ((214748364 < mx)%Z -> py_abs_ransac flog fpow toarr problem v p name g u m0 mi thr mx prob = PyUB)
  /\ exists out, py_abs_ransac flog fpow toarr problem v p name g u m0 mi thr py_default_iterations py_default_probability = PyOk out.
Proof.
  intros problem v p name g u m0 mi thr mx prob n r S L O.
  set (C := problem (abs_alg_of_name name) (abs_adapter_of v p)) in *.
  assert (H : history C (uniform_list (Z.of_nat n)) (setUniformIndices (Z.of_nat n) g u)) by constructor.
  assert (LL : (Z.of_nat (List.length (uniform_list (Z.of_nat n))) <= INT_MAX)%Z).
  { unfold uniform_list. rewrite map_length, seq_length. lia. }
  assert (G : forall mx prob, ((0 <= mx <= 214748364)%Z -> exists out, py_abs_ransac flog fpow toarr problem v p name g u m0 mi thr mx prob = PyOk out)
    /\ ((214748364 < mx)%Z -> py_abs_ransac flog fpow toarr problem v p name g u m0 mi thr mx prob = PyUB)).
  { intros m q. destruct (C11_no_overflow_in_usable_range U M flog fpow C _ m0 _ (fresh m thr q mi) H O LL) as [T1 T2].
    change (INT_MAX / 10)%Z with 214748364%Z in *. cbn [o_max_iterations fresh] in *.
    unfold py_abs_ransac, shape0. rewrite S. cbn [pybind]. fold C. unfold py_ransac_run. split; intro Hm.
    - destruct (T1 Hm) as ([[[s' r'] ok] tr] & ->). cbn. eauto.
    - now rewrite (T2 Hm). }
  split; [apply G|]. split; [apply G|]. apply G. unfold py_default_iterations. lia.
Qed.

(** ** Failure is not reported *)
Lemma uniform_length n : List.length (uniform_list (Z.of_nat n)) = n.
Proof. unfold uniform_list. rewrite map_length, seq_length. lia. Qed.
Lemma max_skip_defined mx : (0 <= mx <= 214748364)%Z -> exists k, max_skip_of mx = Ret k /\ (0 < mx -> 0 < k)%Z.
Proof.
  intro H. unfold max_skip_of. assert (E : ((mx * 10 <? - INT_MAX - 1) || (INT_MAX <? mx * 10))%Z = false).
  { apply orb_false_intro; apply Z.ltb_ge; unfold INT_MAX; lia. }
  rewrite E. eexists. split; [reflexivity|]. intro P. rewrite Z.mod_small; [lia|]. unfold UNSIGNED_MOD. lia.
Qed.
Lemma few_samples (C : sac_class U M) n g u k it : (forall u, c_sample_size C u = k) -> (Z.of_nat n < k <= 9)%Z ->
  getSamples C (setUniformIndices (Z.of_nat n) g u) it = Ret (setUniformIndices (Z.of_nat n) g u, INT_MAX, []).
Proof.
  intros S L. unfold getSamples. rewrite S. cbn [setUniformIndices setIndices s_indices]. rewrite uniform_length.
  rewrite Z.mod_small by (unfold SIZE_T_MOD; lia). destruct (Z.ltb_spec (Z.of_nat n) k); [reflexivity|lia].
Qed.
Lemma few_ransac (C : sac_class U M) n g u k m0 mi thr mx prob : (forall u, c_sample_size C u = k) -> (Z.of_nat n < k <= 9)%Z ->
  (0 <= mx <= 214748364)%Z -> py_ransac_run flog fpow toarr C n g u m0 mi thr mx prob = PyOk (toarr mi).
Proof.
  intros S L B. destruct (max_skip_defined mx B) as (ms & EM & _). unfold py_ransac_run, ransac_computeModel.
  cbn [fresh o_max_iterations]. rewrite EM. cbn [obind set_iterations o_max_iterations].
  unfold ransac_fuel. change (o_max_iterations (fresh mx thr prob mi)) with mx.
  destruct (Z.to_nat (Z.max 0 mx + ms + 2)) as [|fu] eqn:F.
  { unfold max_skip_of in EM. destruct (_ || _)%bool; [discriminate|]. injection EM as EM.
    pose proof (Z.mod_pos_bound (mx * 10) UNSIGNED_MOD eq_refl). lia. }
  cbn [ransac_loop set_iterations fresh o_iterations l_k l_skipped].
  match goal with |- context [if ?b then _ else _] => destruct b; [|cbn; reflexivity] end. rewrite (few_samples C n g u k _ S L). cbn. reflexivity.
Qed.
Lemma few_lmeds (C : sac_class U M) n g u k m0 mi thr mx prob : (forall u, c_sample_size C u = k) -> (Z.of_nat n < k <= 9)%Z ->
  (0 <= mx <= 214748364)%Z -> py_lmeds_run fsort toarr C n g u m0 mi thr mx prob = PyOk (toarr mi).
Proof.
  intros S L B. destruct (max_skip_defined mx B) as (ms & EM & _). unfold py_lmeds_run, lmeds_computeModel.
  cbn [fresh o_max_iterations o_threshold]. destruct (PrimFloat.eqb thr DBL_MAX); [reflexivity|].
  rewrite EM. cbn [obind set_iterations o_max_iterations].
  unfold lmeds_fuel. change (o_max_iterations (fresh mx thr prob mi)) with mx.
  destruct (Z.to_nat (Z.max 0 mx + ms + 2)) as [|fu] eqn:F.
  { unfold max_skip_of in EM. destruct (_ || _)%bool; [discriminate|]. injection EM as EM.
    pose proof (Z.mod_pos_bound (mx * 10) UNSIGNED_MOD eq_refl). lia. }
  cbn [lmeds_loop set_iterations fresh o_iterations o_max_iterations ll_skipped].
  match goal with |- context [if ?b then _ else _] => destruct b; [|cbn; reflexivity] end. rewrite (few_samples C n g u k _ S L). cbn. reflexivity.
Qed.
(** "Returns a computed transformation or an error": with fewer rows than the
    sample size every wrapper returns the content of an uninitialised matrix. *)
Theorem C82_failure_reported_refuted : forall g u m0 mi thr mx prob, (0 <= mx <= 214748364)%Z ->
  (forall (problem : abs_alg -> abs_adapter -> sac_class U M) v p name n r, (forall a A x, c_sample_size (problem a A) x = abs_sample_size a) ->
     shp v = n :: r -> (Z.of_nat n < abs_sample_size (abs_alg_of_name name))%Z ->
     py_abs_ransac flog fpow toarr problem v p name g u m0 mi thr mx prob = PyOk (toarr mi)
     /\ py_abs_lmeds fsort toarr problem v p name g u m0 mi thr mx prob = PyOk (toarr mi))
  /\ (forall (problem : rel_alg -> rel_adapter -> sac_class U M) b1 b2 name n r, (forall a A x, c_sample_size (problem a A) x = rel_sample_size a) ->
     shp b1 = n :: r -> (Z.of_nat n < rel_sample_size (rel_alg_of_name name))%Z ->
     py_rel_ransac flog fpow toarr problem b1 b2 name g u m0 mi thr mx prob = PyOk (toarr mi)
     /\ py_rel_lmeds fsort toarr problem b1 b2 name g u m0 mi thr mx prob = PyOk (toarr mi))
  /\ (forall (problem : rel_adapter -> sac_class U M) b1 b2 n r, (forall A x, c_sample_size (problem A) x = 2%Z) ->
     shp b1 = n :: r -> (n < 2)%nat ->
     py_ransac_rotationOnly flog fpow toarr problem b1 b2 g u m0 mi thr mx prob = PyOk (toarr mi)
     /\ py_lmeds_rotationOnly fsort toarr problem b1 b2 g u m0 mi thr mx prob = PyOk (toarr mi)).
Proof.
  intros g u m0 mi thr mx prob B. split; [|split].
  - intros problem v p name n r S H L. unfold py_abs_ransac, py_abs_lmeds, shape0. rewrite H. cbn [pybind].
    assert (K : (abs_sample_size (abs_alg_of_name name) <= 9)%Z) by (destruct (abs_alg_of_name name); cbn; lia).
    split; [eapply few_ransac|eapply few_lmeds]; eauto.
  - intros problem b1 b2 name n r S H L. unfold py_rel_ransac, py_rel_lmeds, shape0. rewrite H. cbn [pybind].
    assert (K : (rel_sample_size (rel_alg_of_name name) <= 9)%Z) by (destruct (rel_alg_of_name name); cbn; lia).
    split; [eapply few_ransac|eapply few_lmeds]; eauto.
  - intros problem b1 b2 n r S H L. unfold py_ransac_rotationOnly, py_lmeds_rotationOnly, shape0. rewrite H. cbn [pybind].
    split; [eapply few_ransac|eapply few_lmeds]; eauto; lia.
Qed.
End C82.

(** ** Algorithm names *)
Theorem C82_known_names :
  map abs_alg_of_name ["TWOPT"; "KNEIP"; "GAO"; "EPNP"; "GP3P"]%string = [A_TWOPT; A_KNEIP; A_GAO; A_EPNP; A_GP3P]
  /\ map rel_alg_of_name ["STEWENIUS"; "NISTER"; "SEVENPT"; "EIGHTPT"]%string = [L_STEWENIUS; L_NISTER; L_SEVENPT; L_EIGHTPT].
Proof. split; reflexivity. Qed.
(** "An unknown algorithm name is rejected": it selects KNEIP or NISTER. *)
Theorem C82_unknown_name_refuted : forall (U M : Type) flog fpow fsort (toarr : M -> parr (option R)) name,
  (~ In name ["TWOPT"; "KNEIP"; "GAO"; "EPNP"; "GP3P"]%string ->
   (forall (problem : abs_alg -> abs_adapter -> sac_class U M) v p,
      py_abs_ransac flog fpow toarr problem v p name = py_abs_ransac flog fpow toarr problem v p "KNEIP"
      /\ py_abs_lmeds fsort toarr problem v p name = py_abs_lmeds fsort toarr problem v p "KNEIP"))
  /\ (~ In name ["STEWENIUS"; "NISTER"; "SEVENPT"; "EIGHTPT"]%string ->
   (forall (problem : rel_alg -> rel_adapter -> sac_class U M) b1 b2,
      py_rel_ransac flog fpow toarr problem b1 b2 name = py_rel_ransac flog fpow toarr problem b1 b2 "NISTER"
      /\ py_rel_lmeds fsort toarr problem b1 b2 name = py_rel_lmeds fsort toarr problem b1 b2 "NISTER")).
Proof.
  intros U M flog fpow fsort toarr name. split; intros N problem x y.
  - assert (E : abs_alg_of_name name = A_KNEIP).
    { unfold abs_alg_of_name. repeat match goal with |- context [String.eqb name ?s] =>
        destruct (String.eqb_spec name s) as [->|_]; [exfalso; apply N; cbn; tauto|] end. reflexivity. }
    unfold py_abs_ransac, py_abs_lmeds. rewrite E. split; reflexivity.
  - assert (E : rel_alg_of_name name = L_NISTER).
    { unfold rel_alg_of_name. repeat match goal with |- context [String.eqb name ?s] =>
        destruct (String.eqb_spec name s) as [->|_]; [exfalso; apply N; cbn; tauto|] end. reflexivity. }
    unfold py_rel_ransac, py_rel_lmeds. rewrite E. split; reflexivity.
Qed.

(** ** TWOPT *)
(** "TWOPT finds the position of a camera of known orientation": the wrapper has
    no orientation argument, and every hypothesis has the identity rotation. *)
Theorem C82_twopt_orientation_refuted : forall (U : Type) flog fpow good dist v p g (u : U) m0 mi thr mx prob out
    (problem : abs_alg -> abs_adapter -> sac_class U pose),
  (forall A, problem A_TWOPT A = twopt_problem good dist A) ->
  py_abs_ransac flog fpow (fun T => arr_of_pose (Some T)) problem v p "TWOPT" g u m0 mi thr mx prob = PyOk out ->
  (exists t, pose_is Some out (Pose mid t)) \/ out = arr_of_pose (Some mi).
Proof.
  intros U flog fpow good dist v p g u m0 mi thr mx prob out problem EP E.
  destruct (proj1 (C82_returns_best_or_uninitialised U pose flog fpow _) _ _ _ _ _ _ _ _ _ _ _ _ E)
    as (n & r & _ & s' & r' & ok & tr & _ & [(_ & sel & coef & k & _ & G & ->)|(_ & _ & ->)]); [|right; reflexivity].
  left. change (abs_alg_of_name "TWOPT") with A_TWOPT in G. rewrite EP in G. destruct G as (_ & a & m & a' & G).
  unfold twopt_problem in G. cbn [c_compute] in G. unfold absolute_model_twopt in G.
  destruct (AdapterModel.at_ (map Z.to_nat sel) 0) as [i0| |]; cbn [obind] in G; try discriminate.
  destruct (AdapterModel.at_ (map Z.to_nat sel) 1) as [i1| |]; cbn [obind] in G; try discriminate.
  unfold absolute_select in G. cbn [ar ao abs_adapter_of aprior pR pt] in G. injection G as _ <-.
  eexists. unfold to_body. cbn [pR pt]. rewrite mT_id, mmul_id_l. apply arr_of_pose_is.
Qed.
(** so a camera turned half around the optical axis is never found, although
    the two points and bearings determine its position *)
Theorem C82_twopt_misses_turned_camera : forall out t, pose_is Some out (Pose mid t) ->
  ~ exists t', pose_is Some out (Pose (M3 (-1) 0 0 0 (-1) 0 0 0 1) t').
Proof.
  intros out t (_ & _ & E & _) (t' & _ & _ & E' & _). specialize (E 0%nat 0%nat ltac:(lia) ltac:(lia)).
  rewrite (E' 0%nat 0%nat) in E by lia. cbn in E. injection E. lra.
Qed.

(** Two rows and the (constant) demonstration class: an evaluated hypothesis is
    returned; without rows the uninitialised value is. *)
Definition demo_to_arr (z : Z) : parr (option R) := Arr [1%nat] [Some (IZR z)].
Example C82_lmeds_nonvacuous :
  sort_contract finsort /\ numeric_scores demo /\
  py_abs_lmeds finsort demo_to_arr (fun _ _ => demo) (Arr [5;3]%nat (repeat 0 15)) (Arr [5;3]%nat (repeat 0 15)) "TWOPT"
    demo_rng tt (-5)%Z (-77)%Z 0.5%float 10%Z 0.5%float
  = PyOk (demo_to_arr 0).
Proof.
  split; [apply finsort_contract|]. split; [apply C12_nonvacuous|].
  unfold py_abs_lmeds, shape0. cbn [shp pybind]. unfold py_lmeds_run.
  match goal with |- context [py_of_outcome ?o] => let o' := eval vm_compute in o in replace o with o' by (vm_compute; reflexivity) end.
  reflexivity.
Qed.
Example C82_nonvacuous :
  py_abs_ransac demo_log demo_pow demo_to_arr (fun _ _ => demo) (Arr [5;3]%nat (repeat 0 15)) (Arr [5;3]%nat (repeat 0 15)) "TWOPT"
    demo_rng tt (-5)%Z (-77)%Z 0.5%float 10%Z 0.5%float
  = PyOk (demo_to_arr 0)
  /\ py_abs_ransac demo_log demo_pow demo_to_arr (fun _ _ => demo) (Arr [1;3]%nat (repeat 0 3)) (Arr [1;3]%nat (repeat 0 3)) "TWOPT"
    demo_rng tt (-5)%Z (-77)%Z 0.5%float 10%Z 0.5%float
  = PyOk (demo_to_arr (-77)).
Proof.
  unfold py_abs_ransac, shape0. cbn [shp pybind]. unfold py_ransac_run. split.
  - match goal with |- context [py_of_outcome ?o] => let o' := eval vm_compute in o in replace o with o' by (vm_compute; reflexivity) end.
    reflexivity.
  - match goal with |- context [py_of_outcome ?o] => let o' := eval vm_compute in o in replace o with o' by (vm_compute; reflexivity) end.
    reflexivity.
Qed.
