(** C87: the eigensolver called from Python. *)
From Coq Require Import Reals Lra List Lia Arith.
From Verif Require Import Lin RotModel RotProps GeoModel EigSums EigGen EigModel EigProps PyModel PySpec PyProps Py2Model Py2Props Py3Model Py3Props Py4Model.
Import ListNotations.
Local Open Scope R_scope.

(** the sum of n n^T over the normals n of the epipolar planes of the rows *)
Definition plane_sum (A : mat3) (l : list (vec3 * vec3)) : mat3 :=
  msum (map (fun q => let n := cross (fst q) (mv A (snd q)) in outer n n) l).
(** some translation explains all rows together with the rotation A *)
Definition explained (A : mat3) (l : list (vec3 * vec3)) : Prop :=
  exists t, t <> v0 /\ forall q, In q l -> dot (fst q) (cross t (mv A (snd q))) = 0.

Lemma eig_call lm eig sort b1 b2 Ra A l : holds b1 b2 l -> mat_is num Ra A -> (4 < length l)%nat ->
  py_eigensolver lm eig sort b1 b2 Ra
  = PyOk (arr_of_rot (cayley2rot (lm (fs_accumulate (map (fun q => (1, q)) l)) (rot2cayley A)))).
Proof.
  intros (R1 & extra & R2) MA L. unfold py_eigensolver. rewrite (rot_of_mat _ _ MA). cbn [pybind]. unfold shape0. rewrite (proj1 R1), map_length. cbn [pybind].
  replace (Nat.ltb 4 (length l)) with true by (symmetry; apply Nat.ltb_lt; exact L). cbn [py_assert pybind].
  rewrite (both_rows_some _ _ _ _ R1 R2) by (rewrite ?app_length, ?map_length; lia). cbn [pybind skipn]. rewrite firstn_snd.
  unfold eigensolver, use_weights. rewrite map_map. cbn [snd].
  destruct l as [|q l]; [cbn in L; lia|]. cbn [map option_map eo_rotation arr_of_orot eigensolver_main]. reflexivity.
Qed.
Lemma plane_sum_eq A l : normal_sum A (map (fun q => (1, q)) l) = plane_sum A l.
Proof.
  unfold normal_sum, plane_sum. rewrite map_map. f_equal. apply map_ext. intro q. cbn [fst snd]. unfold normal.
  generalize (cross (fst q) (mv A (snd q))). intros []. lunf. f_equal; ring.
Qed.
(** The minimiser is started at the rotation passed, on the sums of all rows,
    from which composeM gives the matrix of the epipolar plane normals of every
    rotation; what it finds is returned. *)
Theorem C87_minimises : forall lm eig sort b1 b2 Ra A l, holds b1 b2 l -> mat_is num Ra A -> rotation A -> ~ half_turn A -> (4 < length l)%nat ->
  exists S x0 out, (forall c, composeM S c = mscale ((1 + norm2 c) ^ 2) (plane_sum (cayley2rot c) l)) /\ cayley2rot x0 = A /\
    py_eigensolver lm eig sort b1 b2 Ra = PyOk out /\ mat_is Some out (cayley2rot (lm S (Some x0))) /\ rotation (cayley2rot (lm S (Some x0))).
Proof.
  intros lm eig sort b1 b2 Ra A l H MA RA NH L.
  destruct (C25_cayley_of_rot_and_back A RA NH) as (x0 & E0 & B0).
  exists (fs_accumulate (map (fun q => (1, q)) l)), x0. eexists. split; [|split; [exact B0|split; [apply (eig_call lm eig sort _ _ _ _ _ H MA L)|]]].
  - intro c. rewrite C44_composeM_is_normal_sum, plane_sum_eq. reflexivity.
  - rewrite E0. split; [apply arr_of_rot_is|apply C24_cayley2rot_is_rotation].
Qed.
Lemma explained_kernel l c : (exists t, t <> v0 /\ mv (composeM (fs_accumulate (map (fun q => (1, q)) l)) c) t = v0) <-> explained (cayley2rot c) l.
Proof.
  unfold explained. split; intros (t & N & K); exists t; (split; [exact N|]).
  - rewrite C44_kernel in K by (intros q I; apply in_map_iff in I as (p & <- & _); cbn; lra).
    intros q I. specialize (K (1, q) (in_map (fun q => (1, q)) _ _ I)). cbn [snd] in K. unfold normal in K. replace 0 with (-0) by ring. rewrite <- K.
    generalize (mv (cayley2rot c) (snd q)). destruct t, (fst q). intros []. lunf. ring.
  - apply C44_kernel; [intros q I; apply in_map_iff in I as (p & <- & _); cbn; lra|].
    intros q I. apply in_map_iff in I as (p & <- & I). cbn [snd]. unfold normal. specialize (K p I). replace 0 with (-0) by ring. rewrite <- K.
    generalize (mv (cayley2rot c) (snd p)). destruct t, (fst p). intros []. lunf. ring.
Qed.
(** If the minimiser does not leave the zeros of the smallest eigenvalue, a
    rotation that explains all rows is refined to one that does. *)
Theorem C87_keeps_exact : forall lm eig sort b1 b2 Ra A l, holds b1 b2 l -> mat_is num Ra A -> rotation A -> ~ half_turn A -> (4 < length l)%nat ->
  (forall S x, (exists t, t <> v0 /\ mv (composeM S x) t = v0) -> exists t, t <> v0 /\ mv (composeM S (lm S (Some x))) t = v0) ->
  explained A l ->
  exists out B, py_eigensolver lm eig sort b1 b2 Ra = PyOk out /\ mat_is Some out B /\ rotation B /\ explained B l.
Proof.
  intros lm eig sort b1 b2 Ra A l H MA RA NH L D Ex.
  destruct (C25_cayley_of_rot_and_back A RA NH) as (x0 & E0 & B0).
  rewrite (eig_call lm eig sort _ _ _ _ _ H MA L), E0. eexists _, _. split; [reflexivity|]. split; [apply arr_of_rot_is|].
  split; [apply C24_cayley2rot_is_rotation|]. apply explained_kernel. apply D. apply explained_kernel. now rewrite B0.
Qed.
(** The solver never starts with four rows or fewer (assertion), and a second
    array with fewer rows raises an exception. *)
Theorem C87_rows : forall lm eig sort b1 b2 Ra A n m r r', mat_is num Ra A -> shp b1 = n :: r ->
  ((n <= 4)%nat -> py_eigensolver lm eig sort b1 b2 Ra = PyUB) /\
  (shp b2 = m :: r' -> (m < n)%nat -> (4 < n)%nat -> full b1 -> full b2 -> no_empty_tail 2 b1 -> no_empty_tail 2 b2 ->
   py_eigensolver lm eig sort b1 b2 Ra = PyRaise).
Proof.
  intros lm eig sort b1 b2 Ra A n m r r' MA S1. unfold py_eigensolver. rewrite (rot_of_mat _ _ MA). cbn [pybind]. unfold shape0. rewrite S1. cbn [pybind]. split.
  - intro L. replace (Nat.ltb 4 n) with false by (symmetry; apply Nat.ltb_ge; lia). reflexivity.
  - intros S2 M L F1 F2 N1 N2. replace (Nat.ltb 4 n) with true by (symmetry; apply Nat.ltb_lt; lia). cbn [py_assert pybind].
    pose proof (both_short_second b1 b2 n m 0 r' S2 ltac:(lia) M F1 F2 N1 N2) as B. rewrite Nat.sub_0_r in B. now rewrite B.
Qed.
Example C87_nonvacuous : exists lm b1 b2 Ra A l, holds b1 b2 l /\ mat_is num Ra A /\ rotation A /\ ~ half_turn A /\ (4 < length l)%nat /\ explained A l /\ ~ explained turn l /\
  (forall S x, (exists t, t <> v0 /\ mv (composeM S x) t = v0) -> exists t, t <> v0 /\ mv (composeM S (lm S (Some x))) t = v0).
Proof.
  exists (fun _ o => match o with Some x => x | None => v0 end), (rows (map fst pairs6)), (rows (map snd pairs6)), (mat_arr mid), mid, pairs6.
  split; [apply holds_rows|]. split; [apply mat_arr_ok|]. split; [apply rot_id|]. split; [intros (_ & _ & N); now apply N|]. split; [cbn; lia|].
  split; [|split; [|auto]].
  - exists (V3 14 0 0). split; [intro E; injection E; lra|]. intros q I. unfold pairs6, yz6 in I. cbn [map app fst snd In] in I.
    repeat (destruct I as [<-|I]; [cbn [fst snd]; rewrite mv_id; lunf; field|]). destruct I.
  - intros (t & N & H). unfold pairs6, yz6 in H. cbn [map app fst snd In] in H. apply N.
    assert (E : turn = M3 1 0 0 0 0 (-1) 0 1 0) by (unfold turn, cayley2rot; lunf; f_equal; field).
    rewrite E in H. destruct t as [tx ty tz].
    pose proof (H _ (or_introl eq_refl)) as H1. pose proof (H _ (or_intror (or_introl eq_refl))) as H2.
    pose proof (H _ (or_intror (or_intror (or_introl eq_refl)))) as H3. cbn [fst snd] in *. lunf. f_equal; lra.
Qed.
