(** C88: UPnP called from Python. *)
From Coq Require Import Reals Lra List Lia Arith.
From Verif Require Import Lin GenLin RotModel RotProps GeoModel UpnpModel UpnpProps UpnpProps2 UpnpProps3 UpnpActModel UpnpExamples
  TriModel PyModel PySpec PyProps Py2Model Py2Props Py3Model Py3Props Py5Model.
Import ListNotations.
Local Open Scope R_scope.

(** The correspondences of a central camera as UPnP takes them. *)
Definition central (l : list (vec3 * vec3)) : list ucorr := map (fun q => UC (snd q) v0 (fst q)) l.
(** the rotation part of a 3 x 4 array is the matrix M, the last column is NaN *)
Definition rot_only (a : parr (option R)) (M : mat3) : Prop :=
  shp a = [3%nat; 4%nat] /\ (forall i j, (i < 3)%nat -> (j < 3)%nat -> elem2 a i j = Some (Some (ventry (mrow3 M i) j)))
  /\ forall i, (i < 3)%nat -> elem2 a i 3 = Some None.

Lemma upnp_call evs v p l : sights v p l -> (2 < length l)%nat ->
  py_upnp evs v p = PyOk (match evs (central l) with None => None | Some E => option_map (map arr_of_upose) (upnp E (central l)) end).
Proof.
  intros (RV & extra & RP) L. unfold py_upnp, shape0. rewrite (proj1 RV), map_length. cbn [pybind].
  replace (Nat.ltb 2 (length l)) with true by (symmetry; apply Nat.ltb_lt; exact L). cbn [py_assert pybind].
  rewrite (both_rows_some _ _ _ _ RP RV) by (rewrite ?app_length, ?map_length; lia). cbn [pybind skipn]. rewrite swap_firstn.
  replace (map (fun q => UC (mv mid (snd q)) v0 (fst q)) l) with (central l); [reflexivity|].
  unfold central. apply map_ext. intro q. now rewrite mv_id.
Qed.
Lemma arr_full A t : arr_of_upose (Some A, Some t) = arr_of_pose (Some (Pose A t)).
Proof. reflexivity. Qed.
Lemma arr_rot_only A : rot_only (arr_of_upose (Some A, None)) A.
Proof.
  split; [reflexivity|]. split.
  - intros i j I J. do 3 (destruct i as [|i]; [do 3 (destruct j as [|j]; [reflexivity|]); lia|]). lia.
  - intros i I. do 3 (destruct i as [|i]; [reflexivity|]). lia.
Qed.
Lemma central_front l q t : (forall x, In x l -> sees (Pose (mT (quaternion2rot q)) t) x) -> qnorm2 q = 1 ->
  in_front (central l) (quaternion2rot q) (vneg (mv (quaternion2rot q) t)).
Proof.
  intros S N c I. apply in_map_iff in I as (x & <- & I). destruct (S x I) as (d & Hd & E). cbn [uf uv up pR pt] in *.
  exists d. split; [lra|]. rewrite E. assert (RQ : rotation (quaternion2rot q)) by now apply q2r_rot.
  rewrite mv_add, rot_mv_T by exact RQ. generalize (mv (quaternion2rot q) t) (vscale d (snd x)). intros [] []. lunf. f_equal; ring.
Qed.
Lemma back q t : qnorm2 q = 1 -> vneg (mv (mT (quaternion2rot q)) (vneg (mv (quaternion2rot q) t))) = t.
Proof.
  intro N. assert (RQ : rotation (quaternion2rot q)) by now apply q2r_rot. rewrite mv_neg, rot_T_mv by exact RQ.
  destruct t. lunf. f_equal; ring.
Qed.

(** With the candidates of the generated solvers the arrays are the poses of the
    complete solver (C75) for the rows. *)
Theorem C88_complete : forall inv precision eig v p l, sights v p l -> (2 < length l)%nat ->
  py_upnp (upnp_evs inv precision eig) v p = PyOk (option_map (map arr_of_upose) (upnp_complete inv precision eig (central l))).
Proof.
  intros inv precision eig v p l SI L. rewrite (upnp_call _ v p l SI L). f_equal. unfold upnp_complete.
  generalize (upnp_evs inv precision eig (central l)). intros [E|]; reflexivity.
Qed.
(** The list contains the pose of the camera, if the candidates contain its
    quaternion, none of whose components is zero. *)
Theorem C88_recovers : forall evs v p l q t E H, sights v p l -> (3 <= length l)%nat ->
  (forall x, In x l -> unit (snd x) /\ sees (Pose (mT (quaternion2rot q)) t) x) -> qnorm2 q = 1 -> q0 q * q1 q * q2 q * q3 q <> 0 ->
  evs (central l) = Some E -> (forall e, In e E -> e <> qzero) -> is_candidate (central l) E q ->
  uH (central l) = Some H -> det (hess_at H (central l) q) <> 0 ->
  exists outs out, py_upnp evs v p = PyOk (Some outs) /\ In out outs /\ pose_is Some out (Pose (mT (quaternion2rot q)) t).
Proof.
  intros evs v p l q t E H SI L Ex N NZ EE EZ Cd EH D.
  destruct (C55_recovers_pose (central l) H E q (vneg (mv (quaternion2rot q) t))) as (out & EO & I); auto.
  - intros c I. apply in_map_iff in I as (x & <- & I). now apply Ex.
  - unfold central. now rewrite map_length.
  - apply central_front; auto. intros x I. now apply Ex.
  - rewrite back in I by exact N. rewrite (upnp_call evs v p l SI) by lia. rewrite EE, EO.
    exists (map arr_of_upose out), (arr_of_pose (Some (Pose (mT (quaternion2rot q)) t))). split; [reflexivity|].
    split; [|apply arr_of_pose_is]. rewrite <- arr_full. now apply in_map.
Qed.
(** If one is zero, as for a camera that is not rotated, the array with the right
    rotation has NaN in the place of the translation. *)
Theorem C88_zero_component_refuted : forall evs v p l q t E H, sights v p l -> (3 <= length l)%nat ->
  (forall x, In x l -> unit (snd x) /\ sees (Pose (mT (quaternion2rot q)) t) x) -> qnorm2 q = 1 -> q0 q * q1 q * q2 q * q3 q = 0 ->
  evs (central l) = Some E -> (forall e, In e E -> e <> qzero) -> is_candidate (central l) E q ->
  uH (central l) = Some H -> det (hess_at H (central l) q) <> 0 ->
  exists outs out, py_upnp evs v p = PyOk (Some outs) /\ In out outs /\ rot_only out (mT (quaternion2rot q)).
Proof.
  intros evs v p l q t E H SI L Ex N NZ EE EZ Cd EH D.
  destruct (C55_zero_component_refuted (central l) H E q (vneg (mv (quaternion2rot q) t))) as (out & EO & I); auto.
  - intros c I. apply in_map_iff in I as (x & <- & I). now apply Ex.
  - unfold central. now rewrite map_length.
  - apply central_front; auto. intros x I. now apply Ex.
  - rewrite (upnp_call evs v p l SI) by lia. rewrite EE, EO.
    exists (map arr_of_upose out), (arr_of_upose (Some (mT (quaternion2rot q)), None)). split; [reflexivity|].
    split; [now apply in_map|]. apply arr_rot_only.
Qed.
(** At least one array and at most as many as candidates come back; the rotation
    part of each is a rotation or NaN. *)
Theorem C88_output : forall evs v p l E outs, sights v p l -> (3 <= length l)%nat -> (forall x, In x l -> unit (snd x)) ->
  evs (central l) = Some E -> E <> [] -> py_upnp evs v p = PyOk (Some outs) ->
  outs <> [] /\ (length outs <= length E)%nat /\
  forall out, In out outs -> shp out = [3%nat; 4%nat] /\
    ((forall i j, (i < 3)%nat -> (j < 3)%nat -> elem2 out i j = Some None) \/
     exists M, rotation M /\ forall i j, (i < 3)%nat -> (j < 3)%nat -> elem2 out i j = Some (Some (ventry (mrow3 M i) j))).
Proof.
  intros evs v p l E outs SI L U EE NE Ec. rewrite (upnp_call evs v p l SI) in Ec by lia. rewrite EE in Ec.
  destruct (upnp E (central l)) as [os|] eqn:EO; [|discriminate]. cbn [option_map] in Ec. injection Ec as <-.
  destruct (C55_output E (central l) os) as (N & Len & Rot); auto.
  { intros c I. apply in_map_iff in I as (x & <- & I). now apply U. }
  split; [destruct os; [congruence|discriminate]|]. rewrite map_length. split; [exact Len|].
  intros out I. apply in_map_iff in I as ([oM ot] & <- & I). split; [reflexivity|].
  destruct oM as [M|].
  - right. exists M. split; [exact (Rot M ot I)|]. intros i j Hi Hj.
    do 3 (destruct i as [|i]; [do 3 (destruct j as [|j]; [reflexivity|]); lia|]). lia.
  - left. intros i j Hi Hj. do 3 (destruct i as [|i]; [do 3 (destruct j as [|j]; [reflexivity|]); lia|]). lia.
Qed.
(** Two rows or fewer violate the assertion; too few points raise an exception;
    bearing vectors all along one line give NaN. *)
Theorem C88_rows : forall evs v p n m r r', shp v = n :: r ->
  ((n <= 2)%nat -> py_upnp evs v p = PyUB) /\
  (shp p = m :: r' -> (m < n)%nat -> (2 < n)%nat -> full v -> full p -> no_empty_tail 2 v -> no_empty_tail 2 p -> py_upnp evs v p = PyRaise).
Proof.
  intros evs v p n m r r' S1. unfold py_upnp, shape0. rewrite S1. cbn [pybind]. split.
  - intro L. replace (Nat.ltb 2 n) with false by (symmetry; apply Nat.ltb_ge; lia). reflexivity.
  - intros S2 M L F1 F2 N1 N2. replace (Nat.ltb 2 n) with true by (symmetry; apply Nat.ltb_lt; lia). cbn [py_assert pybind].
    pose proof (both_short_first p v n m 0 r' S2 ltac:(lia) M F2 F1 N2 N1) as B. rewrite Nat.sub_0_r in B. now rewrite B.
Qed.
Theorem C88_parallel_rays : forall evs v p l, sights v p l -> (3 <= length l)%nat -> (forall x, In x l -> unit (snd x)) ->
  (forall x y, In x l -> In y l -> parallel (snd x) (snd y)) -> py_upnp evs v p = PyOk None.
Proof.
  intros evs v p l SI L U P. rewrite (upnp_call evs v p l SI) by lia.
  assert (EH : uH (central l) = None).
  { destruct (uH (central l)) as [H|] eqn:EH; [|reflexivity]. exfalso.
    destruct (proj1 (C55_defined (central l) ltac:(intros c I; apply in_map_iff in I as (x & <- & I); now apply U)) (ex_intro _ H EH)) as (a & b & Ia & Ib & NP).
    apply in_map_iff in Ia as (x & <- & Ia). apply in_map_iff in Ib as (y & <- & Ib). apply NP. now apply P. }
  destruct (evs (central l)) as [E|]; [|reflexivity]. unfold upnp. rewrite EH. reflexivity.
Qed.

(** * Examples *)
Definition axes (Q : mat3) : list (vec3 * vec3) := map (fun e => (mv (mT Q) (vsub e v0), e)) [V3 1 0 0; V3 0 1 0; V3 0 0 1].
Lemma axes_central Q : central (axes Q) = ex_l Q v0.
Proof. reflexivity. Qed.
Lemma axes_sights Q : sights (rows (map snd (axes Q))) (rows (map fst (axes Q))) (axes Q).
Proof. split; [apply rows_ok|]. exists []. rewrite app_nil_r. apply rows_ok. Qed.
Lemma axes_sees Q : rotation Q -> forall x, In x (axes Q) -> unit (snd x) /\ sees (Pose (mT Q) v0) x.
Proof.
  intros RQ x I. unfold axes in I. apply in_map_iff in I as (e & <- & I). cbn [fst snd]. split.
  - cbn [In] in I. destruct I as [<-|[<-|[<-|[]]]]; unfold unit; lunf; ring.
  - exists 1. split; [lra|]. cbn [pR pt fst snd]. rewrite vadd_0_r. f_equal. destruct e. lunf. f_equal; ring.
Qed.
Example C88_recovers_nonvacuous : exists evs v p outs out M, M <> mid /\ py_upnp evs v p = PyOk (Some outs) /\ In out outs /\ pose_is Some out (Pose M v0).
Proof.
  set (q := Q4 (1 / 2) (1 / 2) (1 / 2) (1 / 2)). assert (N : qnorm2 q = 1) by (unfold qnorm2, q; cbn [q0 q1 q2 q3]; field).
  set (Q := quaternion2rot q).
  destruct (C88_recovers (fun _ => Some [qscale 2 q]) (rows (map snd (axes Q))) (rows (map fst (axes Q))) (axes Q) q v0 [qscale 2 q] ex_H)
    as (outs & out & E & I & P); auto.
  - apply axes_sights.
  - apply axes_sees. now apply q2r_rot.
  - unfold q; cbn [q0 q1 q2 q3]. lra.
  - now apply ex_nonzero.
  - rewrite axes_central. now apply ex_candidate.
  - rewrite axes_central. apply ex_uH.
  - rewrite axes_central. now apply ex_det.
  - exists (fun _ => Some [qscale 2 q]), (rows (map snd (axes Q))), (rows (map fst (axes Q))), outs, out, (mT Q).
    split; [|auto]. intro X. assert (Y : m00 (mT Q) = 1) by (now rewrite X). unfold Q, q, quaternion2rot in Y. lunf. cbn [q0 q1 q2 q3] in Y. lra.
Qed.
(** three points on the axes of an unrotated camera *)
Example C88_zero_component_nonvacuous : exists evs v p outs out, py_upnp evs v p = PyOk (Some outs) /\ In out outs /\ rot_only out (mT (quaternion2rot (Q4 1 0 0 0)))
  /\ quaternion2rot (Q4 1 0 0 0) = mid.
Proof.
  set (q := Q4 1 0 0 0). assert (N : qnorm2 q = 1) by (unfold qnorm2, q; cbn [q0 q1 q2 q3]; field).
  set (Q := quaternion2rot q).
  destruct (C88_zero_component_refuted (fun _ => Some [qscale 2 q]) (rows (map snd (axes Q))) (rows (map fst (axes Q))) (axes Q) q v0 [qscale 2 q] ex_H)
    as (outs & out & E & I & P); auto.
  - apply axes_sights.
  - apply axes_sees. now apply q2r_rot.
  - unfold q; cbn [q0 q1 q2 q3]. ring.
  - now apply ex_nonzero.
  - rewrite axes_central. now apply ex_candidate.
  - rewrite axes_central. apply ex_uH.
  - rewrite axes_central. now apply ex_det.
  - exists (fun _ => Some [qscale 2 q]), (rows (map snd (axes Q))), (rows (map fst (axes Q))), outs, out.
    split; [exact E|]. split; [exact I|]. split; [exact P|]. unfold Q, q, quaternion2rot, mid. cbn [q0 q1 q2 q3]. f_equal; ring.
Qed.
Example C88_parallel_nonvacuous : exists v p l, sights v p l /\ length l = 3%nat /\ (forall x, In x l -> unit (snd x)) /\ (forall x y, In x l -> In y l -> parallel (snd x) (snd y)).
Proof.
  set (l := [(V3 1 2 3, V3 0 0 1); (V3 4 5 6, V3 0 0 1); (V3 0 0 1, V3 0 0 (-1))]).
  exists (rows (map snd l)), (rows (map fst l)), l. split; [split; [apply rows_ok|]; exists []; rewrite app_nil_r; apply rows_ok|].
  split; [reflexivity|]. split.
  - intros x [<-|[<-|[<-|[]]]]; unfold unit; cbn [snd]; lunf; ring.
  - intros x y [<-|[<-|[<-|[]]]] [<-|[<-|[<-|[]]]]; unfold parallel; cbn [snd]; lunf; f_equal; ring.
Qed.
