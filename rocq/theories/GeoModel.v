(** Model of the triangulation (src/triangulation/methods.cpp), the two-point
    solvers, and the candidate scoring and selection of src/sac_problems, over
    the reals.  Definitions only.  [None] stands for NaN / infinity, [UB] for
    an out-of-range vector access. *)
From Coq Require Import Reals List.
From Verif Require Import SacModel Lin ArunModel AdapterModel.
Import ListNotations.
Local Open Scope R_scope.

(** transformation_t (types.hpp): 3x4 matrix [R | t]. *)
Record pose := Pose { pR : mat3; pt : vec3 }.

(** v / v.norm() with NaN for the zero vector. *)
Definition normalize (v : vec3) : option vec3 :=
  if Req_EM_T (norm v) 0 then None else Some (normalized v).

Definition obindO {A B} (x : option A) (f : A -> option B) : option B :=
  match x with None => None | Some a => f a end.
Local Notation "'olet' x := a 'in' b" := (obindO a (fun x => b)) (at level 200, x name, a at level 100, b at level 200).

(** triangulate2, triangulation/methods.cpp 67-91.  A.inverse() * b by the
    2x2 cofactor formula. *)
Definition triangulate2 (t12 : vec3) (R12 : mat3) (f1 f2 : vec3) : option vec3 :=
  let g := mv R12 f2 in
  let b0 := dot t12 f1 in
  let b1 := dot t12 g in
  let a00 := dot f1 f1 in
  let a10 := dot f1 g in
  let a01 := - a10 in
  let a11 := - dot g g in
  let d := a00 * a11 - a10 * a01 in
  if Req_EM_T d 0 then None else
  let l0 := (a11 * b0 - a01 * b1) / d in
  let l1 := (- a10 * b0 + a00 * b1) / d in
  let xm := vscale l0 f1 in
  let xn := vadd t12 (vscale l1 g) in
  Some (vdivs (vadd xm xn) 2).

(** twopt, relative_pose/methods.cpp 56-86. *)
Definition twopt (R12 : mat3) (unrotate : bool) (f1 f1prime f2 f2prime : vec3) : option vec3 :=
  let f1prime := if unrotate then mv R12 f1prime else f1prime in
  let f2prime := if unrotate then mv R12 f2prime else f2prime in
  let normal1 := cross f1 f1prime in
  let normal2 := cross f2 f2prime in
  olet translation := normalize (cross normal1 normal2) in
  let opticalFlow := vsub f1 f1prime in
  Some (if Rlt_dec (dot opticalFlow translation) 0 then vneg translation else translation).

(** x/y, infinite or NaN for y = 0. *)
Definition rdiv (x y : R) : option R := if Req_EM_T y 0 then None else Some (x / y).

(** absolute_pose/methods.cpp 80-103: a vector orthogonal to n1. *)
Definition p2p_n3 (n1 : vec3) : option vec3 :=
  let ax := Rabs (vx n1) in let ay := Rabs (vy n1) in let az := Rabs (vz n1) in
  let gt a b := if Rgt_dec a b then true else false in
  if (gt ax ay && gt ax az)%bool then
    olet q := rdiv (- vy n1) (vx n1) in normalize (V3 q 1 0)
  else if (gt ay ax && gt ay az)%bool then
    olet q := rdiv (- vz n1) (vy n1) in normalize (V3 0 q 1)
  else
    olet q := rdiv (- vx n1) (vz n1) in normalize (V3 1 0 q).

(** p2p, absolute_pose/methods.cpp 56-130: [R] = adapter.getR(), f0 f1 the
    bearing vectors, p0 p1 the world points. *)
Definition p2p_raw (Rc : mat3) (f0 f1 p0 p1 : vec3) : option vec3 :=
  let e1 := f0 in
  olet e3 := normalize (cross e1 f1) in
  let e2 := cross e3 e1 in
  let T := of_rows e1 e2 e3 in
  olet n1 := normalize (vsub p1 p0) in
  olet n3 := p2p_n3 n1 in
  let n2 := cross n3 n1 in
  let N := of_rows n1 n2 n3 in
  let Q := mmul (mmul T (mT Rc)) (mT N) in
  let d_12 := norm (vsub p1 p0) in
  let cos_beta := dot e1 f1 in
  olet ib := rdiv 1 (1 - cos_beta ^ 2) in
  let b := ib - 1 in
  let b := if Rlt_dec cos_beta 0 then - sqrt b else sqrt b in
  let temp3 := d_12 * (m10 Q * b - m00 Q) in
  let solution := vscale (- temp3) (row Q 0) in
  Some (vadd p0 (mv (mT N) solution)).
(** ... with the final NaN test, 123-127. *)
Definition p2p (Rc : mat3) (f0 f1 p0 p1 : vec3) : vec3 :=
  match p2p_raw Rc f0 f1 p0 p1 with None => v0 | Some s => s end.

(** * Scores *)
(** inverseSolution, e.g. AbsolutePoseSacProblem.cpp 173-176. *)
Definition inverse_pose (T : pose) : pose :=
  Pose (mT (pR T)) (vneg (mv (mT (pR T)) (pt T))).
(** 3x4 matrix times homogeneous point. *)
Definition transform (T : pose) (p : vec3) : vec3 := vadd (mv (pR T) p) (pt T).

(** 1.0 - reprojection . bearing for one correspondence,
    AbsolutePoseSacProblem.cpp 183-197 (also 123-138). *)
Definition abs_score (T : pose) (camR : mat3) (camt : vec3) (p f : vec3) : option R :=
  let body := transform (inverse_pose T) p in
  olet reproj := normalize (mv (mT camR) (vsub body camt)) in
  Some (1 - dot reproj f).

(** reprojError1 + reprojError2: CentralRelativePoseSacProblem.cpp 270-288.
    [g1 g2] are the bearing vectors used for triangulation, [f1 f2] those the
    reprojections are compared with. *)
Definition rel_score (T : pose) (g1 g2 f1 f2 : vec3) : option R :=
  olet X := triangulate2 (pt T) (pR T) g1 g2 in
  olet reproj1 := normalize X in
  olet reproj2 := normalize (transform (inverse_pose T) X) in
  Some ((1 - dot f1 reproj1) + (1 - dot f2 reproj2)).

(** directTranslation / directRotation, NoncentralRelativePoseSacProblem.cpp 233-240. *)
Definition direct (T : pose) (R1 : mat3) (o1 : vec3) (R2 : mat3) (o2 : vec3) : pose :=
  Pose (mmul (mmul (mT R1) (pR T)) R2)
       (mv (mT R1) (vadd (vsub (pt T) o1) (mv (pR T) o2))).

(** A relative-pose adapter with its pose prior (gett12/getR12). *)
Record rel_adapter := RelAdapter {
  rf1 : nat -> vec3; rf2 : nat -> vec3;
  ro1 : nat -> vec3; ro2 : nat -> vec3;
  rr1 : nat -> mat3; rr2 : nat -> mat3;
  rprior : pose
}.
Definition set_prior (A : rel_adapter) (T : pose) : rel_adapter :=
  RelAdapter (rf1 A) (rf2 A) (ro1 A) (ro2 A) (rr1 A) (rr2 A) T.
(** triangulate2(_adapter, i) *)
Definition adapter_triangulate2 (A : rel_adapter) (i : nat) : option vec3 :=
  triangulate2 (pt (rprior A)) (pR (rprior A)) (rf1 A i) (rf2 A i).

(** One loop iteration: the triangulation reads the pose from the adapter. *)
Definition score_step (A : rel_adapter) (inv : pose) (i : nat) : option R :=
  olet X := adapter_triangulate2 A i in
  olet reproj1 := normalize X in
  olet reproj2 := normalize (transform inv X) in
  Some ((1 - dot (rf1 A i) reproj1) + (1 - dot (rf2 A i) reproj2)).

(** getSelectedDistancesToModel of CentralRelativePoseSacProblem (254-290) and
    TranslationOnlySacProblem (48-83): scores and the adapter afterwards. *)
Definition central_distances (A : rel_adapter) (T : pose) (idx : list nat) : list (option R) * rel_adapter :=
  let A := set_prior A T in
  let inv := inverse_pose T in
  (map (score_step A inv) idx, A).

(** EigensolverSacProblem (58-121): saves and restores the prior. *)
Definition eigensolver_distances (A : rel_adapter) (T : pose) (idx : list nat) : list (option R) * rel_adapter :=
  let temp := rprior A in
  let A := set_prior A T in
  let inv := inverse_pose T in
  let scores := map (score_step A inv) idx in
  (scores, set_prior A temp).

(** NoncentralRelativePoseSacProblem (217-266). *)
Fixpoint noncentral_distances (A : rel_adapter) (T : pose) (idx : list nat) : list (option R) * rel_adapter :=
  match idx with
  | [] => ([], A)
  | i :: r =>
      let D := direct T (rr1 A i) (ro1 A i) (rr2 A i) (ro2 A i) in
      let A := set_prior A D in
      let s := score_step A (inverse_pose D) i in
      let (l, A) := noncentral_distances A T r in
      (s :: l, A)
  end.

(** RotationOnlySacProblem (49-69). *)
Definition rotation_score (M : mat3) (f1 f2 : vec3) : R := 1 - dot f1 (mv M f2).
(** PointCloudSacProblem (44-60). *)
Definition cloud_score (T : pose) (p1 p2 : vec3) : R := norm (vsub p1 (transform T p2)).

(** TranslationOnlySacProblem::computeModelCoefficients (37-47). *)
Definition translation_only_model (A : rel_adapter) (i0 i1 : nat) : option pose :=
  olet t := twopt (pR (rprior A)) true (rf1 A i0) (rf2 A i0) (rf1 A i1) (rf2 A i1) in
  Some (Pose (pR (rprior A)) t).

(** * Candidate selection *)
(** score < minScore with NaN comparing false. *)
Definition less (x y : option R) : bool :=
  match x, y with Some a, Some b => if Rlt_dec a b then true else false | _, _ => false end.
(** The selection loop (AbsolutePoseSacProblem.cpp 106-148): strictly better
    than the best so far; [best] starts at (1000000.0, -1). *)
Fixpoint select_best (scores : list (option R)) (i : nat) (best : option R) (arg : option nat) : option nat :=
  match scores with
  | [] => arg
  | s :: r => if less s best then select_best r (S i) s (Some i) else select_best r (S i) best arg
  end.
Definition best_index (scores : list (option R)) : option nat :=
  select_best scores 0 (Some 1000000) None.

(** Camera-frame pose to body frame, AbsolutePoseSacProblem.cpp 62-73. *)
Definition to_body (camR : mat3) (camt : vec3) (T : pose) : pose :=
  Pose (mmul (pR T) (mT camR)) (vsub (pt T) (mv (mmul (pR T) (mT camR)) camt)).
(** Camera-to-camera motion to body motion,
    NoncentralRelativePoseSacProblem.cpp 202-211. *)
Definition to_body_rel (R1 : mat3) (o1 : vec3) (R2 : mat3) (o2 : vec3) (T : pose) : pose :=
  let Rb := mmul (mmul R1 (pR T)) (mT R2) in
  Pose Rb (vsub (vadd o1 (mv R1 (pt T))) (mv Rb o2)).

(** An absolute-pose adapter with its prior. *)
Record abs_adapter := AbsAdapter {
  af : nat -> vec3; ap : nat -> vec3; ao : nat -> vec3; ar : nat -> mat3; aprior : pose
}.
(** computeModelCoefficients of AbsolutePoseSacProblem after the minimal solver
    (106-151): [solutions] already in the body frame; the fourth sample index
    disambiguates. *)
Definition absolute_select (A : abs_adapter) (indices : list nat) (solutions : list pose)
    : outcome (option pose) :=
  match solutions with
  | [T] => Ret (Some T)
  | _ =>
    match solutions with
    | [] => Ret None
    | _ =>
      let! k := at_ indices 3 in
      match best_index (map (fun T => abs_score T (ar A k) (ao A k) (ap A k) (af A k)) solutions) with
      | None => Ret None
      | Some i => Ret (nth_error solutions i)
      end
    end
  end.
(** the solver switch (45-104) for the central solvers: [solver] returns
    camera-frame poses from the sample. *)
Definition absolute_model (A : abs_adapter) (solver : list nat -> list pose) (indices : list nat)
    : outcome (option pose) :=
  let! i0 := at_ indices 0 in
  absolute_select A indices (map (to_body (ar A i0) (ao A i0)) (solver indices)).
(** TWOPT (48-60). *)
Definition absolute_model_twopt (A : abs_adapter) (indices : list nat) : outcome (option pose) :=
  let! i0 := at_ indices 0 in
  let! i1 := at_ indices 1 in
  let Rc := pR (aprior A) in
  let t := p2p Rc (af A i0) (af A i1) (ap A i0) (ap A i1) in
  absolute_select A indices [to_body (ar A i0) (ao A i0) (Pose Rc t)].
(** GP3P (99-103): body-frame solver. *)
Definition absolute_model_gp3p (A : abs_adapter) (solver : list nat -> list pose) (indices : list nat)
    : outcome (option pose) := absolute_select A indices (solver indices).
(** getSelectedDistancesToModel (165-199). *)
Definition absolute_distances (A : abs_adapter) (T : pose) (idx : list nat) : list (option R) :=
  map (fun i => abs_score T (ar A i) (ao A i) (ap A i) (af A i)) idx.

(** * Essential matrices (CentralRelativePoseSacProblem.cpp 93-252) *)
Definition Wmat : mat3 := M3 0 (-1) 0 1 0 0 0 0 1.
Definition fix_sign (A : mat3) : mat3 := if Rlt_dec (det A) 0 then mneg A else A.
(** The four candidates, 117-145. *)
Definition decompose (svd : svd_t) (E : mat3) : list pose :=
  let '(U, s, V) := svd E in
  let scale := vx s in
  let Ra := mmul (mmul U Wmat) (mT V) in
  let Rb := mmul (mmul U (mT Wmat)) (mT V) in
  let ta := vscale scale (col U 2) in
  let tb := vneg ta in
  let Ra := fix_sign Ra in
  let Rb := fix_sign Rb in
  [Pose Ra ta; Pose Rb ta; Pose Ra tb; Pose Rb tb].
(** quality of a candidate: sum over the sample, NaN poisons (164-189). *)
Definition quality (A : rel_adapter) (T : pose) (sample : list nat) : option R :=
  fold_left (fun acc i => olet a := acc in olet s := score_step (set_prior A T) (inverse_pose T) i in Some (a + s))
            sample (Some 0).
(** the rederived pose, 203-246. *)
Definition rederive (svd : svd_t) (E : mat3) (j : nat) : option pose :=
  let '(U, s, V) := svd E in
  let scale := vx s in
  match j with
  | 0%nat => Some (Pose (fix_sign (mmul (mmul U Wmat) (mT V))) (vscale scale (col U 2)))
  | 1%nat => Some (Pose (fix_sign (mmul (mmul U (mT Wmat)) (mT V))) (vscale scale (col U 2)))
  | 2%nat => Some (Pose (fix_sign (mmul (mmul U Wmat) (mT V))) (vscale (- scale) (col U 2)))
  | 3%nat => Some (Pose (fix_sign (mmul (mmul U (mT Wmat)) (mT V))) (vscale (- scale) (col U 2)))
  | _ => None
  end.
(** computeModelCoefficients after the solver; flat index = 4*i + j. *)
Definition central_model (svd : svd_t) (A : rel_adapter) (sample : list nat) (essentials : list mat3)
    : option pose :=
  let cands := flat_map (decompose svd) essentials in
  match best_index (map (fun T => quality A T sample) cands) with
  | None => None
  | Some f => match nth_error essentials (Nat.div f 4) with
              | None => None
              | Some E => rederive svd E (Nat.modulo f 4)
              end
  end.

(** * Multi-camera problems *)
(** A multi-camera relative adapter: bearing vectors per camera pair, mounts. *)
Record multi_rel := MultiRel {
  mb1 : list (list vec3); mb2 : list (list vec3);
  mo : list vec3; mr : list mat3
}.
Definition mtables (M : multi_rel) : tables := build (map (@length _) (mb2 M)).

(** MultiNoncentralRelativePoseSacProblem::getSelectedDistancesToModel inner
    loop, 302-328: correspondence [key] = indices[cam][pos] is triangulated,
    but the bearing vectors are fetched at [pos]. *)
Fixpoint mnr_scores_cam (M : multi_rel) (D : pose) (cam pos : nat) (keys : list nat)
    : outcome (list (option R)) :=
  match keys with
  | [] => Ret []
  | key :: r =>
      let! i := convertMultiIndex (mtables M) cam key in
      let! g1 := get_serial (mb1 M) (mtables M) i in
      let! g2 := get_serial (mb2 M) (mtables M) i in
      let! f1 := get_multi (mb1 M) cam pos in
      let! f2 := get_multi (mb2 M) cam pos in
      let! l := mnr_scores_cam M D cam (S pos) r in
      Ret (rel_score D g1 g2 f1 f2 :: l)
  end.
(** outer loop, 281-301 *)
Fixpoint mnr_scores (M : multi_rel) (T : pose) (cam : nat) (indices : list (list nat))
    : outcome (list (list (option R))) :=
  match indices with
  | [] => Ret []
  | keys :: r =>
      let! o := at_ (mo M) cam in
      let! c := at_ (mr M) cam in
      let! s := mnr_scores_cam M (direct T c o c o) cam 0 keys in
      let! l := mnr_scores M T (S cam) r in
      Ret (s :: l)
  end.
(** MultiCentralRelativePoseSacProblem::getSelectedDistancesToModel, 116-164:
    one pose per pair. *)
Fixpoint mcr_scores (M : multi_rel) (model : list pose) (cam : nat) (indices : list (list nat))
    : outcome (list (list (option R))) :=
  match indices with
  | [] => Ret []
  | keys :: r =>
      let! T := at_ model cam in
      let! s := mnr_scores_cam M T cam 0 keys in
      let! l := mcr_scores M model (S cam) r in
      Ret (s :: l)
  end.
(** MultiCentralRelativePoseSacProblem::computeModelCoefficients, 39-114: the
    essential matrices are computed and decomposed, but the second loop is
    empty; the model passed in is returned untouched with result true. *)
Definition mcr_model (outModel : list pose) : bool * list pose := (true, outModel).

(** MultiNoncentralAbsolutePoseSacProblem::getSelectedDistancesToModel, 115-152. *)
Fixpoint mna_scores_cam (bearings points : list (list vec3)) (mo : list vec3) (mr : list mat3) (T : pose)
    (cam : nat) (keys : list nat) : outcome (list (option R)) :=
  match keys with
  | [] => Ret []
  | key :: r =>
      let! p := get_multi points cam key in
      let! c := at_ mr cam in
      let! o := at_ mo cam in
      let! f := get_multi bearings cam key in
      let! l := mna_scores_cam bearings points mo mr T cam r in
      Ret (abs_score T c o p f :: l)
  end.
Fixpoint mna_scores (bearings points : list (list vec3)) (mo : list vec3) (mr : list mat3) (T : pose)
    (cam : nat) (indices : list (list nat)) : outcome (list (list (option R))) :=
  match indices with
  | [] => Ret []
  | keys :: r =>
      let! s := mna_scores_cam bearings points mo mr T cam keys in
      let! l := mna_scores bearings points mo mr T (S cam) r in
      Ret (s :: l)
  end.
