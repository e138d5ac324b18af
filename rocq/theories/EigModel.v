(** Model of the relative-pose eigensolver: getSmallestEV,
    src/relative_pose/modules/eigensolver/modules.cpp 36-71, eigensolver_main,
    src/relative_pose/modules/main.cpp 622-687, and eigensolver,
    src/relative_pose/methods.cpp 496-550.  Definitions only, exact reals.
    composeM is in EigGen.v, the summation terms in EigSums.v. *)
From Coq Require Import Reals List.
From Verif Require Import Lin RotModel SturmModel EigSums EigGen.
Import ListNotations.
Local Open Scope R_scope.

(** the coefficients b, c, d of the characteristic polynomial, 48-55 *)
Definition ev_b (M : mat3) : R := - m00 M - m11 M - m22 M.
Definition ev_c (M : mat3) : R :=
  - m02 M ^ 2 - m12 M ^ 2 - m01 M ^ 2 + m00 M * m11 M + m00 M * m22 M + m11 M * m22 M.
Definition ev_d (M : mat3) : R :=
  m11 M * m02 M ^ 2 + m00 M * m12 M ^ 2 + m22 M * m01 M ^ 2
  - m00 M * m11 M * m22 M - 2 * m01 M * m12 M * m02 M.
Definition ev_s (b c d : R) : R := 2 * b ^ 3 - 9 * b * c + 27 * d.
Definition ev_t (b c : R) : R := 4 * (b ^ 2 - 3 * c) ^ 3.
(** lines 60-70.  [None]: the square root of a negative number, a division by
    zero or the acos of a number outside [-1,1], which give a NaN result. *)
Definition ev_closed (b c d : R) : option R :=
  let s := ev_s b c d in
  let t := ev_t b c in
  if Rlt_dec t 0 then None
  else if Req_EM_T (sqrt t) 0 then None
  else if Rlt_dec 1 (Rabs (s / sqrt t)) then None
  else
    let alpha := acos (s / sqrt t) in
    let beta := alpha / 3 in
    let y := cos beta in
    let r := 1/2 * sqrt t in
    let w := rpow r (1 / 3) in
    let k := w * y in
    Some ((- b - 2 * k) / 3).
Definition smallestEV (M : mat3) : option R := ev_closed (ev_b M) (ev_c M) (ev_d M).
(** getSmallestEV, 36-71 *)
Definition getSmallestEV (S : fsums) (c : vec3) : option R := smallestEV (composeM S c).

(** one column of the EigenSolver's result: (real part of the eigenvector, real
    part of the eigenvalue), i.e. struct myPair *)
Definition epair : Type := vec3 * R.
Record eigOut := EO { eo_rotation : mat3; eo_translation : vec3; eo_eigenvalues : list R; eo_eigenvectors : list vec3 }.

(** eigensolver_main, 622-687.  [lm] is the Levenberg-Marquardt minimisation
    from the start value (None: rot2cayley gave no finite start), [eig] the
    EigenSolver and [sort] std::sort with operator< (615-619: larger eigenvalue
    first). *)
Definition eigensolver_main (lm : fsums -> option vec3 -> vec3) (eig : mat3 -> list epair) (sort : list epair -> list epair)
    (S : fsums) (start : mat3) : eigOut :=
  let c := lm S (rot2cayley start) in
  let pairs := sort (eig (composeM S c)) in
  let D := map snd pairs in
  let V := map fst pairs in
  let mag := sqrt (nth 0 D 0 ^ 2 + nth 1 D 0 ^ 2) in
  EO (cayley2rot c) (vscale mag (nth 2 V v0)) D V.

(** the loop computing the norm of all weights, 510-514 *)
Definition weight_norm (l : list (R * (vec3 * vec3))) : R := sqrt (fold_left (fun a q => a + fst q ^ 2) l 0).
(** the weights actually used, 523-525.  [None]: division by zero. *)
Definition use_weights (useWeights : bool) (l : list (R * (vec3 * vec3))) : option (list (R * (vec3 * vec3))) :=
  if useWeights then
    if Req_EM_T (weight_norm l) 0 then None
    else Some (map (fun q => (fst q / weight_norm l, snd q)) l)
  else Some (map (fun q => (1, snd q)) l).
(** eigensolver, 496-550: the correspondences selected by the indices are given
    as a list of (getWeight, (getBearingVector1, getBearingVector2)). *)
Definition eigensolver (lm : fsums -> option vec3 -> vec3) (eig : mat3 -> list epair) (sort : list epair -> list epair)
    (useWeights : bool) (start : mat3) (l : list (R * (vec3 * vec3))) : option eigOut :=
  match use_weights useWeights l with
  | None => None
  | Some lw =>
      let out := eigensolver_main lm eig sort (fs_accumulate lw) start in
      match l with
      | [] => None (* indices[0] does not exist; excluded by the assert *)
      | q :: _ =>
          let f1 := fst (snd q) in
          let f2 := mv (eo_rotation out) (snd (snd q)) in
          let flow := vsub f1 f2 in
          let t := if Rlt_dec (dot flow (eo_translation out)) 0 then vneg (eo_translation out) else eo_translation out in
          Some (EO (eo_rotation out) t (eo_eigenvalues out) (eo_eigenvectors out))
      end
  end.
