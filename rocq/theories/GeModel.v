(** Model of the generalized eigensolver: getEV and getCost,
    src/relative_pose/modules/ge/modules.cpp 36-133, the end of ge_main2 and of
    ge_main, src/relative_pose/modules/main.cpp 838-862 and 1012-1047, and ge,
    src/relative_pose/methods.cpp 655-813.  Definitions only, exact reals.
    composeG is in GeGen.v, the summation terms in GeSums.v; the descent of
    ge_main2 is in DescentModel.v and is an argument here. *)
From Coq Require Import Reals List.
From Verif Require Import Lin RotModel SturmModel EigSums EigGen GeSums GeGen.
Import ListNotations.
Local Open Scope R_scope.

(** B, C, D, E, 58-74 *)
Section Coefficients.
Variable G : nat -> nat -> R.
Local Notation g i j := (G i%nat j%nat).
Definition ge_B : R := - g 3 3 - g 2 2 - g 1 1 - g 0 0.
Definition ge_C : R :=
  - g 2 3 ^ 2 + g 2 2 * g 3 3 - g 1 3 ^ 2 - g 1 2 ^ 2 + g 1 1 * g 3 3 + g 1 1 * g 2 2
  - g 0 3 ^ 2 - g 0 2 ^ 2 - g 0 1 ^ 2 + g 0 0 * g 3 3 + g 0 0 * g 2 2 + g 0 0 * g 1 1.
Definition ge_D : R :=
  g 1 3 ^ 2 * g 2 2 - 2 * g 1 2 * g 1 3 * g 2 3 + g 1 2 ^ 2 * g 3 3 + g 1 1 * g 2 3 ^ 2 - g 1 1 * g 2 2 * g 3 3
  + g 0 3 ^ 2 * g 2 2 + g 0 3 ^ 2 * g 1 1 - 2 * g 0 2 * g 0 3 * g 2 3 + g 0 2 ^ 2 * g 3 3 + g 0 2 ^ 2 * g 1 1
  - 2 * g 0 1 * g 0 3 * g 1 3 - 2 * g 0 1 * g 0 2 * g 1 2 + g 0 1 ^ 2 * g 3 3 + g 0 1 ^ 2 * g 2 2
  + g 0 0 * g 2 3 ^ 2 - g 0 0 * g 2 2 * g 3 3 + g 0 0 * g 1 3 ^ 2 + g 0 0 * g 1 2 ^ 2
  - g 0 0 * g 1 1 * g 3 3 - g 0 0 * g 1 1 * g 2 2.
Definition ge_E : R :=
  g 0 3 ^ 2 * g 1 2 ^ 2 - g 0 3 ^ 2 * g 1 1 * g 2 2 - 2 * g 0 2 * g 0 3 * g 1 2 * g 1 3
  + 2 * g 0 2 * g 0 3 * g 1 1 * g 2 3 + g 0 2 ^ 2 * g 1 3 ^ 2 - g 0 2 ^ 2 * g 1 1 * g 3 3
  + 2 * g 0 1 * g 0 3 * g 1 3 * g 2 2 - 2 * g 0 1 * g 0 3 * g 1 2 * g 2 3 - 2 * g 0 1 * g 0 2 * g 1 3 * g 2 3
  + 2 * g 0 1 * g 0 2 * g 1 2 * g 3 3 + g 0 1 ^ 2 * g 2 3 ^ 2 - g 0 1 ^ 2 * g 2 2 * g 3 3
  - g 0 0 * g 1 3 ^ 2 * g 2 2 + 2 * g 0 0 * g 1 2 * g 1 3 * g 2 3 - g 0 0 * g 1 2 ^ 2 * g 3 3
  - g 0 0 * g 1 1 * g 2 3 ^ 2 + g 0 0 * g 1 1 * g 2 2 * g 3 3.
End Coefficients.
(** lines 76-100: (roots[2], roots[3]).  [None]: a NaN in the result, from the
    cube root or square root of a negative number, a division by zero or the
    acos of a number outside [-1,1]. *)
Definition ge_roots (B C D E : R) : option (R * R) :=
  let alpha := - (375 / 1000) * B ^ 2 + C in
  let beta := B ^ 3 / 8 - B * C / 2 + D in
  let gamma := - (1171875 / 100000000) * B ^ 4 + B ^ 2 * C / 16 - B * D / 4 + E in
  let p := - alpha ^ 2 / 12 - gamma in
  let q := - alpha ^ 3 / 108 + alpha * gamma / 3 - beta ^ 2 / 8 in
  let helper1 := - p ^ 3 / 27 in
  if Rlt_dec helper1 0 then None else
  let theta2 := rpow helper1 (1 / 3) in
  if Req_EM_T theta2 0 then None else
  if Rlt_dec 1 (Rabs ((- q / 2) / sqrt helper1)) then None else
  let theta1 := sqrt theta2 * cos (1 / 3 * acos ((- q / 2) / sqrt helper1)) in
  let y := - (5 / 6) * alpha - (1 / 3 * p * theta1 - theta1 * theta2) / theta2 in
  if Rlt_dec (alpha + 2 * y) 0 then None else
  let w := sqrt (alpha + 2 * y) in
  if Req_EM_T w 0 then None else
  if Rlt_dec (- 3 * alpha - 2 * y + 2 * beta / w) 0 then None else
  let temp1 := - B / 4 - 5 / 10 * w in
  let temp2 := 5 / 10 * sqrt (- 3 * alpha - 2 * y + 2 * beta / w) in
  Some (temp1 + temp2, temp1 - temp2).
Definition ge_ev (G : nat -> nat -> R) : option (R * R) := ge_roots (ge_B G) (ge_C G) (ge_D G) (ge_E G).
(** getEV 36-100 *)
Definition getEV (S : gsums) (c : vec3) : option (R * R) := ge_ev (composeG S c).
(** getCost 102-133, for step 0 and step 1, the only values used *)
Definition getCost (S : gsums) (c : vec3) (step : nat) : option R :=
  option_map (match step with O => fst | _ => snd end) (getEV S c).

(** one column of the EigenSolver's result: (real part of the eigenvector, real
    part of the eigenvalue), i.e. struct myPair_ge *)
Notation gpair := ((nat -> R) * R)%type.
Record geOut := GO { go_rotation : mat3; go_translation : nat -> R; go_eigenvalues : list R; go_eigenvectors : list (nat -> R) }.
(** main.cpp 1012-1047 (838-862 in ge_main).  [None]: division by factor = 0.
    [eig] is the EigenSolver and [sort] std::sort with operator< (798-802:
    larger eigenvalue first). *)
Definition ge_output (eig : (nat -> nat -> R) -> list gpair) (sort : list gpair -> list gpair)
    (S : gsums) (c : vec3) : option geOut :=
  let pairs := sort (eig (composeG S c)) in
  let D := map snd pairs in
  let V := map fst pairs in
  let v := nth 3 V (fun _ => 0) in
  let factor := v 3%nat in
  if Req_EM_T factor 0 then None else
  Some (GO (cayley2rot c) (fun i => 1 / factor * v i) D V).

(** the weights actually used, methods.cpp 684-695.  [None]: division by
    zero. *)
Definition gweight_norm (l : list gcorr) : R := sqrt (fold_left (fun a q => a + gw q ^ 2) l 0).
Definition set_weight (w : R) (q : gcorr) : gcorr := GC w (gf1 q) (gt1 q) (gf2 q) (gt2 q).
Definition guse_weights (useWeights : bool) (l : list gcorr) : option (list gcorr) :=
  if useWeights then
    if Req_EM_T (gweight_norm l) 0 then None
    else Some (map (fun q => set_weight (gw q / gweight_norm l) q) l)
  else Some (map (set_weight 1) l).
(** the matrix Hcross, 776-803 *)
Definition gcentre (f : gcorr -> vec3) (l : list gcorr) : vec3 :=
  vdivs (fold_left (fun a q => vadd a (f q)) l v0) (INR (length l)).
Definition gHcross (l : list gcorr) : mat3 :=
  let c1 := gcentre gf1 l in
  let c2 := gcentre gf2 l in
  fold_left (fun H q => madd H (outer (vsub (gf2 q) c2) (vsub (gf1 q) c1))) l mzero.
(** ge, 655-813: [arun] is math::arun (ArunModel.v), [descent] the loop of
    ge_main2 from the starting point (None: rot2cayley gave no finite start). *)
Definition ge (arun : mat3 -> mat3) (descent : gsums -> option vec3 -> vec3)
    (eig : (nat -> nat -> R) -> list gpair) (sort : list gpair -> list gpair)
    (useWeights : bool) (l : list gcorr) : option geOut :=
  match guse_weights useWeights l with
  | None => None
  | Some lw =>
      let S := gs_accumulate lw in
      ge_output eig sort S (descent S (rot2cayley (arun (gHcross l))))
  end.
