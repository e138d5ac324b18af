(** The descent of the generalized eigensolver in binary64 arithmetic.
    Models /repo/src/relative_pose/modules/main.cpp:877-1017 (the part of ge_main2 that
    searches the Cayley parameters; the part after it is GeModel.ge_output) and
    /repo/src/relative_pose/modules/ge/modules.cpp:284-314 (getQuickJacobian).

    [cost] is the objective ge::getCost(...,1) and [cost0] is ge::getCost(...,0), as
    functions of the Cayley vector only: within one call the summation terms are fixed.
    [pow2 x] is the C library's pow(x,2.0).  [rnd k j] is the value of
    (double)rand()/(double)RAND_MAX drawn for coordinate j in trial k.  All four are arbitrary.
    The printing (disabled in the code by a constant) is not modelled. *)
From Coq Require Import ZArith List Bool Floats.
Import ListNotations.
Local Open Scope float_scope.

(** A Cayley vector (cayley_t): /repo/include/opengv/types.hpp. *)
Record fvec := FV { fx : float; fy : float; fz : float }.

(** lambda, maxLambda, min_xtol, eps: main.cpp:902-906, ge/modules.cpp:306. *)
Definition lambda0 : float := 0x1.47ae147ae147bp-7.      (* 0.01 *)
Definition maxLambda : float := 0x1.47ae147ae147bp-4.    (* 0.08 *)
Definition min_xtol : float := 0x1.4f8b588e368f1p-17.    (* 0.00001 *)
Definition jac_eps : float := 0x1.5798ee2308c3ap-27.     (* 0.00000001 *)
Definition near_origin : float := 0x1.47ae147ae147bp-7.  (* 0.01 *)
Definition ev2_limit : float := 0x1.0624dd2f1a9fcp-10.   (* 0.001 *)
Definition amp_small : float := 0x1.3333333333333p-2.    (* 0.3 *)
Definition amp_large : float := 0x1.3333333333333p-1.    (* 0.6 *)

(** cayley.norm(): main.cpp:1001 (Eigen: square root of the sum of squares). *)
Definition fnorm (c : fvec) : float :=
  PrimFloat.sqrt (fx c * fx c + fy c * fy c + fz c * fz c).

(** getQuickJacobian: ge/modules.cpp:284-314. *)
Definition quickJac (cost : fvec -> float) (c : fvec) (cur : float) : fvec :=
  FV (cost (FV (fx c + jac_eps) (fy c) (fz c)) - cur)
     (cost (FV (fx c) (fy c + jac_eps) (fz c)) - cur)
     (cost (FV (fx c) (fy c) (fz c + jac_eps)) - cur).

(** norm and normalizedJacobian: main.cpp:946-947. *)
Definition normalizedJac (pow2 : float -> float) (j : fvec) : fvec :=
  let norm := PrimFloat.sqrt (pow2 (fx j) + pow2 (fy j) + pow2 (fz j)) in
  let s := 1 / norm in
  FV (s * fx j) (s * fy j) (s * fz j).

(** samplingPoint = cayley - lambda * normalizedJacobian: main.cpp:949. *)
Definition samplingPoint (c : fvec) (lambda : float) (n : fvec) : fvec :=
  FV (fx c - lambda * fx n) (fy c - lambda * fy n) (fz c - lambda * fz n).

(** The doubling loop: main.cpp:959-975.  State: lambda, samplingPoint, samplingEV,
    smallestEV.  [None] when the fuel runs out before the loop ends. *)
Fixpoint incLoop (fuel : nat) (cost : fvec -> float) (c n : fvec)
    (lambda : float) (sp : fvec) (sev best : float) : option (float * fvec * float * float) :=
  if PrimFloat.ltb sev best then
    let best' := sev in
    if PrimFloat.ltb maxLambda (lambda * 2) then Some (lambda, sp, sev, best')
    else match fuel with
         | O => None
         | S k => let lambda' := lambda * 2 in
                  let sp' := samplingPoint c lambda' n in
                  incLoop k cost c n lambda' sp' (cost sp') best'
         end
  else Some (lambda, sp, sev, best).

(** The halving loop: main.cpp:978-990.  [None] when the fuel runs out. *)
Fixpoint decLoop (fuel : nat) (cost : fvec -> float) (c n : fvec)
    (lambda : float) (sp : fvec) (sev best : float) : option (float * fvec * float) :=
  if PrimFloat.ltb best sev then
    match fuel with
    | O => None
    | S k => let lambda' := lambda / 2 in
             let sp' := samplingPoint c lambda' n in
             decLoop k cost c n lambda' sp' (cost sp') best
    end
  else Some (lambda, sp, sev).

(** One pass of the iteration loop: main.cpp:941-994.
    [first] is the condition iterations == 0 (disablingIncrements is the constant true). *)
Definition descentStep (fuel : nat) (pow2 : float -> float) (cost : fvec -> float)
    (first : bool) (c : fvec) (lambda best : float) : option (float * fvec * float) :=
  let n := normalizedJac pow2 (quickJac cost c best) in
  let sp := samplingPoint c lambda n in
  let sev := cost sp in
  match (if first then incLoop fuel cost c n lambda sp sev best
         else Some (lambda, sp, sev, best)) with
  | None => None
  | Some (lambda', sp', sev', best') => decLoop fuel cost c n lambda' sp' sev' best'
  end.

(** The iteration loop: main.cpp:939-1000.  [left] = maxIterations - iterations. *)
Fixpoint iterLoop (left fuel : nat) (pow2 : float -> float) (cost : fvec -> float)
    (first : bool) (c : fvec) (lambda best : float) : option fvec :=
  match left with
  | O => Some c
  | S k =>
      match descentStep fuel pow2 cost first c lambda best with
      | None => None
      | Some (lambda', c', best') =>
          if PrimFloat.ltb lambda' min_xtol then Some c'
          else iterLoop k fuel pow2 cost false c' lambda' best'
      end
  end.

(** One trial from a given starting vector: main.cpp:934-1000 (maxIterations = 50). *)
Definition descentTrial (fuel : nat) (pow2 : float -> float) (cost : fvec -> float)
    (c : fvec) : option fvec :=
  iterLoop 50 fuel pow2 cost true c lambda0 (cost c).

(** The starting vector of trial k: main.cpp:917-932. *)
Definition trialStart (rnd : nat -> nat -> float) (start : fvec) (k : nat) : fvec :=
  match k with
  | O => start
  | _ => let amp := if Nat.ltb 2 k then amp_large else amp_small in
         let d j := (rnd k j - 0x1p-1) * 2 * amp in
         FV (fx start + d O) (fy start + d 1%nat) (fz start + d 2%nat)
  end.

(** found: main.cpp:1002-1016. *)
Definition accepted (cost0 : fvec -> float) (c : fvec) : bool :=
  if PrimFloat.ltb (fnorm c) near_origin
  then negb (PrimFloat.ltb ev2_limit (cost0 c)) else true.

(** The trial loop: main.cpp:915-1017.  [left] = 5 - randomTrialCount. The result is the
    last value of cayley and randomTrialCount. *)
Fixpoint trialLoop (left fuel : nat) (pow2 : float -> float) (cost cost0 : fvec -> float)
    (rnd : nat -> nat -> float) (start : fvec) (k : nat) (c : fvec) : option (fvec * nat) :=
  match left with
  | O => Some (c, k)
  | S m =>
      match descentTrial fuel pow2 cost (trialStart rnd start k) with
      | None => None
      | Some c' => if accepted cost0 c' then Some (c', k)
                   else trialLoop m fuel pow2 cost cost0 rnd start (S k) c'
      end
  end.

(** ge_main2 up to the final Cayley vector: main.cpp:877-1017. *)
Definition ge_descent (fuel : nat) (pow2 : float -> float) (cost cost0 : fvec -> float)
    (rnd : nat -> nat -> float) (start : fvec) : option (fvec * nat) :=
  trialLoop 5 fuel pow2 cost cost0 rnd start O start.
