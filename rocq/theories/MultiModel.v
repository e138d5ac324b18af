(** Multi-camera sample consensus: MultiSampleConsensusProblem and MultiRansac.
    Definitions only. *)
From Coq Require Import ZArith List Bool Floats.
From Verif Require Import SacModel.
Import ListNotations.
Open Scope Z_scope.

(** A child of MultiSampleConsensusProblem<M> (include/opengv/sac/
    MultiSampleConsensusProblem.hpp): its virtual functions as arbitrary
    functions of a user state.  getSampleSizes consumes rand() in both children,
    so it may change the state, and it may be undefined (C17). *)
Record multi_class (A M : Type) := mkMultiClass {
  mc_sizes : A -> outcome (A * list Z);                    (* getSampleSizes *)
  mc_good : A -> list (list Z) -> bool;                    (* isSampleGood *)
  mc_compute : A -> list (list Z) -> M -> A * bool * M;    (* computeModelCoefficients *)
  mc_dist : A -> M -> list (list Z) -> A * list (list float) (* getSelectedDistancesToModel *)
}.
Arguments mkMultiClass {A M}.
Arguments mc_sizes {A M}.
Arguments mc_good {A M}.
Arguments mc_compute {A M}.
Arguments mc_dist {A M}.

(** Member variables of MultiSampleConsensusProblem plus the user state. *)
Record multi_state (A : Type) := mkMulti {
  ms_indices : list (list Z);
  ms_shuffled : list (list Z);
  ms_rng : rng;
  ms_checks : Z;
  ms_user : A
}.
Arguments mkMulti {A}.
Arguments ms_indices {A}.
Arguments ms_shuffled {A}.
Arguments ms_rng {A}.
Arguments ms_checks {A}.
Arguments ms_user {A}.

Definition mset_user {A} (s : multi_state A) (a : A) : multi_state A :=
  mkMulti (ms_indices s) (ms_shuffled s) (ms_rng s) (ms_checks s) a.
Definition mset_pool {A} (s : multi_state A) (p : list (list Z)) (g : rng) : multi_state A :=
  mkMulti (ms_indices s) p g (ms_checks s) (ms_user s).

(** MultiSampleConsensusProblem.hpp (implementation) 165-172 setIndices, with the
    constructor's max_sample_checks_(10) (line 37). *)
Definition msetIndices {A} (idx : list (list Z)) (g : rng) (a : A) : multi_state A :=
  mkMulti idx idx g 10 a.

(** MultiSampleConsensusProblem.hpp (implementation) 149-163 setUniformIndices. *)
Definition msetUniformIndices {A} (N : list Z) (g : rng) (a : A) : multi_state A :=
  msetIndices (map uniform_list N) g a.

(** MultiSampleConsensusProblem.hpp (implementation) 63-87 drawIndexSample: the
    inner loop (69-81) and copy (82-85) are textually those of the
    single-camera drawIndexSample on shuffled_indices_[subIter]. [ns] = the sizes
    of the sub-samples; more sub-samples than pools is an out-of-range access. *)
Fixpoint multi_draw (ns : list nat) (pools : list (list Z)) (g : rng)
  : outcome (list (list Z) * list (list Z) * rng) :=
  match ns with
  | [] => Ret ([], pools, g)
  | n :: ns' =>
      match pools with
      | [] => UB
      | p :: ps =>
          let! (smp, p', g1) := drawIndexSample n p g in
          let! (smps, ps', g2) := multi_draw ns' ps g1 in
          Ret (smp :: smps, p' :: ps', g2)
      end
  end.

(** MultiSampleConsensusProblem.hpp (implementation) 96-112: the size check of
    every camera; [false] = one camera has too few indices.  (The resize of
    samples[subIter] at 111 is reflected by drawing [sizes] many.) *)
Fixpoint enough (idx : list (list Z)) (sizes : list Z) {struct sizes} : outcome bool :=
  match sizes with
  | [] => Ret true
  | n :: ns =>
      match idx with
      | [] => UB
      | l :: ls => if Z.of_nat (length l) <? n mod SIZE_T_MOD then Ret false
                   else enough ls ns
      end
  end.

(** MultiSampleConsensusProblem.hpp (implementation) 114-121: up to
    max_sample_checks_ draws, stopping at the first good sample. *)
Fixpoint multi_checks {A} (good : A -> list (list Z) -> bool) (tries : nat)
    (ns : list nat) (s : multi_state A)
  : outcome (multi_state A * option (list (list Z))) :=
  match tries with
  | O => Ret (s, None)
  | S tries' =>
      let! (smp, pool, g) := multi_draw ns (ms_shuffled s) (ms_rng s) in
      let s' := mset_pool s pool g in
      if good (ms_user s') smp then Ret (s', Some smp)
      else multi_checks good tries' ns s'
  end.

(** MultiSampleConsensusProblem.hpp (implementation) 89-131 getSamples. *)
Definition multi_getSamples {A M} (C : multi_class A M) (s : multi_state A)
    (iterations : Z) : outcome (multi_state A * Z * list (list Z)) :=
  let! (a, sizes) := mc_sizes C (ms_user s) in
  let s := mset_user s a in
  let! e := enough (ms_indices s) sizes in
  if negb e then Ret (s, INT_MAX, [])
  else
    let! (s', o) := multi_checks (mc_good C) (Z.to_nat (ms_checks s))
                      (map (fun n => Z.to_nat (n mod SIZE_T_MOD)) sizes) s in
    match o with
    | Some smp => Ret (s', iterations, smp)
    | None => Ret (s', iterations, [])
    end.

(** MultiSampleConsensusProblem.hpp (implementation) 198-209: the selection
    loops; dist was resized to indices_->size(), so camera [j] of [dist] exists
    whenever camera [j] of [idx] does (a shorter list is UB here). *)
Fixpoint multi_select_loop (idx : list (list Z)) (dist : list (list float)) (thr : float)
  : outcome (list (list Z)) :=
  match idx with
  | [] => Ret []
  | l :: ls =>
      match dist with
      | [] => UB
      | d :: ds =>
          let! i := select_loop l d thr in
          let! is := multi_select_loop ls ds thr in
          Ret (i :: is)
      end
  end.

(** MultiSampleConsensusProblem.hpp (implementation) 183-210 selectWithinDistance. *)
Definition multi_selectWithinDistance {A M} (C : multi_class A M) (s : multi_state A)
    (m : M) (thr : float) : outcome (multi_state A * list (list Z)) :=
  let (a, dist) := mc_dist C (ms_user s) m (ms_indices s) in
  let! inliers := multi_select_loop (ms_indices s) dist thr in
  Ret (mset_user s a, inliers).

(** MultiSampleConsensusProblem.hpp (implementation) 225-233: the counting loops. *)
Fixpoint multi_count_loop (idx : list (list Z)) (dist : list (list float)) (thr : float)
    (count : Z) : outcome Z :=
  match idx with
  | [] => Ret count
  | _ :: ls =>
      match dist with
      | [] => UB
      | d :: ds => multi_count_loop ls ds thr (count_loop d thr count)
      end
  end.

(** MultiSampleConsensusProblem.hpp (implementation) 212-236 countWithinDistance. *)
Definition multi_countWithinDistance {A M} (C : multi_class A M) (s : multi_state A)
    (m : M) (thr : float) : outcome (multi_state A * Z) :=
  let (a, dist) := mc_dist C (ms_user s) m (ms_indices s) in
  let! n := multi_count_loop (ms_indices s) dist thr 0 in
  if INT_MAX <? n then UB else Ret (mset_user s a, n).

Definition multi_computeModelCoefficients {A M} (C : multi_class A M) (s : multi_state A)
    (sel : list (list Z)) (m : M) : multi_state A * bool * M :=
  let '(a, ok, m') := mc_compute C (ms_user s) sel m in (mset_user s a, ok, m').

(** MultiRansac.hpp 101-109: total number of indices / selected indices. *)
Definition total_size (l : list (list Z)) : Z :=
  fold_left (fun acc x => acc + Z.of_nat (length x)) l 0.

Section MultiRansac.
  Context {A M : Type}.
  Variable flog : float -> float.
  Variable fpow : float -> float -> float.
  Variable C : multi_class A M.

  Definition multi_run_state : Type :=
    (multi_state A * sac_object (list (list Z)) M * locals (list (list Z)) M
     * list (event (list (list Z)) M))%type.

  (** MultiRansac.hpp 63-137: the while loop. *)
  Fixpoint multi_loop (fuel : nat) (max_skip : Z) (x : multi_run_state)
    : outcome multi_run_state :=
    let '(s, r, l, tr) := x in
    if PrimFloat.ltb (float_of_Z (o_iterations r)) (l_k l) && (l_skipped l <? max_skip)
    then
      match fuel with
      | O => Diverge
      | S fuel' =>
          let! (s1, it, sel) := multi_getSamples C s (o_iterations r) in
          let r := set_iterations r it in
          match sel with
          | [] =>                                               (* break *)
              Ret (s1, r, mkLoc (l_best l) (l_k l) (l_skipped l) sel (l_coef l), tr)
          | _ :: _ =>
              let '(s2, ok, coef) := multi_computeModelCoefficients C s1 sel (l_coef l) in
              if negb ok then                                   (* continue *)
                multi_loop fuel' max_skip
                  (s2, r,
                   mkLoc (l_best l) (l_k l) ((l_skipped l + 1) mod UNSIGNED_MOD) sel coef,
                   tr ++ [Skipped sel])
              else
                let! (s3, n) := multi_countWithinDistance C s2 coef (o_threshold r) in
                let tr := tr ++ [Tried sel coef n] in
                let '(r, best, k) :=
                  if l_best l <? n then
                    (set_model r sel coef, n,
                     ransac_k flog fpow (o_probability r) n
                       (total_size (ms_indices s3)) (total_size sel))
                  else (r, l_best l, l_k l) in
                let l := mkLoc best k (l_skipped l) sel coef in
                if INT_MAX <=? o_iterations r then UB
                else
                  let r := set_iterations r (o_iterations r + 1) in
                  if o_max_iterations r <? o_iterations r then Ret (s3, r, l, tr)
                  else multi_loop fuel' max_skip (s3, r, l, tr)
          end
      end
    else Ret x.

  (** MultiRansac.hpp 44-159 computeModel (debug printing omitted). *)
  Definition multi_computeModel (m0 : M) (s : multi_state A)
      (r : sac_object (list (list Z)) M)
    : outcome (multi_state A * sac_object (list (list Z)) M * bool
               * list (event (list (list Z)) M)) :=
    let! max_skip := max_skip_of (o_max_iterations r) in
    let r := set_iterations r 0 in
    let l := mkLoc (- INT_MAX) 1%float 0 [] m0 in
    let! (s, r, l, tr) :=
      multi_loop (ransac_fuel (o_max_iterations r) max_skip) max_skip (s, r, l, []) in
    match o_model r with
    | [] => Ret (s, set_inliers r [], false, tr)
    | _ :: _ =>
        let! (s, inliers) := multi_selectWithinDistance C s (o_coef r) (o_threshold r) in
        Ret (s, set_inliers r inliers, true, tr)
    end.

  (** MultiSampleConsensus.hpp constructor: a fresh object. *)
  Definition mfresh (maxIterations : Z) (threshold probability : float) (mi : M)
    : sac_object (list (list Z)) M :=
    mkObj maxIterations 0 threshold probability [] mi [].
End MultiRansac.

(** * Distributing the sample over the cameras
    MultiNoncentralRelativePoseSacProblem.cpp 352-355 / 379-388 and
    MultiNoncentralAbsolutePoseSacProblem.cpp 169-185. *)

(** floor(N * rand() / RAND_MAX) in exact arithmetic (the double computation is
    exact up to one rounding, and floor agrees for N < 2^20). *)
Definition start_bin (N r randmax : Z) : Z := N * r / randmax.

(** sampleSizes[b]++ with bounds check. *)
Fixpoint bump (l : list Z) (b : nat) : option (list Z) :=
  match l, b with
  | [], _ => None
  | x :: t, O => Some (x + 1 :: t)
  | x :: t, S b' => match bump t b' with Some t' => Some (x :: t') | None => None end
  end.

(** The for loop 381-388: [n] increments, binIndex wraps. *)
Fixpoint distribute (n : nat) (b : nat) (sizes : list Z) : outcome (list Z) :=
  match n with
  | O => Ret sizes
  | S n' =>
      match bump sizes b with
      | None => UB
      | Some sizes' =>
          let b' := S b in
          distribute n' (if Nat.leb (length sizes') b' then O else b') sizes'
      end
  end.

(** getSampleSizes for [cams] cameras, sample size [k], random number [r]. *)
Definition getSampleSizes (cams k : nat) (r randmax : Z) : outcome (list Z) :=
  distribute k (Z.to_nat (start_bin (Z.of_nat cams) r randmax)) (repeat 0 cams).

(** * Stratifying the sample (SIXPT)
    MultiNoncentralRelativePoseSacProblem.cpp 75-115. [temp] = tempIndices. *)
Fixpoint is_done (temp : list nat) (ind : list (list Z)) : bool :=
  match temp, ind with
  | t :: ts, l :: ls => if Nat.ltb t (length l) then false else is_done ts ls
  | _, _ => true
  end.

(** The inner while 91-96: skip exhausted cameras. *)
Fixpoint skip_bins (fuel : nat) (b : nat) (temp : list nat) (ind : list (list Z))
  : outcome nat :=
  match nth_error temp b, nth_error ind b with
  | Some t, Some l =>
      if Nat.leb (length l) t then
        match fuel with
        | O => Diverge
        | S f => skip_bins f (if Nat.leb (length ind) (S b) then O else S b) temp ind
        end
      else Ret b
  | _, _ => UB
  end.

(** The outer while 89-115; [conv] = _adapter.convertMultiIndex. *)
Fixpoint round_robin (conv : nat -> Z -> Z) (fuel : nat) (b : nat) (temp : list nat)
    (ind : list (list Z)) (acc : list Z) : outcome (list Z) :=
  if is_done temp ind then Ret acc
  else
    match fuel with
    | O => Diverge
    | S f =>
        let! b := skip_bins (length ind) b temp ind in
        match nth_error temp b, nth_error ind b with
        | Some t, Some l =>
            match nth_error l t with
            | Some i =>
                round_robin conv f (if Nat.leb (length ind) (S b) then O else S b)
                  (set_nth temp b (S t)) ind (acc ++ [conv b i])
            | None => UB
            end
        | _, _ => UB
        end
    end.

Definition total_len (ind : list (list Z)) : nat := fold_right (fun l n => (length l + n)%nat) O ind.

Definition stratify (conv : nat -> Z -> Z) (b : nat) (ind : list (list Z)) : outcome (list Z) :=
  round_robin conv (S (total_len ind)) b (repeat O (length ind)) ind [].

(** std::vector<int> indices6 (117-119): the first six entries. *)
Definition first_six (l : list Z) : outcome (list Z) :=
  if Nat.ltb (length l) 6 then UB else Ret (firstn 6 l).
