(** Model of the sample-consensus core of opengv (definitions only, no proofs).

    Number representation: [int] values are [Z]; scores, thresholds and the
    adaptive bound k are IEEE binary64 ([PrimFloat]).  libm's [log] and [pow]
    are parameters (arbitrary functions), the random generator is an arbitrary
    stream of integers.  Undefined behaviour of the C++ is the outcome [UB]. *)
From Coq Require Import ZArith List Bool Floats Uint63 Lia.
Import ListNotations.
Open Scope Z_scope.

(** Result of running a piece of C++: a value, undefined behaviour, or "the
    loop fuel of the model was exhausted" (proved impossible in SacProofs). *)
Inductive outcome (X : Type) : Type :=
| Ret (x : X)
| UB
| Diverge.
Arguments Ret {X} x.
Arguments UB {X}.
Arguments Diverge {X}.

Definition obind {X Y} (o : outcome X) (f : X -> outcome Y) : outcome Y :=
  match o with Ret x => f x | UB => UB | Diverge => Diverge end.
Notation "'let!' p ':=' e 'in' k" :=
  (obind e (fun p => k)) (at level 61, p pattern, right associativity).

(** limits.h / size_t / unsigned *)
Definition INT_MAX : Z := 2147483647.
Definition SIZE_T_MOD : Z := 18446744073709551616.
Definition UNSIGNED_MOD : Z := 4294967296.

(** C++ implicit conversion int/size_t -> double.  Exact for |z| < 2^53. *)
Definition float_of_Z (z : Z) : float :=
  if z <? 0 then PrimFloat.opp (PrimFloat.of_uint63 (Uint63.of_Z (- z)))
  else PrimFloat.of_uint63 (Uint63.of_Z z).

(** std::max(a,b) = (a<b)?b:a and std::min(a,b) = (b<a)?b:a on double. *)
Definition fmax (a b : float) : float := if PrimFloat.ltb a b then b else a.
Definition fmin (a b : float) : float := if PrimFloat.ltb b a then b else a.

(** std::numeric_limits<double>::epsilon() = 2^-52, and ::max(). *)
Definition DBL_EPSILON : float := 0x1p-52%float.
Definition DBL_MAX : float := 0x1.fffffffffffffp+1023%float.

(** * Random numbers
    SampleConsensusProblem.hpp (implementation) 36-49 and 158-163: rnd() draws
    from a generator seeded in the constructor.  Simplification: the generator
    is an arbitrary infinite stream together with the number of values
    consumed so far (this covers mt19937 with any seed). *)
Record rng := mkRng { rng_stream : nat -> Z; rng_pos : nat }.
Definition rnd (g : rng) : Z * rng :=
  (rng_stream g (rng_pos g), mkRng (rng_stream g) (S (rng_pos g))).

(** * std::vector element write and std::swap *)
Fixpoint set_nth {X} (l : list X) (i : nat) (x : X) : list X :=
  match l, i with
  | [], _ => []
  | _ :: t, O => x :: t
  | h :: t, S i' => h :: set_nth t i' x
  end.

(** std::swap(v[i], v[j]); out-of-range access is UB. *)
Definition swap {X} (l : list X) (i j : nat) : outcome (list X) :=
  match nth_error l i, nth_error l j with
  | Some a, Some b => Ret (set_nth (set_nth l i b) j a)
  | _, _ => UB
  end.

(** * Drawing samples
    SampleConsensusProblem.hpp (implementation) 70-79: the for loop of
    drawIndexSample; [n] iterations remain, the loop counter is [i].
    [rnd()] is an int converted to size_t by the modulo (hence [mod 2^64]);
    [index_size - i] = 0 or wrapped is UB (division by zero, or an
    out-of-range access to shuffled_indices_[i]). *)
Fixpoint draw_loop (n i : nat) (pool : list Z) (g : rng)
  : outcome (list Z * rng) :=
  match n with
  | O => Ret (pool, g)
  | S n' =>
      let (r, g') := rnd g in
      if Nat.leb (length pool) i then UB
      else
        let span := Z.of_nat (length pool - i) in
        let j := (i + Z.to_nat ((r mod SIZE_T_MOD) mod span))%nat in
        let! pool' := swap pool i j in
        draw_loop n' (S i) pool' g'
  end.

(** SampleConsensusProblem.hpp (implementation) 63-84 drawIndexSample:
    [n] = sample.size(); returns the new sample, pool and generator. *)
Definition drawIndexSample (n : nat) (pool : list Z) (g : rng)
  : outcome (list Z * list Z * rng) :=
  let! (pool', g') := draw_loop n 0 pool g in
  if Nat.ltb (length pool') n then UB
  else Ret (firstn n pool', pool', g').

(** * The problem class
    A child of SampleConsensusProblem<M> (include/opengv/sac/
    SampleConsensusProblem.hpp): its virtual functions, as arbitrary functions
    of a user state [A] (adapter contents, rand() state, ...) which they may
    change.  [c_compute] receives the previous content of the output
    parameter, because the C++ passes it by reference without resetting it. *)
Record sac_class (A M : Type) := mkClass {
  c_sample_size : A -> Z;                             (* getSampleSize *)
  c_good : A -> list Z -> bool;                       (* isSampleGood *)
  c_compute : A -> list Z -> M -> A * bool * M;       (* computeModelCoefficients *)
  c_dist : A -> M -> list Z -> A * list float         (* getSelectedDistancesToModel *)
}.
Arguments c_sample_size {A M}.
Arguments c_good {A M}.
Arguments c_compute {A M}.
Arguments c_dist {A M}.

(** Member variables of SampleConsensusProblem: indices_, shuffled_indices_,
    rng_gen_, max_sample_checks_, plus the user state. *)
Record sac_state (A : Type) := mkSac {
  s_indices : list Z;
  s_shuffled : list Z;
  s_rng : rng;
  s_checks : Z;
  s_user : A
}.
Arguments mkSac {A}.
Arguments s_indices {A}.
Arguments s_shuffled {A}.
Arguments s_rng {A}.
Arguments s_checks {A}.
Arguments s_user {A}.

Definition set_user {A} (s : sac_state A) (a : A) : sac_state A :=
  mkSac (s_indices s) (s_shuffled s) (s_rng s) (s_checks s) a.
Definition set_pool {A} (s : sac_state A) (p : list Z) (g : rng) : sac_state A :=
  mkSac (s_indices s) p g (s_checks s) (s_user s).

(** SampleConsensusProblem.hpp (implementation) 148-155 setIndices, with the
    constructor's max_sample_checks_(10) (line 39). *)
Definition setIndices {A} (idx : list Z) (g : rng) (a : A) : sac_state A :=
  mkSac idx idx g 10 a.

(** SampleConsensusProblem.hpp (implementation) 137-146 setUniformIndices:
    indices 0..N-1.  (N < 0 makes resize throw; modelled as N = 0.) *)
Definition uniform_list (N : Z) : list Z := map Z.of_nat (seq 0 (Z.to_nat N)).
Definition setUniformIndices {A} (N : Z) (g : rng) (a : A) : sac_state A :=
  setIndices (uniform_list N) g a.

(** SampleConsensusProblem.hpp (implementation) 107-114: up to
    max_sample_checks_ draws, stopping at the first good sample.
    [None] in the result = no good sample found. *)
Fixpoint sample_checks {A} (good : A -> list Z -> bool) (tries n : nat)
    (s : sac_state A) : outcome (sac_state A * option (list Z)) :=
  match tries with
  | O => Ret (s, None)
  | S tries' =>
      let! (smp, pool, g) := drawIndexSample n (s_shuffled s) (s_rng s) in
      let s' := set_pool s pool g in
      if good (s_user s') smp then Ret (s', Some smp)
      else sample_checks good tries' n s'
  end.

(** SampleConsensusProblem.hpp (implementation) 87-120 getSamples.
    Returns the new state, the (by-reference) iterations and the samples. *)
Definition getSamples {A M} (C : sac_class A M) (s : sac_state A)
    (iterations : Z) : outcome (sac_state A * Z * list Z) :=
  let sz := c_sample_size C (s_user s) in
  if Z.of_nat (length (s_indices s)) <? (sz mod SIZE_T_MOD) then
    Ret (s, INT_MAX, [])
  else
    let! (s', o) :=
      sample_checks (c_good C) (Z.to_nat (s_checks s)) (Z.to_nat (sz mod SIZE_T_MOD)) s in
    match o with
    | Some smp => Ret (s', iterations, smp)
    | None => Ret (s', iterations, [])
    end.

(** SampleConsensusProblem.hpp (implementation) 179-183: the selection loop of
    selectWithinDistance over [dist], reading indices_->at(i) only for inliers. *)
Fixpoint select_loop (idx : list Z) (dist : list float) (thr : float)
  : outcome (list Z) :=
  match dist with
  | [] => Ret []
  | d :: ds =>
      if PrimFloat.ltb d thr then
        match idx with
        | [] => UB
        | i :: is => let! r := select_loop is ds thr in Ret (i :: r)
        end
      else select_loop (tl idx) ds thr
  end.

(** SampleConsensusProblem.hpp (implementation) 165-184 selectWithinDistance,
    with getDistancesToModel (129-135) inlined. *)
Definition selectWithinDistance {A M} (C : sac_class A M) (s : sac_state A)
    (m : M) (thr : float) : outcome (sac_state A * list Z) :=
  let (a, dist) := c_dist C (s_user s) m (s_indices s) in
  let! inliers := select_loop (s_indices s) dist thr in
  Ret (set_user s a, inliers).

(** SampleConsensusProblem.hpp (implementation) 195-200: the counting loop. *)
Fixpoint count_loop (dist : list float) (thr : float) (count : Z) : Z :=
  match dist with
  | [] => count
  | d :: ds => count_loop ds thr (if PrimFloat.ltb d thr then count + 1 else count)
  end.

(** SampleConsensusProblem.hpp (implementation) 186-203 countWithinDistance.
    The int counter overflowing is UB. *)
Definition countWithinDistance {A M} (C : sac_class A M) (s : sac_state A)
    (m : M) (thr : float) : outcome (sac_state A * Z) :=
  let (a, dist) := c_dist C (s_user s) m (s_indices s) in
  let n := count_loop dist thr 0 in
  if INT_MAX <? n then UB else Ret (set_user s a, n).

(** SampleConsensusProblem.hpp: computeModelCoefficients on the problem object. *)
Definition computeModelCoefficients {A M} (C : sac_class A M) (s : sac_state A)
    (sel : list Z) (m : M) : sac_state A * bool * M :=
  let '(a, ok, m') := c_compute C (s_user s) sel m in (set_user s a, ok, m').

(** * Ransac
    SampleConsensus.hpp: member variables of SampleConsensus/Ransac. *)
Record sac_object (Sel M : Type) := mkObj {
  o_max_iterations : Z;
  o_iterations : Z;
  o_threshold : float;
  o_probability : float;
  o_model : Sel;
  o_coef : M;
  o_inliers : Sel
}.
Arguments mkObj {Sel M}.
Arguments o_max_iterations {Sel M}.
Arguments o_iterations {Sel M}.
Arguments o_threshold {Sel M}.
Arguments o_probability {Sel M}.
Arguments o_model {Sel M}.
Arguments o_coef {Sel M}.
Arguments o_inliers {Sel M}.

Definition set_iterations {Sel M} (r : sac_object Sel M) (i : Z) :=
  mkObj (o_max_iterations r) i (o_threshold r) (o_probability r)
        (o_model r) (o_coef r) (o_inliers r).
Definition set_model {Sel M} (r : sac_object Sel M) (s : Sel) (m : M) :=
  mkObj (o_max_iterations r) (o_iterations r) (o_threshold r) (o_probability r)
        s m (o_inliers r).
Definition set_inliers {Sel M} (r : sac_object Sel M) (l : Sel) :=
  mkObj (o_max_iterations r) (o_iterations r) (o_threshold r) (o_probability r)
        (o_model r) (o_coef r) l.

(** Local variables of computeModel (Ransac.hpp 52-59). *)
Record locals (Sel M : Type) := mkLoc {
  l_best : Z;            (* n_best_inliers_count *)
  l_k : float;           (* k *)
  l_skipped : Z;         (* skipped_count *)
  l_selection : Sel;     (* selection *)
  l_coef : M             (* model_coefficients *)
}.
Arguments mkLoc {Sel M}.
Arguments l_best {Sel M}.
Arguments l_k {Sel M}.
Arguments l_skipped {Sel M}.
Arguments l_selection {Sel M}.
Arguments l_coef {Sel M}.

(** Ghost: what a run evaluated.  Not part of the C++; never read by the model. *)
Inductive event (Sel M : Type) :=
| Skipped (sel : Sel)
| Tried (sel : Sel) (coef : M) (count : Z).
Arguments Skipped {Sel M}.
Arguments Tried {Sel M}.

(** Ransac.hpp 102-112 (= MultiRansac.hpp 112-122): the new value of k, as one
    term over an arbitrary number type, so that the same code is read in
    binary64 (by the loop) and in exact reals (for C09). [best] = inlier count,
    [total] = number of indices, [n] = sample size, all converted to double. *)
Definition k_formula {T} (sub div mx mn : T -> T -> T) (log : T -> T)
    (pow : T -> T -> T) (one eps : T) (prob best total n : T) : T :=
  let w := div best total in
  let p_no_outliers := sub one (pow w n) in
  let p_no_outliers := mx eps p_no_outliers in
  let p_no_outliers := mn (sub one eps) p_no_outliers in
  div (log (sub one prob)) (log p_no_outliers).

Section Ransac.
  Context {A M : Type}.
  Variable flog : float -> float.             (* libm log *)
  Variable fpow : float -> float -> float.    (* libm pow *)
  Variable C : sac_class A M.

  (** The binary64 instance of k, with total = getIndices()->size(),
      n = selection.size(). *)
  Definition ransac_k (prob : float) (best total n : Z) : float :=
    k_formula PrimFloat.sub PrimFloat.div fmax fmin flog fpow 1%float DBL_EPSILON
      prob (float_of_Z best) (float_of_Z total) (float_of_Z n).

  Definition run_state : Type :=
    (sac_state A * sac_object (list Z) M * locals (list Z) M
     * list (event (list Z) M))%type.

  (** Ransac.hpp 64-127: the while loop. *)
  Fixpoint ransac_loop (fuel : nat) (max_skip : Z) (x : run_state)
    : outcome run_state :=
    let '(s, r, l, tr) := x in
    if PrimFloat.ltb (float_of_Z (o_iterations r)) (l_k l) && (l_skipped l <? max_skip)
    then
      match fuel with
      | O => Diverge
      | S fuel' =>
          let! (s1, it, sel) := getSamples C s (o_iterations r) in
          let r := set_iterations r it in
          match sel with
          | [] =>                                               (* break *)
              Ret (s1, r, mkLoc (l_best l) (l_k l) (l_skipped l) sel (l_coef l), tr)
          | _ :: _ =>
              let '(s2, ok, coef) := computeModelCoefficients C s1 sel (l_coef l) in
              if negb ok then                                   (* continue *)
                ransac_loop fuel' max_skip
                  (s2, r,
                   mkLoc (l_best l) (l_k l) ((l_skipped l + 1) mod UNSIGNED_MOD) sel coef,
                   tr ++ [Skipped sel])
              else
                let! (s3, n) := countWithinDistance C s2 coef (o_threshold r) in
                let tr := tr ++ [Tried sel coef n] in
                let '(r, best, k) :=
                  if l_best l <? n then
                    (set_model r sel coef, n,
                     ransac_k (o_probability r) n
                       (Z.of_nat (length (s_indices s3))) (Z.of_nat (length sel)))
                  else (r, l_best l, l_k l) in
                let l := mkLoc best k (l_skipped l) sel coef in
                if INT_MAX <=? o_iterations r then UB           (* ++iterations_ *)
                else
                  let r := set_iterations r (o_iterations r + 1) in
                  if o_max_iterations r <? o_iterations r then Ret (s3, r, l, tr)
                  else ransac_loop fuel' max_skip (s3, r, l, tr)
          end
      end
    else Ret x.

  (** Ransac.hpp 62: const unsigned max_skip = max_iterations_ * 10; the int
      product overflowing is UB, the conversion to unsigned is modulo 2^32. *)
  Definition max_skip_of (max_iterations : Z) : outcome Z :=
    let p := max_iterations * 10 in
    if (p <? - INT_MAX - 1) || (INT_MAX <? p) then UB
    else Ret (p mod UNSIGNED_MOD).

  (** Loop fuel: more than the number of iterations possible (SacProofs). *)
  Definition ransac_fuel (max_iterations max_skip : Z) : nat :=
    Z.to_nat (Z.max 0 max_iterations + max_skip + 2).

  (** Ransac.hpp 43-144 computeModel ([m0] = the default-constructed local
      model_coefficients; debug printing omitted). *)
  Definition ransac_computeModel (m0 : M) (s : sac_state A)
      (r : sac_object (list Z) M)
    : outcome (sac_state A * sac_object (list Z) M * bool
               * list (event (list Z) M)) :=
    let! max_skip := max_skip_of (o_max_iterations r) in
    let r := set_iterations r 0 in
    let l := mkLoc (- INT_MAX) 1%float 0 [] m0 in
    let! (s, r, l, tr) :=
      ransac_loop (ransac_fuel (o_max_iterations r) max_skip) max_skip (s, r, l, []) in
    match o_model r with
    | [] => Ret (s, set_inliers r [], false, tr)
    | _ :: _ =>
        let! (s, inliers) := selectWithinDistance C s (o_coef r) (o_threshold r) in
        Ret (s, set_inliers r inliers, true, tr)
    end.

  (** SampleConsensus.hpp constructor: a fresh Ransac/Lmeds object.
      [mi] stands for the uninitialised model_coefficients_. *)
  Definition fresh (maxIterations : Z) (threshold probability : float) (mi : M)
    : sac_object (list Z) M :=
    mkObj maxIterations 0 threshold probability [] mi [].
End Ransac.

(** * Lmeds *)
Section Lmeds.
  Context {A M : Type}.
  Variable fsort : list float -> list float.    (* std::sort on vector<double> *)
  Variable C : sac_class A M.

  (** Lmeds.hpp 109-114: clip at 0 and square. *)
  Definition clip_square (d : float) : float :=
    let d := if PrimFloat.ltb d 0 then 0%float else d in PrimFloat.mul d d.

  (** Lmeds.hpp 118-130: the penalty, [None] = line 119's skip.  [mid-1] with
      mid = 0 would be an out-of-range access (UB). *)
  Definition lmeds_penalty (n_indices : nat) (sorted : list float)
    : outcome (option float) :=
    let mid := (n_indices / 2)%nat in
    if Nat.leb (length sorted) mid then Ret None
    else if Nat.even n_indices then
      match mid with
      | O => UB
      | S m1 =>
          match nth_error sorted m1, nth_error sorted mid with
          | Some a, Some b => Ret (Some (PrimFloat.div (PrimFloat.add a b) 2))
          | _, _ => UB
          end
      end
    else match nth_error sorted mid with Some a => Ret (Some a) | None => UB end.

  (** Ghost event for Lmeds: the penalty of an evaluated hypothesis. *)
  Inductive lmeds_event :=
  | LSkipped (sel : list Z)
  | LTried (sel : list Z) (coef : M) (scores : list float) (penalty : float).

  Record lmeds_locals := mkLLoc {
    ll_best : float; ll_skipped : Z; ll_selection : list Z; ll_coef : M }.

  Definition lmeds_state : Type :=
    (sac_state A * sac_object (list Z) M * lmeds_locals * list lmeds_event)%type.

  (** Lmeds.hpp 77-148: the while loop. *)
  Fixpoint lmeds_loop (fuel : nat) (max_skip : Z) (x : lmeds_state)
    : outcome lmeds_state :=
    let '(s, r, l, tr) := x in
    if (o_iterations r <? o_max_iterations r) && (ll_skipped l <? max_skip) then
      match fuel with
      | O => Diverge
      | S fuel' =>
          let! (s1, it, sel) := getSamples C s (o_iterations r) in
          let r := set_iterations r it in
          match sel with
          | [] => Ret (s1, r, mkLLoc (ll_best l) (ll_skipped l) sel (ll_coef l), tr)
          | _ :: _ =>
              let '(s2, ok, coef) := computeModelCoefficients C s1 sel (ll_coef l) in
              let skip :=
                fun s => lmeds_loop fuel' max_skip
                  (s, r, mkLLoc (ll_best l) ((ll_skipped l + 1) mod UNSIGNED_MOD) sel coef,
                   tr ++ [LSkipped sel]) in
              if negb ok then skip s2
              else
                let (a, dist) := c_dist C (s_user s2) coef (s_indices s2) in
                let s3 := set_user s2 a in
                match dist with
                | [] => skip s3
                | _ :: _ =>
                    let! o := lmeds_penalty (length (s_indices s3))
                                (fsort (map clip_square dist)) in
                    match o with
                    | None => skip s3
                    | Some pen =>
                        let '(r, best) :=
                          if PrimFloat.ltb pen (ll_best l)
                          then (set_model r sel coef, pen) else (r, ll_best l) in
                        if INT_MAX <=? o_iterations r then UB
                        else
                          lmeds_loop fuel' max_skip
                            (s3, set_iterations r (o_iterations r + 1),
                             mkLLoc best (ll_skipped l) sel coef,
                             tr ++ [LTried sel coef dist pen])
                    end
                end
          end
      end
    else Ret x.

  (** Lmeds.hpp 181-189: the classification loop (inliers_ is rebuilt). *)
  Fixpoint lmeds_select (idx : list Z) (dist : list float) (thr : float) : list Z :=
    match idx, dist with
    | i :: is, d :: ds =>
        if PrimFloat.leb d thr then i :: lmeds_select is ds thr
        else lmeds_select is ds thr
    | _, _ => []
    end.

  Definition lmeds_fuel (max_iterations max_skip : Z) : nat :=
    Z.to_nat (Z.max 0 max_iterations + max_skip + 2).

  (** Lmeds.hpp 41-195 computeModel (debug printing omitted). *)
  Definition lmeds_computeModel (m0 : M) (s : sac_state A)
      (r : sac_object (list Z) M)
    : outcome (sac_state A * sac_object (list Z) M * bool * list lmeds_event) :=
    if PrimFloat.eqb (o_threshold r) DBL_MAX then Ret (s, r, false, [])
    else
      let! max_skip := max_skip_of (o_max_iterations r) in
      let r := set_iterations r 0 in
      let l := mkLLoc DBL_MAX 0 [] m0 in
      let! (s, r, l, tr) :=
        lmeds_loop (lmeds_fuel (o_max_iterations r) max_skip) max_skip (s, r, l, []) in
      match o_model r with
      | [] => Ret (s, r, false, tr)
      | _ :: _ =>
          let (a, dist) := c_dist C (s_user s) (o_coef r) (s_indices s) in
          let s := set_user s a in
          match dist with
          | [] => Ret (s, r, false, tr)
          | _ :: _ =>
              if negb (Nat.eqb (length dist) (length (s_indices s)))
              then Ret (s, r, false, tr)
              else
                Ret (s, set_inliers r (lmeds_select (s_indices s) dist (o_threshold r)),
                     true, tr)
          end
      end.
End Lmeds.
Arguments LSkipped {M}.
Arguments LTried {M}.
Arguments mkLLoc {M}.
Arguments ll_best {M}.
Arguments ll_skipped {M}.
Arguments ll_selection {M}.
Arguments ll_coef {M}.
