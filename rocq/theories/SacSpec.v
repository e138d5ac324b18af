(** Specification vocabulary for the sample-consensus properties.  Nothing here
    refers to proofs; only the API-level model types are used. *)
From Coq Require Import ZArith List Bool Floats Permutation.
From Verif Require Import SacModel.
Import ListNotations.
Open Scope Z_scope.

(** [sel] consists of entries of [idx] taken at pairwise distinct positions. *)
Definition drawn_from (idx sel : list Z) : Prop :=
  exists rest, Permutation idx (sel ++ rest).

(** A problem object reachable from construction by any sequence of public
    operations (draws, sample requests, user-state changes made by solvers,
    scoring, or by the user). *)
Inductive history {A M} (C : sac_class A M) (idx : list Z) : sac_state A -> Prop :=
| h_new : forall g a, history C idx (setIndices idx g a)
| h_samples : forall s it s' it' smp,
    history C idx s -> getSamples C s it = Ret (s', it', smp) -> history C idx s'
| h_draw : forall s n smp pool g,
    history C idx s -> drawIndexSample n (s_shuffled s) (s_rng s) = Ret (smp, pool, g) ->
    history C idx (set_pool s pool g)
| h_user : forall s a, history C idx s -> history C idx (set_user s a).

(** [k] consecutive draws of [n] indices, every one refused by isSampleGood. *)
Inductive refused_draws {A M} (C : sac_class A M) (n : nat)
  : nat -> sac_state A -> sac_state A -> Prop :=
| rd_none : forall s, refused_draws C n 0 s s
| rd_one : forall k s smp pool g s',
    drawIndexSample n (s_shuffled s) (s_rng s) = Ret (smp, pool, g) ->
    c_good C (s_user s) smp = false ->
    refused_draws C n k (set_pool s pool g) s' ->
    refused_draws C n (S k) s s'.

(** Number of evaluated / rejected hypotheses in a run. *)
Definition n_evaluated {Sel M} (tr : list (event Sel M)) : Z :=
  Z.of_nat (length (filter (fun e => match e with Tried _ _ _ => true | _ => false end) tr)).
Definition n_rejected {Sel M} (tr : list (event Sel M)) : Z :=
  Z.of_nat (length (filter (fun e => match e with Tried _ _ _ => false | _ => true end) tr)).

(** Every evaluated hypothesis was really produced by the solver from a legal
    sample, every rejected one was really refused by it. *)
Definition genuine {A M} (C : sac_class A M) (idx : list Z) (e : event (list Z) M) : Prop :=
  match e with
  | Skipped sel => drawn_from idx sel
                   /\ exists a m a' m', c_compute C a sel m = (a', false, m')
  | Tried sel coef n => drawn_from idx sel
                   /\ exists a m a', c_compute C a sel m = (a', true, coef)
  end.

(** (sel, coef) is the earliest hypothesis of [tr] with the largest count. *)
Definition first_best {Sel M} (tr : list (event Sel M)) (sel : Sel) (coef : M) (n : Z) : Prop :=
  exists pre post, tr = pre ++ Tried sel coef n :: post
    /\ (forall s c k, In (Tried s c k) pre -> k < n)
    /\ (forall s c k, In (Tried s c k) post -> k <= n).

(** Scores depend only on the model and the index, as long as the user state
    satisfies an invariant that solver and scoring maintain. *)
Definition scores_are_function {A M} (C : sac_class A M) (Inv : A -> Prop)
    (score : M -> Z -> float) : Prop :=
  (forall a sel m, Inv a -> Inv (fst (fst (c_compute C a sel m))))
  /\ (forall a m l, Inv a ->
        Inv (fst (c_dist C a m l)) /\ snd (c_dist C a m l) = map (score m) l).

(** The scoring function returns one score per requested index. *)
Definition one_score_per_index {A M} (C : sac_class A M) : Prop :=
  forall a m l, length (snd (c_dist C a m l)) = length l.

(** Penalty of one score in LMedS: its square, negative scores count as 0. *)
Definition squared_score (d : float) : float :=
  if PrimFloat.ltb d 0 then 0%float else PrimFloat.mul d d.

(** Median of [n] clipped squared scores as LMedS defines it, via any ascending
    arrangement. *)
Definition ascending (l : list float) : Prop :=
  forall i j a b, (i < j)%nat -> nth_error l i = Some a -> nth_error l j = Some b ->
    PrimFloat.ltb b a = false.
Definition is_median (l : list float) (p : float) : Prop :=
  exists l', Permutation l l' /\ ascending l' /\
    if Nat.even (length l)
    then exists m a b, length l = (2 * S m)%nat /\ nth_error l' m = Some a
                       /\ nth_error l' (S m) = Some b
                       /\ p = PrimFloat.div (PrimFloat.add a b) 2
    else exists m, length l = (2 * m + 1)%nat /\ nth_error l' m = Some p.

(** Contract of std::sort on doubles without NaN. *)
Definition sort_contract (fsort : list float -> list float) : Prop :=
  forall l, Permutation l (fsort l)
    /\ ((forall x, In x l -> PrimFloat.is_nan x = false) -> ascending (fsort l)).

(** A demonstration problem used for non-vacuity: a model is an index value, a
    correspondence fits if it has the same parity; scores 0 or 1.  Samples
    containing index 7 are refused by the solver. *)
Definition demo_score (m i : Z) : float := if Z.even (m + i) then 0%float else 1%float.
Definition demo : sac_class unit Z :=
  mkClass unit Z (fun _ => 2)
    (fun _ _ => true)
    (fun a sel m => if existsb (Z.eqb 7) sel then (a, false, m)
                    else (a, true, hd 0 sel))
    (fun a m l => (a, map (demo_score m) l)).
(** libm log at the arguments arising in the demos (values of glibc), a crude
    line elsewhere; pow for exponent 2. *)
Definition demo_log (x : float) : float :=
  if PrimFloat.eqb x (1 - 0.99)%float then (-4.605170185988091)%float
  else if PrimFloat.eqb x (1 - 0.36)%float then (-0.4462871026284195)%float
  else (x - 1)%float.
Definition demo_pow (w n : float) : float := (w * w)%float.
Definition demo_rng : rng := mkRng (fun n => Z.of_nat (7 * n * n + 3 * n + 1)) 0.
