(** Specification vocabulary for the multi-camera properties. *)
From Coq Require Import ZArith List Bool Floats Permutation.
From Verif Require Import SacModel SacSpec MultiModel.
Import ListNotations.
Open Scope Z_scope.

(** Camera by camera, the sub-sample is drawn without replacement from the
    index set of that camera. *)
Fixpoint mdrawn (idx smp : list (list Z)) {struct smp} : Prop :=
  match smp, idx with
  | [], _ => True
  | sel :: ss, l :: ls => drawn_from l sel /\ mdrawn ls ss
  | _ :: _, [] => False
  end.

(** Reachable multi-camera problem objects. *)
Inductive mhistory {A M} (C : multi_class A M) (idx : list (list Z)) : multi_state A -> Prop :=
| mh_new : forall g a, mhistory C idx (msetIndices idx g a)
| mh_samples : forall s it s' it' smp,
    mhistory C idx s -> multi_getSamples C s it = Ret (s', it', smp) -> mhistory C idx s'
| mh_draw : forall s ns smp pool g,
    mhistory C idx s -> multi_draw ns (ms_shuffled s) (ms_rng s) = Ret (smp, pool, g) ->
    mhistory C idx (mset_pool s pool g)
| mh_user : forall s a, mhistory C idx s -> mhistory C idx (mset_user s a).

(** Every event of a run is a legal sample, really accepted / refused. *)
Definition mgenuine {A M} (C : multi_class A M) (idx : list (list Z))
    (e : event (list (list Z)) M) : Prop :=
  match e with
  | Skipped sel => mdrawn idx sel /\ exists a m a' m', mc_compute C a sel m = (a', false, m')
  | Tried sel coef n => mdrawn idx sel /\ exists a m a', mc_compute C a sel m = (a', true, coef)
  end.

(** getSampleSizes is defined and names at most the existing cameras. *)
Definition sizes_fine {A M} (C : multi_class A M) (ncams : nat) : Prop :=
  forall a, exists a' sizes, mc_sizes C a = Ret (a', sizes) /\ (length sizes <= ncams)%nat.

(** One list of scores per camera, one score per index. *)
Definition mone_score_per_index {A M} (C : multi_class A M) : Prop :=
  forall a m l, map (@length float) (snd (mc_dist C a m l)) = map (@length Z) l.

(** Scores depend only on model, camera and index. *)
Fixpoint map_cams {X Y} (f : nat -> X -> Y) (cam : nat) (l : list (list X)) : list (list Y) :=
  match l with
  | [] => []
  | x :: t => map (f cam) x :: map_cams f (S cam) t
  end.
Definition mscores_are_function {A M} (C : multi_class A M) (Inv : A -> Prop)
    (score : M -> nat -> Z -> float) : Prop :=
  (forall a a' l, Inv a -> mc_sizes C a = Ret (a', l) -> Inv a')
  /\ (forall a sel m, Inv a -> Inv (fst (fst (mc_compute C a sel m))))
  /\ (forall a m l, Inv a ->
        Inv (fst (mc_dist C a m l)) /\ snd (mc_dist C a m l) = map_cams (score m) 0 l).

(** Inliers per camera under a score function. *)
Fixpoint filter_cams (p : nat -> Z -> bool) (cam : nat) (l : list (list Z)) : list (list Z) :=
  match l with
  | [] => []
  | x :: t => filter (p cam) x :: filter_cams p (S cam) t
  end.

Definition count_all (l : list (list Z)) : Z := Z.of_nat (length (concat l)).

(** A one-camera multi problem built from a single-camera problem. *)
Definition one_camera {A M} (C : sac_class A M) : multi_class A M :=
  mkMultiClass
    (fun a => Ret (a, [c_sample_size C a]))
    (fun a l => c_good C a (concat l))
    (fun a l m => c_compute C a (concat l) m)
    (fun a m l => let (a', d) := c_dist C a m (concat l) in (a', [d])).
Definition as_one {A} (s : sac_state A) : multi_state A :=
  mkMulti [s_indices s] [s_shuffled s] (s_rng s) (s_checks s) (s_user s).
(** A selection of one camera; no selection is the empty list of cameras. *)
Definition wrap (l : list Z) : list (list Z) := match l with [] => [] | _ => [l] end.
Definition wrap_event {M} (e : event (list Z) M) : event (list (list Z)) M :=
  match e with Skipped sel => Skipped (wrap sel) | Tried sel c n => Tried (wrap sel) c n end.
(** Same parameters and the same stored model. *)
Definition same_object {M} (r : sac_object (list Z) M) (q : sac_object (list (list Z)) M) : Prop :=
  o_max_iterations q = o_max_iterations r /\ o_iterations q = o_iterations r
  /\ o_threshold q = o_threshold r /\ o_probability q = o_probability r
  /\ o_model q = wrap (o_model r) /\ o_coef q = o_coef r.

(** ** Distributing and stratifying samples *)

(** Sum of a list. *)
Definition Zsum (l : list Z) : Z := fold_right Z.add 0 l.

(** The v-th visit of a round robin over [n] = length ind cameras which starts
    at camera [b]: camera (b+v) mod n for the (v/n)-th time; nothing is
    collected when that camera has no sample left. *)
Definition visit (ind : list (list Z)) (b v : nat) : list (nat * Z) :=
  let n := length ind in
  let c := ((b + v) mod n)%nat in
  match nth_error (nth c ind []) (v / n) with
  | Some i => [(c, i)]
  | None => []
  end.

(** The first [V] visits. *)
Definition visits (ind : list (list Z)) (b V : nat) : list (nat * Z) :=
  flat_map (visit ind b) (seq 0 V).

(** Every (camera, sample) pair, camera by camera. *)
Fixpoint pairs_from (c : nat) (ind : list (list Z)) : list (nat * Z) :=
  match ind with
  | [] => []
  | l :: ls => map (pair c) l ++ pairs_from (S c) ls
  end.

Definition longest (ind : list (list Z)) : nat := fold_right (fun l n => Nat.max (length l) n) O ind.
