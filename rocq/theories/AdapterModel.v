(** Adapters: index serialisation, array-backed and vector-backed access, and the
    Indices class.  Definitions only.

    Simplifications: size_t/int indices are nat (no adapter holds 2^31
    correspondences); reading outside a container, and violating an assert, is
    UB; the scalar type is arbitrary. *)
From Coq Require Import List Arith Bool.
From Verif Require Import SacModel.
Import ListNotations.

(** container[i] *)
Definition at_ {X} (l : list X) (i : nat) : outcome X :=
  match nth_error l i with Some x => Ret x | None => UB end.

(** * Multi-camera serialisation *)

(** The three member tables filled by the constructors. *)
Record tables := mkTables {
  t_offsets : list nat;    (* singleIndexOffsets *)
  t_cams : list nat;       (* multiFrameIndices / multiPairIndices *)
  t_keys : list nat        (* multiKeypointIndices *)
}.

(** Inner loop: NoncentralAbsoluteMultiAdapter.cpp 51-58,
    NoncentralRelativeMultiAdapter.cpp 51-58, CentralRelativeMultiAdapter.cpp
    45-60, MANoncentralRelativeMulti.cpp 51-58: [left] remaining
    correspondences of camera [cam], next one is [key]. *)
Fixpoint fill_cam (left cam key : nat) (t : tables) : tables :=
  match left with
  | O => t
  | S n => fill_cam n cam (S key)
             (mkTables (t_offsets t) (t_cams t ++ [cam]) (t_keys t ++ [key]))
  end.

(** Outer loop (same files, lines 48-60): [sizes] = correspondences per camera. *)
Fixpoint fill_all (sizes : list nat) (cam offset : nat) (t : tables) : tables :=
  match sizes with
  | [] => t
  | n :: ns =>
      let t := mkTables (t_offsets t ++ [offset]) (t_cams t) (t_keys t) in
      fill_all ns (S cam) (offset + n) (fill_cam n cam 0 t)
  end.

Definition build (sizes : list nat) : tables := fill_all sizes 0 0 (mkTables [] [] []).

(** convertMultiIndex (NoncentralAbsoluteMultiAdapter.cpp 146-151 and siblings). *)
Definition convertMultiIndex (t : tables) (cam key : nat) : outcome nat :=
  let! o := at_ (t_offsets t) cam in Ret (o + key).

(** multiFrameIndex / multiPairIndex and multiCorrespondenceIndex (153-165). *)
Definition multiCamIndex (t : tables) (i : nat) : outcome nat := at_ (t_cams t) i.
Definition multiCorrespondenceIndex (t : tables) (i : nat) : outcome nat := at_ (t_keys t) i.

(** convertMultiIndices (NoncentralAbsoluteMultiAdapter.cpp 124-144). *)
Fixpoint convert_cam (t : tables) (cam : nat) (keys : list nat) : outcome (list nat) :=
  match keys with
  | [] => Ret []
  | k :: ks => let! i := convertMultiIndex t cam k in
               let! is := convert_cam t cam ks in Ret (i :: is)
  end.
Fixpoint convert_from (t : tables) (cam : nat) (mi : list (list nat)) : outcome (list nat) :=
  match mi with
  | [] => Ret []
  | ks :: r => let! a := convert_cam t cam ks in
               let! b := convert_from t (S cam) r in Ret (a ++ b)
  end.
Definition convertMultiIndices (t : tables) (mi : list (list nat)) : outcome (list nat) :=
  convert_from t 0 mi.

(** Camera-wise access, e.g. getBearingVector(frameIndex, correspondenceIndex)
    (NoncentralAbsoluteMultiAdapter.cpp 67-86). *)
Definition get_multi {X} (data : list (list X)) (cam key : nat) : outcome X :=
  let! v := at_ data cam in at_ v key.

(** Serial access through the base class: getBearingVector(index), getPoint(index)
    etc. (AbsoluteMultiAdapterBase.hpp 169-196, RelativeMultiAdapterBase.hpp 179-212). *)
Definition get_serial {X} (data : list (list X)) (t : tables) (i : nat) : outcome X :=
  let! c := multiCamIndex t i in
  let! k := multiCorrespondenceIndex t i in
  get_multi data c k.

(** Per-camera attributes: getCamOffset(index) etc. (same files). *)
Definition get_serial_cam {Y} (per_cam : list Y) (t : tables) (i : nat) : outcome Y :=
  let! c := multiCamIndex t i in at_ per_cam c.

(** getNumberCorrespondences() (AbsoluteMultiAdapterBase.hpp 197-203): sum over
    getNumberFrames() = [ncams] cameras. *)
Fixpoint count_from {X} (data : list (list X)) (cam n : nat) : outcome nat :=
  match n with
  | O => Ret O
  | S n' => let! v := at_ data cam in
            let! r := count_from data (S cam) n' in Ret (length v + r)
  end.
Definition getNumberCorrespondences {X} (data : list (list X)) (ncams : nat) : outcome nat :=
  count_from data 0 ncams.

(** * Single adapters *)

(** What a solver can observe of an absolute-pose adapter. *)
Record abs_view (V Rot : Type) := mkAbsView {
  v_bearing : nat -> outcome V;
  v_point : nat -> outcome V;
  v_offset : nat -> outcome V;
  v_rotation : nat -> outcome Rot;
  v_number : nat
}.
Arguments mkAbsView {V Rot}.
Arguments v_bearing {V Rot}.
Arguments v_point {V Rot}.
Arguments v_offset {V Rot}.
Arguments v_rotation {V Rot}.
Arguments v_number {V Rot}.

Definition guard_ {X} (b : bool) (x : outcome X) : outcome X := if b then x else UB.

(** CentralAbsoluteAdapter.cpp 66-111.  getPoint asserts against the number of
    bearing vectors, not of points. *)
Definition CentralAbsolute {V Rot} (zero : V) (one : Rot) (bearings points : list V) : abs_view V Rot :=
  mkAbsView
    (fun i => guard_ (Nat.ltb i (length bearings)) (at_ bearings i))
    (fun i => guard_ (Nat.ltb i (length bearings)) (at_ points i))
    (fun _ => Ret zero) (fun _ => Ret one) (length bearings).

(** NoncentralAbsoluteAdapter.cpp 82-125. *)
Definition NoncentralAbsolute {V Rot} (bearings : list V) (cams : list nat) (points : list V)
    (offsets : list V) (rotations : list Rot) : abs_view V Rot :=
  mkAbsView
    (fun i => guard_ (Nat.ltb i (length bearings)) (at_ bearings i))
    (fun i => guard_ (Nat.ltb i (length bearings)) (at_ points i))
    (fun i => let! c := at_ cams i in at_ offsets c)
    (fun i => let! c := at_ cams i in at_ rotations c)
    (length bearings).

(** Three consecutive doubles of an array (MACentralAbsolute.cpp 56-59 etc.). *)
Definition triple {T} (a : list T) (p : nat) : outcome (T * T * T) :=
  let! x := at_ a p in
  let! y := at_ a (p + 1) in
  let! z := at_ a (p + 2) in
  Ret (x, y, z).

(** MACentralAbsolute.cpp 50-103. *)
Definition MACentralAbsolute {T Rot} (zero : T) (one : Rot) (points bearings : list T)
    (nPoints nBearings : nat) : abs_view (T * T * T) Rot :=
  mkAbsView
    (fun i => guard_ (Nat.ltb i nBearings) (triple bearings (i * 3)))
    (fun i => guard_ (Nat.ltb i nPoints) (triple points (i * 3)))
    (fun _ => Ret (zero, zero, zero)) (fun _ => Ret one) nBearings.

(** MANoncentralAbsolute.cpp 49-103. *)
Definition MANoncentralAbsolute {T Rot} (one : Rot) (points bearings : list T)
    (nPoints nBearings : nat) : abs_view (T * T * T) Rot :=
  mkAbsView
    (fun i => guard_ (Nat.ltb i nBearings) (triple bearings (i * 6)))
    (fun i => guard_ (Nat.ltb i nPoints) (triple points (i * 3)))
    (fun i => guard_ (Nat.ltb i nBearings) (triple bearings (i * 6 + 3)))
    (fun _ => Ret one) nBearings.

(** What a solver can observe of a relative-pose adapter. *)
Record rel_view (V Rot : Type) := mkRelView {
  w_bearing1 : nat -> outcome V;
  w_bearing2 : nat -> outcome V;
  w_offset1 : nat -> outcome V;
  w_offset2 : nat -> outcome V;
  w_rotation1 : nat -> outcome Rot;
  w_rotation2 : nat -> outcome Rot;
  w_number : nat
}.
Arguments mkRelView {V Rot}.
Arguments w_bearing1 {V Rot}.
Arguments w_bearing2 {V Rot}.
Arguments w_offset1 {V Rot}.
Arguments w_offset2 {V Rot}.
Arguments w_rotation1 {V Rot}.
Arguments w_rotation2 {V Rot}.
Arguments w_number {V Rot}.

(** CentralRelativeAdapter.cpp 64-128. *)
Definition CentralRelative {V Rot} (zero : V) (one : Rot) (b1 b2 : list V) : rel_view V Rot :=
  mkRelView
    (fun i => guard_ (Nat.ltb i (length b1)) (at_ b1 i))
    (fun i => guard_ (Nat.ltb i (length b2)) (at_ b2 i))
    (fun _ => Ret zero) (fun _ => Ret zero) (fun _ => Ret one) (fun _ => Ret one) (length b2).

(** NoncentralRelativeAdapter.cpp 88-150. *)
Definition NoncentralRelative {V Rot} (b1 b2 : list V) (c1 c2 : list nat)
    (offsets : list V) (rotations : list Rot) : rel_view V Rot :=
  mkRelView
    (fun i => guard_ (Nat.ltb i (length b1)) (at_ b1 i))
    (fun i => guard_ (Nat.ltb i (length b2)) (at_ b2 i))
    (fun i => let! c := at_ c1 i in at_ offsets c)
    (fun i => let! c := at_ c2 i in at_ offsets c)
    (fun i => let! c := at_ c1 i in at_ rotations c)
    (fun i => let! c := at_ c2 i in at_ rotations c)
    (length b2).

(** MACentralRelative.cpp 48-120. *)
Definition MACentralRelative {T Rot} (zero : T) (one : Rot) (b1 b2 : list T) (n1 n2 : nat)
    : rel_view (T * T * T) Rot :=
  mkRelView
    (fun i => guard_ (Nat.ltb i n1) (triple b1 (i * 3)))
    (fun i => guard_ (Nat.ltb i n2) (triple b2 (i * 3)))
    (fun _ => Ret (zero, zero, zero)) (fun _ => Ret (zero, zero, zero))
    (fun _ => Ret one) (fun _ => Ret one) n2.

(** MANoncentralRelative.cpp 48-124. *)
Definition MANoncentralRelative {T Rot} (one : Rot) (b1 b2 : list T) (n1 n2 : nat)
    : rel_view (T * T * T) Rot :=
  mkRelView
    (fun i => guard_ (Nat.ltb i n1) (triple b1 (i * 6)))
    (fun i => guard_ (Nat.ltb i n2) (triple b2 (i * 6)))
    (fun i => guard_ (Nat.ltb i n1) (triple b1 (i * 6 + 3)))
    (fun i => guard_ (Nat.ltb i n2) (triple b2 (i * 6 + 3)))
    (fun _ => Ret one) (fun _ => Ret one) n2.

(** MANoncentralRelativeMulti.cpp 65-95: camera-wise access to packed arrays,
    [sizes] = _numberBearingVectors. *)
Definition MAmulti_bearing {T} (b : list (list T)) (sizes : list nat) (cam key : nat)
    : outcome (T * T * T) :=
  let! n := at_ sizes cam in
  guard_ (Nat.ltb key n) (let! a := at_ b cam in triple a (key * 3)).
(** 105-115 getCamOffset. *)
Definition MAmulti_offset {T} (offs : list T) (sizes : list nat) (cam : nat) : outcome (T * T * T) :=
  guard_ (Nat.ltb cam (length sizes)) (triple offs (cam * 3)).

(** * Indices (include/opengv/Indices.hpp 57-105) *)
Inductive indices_t :=
| UseIndices (l : list nat)
| AllIndices (n : nat).
Definition indices_size (x : indices_t) : nat :=
  match x with UseIndices l => length l | AllIndices n => n end.
Definition indices_get (x : indices_t) (i : nat) : outcome nat :=
  match x with UseIndices l => at_ l i | AllIndices _ => Ret i end.

(** The loop of every n-point method (e.g. absolute_pose/methods.cpp 262-267,
    relative_pose/methods.cpp 440-448, point_cloud/methods.cpp 55-72): for each
    position i, read correspondence indices[i] and update an accumulator. *)
Fixpoint for_indices {D S} (read : nat -> outcome D) (step : S -> D -> S) (x : indices_t)
    (i left : nat) (acc : S) : outcome S :=
  match left with
  | O => Ret acc
  | Datatypes.S n =>
      let! k := indices_get x i in
      let! d := read k in
      for_indices read step x (Datatypes.S i) n (step acc d)
  end.
Definition run_method {D S} (read : nat -> outcome D) (step : S -> D -> S) (x : indices_t) (init : S)
    : outcome S := for_indices read step x 0 (indices_size x) init.
