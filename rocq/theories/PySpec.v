(** Specification vocabulary for the Python bindings: what the elements a[i, j]
    of a C-ordered numpy array are, and which arrays hold given vectors. *)
From Coq Require Import Reals List.
From Verif Require Import Lin GeoModel TriModel PyModel.
Import ListNotations.

(** a[k] of a one-dimensional and a[i, j] of a two-dimensional array *)
Definition elem1 {E} (a : parr E) (k : nat) : option E :=
  match shp a with [n] => if Nat.ltb k n then nth_error (dat a) k else None | _ => None end.
Definition elem2 {E} (a : parr E) (i j : nat) : option E :=
  match shp a with
  | [n; m] => if andb (Nat.ltb i n) (Nat.ltb j m) then nth_error (dat a) (i * m + j) else None
  | _ => None
  end.
(** the buffer holds exactly the elements of the shape *)
Definition full {E} (a : parr E) : Prop := List.length (dat a) = prodn (shp a).

(** [a] is the n x 3 array whose rows are the vectors of [l]; [inj] = identity
    for arguments, [Some] for results (a number, not NaN). *)
Definition rows_are {E} (inj : R -> E) (a : parr E) (l : list vec3) : Prop :=
  shp a = [List.length l; 3%nat] /\ full a /\
  forall i k v, nth_error l i = Some v -> (k < 3)%nat -> elem2 a i k = Some (inj (ventry v k)).
(** [a] is a vector of three numbers *)
Definition vec_is {E} (inj : R -> E) (a : parr E) (t : vec3) : Prop :=
  shp a = [3%nat] /\ full a /\ forall k, (k < 3)%nat -> elem1 a k = Some (inj (ventry t k)).
(** [a] is a 3 x 3 matrix with a[i, j] in row i and column j *)
Definition mat_is {E} (inj : R -> E) (a : parr E) (M : mat3) : Prop :=
  shp a = [3%nat; 3%nat] /\ full a /\
  forall i j, (i < 3)%nat -> (j < 3)%nat -> elem2 a i j = Some (inj (ventry (mrow3 M i) j)).
(** [a] is the 3 x 4 matrix [R | t] *)
Definition pose_is {E} (inj : R -> E) (a : parr E) (T : pose) : Prop :=
  shp a = [3%nat; 4%nat] /\ full a /\
  (forall i j, (i < 3)%nat -> (j < 3)%nat -> elem2 a i j = Some (inj (ventry (mrow3 (pR T) i) j)))
  /\ (forall i, (i < 3)%nat -> elem2 a i 3 = Some (inj (ventry (pt T) i))).
(** the argument entries *)
Definition num (x : R) : R := x.
