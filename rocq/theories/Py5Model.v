(** Model of the upnp wrapper of the Python bindings, python/pyopengv.cpp 239-244
    (definitions only). *)
From Coq Require Import Reals List Arith.
From Verif Require Import Lin RotModel GeoModel UpnpModel PyModel Py2Model.
Import ListNotations.
Local Open Scope R_scope.

(** arrayFromTransformation (88-92) of a result of upnp, of which the rotation or
    the translation may be NaN *)
Definition arr_of_upose (o : upose) : parr (option R) :=
  let r := match fst o with Some M => map (map Some) (mrows M) | None => repeat (repeat None 3) 3 end in
  let t := ovec (snd o) in
  Arr [3%nat; 4%nat] (List.concat (map (fun i => nth i r [] ++ [nth i t None]) (seq 0 3))).
(** absolute_pose::upnp(v, p), 239-244: all rows of v; the solver asserts that
    there are more than two (absolute_pose/methods.cpp 488).  Central adapter: no
    camera offsets, camera rotations the identity (174-184).  [evs] are the
    quaternions found by the generated solvers ([upnp_evs] of UpnpActModel.v);
    [None] where they or the solver divide by zero. *)
Definition py_upnp (evs : list ucorr -> option (list quat)) (v p : parr R) : pyres (option (list (parr (option R)))) :=
  py! n := shape0 v in
  py! _ := py_assert (Nat.ltb 2 n) in
  py! l := both_rows p v n 0 in
  let cs := map (fun q => UC (mv mid (snd q)) v0 (fst q)) l in
  PyOk (match evs cs with None => None | Some E => option_map (map arr_of_upose) (upnp E cs) end).
