(** C75: which candidates the solver for up to four correspondences reads from
    the eigenvectors. *)
From Coq Require Import Reals Lra Lia List Arith ZArith.
From Verif Require Import Lin GenLin Cplx CEig GbModel RotModel UpnpModel UpnpProps UpnpProps2 UpnpActModel UpnpActGrad UpnpActProps UpnpActData UpnpActData UpnpActEx1  UpnpActEx1 UpnpActEx2 UpnpActEx3.
Import ListNotations.
Local Open Scope R_scope.

(** Every one of the sixteen columns gives one candidate, and a column that is a
    real multiple of the basis monomials of a quaternion gives that multiple of
    the quaternion; the poses returned are those of these candidates. *)
Theorem C75_plain_candidates : forall inv precision eig l H A,
  let M := uM (uI H up l) up l in let C := uC (uI H up l) (uJ H l) up l in
  uH l = Some H -> (length l <= 4)%nat -> u2_action inv precision M C = Some A ->
  exists evs, upnp_complete inv precision eig l = upnp evs l /\ length evs = 16%nat /\
    forall k c q, (k < 16)%nat -> (forall i, (i < 16)%nat -> eig 16%nat A i k = RtoC (c * u2_basis q i)) ->
      nth_error evs k = Some (qscale c q).
Proof.
  intros inv precision eig l H A M C EH L E. exists (u2_evs (eig 16%nat A)).
  split.
  - assert (Ev : upnp_evs inv precision eig l = Some (u2_evs (eig 16%nat A))).
    { unfold upnp_evs. rewrite EH. cbv zeta. fold M C. replace (Nat.ltb 4 (length l)) with false by (symmetry; apply Nat.ltb_ge; lia).
      rewrite E. reflexivity. }
    unfold upnp_complete. rewrite Ev. reflexivity.
  - split; [reflexivity|]. intros k c q Hk HV. unfold u2_evs.
    assert (S : nth_error (seq 0 16) k = Some k) by (rewrite (nth_error_nth' _ 0%nat) by exact Hk; rewrite seq_nth by exact Hk; reflexivity).
    rewrite (map_nth_error _ _ _ S). rewrite !HV by lia. reflexivity.
Qed.
Example C75_plain_candidates_nonvacuous : exists inv eig A, uH s4_l = Some s4_H /\ (length s4_l <= 4)%nat /\ u2_action inv 0 s4_M s4_C = Some A /\
  exists k c, (k < 16)%nat /\ c <> 0 /\ forall i, (i < 16)%nat -> eig 16%nat A i k = RtoC (c * u2_basis hq i).
Proof.
  destruct s4_reduced as [m E]. exists inv4, (fun _ _ i _ => RtoC (2 * u2_basis hq i)), (u2_action_of m).
  split; [exact s4_uH|]. split; [cbv; lia|]. split; [rewrite u2_action_def, E; reflexivity|].
  exists 3%nat, 2. split; [lia|]. split; [lra|]. reflexivity.
Qed.
