(** Specification of the Matlab entry point (C84): what a caller writes and
    what the caller gets, independent of the code's tables. *)
From Coq Require Import ZArith Reals List String Ascii Bool.
From Verif Require Import Lin MexModel.
Import ListNotations.
Local Open Scope string_scope.

(** Shape of the result: one r x k matrix; an r x k x m stack; a matrix and,
    if asked for, the inliers. *)
Inductive oshape := One (r k : nat) | Several (r k : nat) | Sac (r k : nat).
(** A method: name, rows of data1 and data2, adapter, library function, result. *)
Record mrow := Row { r_name : string; r_1 : nat; r_2 : nat; r_kind : makind; r_fn : libfn; r_out : oshape }.

Definition sacfn (p : sacproblem) (t : R) := L_ransac p t 50.
(** The documented interface.  The rows are grouped by data, not in the order
    of the code; upnp takes central and noncentral data. *)
Definition interface : list mrow :=
  let t2 := (2 * thr)%R in
  let ac n f o := Row n 3 3 MACentralAbs f o in
  let an n f o := Row n 3 6 MANoncentralAbs f o in
  let rc n f o := Row n 3 3 MACentralRel f o in
  let rn n f o := Row n 6 6 MANoncentralRel f o in
  let pc n f o := Row n 3 3 MACloud f o in
  [ac "p2p" L_p2p (One 3 1);
   ac "p3p_kneip" L_p3p_kneip (Several 3 4); ac "p3p_kneip_ransac" (sacfn (absRansac KNEIP) thr) (Sac 3 4);
   ac "p3p_gao" L_p3p_gao (Several 3 4);     ac "p3p_gao_ransac" (sacfn (absRansac GAO) thr) (Sac 3 4);
   ac "epnp" L_epnp (One 3 4);               ac "epnp_ransac" (sacfn (absRansac EPNP) thr) (Sac 3 4);
   ac "upnp" L_upnp (Several 3 4);           an "upnp" L_upnp (Several 3 4);
   ac "abs_nonlin_central" L_optimize_nonlinear_abs (One 3 4);
   an "abs_nonlin_noncentral" L_optimize_nonlinear_abs (One 3 4);
   an "gp3p" L_gp3p (Several 3 4);           an "gp3p_ransac" (sacfn (absRansac GP3P) thr) (Sac 3 4);
   an "gpnp" L_gpnp (One 3 4);
   rc "twopt" (L_twopt false) (One 3 1);
   rc "twopt_rotationOnly" L_twopt_rotationOnly (One 3 3);
   rc "rotationOnly" L_rotationOnly (One 3 3); rc "rotationOnly_ransac" (sacfn rotRansac t2) (Sac 3 3);
   rc "fivept_stewenius" L_fivept_stewenius_real (Several 3 3);
   rc "fivept_stewenius_ransac" (L_ransac_then_optimize (relRansac STEWENIUS) t2 50) (Sac 3 4);
   rc "fivept_nister" L_fivept_nister (Several 3 3);
   rc "fivept_nister_ransac" (sacfn (relRansac NISTER) t2) (Sac 3 4);
   rc "fivept_kneip" L_fivept_kneip (Several 3 3);
   rc "sevenpt" L_sevenpt (Several 3 3);     rc "sevenpt_ransac" (sacfn (relRansac SEVENPT) t2) (Sac 3 4);
   rc "eightpt" L_eightpt (One 3 3);         rc "eightpt_ransac" (sacfn (relRansac EIGHTPT) t2) (Sac 3 4);
   rc "eigensolver" L_eigensolver (One 3 3); rc "eigensolver_ransac" (sacfn (eigRansac 10) 1) (Sac 3 4);
   rc "rel_nonlin_central" L_optimize_nonlinear_rel (One 3 4);
   rn "rel_nonlin_noncentral" L_optimize_nonlinear_rel (One 3 4);
   rn "sixpt" L_sixpt (Several 3 3);         rn "sixpt_ransac" (sacfn (nrelRansac SIXPT) t2) (Sac 3 4);
   rn "seventeenpt" L_seventeenpt (One 3 4); rn "seventeenpt_ransac" (sacfn (nrelRansac SEVENTEENPT) t2) (Sac 3 4);
   rn "ge" L_ge (One 3 3);                   rn "ge_ransac" (sacfn (nrelRansac GE) t2) (Sac 3 4);
   pc "threept_arun" L_threept_arun (One 3 4); pc "threept_arun_ransac" (sacfn ptRansac (/ 10)) (Sac 3 4)].

(** Matlab values: a string, an r x n matrix of doubles given column by column,
    a row of 1-based indices. *)
Definition str (s : string) : mxarray :=
  Mx [1%nat; String.length s] (ClsChar (list_ascii_of_string s)).
Definition matrix (r n : nat) (l : list R) : mxarray := Mx [r; n] (ClsDouble l).
Definition index_row (ix : list nat) : mxarray := Mx [1%nat; List.length ix] (ClsDouble (map INR ix)).
Definition columns (A : mat3) : list R :=
  [m00 A; m10 A; m20 A; m01 A; m11 A; m21 A; m02 A; m12 A; m22 A]%R.
Definition entries (t : vec3) : list R := [vx t; vy t; vz t].
(** indices of n correspondences *)
Definition good_indices (n : nat) (ix : list nat) : Prop :=
  (List.length ix <= n)%nat /\ forall i, In i ix -> (1 <= i <= n)%nat.
Definition zero_based (ix : list nat) : list Z := map (fun i => Z.of_nat i - 1)%Z ix.

(** The argument lists of a call on n correspondences, with the indices and the
    prior they stand for. *)
Inductive call_form (n : nat) (d1 d2 : mxarray) : list mxarray -> option (list Z) -> vec3 -> mat3 -> Prop :=
  | CF_plain : call_form n d1 d2 [d1; d2] None v0 mid
  | CF_indices ix : good_indices n ix ->
      call_form n d1 d2 [index_row ix; d1; d2] (Some (zero_based ix)) v0 mid
  | CF_translation ix t : good_indices n ix ->
      call_form n d1 d2 [index_row ix; d1; d2; matrix 3 1 (entries t)] (Some (zero_based ix)) t mid
  | CF_rotation ix A : good_indices n ix ->
      call_form n d1 d2 [index_row ix; d1; d2; matrix 3 3 (columns A)] (Some (zero_based ix)) v0 A
  | CF_pose ix A t : good_indices n ix ->
      call_form n d1 d2 [index_row ix; d1; d2; matrix 3 4 (columns A ++ entries t)] (Some (zero_based ix)) t A.

(** The outputs for one or two left-hand sides, from what the library returns. *)
Definition outputs (run1 : mcall -> list R) (runN : mcall -> list (list R)) (runS : mcall -> list R * list Z)
    (o : oshape) (nlhs : nat) (c : mcall) (plhs : list mxarray) : Prop :=
  match o with
  | One r k => nlhs = 1%nat /\ (List.length (run1 c) = r * k -> plhs = [matrix r k (run1 c)])%nat
  | Several r k => nlhs = 1%nat /\
      ((forall x, In x (runN c) -> List.length x = r * k) ->
       plhs = [Mx [r; k; List.length (runN c)] (ClsDouble (List.concat (runN c)))])%nat
  | Sac r k => let (m, inliers) := runS c in (List.length m = r * k ->
      (nlhs = 1 /\ plhs = [matrix r k m]) \/
      (nlhs = 2 /\ plhs = [matrix r k m; Mx [1; List.length inliers] (ClsInt32 (map Z.succ inliers))]))%nat
  end.
(** the number of left-hand sides a method allows *)
Definition lhs_ok (o : oshape) (nlhs : nat) : Prop :=
  match o with Sac _ _ => nlhs = 1%nat \/ nlhs = 2%nat | _ => nlhs = 1%nat end.
