(** Model of the Matlab entry point, matlab/opengv.cpp (definitions only).
    Doubles are reals.  Of the mex library only array dimensions, element
    classes and raw data are modelled.  Message texts are dropped: a call that
    prints a message and returns is [Printed].  The algorithms of the library
    are the arguments [run1], [runN], [runS] of the entry point, applied to the
    adapter and the indices the entry point builds.  The conversion of array
    sizes from mwSize to int (e.g. 476) is exact, and memory is never short. *)
From Coq Require Import ZArith Reals List String Ascii Bool.
From Verif Require Import Lin.
Import ListNotations.
Local Open Scope string_scope.

(** Data of a Matlab array, column-major.  [ClsOther] is any further class. *)
Inductive mxdata := ClsChar (l : list ascii) | ClsDouble (l : list R) | ClsInt32 (l : list Z) | ClsOther.
(** mxArray; mxGetDimensions is [mx_dims], of length at least two in Matlab *)
Record mxarray := Mx { mx_dims : list nat; mx_data : mxdata }.
Definition dim (a : mxarray) (i : nat) : nat := nth i (mx_dims a) O.
(** mxGetM, mxGetN: rows, and the product of the other dimensions *)
Definition mxGetM (a : mxarray) : nat := dim a 0.
Definition mxGetN (a : mxarray) : nat := fold_right Nat.mul 1%nat (tl (mx_dims a)).
(** (double* ) mxGetData(a): the class is not checked by the code, so any other
    class is read as doubles it does not hold ([None]) *)
Definition as_double (a : mxarray) : option (list R) :=
  match mx_data a with ClsDouble l => Some l | _ => None end.

(** opengv.cpp 85-130: methods[] *)
Definition methods : list string :=
  ["p2p"; "p3p_kneip"; "p3p_gao"; "epnp"; "p3p_kneip_ransac"; "p3p_gao_ransac";
   "epnp_ransac"; "abs_nonlin_central"; "gp3p"; "gp3p_ransac"; "gpnp"; "abs_nonlin_noncentral";
   "upnp"; "twopt"; "twopt_rotationOnly"; "rotationOnly"; "fivept_stewenius"; "fivept_nister";
   "fivept_kneip"; "sevenpt"; "eightpt"; "eigensolver"; "rotationOnly_ransac"; "fivept_stewenius_ransac";
   "fivept_nister_ransac"; "sevenpt_ransac"; "eightpt_ransac"; "eigensolver_ransac"; "rel_nonlin_central"; "sixpt";
   "seventeenpt"; "ge"; "sixpt_ransac"; "seventeenpt_ransac"; "ge_ransac"; "rel_nonlin_noncentral";
   "threept_arun"; "threept_arun_ransac"].
(** opengv.cpp 133-135: methodsLengths[] *)
Definition methodsLengths : list nat :=
  [3;9;7;4;16;14;11;18;4;11;4;21;4;5;18;12;16;13;12;
   7;7;11;19;23;20;14;14;18;18;5;11;2;12;18;9;21;12;19]%nat.
(** opengv.cpp 137-150 *)
Definition absCentralFirst : nat := 0.   Definition absCentralLast : nat := 7.
Definition absNoncentralFirst : nat := 8. Definition absNoncentralLast : nat := 11.
Definition upnpIndex : nat := 12.
Definition relCentralFirst : nat := 13.  Definition relCentralLast : nat := 28.
Definition relNoncentralFirst : nat := 29. Definition relNoncentralLast : nat := 35.
Definition pointCloudFirst : nat := 36.  Definition pointCloudLast : nat := 37.
Definition numberMethods : nat := pointCloudLast + 1.
(** opengv.cpp 152-192: enum Method *)
Inductive Method :=
  | M_P2P | M_P3P_KNEIP | M_P3P_GAO | M_EPNP | M_P3P_KNEIP_RANSAC | M_P3P_GAO_RANSAC
  | M_EPNP_RANSAC | M_ABS_NONLIN_CENTRAL | M_GP3P | M_GP3P_RANSAC | M_GPNP | M_ABS_NONLIN_NONCENTRAL
  | M_UPNP | M_TWOPT | M_TWOPT_ROTATIONONLY | M_ROTATIONONLY | M_FIVEPT_STEWENIUS | M_FIVEPT_NISTER
  | M_FIVEPT_KNEIP | M_SEVENPT | M_EIGHTPT | M_EIGENSOLVER | M_ROTATIONONLY_RANSAC | M_FIVEPT_STEWENIUS_RANSAC
  | M_FIVEPT_NISTER_RANSAC | M_SEVENPT_RANSAC | M_EIGHTPT_RANSAC | M_EIGENSOLVER_RANSAC | M_REL_NONLIN_CENTRAL | M_SIXPT
  | M_SEVENTEENPT | M_GE | M_SIXPT_RANSAC | M_SEVENTEENPT_RANSAC | M_GE_RANSAC | M_REL_NONLIN_NONCENTRAL
  | M_THREEPT_ARUN | M_THREEPT_ARUN_RANSAC.
Definition enum : list Method :=
  [M_P2P; M_P3P_KNEIP; M_P3P_GAO; M_EPNP; M_P3P_KNEIP_RANSAC; M_P3P_GAO_RANSAC;
   M_EPNP_RANSAC; M_ABS_NONLIN_CENTRAL; M_GP3P; M_GP3P_RANSAC; M_GPNP; M_ABS_NONLIN_NONCENTRAL;
   M_UPNP; M_TWOPT; M_TWOPT_ROTATIONONLY; M_ROTATIONONLY; M_FIVEPT_STEWENIUS; M_FIVEPT_NISTER;
   M_FIVEPT_KNEIP; M_SEVENPT; M_EIGHTPT; M_EIGENSOLVER; M_ROTATIONONLY_RANSAC; M_FIVEPT_STEWENIUS_RANSAC;
   M_FIVEPT_NISTER_RANSAC; M_SEVENPT_RANSAC; M_EIGHTPT_RANSAC; M_EIGENSOLVER_RANSAC; M_REL_NONLIN_CENTRAL; M_SIXPT;
   M_SEVENTEENPT; M_GE; M_SIXPT_RANSAC; M_SEVENTEENPT_RANSAC; M_GE_RANSAC; M_REL_NONLIN_NONCENTRAL;
   M_THREEPT_ARUN; M_THREEPT_ARUN_RANSAC].

(** opengv.cpp 206-214: the first [k] characters of both agree; an index beyond
    the string reads its terminating zero *)
Definition char_at (s : list ascii) (i : nat) : ascii := nth i s zero.
Fixpoint all_same (input : list ascii) (m : list ascii) (i k : nat) : bool :=
  match k with
  | O => true
  | S k => if Ascii.eqb (char_at input i) (char_at m i) then all_same input m (S i) k else false
  end.
(** opengv.cpp 195-229: findCase; [None] is -1.  [k] counts the rounds left. *)
Fixpoint find_from (input : list ascii) (inputLength n k : nat) : option nat :=
  match k with
  | O => None
  | S k =>
      if Nat.eqb inputLength (nth n methodsLengths O) &&
         all_same input (list_ascii_of_string (nth n methods "")) 0 inputLength
      then Some n else find_from input inputLength (S n) k
  end.
Definition findCase (input : list ascii) (inputLength : nat) : option nat :=
  find_from input inputLength 0 numberMethods.

(** The adapters of the Matlab interface: class, data pointers, sizes, and the
    pose prior, by default zero and the identity (AbsoluteAdapterBase.hpp
    70-73, RelativeAdapterBase.hpp, PointCloudAdapterBase.hpp). *)
Inductive makind := MACentralAbs | MANoncentralAbs | MACentralRel | MANoncentralRel | MACloud.
Record maadapter := Ma { ma_kind : makind; ma_data1 : list R; ma_data2 : list R; ma_n1 : nat; ma_n2 : nat;
                         ma_t : vec3; ma_R : mat3 }.

(** The library functions the entry point calls: the last argument of the sac
    problems is max_iterations_, the one before threshold_. *)
Inductive absalg := KNEIP | GAO | EPNP | GP3P.
Inductive relalg := STEWENIUS | NISTER | SEVENPT | EIGHTPT.
Inductive nrelalg := SIXPT | SEVENTEENPT | GE.
Inductive sacproblem := absRansac (a : absalg) | relRansac (a : relalg) | nrelRansac (a : nrelalg)
  | rotRansac | eigRansac (sampleSize : nat) | ptRansac.
Inductive libfn :=
  | L_p2p | L_p3p_kneip | L_p3p_gao | L_epnp | L_optimize_nonlinear_abs | L_gp3p | L_gpnp | L_upnp
  | L_twopt (unrotate : bool) | L_twopt_rotationOnly | L_rotationOnly
  | L_fivept_stewenius_real | L_fivept_nister | L_fivept_kneip | L_sevenpt | L_eightpt | L_eigensolver
  | L_optimize_nonlinear_rel | L_sixpt | L_seventeenpt | L_ge | L_threept_arun
  | L_ransac (p : sacproblem) (threshold : R) (max_iterations : nat)
  | L_ransac_then_optimize (p : sacproblem) (threshold : R) (max_iterations : nat).
Record mcall := MCall { mc_fn : libfn; mc_adapter : maadapter; mc_indices : option (list Z) }.

(** opengv.cpp 775 etc. *)
Definition thr : R := (1 - cos (atan (sqrt 2 * / 2 / 800)))%R.

(** Outcome of a call: a message and no output; nothing at all; the outputs
    plhs[0..]; or undefined behaviour. *)
Inductive mexres := Printed | Silent | Out (plhs : list mxarray) | MexUB.

(** floor(x + 0.01) - 1 as an int (655): undefined outside the range of int *)
Definition to_index (x : R) : option Z :=
  let z := (Int_part (x + / 100) - 1)%Z in
  if ((-2147483648 <=? z) && (z <=? 2147483647))%Z then Some z else None.
Fixpoint to_indices (l : list R) : option (list Z) :=
  match l with
  | [] => Some []
  | x :: l => match to_index x, to_indices l with Some i, Some r => Some (i :: r) | _, _ => None end
  end.

Definition in_range (a n b : nat) : bool := Nat.leb a n && Nat.leb n b.
Definition rows36 (a : mxarray) : bool := Nat.eqb (dim a 0) 3 || Nat.eqb (dim a 0) 6.
Definition two_dims (a : mxarray) : bool := Nat.eqb (List.length (mx_dims a)) 2.

(** 301-328 (negated): the checks on (method, data1, data2) *)
Definition data_ok (d1 d2 : mxarray) : bool :=
  two_dims d1 && two_dims d2 && rows36 d1 && rows36 d2 &&
  Nat.eqb (dim d1 1) (dim d2 1) && Nat.leb 1 (dim d1 1) && Nat.leb 1 (dim d2 1).
(** 329-364: (method, indices, data1, data2) *)
Definition indices_ok (ix d2 : mxarray) : bool :=
  two_dims ix && Nat.eqb (dim ix 0) 1 && Nat.leb (dim ix 1) (dim d2 1).
(** 365-405: (method, indices, data1, data2, prior) *)
Definition prior_ok (pr : mxarray) : bool :=
  two_dims pr && Nat.eqb (dim pr 0) 3 &&
  (Nat.eqb (dim pr 1) 1 || Nat.eqb (dim pr 1) 3 || Nat.eqb (dim pr 1) 4).

(** 419-467: the prior as (translation, rotation), unset parts [None] *)
Definition g (p : list R) (i : nat) : R := nth i p 0%R.
Definition rot9 (p : list R) : mat3 := M3 (g p 0) (g p 3) (g p 6) (g p 1) (g p 4) (g p 7) (g p 2) (g p 5) (g p 8).
Definition read_prior (cols : nat) (p : list R) : option vec3 * option mat3 :=
  (if Nat.eqb cols 1 then Some (V3 (g p 0) (g p 1) (g p 2))
   else if Nat.eqb cols 4 then Some (V3 (g p 9) (g p 10) (g p 11)) else None,
   if Nat.eqb cols 3 || Nat.eqb cols 4 then Some (rot9 p) else None).

(** 469-633: the adapter of a method; [inl] = message and return.  The three
    pointers of 408-410 are one option: each method uses only the one that its
    range assigns, an unassigned one would stay [None]. *)
Definition make_adapter (k : makind) (d1 d2 : mxarray) (pr : option vec3 * option mat3) : option maadapter :=
  match as_double d1, as_double d2 with
  | Some l1, Some l2 =>
      Some (Ma k l1 l2 (dim d1 1) (dim d2 1)
               (match fst pr with Some t => t | None => v0 end)
               (match snd pr with Some r => r | None => mid end))
  | _, _ => None
  end.
Definition sizes_ok (caseNumber : nat) (r1 r2 : nat) : bool :=
  (negb (in_range absCentralFirst caseNumber absCentralLast) || (Nat.eqb r1 3 && Nat.eqb r2 3)) &&
  (negb (in_range absNoncentralFirst caseNumber absNoncentralLast) || (Nat.eqb r1 3 && Nat.eqb r2 6)) &&
  (negb (Nat.eqb caseNumber upnpIndex) || (Nat.eqb r1 3 && (Nat.eqb r2 3 || Nat.eqb r2 6))) &&
  (negb (in_range relCentralFirst caseNumber relCentralLast) || (Nat.eqb r1 3 && Nat.eqb r2 3)) &&
  (negb (in_range relNoncentralFirst caseNumber relNoncentralLast) || (Nat.eqb r1 6 && Nat.eqb r2 6)) &&
  (negb (in_range pointCloudFirst caseNumber pointCloudLast) || (Nat.eqb r1 3 && Nat.eqb r2 3)).
Definition kind_of (caseNumber r2 : nat) : option makind :=
  if in_range absCentralFirst caseNumber absCentralLast then Some MACentralAbs
  else if in_range absNoncentralFirst caseNumber absNoncentralLast then Some MANoncentralAbs
  else if Nat.eqb caseNumber upnpIndex then Some (if Nat.eqb r2 3 then MACentralAbs else MANoncentralAbs)
  else if in_range relCentralFirst caseNumber relCentralLast then Some MACentralRel
  else if in_range relNoncentralFirst caseNumber relNoncentralLast then Some MANoncentralRel
  else if in_range pointCloudFirst caseNumber pointCloudLast then Some MACloud
  else None.

Section ENTRY.
(** the library: one array of numbers (column-major), several of them, or a
    model and its inliers *)
Variable run1 : mcall -> list R.
Variable runN : mcall -> list (list R).
Variable runS : mcall -> list R * list Z.

(** the three shapes of the cases of the switch, 668-688, 690-715 and 766-797 *)
Definition single (nlhs : nat) (c : mcall) (r k : nat) : mexres :=
  if Nat.ltb 1 nlhs then Printed else Out [Mx [r; k] (ClsDouble (firstn (r * k) (run1 c)))].
Definition many (nlhs : nat) (c : mcall) (r k : nat) : mexres :=
  if Nat.ltb 1 nlhs then Printed else
  let l := runN c in Out [Mx [r; k; List.length l] (ClsDouble (flat_map (firstn (r * k)) l))].
Definition sac (nlhs : nat) (c : mcall) (r k : nat) : mexres :=
  let (m, inl) := runS c in
  let o := Mx [r; k] (ClsDouble (firstn (r * k) m)) in
  Out (if Nat.ltb 1 nlhs
       then [o; Mx [1; List.length inl]%nat (ClsInt32 (map (fun i => i + 1)%Z inl))]
       else [o]).

(** 666-1724: the switch *)
Definition switch (m : Method) (nlhs : nat) (a : maadapter) (ix : option (list Z)) : mexres :=
  let call f := MCall f a ix in
  let t2 := (2 * thr)%R in
  match m with
  | M_P2P => single nlhs (call L_p2p) 3 1                                                     (* 668 *)
  | M_P3P_KNEIP => many nlhs (call L_p3p_kneip) 3 4                                           (* 690 *)
  | M_P3P_GAO => many nlhs (call L_p3p_gao) 3 4                                               (* 717 *)
  | M_EPNP => single nlhs (call L_epnp) 3 4                                                   (* 744 *)
  | M_P3P_KNEIP_RANSAC => sac nlhs (call (L_ransac (absRansac KNEIP) thr 50)) 3 4             (* 766 *)
  | M_P3P_GAO_RANSAC => sac nlhs (call (L_ransac (absRansac GAO) thr 50)) 3 4                 (* 799 *)
  | M_EPNP_RANSAC => sac nlhs (call (L_ransac (absRansac EPNP) thr 50)) 3 4                   (* 831 *)
  | M_ABS_NONLIN_CENTRAL => single nlhs (call L_optimize_nonlinear_abs) 3 4                   (* 863 *)
  | M_GP3P => many nlhs (call L_gp3p) 3 4                                                     (* 885 *)
  | M_GP3P_RANSAC => sac nlhs (call (L_ransac (absRansac GP3P) thr 50)) 3 4                   (* 912 *)
  | M_GPNP => single nlhs (call L_gpnp) 3 4                                                   (* 944 *)
  | M_ABS_NONLIN_NONCENTRAL => single nlhs (call L_optimize_nonlinear_abs) 3 4                (* 966 *)
  | M_UPNP => many nlhs (call L_upnp) 3 4                                                     (* 988 *)
  | M_TWOPT => single nlhs (call (L_twopt false)) 3 1                                         (* 1016 *)
  | M_TWOPT_ROTATIONONLY => single nlhs (call L_twopt_rotationOnly) 3 3                       (* 1038 *)
  | M_ROTATIONONLY => single nlhs (call L_rotationOnly) 3 3                                   (* 1060 *)
  | M_FIVEPT_STEWENIUS => many nlhs (call L_fivept_stewenius_real) 3 3                        (* 1082 *)
  | M_FIVEPT_NISTER => many nlhs (call L_fivept_nister) 3 3                                   (* 1120 *)
  | M_FIVEPT_KNEIP =>                                                                         (* 1147 *)
      if Nat.ltb 1 nlhs then Printed else
      match ix with None => Printed | Some _ => many nlhs (call L_fivept_kneip) 3 3 end
  | M_SEVENPT => many nlhs (call L_sevenpt) 3 3                                               (* 1181 *)
  | M_EIGHTPT => single nlhs (call L_eightpt) 3 3                                             (* 1208 *)
  | M_EIGENSOLVER => single nlhs (call L_eigensolver) 3 3                                     (* 1230 *)
  | M_ROTATIONONLY_RANSAC => sac nlhs (call (L_ransac rotRansac t2 50)) 3 3                   (* 1252 *)
  | M_FIVEPT_STEWENIUS_RANSAC =>
      sac nlhs (call (L_ransac_then_optimize (relRansac STEWENIUS) t2 50)) 3 4                (* 1284 *)
  | M_FIVEPT_NISTER_RANSAC => sac nlhs (call (L_ransac (relRansac NISTER) t2 50)) 3 4         (* 1321 *)
  | M_SEVENPT_RANSAC => sac nlhs (call (L_ransac (relRansac SEVENPT) t2 50)) 3 4              (* 1353 *)
  | M_EIGHTPT_RANSAC => sac nlhs (call (L_ransac (relRansac EIGHTPT) t2 50)) 3 4              (* 1385 *)
  | M_EIGENSOLVER_RANSAC => sac nlhs (call (L_ransac (eigRansac 10) 1 50)) 3 4                (* 1417 *)
  | M_REL_NONLIN_CENTRAL => single nlhs (call L_optimize_nonlinear_rel) 3 4                   (* 1452 *)
  | M_SIXPT => many nlhs (call L_sixpt) 3 3                                                   (* 1474 *)
  | M_SEVENTEENPT => single nlhs (call L_seventeenpt) 3 4                                     (* 1501 *)
  | M_GE => single nlhs (call L_ge) 3 3                                                       (* 1523 *)
  | M_SIXPT_RANSAC => sac nlhs (call (L_ransac (nrelRansac SIXPT) t2 50)) 3 4                 (* 1547 *)
  | M_SEVENTEENPT_RANSAC => sac nlhs (call (L_ransac (nrelRansac SEVENTEENPT) t2 50)) 3 4     (* 1579 *)
  | M_GE_RANSAC => sac nlhs (call (L_ransac (nrelRansac GE) t2 50)) 3 4                       (* 1611 *)
  | M_REL_NONLIN_NONCENTRAL => single nlhs (call L_optimize_nonlinear_rel) 3 4                (* 1643 *)
  | M_THREEPT_ARUN => single nlhs (call L_threept_arun) 3 4                                   (* 1665 *)
  | M_THREEPT_ARUN_RANSAC => sac nlhs (call (L_ransac ptRansac (/ 10) 50)) 3 4                (* 1687 *)
  end.

(** 407-664, after the checks on the arguments; [ix], [pr]: the optional arguments *)
Definition entry (caseNumber nlhs : nat) (ix : option mxarray) (d1 d2 : mxarray) (pr : option mxarray) : mexres :=
  match (match pr with
         | None => Some (None, None)
         | Some p => option_map (read_prior (dim p 1)) (as_double p)
         end) with
  | None => MexUB
  | Some prior =>
    if negb (sizes_ok caseNumber (dim d1 0) (dim d2 0)) then Printed else
    let ad := match kind_of caseNumber (dim d2 0) with
              | Some k => make_adapter k d1 d2 prior | None => None end in
    if negb (Nat.eqb nlhs 1 || Nat.eqb nlhs 2) then (if Nat.ltb 2 nlhs then Printed else Silent) else
    match (match ix with
           | None => Some None
           | Some i => match as_double i with
                       | Some l => option_map Some (to_indices (firstn (dim i 1) l))
                       | None => None end
           end) with
    | None => MexUB
    | Some idx =>
      match nth_error enum caseNumber, ad with
      | Some m, Some a => switch m nlhs a idx
      | Some _, None => MexUB
      | None, _ => Printed
      end
    end
  end.

(** 257-405: mexFunction.  [junk]: what the fresh buffer of 282 holds; mxGetString
    overwrites it only for an array of characters *)
Definition mexFunction (junk : list ascii) (nlhs : nat) (prhs : list mxarray) : mexres :=
  match prhs with
  | m :: rest =>
    if negb (in_range 3 (List.length prhs) 5) then Printed else
    if negb (Nat.eqb (mxGetM m) 1) then Printed else
    let buffer := match mx_data m with ClsChar l => l | _ => junk end in
    match findCase buffer (mxGetN m) with
    | None => Printed
    | Some n =>
      match rest with
      | [d1; d2] => if data_ok d1 d2 then entry n nlhs None d1 d2 None else Printed
      | [ix; d1; d2] =>
          if data_ok d1 d2 && indices_ok ix d2 then entry n nlhs (Some ix) d1 d2 None else Printed
      | [ix; d1; d2; pr] =>
          if data_ok d1 d2 && indices_ok ix d2 && prior_ok pr then entry n nlhs (Some ix) d1 d2 (Some pr) else Printed
      | _ => Printed
      end
    end
  | [] => Printed
  end.
End ENTRY.
