(** Model of modules::fivept_kneip_main, src/relative_pose/modules/main.cpp
    278-572, and of fivept_kneip, src/relative_pose/methods.cpp 289-309, over
    the reals.  The template it runs is in KneipData.v.  The eigensolver is an
    argument that returns eigenvalues and eigenvectors.  Definitions only. *)
From Coq Require Import Reals List Arith Bool.
From Verif Require Import Lin GenLin Cplx GbModel GeoModel KneipOps KneipData.
Import ListNotations.
Local Open Scope R_scope.

(** which statement group an instruction of computeBasis is, code.cpp 36-8910
    (the functions it calls are in spolynomials.cpp and reductors.cpp) *)
Definition kn_op (c : kinstr) : kop :=
  match c with
  | CS k => KG (nth k kn_spolys (GE 0 0 0))
  | CR k t => let '(s, c0, p, ps) := nth k kn_reds (0, 0, 0, [])%nat in KG (GR t s c0 p ps)
  | CI k t => let '(c0, neg, s, ps) := nth k kn_inls (0%nat, false, 0%nat, []) in KI t c0 neg s ps
  | CN r c => KG (GN r c)
  | CE t c s => KG (GE t c s)
  end.

(** the entry of column c of a zero row after the listed assignments, init.cpp
    39-156 (every column is assigned at most once) *)
Definition kn_at (l : list (nat * R)) (c : nat) : R :=
  match find (fun e => Nat.eqb (fst e) c) l with Some e => snd e | None => 0 end.
(** the triples of the three nested loops in order, main.cpp 302-324 *)
Definition kn_triples : list (nat * nat * nat) :=
  [(0,1,2); (0,1,3); (0,1,4); (0,2,3); (0,2,4); (0,3,4); (1,2,3); (1,2,4); (1,3,4); (2,3,4)]%nat.
(** the row of one triple of features, main.cpp 306-321 *)
Definition kn_epi (a b c a' b' c' : vec3) : list (nat * R) :=
  let temp1 := outer a b in
  let temp2 := outer a' b' in
  kn_row (mscale (vx c) temp1) (mscale (vy c) temp1) (mscale (vz c) temp1) (mscale (vx c') temp2) (mscale (vy c') temp2) (mscale (vz c') temp2).
(** groebnerMatrix before computeBasis, main.cpp 284-326 *)
Definition kn_init (f1 f2 : nat -> vec3) : gmat := fun r c =>
  match nth_error kn_triples r with
  | Some (i, j, k) => kn_at (kn_epi (f1 i) (f1 j) (f1 k) (f2 i) (f2 j) (f2 k)) c
  | None => gcells kn_const r c
  end.
(** groebnerMatrix after computeBasis, main.cpp 327 *)
Definition kn_basis (f1 f2 : nat -> vec3) : option gmat := krun (map kn_op kn_code) (kn_init f1 f2).
(** M, main.cpp 329-340 *)
Definition kn_action (G : gmat) (r c : nat) : R :=
  if Nat.ltb r 10 then - G (51 + r)%nat (177 + c)%nat
  else if Nat.ltb r 19 then delta c (r - 9) else delta c 18.

(** finalRotation of column i before the tests, main.cpp 356-380; None when an
    entry is infinite or NaN (then the determinant test fails) *)
Definition kn_rotation (V : nat -> nat -> cx) (i : nat) : option mat3 :=
  if ceqb (V 19%nat i) c0 then None
  else
    let e k := re (cdiv (V k i) (V 19%nat i)) in
    let r1 := V3 (e 15%nat) (e 14%nat) (e 13%nat) in
    let r2 := V3 (e 12%nat) (e 11%nat) (e 10%nat) in
    if Req_EM_T (norm r1) 0 then None
    else if Req_EM_T (norm r2) 0 then None
    else Some (of_rows (V3 (e 18%nat) (e 17%nat) (e 16%nat)) (vdivs r1 (norm r1)) (vdivs r2 (norm r2))).
(** f1.col(i).cross(finalRotation*f2.col(i)), main.cpp 387-389 and 467-471 *)
Definition kn_normal (f1 f2 : nat -> vec3) (M : mat3) (i : nat) : vec3 := cross (f1 i) (mv M (f2 i)).
(** eval.determinant() of one triple, main.cpp 387-426 *)
Definition kn_eval (f1 f2 : nat -> vec3) (M : mat3) (t : nat * nat * nat) : R :=
  let '(i, j, k) := t in Rabs (det (of_cols (kn_normal f1 f2 M i) (kn_normal f1 f2 M j) (kn_normal f1 f2 M k))).
(** the nine residuals of the rotation constraints, main.cpp 427-460 *)
Definition kn_ortho (M : mat3) : list R :=
  [ Rabs (m00 M * m00 M + m01 M * m01 M + m02 M * m02 M - 1);
    Rabs (m00 M * m10 M + m01 M * m11 M + m02 M * m12 M);
    Rabs (m00 M * m20 M + m01 M * m21 M + m02 M * m22 M);
    Rabs (m10 M * m10 M + m11 M * m11 M + m12 M * m12 M - 1);
    Rabs (m10 M * m20 M + m11 M * m21 M + m12 M * m22 M);
    Rabs (m20 M * m20 M + m21 M * m21 M + m22 M * m22 M - 1);
    Rabs (m10 M * m21 M - m20 M * m11 M - m02 M);
    Rabs (m20 M * m01 M - m00 M * m21 M - m12 M);
    Rabs (m00 M * m11 M - m10 M * m01 M - m22 M) ].
(** totalEval, main.cpp 385-460 *)
Definition kn_total (f1 f2 : nat -> vec3) (M : mat3) : R :=
  rsum (map (kn_eval f1 f2 M) kn_triples) + rsum (kn_ortho M).
(** the pairs (a,b) of trans_ab, main.cpp 473-492 *)
Definition kn_pairs : list (nat * nat) := [(0,1); (0,2); (0,3); (0,4); (1,2); (1,3); (1,4); (2,3); (2,4); (3,4)]%nat.
(** one test of the loop, main.cpp 501-507 *)
Definition kn_front (f1 f2 : nat -> vec3) (M : mat3) (i : nat) (ab : nat * nat) : bool :=
  let trans := cross (kn_normal f1 f2 M (fst ab)) (kn_normal f1 f2 M (snd ab)) in
  if Rlt_dec (dot (cross trans (f1 i)) (cross trans (mv M (f2 i)))) 0 then false else true.
(** positive, main.cpp 497-562 *)
Definition kn_positive (f1 f2 : nat -> vec3) (M : mat3) : bool :=
  forallb (fun i => forallb (kn_front f1 f2 M i) kn_pairs) [0; 1; 2; 3; 4]%nat.
(** what column i contributes to rotations, main.cpp 347-570 *)
Definition kn_column (f1 f2 : nat -> vec3) (D : nat -> cx) (V : nat -> nat -> cx) (i : nat) : list mat3 :=
  if Rlt_dec (Rabs (im (D i))) (1 / 10) then
    match kn_rotation V i with
    | None => []
    | Some M =>
        if Rlt_dec (Rabs (det M - 1)) (1 / 10) then
          if Rlt_dec (kn_total f1 f2 M) (1 / 1000) then
            if kn_positive f1 f2 M then [M] else []
          else []
        else []
    end
  else [].
(** fivept_kneip_main, main.cpp 278-572.  None: computeBasis divides by zero. *)
Definition fivept_kneip_main (eig : (nat -> nat -> R) -> (nat -> cx) * (nat -> nat -> cx)) (f1 f2 : nat -> vec3) : option (list mat3) :=
  match kn_basis f1 f2 with
  | None => None
  | Some G => let (D, V) := eig (kn_action G) in Some (flat_map (kn_column f1 f2 D V) (seq 0 20))
  end.
(** fivept_kneip, methods.cpp 289-309; the assertion is length idx = 5 *)
Definition fivept_kneip (eig : (nat -> nat -> R) -> (nat -> cx) * (nat -> nat -> cx)) (A : rel_adapter) (idx : list nat) : option (list mat3) :=
  fivept_kneip_main eig (fun i => rf1 A (nth i idx 0%nat)) (fun i => rf2 A (nth i idx 0%nat)).
