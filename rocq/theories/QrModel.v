(** Model of Epnp::qr_solve, src/absolute_pose/modules/Epnp.cpp 714-826, over the
    reals, for any number of rows and columns (the code has 6 and 4).  The local
    copy A of A_orig is a function of (row, column).  A1 and A2 are the two
    static arrays (722-738; their allocation is not modelled).  Definitions only. *)
From Coq Require Import Reals List Arith Bool.
From Verif Require Import GenLin.
Import ListNotations.
Local Open Scope R_scope.

Definition gmat' := nat -> nat -> R.
(** sum over the rows i = k .. n-1 *)
Definition sumfrom (k n : nat) (f : nat -> R) : R := sumn (n - k) (fun i => f (k + i)%nat).
Definition upd (x : nat -> R) (k : nat) (v : R) : nat -> R := fun i => if Nat.eqb i k then v else x i.

(** the scan for the largest entry, 743-749: the pointer starts at row k and the
    loop makes nr-1-k steps, so the rows read are k .. nr-2 *)
Definition qr_eta (nr : nat) (A : gmat') (k : nat) : R :=
  fold_left (fun eta i => let elt := Rabs (A i k) in if Rlt_dec eta elt then elt else eta)
    (seq k (nr - S k)) (Rabs (A k k)).

(** What the factorisation works on: the matrix and the two arrays. *)
Record qrst := QrSt { q_A : gmat'; q_1 : nat -> R; q_2 : nat -> R }.

(** One pass of the outer loop, 741-790; [None] is the early return at 751-756. *)
Definition qr_sigma (nr : nat) (A : gmat') (k : nat) : R :=
  let s := sqrt (sumfrom k nr (fun i => (A i k * (1 / qr_eta nr A k)) * (A i k * (1 / qr_eta nr A k)))) in
  if Rlt_dec (A k k * (1 / qr_eta nr A k)) 0 then - s else s.
(** column k, rows k .. nr-1, after 759-769 *)
Definition qr_v (nr : nat) (A : gmat') (k i : nat) : R :=
  let a := A i k * (1 / qr_eta nr A k) in if Nat.eqb i k then a + qr_sigma nr A k else a.
Definition qr_step (nr : nat) (k : nat) (s : qrst) : option qrst :=
  let A := q_A s in
  let eta := qr_eta nr A k in
  if Req_EM_T eta 0 then None
  else
    let v := qr_v nr A k in
    let sigma := qr_sigma nr A k in
    let a1 := sigma * v k in
    let tau j := sumfrom k nr (fun i => v i * A i j) / a1 in
    Some (QrSt (fun i j => if (Nat.ltb i k || Nat.leb nr i)%bool then A i j
                           else if Nat.eqb j k then v i
                           else if Nat.ltb k j then A i j - tau j * v i
                           else A i j)
               (upd (q_1 s) k a1) (upd (q_2 s) k (- eta * sigma))).
Definition qr_factor (nr nc : nat) (s : qrst) : option qrst :=
  fold_left (fun o k => match o with Some s => qr_step nr k s | None => None end) (seq 0 nc) (Some s).

(** b <- Qt b, one pass of 794-810 *)
Definition qr_bstep (nr : nat) (A : gmat') (a1 : nat -> R) (j : nat) (b : nat -> R) : nat -> R :=
  let tau := sumfrom j nr (fun i => A i j * b i) / a1 j in
  fun i => if (Nat.leb j i && Nat.ltb i nr)%bool then b i - tau * A i j else b i.
(** X = R-1 b, one entry of 813-825 *)
Definition qr_xstep (nc : nat) (A : gmat') (a2 : nat -> R) (b : nat -> R) (i : nat) (X : nat -> R) : nat -> R :=
  upd X i ((b i - sumfrom (S i) nc (fun j => A i j * X j)) / a2 i).

(** qr_solve: X and the static arrays after the call. *)
Definition qr_back (nr nc : nat) (s : qrst) (b X : nat -> R) : nat -> R :=
  let b' := fold_left (fun b j => qr_bstep nr (q_A s) (q_1 s) j b) (seq 0 nc) b in
  fold_left (fun X i => qr_xstep nc (q_A s) (q_2 s) b' i X) (rev (seq 0 nc)) X.
Definition qr_solve (nr nc : nat) (A : gmat') (a1 a2 b X : nat -> R) : nat -> R :=
  match qr_factor nr nc (QrSt A a1 a2) with None => X | Some s => qr_back nr nc s b X end.

(** * Two calls at the same time *)
(** The two static arrays are one piece of memory for all calls.  A call moves
    in the steps of its loops; in between another call may move. *)
Inductive qpc := QF (k : nat) | QB (j : nat) | QX (i : nat) | QDone.
Record qthread := QT { t_pc : qpc; t_A : gmat'; t_b : nat -> R; t_X : nat -> R }.
Definition qstart (A : gmat') (b X : nat -> R) : qthread := QT (QF 0) A b X.
(** one step of a call on the shared arrays (a1,a2); QX (S i) computes X[i] *)
Definition qmove (nr nc : nat) (sh : (nat -> R) * (nat -> R)) (t : qthread) : ((nat -> R) * (nat -> R)) * qthread :=
  match t_pc t with
  | QF k =>
      if Nat.ltb k nc then
        match qr_step nr k (QrSt (t_A t) (fst sh) (snd sh)) with
        | None => ((upd (fst sh) k 0, upd (snd sh) k 0), QT QDone (t_A t) (t_b t) (t_X t))
        | Some s => ((q_1 s, q_2 s), QT (QF (S k)) (q_A s) (t_b t) (t_X t))
        end
      else (sh, QT (QB 0) (t_A t) (t_b t) (t_X t))
  | QB j =>
      if Nat.ltb j nc then (sh, QT (QB (S j)) (t_A t) (qr_bstep nr (t_A t) (fst sh) j (t_b t)) (t_X t))
      else (sh, QT (QX nc) (t_A t) (t_b t) (t_X t))
  | QX (S i) => (sh, QT (QX i) (t_A t) (t_b t) (qr_xstep nc (t_A t) (snd sh) (t_b t) i (t_X t)))
  | QX O => (sh, QT QDone (t_A t) (t_b t) (t_X t))
  | QDone => (sh, t)
  end.
(** [true] lets the first call move, [false] the second. *)
Fixpoint qrun (nr nc : nat) (sched : list bool) (sh : (nat -> R) * (nat -> R)) (t u : qthread) : qthread * qthread :=
  match sched with
  | [] => (t, u)
  | true :: r => let '(sh', t') := qmove nr nc sh t in qrun nr nc r sh' t' u
  | false :: r => let '(sh', u') := qmove nr nc sh u in qrun nr nc r sh' t u'
  end.
