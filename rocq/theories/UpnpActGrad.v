(** The action matrices of UPnP: specification, derivatives of the cost, and the small coefficient matrices. *)
From Coq Require Import Reals Lra Lia List Arith Bool NArith ZArith.
From Verif Require Import Lin GenLin Cplx CEig RotModel RotProps SturmModel GaussModel GaussProps GbModel GbProps GpnpGb MacModel MacProps
  UpnpModel UpnpProps UpnpProps2 UpnpProps3 UpnpGen UpnpActModel.
Import ListNotations.
Local Open Scope R_scope.

(** * Specification *)
(** the cost of UPnP as a function of all four components of the quaternion *)
Definition cost (M : nat -> nat -> R) (C : nat -> R) (gamma : R) (q : quat) : R := uvalue M C gamma (fill_s q).
Definition qmove (q d : quat) (h : R) : quat := Q4 (q0 q + h * q0 d) (q1 q + h * q1 d) (q2 q + h * q2 d) (q3 q + h * q3 d).
(** q is a stationary point of the cost in the space of all quaternions *)
Definition stationary (M : nat -> nat -> R) (C : nat -> R) (gamma : R) (q : quat) : Prop :=
  forall d, derivable_pt_lim (fun h => cost M C gamma (qmove q d h)) 0 0.
(** B is a left inverse of the leading n x n block of A *)
Definition inverts (n : nat) (A B : nat -> nat -> R) : Prop :=
  forall i j, (i < n)%nat -> (j < n)%nat -> sumn n (fun k => B i k * A k j) = delta i j.
(** w is an eigenvector of the n x n matrix A for lam *)
Definition eigenpair (n : nat) (A : nat -> nat -> R) (lam : R) (w : nat -> R) : Prop :=
  forall i, (i < n)%nat -> sumn n (fun j => A i j * w j) = lam * w i.
(** the monomials behind the columns of the two action matrices *)
Definition u2_basis (q : quat) (s : nat) : R :=
  nth s [q3 q ^ 4; q0 q * q3 q ^ 2; q1 q * q3 q ^ 2; q2 q * q3 q ^ 2; q3 q ^ 3; q1 q * q2 q; q2 q ^ 2;
         q0 q * q3 q; q1 q * q3 q; q2 q * q3 q; q3 q ^ 2; q0 q; q1 q; q2 q; q3 q; 1] 0.
Definition u4_basis (q : quat) (s : nat) : R :=
  nth s [q0 q * q3 q ^ 2; q1 q * q3 q ^ 2; q2 q * q3 q ^ 2; q3 q ^ 3; q0 q; q1 q; q2 q; q3 q] 0.

(** * Derivatives *)
Definition qp (q : quat) (k : nat) : R := nth k [q0 q; q1 q; q2 q; q3 q] 0.
Definition dfill (q d : quat) (j : nat) : R :=
  nth j [2 * q0 q * q0 d; 2 * q1 q * q1 d; 2 * q2 q * q2 d; 2 * q3 q * q3 d; q0 q * q1 d + q0 d * q1 q;
         q0 q * q2 d + q0 d * q2 q; q0 q * q3 d + q0 d * q3 q; q1 q * q2 d + q1 d * q2 q; q1 q * q3 d + q1 d * q3 q; q2 q * q3 d + q2 d * q3 q] 0.
Definition dcost (M : nat -> nat -> R) (C : nat -> R) (q d : quat) : R :=
  sumn 10 (fun j => sumn 10 (fun k => dfill q d j * M j k * fill_s q k + fill_s q j * M j k * dfill q d k)) + 2 * sumn 10 (fun j => C j * dfill q d j).
Lemma dlim_sumn n (f : R -> nat -> R) (g : nat -> R) x : (forall i, (i < n)%nat -> derivable_pt_lim (fun h => f h i) x (g i)) ->
  derivable_pt_lim (fun h => sumn n (f h)) x (sumn n g).
Proof.
  induction n as [|n IH]; intro H; cbn [sumn]; [apply derivable_pt_lim_const|].
  apply (derivable_pt_lim_plus (fun h => sumn n (f h)) (fun h => f h n)); auto.
Qed.
Lemma dlim_ext f g x l : (forall h, f h = g h) -> derivable_pt_lim f x l -> derivable_pt_lim g x l.
Proof. intros E H eps He. destruct (H eps He) as [d Hd]. exists d. intros h N L. rewrite <- !E. now apply Hd. Qed.
Lemma dlim_quad a b c : derivable_pt_lim (fun h => a + b * h + c * (h * h)) 0 b.
Proof.
  assert (E : 0 + b * 1 + c * (1 * id 0 + id 0 * 1) = b) by (unfold id; ring).
  assert (H : derivable_pt_lim (fun h => a + b * h + c * (h * h)) 0 (0 + b * 1 + c * (1 * id 0 + id 0 * 1))).
  { apply (derivable_pt_lim_plus (fun h => a + b * h) (fun h => c * (h * h))).
    - apply (derivable_pt_lim_plus (fun _ => a) (fun h => b * h)); [apply derivable_pt_lim_const|].
      apply (derivable_pt_lim_scal id), derivable_pt_lim_id.
    - apply (derivable_pt_lim_scal (fun h => h * h)). apply (derivable_pt_lim_mult id id); apply derivable_pt_lim_id. }
  rewrite E in H. exact H.
Qed.
Lemma dfill_ok q d j : derivable_pt_lim (fun h => fill_s (qmove q d h) j) 0 (dfill q d j).
Proof.
  apply (dlim_ext (fun h => fill_s q j + dfill q d j * h + fill_s d j * (h * h))); [|apply dlim_quad].
  intro h. unfold fill_s, dfill, qmove; cbn [q0 q1 q2 q3]. do 10 (destruct j as [|j]; [cbn [nth]; ring|]). cbn [nth]. destruct j; cbn; ring.
Qed.
Lemma qmove0 q d : qmove q d 0 = q.
Proof. destruct q as [a b c e]. unfold qmove; cbn [q0 q1 q2 q3]. f_equal; ring. Qed.
Lemma dcost_ok M C g q d : derivable_pt_lim (fun h => cost M C g (qmove q d h)) 0 (dcost M C q d).
Proof.
  unfold cost, uvalue, dcost. set (s := fun h => fill_s (qmove q d h)).
  replace (sumn 10 (fun j => sumn 10 (fun k => dfill q d j * M j k * fill_s q k + fill_s q j * M j k * dfill q d k)) + 2 * sumn 10 (fun j => C j * dfill q d j))
    with (sumn 10 (fun j => sumn 10 (fun k => dfill q d j * M j k * fill_s q k + fill_s q j * M j k * dfill q d k)) + 2 * sumn 10 (fun j => C j * dfill q d j) + 0) by ring.
  apply (derivable_pt_lim_plus (fun h => sumn 10 (fun j => sumn 10 (fun k => s h j * M j k * s h k)) + 2 * sumn 10 (fun j => C j * s h j)) (fun _ => g)); [|apply derivable_pt_lim_const].
  apply (derivable_pt_lim_plus (fun h => sumn 10 (fun j => sumn 10 (fun k => s h j * M j k * s h k))) (fun h => 2 * sumn 10 (fun j => C j * s h j))).
  - apply (dlim_sumn 10 (fun h j => sumn 10 (fun k => s h j * M j k * s h k))). intros j _.
    apply (dlim_sumn 10 (fun h k => s h j * M j k * s h k)). intros k _.
    apply (dlim_ext (fun h => M j k * (s h j * s h k))); [intro; ring|].
    replace (dfill q d j * M j k * fill_s q k + fill_s q j * M j k * dfill q d k) with (M j k * (dfill q d j * s 0 k + s 0 j * dfill q d k)) by (unfold s; rewrite qmove0; ring).
    apply (derivable_pt_lim_scal (fun h => s h j * s h k)). apply (derivable_pt_lim_mult (fun h => s h j) (fun h => s h k)); apply dfill_ok.
  - apply (derivable_pt_lim_scal (fun h => sumn 10 (fun j => C j * s h j))).
    apply (dlim_sumn 10 (fun h j => C j * s h j)). intros j _. apply (derivable_pt_lim_scal (fun h => s h j)). apply dfill_ok.
Qed.
Lemma stationary_dcost M C g q : stationary M C g q <-> forall d, dcost M C q d = 0.
Proof.
  split.
  - intros H d. apply (uniqueness_limite (fun h => cost M C g (qmove q d h)) 0); [apply dcost_ok|apply H].
  - intros H d. rewrite <- (H d) at 2. apply dcost_ok.
Qed.
(** a global minimum over all quaternions is stationary *)
Lemma minimum_stationary M C g q : (forall p, cost M C g q <= cost M C g p) -> stationary M C g q.
Proof.
  intro H. apply (stationary_dcost M C g). intro d. set (f := fun h => cost M C g (qmove q d h)).
  assert (D : derivable_pt_lim f 0 (dcost M C q d)) by apply dcost_ok.
  assert (pr : derivable_pt f 0) by (exists (dcost M C q d); exact D).
  rewrite <- (derive_pt_eq_0 f 0 (dcost M C q d) pr D).
  apply (deriv_minimum f (-1) 1 0 pr); try lra. intros h _ _. unfold f. rewrite qmove0. apply H.
Qed.

(** * The small matrices *)
Definition qe (i : nat) : quat := Q4 (delta i 0) (delta i 1) (delta i 2) (delta i 3).
Lemma u2_keys M C : keys_ok 29 (map fst (u2_cells M C)) = true.
Proof. change (map fst (u2_cells M C)) with (map fst (u2_cells (fun _ _ => 0) (fun _ => 0))). vm_compute. reflexivity. Qed.
Lemma u4_keys M C : keys_ok 24 (map fst (u4_cells M C)) = true.
Proof. change (map fst (u4_cells M C)) with (map fst (u4_cells (fun _ _ => 0) (fun _ => 0))). vm_compute. reflexivity. Qed.
Ltac symm M S := repeat match goal with |- context[M ?a ?b] => let t := eval vm_compute in (Nat.ltb b a) in
  match t with true => rewrite (S a b) end end.
Ltac gradient M S := cbn -[Rmult Rplus Rminus Ropp pow mono dcost]; unfold dcost, dfill, fill_s, qe; cbn [q0 q1 q2 q3 sumn nth mono qp pow]; unfold delta; cbn [Nat.eq_dec nat_rec nat_rect]; symm M S; ring.
Lemma u2_gradient M C q i : (forall j k, M j k = M k j) -> (i < 4)%nat -> row_value 29 u2_mon1 (qp q) (gcells (u2_cells M C)) i = dcost M C q (qe i).
Proof. intros S H. rewrite gcells_value by apply u2_keys. destruct i as [|[|[|[|i]]]]; [| | | |lia]; gradient M S. Qed.
Definition qn2 (q : quat) : R := q0 q * q0 q + q1 q * q1 q + q2 q * q2 q + q3 q * q3 q.
Lemma u2_unit M C q : row_value 29 u2_mon1 (qp q) (gcells (u2_cells M C)) 4 = qn2 q - 1.
Proof. rewrite gcells_value by apply u2_keys. cbn -[Rmult Rplus Rminus Ropp pow mono]. unfold qn2. cbn [mono qp nth pow]. ring. Qed.
Lemma u4_gradient M C q i : (forall j k, M j k = M k j) -> (i < 4)%nat -> row_value 24 u4_mon1 (qp q) (gcells (u4_cells M C)) i = dcost M C q (qe i).
Proof. intros S H. rewrite gcells_value by apply u4_keys. destruct i as [|[|[|[|i]]]]; [| | | |lia]; gradient M S. Qed.
Lemma u4_unit M C q i : (i < 4)%nat -> row_value 24 u4_mon1 (qp q) (gcells (u4_cells M C)) (4 + i) = qp q i * (qn2 q - 1).
Proof.
  intro H. rewrite gcells_value by apply u4_keys.
  destruct i as [|[|[|[|i]]]]; [| | | |lia]; cbn -[Rmult Rplus Rminus Ropp pow mono qp]; unfold qn2; cbn [mono qp nth pow]; ring.
Qed.
