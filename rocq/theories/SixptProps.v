(** C77: the six-point solver for generalized cameras. *)
From Coq Require Import Reals Lra Lia List Arith NArith Bool.
From Verif Require Import Lin GenLin Cplx CEig GbProps RotModel RotProps EpiModel EpiProps GeoModel SeventeenModel SeventeenProps MacModel LinSolve
  SixptGen SixptModel SixptRow2 SixptDet SixptGeo SixptMeet Mac3 UpnpActGrad UpnpActProps.
Import ListNotations.
Local Open Scope R_scope.

(** * Specification *)
(** noise-free data: under x1 = R12 x2 + t12 the two rays of every correspondence
    meet, and the bearing vectors have length one *)
Definition six_exact (R12 : mat3) (t12 : vec3) (A : rel_adapter) (idx : list nat) : Prop :=
  forall k, In k idx -> rays_meet R12 t12 A k /\ norm2 (ray1 A k) = 1 /\ norm2 (ray2 A k) = 1.
(** the 64 monomials of the Cayley parameters that multiply the columns of the
    action matrix; the last four are x, y, z and 1 *)
Definition six_basis (v : vec3) (s : nat) : R := mval v (monat six_mon2 (93 + s)).
Lemma six_basis_last v : six_basis v 60 = vx v /\ six_basis v 61 = vy v /\ six_basis v 62 = vz v /\ six_basis v 63 = 1.
Proof.
  unfold six_basis. cbn [Nat.add]. repeat split; match goal with |- mval _ ?m = _ => let m' := eval vm_compute in m in change m with m' end;
  unfold mval; change (N.to_nat 0) with 0%nat; change (N.to_nat 1) with 1%nat; ring.
Qed.
(** eigenvalue lam of M belongs to one line of complex eigenvectors, spanned by w *)
Definition simple_eig (n : nat) (M : nat -> nat -> R) (lam : R) (w : nat -> R) : Prop :=
  forall u, ceigen n M (RtoC lam) u -> exists c, forall i, (i < n)%nat -> u i = cmul c (RtoC (w i)).

(** the matrices of the solver for the correspondences idx *)
Definition lines1 (A : rel_adapter) (idx : list nat) (i : nat) := six_l1 A (nth i idx 0%nat).
Definition lines2 (A : rel_adapter) (idx : list nat) (i : nat) := six_l2 A (nth i idx 0%nat).
Definition six_eqs A idx := six_M1p (lines1 A idx) (lines2 A idx).

(** * The sixty equations *)
Definition state_ok (s : nat * nat * nat * nat) : bool :=
  let '(d, r0, r1, r2) := s in (Nat.ltb d 6 && Nat.ltb r0 5 && Nat.ltb r1 5 && Nat.ltb r2 5)%bool.
Lemma states_ok : forallb (fun row => state_ok (six_state row)) (seq 0 60) = true.
Proof. vm_compute. reflexivity. Qed.
Lemma other_lt d r : (r < 5)%nat -> (other d r < 6)%nat.
Proof. unfold other. destruct (Nat.ltb_spec r d); lia. Qed.

Theorem C77_equations : forall R12 t12 A idx v, length idx = 6%nat -> R12 = mT (cayley2rot v) -> six_exact R12 t12 A idx ->
  forall row, (row < 60)%nat -> sumn 84 (fun k => six_eqs A idx row k * mval v (monat six_mon1 k)) = 0.
Proof.
  intros R12 t12 A idx v L HR X row Hrow. pose proof states_ok as S. rewrite forallb_forall in S. specialize (S row). rewrite in_seq in S. specialize (S ltac:(lia)).
  unfold six_eqs, six_M1p. destruct (six_state row) as [[[d r0] r1] r2]. cbn [state_ok] in S.
  apply andb_prop in S as [S H2]. apply andb_prop in S as [S H1]. apply andb_prop in S as [Hd H0]. apply Nat.ltb_lt in Hd, H0, H1, H2.
  rewrite fill_row2_det.
  assert (In1 : forall i, (i < 6)%nat -> In (nth i idx 0%nat) idx) by (intros; apply nth_In; lia).
  destruct (X _ (In1 d Hd)) as (M & U1 & U2). subst R12.
  destruct (dependent_row v t12 A _ M U1 U2) as (alpha & beta & D).
  assert (E : forall r, (r < 5)%nat -> pval v (six_m (lines1 A idx) (lines2 A idx) d r 2) =
     - alpha * pval v (six_m (lines1 A idx) (lines2 A idx) d r 0) - beta * pval v (six_m (lines1 A idx) (lines2 A idx) d r 1)).
  { intros r Hr. destruct (X _ (In1 (other d r) (other_lt d r Hr))) as (M2 & _). exact (D _ M2). }
  rewrite !E by auto. unfold det; cbn [m00 m01 m02 m10 m11 m12 m20 m21 m22]. ring.
Qed.

(** * The template *)
Definition rest : list N := map N.of_nat (seq 15 69).
Definition shift3 (m n : N * N * N) : N * N * N := let '(a, b, c) := m in let '(d, e, f) := n in (a - d, b - e, c - f)%N.
Definition six_shift (row : nat * list (N * N)) : N * N * N :=
  match snd row with [] => (0, 0, 0)%N | e :: _ => shift3 (monat six_mon2 (N.to_nat (fst e))) (monat six_mon1 (N.to_nat (snd e))) end.
Definition six_row_ok (row : nat * list (N * N)) : bool :=
  let d := six_shift row in
  (Nat.ltb (fst row) 15 && nodupN (map fst (snd row)) && nodupN (map snd (snd row)) &&
   forallb (fun k => existsb (N.eqb k) (map snd (snd row))) (N.of_nat (fst row) :: rest) &&
   forallb (fun e => N.ltb (fst e) 157 && N.ltb (snd e) 84 && neqb (monat six_mon2 (N.to_nat (fst e))) (nadd (monat six_mon1 (N.to_nat (snd e))) d)) (snd row))%bool.
Lemma six_table : forallb six_row_ok six_rows = true.
Proof. vm_compute. reflexivity. Qed.
Lemma rest_In k : (15 <= k < 84)%nat -> In (N.of_nat k) rest.
Proof. intro H. unfold rest. apply in_map, in_seq. lia. Qed.

Lemma template_row m1 v row : six_row_ok row = true -> (forall i k, (i < 15)%nat -> (k < 15)%nat -> m1 i k = delta i k) ->
  sumn 157 (fun c => mac_cell m1 row c * mval v (monat six_mon2 c)) = mval v (six_shift row) * sumn 84 (fun k => m1 (fst row) k * mval v (monat six_mon1 k)).
Proof.
  intros H Id. unfold six_row_ok in H. cbv zeta in H. apply andb_prop in H as [H F]. apply andb_prop in H as [H Q]. apply andb_prop in H as [H J]. apply andb_prop in H as [Hi I].
  apply Nat.ltb_lt in Hi. destruct row as [i es]. cbn [fst snd] in *. rewrite forallb_forall in F, Q.
  apply (mac_row_gen m1 i es 84 157 (fun k => mval v (monat six_mon1 k)) (fun c => mval v (monat six_mon2 c)) (mval v (six_shift (i, es)))).
  - now apply nodupN_NoDup.
  - now apply nodupN_NoDup.
  - intros e He. pose proof (F e He) as G. apply andb_prop in G as [G G2]. apply andb_prop in G as [G1 G3]. apply N.ltb_lt in G1, G3. apply neqb_eq in G2. split; [lia|]. split; [lia|].
    rewrite G2, mval_add. reflexivity.
  - assert (C : forall n, In n (N.of_nat i :: rest) -> In n (map snd es)).
    { intros n Hn. specialize (Q n Hn). apply existsb_exists in Q as (n' & Hn' & E). apply N.eqb_eq in E. now subst. }
    intros k Hk N. destruct (Nat.lt_ge_cases k 15) as [K|K].
    + rewrite Id by auto. unfold delta. destruct (Nat.eq_dec i k) as [->|]; auto. exfalso. apply N, C. now left.
    + exfalso. apply N, C. right. apply rest_In. lia.
Qed.

(** * Normalization *)
Lemma M1_identity inv M1p : good_inverse inv -> nonsingular 15 (six_BtB M1p) ->
  forall i j, (i < 15)%nat -> (j < 15)%nat -> six_M1 inv M1p i j = delta i j.
Proof.
  intros GI NB i j Hi Hj. rewrite <- (GI 15%nat (six_BtB M1p) NB i j Hi Hj). unfold six_M1. set (I := inv 15%nat (six_BtB M1p)). unfold six_BtB.
  rewrite (sumn_ext 60 _ (fun r => sumn 15 (fun k => I i k * (M1p r k * M1p r j)))).
  - rewrite sumn_swap. apply sumn_ext. intros k _. apply sumn_scale.
  - intros r _. rewrite Rmult_comm, <- sumn_scale. apply sumn_ext. intros; ring.
Qed.
Lemma M1_vanish inv M1p (m : nat -> R) i : (forall r, (r < 60)%nat -> sumn 84 (fun k => M1p r k * m k) = 0) -> sumn 84 (fun k => six_M1 inv M1p i k * m k) = 0.
Proof.
  intro H. unfold six_M1. set (c := fun r => sumn 15 (fun k => inv 15%nat (six_BtB M1p) i k * M1p r k)).
  rewrite (sumn_ext 84 _ (fun k => sumn 60 (fun r => c r * (M1p r k * m k)))).
  - rewrite sumn_swap. apply sumn_0. intros r Hr. rewrite sumn_scale, H by auto. ring.
  - intros k _. rewrite Rmult_comm, <- sumn_scale. apply sumn_ext. intros; unfold c; ring.
Qed.

(** * The action matrix *)
Definition act_ok (i : nat) : bool :=
  let d := nadd (monat six_mon2 (93 + i)) (0, 0, 1)%N in
  match nth i six_action_rows (ActOne 0) with
  | ActRow k => (Nat.ltb k 93 && neqb (monat six_mon2 k) d)%bool
  | ActOne j => (Nat.ltb j 64 && neqb (monat six_mon2 (93 + j)) d)%bool
  end.
Lemma acts_ok : forallb act_ok (seq 0 64) = true. Proof. vm_compute. reflexivity. Qed.
Lemma mval_z v m : mval v (nadd m (0, 0, 1)%N) = vz v * mval v m.
Proof. rewrite mval_add. unfold mval at 2. change (N.to_nat 0) with 0%nat. change (N.to_nat 1) with 1%nat. ring. Qed.

Theorem C77_eigenvector : forall inv solve R12 t12 A idx v, good_inverse inv -> good_solve solve ->
  length idx = 6%nat -> R12 = mT (cayley2rot v) -> six_exact R12 t12 A idx ->
  nonsingular 15 (six_BtB (six_eqs A idx)) -> nonsingular 93 (six_lead (six_M1 inv (six_eqs A idx))) ->
  eigenpair 64 (six_action inv solve (lines1 A idx) (lines2 A idx)) (vz v) (six_basis v).
Proof.
  intros inv solve R12 t12 A idx v GI GS L HR X NB NL.
  pose proof (C77_equations R12 t12 A idx v L HR X) as Eq. unfold six_action. fold (six_eqs A idx) in *.
  set (M1p := six_eqs A idx) in *. clearbody M1p. clear X HR L.
  pose proof (M1_identity inv M1p GI NB) as Id. pose proof (fun i => M1_vanish inv M1p (fun k => mval v (monat six_mon1 k)) i Eq) as Van.
  set (M1 := six_M1 inv M1p) in *. clearbody M1. clear Eq NB M1p.
  assert (T : forall r, (r < 93)%nat -> sumn 93 (fun c => six_lead M1 r c * mval v (monat six_mon2 c)) + sumn 64 (fun s => six_trail M1 r s * six_basis v s) = 0).
  { intros r Hr. pose proof six_table as Tb. rewrite forallb_forall in Tb.
    specialize (Tb (nth r six_rows (0%nat, [])) (nth_In six_rows _ (Hr : (r < length six_rows)%nat))).
    pose proof (template_row M1 v _ Tb Id) as Rw. cbv beta in Van. rewrite Van, Rmult_0_r in Rw.
    rewrite <- Rw. change 157%nat with (93 + 64)%nat. symmetry. apply (sumn_split 93 64). }
  unfold six_M3. pose proof (GS 93%nat 64%nat (six_lead M1) (six_trail M1) NL) as Sv. set (Y := solve 93%nat 64%nat (six_lead M1) (six_trail M1)) in *.
  assert (K : forall k, (k < 93)%nat -> mval v (monat six_mon2 k) + sumn 64 (fun s => Y k s * six_basis v s) = 0).
  { apply NL. intros r Hr.
    rewrite (sumn_ext 93 _ (fun c => six_lead M1 r c * mval v (monat six_mon2 c) + sumn 64 (fun s => six_basis v s * (six_lead M1 r c * Y c s)))).
    - rewrite sumn_add, sumn_swap. rewrite <- (T r Hr). f_equal. apply sumn_ext. intros s Hs. rewrite sumn_scale, Sv by auto. ring.
    - intros c Hc. rewrite Rmult_plus_distr_l. f_equal. rewrite <- sumn_scale. apply sumn_ext. intros; ring. }
  clearbody Y. clear T NL Sv Van Id M1. intros i Hi. pose proof acts_ok as Ao. rewrite forallb_forall in Ao. specialize (Ao i). rewrite in_seq in Ao. specialize (Ao ltac:(lia)).
  unfold six_action_of, act_ok in *. cbv zeta in Ao. destruct (nth i six_action_rows (ActOne 0)) as [k|j]; apply andb_prop in Ao as [B E]; apply Nat.ltb_lt in B; apply neqb_eq in E.
  - specialize (K k B). rewrite E, mval_z in K. fold (six_basis v i) in K.
    rewrite (sumn_ext 64 _ (fun s => - (Y k s * six_basis v s))) by (intros; ring). rewrite sumn_neg. lra.
  - rewrite sumn_delta by auto. unfold six_basis. now rewrite E, mval_z.
Qed.

(** * Results *)
Theorem C77_candidates : forall inv solve eig A idx,
  length (sixpt inv solve eig A idx) = 64%nat /\ forall M, In (Some M) (sixpt inv solve eig A idx) -> rotation M.
Proof.
  intros. unfold sixpt, sixpt_main. split; [now rewrite map_length, seq_length|]. intros M H. apply in_map_iff in H as (c & E & _).
  unfold six_solution in E. destruct (ceqb _ _); [discriminate|]. injection E as <-. apply rot_T, C24_cayley2rot_is_rotation.
Qed.

Theorem C77_recovers : forall inv solve eig R12 t12 A idx v, good_inverse inv -> good_solve solve ->
  length idx = 6%nat -> R12 = mT (cayley2rot v) -> six_exact R12 t12 A idx ->
  nonsingular 15 (six_BtB (six_eqs A idx)) -> nonsingular 93 (six_lead (six_M1 inv (six_eqs A idx))) ->
  let Action := six_action inv solve (lines1 A idx) (lines2 A idx) in
  good_ceig 64 Action (eig 64%nat Action) -> simple_eig 64 Action (vz v) (six_basis v) ->
  In (Some R12) (sixpt inv solve eig A idx).
Proof.
  intros inv solve eig R12 t12 A idx v GI GS L HR X NB NL Act GE Sim.
  pose proof (C77_eigenvector inv solve R12 t12 A idx v GI GS L HR X NB NL) as EP. fold Act in EP.
  destruct (six_basis_last v) as (B0 & B1 & B2 & B3).
  destruct (GE (RtoC (vz v)) (fun i => RtoC (six_basis v i))) as (k & Hk & Ek).
  { split.
    - exists 63%nat. split; [lia|]. rewrite B3. intro Q. unfold RtoC, c0 in Q. injection Q. lra.
    - intros i Hi. rewrite (csum_ext 64 _ (fun j => RtoC (Act i j * six_basis v j))) by (intros; now rewrite RtoC_mul).
      rewrite csum_real, <- RtoC_mul. f_equal. now apply EP. }
  destruct (Sim _ Ek) as (c & Hc). cbv beta in Hc.
  assert (Nc : c <> c0).
  { intros ->. destruct Ek as [(i & Hi & Ni) _]. apply Ni. rewrite Hc by auto. ring. }
  unfold sixpt, sixpt_main. apply in_map_iff. exists k. split; [|apply in_seq; lia].
  unfold six_solution. fold (lines1 A idx) (lines2 A idx). change (fun i => six_l1 A (nth i idx 0%nat)) with (lines1 A idx). change (fun i => six_l2 A (nth i idx 0%nat)) with (lines2 A idx). fold Act.
  assert (E63 : eig 64%nat Act 63%nat k = c) by (rewrite Hc, B3 by lia; replace (RtoC 1) with c1 by reflexivity; ring). rewrite E63.
  destruct (ceqb c c0) as [|_]; [congruence|].
  assert (D : forall x, re (cdiv (cmul c (RtoC x)) c) = x) by (intro x; replace (cdiv (cmul c (RtoC x)) c) with (RtoC x); [reflexivity|field; auto]).
  cbn [Nat.add]. rewrite !Hc by lia. rewrite B0, B1, B2, !D. rewrite HR. now destruct v.
Qed.
