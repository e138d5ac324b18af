(** C50, C51: the five-point solvers of Stewenius and Nister. *)
From Coq Require Import Reals List Lra Psatz Lia Arith.
From Verif Require Import Lin GenLin Cplx CEig RootsProps SturmModel SturmProofs TriModel EpiModel EpiProps FiveptGen FiveptModel FiveptRows.
Import ListNotations.
Local Open Scope R_scope.

(** * Specification *)
(** the matrix x X + y Y + z Z + W of the four columns of EE, read row by row *)
Definition combination (EE : nat -> nat -> R) (x y z : R) : mat3 :=
  comb4 (to_mat (EE 0%nat)) (to_mat (EE 1%nat)) (to_mat (EE 2%nat)) (to_mat (EE 3%nat)) x y z.
Definition stew_matrix (EE : nat -> nat -> R) := stew_A (to_mat (EE 0%nat)) (to_mat (EE 1%nat)) (to_mat (EE 2%nat)) (to_mat (EE 3%nat)).
Definition nister_matrix (EE : nat -> nat -> R) := nister_A (to_mat (EE 0%nat)) (to_mat (EE 1%nat)) (to_mat (EE 2%nat)) (to_mat (EE 3%nat)).
(** the inverse of the left 10x10 block is one *)
Definition good_inverse (inv10 : (nat -> nat -> R) -> nat -> nat -> R) (A : nat -> nat -> R) : Prop :=
  forall i j, (i < 10)%nat -> (j < 10)%nat -> sumn 10 (fun k => inv10 (block1 A) i k * A k j) = delta i j.
(** the vector of monomials that must be an eigenvector *)
Definition stew_basis (x y z : R) (i : nat) : R := nth (10 + i) (stew_mon x y z) 0.

(** * The equations *)
(** The ten equations of Stewenius' solver hold for (x, y, z) exactly if the
    combination is singular and satisfies the trace constraint. *)
Theorem C50_equations : forall EE x y z,
  (forall i, (i < 10)%nat -> sumn 20 (fun j => stew_matrix EE i j * nth j (stew_mon x y z) 0) = 0) <->
  (det (combination EE x y z) = 0 /\ trace_constraint (combination EE x y z) = mzero).
Proof.
  intros EE x y z. unfold stew_matrix, combination. generalize (to_mat (EE 0%nat)) (to_mat (EE 1%nat)) (to_mat (EE 2%nat)) (to_mat (EE 3%nat)).
  intros X Y Z W. split.
  - intro H.
    pose proof (eq_trans (eq_sym (stew_eq0 X Y Z W x y z)) (H 0%nat ltac:(lia))) as H0.
    pose proof (eq_trans (eq_sym (stew_eq1 X Y Z W x y z)) (H 1%nat ltac:(lia))) as H1.
    pose proof (eq_trans (eq_sym (stew_eq2 X Y Z W x y z)) (H 2%nat ltac:(lia))) as H2.
    pose proof (eq_trans (eq_sym (stew_eq3 X Y Z W x y z)) (H 3%nat ltac:(lia))) as H3.
    pose proof (eq_trans (eq_sym (stew_eq4 X Y Z W x y z)) (H 4%nat ltac:(lia))) as H4.
    pose proof (eq_trans (eq_sym (stew_eq5 X Y Z W x y z)) (H 5%nat ltac:(lia))) as H5.
    pose proof (eq_trans (eq_sym (stew_eq6 X Y Z W x y z)) (H 6%nat ltac:(lia))) as H6.
    pose proof (eq_trans (eq_sym (stew_eq7 X Y Z W x y z)) (H 7%nat ltac:(lia))) as H7.
    pose proof (eq_trans (eq_sym (stew_eq8 X Y Z W x y z)) (H 8%nat ltac:(lia))) as H8.
    pose proof (eq_trans (eq_sym (stew_eq9 X Y Z W x y z)) (H 9%nat ltac:(lia))) as H9.
    clear H. split; [auto|]. destruct (trace_constraint (comb4 X Y Z W x y z)) as [a b c d e f g h i]. cbn [m00 m01 m02 m10 m11 m12 m20 m21 m22] in *.
    unfold mzero. f_equal; lra.
  - intros [D T] i Hi.
    destruct i as [|i]; [rewrite stew_eq0, ?T; cbn [m00 m01 m02 m10 m11 m12 m20 m21 m22 mzero]; auto; lra|].
    destruct i as [|i]; [rewrite stew_eq1, ?T; cbn [m00 m01 m02 m10 m11 m12 m20 m21 m22 mzero]; auto; lra|].
    destruct i as [|i]; [rewrite stew_eq2, ?T; cbn [m00 m01 m02 m10 m11 m12 m20 m21 m22 mzero]; auto; lra|].
    destruct i as [|i]; [rewrite stew_eq3, ?T; cbn [m00 m01 m02 m10 m11 m12 m20 m21 m22 mzero]; auto; lra|].
    destruct i as [|i]; [rewrite stew_eq4, ?T; cbn [m00 m01 m02 m10 m11 m12 m20 m21 m22 mzero]; auto; lra|].
    destruct i as [|i]; [rewrite stew_eq5, ?T; cbn [m00 m01 m02 m10 m11 m12 m20 m21 m22 mzero]; auto; lra|].
    destruct i as [|i]; [rewrite stew_eq6, ?T; cbn [m00 m01 m02 m10 m11 m12 m20 m21 m22 mzero]; auto; lra|].
    destruct i as [|i]; [rewrite stew_eq7, ?T; cbn [m00 m01 m02 m10 m11 m12 m20 m21 m22 mzero]; auto; lra|].
    destruct i as [|i]; [rewrite stew_eq8, ?T; cbn [m00 m01 m02 m10 m11 m12 m20 m21 m22 mzero]; auto; lra|].
    destruct i as [|i]; [rewrite stew_eq9, ?T; cbn [m00 m01 m02 m10 m11 m12 m20 m21 m22 mzero]; auto; lra|].
    lia.
Qed.
(** The same for Nister's solver. *)
Theorem C51_equations : forall EE x y z,
  (forall i, (i < 10)%nat -> polish_residual (nister_matrix EE) (x, y, z) i = 0) <->
  (det (combination EE x y z) = 0 /\ trace_constraint (combination EE x y z) = mzero).
Proof.
  intros EE x y z. unfold polish_residual, nister_matrix, combination. generalize (to_mat (EE 0%nat)) (to_mat (EE 1%nat)) (to_mat (EE 2%nat)) (to_mat (EE 3%nat)).
  intros X Y Z W. split.
  - intro H.
    pose proof (eq_trans (eq_sym (nister_eq0 X Y Z W x y z)) (H 0%nat ltac:(lia))) as H0.
    pose proof (eq_trans (eq_sym (nister_eq1 X Y Z W x y z)) (H 1%nat ltac:(lia))) as H1.
    pose proof (eq_trans (eq_sym (nister_eq2 X Y Z W x y z)) (H 2%nat ltac:(lia))) as H2.
    pose proof (eq_trans (eq_sym (nister_eq3 X Y Z W x y z)) (H 3%nat ltac:(lia))) as H3.
    pose proof (eq_trans (eq_sym (nister_eq4 X Y Z W x y z)) (H 4%nat ltac:(lia))) as H4.
    pose proof (eq_trans (eq_sym (nister_eq5 X Y Z W x y z)) (H 5%nat ltac:(lia))) as H5.
    pose proof (eq_trans (eq_sym (nister_eq6 X Y Z W x y z)) (H 6%nat ltac:(lia))) as H6.
    pose proof (eq_trans (eq_sym (nister_eq7 X Y Z W x y z)) (H 7%nat ltac:(lia))) as H7.
    pose proof (eq_trans (eq_sym (nister_eq8 X Y Z W x y z)) (H 8%nat ltac:(lia))) as H8.
    pose proof (eq_trans (eq_sym (nister_eq9 X Y Z W x y z)) (H 9%nat ltac:(lia))) as H9.
    clear H. split; [auto|]. destruct (trace_constraint (comb4 X Y Z W x y z)) as [a b c d e f g h i]. cbn [m00 m01 m02 m10 m11 m12 m20 m21 m22] in *.
    unfold mzero. f_equal; lra.
  - intros [D T] i Hi.
    destruct i as [|i]; [rewrite nister_eq0, ?T; cbn [m00 m01 m02 m10 m11 m12 m20 m21 m22 mzero]; auto; lra|].
    destruct i as [|i]; [rewrite nister_eq1, ?T; cbn [m00 m01 m02 m10 m11 m12 m20 m21 m22 mzero]; auto; lra|].
    destruct i as [|i]; [rewrite nister_eq2, ?T; cbn [m00 m01 m02 m10 m11 m12 m20 m21 m22 mzero]; auto; lra|].
    destruct i as [|i]; [rewrite nister_eq3, ?T; cbn [m00 m01 m02 m10 m11 m12 m20 m21 m22 mzero]; auto; lra|].
    destruct i as [|i]; [rewrite nister_eq4, ?T; cbn [m00 m01 m02 m10 m11 m12 m20 m21 m22 mzero]; auto; lra|].
    destruct i as [|i]; [rewrite nister_eq5, ?T; cbn [m00 m01 m02 m10 m11 m12 m20 m21 m22 mzero]; auto; lra|].
    destruct i as [|i]; [rewrite nister_eq6, ?T; cbn [m00 m01 m02 m10 m11 m12 m20 m21 m22 mzero]; auto; lra|].
    destruct i as [|i]; [rewrite nister_eq7, ?T; cbn [m00 m01 m02 m10 m11 m12 m20 m21 m22 mzero]; auto; lra|].
    destruct i as [|i]; [rewrite nister_eq8, ?T; cbn [m00 m01 m02 m10 m11 m12 m20 m21 m22 mzero]; auto; lra|].
    destruct i as [|i]; [rewrite nister_eq9, ?T; cbn [m00 m01 m02 m10 m11 m12 m20 m21 m22 mzero]; auto; lra|].
    lia.
Qed.
(** An essential matrix satisfies them. *)
Lemma essential_constraints R12 t12 : rotation R12 -> det (essential R12 t12) = 0 /\ trace_constraint (essential R12 t12) = mzero.
Proof.
  intros [O _]. unfold essential. split.
  - rewrite det_mmul. replace (det (skew t12)) with 0 by (clear; lring). ring.
  - assert (O' : mmul R12 (mT R12) = mid) by now apply orth_r.
    set (S := skew t12) in *.
    assert (E1 : mmul (mmul S R12) (mT (mmul S R12)) = mmul S (mT S)).
    { rewrite mT_mmul, <- mmul_assoc, (mmul_assoc R12), O', mmul_id_l. reflexivity. }
    assert (E2 : mmul (mmul S (mT S)) S = mscale (norm2 t12) S) by (unfold S; clear; lring).
    assert (E3 : trace (mmul S (mT S)) = 2 * norm2 t12) by (unfold S; clear; lring).
    unfold trace_constraint. rewrite E1, mmul_assoc, E2, E3. generalize (norm2 t12) S. clear. lring.
Qed.

(** * Elimination *)
Lemma delta_comm i j : delta i j = delta j i.
Proof. unfold delta. destruct (Nat.eq_dec i j), (Nat.eq_dec j i); congruence. Qed.
(** solving for the first ten monomials *)
Lemma solve10 inv10 A (m : nat -> R) : good_inverse inv10 A -> (forall i, (i < 10)%nat -> sumn 20 (fun j => A i j * m j) = 0) ->
  forall i, (i < 10)%nat -> m i = - sumn 10 (fun j => lu_solve inv10 A i j * m (10 + j)%nat).
Proof.
  intros GI H i Hi.
  assert (E : sumn 10 (fun k => inv10 (block1 A) i k * sumn 20 (fun j => A k j * m j)) = 0).
  { apply sumn_0. intros k Hk. rewrite H by auto. ring. }
  rewrite (sumn_ext 10 _ (fun k => sumn 10 (fun j => inv10 (block1 A) i k * A k j * m j) + sumn 10 (fun j => inv10 (block1 A) i k * A k (10 + j)%nat * m (10 + j)%nat))) in E.
  - rewrite sumn_add in E. rewrite (sumn_swap 10 10 (fun k j => inv10 (block1 A) i k * A k j * m j)), (sumn_swap 10 10 (fun k j => inv10 (block1 A) i k * A k (10 + j)%nat * m (10 + j)%nat)) in E.
    rewrite (sumn_ext 10 _ (fun j => delta j i * m j)) in E.
    + rewrite sumn_delta in E by auto.
      rewrite (sumn_ext 10 (fun j => sumn 10 (fun k => inv10 (block1 A) i k * A k (10 + j)%nat * m (10 + j)%nat)) (fun j => lu_solve inv10 A i j * m (10 + j)%nat)) in E; [lra|].
      intros j Hj. unfold lu_solve. rewrite Rmult_comm, <- sumn_scale. apply sumn_ext. intros; ring.
    + intros j Hj. rewrite delta_comm, <- (GI i j) by auto. rewrite Rmult_comm, <- sumn_scale. apply sumn_ext. intros; ring.
  - intros k Hk. rewrite <- sumn_scale. change 20%nat with (10 + 10)%nat. rewrite sumn_split. f_equal; apply sumn_ext; intros; ring.
Qed.

(** * Stewenius *)
(** Every solution is an eigenvector of the action matrix. *)
Theorem C50_eigenvector : forall inv10 EE x y z, good_inverse inv10 (stew_matrix EE) ->
  det (combination EE x y z) = 0 -> trace_constraint (combination EE x y z) = mzero ->
  forall i, (i < 10)%nat -> sumn 10 (fun j => stew_M (lu_solve inv10 (stew_matrix EE)) i j * stew_basis x y z j) = x * stew_basis x y z i.
Proof.
  intros inv10 EE x y z GI D T i Hi.
  assert (S := solve10 inv10 (stew_matrix EE) (fun j => nth j (stew_mon x y z) 0) GI (proj2 (C50_equations EE x y z) (conj D T))). cbv beta in S.
  fold (stew_basis x y z) in S.
  assert (P : forall k, (k < 10)%nat -> sumn 10 (fun j => - lu_solve inv10 (stew_matrix EE) k j * stew_basis x y z j) = nth k (stew_mon x y z) 0).
  { intros k Hk. rewrite (S k Hk). rewrite (sumn_ext 10 _ (fun j => -1 * (lu_solve inv10 (stew_matrix EE) k j * stew_basis x y z j))) by (intros; ring).
    rewrite sumn_scale. unfold stew_basis. ring. }
  clear S. generalize dependent (lu_solve inv10 (stew_matrix EE)). intros A3 P.
  do 6 (destruct i as [|i]; [cbn [stew_M]; rewrite P by lia; unfold stew_basis, stew_mon; cbn [nth Nat.add]; ring|]).
  do 4 (destruct i as [|i]; [cbn [stew_M]; rewrite sumn_delta by lia; unfold stew_basis, stew_mon; cbn [nth Nat.add]; ring|]). lia.
Qed.
Lemma csum_RtoC n f : csum n (fun i => RtoC (f i)) = RtoC (sumn n f).
Proof. induction n as [|n IH]; cbn; [reflexivity|]. now rewrite IH, RtoC_add. Qed.
Lemma combination_entry EE x y z : combination EE x y z = to_mat (fun i => x * EE 0%nat i + y * EE 1%nat i + z * EE 2%nat i + EE 3%nat i).
Proof. unfold combination, comb4. cbv -[Rmult Rplus]. f_equal; ring. Qed.
Lemma of_to f j : (j < 9)%nat -> of_mat (to_mat f) j = f j.
Proof. intro. do 9 (destruct j as [|j]; [reflexivity|]). lia. Qed.
Lemma csq_real csqrt r s : is_csqrt csqrt -> 0 <= r -> s = sqrt r -> csqrt (RtoC r) = RtoC s \/ csqrt (RtoC r) = RtoC (- s).
Proof.
  intros H Hr ->. pose proof (H (RtoC r)) as E. assert (F : cmul (RtoC (sqrt r)) (RtoC (sqrt r)) = RtoC r) by (rewrite <- RtoC_mul, sqrt_sqrt; auto).
  assert (G : cmul (csub (csqrt (RtoC r)) (RtoC (sqrt r))) (cadd (csqrt (RtoC r)) (RtoC (sqrt r))) = c0).
  { transitivity (csub (cmul (csqrt (RtoC r)) (csqrt (RtoC r))) (cmul (RtoC (sqrt r)) (RtoC (sqrt r)))); [ring|]. rewrite E, F. ring. }
  apply cmul_eq_0 in G as [G|G].
  - left. replace (csqrt (RtoC r)) with (cadd (csub (csqrt (RtoC r)) (RtoC (sqrt r))) (RtoC (sqrt r))) by ring. rewrite G. ring.
  - right. rewrite RtoC_opp. replace (csqrt (RtoC r)) with (csub (cadd (csqrt (RtoC r)) (RtoC (sqrt r))) (RtoC (sqrt r))) by ring. rewrite G. ring.
Qed.
(** Every real solution whose eigenvalue is simple is among the ten results, as
    the matrix divided by plus or minus its Frobenius norm. *)
Theorem C50_recovers : forall inv10 eig csqrt EE x y z,
  let M := stew_M (lu_solve inv10 (stew_matrix EE)) in let E := combination EE x y z in
  good_inverse inv10 (stew_matrix EE) -> good_ceig 10 M (eig M) -> is_csqrt csqrt ->
  det E = 0 -> trace_constraint E = mzero -> E <> mzero ->
  (forall w, ceigen 10 M (RtoC x) w -> forall i, (i < 10)%nat -> w i = cmul (w 9%nat) (RtoC (stew_basis x y z i))) ->
  exists r s, In (Some r) (fivept_stewenius_main inv10 eig csqrt EE) /\ (s = 1 \/ s = -1) /\
    forall i, (i < 9)%nat -> r i = RtoC (s * of_mat E i / sqrt (fnorm2 E)).
Proof.
  intros inv10 eig csqrt EE x y z M E GI GE Sq D T NE Sim.
  destruct (GE (RtoC x) (fun i => RtoC (stew_basis x y z i))) as (k & Hk & Ek).
  { split.
    - exists 9%nat. split; [lia|]. apply c1_neq_c0.
    - intros i Hi. rewrite (csum_ext 10 _ (fun j => RtoC (M i j * stew_basis x y z j))) by (intros; now rewrite RtoC_mul).
      rewrite csum_RtoC, <- RtoC_mul. f_equal. now apply C50_eigenvector. }
  set (v := fun i => eig M i k) in *. assert (Sv := Sim v Ek).
  assert (N9 : v 9%nat <> c0).
  { destruct Ek as [(i & Hi & Ni) _]. intro Z. apply Ni. rewrite Sv, Z by auto. ring. }
  set (ev := fun i => x * EE 0%nat i + y * EE 1%nat i + z * EE 2%nat i + EE 3%nat i).
  assert (EV : forall i, csum 4 (fun r => cmul (RtoC (EE r i)) (if Nat.ltb r 3 then cdiv (v (6 + r)%nat) (v 9%nat) else c1)) = RtoC (ev i)).
  { intro i. cbn [csum Nat.ltb Nat.leb Nat.add]. unfold ev. rewrite (Sv 6%nat), (Sv 7%nat), (Sv 8%nat) by lia.
    rewrite !RtoC_add, !RtoC_mul. change (stew_basis x y z 6) with x. change (stew_basis x y z 7) with y. change (stew_basis x y z 8) with z.
    change (RtoC 1) with c1. field. auto. }
  assert (Ee : E = to_mat ev) by apply combination_entry.
  assert (FE : sumn 9 (fun i => ev i * ev i) = fnorm2 E) by (rewrite Ee; apply fnorm_vdot).
  assert (PE : 0 < fnorm2 E).
  { rewrite <- FE. destruct (mat_nonzero ev) as (j & Hj & Nj); [now rewrite <- Ee|].
    assert (0 <= sumn 9 (fun i => ev i * ev i)) as [|Z]; [apply sumn_nonneg; intros; nra|auto|]. exfalso.
    symmetry in Z. apply (sumn_nonneg_zero 9 (fun i => ev i * ev i)) with (i := j) in Z; auto; [|intros; nra]. cbv beta in Z. nra. }
  assert (PS := sqrt_lt_R0 _ PE).
  set (n := csqrt (csum 9 (fun i => cmul (RtoC (ev i)) (RtoC (ev i))))).
  assert (Cn : exists s, (s = 1 \/ s = -1) /\ n = RtoC (s * sqrt (fnorm2 E))).
  { unfold n. rewrite (csum_ext 9 _ (fun i => RtoC (ev i * ev i))) by (intros; now rewrite RtoC_mul). rewrite csum_RtoC, FE.
    destruct (csq_real csqrt (fnorm2 E) (sqrt (fnorm2 E)) Sq ltac:(lra) eq_refl) as [Q|Q]; rewrite Q; [exists 1|exists (-1)]; split; auto; f_equal; ring. }
  destruct Cn as (s & Hs & Cn).
  assert (Nn : n <> c0) by (rewrite Cn; apply RtoC_neq; destruct Hs; subst s; lra).
  exists (fun i => cdiv (RtoC (ev i)) n), s. split; [|split; [auto|]].
  - unfold fivept_stewenius_main. apply in_map_iff. exists k. split; [|apply in_seq; lia].
    fold (stew_matrix EE). fold M. fold v. unfold stew_column. destruct (ceqb (v 9%nat) c0); [contradiction|].
    assert (EQ : csum 9 (fun i => cmul (csum 4 (fun r => cmul (RtoC (EE r i)) (if Nat.ltb r 3 then cdiv (v (6 + r)%nat) (v 9%nat) else c1)))
       (csum 4 (fun r => cmul (RtoC (EE r i)) (if Nat.ltb r 3 then cdiv (v (6 + r)%nat) (v 9%nat) else c1)))) =
       csum 9 (fun i => cmul (RtoC (ev i)) (RtoC (ev i)))) by (apply csum_ext; intros; now rewrite !EV).
    rewrite EQ. fold n. destruct (ceqb n c0); [contradiction|]. f_equal.
    apply FunctionalExtensionality.functional_extensionality. intro i. now rewrite EV.
  - intros i Hi. rewrite Ee, of_to by auto. rewrite <- Ee. rewrite Cn.
    rewrite <- RtoC_div by (destruct Hs; subst s; lra). f_equal. destruct Hs; subst s; field; lra.
Qed.

(** * From correspondences *)
Lemma rank_pos svdV l U s n : is_gsvd (length l) 9 (epiA l) U s (svdV (epiA l)) -> length l = S n -> (n < 9)%nat -> independent l -> 0 < s n.
Proof.
  intros H L Hn Ind. set (V := svdV (epiA l)) in *.
  destruct (Rle_lt_or_eq_dec _ _ (gsvd_pos _ _ _ _ _ _ H n ltac:(lia))) as [|Z]; auto. exfalso.
  assert (K : forall i, (i < length l)%nat -> U i n = 0).
  { apply Ind. intro F. rewrite (sumn_ext _ _ (fun i => gcol U n i * mvec 9 (epiA l) (of_mat F) i)) by (intros; rewrite epi_mvec, to_of; reflexivity).
    change (vdot (length l) (gcol U n) (mvec 9 (epiA l) (of_mat F)) = 0).
    rewrite (vdot_ext (length l) _ _ (gcol U n) (fun i => sumn (Nat.min (length l) 9) (fun k => s k * vdot 9 (gcol V k) (of_mat F) * U i k))) by (auto; intros; now apply (gsvd_mvec _ _ _ _ _ _ H)).
    rewrite vdot_sum. apply sumn_0. intros k Hk. rewrite vdot_scale. change (fun i => U i k) with (gcol U k).
    destruct (Nat.eq_dec k n) as [->|Nk]; [rewrite <- Z; ring|]. rewrite (gorth_perp _ U n k) by (try apply (gsvd_U _ _ _ _ _ _ H); lia). ring. }
  pose proof (gorth_unit _ U n (gsvd_U _ _ _ _ _ _ H) ltac:(lia)) as Q. unfold vdot, gcol in Q.
  rewrite sumn_0 in Q; [lra|]. intros i Hi. rewrite K by auto. ring.
Qed.
Lemma of_mat_scale c E i : of_mat (mscale c E) i = c * of_mat E i.
Proof. unfold of_mat, ventry, mrow3. destruct (Nat.div i 3) as [|[|[|?]]], (Nat.modulo i 3) as [|[|[|?]]]; destruct E; cbn; ring. Qed.
(** coordinate of a matrix along column 5+k of V *)
Definition coordinate (V : nat -> nat -> R) (E : mat3) (k : nat) : R := vdot 9 (gcol V (5 + k)) (of_mat E).
Lemma five_span svdV l E : good_svdV svdV l -> length l = 5%nat -> independent l -> satisfies E l ->
  let V := svdV (epiA l) in coordinate V E 3 <> 0 ->
  combination (ee_col V) (coordinate V E 0 / coordinate V E 3) (coordinate V E 1 / coordinate V E 3) (coordinate V E 2 / coordinate V E 3)
    = mscale (/ coordinate V E 3) E.
Proof.
  intros (U & s & H) L5 Ind Sat V N3.
  assert (S4 := rank_pos svdV l U s 4 H L5 ltac:(lia) Ind). fold V in H.
  assert (Kg : forall k, (k < 5)%nat -> vdot 9 (gcol V k) (of_mat E) = 0).
  { intros k Hk. assert (Q := gsvd_kernel_comp _ _ _ _ _ _ H (of_mat E) k).
    apply Rmult_integral in Q; [|apply (satisfies_kernel E); [symmetry; apply to_of|auto]|lia].
    destruct Q as [Q|]; auto. exfalso. pose proof (gsvd_sorted _ _ _ _ _ _ H k 4 ltac:(lia) ltac:(lia)). lra. }
  assert (X : forall j, (j < 9)%nat -> of_mat E j = coordinate V E 0 * V j 5%nat + coordinate V E 1 * V j 6%nat + coordinate V E 2 * V j 7%nat + coordinate V E 3 * V j 8%nat).
  { intros j Hj. rewrite (gorth_expand 9 V (of_mat E) (gsvd_V _ _ _ _ _ _ H) j Hj). unfold coordinate. cbn [sumn Nat.add]. rewrite !Kg by lia. unfold gcol. ring. }
  rewrite combination_entry.
  transitivity (to_mat (fun j => / coordinate V E 3 * of_mat E j)).
  - apply to_mat_ext. intros j Hj. rewrite X by auto. unfold ee_col, gcol. cbn [Nat.add]. field. auto.
  - rewrite <- (to_of (mscale _ E)). apply to_mat_ext. intros j Hj. now rewrite of_mat_scale.
Qed.
Lemma fnorm_scale c E : fnorm2 (mscale c E) = c * c * fnorm2 E.
Proof. unfold fnorm2. lring. Qed.
Lemma sqrt_scale c r : c <> 0 -> 0 <= r -> exists s, (s = 1 \/ s = -1) /\ sqrt (c * c * r) = s * c * sqrt r.
Proof.
  intros N Hr. rewrite sqrt_mult by (auto; nra). change (c * c) with (Rsqr c). rewrite sqrt_Rsqr_abs.
  destruct (Rcase_abs c) as [L|L]; [exists (-1)|exists 1]; split; auto; unfold Rabs; destruct (Rcase_abs c); lra.
Qed.
Lemma fnorm_nonneg E : 0 <= fnorm2 E.
Proof. rewrite <- (to_of E), <- fnorm_vdot. apply sumn_nonneg. intros. nra. Qed.
Lemma trace_scale c E : trace_constraint (mscale c E) = mscale (c * c * c) (trace_constraint E).
Proof. destruct E. cbv -[Rmult Rplus Rminus Ropp IZR]. f_equal; ring. Qed.
(** Stewenius' solver returns the true essential matrix, up to sign and scale,
    from five independent correspondences, unless the true matrix is orthogonal
    to the last null space vector, the block to invert is singular, or the
    eigenvalue is multiple. *)
Theorem C50_recovers_motion : forall svdV inv10 eig csqrt l R12 t12,
  let V := svdV (epiA l) in let E := essential R12 t12 in
  let x := coordinate V E 0 / coordinate V E 3 in let y := coordinate V E 1 / coordinate V E 3 in let z := coordinate V E 2 / coordinate V E 3 in
  let M := stew_M (lu_solve inv10 (stew_matrix (ee_col V))) in
  good_svdV svdV l -> length l = 5%nat -> independent l -> rotation R12 -> t12 <> v0 -> satisfies E l ->
  coordinate V E 3 <> 0 -> good_inverse inv10 (stew_matrix (ee_col V)) -> good_ceig 10 M (eig M) -> is_csqrt csqrt ->
  (forall w, ceigen 10 M (RtoC x) w -> forall i, (i < 10)%nat -> w i = cmul (w 9%nat) (RtoC (stew_basis x y z i))) ->
  exists r s, In (Some r) (fivept_stewenius svdV inv10 eig csqrt l) /\ (s = 1 \/ s = -1) /\
    forall i, (i < 9)%nat -> r i = RtoC (s * of_mat E i / sqrt (fnorm2 E)).
Proof.
  intros svdV inv10 eig csqrt l R12 t12 V E x y z M GS L5 Ind Ro Nt Sat N3 GI GE Sq Sim.
  assert (CE := five_span svdV l E GS L5 Ind Sat N3). fold V in CE. fold x y z in CE.
  assert (EC := essential_constraints R12 t12 Ro). fold E in EC. destruct EC as [D T].
  assert (NE : E <> mzero).
  { intro Z. apply Nt. assert (Q : mmul E (mT R12) = skew t12) by (unfold E, essential; rewrite <- mmul_assoc, (orth_r R12 (proj1 Ro)); apply mmul_id_r).
    rewrite Z in Q. clear - Q. destruct t12, R12. lunf. injection Q as Q1 Q2 Q3 Q4 Q5 Q6 Q7 Q8 Q9. f_equal; lra. }
  set (c := / coordinate V E 3) in *. assert (Nc : c <> 0) by now apply Rinv_neq_0_compat.
  destruct (C50_recovers inv10 eig csqrt (ee_col V) x y z GI GE Sq) as (r & s & I & Hs & Hr); auto.
  - rewrite CE, det_mscale, D. ring.
  - rewrite CE, trace_scale, T. clear. lring.
  - rewrite CE. intro Z. apply NE. replace E with (mscale (/ c) (mscale c E)) by (clear - Nc; destruct E; lunf; f_equal; field; auto). rewrite Z. clear. lring.
  - destruct (sqrt_scale c (fnorm2 E) Nc (fnorm_nonneg E)) as (s2 & Hs2 & Q).
    assert (PE : 0 < sqrt (fnorm2 E)).
    { apply sqrt_lt_R0. destruct (fnorm_nonneg E) as [|Z]; auto. exfalso. apply NE. rewrite <- (to_of E). rewrite (to_mat_ext _ (fun _ => 0)); [reflexivity|].
      intros j Hj. rewrite <- (to_of E), <- fnorm_vdot in Z. symmetry in Z. unfold vdot in Z.
      apply (sumn_nonneg_zero 9 (fun i => of_mat E i * of_mat E i)) with (i := j) in Z; auto; [|intros; nra]. cbv beta in Z. nra. }
    exists r, (s * s2). split; [exact I|]. split; [destruct Hs, Hs2; subst; [left|right|right|left]; ring|].
    intros i Hi. rewrite Hr by auto. f_equal. rewrite CE, fnorm_scale, of_mat_scale, Q. destruct Hs2; subst s2; field; lra.
Qed.
Lemma stew_column_some csqrt EE v r : stew_column csqrt EE v = Some r -> exists sol q,
  sol 3%nat = c1 /\ csqrt q <> c0 /\ q = csum 9 (fun i => cmul (csum 4 (fun k => cmul (RtoC (EE k i)) (sol k))) (csum 4 (fun k => cmul (RtoC (EE k i)) (sol k)))) /\
  forall i, r i = cdiv (csum 4 (fun k => cmul (RtoC (EE k i)) (sol k))) (csqrt q).
Proof.
  unfold stew_column. destruct (ceqb (v 9%nat) c0) as [|N]; [discriminate|].
  destruct (ceqb (csqrt _) c0) as [|N2]; [discriminate|]. intro E.
  exists (fun r => if Nat.ltb r 3 then cdiv (v (6 + r)%nat) (v 9%nat) else c1). eexists. split; [reflexivity|]. split; [exact N2|]. split; [reflexivity|].
  injection E as <-. reflexivity.
Qed.
(** All results of a five-correspondence call satisfy the epipolar constraints
    and have unit sum of squares, whatever the inverse and the eigenvectors. *)
Theorem C50_epipolar : forall svdV inv10 eig csqrt l r, good_svdV svdV l -> (length l <= 5)%nat -> is_csqrt csqrt ->
  In (Some r) (fivept_stewenius svdV inv10 eig csqrt l) ->
  (forall c, In c l -> csum 9 (fun i => cmul (RtoC (epi_row c i)) (r i)) = c0) /\ csum 9 (fun i => cmul (r i) (r i)) = c1.
Proof.
  intros svdV inv10 eig csqrt l r (U & s & H) L5 Sq I. unfold fivept_stewenius, fivept_stewenius_main in I.
  apply in_map_iff in I as (k & Ek & _). apply stew_column_some in Ek as (sol & q & S3 & Nn & Eq & Er).
  set (V := svdV (epiA l)) in *. split.
  - intros c Hc. rewrite (csum_ext 9 _ (fun i => cmul (cinv (csqrt q)) (csum 4 (fun r => cmul (sol r) (RtoC (epi_row c i * ee_col V r i)))))).
    + rewrite csum_scale, csum_swap.
      rewrite csum_0; [ring|]. intros k0 Hk0. rewrite csum_scale, csum_RtoC.
      apply (In_nth _ _ (v0, v0)) in Hc. destruct Hc as (i & Hi & <-).
      assert (Z : sumn 9 (fun j => epi_row (nth i l (v0, v0)) j * ee_col V k0 j) = 0); [|rewrite Z; change (RtoC 0) with c0; ring].
      change (mvec 9 (epiA l) (gcol V (5 + k0)) i = 0).
      rewrite (gsvd_col _ _ _ _ _ _ H (5 + k0) i) by lia. destruct (Nat.ltb_spec (5 + k0) (Nat.min (length l) 9)); [lia|auto].
    + intros i Hi. rewrite Er. cbn [csum]. rewrite !RtoC_mul. field. auto.
  - rewrite (csum_ext 9 _ (fun i => cmul (cmul (cinv (csqrt q)) (cinv (csqrt q))) (cmul (csum 4 (fun k => cmul (RtoC (ee_col V k i)) (sol k))) (csum 4 (fun k => cmul (RtoC (ee_col V k i)) (sol k)))))) by (intros; rewrite Er; field; auto).
    rewrite csum_scale, <- Eq. rewrite <- (Sq q) at 3. field. auto.
Qed.
(** A matrix orthogonal to the last null space vector is never returned. *)
Theorem C50_orthogonal_refuted : forall svdV inv10 eig csqrt l E r c, good_svdV svdV l ->
  coordinate (svdV (epiA l)) E 3 = 0 -> In (Some r) (fivept_stewenius svdV inv10 eig csqrt l) ->
  ~ (forall i, (i < 9)%nat -> r i = cmul c (RtoC (of_mat E i))).
Proof.
  intros svdV inv10 eig csqrt l E r c (U & s & H) Z3 I Hr. unfold fivept_stewenius, fivept_stewenius_main in I.
  apply in_map_iff in I as (k & Ek & _). apply stew_column_some in Ek as (sol & q & S3 & Nn & Eq & Er).
  set (V := svdV (epiA l)) in *. clear Eq.
  assert (P : csum 9 (fun i => cmul (RtoC (V i 8%nat)) (r i)) = c0).
  { rewrite (csum_ext 9 _ (fun i => cmul c (RtoC (gcol V 8 i * of_mat E i)))) by (intros; rewrite Hr, RtoC_mul by auto; unfold gcol; ring).
    rewrite csum_scale, csum_RtoC. change (sumn 9 _) with (coordinate V E 3). rewrite Z3. change (RtoC 0) with c0. ring. }
  rewrite (csum_ext 9 _ (fun i => cmul (cinv (csqrt q)) (csum 4 (fun k => cmul (sol k) (RtoC (gcol V 8 i * gcol V (5 + k) i)))))) in P.
  - rewrite csum_scale, csum_swap in P. rewrite (csum_ext 4 _ (fun k => cmul (sol k) (RtoC (delta 8 (5 + k))))) in P.
    + unfold delta in P. cbn [csum Nat.add] in P. destruct (Nat.eq_dec 8 5); [lia|]. destruct (Nat.eq_dec 8 6); [lia|]. destruct (Nat.eq_dec 8 7); [lia|]. destruct (Nat.eq_dec 8 8); [|lia]. rewrite S3 in P.
      apply cmul_eq_0 in P as [P|P].
      * apply c1_neq_c0. replace c1 with (cmul (cinv (csqrt q)) (csqrt q)) by (field; auto). rewrite P. ring.
      * apply c1_neq_c0. rewrite <- P. change (RtoC 0) with c0. change (RtoC 1) with c1. ring.
    + intros k0 Hk0. rewrite csum_scale, csum_RtoC. do 2 f_equal. apply (proj1 (gsvd_V _ _ _ _ _ _ H) 8%nat (5 + k0)%nat); lia.
  - intros i Hi. rewrite Er. cbn [csum]. rewrite !RtoC_mul. unfold ee_col, gcol. field. auto.
Qed.

(** * Nister *)
Ltac pv := cbv [poly_val psub padd map combine fst snd poly7 poly6 poly73 poly64 nth length nister_b seq Nat.add Nat.sub Nat.eqb]; ring.
Lemma poly7_val a b z : length a = 5%nat -> length b = 4%nat -> poly_val (poly7 a b) z = poly_val a z * poly_val b z.
Proof. intros Ha Hb. do 6 (destruct a as [|? a]; try discriminate). do 5 (destruct b as [|? b]; try discriminate). pv. Qed.
Lemma poly6_val a b z : length a = 4%nat -> length b = 4%nat -> poly_val (poly6 a b) z = poly_val a z * poly_val b z.
Proof. intros Ha Hb. do 5 (destruct a as [|? a]; try discriminate). do 5 (destruct b as [|? b]; try discriminate). pv. Qed.
Lemma poly73_val a b z : length a = 8%nat -> length b = 4%nat -> poly_val (poly73 a b) z = poly_val a z * poly_val b z.
Proof. intros Ha Hb. do 9 (destruct a as [|? a]; try discriminate). do 5 (destruct b as [|? b]; try discriminate). pv. Qed.
Lemma poly64_val a b z : length a = 7%nat -> length b = 5%nat -> poly_val (poly64 a b) z = poly_val a z * poly_val b z.
Proof. intros Ha Hb. do 8 (destruct a as [|? a]; try discriminate). do 6 (destruct b as [|? b]; try discriminate). pv. Qed.
Lemma psub_val z : forall a b, length a = length b -> poly_val (psub a b) z = poly_val a z - poly_val b z /\ length (psub a b) = length a.
Proof.
  induction a as [|c a IH]; intros [|d b] H; cbn; try discriminate; [split; [ring|auto]|].
  injection H as H. destruct (IH b H) as [E L]. unfold psub in E, L. rewrite E, L, H. split; [ring|auto].
Qed.
Lemma padd_val z : forall a b, length a = length b -> poly_val (padd a b) z = poly_val a z + poly_val b z /\ length (padd a b) = length a.
Proof.
  induction a as [|c a IH]; intros [|d b] H; cbn; try discriminate; [split; [ring|auto]|].
  injection H as H. destruct (IH b H) as [E L]. unfold padd in E, L. rewrite E, L, H. split; [ring|auto].
Qed.
Lemma poly_val_peval p x : poly_val p x = peval p x.
Proof. induction p as [|c p IH]; cbn; [auto|]. now rewrite IH. Qed.
(** row i (0, 1, 2) of the 3x3 matrix of polynomials at z *)
Definition bval (A3 : nat -> nat -> R) (i : nat) (z : R) : vec3 :=
  let d j := A3 (4 + 2 * i)%nat j - z * A3 (5 + 2 * i)%nat j in
  V3 (d 0%nat * z ^ 2 + d 1%nat * z + d 2%nat) (d 3%nat * z ^ 2 + d 4%nat * z + d 5%nat) (d 6%nat * z ^ 3 + d 7%nat * z ^ 2 + d 8%nat * z + d 9%nat).
Lemma b_vals A3 i z :
  poly_val (nister_b A3 (4 + 2 * i) 0 3) z = vx (bval A3 i z) /\ poly_val (nister_b A3 (4 + 2 * i) 3 3) z = vy (bval A3 i z) /\
  poly_val (nister_b A3 (4 + 2 * i) 6 4) z = vz (bval A3 i z).
Proof.
  replace (5 + 2 * i)%nat with (4 + 2 * i + 1)%nat by lia. unfold bval. replace (5 + 2 * i)%nat with (4 + 2 * i + 1)%nat by lia. generalize (4 + 2 * i)%nat. intro r.
  unfold nister_b. cbn [seq map Nat.add Nat.eqb Nat.sub poly_val length vx vy vz]. repeat split; ring.
Qed.
(** The polynomials p1, p2, p3 and the tenth order polynomial are the cross
    product of the first two rows of that matrix and its determinant. *)
Theorem C51_polynomials : forall A3 z,
  V3 (poly_val (nister_p1 A3) z) (poly_val (nister_p2 A3) z) (poly_val (nister_p3 A3) z) = cross (bval A3 0 z) (bval A3 1 z) /\
  poly_val (nister_p10 A3) z = dot (cross (bval A3 0 z) (bval A3 1 z)) (bval A3 2 z) /\ length (nister_p10 A3) = 11%nat.
Proof.
  intros A3 z.
  destruct (b_vals A3 0 z) as (a1 & a2 & a3). destruct (b_vals A3 1 z) as (b1 & b2 & b3). destruct (b_vals A3 2 z) as (d1 & d2 & d3).
  cbn [Nat.mul Nat.add] in *.
  destruct (psub_val z (poly7 (nister_b A3 6 6 4) (nister_b A3 4 3 3)) (poly7 (nister_b A3 4 6 4) (nister_b A3 6 3 3)) eq_refl) as [E1 L1].
  destruct (psub_val z (poly7 (nister_b A3 4 6 4) (nister_b A3 6 0 3)) (poly7 (nister_b A3 6 6 4) (nister_b A3 4 0 3)) eq_refl) as [E2 L2].
  destruct (psub_val z (poly6 (nister_b A3 4 0 3) (nister_b A3 6 3 3)) (poly6 (nister_b A3 4 3 3) (nister_b A3 6 0 3)) eq_refl) as [E3 L3].
  fold (nister_p1 A3) in E1, L1. fold (nister_p2 A3) in E2, L2. fold (nister_p3 A3) in E3, L3.
  rewrite !poly7_val, a3, a2, b3, b2 in E1 by reflexivity. rewrite !poly7_val, a3, a1, b3, b1 in E2 by reflexivity. rewrite !poly6_val, a1, a2, b1, b2 in E3 by reflexivity.
  assert (C : V3 (poly_val (nister_p1 A3) z) (poly_val (nister_p2 A3) z) (poly_val (nister_p3 A3) z) = cross (bval A3 0 z) (bval A3 1 z)).
  { rewrite E1, E2, E3. destruct (bval A3 0 z) as [u1 u2 u3], (bval A3 1 z) as [w1 w2 w3]. unfold cross. cbn [vx vy vz]. f_equal; ring. }
  split; [exact C|].
  destruct (padd_val z (poly73 (nister_p1 A3) (nister_b A3 8 0 3)) (poly73 (nister_p2 A3) (nister_b A3 8 3 3)) eq_refl) as [E4 L4].
  destruct (padd_val z (padd (poly73 (nister_p1 A3) (nister_b A3 8 0 3)) (poly73 (nister_p2 A3) (nister_b A3 8 3 3))) (poly64 (nister_p3 A3) (nister_b A3 8 6 4)) L4) as [E5 L5].
  fold (nister_p10 A3) in E5, L5. split; [|rewrite L5, L4; reflexivity].
  rewrite E5, E4, !poly73_val, poly64_val, d1, d2, d3 by (auto; reflexivity). rewrite <- C. unfold dot. cbn [vx vy vz]. ring.
Qed.
(** A solution makes (x, y, 1) orthogonal to the three rows. *)
Theorem C51_rows : forall inv10 EE x y z i, good_inverse inv10 (nister_matrix EE) ->
  det (combination EE x y z) = 0 -> trace_constraint (combination EE x y z) = mzero -> (i < 3)%nat ->
  dot (bval (lu_solve inv10 (nister_matrix EE)) i z) (V3 x y 1) = 0.
Proof.
  intros inv10 EE x y z i GI D T Hi.
  assert (S := solve10 inv10 (nister_matrix EE) (fun j => nth j (nister_mon x y z) 0) GI (proj2 (C51_equations EE x y z) (conj D T))). cbv beta in S.
  generalize dependent (lu_solve inv10 (nister_matrix EE)). intros A3 S.
  destruct i as [|[|[|]]]; [pose proof (S 4%nat ltac:(lia)) as P; pose proof (S 5%nat ltac:(lia)) as Q|pose proof (S 6%nat ltac:(lia)) as P; pose proof (S 7%nat ltac:(lia)) as Q
    |pose proof (S 8%nat ltac:(lia)) as P; pose proof (S 9%nat ltac:(lia)) as Q|lia]; clear S;
  unfold nister_mon in P, Q; cbn [nth sumn Nat.add] in P, Q; unfold bval, dot; cbn [vx vy vz Nat.add Nat.mul];
  apply Rmult_eq_compat_l with (r := z) in Q;
  [replace (x ^ 2 * z) with (z * x ^ 2) in P by ring|replace (y ^ 2 * z) with (z * y ^ 2) in P by ring|replace (x * y * z) with (z * (x * y)) in P by ring];
  rewrite Q in P; clear Q; lra.
Qed.
(** Every solution is a root of the tenth order polynomial, and x and y are the
    quotients the code forms. *)
Theorem C51_root : forall inv10 EE x y z, let A3 := lu_solve inv10 (nister_matrix EE) in good_inverse inv10 (nister_matrix EE) ->
  det (combination EE x y z) = 0 -> trace_constraint (combination EE x y z) = mzero ->
  peval (nister_p10 A3) z = 0 /\ poly_val (nister_p1 A3) z = poly_val (nister_p3 A3) z * x /\ poly_val (nister_p2 A3) z = poly_val (nister_p3 A3) z * y.
Proof.
  intros inv10 EE x y z A3 GI D T. destruct (C51_polynomials A3 z) as (C & P & _).
  pose proof (C51_rows inv10 EE x y z 0 GI D T ltac:(lia)) as R0. pose proof (C51_rows inv10 EE x y z 1 GI D T ltac:(lia)) as R1.
  pose proof (C51_rows inv10 EE x y z 2 GI D T ltac:(lia)) as R2. fold A3 in R0, R1, R2. rewrite <- poly_val_peval, P. clear P.
  generalize dependent (poly_val (nister_p1 A3) z). generalize dependent (poly_val (nister_p2 A3) z). generalize dependent (poly_val (nister_p3 A3) z). intros p3 p2 p1 C.
  destruct (bval A3 0 z) as [a1 a2 a3], (bval A3 1 z) as [b1 b2 b3], (bval A3 2 z) as [d1 d2 d3]. unfold dot, cross in *. cbn [vx vy vz] in *.
  injection C as -> -> ->. assert (E3 : a3 = - (a1 * x + a2 * y)) by lra. assert (F3 : b3 = - (b1 * x + b2 * y)) by lra. assert (G3 : d3 = - (d1 * x + d2 * y)) by lra.
  subst a3 b3 d3. repeat split; ring.
Qed.
(** If the root finder reports the z of a solution and p3 does not vanish there,
    the normalised matrix is among the results. *)
Theorem C51_recovers : forall inv10 roots lm EE x y z,
  let A3 := lu_solve inv10 (nister_matrix EE) in let E := combination EE x y z in
  good_inverse inv10 (nister_matrix EE) -> (forall f p, (forall i, (i < 10)%nat -> f p i = 0) -> lm f p = p) ->
  det E = 0 -> trace_constraint E = mzero -> E <> mzero -> In z (roots (nister_p10 A3)) -> poly_val (nister_p3 A3) z <> 0 ->
  In (Some (mscale (/ sqrt (fnorm2 E)) E)) (fivept_nister_main inv10 roots lm EE).
Proof.
  intros inv10 roots lm EE x y z A3 E GI LM D T NE I N3. destruct (C51_root inv10 EE x y z GI D T) as (_ & X & Y). fold A3 in X, Y.
  unfold fivept_nister_main. fold (nister_matrix EE). fold A3. apply in_map_iff. exists z. split; [|exact I].
  unfold nister_root. destruct (Req_EM_T _ 0) as [|_]; [contradiction|]. rewrite X, Y.
  replace (poly_val (nister_p3 A3) z * x / poly_val (nister_p3 A3) z) with x by (field; auto).
  replace (poly_val (nister_p3 A3) z * y / poly_val (nister_p3 A3) z) with y by (field; auto).
  rewrite LM by (apply C51_equations; auto).
  set (ev := fun i => x * EE 0%nat i + y * EE 1%nat i + z * EE 2%nat i + EE 3%nat i).
  assert (Ee : E = to_mat ev) by apply combination_entry.
  assert (FE : sumn 9 (fun i => ev i ^ 2) = fnorm2 E) by (rewrite Ee, <- fnorm_vdot; apply sumn_ext; intros; ring).
  change (sumn 9 (fun i => (x * EE 0%nat i + y * EE 1%nat i + z * EE 2%nat i + EE 3%nat i) ^ 2)) with (sumn 9 (fun i => ev i ^ 2)). rewrite FE.
  assert (PE : 0 < fnorm2 E).
  { destruct (fnorm_nonneg E) as [|Z]; auto. exfalso. apply NE. rewrite <- FE in Z. symmetry in Z. rewrite Ee, (to_mat_ext ev (fun _ => 0)); [reflexivity|].
    intros j Hj. apply (sumn_nonneg_zero 9 (fun i => ev i ^ 2)) with (i := j) in Z; auto; [|intros; apply pow2_ge_0]. cbv beta in Z. nra. }
  apply sqrt_lt_R0 in PE. destruct (Req_EM_T _ 0) as [|_]; [lra|]. f_equal.
  rewrite <- (to_of (mscale _ E)). apply to_mat_ext. intros j Hj. rewrite of_mat_scale, Ee, of_to by auto. rewrite <- Ee. unfold ev, Rdiv. ring.
Qed.
(** From five independent correspondences: the true matrix up to sign and scale. *)
Theorem C51_recovers_motion : forall svdV inv10 roots lm l R12 t12,
  let V := svdV (epiA l) in let E := essential R12 t12 in let z := coordinate V E 2 / coordinate V E 3 in
  let A3 := lu_solve inv10 (nister_matrix (ee_col V)) in
  good_svdV svdV l -> length l = 5%nat -> independent l -> rotation R12 -> t12 <> v0 -> satisfies E l ->
  coordinate V E 3 <> 0 -> good_inverse inv10 (nister_matrix (ee_col V)) -> (forall f p, (forall i, (i < 10)%nat -> f p i = 0) -> lm f p = p) ->
  In z (roots (nister_p10 A3)) -> poly_val (nister_p3 A3) z <> 0 ->
  exists s, (s = 1 \/ s = -1) /\ In (Some (mscale (s / sqrt (fnorm2 E)) E)) (fivept_nister svdV inv10 roots lm l).
Proof.
  intros svdV inv10 roots lm l R12 t12 V E z A3 GS L5 Ind Ro Nt Sat N3 GI LM I NP.
  assert (CE := five_span svdV l E GS L5 Ind Sat N3). fold V in CE. fold z in CE.
  assert (EC := essential_constraints R12 t12 Ro). fold E in EC. destruct EC as [D T].
  assert (NE : E <> mzero).
  { intro Z. apply Nt. assert (Q : mmul E (mT R12) = skew t12) by (unfold E, essential; rewrite <- mmul_assoc, (orth_r R12 (proj1 Ro)); apply mmul_id_r).
    rewrite Z in Q. clear - Q. destruct t12, R12. lunf. injection Q as Q1 Q2 Q3 Q4 Q5 Q6 Q7 Q8 Q9. f_equal; lra. }
  set (c := / coordinate V E 3) in *. assert (Nc : c <> 0) by now apply Rinv_neq_0_compat.
  assert (IR := C51_recovers inv10 roots lm (ee_col V) (coordinate V E 0 / coordinate V E 3) (coordinate V E 1 / coordinate V E 3) z GI LM).
  rewrite CE in IR. fold A3 in IR.
  destruct (sqrt_scale c (fnorm2 E) Nc (fnorm_nonneg E)) as (s2 & Hs2 & Q).
  assert (PE : 0 < sqrt (fnorm2 E)).
  { apply sqrt_lt_R0. destruct (fnorm_nonneg E) as [|Z]; auto. exfalso. apply NE. rewrite <- (to_of E). rewrite (to_mat_ext _ (fun _ => 0)); [reflexivity|].
    intros j Hj. rewrite <- (to_of E), <- fnorm_vdot in Z. symmetry in Z. unfold vdot in Z.
    apply (sumn_nonneg_zero 9 (fun i => of_mat E i * of_mat E i)) with (i := j) in Z; auto; [|intros; nra]. cbv beta in Z. nra. }
  exists s2. split; [auto|].
  replace (mscale (s2 / sqrt (fnorm2 E)) E) with (mscale (/ sqrt (fnorm2 (mscale c E))) (mscale c E)).
  - apply IR; auto.
    + rewrite det_mscale, D. ring.
    + rewrite trace_scale, T. clear. lring.
    + intro Z. apply NE. replace E with (mscale (/ c) (mscale c E)) by (clear - Nc; destruct E; lunf; f_equal; field; auto). rewrite Z. clear. lring.
  - rewrite fnorm_scale, Q. replace (mscale (/ (s2 * c * sqrt (fnorm2 E))) (mscale c E)) with (mscale (/ (s2 * c * sqrt (fnorm2 E)) * c) E) by (clear; lring).
    f_equal. destruct Hs2; subst s2; field; lra.
Qed.
(** Every matrix returned for five correspondences satisfies the epipolar
    constraints and has unit norm, whatever the inverse, the root finder and the
    polishing return. *)
Theorem C51_epipolar : forall svdV inv10 roots lm l F, good_svdV svdV l -> (length l <= 5)%nat ->
  In (Some F) (fivept_nister svdV inv10 roots lm l) -> satisfies F l /\ fnorm2 F = 1.
Proof.
  intros svdV inv10 roots lm l F (U & s & H) L5 I. unfold fivept_nister, fivept_nister_main in I.
  apply in_map_iff in I as (z0 & Ez & _). unfold nister_root in Ez. set (V := svdV (epiA l)) in *.
  destruct (Req_EM_T _ 0) as [|N3]; [discriminate|]. destruct (lm _ _) as [[x y] z].
  set (ev := fun i => x * ee_col V 0%nat i + y * ee_col V 1%nat i + z * ee_col V 2%nat i + ee_col V 3%nat i) in Ez.
  change (sumn 9 _) with (sumn 9 (fun i => ev i ^ 2)) in Ez.
  destruct (Req_EM_T (sqrt (sumn 9 (fun i => ev i ^ 2))) 0) as [|Nn]; [discriminate|].
  set (n := sqrt (sumn 9 (fun i => ev i ^ 2))) in *. injection Ez as Ez.
  change (to_mat (fun i => ev i / n) = F) in Ez. split.
  - apply (satisfies_kernel F (fun i => ev i / n)); [auto|]. intros i Hi.
    assert (K : forall k, (k < 4)%nat -> mvec 9 (epiA l) (ee_col V k) i = 0).
    { intros k Hk. unfold ee_col. rewrite (gsvd_col _ _ _ _ _ _ H (5 + k) i) by lia. destruct (Nat.ltb_spec (5 + k) (Nat.min (length l) 9)); [lia|auto]. }
    unfold mvec, vdot in *. rewrite (sumn_ext 9 _ (fun j => / n * ((x * (epiA l i j * ee_col V 0 j) + y * (epiA l i j * ee_col V 1 j)) + (z * (epiA l i j * ee_col V 2 j) + epiA l i j * ee_col V 3 j)))).
    + rewrite sumn_scale, !sumn_add, !sumn_scale, !K by lia. ring.
    + intros j Hj. unfold ev. field. auto.
  - rewrite <- Ez, <- fnorm_vdot. unfold vdot. rewrite (sumn_ext 9 _ (fun i => / n * / n * ev i ^ 2)) by (intros; field; auto).
    rewrite sumn_scale. assert (P : 0 <= sumn 9 (fun i => ev i ^ 2)) by (apply sumn_nonneg; intros; apply pow2_ge_0).
    assert (Q := sqrt_sqrt _ P). fold n in Q. rewrite <- Q. field. auto.
Qed.
(** Two different solutions with the same z: the code divides by zero there, so
    the root yields no matrix. *)
Theorem C51_shared_root_refuted : forall inv10 lm EE x y x' y' z, let A3 := lu_solve inv10 (nister_matrix EE) in
  good_inverse inv10 (nister_matrix EE) -> (x, y) <> (x', y') ->
  det (combination EE x y z) = 0 -> trace_constraint (combination EE x y z) = mzero ->
  det (combination EE x' y' z) = 0 -> trace_constraint (combination EE x' y' z) = mzero ->
  peval (nister_p10 A3) z = 0 /\ nister_root lm EE (nister_matrix EE) A3 z = None.
Proof.
  intros inv10 lm EE x y x' y' z A3 GI N D T D' T'.
  destruct (C51_root inv10 EE x y z GI D T) as (Z & X & Y). destruct (C51_root inv10 EE x' y' z GI D' T') as (_ & X' & Y'). fold A3 in Z, X, Y, X', Y'.
  split; [exact Z|]. unfold nister_root. destruct (Req_EM_T (poly_val (nister_p3 A3) z) 0) as [|N3]; [reflexivity|]. exfalso. apply N.
  f_equal; apply (Rmult_eq_reg_l (poly_val (nister_p3 A3) z)); auto; lra.
Qed.
(** At a root of the tenth order polynomial where p3 does not vanish, the x and y
    formed by the code solve the three equations. *)
Theorem C51_annihilates : forall A3 z i, peval (nister_p10 A3) z = 0 -> poly_val (nister_p3 A3) z <> 0 -> (i < 3)%nat ->
  dot (bval A3 i z) (V3 (poly_val (nister_p1 A3) z / poly_val (nister_p3 A3) z) (poly_val (nister_p2 A3) z / poly_val (nister_p3 A3) z) 1) = 0.
Proof.
  intros A3 z i Z N Hi. destruct (C51_polynomials A3 z) as (C & P & _). rewrite <- poly_val_peval, P in Z. clear P.
  generalize dependent (poly_val (nister_p1 A3) z). generalize dependent (poly_val (nister_p2 A3) z). generalize dependent (poly_val (nister_p3 A3) z). intros p3 N p2 p1 C.
  replace (dot (bval A3 i z) (V3 (p1 / p3) (p2 / p3) 1)) with (dot (V3 p1 p2 p3) (bval A3 i z) / p3) by (unfold dot; cbn [vx vy vz]; field; auto).
  rewrite C. replace (dot (cross (bval A3 0 z) (bval A3 1 z)) (bval A3 i z)) with 0; [field; auto|].
  destruct i as [|[|[|]]]; [unfold dot, cross; cbn [vx vy vz]; ring..|symmetry; exact Z|lia].
Qed.
