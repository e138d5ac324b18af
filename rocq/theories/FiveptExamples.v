(** Exact instances for the theorems of FiveptProps.v: five correspondences with
    a rational singular value decomposition, on which all hypotheses are checked. *)
From Coq Require Import Reals List Lra Lia Arith ZArith.
From Verif Require Import Lin GenLin Cplx CEig RootsProps SturmProofs TriModel EpiModel EpiProps FiveptGen FiveptModel FiveptRows FiveptProps FiveptExData.
Import ListNotations.
Local Open Scope R_scope.

(** * Integer matrices *)
Definition zr (m : list (list Z)) (i j : nat) : Z := nth j (nth i m []) 0%Z.
Definition rmat (d : Z) (m : list (list Z)) (i j : nat) : R := IZR (zr m i j) / IZR d.
Fixpoint zsum (n : nat) (f : nat -> Z) : Z := match n with O => 0%Z | S n => (zsum n f + f n)%Z end.
Lemma IZR_sum n f : sumn n (fun k => IZR (f k)) = IZR (zsum n f).
Proof. induction n as [|n IH]; cbn [sumn zsum]; auto. now rewrite IH, plus_IZR. Qed.
Lemma sum_frac n f g a b : a <> 0%Z -> b <> 0%Z ->
  sumn n (fun k => IZR (f k) / IZR a * (IZR (g k) / IZR b)) = IZR (zsum n (fun k => (f k * g k)%Z)) / (IZR a * IZR b).
Proof.
  intros Ha Hb. apply not_0_IZR in Ha, Hb. rewrite <- IZR_sum. unfold Rdiv at 3. rewrite Rmult_comm, <- sumn_scale. apply sumn_ext. intros k _. rewrite mult_IZR. field. auto.
Qed.
Definition all2 (m n : nat) (p : nat -> nat -> bool) : bool := forallb (fun i => forallb (p i) (seq 0 n)) (seq 0 m).
Lemma all2_spec m n p : all2 m n p = true -> forall i j, (i < m)%nat -> (j < n)%nat -> p i j = true.
Proof.
  intros H i j Hi Hj. unfold all2 in H. rewrite forallb_forall in H. specialize (H i). rewrite forallb_forall in H by (apply in_seq; lia). apply H; apply in_seq; lia.
Qed.
Definition zdelta (d : Z) (i j : nat) : Z := if Nat.eqb i j then d else 0%Z.
Lemma zdelta_R d i j : IZR (zdelta d i j) = IZR d * delta i j.
Proof. unfold zdelta, delta. destruct (Nat.eqb_spec i j), (Nat.eq_dec i j); try contradiction; subst; cbn; ring. Qed.
Lemma orth_check D V : D <> 0%Z ->
  all2 9 9 (fun i j => Z.eqb (zsum 9 (fun k => zr V k i * zr V k j)%Z) (zdelta (D * D) i j)) = true ->
  all2 9 9 (fun i j => Z.eqb (zsum 9 (fun k => zr V i k * zr V j k)%Z) (zdelta (D * D) i j)) = true -> gorth 9 (rmat D V).
Proof.
  intros ND H1 H2. assert (N := not_0_IZR _ ND). split; intros i j Hi Hj; unfold vdot, gcol, rmat.
  - rewrite (sum_frac 9 (fun k => zr V k i) (fun k => zr V k j)) by auto. apply all2_spec with (i := i) (j := j) in H1; auto. apply Z.eqb_eq in H1.
    rewrite H1, zdelta_R, mult_IZR. field. auto.
  - rewrite (sum_frac 9 (fun k => zr V i k) (fun k => zr V j k)) by auto. apply all2_spec with (i := i) (j := j) in H2; auto. apply Z.eqb_eq in H2.
    rewrite H2, zdelta_R, mult_IZR. field. auto.
Qed.
Definition zvec (d : Z) (v : list Z) : vec3 := V3 (IZR (nth 0 v 0%Z) / IZR d) (IZR (nth 1 v 0%Z) / IZR d) (IZR (nth 2 v 0%Z) / IZR d).
Definition corr5 (d : Z) (b1 b2 : list (list Z)) : list (vec3 * vec3) := map (fun i => (zvec 1 (nth i b1 []), zvec d (nth i b2 []))) (seq 0 5).
Lemma zvec_entry d v k : ventry (zvec d v) k = IZR (nth (Nat.min k 2) v 0%Z) / IZR d.
Proof. destruct k as [|[|[|k]]]; reflexivity. Qed.
(** the decomposition of the coefficient matrix: U = 1, all singular values one *)
Lemma svd_check D V d b1 b2 : D <> 0%Z -> d <> 0%Z -> gorth 9 (rmat D V) ->
  all2 5 9 (fun i j => Z.eqb (zr b1 i (Nat.div j 3) * zr b2 i (Nat.modulo j 3) * D) (zr V j i * d)) = true ->
  let l := corr5 d b1 b2 in good_svdV (fun _ => rmat D V) l /\ length l = 5%nat /\ independent l.
Proof.
  intros ND Nd GO H l. assert (N := not_0_IZR _ ND). assert (N' := not_0_IZR _ Nd).
  assert (E : forall i j, (i < 5)%nat -> (j < 9)%nat -> epiA l i j = rmat D V j i).
  { intros i j Hi Hj. unfold epiA. assert (En : nth i l (v0, v0) = (zvec 1 (nth i b1 []), zvec d (nth i b2 []))).
    { unfold l, corr5. rewrite (nth_indep _ _ ((fun i => (zvec 1 (nth i b1 []), zvec d (nth i b2 []))) 0%nat)) by (rewrite map_length, seq_length; auto).
      rewrite (map_nth (fun i => (zvec 1 (nth i b1 []), zvec d (nth i b2 [])))), seq_nth by auto. reflexivity. }
    unfold epi_row. rewrite En. cbn [fst snd]. rewrite !zvec_entry.
    assert (Hd : (Nat.div j 3 <= 2)%nat) by (assert (Nat.div j 3 < 3)%nat by (apply Nat.div_lt_upper_bound; lia); lia).
    assert (Hm : (Nat.modulo j 3 <= 2)%nat) by (assert (Nat.modulo j 3 < 3)%nat by (apply Nat.mod_upper_bound; lia); lia).
    rewrite !Nat.min_l by auto. apply all2_spec with (i := i) (j := j) in H; auto. apply Z.eqb_eq in H. apply (f_equal IZR) in H. rewrite !mult_IZR in H.
    unfold rmat. unfold zr in *. apply (Rmult_eq_reg_r (IZR D * IZR d)); [|now apply Rmult_integral_contrapositive_currified].
    transitivity (IZR (nth (Nat.div j 3) (nth i b1 []) 0%Z) * IZR (nth (Nat.modulo j 3) (nth i b2 []) 0%Z) * IZR D); [field; auto|]. rewrite H. field. auto. }
  assert (L : length l = 5%nat) by reflexivity.
  split; [|split; [auto|]].
  - exists delta, (fun _ => 1). split.
    + assert (X : forall n, gorth n delta).
      { intro n. split; intros i j Hi Hj; unfold vdot, gcol.
        - now rewrite (sumn_delta n i (fun k => delta k j)).
        - rewrite (sumn_ext n _ (fun k => delta k i * delta k j)) by (intros; now rewrite (delta_comm i), (delta_comm j)). now rewrite (sumn_delta n i (fun k => delta k j)). }
      apply X.
    + exact GO.
    + intros; lra.
    + intros; lra.
    + rewrite L. intros i j Hi Hj. rewrite E by auto. rewrite (sumn_ext _ _ (fun k => delta k i * rmat D V j k)) by (intros; rewrite (delta_comm i); ring).
      now rewrite sumn_delta.
  - intros y Hy k Hk. rewrite L in *. specialize (Hy (to_mat (gcol (rmat D V) k))).
    rewrite (sumn_ext 5 _ (fun i => delta i k * y i)) in Hy; [now rewrite sumn_delta in Hy|].
    intros i Hi. rewrite <- epi_mvec. unfold mvec. rewrite (vdot_ext 9 _ _ (gcol (rmat D V) i) (gcol (rmat D V) k)) by (auto; intros; now apply E).
    rewrite (proj1 GO i k) by lia. ring.
Qed.

(** * Coefficients of a cubic polynomial are determined by its values *)
Lemma stew_mon_indep d : (forall x y z, sumn 20 (fun j => d j * nth j (stew_mon x y z) 0) = 0) -> forall j, (j < 20)%nat -> d j = 0.
Proof.
  intro H. unfold stew_mon in H. cbn [sumn nth] in H.
  pose proof (H 0 0 0) as P0. pose proof (H 1 0 0) as P1. pose proof (H 0 1 0) as P2. pose proof (H 0 0 1) as P3.
  pose proof (H (-1) 0 0) as P4. pose proof (H 0 (-1) 0) as P5. pose proof (H 0 0 (-1)) as P6.
  pose proof (H 2 0 0) as P7. pose proof (H 0 2 0) as P8. pose proof (H 0 0 2) as P9.
  pose proof (H 1 1 0) as Q1. pose proof (H 1 0 1) as Q2. pose proof (H 0 1 1) as Q3. pose proof (H (-1) 1 0) as Q4. pose proof (H (-1) 0 1) as Q5. pose proof (H 0 (-1) 1) as Q6.
  pose proof (H 1 (-1) 0) as Q7. pose proof (H 1 0 (-1)) as Q8. pose proof (H 0 1 (-1)) as Q9. pose proof (H 1 1 1) as Q10. clear H.
  intros j Hj. do 20 (destruct j as [|j]; [lra|]). lia.
Qed.
Lemma nister_mon_indep d : (forall x y z, sumn 20 (fun j => d j * nth j (nister_mon x y z) 0) = 0) -> forall j, (j < 20)%nat -> d j = 0.
Proof.
  intro H. unfold nister_mon in H. cbn [sumn nth] in H.
  pose proof (H 0 0 0) as P0. pose proof (H 1 0 0) as P1. pose proof (H 0 1 0) as P2. pose proof (H 0 0 1) as P3.
  pose proof (H (-1) 0 0) as P4. pose proof (H 0 (-1) 0) as P5. pose proof (H 0 0 (-1)) as P6.
  pose proof (H 2 0 0) as P7. pose proof (H 0 2 0) as P8. pose proof (H 0 0 2) as P9.
  pose proof (H 1 1 0) as Q1. pose proof (H 1 0 1) as Q2. pose proof (H 0 1 1) as Q3. pose proof (H (-1) 1 0) as Q4. pose proof (H (-1) 0 1) as Q5. pose proof (H 0 (-1) 1) as Q6.
  pose proof (H 1 (-1) 0) as Q7. pose proof (H 1 0 (-1)) as Q8. pose proof (H 0 1 (-1)) as Q9. pose proof (H 1 1 1) as Q10. clear H.
  intros j Hj. do 20 (destruct j as [|j]; [lra|]). lia.
Qed.

(** * The regular instance *)
Notation x1_ee := (ee_col (rmat x1_D x1_V)).
Definition rowsum_s (A : nat -> nat -> R) i x y z : R := sumn 20 (fun j => A i j * nth j (stew_mon x y z) 0).
Definition rowsum_n (A : nat -> nat -> R) i x y z : R := sumn 20 (fun j => A i j * nth j (nister_mon x y z) 0).
Lemma rows_s A B i : (forall x y z, rowsum_s A i x y z = rowsum_s B i x y z) -> forall j, (j < 20)%nat -> A i j = B i j.
Proof.
  intros H j Hj. apply Rminus_diag_uniq. apply (stew_mon_indep (fun j => A i j - B i j)); auto. intros x y z.
  rewrite (sumn_ext 20 _ (fun j => A i j * nth j (stew_mon x y z) 0 - B i j * nth j (stew_mon x y z) 0)) by (intros; ring).
  rewrite sumn_sub. specialize (H x y z). unfold rowsum_s in H. lra.
Qed.
Lemma rows_n A B i : (forall x y z, rowsum_n A i x y z = rowsum_n B i x y z) -> forall j, (j < 20)%nat -> A i j = B i j.
Proof.
  intros H j Hj. apply Rminus_diag_uniq. apply (nister_mon_indep (fun j => A i j - B i j)); auto. intros x y z.
  rewrite (sumn_ext 20 _ (fun j => A i j * nth j (nister_mon x y z) 0 - B i j * nth j (nister_mon x y z) 0)) by (intros; ring).
  rewrite sumn_sub. specialize (H x y z). unfold rowsum_n in H. lra.
Qed.
Ltac num := cbv -[Rmult Rplus Rminus Ropp pow Rdiv Rinv IZR]; field.
Definition x1_2D3 : Z := Eval vm_compute in (2 * x1_D * x1_D * x1_D)%Z.
Lemma x1_stew : forall i j, (i < 10)%nat -> (j < 20)%nat -> stew_matrix x1_ee i j = rmat x1_2D3 x1s_a i j.
Proof.
  intros i j Hi Hj. revert j Hj. apply rows_s. intros x y z. unfold rowsum_s, stew_matrix.
  destruct i as [|i]; [rewrite stew_eq0; num|].
  destruct i as [|i]; [rewrite stew_eq1; num|].
  destruct i as [|i]; [rewrite stew_eq2; num|].
  destruct i as [|i]; [rewrite stew_eq3; num|].
  destruct i as [|i]; [rewrite stew_eq4; num|].
  destruct i as [|i]; [rewrite stew_eq5; num|].
  destruct i as [|i]; [rewrite stew_eq6; num|].
  destruct i as [|i]; [rewrite stew_eq7; num|].
  destruct i as [|i]; [rewrite stew_eq8; num|].
  destruct i as [|i]; [rewrite stew_eq9; num|].
  lia.
Qed.
Lemma x1_nister : forall i j, (i < 10)%nat -> (j < 20)%nat -> nister_matrix x1_ee i j = rmat x1_2D3 x1n_a i j.
Proof.
  intros i j Hi Hj. revert j Hj. apply rows_n. intros x y z. unfold rowsum_n, nister_matrix.
  destruct i as [|i]; [rewrite nister_eq0; num|].
  destruct i as [|i]; [rewrite nister_eq1; num|].
  destruct i as [|i]; [rewrite nister_eq2; num|].
  destruct i as [|i]; [rewrite nister_eq3; num|].
  destruct i as [|i]; [rewrite nister_eq4; num|].
  destruct i as [|i]; [rewrite nister_eq5; num|].
  destruct i as [|i]; [rewrite nister_eq6; num|].
  destruct i as [|i]; [rewrite nister_eq7; num|].
  destruct i as [|i]; [rewrite nister_eq8; num|].
  destruct i as [|i]; [rewrite nister_eq9; num|].
  lia.
Qed.
Definition x3_ee (k i : nat) : R := IZR (zr x3_EE k i).
Lemma x3_nister : forall i j, (i < 10)%nat -> (j < 20)%nat -> nister_matrix x3_ee i j = rmat 2 x3n_a i j.
Proof.
  intros i j Hi Hj. revert j Hj. apply rows_n. intros x y z. unfold rowsum_n, nister_matrix.
  destruct i as [|i]; [rewrite nister_eq0; num|].
  destruct i as [|i]; [rewrite nister_eq1; num|].
  destruct i as [|i]; [rewrite nister_eq2; num|].
  destruct i as [|i]; [rewrite nister_eq3; num|].
  destruct i as [|i]; [rewrite nister_eq4; num|].
  destruct i as [|i]; [rewrite nister_eq5; num|].
  destruct i as [|i]; [rewrite nister_eq6; num|].
  destruct i as [|i]; [rewrite nister_eq7; num|].
  destruct i as [|i]; [rewrite nister_eq8; num|].
  destruct i as [|i]; [rewrite nister_eq9; num|].
  lia.
Qed.
(** the inverse of the left block, from an integer certificate *)
Definition cert_inv (dA dn : Z) (N : list (list Z)) : (nat -> nat -> R) -> nat -> nat -> R := fun _ i k => IZR (zr N i k) / IZR dn * IZR dA.
Lemma inverse_check A dA a dn N : dA <> 0%Z -> dn <> 0%Z -> (forall i j, (i < 10)%nat -> (j < 20)%nat -> A i j = rmat dA a i j) ->
  all2 10 10 (fun i j => Z.eqb (zsum 10 (fun k => zr N i k * zr a k j)%Z) (zdelta dn i j)) = true -> good_inverse (cert_inv dA dn N) A.
Proof.
  intros HA Hn E H i j Hi Hj. apply all2_spec with (i := i) (j := j) in H; auto. apply Z.eqb_eq in H.
  assert (NA := not_0_IZR _ HA). assert (Nn := not_0_IZR _ Hn).
  rewrite (sumn_ext 10 _ (fun k => IZR dA * (IZR (zr N i k) / IZR dn * (IZR (zr a k j) / IZR dA)))) by (intros k Hk; rewrite E by lia; unfold cert_inv, rmat; ring).
  rewrite sumn_scale, (sum_frac 10 (fun k => zr N i k) (fun k => zr a k j)) by auto. rewrite H, zdelta_R. field. auto.
Qed.
Lemma solve_check A dA a dn N d3 A3 : dA <> 0%Z -> dn <> 0%Z -> d3 <> 0%Z -> (forall i j, (i < 10)%nat -> (j < 20)%nat -> A i j = rmat dA a i j) ->
  all2 10 10 (fun i j => Z.eqb (zsum 10 (fun k => zr N i k * zr a k (10 + j))%Z * d3) (zr A3 i j * dn)) = true ->
  forall i j, (i < 10)%nat -> (j < 10)%nat -> lu_solve (cert_inv dA dn N) A i j = rmat d3 A3 i j.
Proof.
  intros HA Hn H3 E H i j Hi Hj. apply all2_spec with (i := i) (j := j) in H; auto. apply Z.eqb_eq in H. apply (f_equal IZR) in H. rewrite !mult_IZR in H.
  assert (NA := not_0_IZR _ HA). assert (Nn := not_0_IZR _ Hn). assert (N3 := not_0_IZR _ H3).
  unfold lu_solve. rewrite (sumn_ext 10 _ (fun k => IZR dA * (IZR (zr N i k) / IZR dn * (IZR (zr a k (10 + j)) / IZR dA)))) by (intros k Hk; rewrite E by lia; unfold cert_inv, rmat; ring).
  rewrite sumn_scale, (sum_frac 10 (fun k => zr N i k) (fun k => zr a k (10 + j)%nat)) by auto. unfold rmat.
  apply (Rmult_eq_reg_r (IZR dn * IZR d3)); [|now apply Rmult_integral_contrapositive_currified].
  transitivity (IZR (zsum 10 (fun k => (zr N i k * zr a k (10 + j))%Z)) * IZR d3); [field; auto|]. rewrite H. field. auto.
Qed.
Definition x1_sinv := cert_inv x1_2D3 x1s_dn x1s_N.
Definition x1_ninv := cert_inv x1_2D3 x1n_dn x1n_N.
Lemma x1_sinv_ok : good_inverse x1_sinv (stew_matrix x1_ee).
Proof. apply (inverse_check _ _ x1s_a); [discriminate|discriminate|exact x1_stew|vm_cast_no_check (@eq_refl bool true)]. Qed.
Lemma x1_ninv_ok : good_inverse x1_ninv (nister_matrix x1_ee).
Proof. apply (inverse_check _ _ x1n_a); [discriminate|discriminate|exact x1_nister|vm_cast_no_check (@eq_refl bool true)]. Qed.
Definition x3_inv := cert_inv 2 x3n_dn x3n_N.
Lemma x3_inv_ok : good_inverse x3_inv (nister_matrix x3_ee).
Proof. apply (inverse_check _ _ x3n_a); [discriminate|discriminate|exact x3_nister|vm_cast_no_check (@eq_refl bool true)]. Qed.
Lemma x1_sA3 : forall i j, (i < 10)%nat -> (j < 10)%nat -> lu_solve x1_sinv (stew_matrix x1_ee) i j = rmat x1s_d3 x1s_A3 i j.
Proof. apply (solve_check _ _ x1s_a); [discriminate|discriminate|discriminate|exact x1_stew|vm_cast_no_check (@eq_refl bool true)]. Qed.
Lemma x1_nA3 : forall i j, (i < 10)%nat -> (j < 10)%nat -> lu_solve x1_ninv (nister_matrix x1_ee) i j = rmat x1n_d3 x1n_A3 i j.
Proof. apply (solve_check _ _ x1n_a); [discriminate|discriminate|discriminate|exact x1_nister|vm_cast_no_check (@eq_refl bool true)]. Qed.

(** ** the eigenspace of x is one-dimensional *)
Definition zM (d : Z) (A3 : list (list Z)) (i j : nat) : Z :=
  match i with
  | 0%nat | 1%nat | 2%nat => - zr A3 i j
  | 3%nat => - zr A3 4 j | 4%nat => - zr A3 5 j | 5%nat => - zr A3 7 j
  | 6%nat => zdelta d j 0 | 7%nat => zdelta d j 1 | 8%nat => zdelta d j 3 | _ => zdelta d j 6
  end.
Lemma zM_ok d A3 A i j : d <> 0%Z -> (i < 10)%nat -> (j < 10)%nat -> (forall i j, (i < 10)%nat -> (j < 10)%nat -> A i j = rmat d A3 i j) ->
  stew_M A i j = IZR (zM d A3 i j) / IZR d.
Proof.
  intros Nd Hi Hj E. apply not_0_IZR in Nd.
  do 3 (destruct i as [|i]; [cbn [stew_M zM]; rewrite E by lia; unfold rmat; rewrite opp_IZR; field; auto|]).
  do 3 (destruct i as [|i]; [cbn [stew_M zM]; rewrite E by lia; unfold rmat; rewrite opp_IZR; field; auto|]).
  do 4 (destruct i as [|i]; [cbn [stew_M zM]; rewrite zdelta_R; field; auto|]). lia.
Qed.
(** bd K (xd M - xn d) = kd (bd - w e9^T) over the integers *)
Lemma eigenspace_check A d A3 xn xd K kd w bd : d <> 0%Z -> xd <> 0%Z -> kd <> 0%Z -> bd <> 0%Z ->
  (forall i j, (i < 10)%nat -> (j < 10)%nat -> A i j = rmat d A3 i j) ->
  all2 10 10 (fun i l => Z.eqb (bd * zsum 10 (fun j => zr K i j * (xd * zM d A3 j l - zdelta (xn * d) j l))%Z)
     (zdelta (kd * bd) i l - (if Nat.eqb l 9 then kd * nth i w 0 else 0))%Z) = true ->
  forall u, (forall i, (i < 10)%nat -> sumn 10 (fun j => stew_M A i j * u j) = IZR xn / IZR xd * u i) ->
  forall i, (i < 10)%nat -> u i = u 9%nat * (IZR (nth i w 0%Z) / IZR bd).
Proof.
  intros Hd Hx Hk Hb E H u Hu i Hi.
  assert (Nd := not_0_IZR _ Hd). assert (Nx := not_0_IZR _ Hx). assert (Nk := not_0_IZR _ Hk). assert (Nb := not_0_IZR _ Hb).
  assert (Z : forall j, (j < 10)%nat -> sumn 10 (fun l => IZR (xd * zM d A3 j l - zdelta (xn * d) j l)%Z * u l) = 0).
  { intros j Hj. rewrite (sumn_ext 10 _ (fun l => IZR xd * IZR d * (stew_M A j l * u l) - IZR xn * IZR d * (delta l j * u l))).
    - rewrite sumn_sub, !sumn_scale, Hu, sumn_delta by auto. field. auto.
    - intros l Hl. rewrite minus_IZR, mult_IZR, zdelta_R, mult_IZR, (delta_comm j), (zM_ok d A3 A j l) by auto. field. auto. }
  assert (S : sumn 10 (fun j => IZR bd * IZR (zr K i j) * sumn 10 (fun l => IZR (xd * zM d A3 j l - zdelta (xn * d) j l)%Z * u l)) = 0).
  { apply sumn_0. intros j Hj. rewrite Z by auto. ring. }
  rewrite (sumn_ext 10 _ (fun j => sumn 10 (fun l => IZR bd * IZR (zr K i j * (xd * zM d A3 j l - zdelta (xn * d) j l))%Z * u l))) in S
    by (intros j Hj; rewrite <- sumn_scale; apply sumn_ext; intros; rewrite mult_IZR; ring).
  rewrite sumn_swap in S.
  rewrite (sumn_ext 10 _ (fun l => IZR kd * IZR bd * (delta l i * u l) - IZR kd * IZR (nth i w 0%Z) * (delta l 9 * u l))) in S.
  - rewrite sumn_sub, !sumn_scale, !sumn_delta in S by lia. apply (Rmult_eq_reg_l (IZR kd * IZR bd)); [|now apply Rmult_integral_contrapositive_currified].
    transitivity (IZR kd * IZR (nth i w 0%Z) * u 9%nat); [lra|field; auto].
  - intros l Hl. apply all2_spec with (i := i) (j := l) in H; auto. apply Z.eqb_eq in H.
    rewrite (sumn_ext 10 _ (fun j => u l * IZR bd * IZR (zr K i j * (xd * zM d A3 j l - zdelta (xn * d) j l))%Z)) by (intros; ring).
    rewrite sumn_scale, IZR_sum, Rmult_assoc, <- mult_IZR, H, minus_IZR, zdelta_R, mult_IZR. unfold delta at 3. rewrite (delta_comm l i).
    destruct (Nat.eqb_spec l 9), (Nat.eq_dec l 9); try contradiction; [rewrite mult_IZR|]; ring.
Qed.
Lemma x1_space : forall u, (forall i, (i < 10)%nat -> sumn 10 (fun j => stew_M (lu_solve x1_sinv (stew_matrix x1_ee)) i j * u j) = -3 / 4 * u i) ->
  forall i, (i < 10)%nat -> u i = u 9%nat * stew_basis (-3 / 4) (-1) (-41 / 12) i.
Proof.
  intros u Hu i Hi.
  rewrite (eigenspace_check _ x1s_d3 x1s_A3 (-3) 4 x1_K (x1_kd * 4 * x1s_d3) x1_w x1_bd ltac:(discriminate) ltac:(discriminate) ltac:(discriminate) ltac:(discriminate) x1_sA3 (ltac:(vm_cast_no_check (@eq_refl bool true))) u Hu i Hi) at 1.
  f_equal. do 10 (destruct i as [|i]; [unfold stew_basis, stew_mon, x1_w, x1_bd; cbn [nth Nat.add]; field|]). lia.
Qed.
(** ** the instance *)
Definition x1_l : list (vec3 * vec3) := corr5 x1_dc x1_b1 x1_b2.
Definition x1_svdV : (nat -> nat -> R) -> nat -> nat -> R := fun _ => rmat x1_D x1_V.
Definition x1_rot : mat3 := mT (of_cols (zvec x1_dR (nth 0 x1_R [])) (zvec x1_dR (nth 1 x1_R [])) (zvec x1_dR (nth 2 x1_R []))).
Definition x1_t : vec3 := V3 4 4 3.
Lemma x1_svd : good_svdV x1_svdV x1_l /\ length x1_l = 5%nat /\ independent x1_l.
Proof.
  apply svd_check; [discriminate|discriminate| |vm_cast_no_check (@eq_refl bool true)].
  apply orth_check; [discriminate|vm_cast_no_check (@eq_refl bool true)|vm_cast_no_check (@eq_refl bool true)].
Qed.
Lemma x1_rotation : rotation x1_rot.
Proof. split; [unfold orthogonal; cbv -[Rmult Rplus Rminus Ropp Rdiv Rinv IZR]; f_equal; field|num]. Qed.
Lemma x1_satisfies : satisfies (essential x1_rot x1_t) x1_l.
Proof. intros c Hc. repeat (destruct Hc as [<-|Hc]; [num|]). destruct Hc. Qed.
Lemma x1_coord : coordinate (x1_svdV (epiA x1_l)) (essential x1_rot x1_t) 0 = 9 / 5 /\ coordinate (x1_svdV (epiA x1_l)) (essential x1_rot x1_t) 1 = 12 / 5 /\
  coordinate (x1_svdV (epiA x1_l)) (essential x1_rot x1_t) 2 = 41 / 5 /\ coordinate (x1_svdV (epiA x1_l)) (essential x1_rot x1_t) 3 = -12 / 5.
Proof. unfold x1_svdV. repeat split; num. Qed.
Example C50_nonvacuous : exists svdV inv10 eig csqrt l R12 t12,
  let V := svdV (epiA l) in let E := essential R12 t12 in
  let x := coordinate V E 0 / coordinate V E 3 in let y := coordinate V E 1 / coordinate V E 3 in let z := coordinate V E 2 / coordinate V E 3 in
  let M := stew_M (lu_solve inv10 (stew_matrix (ee_col V))) in
  good_svdV svdV l /\ length l = 5%nat /\ independent l /\ rotation R12 /\ t12 <> v0 /\ satisfies E l /\
  coordinate V E 3 <> 0 /\ good_inverse inv10 (stew_matrix (ee_col V)) /\ good_ceig 10 M (eig M) /\ is_csqrt csqrt /\
  (forall w, ceigen 10 M (RtoC x) w -> forall i, (i < 10)%nat -> w i = cmul (w 9%nat) (RtoC (stew_basis x y z i))).
Proof.
  destruct (ceig_function_exists 10) as [eig HE]. exists x1_svdV, x1_sinv, eig, csqrt_p, x1_l, x1_rot, x1_t. cbv zeta.
  destruct x1_svd as (S1 & S2 & S3). destruct x1_coord as (C0 & C1 & C2 & C3). rewrite C0, C1, C2, C3.
  replace (9 / 5 / (-12 / 5)) with (-3 / 4) by field. replace (12 / 5 / (-12 / 5)) with (-1) by field. replace (41 / 5 / (-12 / 5)) with (-41 / 12) by field.
  change (ee_col (x1_svdV (epiA x1_l))) with x1_ee.
  split; [exact S1|]. split; [exact S2|]. split; [exact S3|]. split; [exact x1_rotation|]. split; [intro Q; injection Q; intros; lra|]. split; [exact x1_satisfies|].
  split; [lra|]. split; [exact x1_sinv_ok|]. split; [apply HE|]. split; [exact csqrt_p_ok|].
  intros w [_ Hw] i Hi.
  assert (Sre : forall n (M : nat -> nat -> R) (w : nat -> cx) i, re (csum n (fun j => cmul (RtoC (M i j)) (w j))) = sumn n (fun j => M i j * re (w j))).
  { intros n M w0 i0. induction n as [|n IH]; cbn [csum sumn]; [reflexivity|]. cbn [cadd re]. rewrite IH. cbn. ring. }
  assert (Sim : forall n (M : nat -> nat -> R) (w : nat -> cx) i, im (csum n (fun j => cmul (RtoC (M i j)) (w j))) = sumn n (fun j => M i j * im (w j))).
  { intros n M w0 i0. induction n as [|n IH]; cbn [csum sumn]; [reflexivity|]. cbn [cadd im]. rewrite IH. cbn. ring. }
  apply cx_eq.
  - rewrite (x1_space (fun j => re (w j))) by (auto; intros k Hk; rewrite <- Sre, Hw by auto; cbn; ring). cbn. ring.
  - rewrite (x1_space (fun j => im (w j))) by (auto; intros k Hk; rewrite <- Sim, Hw by auto; cbn; ring). cbn. ring.
Qed.
Lemma x1_p3 : poly_val (nister_p3 (lu_solve x1_ninv (nister_matrix x1_ee))) (-41 / 12) <> 0.
Proof.
  destruct (C51_polynomials (lu_solve x1_ninv (nister_matrix x1_ee)) (-41 / 12)) as (C & _ & _). apply (f_equal vz) in C. cbn [vz] in C. rewrite C. clear C.
  unfold cross, bval. cbn [vx vy vz Nat.mul Nat.add]. rewrite !x1_nA3 by lia. cbv [rmat zr x1n_A3 x1n_d3 nth]. lra.
Qed.
Example C51_nonvacuous : exists svdV inv10 roots (lm : (R * R * R -> nat -> R) -> R * R * R -> R * R * R) l R12 t12,
  let V := svdV (epiA l) in let E := essential R12 t12 in let z := coordinate V E 2 / coordinate V E 3 in
  let A3 := lu_solve inv10 (nister_matrix (ee_col V)) in
  good_svdV svdV l /\ length l = 5%nat /\ independent l /\ rotation R12 /\ t12 <> v0 /\ satisfies E l /\
  coordinate V E 3 <> 0 /\ good_inverse inv10 (nister_matrix (ee_col V)) /\ (forall f p, (forall i, (i < 10)%nat -> f p i = 0) -> lm f p = p) /\
  In z (roots (nister_p10 A3)) /\ poly_val (nister_p3 A3) z <> 0.
Proof.
  exists x1_svdV, x1_ninv, (fun _ => [-41 / 12]), (fun (f : R * R * R -> nat -> R) (p : R * R * R) => p), x1_l, x1_rot, x1_t. cbv zeta.
  destruct x1_svd as (S1 & S2 & S3). destruct x1_coord as (C0 & C1 & C2 & C3). rewrite C2, C3.
  replace (41 / 5 / (-12 / 5)) with (-41 / 12) by field. change (ee_col (x1_svdV (epiA x1_l))) with x1_ee.
  split; [exact S1|]. split; [exact S2|]. split; [exact S3|]. split; [exact x1_rotation|]. split; [intro Q; injection Q; intros; lra|]. split; [exact x1_satisfies|].
  split; [lra|]. split; [exact x1_ninv_ok|]. split; [auto|]. split; [now left|exact x1_p3].
Qed.
(** ** an essential matrix orthogonal to the last null space vector *)
Example C50_orthogonal_nonvacuous : exists svdV l R12 t12, good_svdV svdV l /\ length l = 5%nat /\ independent l /\ rotation R12 /\ t12 <> v0 /\
  satisfies (essential R12 t12) l /\ coordinate (svdV (epiA l)) (essential R12 t12) 3 = 0.
Proof.
  exists (fun _ => rmat x2_D x2_V), (corr5 x2_dc x2_b1 x2_b2), mid, (V3 4 4 3).
  assert (S : let l := corr5 x2_dc x2_b1 x2_b2 in good_svdV (fun _ => rmat x2_D x2_V) l /\ length l = 5%nat /\ independent l).
  { apply svd_check; [discriminate|discriminate| |vm_cast_no_check (@eq_refl bool true)].
    apply orth_check; [discriminate|vm_cast_no_check (@eq_refl bool true)|vm_cast_no_check (@eq_refl bool true)]. }
  destruct S as (S1 & S2 & S3). split; [exact S1|]. split; [exact S2|]. split; [exact S3|]. split; [split; [apply orth_id|apply det_mid]|].
  split; [intro Q; injection Q; intros; lra|]. split; [|num].
  intros c Hc. repeat (destruct Hc as [<-|Hc]; [num|]). destruct Hc.
Qed.
(** ** two solutions with the same z *)
Example C51_shared_root_nonvacuous : exists inv10 EE, good_inverse inv10 (nister_matrix EE) /\ (0, 0) <> (1, 0) /\
  det (combination EE 0 0 0) = 0 /\ trace_constraint (combination EE 0 0 0) = mzero /\
  det (combination EE 1 0 0) = 0 /\ trace_constraint (combination EE 1 0 0) = mzero.
Proof.
  exists x3_inv, x3_ee. split; [exact x3_inv_ok|]. split; [intro Q; injection Q; intros; lra|].
  repeat split; try num; cbv -[Rmult Rplus Rminus Ropp Rdiv Rinv IZR]; f_equal; ring.
Qed.
