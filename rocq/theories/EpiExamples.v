(** Concrete cases for C49: the hypotheses can be met, and completeness of
    sevenpt fails when a null-space matrix is singular. *)
From Coq Require Import Reals Lra Psatz Lia List ClassicalChoice.
From Verif Require Import Lin GenLin GenSpectral Spectral ArunProps TriModel Cplx SturmModel SturmProofs RootsProps EpiModel EpiProps.
Import ListNotations.
Local Open Scope R_scope.

(** * Examples and refutation *)
Definition e1 : vec3 := V3 1 0 0.
Definition e2 : vec3 := V3 0 1 0.
Definition e3 : vec3 := V3 0 0 1.
(** seven pairs that leave the entries (0,1) and (1,0) free *)
Definition ex7 : list (vec3 * vec3) := [(e1, e1); (e1, e3); (e2, e2); (e2, e3); (e3, e1); (e3, e2); (e3, e3)].
Definition ex8 : list (vec3 * vec3) := ex7 ++ [(V3 (3/5) (4/5) 0, V3 (3/5) (4/5) 0)].
Lemma ex7_satisfies G : satisfies G ex7 <-> m00 G = 0 /\ m02 G = 0 /\ m11 G = 0 /\ m12 G = 0 /\ m20 G = 0 /\ m21 G = 0 /\ m22 G = 0.
Proof.
  assert (E : forall c, epi G c = dot (fst c) (mv G (snd c))) by reflexivity.
  split.
  - intro H. assert (K : forall c, In c ex7 -> dot (fst c) (mv G (snd c)) = 0) by (intros c Hc; rewrite <- E; auto).
    assert (K1 := K (e1, e1) ltac:(cbn; tauto)). assert (K2 := K (e1, e3) ltac:(cbn; tauto)). assert (K3 := K (e2, e2) ltac:(cbn; tauto)).
    assert (K4 := K (e2, e3) ltac:(cbn; tauto)). assert (K5 := K (e3, e1) ltac:(cbn; tauto)). assert (K6 := K (e3, e2) ltac:(cbn; tauto)). assert (K7 := K (e3, e3) ltac:(cbn; tauto)).
    clear - K1 K2 K3 K4 K5 K6 K7. destruct G. unfold e1, e2, e3 in *. cbn [fst snd] in *. lunf. cbn. repeat split; lra.
  - destruct G. cbn. intros (-> & -> & -> & -> & -> & -> & ->) c [<-|[<-|[<-|[<-|[<-|[<-|[<-|[]]]]]]]]; unfold epi, e1, e2, e3; cbn [fst snd]; lunf; ring.
Qed.
Example C49_eightpt_nonvacuous : exists svdV svd3, good_svdV svdV ex8 /\ (forall F, is_svd F (svd3 F)) /\ rotation mid /\ e3 <> v0 /\
  satisfies (essential mid e3) ex8 /\ (forall G, satisfies G ex8 -> exists c, G = mscale c (essential mid e3)).
Proof.
  destruct (gsvd_exists (length ex8) 9 (epiA ex8)) as (U & s & V & H).
  destruct (choice (fun F r => is_svd F r)) as (svd3 & Hs).
  { intro F. destruct (svd_exists F) as (U3 & s3 & V3 & HH). exists (U3, s3, V3). exact HH. }
  exists (fun _ => V), svd3. split; [exists U, s; auto|]. split; [auto|]. split; [split; [apply orth_id|lunf; lra]|].
  split; [unfold e3; lunf; intro Q; linj Q; lra|].
  assert (Sp : forall G, satisfies G ex8 -> satisfies G ex7 /\ epi G (V3 (3/5) (4/5) 0, V3 (3/5) (4/5) 0) = 0).
  { intros G HG. split; [intros c Hc; apply HG, in_or_app; auto|apply HG, in_or_app; right; left; auto]. }
  split.
  - intros c Hc. apply in_app_or in Hc. destruct Hc as [Hc|[<-|[]]].
    + apply ex7_satisfies; auto. unfold essential, e3. lunf. cbn. repeat split; ring.
    + unfold epi, essential, e3. cbn [fst snd]. lunf. lra.
  - intros G HG. apply Sp in HG. destruct HG as [G7 G8]. apply ex7_satisfies in G7. destruct G as [a b c d e f g h i]. cbn in G7.
    destruct G7 as (-> & -> & -> & -> & -> & -> & ->). exists d. unfold epi in G8. cbn [fst snd] in G8. unfold essential, e3.
    revert G8. lunf. intro G8. f_equal; lra.
Qed.

(** ** sevenpt loses solutions when the last null-space matrix is singular *)
Definition ex_pos (k : nat) : nat := nth k [0; 2; 4; 5; 6; 7; 8; 3; 1]%nat 0%nat.
Definition exV (i k : nat) : R := if Nat.eqb i (ex_pos k) then 1 else 0.
Definition exU (i k : nat) : R := if Nat.eqb i k then 1 else 0.
Lemma cases9 (P : nat -> Prop) : P 0%nat -> P 1%nat -> P 2%nat -> P 3%nat -> P 4%nat -> P 5%nat -> P 6%nat -> P 7%nat -> P 8%nat -> forall i, (i < 9)%nat -> P i.
Proof. intros. do 9 (destruct i as [|i]; [auto|]). lia. Qed.
Lemma cases7 (P : nat -> Prop) : P 0%nat -> P 1%nat -> P 2%nat -> P 3%nat -> P 4%nat -> P 5%nat -> P 6%nat -> forall i, (i < 7)%nat -> P i.
Proof. intros. do 7 (destruct i as [|i]; [auto|]). lia. Qed.
Lemma ex7_svd : is_gsvd 7 9 (epiA ex7) exU (fun _ => 1) exV.
Proof.
  constructor.
  - split; intros i j Hi Hj; revert i Hi; apply cases7; revert j Hj; apply cases7; unfold vdot, gcol, exU, delta; cbn; ring.
  - split; intros i j Hi Hj; revert i Hi; apply cases9; revert j Hj; apply cases9; unfold vdot, gcol, exV, delta; cbn; ring.
  - intros; lra.
  - intros; lra.
  - intros i j Hi Hj. revert i Hi. apply cases7; revert j Hj; apply cases9; unfold epiA, epi_row, ex7, exU, exV, ex_pos, e1, e2, e3; cbn; ring.
Qed.
Lemma ex7_independent : independent ex7.
Proof.
  intros y H.
  assert (K := fun F => H F). clear H.
  assert (K0 := K (M3 1 0 0 0 0 0 0 0 0)). assert (K1 := K (M3 0 0 1 0 0 0 0 0 0)). assert (K2 := K (M3 0 0 0 0 1 0 0 0 0)).
  assert (K3 := K (M3 0 0 0 0 0 1 0 0 0)). assert (K4 := K (M3 0 0 0 0 0 0 1 0 0)). assert (K5 := K (M3 0 0 0 0 0 0 0 1 0)). assert (K6 := K (M3 0 0 0 0 0 0 0 0 1)).
  clear K. unfold epi, ex7, e1, e2, e3 in *. cbn in *. lunf.
  apply cases7; lra.
Qed.
(** The true essential matrix (identity rotation, translation along z) satisfies
    the seven independent constraints, the decomposition is valid, but the only
    matrix returned is not a multiple of it. *)
Theorem C49_sevenpt_loses_solution_refuted : exists svdV, good_svdV svdV ex7 /\ independent ex7 /\ satisfies (essential mid e3) ex7 /\
  forall eig, exists F, sevenpt svdV eig ex7 = Some [F] /\ forall c, essential mid e3 <> mscale c F.
Proof.
  exists (fun _ => exV). split; [exists exU, (fun _ => 1); apply ex7_svd|]. split; [apply ex7_independent|]. split.
  - apply ex7_satisfies. unfold essential, e3. lunf. cbn. repeat split; ring.
  - intro eig. unfold sevenpt. set (F := to_mat (gcol exV 8)). assert (EF : F = M3 0 1 0 0 0 0 0 0 0) by reflexivity. exists F. split.
    + assert (D : det F = 0) by (rewrite EF; lunf; ring). rewrite D, Rabs_R0.
      destruct (Rlt_dec 0 eps) as [|N]; [reflexivity|]. exfalso. apply N. unfold eps. lra.
    + intros c Q. rewrite EF in Q. unfold essential, e3 in Q. revert Q. lunf. intro Q. injection Q. intros. lra.
Qed.

(** ** The hypotheses of the completeness theorem can be met *)
Lemma eig_exists M : exists r : cx * cx * cx, let '(a, b, c) := r in factorises (charpoly M) [a; b; c].
Proof.
  destruct (cubic_root (- trace M) (trace (adj M)) (- det M)) as (x & Hx).
  unfold charpoly. set (p := - trace M) in *. set (q := trace (adj M)) in *. set (r := - det M) in *. clearbody p q r.
  (* z^2 + u z + v *)
  set (u := p + x). set (v := q + x * u).
  pose proof (csqrt_p_ok (RtoC (u * u / 4 - v))) as S. set (w := csqrt_p (RtoC (u * u / 4 - v))) in *. clearbody w.
  exists (RtoC x, csub w (RtoC (u / 2)), csub (copp w) (RtoC (u / 2))). intro z. unfold cpoly. cbn [fold_left hd].
  assert (Er : r = - x * v) by (unfold v, u; lra). rewrite Er.
  assert (Ep : p = u - x) by (unfold u; ring). assert (Eq : q = v - x * u) by (unfold v; ring). rewrite Ep, Eq. clear Hx Ep Eq Er. clearbody u v.
  assert (Sv : RtoC v = csub (RtoC (u * u / 4)) (cmul w w)).
  { rewrite S. rewrite <- RtoC_sub. f_equal. ring. }
  rewrite !RtoC_sub, !RtoC_mul, RtoC_opp. rewrite Sv. rewrite !RtoC_div, RtoC_mul by lra.
  assert (E4 : RtoC 4 = cadd (cadd c1 c1) (cadd c1 c1)) by (apply cx_eq; cbn; ring). assert (E2 : RtoC 2 = cadd c1 c1) by (apply cx_eq; cbn; ring).
  assert (E1 : RtoC 1 = c1) by reflexivity. rewrite E4, E2, E1. clear. field. split; intro Q; injection Q; lra.
Qed.
Definition exd : list (vec3 * vec3) := [(e1, e2); (e1, e3); (e2, e1); (e2, e3); (e3, e1); (e3, e2); (V3 (2/3) (2/3) (1/3), V3 1 1 1)].
Definition exF1 : mat3 := diag (-2/3) (1/3) (2/3).
Definition exF2 : mat3 := diag (1/3) (-2/3) (2/3).
Lemma exd_independent : independent exd.
Proof.
  intros y H. assert (K := fun F => H F). clear H.
  assert (K0 := K (M3 1 0 0 0 0 0 0 0 0)). assert (K1 := K (M3 0 1 0 0 0 0 0 0 0)). assert (K2 := K (M3 0 0 1 0 0 0 0 0 0)). assert (K3 := K (M3 0 0 0 1 0 0 0 0 0)).
  assert (K4 := K (M3 0 0 0 0 0 1 0 0 0)). assert (K5 := K (M3 0 0 0 0 0 0 1 0 0)). assert (K6 := K (M3 0 0 0 0 0 0 0 1 0)).
  clear K. unfold epi, exd, e1, e2, e3 in *. cbn in *. lunf. apply cases7; lra.
Qed.
Lemma exd_satisfies a b c : 2 * a + 2 * b + c = 0 -> satisfies (diag a b c) exd.
Proof. intros H p [<-|[<-|[<-|[<-|[<-|[<-|[<-|[]]]]]]]]; unfold epi, e1, e2, e3; cbn [fst snd]; lunf; lra. Qed.
(** an SVD with the chosen null-space basis *)
Lemma exd_svd : exists svdV, good_svdV svdV exd /\ to_mat (gcol (svdV (epiA exd)) 8) = exF1 /\ to_mat (gcol (svdV (epiA exd)) 7) = exF2.
Proof.
  destruct (gsvd_exists 7 9 (epiA exd)) as (U & s & V & H).
  pose proof (seven_rank (fun _ => V) exd U s H eq_refl exd_independent) as S6.
  set (W := fun i k => if Nat.eqb k 7 then of_mat exF2 i else if Nat.eqb k 8 then of_mat exF1 i else V i k).
  assert (C : forall k, (k < 7)%nat -> gcol W k = gcol V k).
  { intros k Hk. unfold W, gcol. replace (Nat.eqb k 7) with false by (symmetry; apply Nat.eqb_neq; lia).
    replace (Nat.eqb k 8) with false by (symmetry; apply Nat.eqb_neq; lia). reflexivity. }
  assert (K : forall k F, (k < 7)%nat -> satisfies F exd -> vdot 9 (gcol V k) (of_mat F) = 0).
  { intros k F Hk HF. assert (Q := gsvd_kernel_comp _ _ _ _ _ _ H (of_mat F) k).
    apply Rmult_integral in Q; [|apply (satisfies_kernel F _ exd); [symmetry; apply to_of|auto]|cbn; lia].
    destruct Q as [Q|]; auto. exfalso. pose proof (gsvd_sorted _ _ _ _ _ _ H k 6 ltac:(lia) ltac:(cbn; lia)). lra. }
  assert (S1 : satisfies exF1 exd) by (apply exd_satisfies; lra). assert (S2 : satisfies exF2 exd) by (apply exd_satisfies; lra).
  assert (N11 : vdot 9 (of_mat exF1) (of_mat exF1) = 1) by (unfold vdot, exF1, of_mat; cbn; lra).
  assert (N22 : vdot 9 (of_mat exF2) (of_mat exF2) = 1) by (unfold vdot, exF2, of_mat; cbn; lra).
  assert (N12 : vdot 9 (of_mat exF1) (of_mat exF2) = 0) by (unfold vdot, exF1, exF2, of_mat; cbn; lra).
  assert (C7 : gcol W 7 = of_mat exF2) by reflexivity. assert (C8 : gcol W 8 = of_mat exF1) by reflexivity.
  assert (O : onf 9 9 W).
  { destruct (gsvd_V _ _ _ _ _ _ H) as [G _].
    assert (Cs : forall k, (k < 9)%nat -> (k < 7)%nat \/ k = 7%nat \/ k = 8%nat) by (intros; lia).
    intros i j Hi Hj. destruct (Cs i Hi) as [Li|[ -> | -> ]], (Cs j Hj) as [Lj|[ -> | -> ]]; rewrite ?C7, ?C8, ?(C i), ?(C j) by auto.
    - apply G; lia.
    - rewrite K, delta_diff by (auto; lia). auto.
    - rewrite K, delta_diff by (auto; lia). auto.
    - rewrite vdot_comm, K, delta_diff by (auto; lia). auto.
    - rewrite delta_same. auto.
    - rewrite vdot_comm, delta_diff by lia. auto.
    - rewrite vdot_comm, K, delta_diff by (auto; lia). auto.
    - rewrite delta_diff by lia. auto.
    - rewrite delta_same. auto. }
  exists (fun _ => W). split; [|split; reflexivity]. exists U, s. destruct H as [H1 H2 H3 H4 H5]. constructor; auto.
  - now apply onf_full.
Qed.
Example C49_sevenpt_nonvacuous : exists svdV eig, good_svdV svdV exd /\ good_eig eig /\ length exd = 7%nat /\ independent exd /\
  eps <= Rabs (det (to_mat (gcol (svdV (epiA exd)) 8))) /\ det (to_mat (gcol (svdV (epiA exd)) 7)) <> 0 /\
  satisfies (diag 0 (-1) 2) exd /\ det (diag 0 (-1) 2) = 0 /\ diag 0 (-1) 2 <> mzero.
Proof.
  destruct exd_svd as (svdV & GS & E1 & E2). destruct (choice _ eig_exists) as (eig & He).
  exists svdV, eig. rewrite E1, E2. split; [auto|]. split; [exact He|]. split; [auto|]. split; [apply exd_independent|].
  split; [|split; [|split; [|split]]].
  - assert (D : det exF1 = - (4 / 27)) by (unfold exF1; lunf; lra). rewrite D, Rabs_Ropp, Rabs_pos_eq by lra. unfold eps. lra.
  - assert (D : det exF2 = - (4 / 27)) by (unfold exF2; lunf; lra). rewrite D. lra.
  - apply exd_satisfies. lra.
  - lunf. ring.
  - lunf. intro Q. injection Q. intros. lra.
Qed.
