(** Instances of the gpnp distance systems on which the templates run to the
    end: the hypotheses of C61 are satisfiable, and the five-vector template
    returns a wrong last factor. *)
From Coq Require Import Reals Lra Lia List Arith ZArith Bool Znumtheory.
From Verif Require Import Lin GenLin GbModel GbProps GbMod GpnpData GpnpInit GpnpModel GpnpGb GpnpExData.
Import ListNotations.
Local Open Scope R_scope.

Definition PP : Z := 2147483647%Z.
Definition zvec (l : list Z) : nat -> R := fun i => IZR (nth i l 0%Z).
Definition zpt (l : list Z) : vec3 := V3 (IZR (nth 0 l 0%Z)) (IZR (nth 1 l 0%Z)) (IZR (nth 2 l 0%Z)).
Definition zpts (l : list (list Z)) (i : nat) : vec3 := zpt (nth i l []).

(** the template runs to the end and the listed entries are nonzero *)
Definition zgood (nr nc : nat) (os : list gop) (cells : list (nat * nat * Z)) (piv : list (nat * nat)) : bool :=
  match zcells PP nr nc cells with
  | None => false
  | Some M => match zrun PP os M with
              | None => false
              | Some M => forallb (fun rc => match zdiv PP 1 (mget M (fst rc) (snd rc)) with Some _ => true | None => false end) piv
              end
  end.
Lemma zgood_ok nr nc os cells piv : zgood nr nc os cells piv = true ->
  exists G, grun os (gcells (map (fun e => (fst e, IZR (snd e))) cells)) = Some G /\ forall r c, In (r, c) piv -> G r c <> 0.
Proof.
  unfold zgood. assert (PG : (1 < PP)%Z) by (unfold PP; lia).
  destruct (zcells PP nr nc cells) as [M|] eqn:E; [|discriminate]. destruct (zrun PP os M) as [M'|] eqn:E1; [|discriminate]. intro F.
  destruct (zrun_ok PP PG os _ M M' (zcells_ok PP PG nr nc cells M E) E1) as (G & EG & RG). exists G. split; auto.
  intros r c Hin. rewrite forallb_forall in F. specialize (F (r, c) Hin). cbn [fst snd] in F.
  destruct (zdiv PP 1 (mget M' r c)) as [q|] eqn:D; [|discriminate].
  assert (O : residue PP 1 1). { pose proof (residue_IZR PP PG 1) as O. rewrite Z.mod_1_l in O by lia. exact O. }
  apply (zdiv_ok PP PG 1 (G r c) 1 (mget M' r c) q O (RG r c) D).
Qed.
Lemma odiv_nz x y : y <> 0 -> odiv x y = Some (x / y).
Proof. intro N. unfold odiv. destruct (Req_EM_T y 0); [tauto|auto]. Qed.
Ltac cell_eq := cbv zeta; rewrite !norm_sq; unfold norm2, dot, vsub, zvec, zpts, zpt; cbn [vx vy vz nth map fst snd];
  repeat (apply f_equal2; [apply f_equal2; [reflexivity|ring]|]); reflexivity.
Ltac dists := intros i j H; cbn in H; repeat (destruct H as [H|H]; [injection H as <- <-|]); try contradiction;
  unfold norm2, dot, vsub, cpoint, cpts, zpts, zpt, zvec; cbn -[Rmult Rplus Rminus Ropp IZR]; ring.

(** * 1 null space vector(s) *)
Lemma e1_good : zgood 5 3 g1_compute e1_cells [(3,1)]%nat = true.
Proof. vm_cast_no_check (@eq_refl bool true). Qed.
Lemma e1_init : g1_cells (zvec e1_a) (zvec e1_n) (zpts e1_c 0) (zpts e1_c 1) (zpts e1_c 2) (zpts e1_c 3) = map (fun e => (fst e, IZR (snd e))) e1_cells.
Proof. unfold g1_cells, e1_cells, e1_c, e1_a, e1_n. cell_eq. Qed.
Lemma e1_dist : same_distances (comb1 (zvec e1_a) (zvec e1_n) (zvec e1_x)) (cpts (zpts e1_c 0) (zpts e1_c 1) (zpts e1_c 2) (zpts e1_c 3)) pairs1.
Proof. unfold comb1. dists. Qed.
Lemma e1_run : exists G, grun g1_compute (g1_init (zvec e1_a) (zvec e1_n) (zpts e1_c 0) (zpts e1_c 1) (zpts e1_c 2) (zpts e1_c 3)) = Some G /\ forall r c, In (r, c) [(3,1)]%nat -> G r c <> 0.
Proof. unfold g1_init. rewrite e1_init. exact (zgood_ok _ _ _ _ _ e1_good). Qed.
Example C61_1_nonvacuous : exists fs,
  same_distances (comb1 (zvec e1_a) (zvec e1_n) (zvec e1_x)) (cpts (zpts e1_c 0) (zpts e1_c 1) (zpts e1_c 2) (zpts e1_c 3)) pairs1 /\
  g1_factors (zvec e1_a) (zvec e1_n) (zpts e1_c 0) (zpts e1_c 1) (zpts e1_c 2) (zpts e1_c 3) = Some fs.
Proof.
  destruct e1_run as (G & E & N). unfold g1_factors. rewrite E. cbn [obind]. unfold g1_back.
  repeat (rewrite odiv_nz by (apply N; cbn; tauto); cbn [obind]). eexists. split; [exact e1_dist|reflexivity].
Qed.
(** * 2 null space vector(s) *)
Lemma e2_good : zgood 10 6 g2_compute e2_cells [(8,4); (7,3)]%nat = true.
Proof. vm_cast_no_check (@eq_refl bool true). Qed.
Lemma e2_init : g2_cells (zvec e2_a) (zvec e2_n) (zvec e2_m) (zpts e2_c 0) (zpts e2_c 1) (zpts e2_c 2) (zpts e2_c 3) = map (fun e => (fst e, IZR (snd e))) e2_cells.
Proof. unfold g2_cells, e2_cells, e2_c, e2_a, e2_n, e2_m. cell_eq. Qed.
Lemma e2_dist : same_distances (comb2 (zvec e2_a) (zvec e2_n) (zvec e2_m) (zvec e2_x)) (cpts (zpts e2_c 0) (zpts e2_c 1) (zpts e2_c 2) (zpts e2_c 3)) pairs2.
Proof. unfold comb2. dists. Qed.
Lemma e2_run : exists G, grun g2_compute (g2_init (zvec e2_a) (zvec e2_n) (zvec e2_m) (zpts e2_c 0) (zpts e2_c 1) (zpts e2_c 2) (zpts e2_c 3)) = Some G /\ forall r c, In (r, c) [(8,4); (7,3)]%nat -> G r c <> 0.
Proof. unfold g2_init. rewrite e2_init. exact (zgood_ok _ _ _ _ _ e2_good). Qed.
Example C61_2_nonvacuous : exists fs,
  same_distances (comb2 (zvec e2_a) (zvec e2_n) (zvec e2_m) (zvec e2_x)) (cpts (zpts e2_c 0) (zpts e2_c 1) (zpts e2_c 2) (zpts e2_c 3)) pairs2 /\
  g2_factors (zvec e2_a) (zvec e2_n) (zvec e2_m) (zpts e2_c 0) (zpts e2_c 1) (zpts e2_c 2) (zpts e2_c 3) = Some fs.
Proof.
  destruct e2_run as (G & E & N). unfold g2_factors. rewrite E. cbn [obind]. unfold g2_back.
  repeat (rewrite odiv_nz by (apply N; cbn; tauto); cbn [obind]). eexists. split; [exact e2_dist|reflexivity].
Qed.
(** * 3 null space vector(s) *)
Lemma e3_good : zgood 15 18 g3_compute e3_cells [(13,16); (12,15); (11,14)]%nat = true.
Proof. vm_cast_no_check (@eq_refl bool true). Qed.
Lemma e3_init : g3_cells (zvec e3_a) (zvec e3_n) (zvec e3_m) (zvec e3_k) (zpts e3_c 0) (zpts e3_c 1) (zpts e3_c 2) (zpts e3_c 3) = map (fun e => (fst e, IZR (snd e))) e3_cells.
Proof. unfold g3_cells, e3_cells, e3_c, e3_a, e3_n, e3_m, e3_k. cell_eq. Qed.
Lemma e3_dist : same_distances (comb3 (zvec e3_a) (zvec e3_n) (zvec e3_m) (zvec e3_k) (zvec e3_x)) (cpts (zpts e3_c 0) (zpts e3_c 1) (zpts e3_c 2) (zpts e3_c 3)) pairs3.
Proof. unfold comb3. dists. Qed.
Lemma e3_run : exists G, grun g3_compute (g3_init (zvec e3_a) (zvec e3_n) (zvec e3_m) (zvec e3_k) (zpts e3_c 0) (zpts e3_c 1) (zpts e3_c 2) (zpts e3_c 3)) = Some G /\ forall r c, In (r, c) [(13,16); (12,15); (11,14)]%nat -> G r c <> 0.
Proof. unfold g3_init. rewrite e3_init. exact (zgood_ok _ _ _ _ _ e3_good). Qed.
Example C61_3_nonvacuous : exists fs,
  same_distances (comb3 (zvec e3_a) (zvec e3_n) (zvec e3_m) (zvec e3_k) (zvec e3_x)) (cpts (zpts e3_c 0) (zpts e3_c 1) (zpts e3_c 2) (zpts e3_c 3)) pairs3 /\
  g3_factors (zvec e3_a) (zvec e3_n) (zvec e3_m) (zvec e3_k) (zpts e3_c 0) (zpts e3_c 1) (zpts e3_c 2) (zpts e3_c 3) = Some fs.
Proof.
  destruct e3_run as (G & E & N). unfold g3_factors. rewrite E. cbn [obind]. unfold g3_back.
  repeat (rewrite odiv_nz by (apply N; cbn; tauto); cbn [obind]). eexists. split; [exact e3_dist|reflexivity].
Qed.
(** * 4 null space vector(s) *)
Lemma e4_good : zgood 25 37 g4_compute e4_cells [(23,35); (22,34); (21,33); (20,32)]%nat = true.
Proof. vm_cast_no_check (@eq_refl bool true). Qed.
Lemma e4_init : g4_cells (zvec e4_a) (zvec e4_n) (zvec e4_m) (zvec e4_k) (zvec e4_l) (zpts e4_c 0) (zpts e4_c 1) (zpts e4_c 2) (zpts e4_c 3) = map (fun e => (fst e, IZR (snd e))) e4_cells.
Proof. unfold g4_cells, e4_cells, e4_c, e4_a, e4_n, e4_m, e4_k, e4_l. cell_eq. Qed.
Lemma e4_dist : same_distances (comb4 (zvec e4_a) (zvec e4_n) (zvec e4_m) (zvec e4_k) (zvec e4_l) (zvec e4_x)) (cpts (zpts e4_c 0) (zpts e4_c 1) (zpts e4_c 2) (zpts e4_c 3)) pairs4.
Proof. unfold comb4. dists. Qed.
Lemma e4_run : exists G, grun g4_compute (g4_init (zvec e4_a) (zvec e4_n) (zvec e4_m) (zvec e4_k) (zvec e4_l) (zpts e4_c 0) (zpts e4_c 1) (zpts e4_c 2) (zpts e4_c 3)) = Some G /\ forall r c, In (r, c) [(23,35); (22,34); (21,33); (20,32)]%nat -> G r c <> 0.
Proof. unfold g4_init. rewrite e4_init. exact (zgood_ok _ _ _ _ _ e4_good). Qed.
Example C61_4_nonvacuous : exists fs,
  same_distances (comb4 (zvec e4_a) (zvec e4_n) (zvec e4_m) (zvec e4_k) (zvec e4_l) (zvec e4_x)) (cpts (zpts e4_c 0) (zpts e4_c 1) (zpts e4_c 2) (zpts e4_c 3)) pairs4 /\
  g4_factors (zvec e4_a) (zvec e4_n) (zvec e4_m) (zvec e4_k) (zvec e4_l) (zpts e4_c 0) (zpts e4_c 1) (zpts e4_c 2) (zpts e4_c 3) = Some fs.
Proof.
  destruct e4_run as (G & E & N). unfold g4_factors. rewrite E. cbn [obind]. unfold g4_back.
  repeat (rewrite odiv_nz by (apply N; cbn; tauto); cbn [obind]). eexists. split; [exact e4_dist|reflexivity].
Qed.
(** * 5 null space vector(s) *)
Lemma e5_good : zgood 44 80 g5_compute e5_cells [(42,78); (41,77); (40,76); (39,75); (38,74); (38,76)]%nat = true.
Proof. vm_cast_no_check (@eq_refl bool true). Qed.
Lemma e5_init : g5_cells (zvec e5_a) (zvec e5_n) (zvec e5_m) (zvec e5_k) (zvec e5_l) (zvec e5_p) (zpts e5_c 0) (zpts e5_c 1) (zpts e5_c 2) (zpts e5_c 3) = map (fun e => (fst e, IZR (snd e))) e5_cells.
Proof. unfold g5_cells, e5_cells, e5_c, e5_a, e5_n, e5_m, e5_k, e5_l, e5_p. cell_eq. Qed.
Lemma e5_dist : same_distances (comb5 (zvec e5_a) (zvec e5_n) (zvec e5_m) (zvec e5_k) (zvec e5_l) (zvec e5_p) (zvec e5_x)) (cpts (zpts e5_c 0) (zpts e5_c 1) (zpts e5_c 2) (zpts e5_c 3)) pairs5.
Proof. unfold comb5. dists. Qed.
Lemma e5_run : exists G, grun g5_compute (g5_init (zvec e5_a) (zvec e5_n) (zvec e5_m) (zvec e5_k) (zvec e5_l) (zvec e5_p) (zpts e5_c 0) (zpts e5_c 1) (zpts e5_c 2) (zpts e5_c 3)) = Some G /\ forall r c, In (r, c) [(42,78); (41,77); (40,76); (39,75); (38,74); (38,76)]%nat -> G r c <> 0.
Proof. unfold g5_init. rewrite e5_init. exact (zgood_ok _ _ _ _ _ e5_good). Qed.
Example C61_5_nonvacuous : exists fs,
  same_distances (comb5 (zvec e5_a) (zvec e5_n) (zvec e5_m) (zvec e5_k) (zvec e5_l) (zvec e5_p) (zvec e5_x)) (cpts (zpts e5_c 0) (zpts e5_c 1) (zpts e5_c 2) (zpts e5_c 3)) pairs5 /\
  g5_factors (zvec e5_a) (zvec e5_n) (zvec e5_m) (zvec e5_k) (zvec e5_l) (zvec e5_p) (zpts e5_c 0) (zpts e5_c 1) (zpts e5_c 2) (zpts e5_c 3) = Some fs.
Proof.
  destruct e5_run as (G & E & N). unfold g5_factors. rewrite E. cbn [obind]. unfold g5_back.
  repeat (rewrite odiv_nz by (apply N; cbn; tauto); cbn [obind]). eexists. split; [exact e5_dist|reflexivity].
Qed.

(** The five-vector stage does not return the solution: its last factor is wrong. *)
Theorem C61_five_vectors_refuted : exists a n m k l p c0 c1 c2 c3 x fs,
  same_distances (comb5 a n m k l p x) (cpts c0 c1 c2 c3) pairs5 /\
  g5_factors a n m k l p c0 c1 c2 c3 = Some fs /\
  fs <> [x 0%nat; x 1%nat; x 2%nat; x 3%nat; x 4%nat].
Proof.
  destruct C61_5_nonvacuous as (fs & D & F).
  exists (zvec e5_a), (zvec e5_n), (zvec e5_m), (zvec e5_k), (zvec e5_l), (zvec e5_p), (zpts e5_c 0), (zpts e5_c 1), (zpts e5_c 2), (zpts e5_c 3), (zvec e5_x), fs.
  split; [exact D|]. split; [exact F|]. destruct (C61_five_vectors _ _ _ _ _ _ _ _ _ _ _ _ D F) as (G & E & N & ->).
  destruct e5_run as (G' & E' & N'). rewrite E in E'. injection E' as <-.
  assert (N2 : G 38%nat 76%nat <> 0) by (apply N'; cbn; tauto).
  intro H. injection H as H. unfold zvec in H. cbn in H.
  assert (K : G 38%nat 76%nat * (IZR (nth 2 e5_x 0%Z) - IZR (nth 1 e5_x 0%Z)) / G 38%nat 74%nat = 0) by (cbn; lra). cbn in K.
  apply Rmult_integral in K as [K|K]; [|now apply (Rinv_neq_0_compat _ N)]. apply Rmult_integral in K as [K|K]; [tauto|lra].
Qed.
