(** C62: gpnp passes the same point for all four control points to the
    elimination templates of its null space stages. *)
From Coq Require Import Reals Lra Lia List Arith ZArith Bool Znumtheory.
From Verif Require Import Lin GenLin GbModel GbProps GbMod GpnpData GpnpInit GpnpModel GpnpGb GpnpExData GpnpExamples.
Import ListNotations.
Local Open Scope R_scope.

(** as [zgood]; moreover entry (r,c) times x plus entry (r,c+1) is not zero *)
Definition zmiss (nr nc : nat) (os : list gop) (cells : list (nat * nat * Z)) (piv : list (nat * nat)) (r c : nat) (x : Z) : bool :=
  match zcells PP nr nc cells with
  | None => false
  | Some M => match zrun PP os M with
              | None => false
              | Some M => forallb (fun rc => match zdiv PP 1 (mget M (fst rc) (snd rc)) with Some _ => true | None => false end) piv
                  && match zdiv PP 1 (mget M r c * x - (0 - mget M r (S c))) with Some _ => true | None => false end
              end
  end.
Lemma zmiss_ok nr nc os cells piv r c x : zmiss nr nc os cells piv r c x = true ->
  exists G, grun os (gcells (map (fun e => (fst e, IZR (snd e))) cells)) = Some G /\ (forall r c, In (r, c) piv -> G r c <> 0) /\
    G r c * IZR x + G r (S c) <> 0.
Proof.
  unfold zmiss. assert (PG : (1 < PP)%Z) by (unfold PP; lia).
  destruct (zcells PP nr nc cells) as [M|] eqn:E; [|discriminate]. destruct (zrun PP os M) as [M'|] eqn:E1; [|discriminate]. intro F.
  apply andb_prop in F as [F F2].
  destruct (zrun_ok PP PG os _ M M' (zcells_ok PP PG nr nc cells M E) E1) as (G & EG & RG). exists G. split; auto.
  assert (O : residue PP 1 1). { pose proof (residue_IZR PP PG 1) as O. rewrite Z.mod_1_l in O by lia. exact O. }
  split.
  - intros r' c' Hin. rewrite forallb_forall in F. specialize (F (r', c') Hin). cbn [fst snd] in F.
    destruct (zdiv PP 1 (mget M' r' c')) as [q|] eqn:D; [|discriminate].
    apply (zdiv_ok PP PG 1 (G r' c') 1 (mget M' r' c') q O (RG r' c') D).
  - match type of F2 with match ?z with _ => _ end = _ => destruct z as [q|] eqn:D; [|discriminate] end.
    assert (X : residue PP (IZR x) x) by (exists x, 1%Z; split; [apply rel_prime_1 || (apply rel_prime_sym, rel_prime_1)|split; [lra|exists 0%Z; lia]]).
    assert (T : residue PP (G r c * IZR x - (0 - G r (S c))) (mget M' r c * x - (0 - mget M' r (S c)))).
    { apply residue_sub; [|apply residue_sub; [apply residue_0|apply RG]]; auto. apply residue_mul; auto. }
    replace (G r c * IZR x + G r (S c)) with (G r c * IZR x - (0 - G r (S c))) by ring.
    apply (zdiv_ok PP PG 1 _ 1 _ q O T D).
Qed.

(** The starting coefficients do not depend on where the other three control points are. *)
Theorem C62_only_first_point : forall a V c c' k, c 0%nat = c' 0%nat -> stage a V c k = stage a V c' k.
Proof. intros a V c c' k H. unfold stage. rewrite H. reflexivity. Qed.


(** * 1 null space vector(s) *)
Definition e1_V : nat -> nat -> R := fun j c => match c with | 11%nat => zvec e1_n j | _ => 0 end.
Lemma e1_miss : zmiss 5 3 g1_compute e1_cells0 [(3,1)]%nat 3 1 (nth 0 e1_x 0%Z) = true.
Proof. vm_cast_no_check (@eq_refl bool true). Qed.
Lemma e1_init0 : g1_cells (zvec e1_a) (zvec e1_n) (zpts e1_c 0) (zpts e1_c 0) (zpts e1_c 0) (zpts e1_c 0) = map (fun e => (fst e, IZR (snd e))) e1_cells0.
Proof. unfold g1_cells, e1_cells0, e1_c, e1_a, e1_n. cell_eq. Qed.
Lemma e1_wrong : exists fs, same_distances (combine (zvec e1_a) e1_V (map IZR e1_x)) (zpts e1_c) pairs5 /\
  stage (zvec e1_a) e1_V (zpts e1_c) 1 = Some fs /\ fs <> map IZR e1_x.
Proof.
  destruct (zmiss_ok _ _ _ _ _ _ _ _ e1_miss) as (G & E & N & W). rewrite <- e1_init0 in E.
  unfold stage, g1_factors. change (grun g1_compute (g1_init (zvec e1_a) (gcol e1_V 11) (zpts e1_c 0) (zpts e1_c 0) (zpts e1_c 0) (zpts e1_c 0))) with (grun g1_compute (gcells (g1_cells (zvec e1_a) (zvec e1_n) (zpts e1_c 0) (zpts e1_c 0) (zpts e1_c 0) (zpts e1_c 0)))).
  rewrite E. cbn [obind]. unfold g1_back.
  repeat (rewrite odiv_nz by (apply N; cbn; tauto); cbn [obind]). eexists. split; [|split; [reflexivity|]].
  - unfold combine, e1_V, e1_x. cbn [map length]. dists.
  - intro H. injection H as H. apply W. assert (NZ : G 3%nat 1%nat <> 0) by (apply N; cbn; tauto).
    match type of H with - ?p / ?q = _ => assert (K : - p = IZR (nth 0 e1_x 0%Z) * q) by (unfold e1_x; cbn [nth]; rewrite <- H; field; exact NZ) end. cbn -[IZR] in K |- *. lra.
Qed.
(** * 2 null space vector(s) *)
Definition e2_V : nat -> nat -> R := fun j c => match c with | 10%nat => zvec e2_n j | 11%nat => zvec e2_m j | _ => 0 end.
Lemma e2_miss : zmiss 10 6 g2_compute e2_cells0 [(8,4); (7,3)]%nat 8 4 (nth 0 e2_x 0%Z) = true.
Proof. vm_cast_no_check (@eq_refl bool true). Qed.
Lemma e2_init0 : g2_cells (zvec e2_a) (zvec e2_n) (zvec e2_m) (zpts e2_c 0) (zpts e2_c 0) (zpts e2_c 0) (zpts e2_c 0) = map (fun e => (fst e, IZR (snd e))) e2_cells0.
Proof. unfold g2_cells, e2_cells0, e2_c, e2_a, e2_n, e2_m. cell_eq. Qed.
Lemma e2_wrong : exists fs, same_distances (combine (zvec e2_a) e2_V (map IZR e2_x)) (zpts e2_c) pairs5 /\
  stage (zvec e2_a) e2_V (zpts e2_c) 2 = Some fs /\ fs <> map IZR e2_x.
Proof.
  destruct (zmiss_ok _ _ _ _ _ _ _ _ e2_miss) as (G & E & N & W). rewrite <- e2_init0 in E.
  unfold stage, g2_factors. change (grun g2_compute (g2_init (zvec e2_a) (gcol e2_V 10) (gcol e2_V 11) (zpts e2_c 0) (zpts e2_c 0) (zpts e2_c 0) (zpts e2_c 0))) with (grun g2_compute (gcells (g2_cells (zvec e2_a) (zvec e2_n) (zvec e2_m) (zpts e2_c 0) (zpts e2_c 0) (zpts e2_c 0) (zpts e2_c 0)))).
  rewrite E. cbn [obind]. unfold g2_back.
  repeat (rewrite odiv_nz by (apply N; cbn; tauto); cbn [obind]). eexists. split; [|split; [reflexivity|]].
  - unfold combine, e2_V, e2_x. cbn [map length]. dists.
  - intro H. injection H as H. apply W. assert (NZ : G 8%nat 4%nat <> 0) by (apply N; cbn; tauto).
    match type of H with - ?p / ?q = _ => assert (K : - p = IZR (nth 0 e2_x 0%Z) * q) by (unfold e2_x; cbn [nth]; rewrite <- H; field; exact NZ) end. cbn -[IZR] in K |- *. lra.
Qed.
(** * 3 null space vector(s) *)
Definition e3_V : nat -> nat -> R := fun j c => match c with | 9%nat => zvec e3_n j | 10%nat => zvec e3_m j | 11%nat => zvec e3_k j | _ => 0 end.
Lemma e3_miss : zmiss 15 18 g3_compute e3_cells0 [(13,16); (12,15); (11,14)]%nat 13 16 (nth 0 e3_x 0%Z) = true.
Proof. vm_cast_no_check (@eq_refl bool true). Qed.
Lemma e3_init0 : g3_cells (zvec e3_a) (zvec e3_n) (zvec e3_m) (zvec e3_k) (zpts e3_c 0) (zpts e3_c 0) (zpts e3_c 0) (zpts e3_c 0) = map (fun e => (fst e, IZR (snd e))) e3_cells0.
Proof. unfold g3_cells, e3_cells0, e3_c, e3_a, e3_n, e3_m, e3_k. cell_eq. Qed.
Lemma e3_wrong : exists fs, same_distances (combine (zvec e3_a) e3_V (map IZR e3_x)) (zpts e3_c) pairs5 /\
  stage (zvec e3_a) e3_V (zpts e3_c) 3 = Some fs /\ fs <> map IZR e3_x.
Proof.
  destruct (zmiss_ok _ _ _ _ _ _ _ _ e3_miss) as (G & E & N & W). rewrite <- e3_init0 in E.
  unfold stage, g3_factors. change (grun g3_compute (g3_init (zvec e3_a) (gcol e3_V 9) (gcol e3_V 10) (gcol e3_V 11) (zpts e3_c 0) (zpts e3_c 0) (zpts e3_c 0) (zpts e3_c 0))) with (grun g3_compute (gcells (g3_cells (zvec e3_a) (zvec e3_n) (zvec e3_m) (zvec e3_k) (zpts e3_c 0) (zpts e3_c 0) (zpts e3_c 0) (zpts e3_c 0)))).
  rewrite E. cbn [obind]. unfold g3_back.
  repeat (rewrite odiv_nz by (apply N; cbn; tauto); cbn [obind]). eexists. split; [|split; [reflexivity|]].
  - unfold combine, e3_V, e3_x. cbn [map length]. dists.
  - intro H. injection H as H. apply W. assert (NZ : G 13%nat 16%nat <> 0) by (apply N; cbn; tauto).
    match type of H with - ?p / ?q = _ => assert (K : - p = IZR (nth 0 e3_x 0%Z) * q) by (unfold e3_x; cbn [nth]; rewrite <- H; field; exact NZ) end. cbn -[IZR] in K |- *. lra.
Qed.
(** * 4 null space vector(s) *)
Definition e4_V : nat -> nat -> R := fun j c => match c with | 8%nat => zvec e4_n j | 9%nat => zvec e4_m j | 10%nat => zvec e4_k j | 11%nat => zvec e4_l j | _ => 0 end.
Lemma e4_miss : zmiss 25 37 g4_compute e4_cells0 [(23,35); (22,34); (21,33); (20,32)]%nat 23 35 (nth 0 e4_x 0%Z) = true.
Proof. vm_cast_no_check (@eq_refl bool true). Qed.
Lemma e4_init0 : g4_cells (zvec e4_a) (zvec e4_n) (zvec e4_m) (zvec e4_k) (zvec e4_l) (zpts e4_c 0) (zpts e4_c 0) (zpts e4_c 0) (zpts e4_c 0) = map (fun e => (fst e, IZR (snd e))) e4_cells0.
Proof. unfold g4_cells, e4_cells0, e4_c, e4_a, e4_n, e4_m, e4_k, e4_l. cell_eq. Qed.
Lemma e4_wrong : exists fs, same_distances (combine (zvec e4_a) e4_V (map IZR e4_x)) (zpts e4_c) pairs5 /\
  stage (zvec e4_a) e4_V (zpts e4_c) 4 = Some fs /\ fs <> map IZR e4_x.
Proof.
  destruct (zmiss_ok _ _ _ _ _ _ _ _ e4_miss) as (G & E & N & W). rewrite <- e4_init0 in E.
  unfold stage, g4_factors. change (grun g4_compute (g4_init (zvec e4_a) (gcol e4_V 8) (gcol e4_V 9) (gcol e4_V 10) (gcol e4_V 11) (zpts e4_c 0) (zpts e4_c 0) (zpts e4_c 0) (zpts e4_c 0))) with (grun g4_compute (gcells (g4_cells (zvec e4_a) (zvec e4_n) (zvec e4_m) (zvec e4_k) (zvec e4_l) (zpts e4_c 0) (zpts e4_c 0) (zpts e4_c 0) (zpts e4_c 0)))).
  rewrite E. cbn [obind]. unfold g4_back.
  repeat (rewrite odiv_nz by (apply N; cbn; tauto); cbn [obind]). eexists. split; [|split; [reflexivity|]].
  - unfold combine, e4_V, e4_x. cbn [map length]. dists.
  - intro H. injection H as H. apply W. assert (NZ : G 23%nat 35%nat <> 0) by (apply N; cbn; tauto).
    match type of H with - ?p / ?q = _ => assert (K : - p = IZR (nth 0 e4_x 0%Z) * q) by (unfold e4_x; cbn [nth]; rewrite <- H; field; exact NZ) end. cbn -[IZR] in K |- *. lra.
Qed.
(** For one to four null space vectors there are an intercept, null space
    vectors and distinct control points for which correct coefficients exist but
    gpnp starts from others. *)
Theorem C62_coincident_points_refuted : forall k, (1 <= k <= 4)%nat -> exists a V c x fs,
  length x = k /\ same_distances (combine a V x) c pairs5 /\ stage a V c k = Some fs /\ fs <> x.
Proof.
  intros k K. assert (E : k = 1%nat \/ k = 2%nat \/ k = 3%nat \/ k = 4%nat) by lia.
  destruct E as [E | [E | [E | E]]]; subst k.
  - destruct e1_wrong as (fs & H). exists (zvec e1_a), e1_V, (zpts e1_c), (map IZR e1_x), fs. split; [reflexivity|exact H].
  - destruct e2_wrong as (fs & H). exists (zvec e2_a), e2_V, (zpts e2_c), (map IZR e2_x), fs. split; [reflexivity|exact H].
  - destruct e3_wrong as (fs & H). exists (zvec e3_a), e3_V, (zpts e3_c), (map IZR e3_x), fs. split; [reflexivity|exact H].
  - destruct e4_wrong as (fs & H). exists (zvec e4_a), e4_V, (zpts e4_c), (map IZR e4_x), fs. split; [reflexivity|exact H].
Qed.
