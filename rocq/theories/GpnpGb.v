(** The gpnp templates solve the control point distance equations. *)
From Coq Require Import Reals Lra Lia List Arith Bool.
From Verif Require Import Lin GenLin GbModel GbProps GpnpData GpnpInit GpnpModel.
Import ListNotations.
Local Open Scope R_scope.

(** * Specification *)
(** The control points a + sum_i x_i v_i in the camera frame have the same
    mutual distances as the world control points, for the listed pairs. *)
Definition same_distances (s : nat -> R) (c : nat -> vec3) (pairs : list (nat * nat)) : Prop :=
  forall i j, In (i, j) pairs -> norm2 (vsub (cpoint s i) (cpoint s j)) = norm2 (vsub (c i) (c j)).
Definition dist_poly (s : nat -> R) (c : nat -> vec3) (pq : nat * nat) : R :=
  norm2 (vsub (cpoint s (fst pq)) (cpoint s (snd pq))) - norm2 (vsub (c (fst pq)) (c (snd pq))).
Definition cpts (c0 c1 c2 c3 : vec3) (i : nat) : vec3 := nth i [c0; c1; c2; c3] v0.

(** * Cells *)
Definition supp0 (nr nc : nat) (keys : list (nat * nat)) : supp :=
  map (fun r => map (fun c => existsb (fun k => Nat.eqb (fst k) r && Nat.eqb (snd k) c) keys) (seq 0 nc)) (seq 0 nr).
Fixpoint keys_ok (nc : nat) (keys : list (nat * nat)) : bool :=
  match keys with
  | [] => true
  | k :: ks => Nat.ltb (snd k) nc && negb (existsb (fun k' => Nat.eqb (fst k') (fst k) && Nat.eqb (snd k') (snd k)) ks) && keys_ok nc ks
  end.
Lemma nth_map_seq {A} (f : nat -> A) n k d : (k < n)%nat -> nth k (map f (seq 0 n)) d = f k.
Proof. intro H. rewrite nth_indep with (d' := f 0%nat) by (now rewrite map_length, seq_length). now rewrite map_nth, seq_nth. Qed.
Lemma sget_supp0 nr nc keys r c : (r < nr)%nat -> (c < nc)%nat ->
  sget (supp0 nr nc keys) r c = existsb (fun k => Nat.eqb (fst k) r && Nat.eqb (snd k) c) keys.
Proof. intros Hr Hc. unfold sget, supp0. rewrite nth_map_seq by auto. now rewrite nth_map_seq. Qed.
Definition cell_sum (es : list (list nat)) (x : nat -> R) (l : list (nat * nat * R)) (r : nat) : R :=
  fold_right (fun e acc => (if Nat.eqb (fst (fst e)) r then snd e * mono x 0 (nth (snd (fst e)) es []) else 0) + acc) 0 l.

Lemma gcells_fold l : forall G r c, existsb (fun k => Nat.eqb (fst k) r && Nat.eqb (snd k) c) (map fst l) = false ->
  fold_left (fun G e => gset G (fst (fst e)) (snd (fst e)) (snd e)) l G r c = G r c.
Proof.
  induction l as [|[[a b] v] l IH]; cbn; intros G r c H; auto. apply orb_false_iff in H as [H1 H2]. rewrite IH by auto.
  unfold gset. rewrite (Nat.eqb_sym r a), (Nat.eqb_sym c b), H1. reflexivity.
Qed.
Lemma cells_value nc es x l : keys_ok nc (map fst l) = true -> forall G r,
  (forall c, existsb (fun k => Nat.eqb (fst k) r && Nat.eqb (snd k) c) (map fst l) = true -> G r c = 0) ->
  row_value nc es x (fold_left (fun G e => gset G (fst (fst e)) (snd (fst e)) (snd e)) l G) r = row_value nc es x G r + cell_sum es x l r.
Proof.
  induction l as [|[[a b] v] l IH]; cbn [map fst snd keys_ok fold_left cell_sum fold_right]; intros K G r Z; [ring|].
  apply andb_prop in K as [K K3]. apply andb_prop in K as [K1 K2]. apply Nat.ltb_lt in K1. apply negb_true_iff in K2.
  rewrite IH; auto.
  - fold (cell_sum es x l r). destruct (Nat.eqb_spec a r) as [->|N].
    + assert (G r b = 0) by (apply Z; cbn; now rewrite !Nat.eqb_refl).
      unfold row_value. rewrite (sumn_ext _ _ (fun c => G r c * mono x 0 (nth c es []) + at_col b c v * mono x 0 (nth c es []))).
      * rewrite sumn_add. rewrite (sumn_at nc b v (fun c => mono x 0 (nth c es []))) by auto. ring.
      * intros c Hc. rewrite gset_row. unfold at_col. destruct (Nat.eqb_spec c b) as [->|]; [rewrite H|]; ring.
    + unfold row_value. rewrite (sumn_ext _ _ (fun c => G r c * mono x 0 (nth c es []))); [ring|].
      intros c Hc. rewrite gset_other by auto. reflexivity.
  - intros c Hc. unfold gset. destruct (Nat.eqb r a && Nat.eqb c b) eqn:E.
    + apply andb_prop in E as [E1 E2]. apply Nat.eqb_eq in E1, E2. subst. congruence.
    + apply Z. cbn. rewrite Hc. now rewrite orb_true_r.
Qed.
Lemma gcells_value nc es x l r : keys_ok nc (map fst l) = true -> row_value nc es x (gcells l) r = cell_sum es x l r.
Proof.
  intro K. unfold gcells. rewrite cells_value by auto. unfold row_value at 1. rewrite sumn_0; [ring|]. intros; cbv beta; ring.
Qed.

(** A template that passes the checker: whatever the initial rows vanish at,
    the final rows vanish at, and they have the computed supports. *)
Lemma template nr nc nv es os l x G' st' :
  keys_ok nc (map fst l) = true ->
  gcheck nr nc nv es os (supp0 nr nc (map fst l), []) = Some st' ->
  (forall r, (r < nr)%nat -> cell_sum es x l r = 0) ->
  grun os (gcells l) = Some G' -> ginv nr nc es x G' st'.
Proof.
  intros K C Z E. eapply gcheck_sound; eauto. split; cbn [fst snd].
  - unfold supp0. now rewrite map_length, seq_length.
  - intros r c Hr Hc H. rewrite sget_supp0 in H by auto. unfold gcells. now rewrite gcells_fold.
  - intros r c [].
  - intros r Hr. rewrite gcells_value by auto. auto.
Qed.
(** the rows listed in [tails] as (row, k) are zero before column k *)
Definition gcheck_tails (nr nc nv : nat) (es : list (list nat)) (os : list gop) (keys tails : list (nat * nat)) : bool :=
  match gcheck nr nc nv es os (supp0 nr nc keys, []) with
  | Some st => forallb (fun rk => Nat.ltb (fst rk) nr && forallb (fun c => negb (sget (fst st) (fst rk) c)) (seq 0 (snd rk))) tails
  | None => false
  end.
(** the last n columns of a row *)
Lemma template_tail nr nc nv es os l x G tails : keys_ok nc (map fst l) = true ->
  gcheck_tails nr nc nv es os (map fst l) tails = true ->
  (forall r, (r < nr)%nat -> cell_sum es x l r = 0) -> grun os (gcells l) = Some G ->
  forall r k n, In (r, k) tails -> (k + n)%nat = nc ->
  sumn n (fun i => G r (k + i)%nat * mono x 0 (nth (k + i) es [])) = 0.
Proof.
  intros K C Zc Rn r k n Hin E. unfold gcheck_tails in C.
  destruct (gcheck nr nc nv es os (supp0 nr nc (map fst l), [])) as [st|] eqn:Ck; [|discriminate].
  rewrite forallb_forall in C. specialize (C (r, k) Hin). cbn [fst snd] in C. apply andb_prop in C as [Hr F]. apply Nat.ltb_lt in Hr.
  destruct (template nr nc nv es os l x G st K Ck Zc Rn) as [L Z _ Rw].
  rewrite <- (Rw r Hr). unfold row_value. rewrite <- E, sumn_split. rewrite (sumn_0 k); [ring|].
  intros c Hc. rewrite Z; auto; [ring|lia|]. rewrite forallb_forall in F. specialize (F c). rewrite in_seq in F.
  apply negb_true_iff, F. lia.
Qed.
Lemma odiv_some x y z : odiv x y = Some z -> y <> 0 /\ z = x / y.
Proof. unfold odiv. destruct (Req_EM_T y 0); [discriminate|]. intro H. injection H as <-. auto. Qed.
Lemma odiv_root p q u z : odiv (- q) p = Some z -> p * u + q = 0 -> z = u.
Proof. intros H E. apply odiv_some in H as [N ->]. replace q with (- (p * u)) by lra. field. auto. Qed.
Lemma norm_sq v : norm v * norm v = norm2 v.
Proof. unfold norm. apply sqrt_sqrt. unfold norm2, dot. nra. Qed.

(** * The five templates *)
Ltac cells := cbn -[Rmult Rplus Rminus Ropp pow norm vsub norm2 cpoint cpts mono]; unfold cpts, dist_poly; cbn [nth fst snd mono];
  rewrite ?norm_sq; unfold norm2, dot, vsub, cpoint; cbn [vx vy vz Nat.mul Nat.add pow].
(** one back substitution step *)
Ltac solve_back1 :=
  match goal with F : obind (odiv ?p ?q) _ = Some _ |- _ =>
    let z := fresh "z" in let O := fresh "O" in
    destruct (odiv p q) as [z|] eqn:O; [|discriminate F]; cbn [obind] in F;
    match goal with E : q * ?u + _ = 0 |- _ => replace z with u in * by (symmetry; eapply (odiv_root q _ u z O); lra)
    | E : q * ?u + _ + _ = 0 |- _ => replace z with u in * by (symmetry; eapply (odiv_root q _ u z O); lra)
    | E : q * ?u + _ + _ + _ = 0 |- _ => replace z with u in * by (symmetry; eapply (odiv_root q _ u z O); lra)
    | E : q * ?u + _ + _ + _ + _ = 0 |- _ => replace z with u in * by (symmetry; eapply (odiv_root q _ u z O); lra)
    end; clear O; try clear z
  end.
Ltac solve_back := repeat solve_back1.

(** the control points for 1 null space vector(s), and the pairs of control points whose distances are used *)
Definition comb1 (a n x : nat -> R) : nat -> R := fun i => a i + x 0%nat * n i.
Definition pairs1 : list (nat * nat) := [(0,1);(0,2);(0,3)]%nat.
Lemma g1_rows a n c0 c1 c2 c3 x r : (r < 3)%nat ->
  cell_sum g1_mon x (g1_cells a n c0 c1 c2 c3) r = dist_poly (comb1 a n x) (cpts c0 c1 c2 c3) (nth r pairs1 (0,0)%nat).
Proof. intro H. do 3 (destruct r as [|r]; [cells; unfold comb1; ring|]). lia. Qed.
Lemma g1_rows0 a n c0 c1 c2 c3 x r : (3 <= r)%nat -> cell_sum g1_mon x (g1_cells a n c0 c1 c2 c3) r = 0.
Proof. intro H. do 3 (destruct r as [|r]; [lia|]). cbn -[Rmult Rplus Rminus Ropp pow norm vsub mono]. ring. Qed.
Definition g1_tails : list (nat * nat) := [(3,1)]%nat.
Lemma g1_checks : gcheck_tails 5 3 1 g1_mon g1_compute g1_keys g1_tails = true.
Proof. vm_cast_no_check (@eq_refl bool true). Qed.
Lemma g1_tail a n c0 c1 c2 c3 x G : same_distances (comb1 a n x) (cpts c0 c1 c2 c3) pairs1 ->
  grun g1_compute (g1_init a n c0 c1 c2 c3) = Some G ->
  forall r k n, In (r, k) g1_tails -> (k + n)%nat = 3%nat -> sumn n (fun i => G r (k + i)%nat * mono x 0 (nth (k + i) g1_mon [])) = 0.
Proof.
  intros D E. apply (template_tail 5 3 1 g1_mon g1_compute (g1_cells a n c0 c1 c2 c3)).
  - change (map fst (g1_cells a n c0 c1 c2 c3)) with g1_keys. vm_compute. reflexivity.
  - exact g1_checks.
  - intros r Hr. destruct (Nat.lt_ge_cases r 3) as [L|L]; [|now apply g1_rows0].
    rewrite g1_rows by auto. unfold dist_poly. rewrite (D (fst (nth r pairs1 (0,0)%nat)) (snd (nth r pairs1 (0,0)%nat))); [ring|].
    rewrite <- surjective_pairing. apply nth_In. exact L.
  - exact E.
Qed.

(** 1 null space vector(s): the factors are the coordinates of every solution *)
Theorem C61_one_vector : forall a n c0 c1 c2 c3 x fs,
  same_distances (comb1 a n x) (cpts c0 c1 c2 c3) pairs1 ->
  g1_factors a n c0 c1 c2 c3 = Some fs -> fs = [x 0%nat].
Proof.
  intros a n c0 c1 c2 c3 x fs D F. unfold g1_factors in F.
  destruct (grun g1_compute (g1_init a n c0 c1 c2 c3)) as [G|] eqn:E; [|discriminate]. cbn [obind] in F.
  pose proof (g1_tail a n c0 c1 c2 c3 x G D E) as T.
  assert (E0 : G 3%nat 1%nat * x 0%nat + G 3%nat 2%nat = 0).
  { pose proof (T 3%nat 1%nat 2%nat ltac:(cbn; tauto) eq_refl) as Q. cbn [sumn Nat.add g1_mon nth mono pow] in Q. lra. }
  clear T E D. unfold g1_back in F. solve_back. injection F as <-. reflexivity.
Qed.
(** the control points for 2 null space vector(s), and the pairs of control points whose distances are used *)
Definition comb2 (a n m x : nat -> R) : nat -> R := fun i => a i + x 0%nat * n i + x 1%nat * m i.
Definition pairs2 : list (nat * nat) := [(0,1);(0,2);(0,3);(1,2);(1,3)]%nat.
Lemma g2_rows a n m c0 c1 c2 c3 x r : (r < 5)%nat ->
  cell_sum g2_mon x (g2_cells a n m c0 c1 c2 c3) r = dist_poly (comb2 a n m x) (cpts c0 c1 c2 c3) (nth r pairs2 (0,0)%nat).
Proof. intro H. do 5 (destruct r as [|r]; [cells; unfold comb2; ring|]). lia. Qed.
Lemma g2_rows0 a n m c0 c1 c2 c3 x r : (5 <= r)%nat -> cell_sum g2_mon x (g2_cells a n m c0 c1 c2 c3) r = 0.
Proof. intro H. do 5 (destruct r as [|r]; [lia|]). cbn -[Rmult Rplus Rminus Ropp pow norm vsub mono]. ring. Qed.
Definition g2_tails : list (nat * nat) := [(8,4); (7,3)]%nat.
Lemma g2_checks : gcheck_tails 10 6 2 g2_mon g2_compute g2_keys g2_tails = true.
Proof. vm_cast_no_check (@eq_refl bool true). Qed.
Lemma g2_tail a n m c0 c1 c2 c3 x G : same_distances (comb2 a n m x) (cpts c0 c1 c2 c3) pairs2 ->
  grun g2_compute (g2_init a n m c0 c1 c2 c3) = Some G ->
  forall r k n, In (r, k) g2_tails -> (k + n)%nat = 6%nat -> sumn n (fun i => G r (k + i)%nat * mono x 0 (nth (k + i) g2_mon [])) = 0.
Proof.
  intros D E. apply (template_tail 10 6 2 g2_mon g2_compute (g2_cells a n m c0 c1 c2 c3)).
  - change (map fst (g2_cells a n m c0 c1 c2 c3)) with g2_keys. vm_compute. reflexivity.
  - exact g2_checks.
  - intros r Hr. destruct (Nat.lt_ge_cases r 5) as [L|L]; [|now apply g2_rows0].
    rewrite g2_rows by auto. unfold dist_poly. rewrite (D (fst (nth r pairs2 (0,0)%nat)) (snd (nth r pairs2 (0,0)%nat))); [ring|].
    rewrite <- surjective_pairing. apply nth_In. exact L.
  - exact E.
Qed.

(** 2 null space vector(s): the factors are the coordinates of every solution *)
Theorem C61_two_vectors : forall a n m c0 c1 c2 c3 x fs,
  same_distances (comb2 a n m x) (cpts c0 c1 c2 c3) pairs2 ->
  g2_factors a n m c0 c1 c2 c3 = Some fs -> fs = [x 0%nat; x 1%nat].
Proof.
  intros a n m c0 c1 c2 c3 x fs D F. unfold g2_factors in F.
  destruct (grun g2_compute (g2_init a n m c0 c1 c2 c3)) as [G|] eqn:E; [|discriminate]. cbn [obind] in F.
  pose proof (g2_tail a n m c0 c1 c2 c3 x G D E) as T.
  assert (E0 : G 8%nat 4%nat * x 0%nat + G 8%nat 5%nat = 0).
  { pose proof (T 8%nat 4%nat 2%nat ltac:(cbn; tauto) eq_refl) as Q. cbn [sumn Nat.add g2_mon nth mono pow] in Q. lra. }
  assert (E1 : G 7%nat 3%nat * x 1%nat + G 7%nat 4%nat * x 0%nat + G 7%nat 5%nat = 0).
  { pose proof (T 7%nat 3%nat 3%nat ltac:(cbn; tauto) eq_refl) as Q. cbn [sumn Nat.add g2_mon nth mono pow] in Q. lra. }
  clear T E D. unfold g2_back in F. solve_back. injection F as <-. reflexivity.
Qed.
(** the control points for 3 null space vector(s), and the pairs of control points whose distances are used *)
Definition comb3 (a n m k x : nat -> R) : nat -> R := fun i => a i + x 0%nat * n i + x 1%nat * m i + x 2%nat * k i.
Definition pairs3 : list (nat * nat) := [(0,1);(0,2);(0,3);(1,2)]%nat.
Lemma g3_rows a n m k c0 c1 c2 c3 x r : (r < 4)%nat ->
  cell_sum g3_mon x (g3_cells a n m k c0 c1 c2 c3) r = dist_poly (comb3 a n m k x) (cpts c0 c1 c2 c3) (nth r pairs3 (0,0)%nat).
Proof. intro H. do 4 (destruct r as [|r]; [cells; unfold comb3; ring|]). lia. Qed.
Lemma g3_rows0 a n m k c0 c1 c2 c3 x r : (4 <= r)%nat -> cell_sum g3_mon x (g3_cells a n m k c0 c1 c2 c3) r = 0.
Proof. intro H. do 4 (destruct r as [|r]; [lia|]). cbn -[Rmult Rplus Rminus Ropp pow norm vsub mono]. ring. Qed.
Definition g3_tails : list (nat * nat) := [(13,16); (12,15); (11,14)]%nat.
Lemma g3_checks : gcheck_tails 15 18 3 g3_mon g3_compute g3_keys g3_tails = true.
Proof. vm_cast_no_check (@eq_refl bool true). Qed.
Lemma g3_tail a n m k c0 c1 c2 c3 x G : same_distances (comb3 a n m k x) (cpts c0 c1 c2 c3) pairs3 ->
  grun g3_compute (g3_init a n m k c0 c1 c2 c3) = Some G ->
  forall r k n, In (r, k) g3_tails -> (k + n)%nat = 18%nat -> sumn n (fun i => G r (k + i)%nat * mono x 0 (nth (k + i) g3_mon [])) = 0.
Proof.
  intros D E. apply (template_tail 15 18 3 g3_mon g3_compute (g3_cells a n m k c0 c1 c2 c3)).
  - change (map fst (g3_cells a n m k c0 c1 c2 c3)) with g3_keys. vm_compute. reflexivity.
  - exact g3_checks.
  - intros r Hr. destruct (Nat.lt_ge_cases r 4) as [L|L]; [|now apply g3_rows0].
    rewrite g3_rows by auto. unfold dist_poly. rewrite (D (fst (nth r pairs3 (0,0)%nat)) (snd (nth r pairs3 (0,0)%nat))); [ring|].
    rewrite <- surjective_pairing. apply nth_In. exact L.
  - exact E.
Qed.

(** 3 null space vector(s): the factors are the coordinates of every solution *)
Theorem C61_three_vectors : forall a n m k c0 c1 c2 c3 x fs,
  same_distances (comb3 a n m k x) (cpts c0 c1 c2 c3) pairs3 ->
  g3_factors a n m k c0 c1 c2 c3 = Some fs -> fs = [x 0%nat; x 1%nat; x 2%nat].
Proof.
  intros a n m k c0 c1 c2 c3 x fs D F. unfold g3_factors in F.
  destruct (grun g3_compute (g3_init a n m k c0 c1 c2 c3)) as [G|] eqn:E; [|discriminate]. cbn [obind] in F.
  pose proof (g3_tail a n m k c0 c1 c2 c3 x G D E) as T.
  assert (E0 : G 13%nat 16%nat * x 0%nat + G 13%nat 17%nat = 0).
  { pose proof (T 13%nat 16%nat 2%nat ltac:(cbn; tauto) eq_refl) as Q. cbn [sumn Nat.add g3_mon nth mono pow] in Q. lra. }
  assert (E1 : G 12%nat 15%nat * x 1%nat + G 12%nat 16%nat * x 0%nat + G 12%nat 17%nat = 0).
  { pose proof (T 12%nat 15%nat 3%nat ltac:(cbn; tauto) eq_refl) as Q. cbn [sumn Nat.add g3_mon nth mono pow] in Q. lra. }
  assert (E2 : G 11%nat 14%nat * x 2%nat + G 11%nat 15%nat * x 1%nat + G 11%nat 16%nat * x 0%nat + G 11%nat 17%nat = 0).
  { pose proof (T 11%nat 14%nat 4%nat ltac:(cbn; tauto) eq_refl) as Q. cbn [sumn Nat.add g3_mon nth mono pow] in Q. lra. }
  clear T E D. unfold g3_back in F. solve_back. injection F as <-. reflexivity.
Qed.
(** the control points for 4 null space vector(s), and the pairs of control points whose distances are used *)
Definition comb4 (a n m k l x : nat -> R) : nat -> R := fun i => a i + x 0%nat * n i + x 1%nat * m i + x 2%nat * k i + x 3%nat * l i.
Definition pairs4 : list (nat * nat) := [(0,1);(0,2);(0,3);(1,2);(1,3)]%nat.
Lemma g4_rows a n m k l c0 c1 c2 c3 x r : (r < 5)%nat ->
  cell_sum g4_mon x (g4_cells a n m k l c0 c1 c2 c3) r = dist_poly (comb4 a n m k l x) (cpts c0 c1 c2 c3) (nth r pairs4 (0,0)%nat).
Proof. intro H. do 5 (destruct r as [|r]; [cells; unfold comb4; ring|]). lia. Qed.
Lemma g4_rows0 a n m k l c0 c1 c2 c3 x r : (5 <= r)%nat -> cell_sum g4_mon x (g4_cells a n m k l c0 c1 c2 c3) r = 0.
Proof. intro H. do 5 (destruct r as [|r]; [lia|]). cbn -[Rmult Rplus Rminus Ropp pow norm vsub mono]. ring. Qed.
Definition g4_tails : list (nat * nat) := [(23,35); (22,34); (21,33); (20,32)]%nat.
Lemma g4_checks : gcheck_tails 25 37 4 g4_mon g4_compute g4_keys g4_tails = true.
Proof. vm_cast_no_check (@eq_refl bool true). Qed.
Lemma g4_tail a n m k l c0 c1 c2 c3 x G : same_distances (comb4 a n m k l x) (cpts c0 c1 c2 c3) pairs4 ->
  grun g4_compute (g4_init a n m k l c0 c1 c2 c3) = Some G ->
  forall r k n, In (r, k) g4_tails -> (k + n)%nat = 37%nat -> sumn n (fun i => G r (k + i)%nat * mono x 0 (nth (k + i) g4_mon [])) = 0.
Proof.
  intros D E. apply (template_tail 25 37 4 g4_mon g4_compute (g4_cells a n m k l c0 c1 c2 c3)).
  - change (map fst (g4_cells a n m k l c0 c1 c2 c3)) with g4_keys. vm_compute. reflexivity.
  - exact g4_checks.
  - intros r Hr. destruct (Nat.lt_ge_cases r 5) as [L|L]; [|now apply g4_rows0].
    rewrite g4_rows by auto. unfold dist_poly. rewrite (D (fst (nth r pairs4 (0,0)%nat)) (snd (nth r pairs4 (0,0)%nat))); [ring|].
    rewrite <- surjective_pairing. apply nth_In. exact L.
  - exact E.
Qed.

(** 4 null space vector(s): the factors are the coordinates of every solution *)
Theorem C61_four_vectors : forall a n m k l c0 c1 c2 c3 x fs,
  same_distances (comb4 a n m k l x) (cpts c0 c1 c2 c3) pairs4 ->
  g4_factors a n m k l c0 c1 c2 c3 = Some fs -> fs = [x 0%nat; x 1%nat; x 2%nat; x 3%nat].
Proof.
  intros a n m k l c0 c1 c2 c3 x fs D F. unfold g4_factors in F.
  destruct (grun g4_compute (g4_init a n m k l c0 c1 c2 c3)) as [G|] eqn:E; [|discriminate]. cbn [obind] in F.
  pose proof (g4_tail a n m k l c0 c1 c2 c3 x G D E) as T.
  assert (E0 : G 23%nat 35%nat * x 0%nat + G 23%nat 36%nat = 0).
  { pose proof (T 23%nat 35%nat 2%nat ltac:(cbn; tauto) eq_refl) as Q. cbn [sumn Nat.add g4_mon nth mono pow] in Q. lra. }
  assert (E1 : G 22%nat 34%nat * x 1%nat + G 22%nat 35%nat * x 0%nat + G 22%nat 36%nat = 0).
  { pose proof (T 22%nat 34%nat 3%nat ltac:(cbn; tauto) eq_refl) as Q. cbn [sumn Nat.add g4_mon nth mono pow] in Q. lra. }
  assert (E2 : G 21%nat 33%nat * x 2%nat + G 21%nat 34%nat * x 1%nat + G 21%nat 35%nat * x 0%nat + G 21%nat 36%nat = 0).
  { pose proof (T 21%nat 33%nat 4%nat ltac:(cbn; tauto) eq_refl) as Q. cbn [sumn Nat.add g4_mon nth mono pow] in Q. lra. }
  assert (E3 : G 20%nat 32%nat * x 3%nat + G 20%nat 33%nat * x 2%nat + G 20%nat 34%nat * x 1%nat + G 20%nat 35%nat * x 0%nat + G 20%nat 36%nat = 0).
  { pose proof (T 20%nat 32%nat 5%nat ltac:(cbn; tauto) eq_refl) as Q. cbn [sumn Nat.add g4_mon nth mono pow] in Q. lra. }
  clear T E D. unfold g4_back in F. solve_back. injection F as <-. reflexivity.
Qed.
(** the control points for 5 null space vector(s), and the pairs of control points whose distances are used *)
Definition comb5 (a n m k l p x : nat -> R) : nat -> R := fun i => a i + x 0%nat * n i + x 1%nat * m i + x 2%nat * k i + x 3%nat * l i + x 4%nat * p i.
Definition pairs5 : list (nat * nat) := [(0,1);(0,2);(0,3);(1,2);(1,3);(2,3)]%nat.
Lemma g5_rows a n m k l p c0 c1 c2 c3 x r : (r < 6)%nat ->
  cell_sum g5_mon x (g5_cells a n m k l p c0 c1 c2 c3) r = dist_poly (comb5 a n m k l p x) (cpts c0 c1 c2 c3) (nth r pairs5 (0,0)%nat).
Proof. intro H. do 6 (destruct r as [|r]; [cells; unfold comb5; ring|]). lia. Qed.
Lemma g5_rows0 a n m k l p c0 c1 c2 c3 x r : (6 <= r)%nat -> cell_sum g5_mon x (g5_cells a n m k l p c0 c1 c2 c3) r = 0.
Proof. intro H. do 6 (destruct r as [|r]; [lia|]). cbn -[Rmult Rplus Rminus Ropp pow norm vsub mono]. ring. Qed.
Definition g5_tails : list (nat * nat) := [(42,78); (41,77); (40,76); (39,75); (38,74)]%nat.
Lemma g5_checks : gcheck_tails 44 80 5 g5_mon g5_compute g5_keys g5_tails = true.
Proof. vm_cast_no_check (@eq_refl bool true). Qed.
Lemma g5_tail a n m k l p c0 c1 c2 c3 x G : same_distances (comb5 a n m k l p x) (cpts c0 c1 c2 c3) pairs5 ->
  grun g5_compute (g5_init a n m k l p c0 c1 c2 c3) = Some G ->
  forall r k n, In (r, k) g5_tails -> (k + n)%nat = 80%nat -> sumn n (fun i => G r (k + i)%nat * mono x 0 (nth (k + i) g5_mon [])) = 0.
Proof.
  intros D E. apply (template_tail 44 80 5 g5_mon g5_compute (g5_cells a n m k l p c0 c1 c2 c3)).
  - change (map fst (g5_cells a n m k l p c0 c1 c2 c3)) with g5_keys. vm_compute. reflexivity.
  - exact g5_checks.
  - intros r Hr. destruct (Nat.lt_ge_cases r 6) as [L|L]; [|now apply g5_rows0].
    rewrite g5_rows by auto. unfold dist_poly. rewrite (D (fst (nth r pairs5 (0,0)%nat)) (snd (nth r pairs5 (0,0)%nat))); [ring|].
    rewrite <- surjective_pairing. apply nth_In. exact L.
  - exact E.
Qed.

(** five null space vectors: the first four factors are right, the last one
    is off by a multiple of x_2 - x_1 *)
Theorem C61_five_vectors : forall a n m k l p c0 c1 c2 c3 x fs,
  same_distances (comb5 a n m k l p x) (cpts c0 c1 c2 c3) pairs5 ->
  g5_factors a n m k l p c0 c1 c2 c3 = Some fs ->
  exists G, grun g5_compute (g5_init a n m k l p c0 c1 c2 c3) = Some G /\ G 38%nat 74%nat <> 0 /\
    fs = [x 0%nat; x 1%nat; x 2%nat; x 3%nat; x 4%nat + G 38%nat 76%nat * (x 2%nat - x 1%nat) / G 38%nat 74%nat].
Proof.
  intros a n m k l p c0 c1 c2 c3 x fs D F. unfold g5_factors in F.
  destruct (grun g5_compute (g5_init a n m k l p c0 c1 c2 c3)) as [G|] eqn:E; [|discriminate]. cbn [obind] in F.
  exists G. split; [reflexivity|].
  pose proof (g5_tail a n m k l p c0 c1 c2 c3 x G D E) as T.
  assert (E0 : G 42%nat 78%nat * x 0%nat + G 42%nat 79%nat = 0).
  { pose proof (T 42%nat 78%nat 2%nat ltac:(cbn; tauto) eq_refl) as Q. cbn [sumn Nat.add g5_mon nth mono pow] in Q. lra. }
  assert (E1 : G 41%nat 77%nat * x 1%nat + G 41%nat 78%nat * x 0%nat + G 41%nat 79%nat = 0).
  { pose proof (T 41%nat 77%nat 3%nat ltac:(cbn; tauto) eq_refl) as Q. cbn [sumn Nat.add g5_mon nth mono pow] in Q. lra. }
  assert (E2 : G 40%nat 76%nat * x 2%nat + G 40%nat 77%nat * x 1%nat + G 40%nat 78%nat * x 0%nat + G 40%nat 79%nat = 0).
  { pose proof (T 40%nat 76%nat 4%nat ltac:(cbn; tauto) eq_refl) as Q. cbn [sumn Nat.add g5_mon nth mono pow] in Q. lra. }
  assert (E3 : G 39%nat 75%nat * x 3%nat + G 39%nat 76%nat * x 2%nat + G 39%nat 77%nat * x 1%nat + G 39%nat 78%nat * x 0%nat + G 39%nat 79%nat = 0).
  { pose proof (T 39%nat 75%nat 5%nat ltac:(cbn; tauto) eq_refl) as Q. cbn [sumn Nat.add g5_mon nth mono pow] in Q. lra. }
  assert (E4 : G 38%nat 74%nat * x 4%nat + G 38%nat 75%nat * x 3%nat + G 38%nat 76%nat * x 2%nat + G 38%nat 77%nat * x 1%nat + G 38%nat 78%nat * x 0%nat + G 38%nat 79%nat = 0).
  { pose proof (T 38%nat 74%nat 6%nat ltac:(cbn; tauto) eq_refl) as Q. cbn [sumn Nat.add g5_mon nth mono pow] in Q. lra. }
  clear T E D. unfold g5_back in F. do 4 solve_back1. 
  match type of F with obind (odiv ?p ?q) _ = _ => destruct (odiv p q) as [z|] eqn:O; [|discriminate F] end.
  cbn [obind] in F. injection F as <-. apply odiv_some in O as [N ->]. split; [exact N|].
  match goal with |- [_; _; _; _; ?p] = [_; _; _; _; ?q] => replace p with q; [reflexivity|] end.
  replace (G 38%nat 79%nat) with (- (G 38%nat 74%nat * x 4%nat + G 38%nat 75%nat * x 3%nat + G 38%nat 76%nat * x 2%nat + G 38%nat 77%nat * x 1%nat + G 38%nat 78%nat * x 0%nat)) by lra.
  field. exact N.
Qed.
