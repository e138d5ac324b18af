(** gp3p: what the first part of the elimination template does at the true pose. *)
From Coq Require Import Reals Lra Lia List Arith Bool ZArith Uint63.
From Verif Require Import Lin GenLin Cplx RotModel RotProps GbModel GbProps GbMod GpnpGb GpnpExamples KneipOps KneipEx1 KneipEx2 GbSeg Gp3pData Gp3pInit Gp3pModel Gp3pProps Gp3pRows Gp3pTie Gp3pLow.
Import ListNotations.
Local Open Scope R_scope.

Section Run.
Variables (f v p : nat -> vec3) (x : nat -> R) (GG : nat -> gmat).
Hypothesis T : gp_trace f v p GG.
Hypothesis Z0 : forall r, (r < 48)%nat -> cell_sum gp_mon x (gp_cells f v p) r = 0.
Notation M := (GG 31%nat).
Notation ginv t st := (ginv 48 85 gp_mon x (GG t) st).

Ltac inv t st prev := apply (post_step f v p x GG T t st); [lia|reflexivity|intros c []|].
Lemma inv21 : ginv 21%nat st21.
Proof. inv 21%nat pre21 inv20. apply (pre_step f v p x GG T 21 st20); [lia|exact pre21_ok|intros y []|exact (inv20 f v p x GG T Z0)]. Qed.
Lemma inv22 : ginv 22%nat st22.
Proof. inv 22%nat pre22 inv21. apply (pre_step f v p x GG T 22 st21); [lia|exact pre22_ok|intros y []|exact inv21]. Qed.
Lemma inv23 : ginv 23%nat st23.
Proof. inv 23%nat pre23 inv22. apply (pre_step f v p x GG T 23 st22); [lia|exact pre23_ok|intros y []|exact inv22]. Qed.
Lemma inv24 : ginv 24%nat st24.
Proof. inv 24%nat pre24 inv23. apply (pre_step f v p x GG T 24 st23); [lia|exact pre24_ok|intros y []|exact inv23]. Qed.
Lemma inv25 : ginv 25%nat st25.
Proof. inv 25%nat pre25 inv24. apply (pre_step f v p x GG T 25 st24); [lia|exact pre25_ok|intros y []|exact inv24]. Qed.
Lemma inv26 : ginv 26%nat st26.
Proof. inv 26%nat pre26 inv25. apply (pre_step f v p x GG T 26 st25); [lia|exact pre26_ok|intros y []|exact inv25]. Qed.
Lemma inv27 : ginv 27%nat st27.
Proof. inv 27%nat pre27 inv26. apply (pre_step f v p x GG T 27 st26); [lia|exact pre27_ok|intros y []|exact inv26]. Qed.
Lemma inv28 : ginv 28%nat st28.
Proof. inv 28%nat pre28 inv27. apply (pre_step f v p x GG T 28 st27); [lia|exact pre28_ok|intros y []|exact inv27]. Qed.
Lemma inv29 : ginv 29%nat st29.
Proof. inv 29%nat pre29 inv28. apply (pre_step f v p x GG T 29 st28); [lia|exact pre29_ok|intros y []|exact inv28]. Qed.
Lemma zero29 r c : (Nat.leb r 29 && Nat.ltb c 85 && negb (sget (fst st29) r c))%bool = true -> M r c = 0.
Proof. apply (zero_at f v p x GG T 29 st29); [lia|exact inv29]. Qed.
End Run.

(** columns whose monomial has no distance *)
Definition depth_free (d : list nat) : bool := match d with [_; _; _; 0; 0; 0]%nat => true | _ => false end.
Lemma depth_free_mono c n n' d : depth_free d = true -> mono (gp_x c n) 0 d = mono (gp_x c n') 0 d.
Proof.
  destruct d as [|a [|b [|e [|[|?] [|[|?] [|[|?] [|? ?]]]]]]]; try discriminate. intros _. reflexivity.
Qed.
Lemma only_c r : In r [10; 12; 15; 16; 19]%nat -> forallb (fun c => negb (sget (fst st29) r c) || depth_free (nth c gp_mon [])) (seq 0 85) = true.
Proof. intro H. repeat (destruct H as [<-|H]; [vm_compute; reflexivity|]). destruct H. Qed.

(** The template up to the first use of the six rows that mix two distances (the
    first 176 of its 732 statement groups).  When the whole template runs, then at
    every pose (c, t) that sees the three points at distances n all the rows built so
    far vanish, although the generated code skips terms of the polynomials; and the
    rows 10, 12, 15 are three independent quadrics (and 16, 19 two cubics) in the
    Cayley parameters alone: the distances are eliminated.  Missing: the same for
    the remaining 556 groups, which would give the eigenvectors of the action
    matrix. *)
Theorem C80_depths_eliminated_partial : forall f v p Gf, grun gp_compute (gp_init f v p) = Some Gf ->
  exists G, grun (firstn 176 gp_compute) (gp_init f v p) = Some G /\
    forall c n t, sees3 f v p (mT (cayley2rot c)) t n ->
      (forall r, (r < 30)%nat -> row_value 85 gp_mon (gp_x c n) G r = 0) /\
      (forall r c' n1 n2, In r [10; 12; 15; 16; 19]%nat -> row_value 85 gp_mon (gp_x c' n1) G r = row_value 85 gp_mon (gp_x c' n2) G r) /\
      G 10%nat 66%nat <> 0 /\ G 12%nat 70%nat <> 0 /\ G 12%nat 66%nat = 0 /\ G 15%nat 71%nat <> 0 /\ G 15%nat 66%nat = 0 /\ G 15%nat 70%nat = 0.
Proof.
  intros f v p Gf E. destruct (gp_trace_ex f v p Gf E) as (GG & T & _). exists (GG 29%nat). split.
  - destruct T as [T0 Ts]. change (firstn 176 gp_compute) with (flat_map row_ops (firstn 21 gp_rowl)). rewrite <- T0.
    assert (X : forall k, (k <= 21)%nat -> grun (flat_map row_ops (firstn k gp_rowl)) (GG 8%nat) = Some (GG (8 + k)%nat)).
    { induction k as [|k IH]; intro Hk; [reflexivity|].
      assert (S : firstn (S k) gp_rowl = firstn k gp_rowl ++ [Rt (9 + k)]).
      { clear -Hk. do 22 (destruct k as [|k]; [reflexivity|]). lia. }
      rewrite S, flat_map_app, grun_app, IH by lia. cbn [flat_map]. rewrite app_nil_r.
      specialize (Ts (9 + k)%nat ltac:(lia)). replace (9 + k - 1)%nat with (8 + k)%nat in Ts by lia. rewrite Ts. reflexivity. }
    exact (X 21%nat (le_n _)).
  - intros c n t S. set (x := gp_x c n).
    assert (Z0 : forall r, (r < 48)%nat -> cell_sum gp_mon x (gp_cells f v p) r = 0).
    { intros r Hr. rewrite <- (gcells_value 85 gp_mon x (gp_cells f v p) r (gp_keys_ok f v p)). apply (proj2 (C57_equations f v p c n)); [now exists t|exact Hr]. }
    pose proof (inv29 f v p x GG T Z0) as I.
    assert (Zr : forall r k, (r <= 29)%nat -> (k < 85)%nat -> sget (fst st29) r k = false -> GG 29%nat r k = 0).
    { intros r k Hr Hk Hs. rewrite <- (keep f v p GG T 29 r k) by lia. apply (zero29 f v p x GG T Z0). apply Nat.leb_le in Hr. apply Nat.ltb_lt in Hk. now rewrite Hr, Hk, Hs. }
    split; [|split].
    + intros r Hr. destruct I as [? ? ? IR]. apply IR. lia.
    + intros r c' n1 n2 Hr. unfold row_value. apply sumn_ext. intros k Hk. pose proof (only_c r Hr) as F. rewrite forallb_forall in F.
      specialize (F k ltac:(apply in_seq; lia)). apply orb_prop in F as [F|F].
      * rewrite (Zr r k); [ring| |exact Hk|now destruct (sget (fst st29) r k)]. cbn in Hr. lia.
      * f_equal. now apply depth_free_mono.
    + rewrite <- !(keep f v p GG T 29) by lia. repeat split.
      * exact (Q10 f v p GG T).
      * exact (Q12 f v p GG T).
      * apply (zero29 f v p x GG T Z0). reflexivity.
      * exact (Q15 f v p GG T).
      * apply (zero29 f v p x GG T Z0). reflexivity.
      * apply (zero29 f v p x GG T Z0). reflexivity.
Qed.

(** ** Instance *)
Definition g3_f : list (list Z) := [[2; -3; 1]; [2; 5; 3]; [-2; 2; -1]]%Z.
Definition g3_v : list (list Z) := [[-4; 21; 13]; [39; 30; -24]; [40; -10; 5]]%Z.
Definition g3_p : list (list Z) := [[11; 10; 17]; [-6; -34; 57]; [-23; -3; 22]]%Z.
Definition g3_n : list Z := [2; 3; 5]%Z.
Definition g3_t : vec3 := V3 (-1) (1) (2).
Definition g3_cells : list (nat * nat * Z) := [(0%nat, 20%nat, -2); (0%nat, 21%nat, 2); (0%nat, 32%nat, -2); (0%nat, 33%nat, 2); (0%nat, 52%nat, -2); (0%nat, 53%nat, 2); (0%nat, 66%nat, -26); (0%nat, 71%nat, -26); (0%nat, 75%nat, 80); (0%nat, 76%nat, -88); (0%nat, 77%nat, -60); (0%nat, 79%nat, -2); (0%nat, 80%nat, 2); (0%nat, 81%nat, 88); (0%nat, 82%nat, 80); (0%nat, 84%nat, -60); (1%nat, 20%nat, -5); (1%nat, 21%nat, -3); (1%nat, 32%nat, -5); (1%nat, 33%nat, -3); (1%nat, 52%nat, -5); (1%nat, 53%nat, -3); (1%nat, 66%nat, 35); (1%nat, 70%nat, 80); (1%nat, 71%nat, -53); (1%nat, 76%nat, -34); (1%nat, 77%nat, 35); (1%nat, 79%nat, -5); (1%nat, 80%nat, -3); (1%nat, 81%nat, -34); (1%nat, 83%nat, -80); (1%nat, 84%nat, -53); (2%nat, 20%nat, -3); (2%nat, 21%nat, 1); (2%nat, 32%nat, -3); (2%nat, 33%nat, 1); (2%nat, 52%nat, -3); (2%nat, 53%nat, 1); (2%nat, 66%nat, 77); (2%nat, 70%nat, -88); (2%nat, 71%nat, -3); (2%nat, 75%nat, -34); (2%nat, 77%nat, -3); (2%nat, 79%nat, -3); (2%nat, 80%nat, 1); (2%nat, 82%nat, 34); (2%nat, 83%nat, -88); (2%nat, 84%nat, 77); (3%nat, 19%nat, 2); (3%nat, 20%nat, 2); (3%nat, 31%nat, 2); (3%nat, 32%nat, 2); (3%nat, 51%nat, 2); (3%nat, 52%nat, 2); (3%nat, 66%nat, 16); (3%nat, 71%nat, 16); (3%nat, 75%nat, -70); (3%nat, 76%nat, 62); (3%nat, 77%nat, -18); (3%nat, 78%nat, 2); (3%nat, 79%nat, 2); (3%nat, 81%nat, -62); (3%nat, 82%nat, -70); (3%nat, 84%nat, -18); (4%nat, 19%nat, -2); (4%nat, 20%nat, 5); (4%nat, 31%nat, -2); (4%nat, 32%nat, 5); (4%nat, 51%nat, -2); (4%nat, 52%nat, 5); (4%nat, 66%nat, 9); (4%nat, 70%nat, -70); (4%nat, 71%nat, 71); (4%nat, 76%nat, -34); (4%nat, 77%nat, 9); (4%nat, 78%nat, -2); (4%nat, 79%nat, 5); (4%nat, 81%nat, -34); (4%nat, 83%nat, 70); (4%nat, 84%nat, 71); (5%nat, 19%nat, 1); (5%nat, 20%nat, 3); (5%nat, 31%nat, 1); (5%nat, 32%nat, 3); (5%nat, 51%nat, 1); (5%nat, 52%nat, 3); (5%nat, 66%nat, -64); (5%nat, 70%nat, 62); (5%nat, 71%nat, 6); (5%nat, 75%nat, -34); (5%nat, 77%nat, 6); (5%nat, 78%nat, 1); (5%nat, 79%nat, 3); (5%nat, 82%nat, 34); (5%nat, 83%nat, 62); (5%nat, 84%nat, -64); (6%nat, 19%nat, -2); (6%nat, 21%nat, -2); (6%nat, 31%nat, -2); (6%nat, 33%nat, -2); (6%nat, 51%nat, -2); (6%nat, 53%nat, -2); (6%nat, 66%nat, 10); (6%nat, 71%nat, 10); (6%nat, 75%nat, -10); (6%nat, 76%nat, 26); (6%nat, 77%nat, 78); (6%nat, 78%nat, -2); (6%nat, 80%nat, -2); (6%nat, 81%nat, -26); (6%nat, 82%nat, -10); (6%nat, 84%nat, 78); (7%nat, 19%nat, 2); (7%nat, 21%nat, 3); (7%nat, 31%nat, 2); (7%nat, 33%nat, 3); (7%nat, 51%nat, 2); (7%nat, 53%nat, 3); (7%nat, 66%nat, -44); (7%nat, 70%nat, -10); (7%nat, 71%nat, -18); (7%nat, 76%nat, 68); (7%nat, 77%nat, -44); (7%nat, 78%nat, 2); (7%nat, 80%nat, 3); (7%nat, 81%nat, 68); (7%nat, 83%nat, 10); (7%nat, 84%nat, -18); (8%nat, 19%nat, -1); (8%nat, 21%nat, -1); (8%nat, 31%nat, -1); (8%nat, 33%nat, -1); (8%nat, 51%nat, -1); (8%nat, 53%nat, -1); (8%nat, 66%nat, -13); (8%nat, 70%nat, 26); (8%nat, 71%nat, -3); (8%nat, 75%nat, 68); (8%nat, 77%nat, -3); (8%nat, 78%nat, -1); (8%nat, 80%nat, -1); (8%nat, 82%nat, -68); (8%nat, 83%nat, 26); (8%nat, 84%nat, -13)]%Z.

Fixpoint grun_i (os : list gop) (M : imat) : option imat :=
  match os with [] => Some M | o :: os => match istep k5_p (conv (KG o)) M with Some M => grun_i os M | None => None end end.
Lemma grun_i_ok os : forall G M M', imrel k5_p G M -> grun_i os M = Some M' -> exists G', grun os G = Some G'.
Proof.
  induction os as [|o os IH]; cbn [grun_i grun]; intros G M M' Rl E; [eauto|].
  destruct (istep k5_p (conv (KG o)) M) as [M1|] eqn:E1; [|discriminate]. destruct (istep_ok k5_p k5_p1 k5_p2 _ _ _ _ Rl E1) as (G1 & S & R1).
  cbn [kstep] in S. rewrite S. eauto.
Qed.
Definition icells (l : list (nat * nat * Z)) : imat :=
  fold_left (fun M e => tset L M (key (fst (fst e))) (tset 0%uint63 (rowof M (key (fst (fst e)))) (key (snd (fst e))) (zint (snd e)))) l L.
Lemma icells_ok l : imrel k5_p (gcells (map (fun e => (fst e, IZR (snd e))) l)) (icells l).
Proof.
  unfold gcells, icells.
  assert (K : forall l G M, imrel k5_p G M ->
    imrel k5_p (fold_left (fun G e => gset G (fst (fst e)) (snd (fst e)) (snd e)) (map (fun e => (fst e, IZR (snd e))) l) G)
      (fold_left (fun M e => tset L M (key (fst (fst e))) (tset 0%uint63 (rowof M (key (fst (fst e)))) (key (snd (fst e))) (zint (snd e)))) l M)).
  { clear l. induction l as [|[[r c] z] l IH]; cbn [map fold_left fst snd]; intros G M Rl; [exact Rl|]. apply IH.
    apply (imrel_set k5_p G); auto.
    - intro j. rewrite gset_same. apply (rrel_set k5_p (G r)); [apply Rl|apply zint_ok].
    - intros q j Hq. now apply gset_row. }
  apply K. intros r c. unfold cell, rowof. rewrite !tget_L. apply rok_0. exact k5_p1.
Qed.
Lemma g3_good : match grun_i gp_compute (icells g3_cells) with Some _ => true | None => false end = true.
Proof. vm_cast_no_check (@eq_refl bool true). Qed.
Lemma g3_init : gp_cells (zpts g3_f) (zpts g3_v) (zpts g3_p) = map (fun e => (fst e, IZR (snd e))) g3_cells.
Proof. unfold gp_cells, g3_cells, g3_f, g3_v, g3_p. unfold zpts, zpt. cbn [vx vy vz nth map fst snd]. repeat (apply f_equal2; [apply f_equal2; [reflexivity|ring]|]). reflexivity. Qed.
Example C80_depths_eliminated_nonvacuous : (exists Gf, grun gp_compute (gp_init (zpts g3_f) (zpts g3_v) (zpts g3_p)) = Some Gf) /\
  sees3 (zpts g3_f) (zpts g3_v) (zpts g3_p) (mT (cayley2rot (V3 1 2 3))) g3_t (zvec g3_n).
Proof.
  split.
  - unfold gp_init. rewrite g3_init. pose proof g3_good as E. destruct (grun_i gp_compute (icells g3_cells)) as [M'|] eqn:E1; [|discriminate].
    exact (grun_i_ok _ _ _ _ (icells_ok _) E1).
  - intros i Hi. do 3 (destruct i as [|i]; [unfold zpts, zpt, zvec, g3_f, g3_v, g3_p, g3_n, g3_t; lunf; cbn; lunf; cbn; f_equal; field|]). lia.
Qed.
