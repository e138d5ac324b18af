(** Groebner templates, row by row: the rows of a run in which every row is built
    once (one sPolynomial, then reductions by earlier rows), the values of linear
    functionals on such rows, and a support check step for sPolynomials in which
    equal terms cancel.  Used for gp3p. *)
From Coq Require Import Reals Lra Lia List Arith Bool.
From Verif Require Import GenLin GbModel GbProps.
Import ListNotations.
Local Open Scope R_scope.

Lemma grun_app l1 l2 G : grun (l1 ++ l2) G = match grun l1 G with Some H => grun l2 H | None => None end.
Proof. revert G; induction l1 as [|o l1 IH]; intro G; cbn; auto. destruct (gstep o G); auto. Qed.

(** * One reduction, one sPolynomial *)
(** what a reduction subtracts in column k, for factor one *)
Definition rpairs (o : gop) : list (nat * nat) := match o with GR _ _ c0 p ps => (c0, p) :: ps | _ => [] end.
Definition rsrc (o : gop) : nat := match o with GR _ s _ _ _ => s | _ => 0 end.
Definition rpiv (o : gop) : nat := match o with GR _ _ _ p _ => p | _ => 0 end.
Fixpoint assoc (k : nat) (ps : list (nat * nat)) : option nat :=
  match ps with [] => None | (a, b) :: ps => if Nat.eqb k a then Some b else assoc k ps end.
Definition look (G : gmat) (o : gop) (k : nat) : R := match assoc k (rpairs o) with Some c => G (rsrc o) c | None => 0 end.
Definition red_wf (t : nat) (o : gop) : bool :=
  match o with GR t' s c0 p ps => Nat.eqb t' t && Nat.ltb s t && nodupb (c0 :: map fst ps) | _ => false end.
Lemma assoc_lsum (G : gmat) s k ps : NoDup (map fst ps) ->
  lsum (fun y => at_col (fst y) k (G s (snd y))) ps = match assoc k ps with Some c => G s c | None => 0 end.
Proof.
  induction ps as [|[a b] ps IH]; cbn; intro ND; auto. inversion ND as [|? ? Na ND']; subst. rewrite IH by auto. unfold at_col.
  destruct (Nat.eqb_spec k a) as [->|]; [|ring].
  replace (assoc a ps) with (@None nat); [ring|]. symmetry. clear - Na.
  induction ps as [|[c d] ps IH]; cbn; auto. cbn in Na. destruct (Nat.eqb_spec a c); [subst; tauto|]. apply IH. tauto.
Qed.
Lemma red_row t o G H : red_wf t o = true -> gstep o G = Some H ->
  G (rsrc o) (rpiv o) <> 0 /\ (forall r k, r <> t -> H r k = G r k) /\ exists f, forall k, H t k = G t k - f * look G o k.
Proof.
  destruct o as [|t' s c0 p ps| |]; try discriminate. cbn [red_wf rsrc rpiv gstep]. intro W.
  apply andb_prop in W as [W ND]. apply andb_prop in W as [W1 W2]. apply Nat.eqb_eq in W1. subst t'. apply Nat.ltb_lt in W2. apply nodupb_NoDup in ND.
  destruct (Req_EM_T (G s p) 0) as [|Np]; [discriminate|]. intro E. injection E as <-.
  inversion ND as [|? ? Nc0 NDf]; subst. assert (Nts : t <> s) by lia.
  destruct (red_fold t s (G t c0 / G s p) ps (gset G t c0 0) Nts NDf) as [F1 F2]. split; auto. split.
  - intros r k Hr. rewrite F1 by auto. now apply gset_other.
  - exists (G t c0 / G s p). intro k. rewrite F2, gset_row. unfold look. cbn [rpairs rsrc]. rewrite <- assoc_lsum by auto. cbn [lsum fst snd].
    rewrite (lsum_ext _ (fun y => at_col (fst y) k (G s (snd y))) ps) by (intros y _; now rewrite gset_other by auto).
    unfold at_col at 2. destruct (Nat.eqb_spec k c0) as [->|]; [|ring]. field. auto.
Qed.
Fixpoint sfind (k : nat) (e : list (nat * option nat * option nat)) : option (option nat * option nat) :=
  match e with [] => None | (c, a, b) :: e => if Nat.eqb k c then Some (a, b) else sfind k e end.
Definition sval (G : gmat) (o : gop) (k : nat) : R :=
  match o with GS t i p j q e => match sfind k e with Some (a, b) => gterm G i p a - gterm G j q b | None => 0 end | _ => 0 end.
Definition sp_wf (t : nat) (o : gop) : bool :=
  match o with GS t' i p j q e => Nat.eqb t' t && Nat.ltb i t && Nat.ltb j t && nodupb (map (fun x => fst (fst x)) e) | _ => false end.
Definition sp_piv (G : gmat) (o : gop) : Prop := match o with GS t i p j q e => G i p <> 0 /\ G j q <> 0 | _ => False end.
Lemma sfold_other t i p j q e G r k : r <> t ->
  fold_left (fun H e => gset H t (fst (fst e)) (gterm H i p (snd (fst e)) - gterm H j q (snd e))) e G r k = G r k.
Proof. intro N. revert G; induction e as [|x e IH]; intro G; cbn; auto. rewrite IH. now apply gset_other. Qed.
Lemma sfold_row t i p j q e G k : t <> i -> t <> j -> NoDup (map (fun x => fst (fst x)) e) ->
  fold_left (fun H e => gset H t (fst (fst e)) (gterm H i p (snd (fst e)) - gterm H j q (snd e))) e G t k
  = match sfind k e with Some (a, b) => gterm G i p a - gterm G j q b | None => G t k end.
Proof.
  intros Ni Nj. revert G; induction e as [|[[c a] b] e IH]; intros G ND; cbn; auto. inversion ND as [|? ? Na ND']; subst. rewrite IH by auto.
  assert (T : forall i p a v, t <> i -> gterm (gset G t c v) i p a = gterm G i p a) by (intros i0 p0 [a0|] v N; cbn; auto; now rewrite !gset_other by auto).
  destruct (Nat.eqb_spec k c) as [->|N].
  - replace (sfind c e) with (@None (option nat * option nat)); [now rewrite gset_row, Nat.eqb_refl|].
    symmetry. clear - Na. induction e as [|[[c' a'] b'] e IH]; cbn in *; auto. destruct (Nat.eqb_spec c c'); [subst; tauto|]. apply IH. tauto.
  - destruct (sfind k e) as [[a' b']|]; [now rewrite !T by auto|]. rewrite gset_row. apply Nat.eqb_neq in N. now rewrite N.
Qed.
Lemma sp_row t o G H : sp_wf t o = true -> gstep o G = Some H -> (forall k, G t k = 0) ->
  sp_piv G o /\ (forall r k, r <> t -> H r k = G r k) /\ forall k, H t k = sval G o k.
Proof.
  destruct o as [t' i p j q e| | |]; try discriminate. cbn [sp_wf sp_piv gstep sval]. intro W.
  apply andb_prop in W as [W ND]. apply andb_prop in W as [W W3]. apply andb_prop in W as [W1 W2].
  apply Nat.eqb_eq in W1. subst t'. apply Nat.ltb_lt in W2, W3. apply nodupb_NoDup in ND.
  destruct (Req_EM_T (G i p) 0); [discriminate|]. destruct (Req_EM_T (G j q) 0); [discriminate|]. intros E Z. injection E as <-.
  split; auto. split; [intros; now apply sfold_other|]. intro k. rewrite sfold_row by (auto; lia). now rewrite Z.
Qed.

(** * A row: one sPolynomial and reductions by earlier rows *)
Definition grow := (nat * gop * list gop)%type.
Definition row_wf (r : grow) : bool := let '(t, s, rs) := r in sp_wf t s && forallb (red_wf t) rs.
Definition row_ok (G : gmat) (r : grow) : Prop := let '(t, s, rs) := r in
  sp_piv G s /\ Forall (fun o => G (rsrc o) (rpiv o) <> 0) rs /\
  exists fs, length fs = length rs /\ forall k, G t k = sval G s k - lsum (fun y => fst y * look G (snd y) k) (combine fs rs).
Definition row_ops (r : grow) : list gop := let '(t, s, rs) := r in s :: rs.

Lemma look_ext G G' t o k : red_wf t o = true -> (forall r c, (r < t)%nat -> G r c = G' r c) -> look G o k = look G' o k.
Proof.
  destruct o as [|t' s c0 p ps| |]; try discriminate. cbn [red_wf]. intros W E. apply andb_prop in W as [W _]. apply andb_prop in W as [_ W]. apply Nat.ltb_lt in W.
  unfold look. cbn [rsrc]. destruct (assoc k _); auto.
Qed.
Lemma sval_ext G G' t o k : sp_wf t o = true -> (forall r c, (r < t)%nat -> G r c = G' r c) -> sval G o k = sval G' o k.
Proof.
  destruct o as [t' i p j q e| | |]; try discriminate. cbn [sp_wf sval]. intros W E. apply andb_prop in W as [W _]. apply andb_prop in W as [W W2]. apply andb_prop in W as [_ W1].
  apply Nat.ltb_lt in W1, W2. destruct (sfind k e) as [[a b]|]; auto. destruct a, b; cbn; now rewrite ?E by auto.
Qed.
Lemma reds_row t rs : forall G H, forallb (red_wf t) rs = true -> grun rs G = Some H ->
  Forall (fun o => G (rsrc o) (rpiv o) <> 0) rs /\ (forall r k, r <> t -> H r k = G r k) /\
  exists fs, length fs = length rs /\ forall k, H t k = G t k - lsum (fun y => fst y * look G (snd y) k) (combine fs rs).
Proof.
  induction rs as [|o rs IH]; cbn; intros G H W E.
  - injection E as <-. split; [constructor|]. split; auto. exists []. split; auto. intro k. cbn. ring.
  - apply andb_prop in W as [W1 W2]. destruct (gstep o G) as [G1|] eqn:E1; [|discriminate].
    destruct (red_row t o G G1 W1 E1) as (P & U & f & F). destruct (IH G1 H W2 E) as (Ps & Us & fs & L & Fs).
    assert (Rl : forall o, red_wf t o = true -> (rsrc o < t)%nat).
    { intros [|t' s c0 p ps| |]; try discriminate. cbn. intro W. apply andb_prop in W as [W _]. apply andb_prop in W as [_ W]. now apply Nat.ltb_lt in W. }
    split; [|split].
    + constructor; auto. rewrite forallb_forall in W2. rewrite Forall_forall in Ps |- *. intros o' Ho. rewrite <- U; auto.
      pose proof (Rl o' (W2 o' Ho)). lia.
    + intros r k Hr. rewrite Us, U; auto.
    + exists (f :: fs). split; [cbn; congruence|]. intro k. cbn [combine lsum fst snd]. rewrite Fs, F.
      rewrite (lsum_ext (fun y => fst y * look G1 (snd y) k) (fun y => fst y * look G (snd y) k)); [ring|].
      intros [f' o'] Ho. cbn [fst snd]. rewrite forallb_forall in W2. apply in_combine_r in Ho. f_equal.
      apply (look_ext _ _ t); [now apply W2|]. intros r c Hr. apply U. lia.
Qed.
Lemma row_run t s rs G H : row_wf (t, s, rs) = true -> grun (row_ops (t, s, rs)) G = Some H -> (forall k, G t k = 0) ->
  (forall r k, r <> t -> H r k = G r k) /\ row_ok H (t, s, rs).
Proof.
  intros W E Z. cbn [row_wf] in W. apply andb_prop in W as [W1 W2]. cbn [row_ops grun] in E. destruct (gstep s G) as [G1|] eqn:E1; [|discriminate].
  destruct (sp_row t s G G1 W1 E1 Z) as (P & U & F). destruct (reds_row t rs G1 H W2 E) as (Ps & Us & fs & L & Fs).
  assert (UU : forall r k, r <> t -> H r k = G r k) by (intros; rewrite Us, U; auto).
  split; auto. cbn [row_ok]. split; [|split].
  - destruct s as [t' i p j q e| | |]; try discriminate. cbn [sp_wf sp_piv] in *. apply andb_prop in W1 as [W _]. apply andb_prop in W as [W W4]. apply andb_prop in W as [_ W3].
    apply Nat.ltb_lt in W3, W4. rewrite !UU by lia. auto.
  - rewrite Forall_forall in Ps |- *. intros o Ho. rewrite Us; [now apply Ps|]. rewrite forallb_forall in W2. specialize (W2 o Ho).
    destruct o as [|t' s' c0 p ps| |]; try discriminate. cbn in W2. apply andb_prop in W2 as [W _]. apply andb_prop in W as [_ W]. apply Nat.ltb_lt in W. cbn. lia.
  - exists fs. split; auto. intro k. rewrite Fs, F. rewrite (sval_ext G H t s k W1) by (intros; symmetry; apply UU; lia).
    f_equal. apply lsum_ext. intros [f' o'] Ho. cbn [fst snd]. rewrite forallb_forall in W2. apply in_combine_r in Ho. f_equal.
    apply (look_ext _ _ t); [now apply W2|]. intros r c Hr. symmetry. apply Us. lia.
Qed.
(** rows built earlier stay as they were *)
Lemma row_ok_ext G H t s rs : row_wf (t, s, rs) = true -> (forall r k, (r <= t)%nat -> H r k = G r k) -> row_ok G (t, s, rs) -> row_ok H (t, s, rs).
Proof.
  intros W U (P & Ps & fs & L & F). cbn [row_wf] in W. apply andb_prop in W as [W1 W2]. cbn [row_ok]. split; [|split].
  - destruct s as [t' i p j q e| | |]; try discriminate. cbn [sp_wf sp_piv] in *. apply andb_prop in W1 as [W _]. apply andb_prop in W as [W W4]. apply andb_prop in W as [_ W3].
    apply Nat.ltb_lt in W3, W4. rewrite !U by lia. auto.
  - rewrite Forall_forall in Ps |- *. intros o Ho. rewrite U; [now apply Ps|]. rewrite forallb_forall in W2. specialize (W2 o Ho).
    destruct o as [|t' s' c0 p ps| |]; try discriminate. cbn in W2. apply andb_prop in W2 as [W _]. apply andb_prop in W as [_ W]. apply Nat.ltb_lt in W. cbn. lia.
  - exists fs. split; auto. intro k. rewrite U by lia. rewrite F. rewrite (sval_ext G H t s k W1) by (intros; symmetry; apply U; lia).
    f_equal. apply lsum_ext. intros [f' o'] Ho. cbn [fst snd]. rewrite forallb_forall in W2. apply in_combine_r in Ho. f_equal.
    apply (look_ext _ _ t); [now apply W2|]. intros r c Hr. symmetry. apply U. lia.
Qed.

(** * Linear functionals on rows *)
Definition wv (nc : nat) (w : nat -> R) (G : gmat) (r : nat) : R := sumn nc (fun c => w c * G r c).
Definition shs (w : nat -> R) (G : gmat) (o : gop) : R := lsum (fun y => w (fst y) * G (rsrc o) (snd y)) (rpairs o).
Definition swv (w : nat -> R) (G : gmat) (o : gop) : R :=
  match o with GS t i p j q e => lsum (fun x => w (fst (fst x)) * (gterm G i p (snd (fst x)) - gterm G j q (snd x))) e | _ => 0 end.
Definition cols_ok (nc : nat) (r : grow) : bool := let '(t, s, rs) := r in
  match s with GS _ _ _ _ _ e => forallb (fun x => Nat.ltb (fst (fst x)) nc) e | _ => false end
  && forallb (fun o => forallb (fun y => Nat.ltb (fst y) nc) (rpairs o)) rs.
Lemma look_sum nc w G t o : red_wf t o = true -> forallb (fun y => Nat.ltb (fst y) nc) (rpairs o) = true ->
  sumn nc (fun c => w c * look G o c) = shs w G o.
Proof.
  destruct o as [|t' s c0 p ps| |]; try discriminate. intros W B. cbn [red_wf] in W. apply andb_prop in W as [_ ND]. apply nodupb_NoDup in ND.
  unfold shs, look. rewrite forallb_forall in B. cbn [rpairs rsrc] in *.
  rewrite <- (lsum_ext (fun y => G s (snd y) * w (fst y))) by (intros; ring).
  rewrite <- (sumn_lsum nc ((c0, p) :: ps) (fun a => G s a) w).
  - apply sumn_ext. intros c Hc. rewrite <- assoc_lsum by auto. ring.
  - intros y Hy. apply Nat.ltb_lt, B, Hy.
Qed.
Lemma sval_sum nc w G t o : sp_wf t o = true -> match o with GS _ _ _ _ _ e => forallb (fun x => Nat.ltb (fst (fst x)) nc) e | _ => false end = true ->
  sumn nc (fun c => w c * sval G o c) = swv w G o.
Proof.
  destruct o as [t' i p j q e| | |]; try discriminate. cbn [sp_wf sval swv]. intros W B. apply andb_prop in W as [_ ND]. apply nodupb_NoDup in ND. clear t t' .
  induction e as [|[[c a] b] e IH].
  - cbn [sfind lsum]. apply sumn_0. intros. ring.
  - cbn [map] in ND. inversion ND as [|? ? Na ND']; subst. cbn [forallb fst snd] in B. apply andb_prop in B as [B1 B2]. apply Nat.ltb_lt in B1.
    cbn [lsum fst snd]. rewrite <- IH by auto.
    transitivity (sumn nc (fun k => at_col c k (gterm G i p a - gterm G j q b) * w k) + sumn nc (fun k => w k * match sfind k e with Some (a0, b0) => gterm G i p a0 - gterm G j q b0 | None => 0 end)).
    2:{ rewrite sumn_at by auto. ring. }
    rewrite <- sumn_add. apply sumn_ext. intros k Hk. cbn [sfind]. unfold at_col. destruct (Nat.eqb_spec k c) as [->|]; [|ring].
    replace (sfind c e) with (@None (option nat * option nat)); [ring|].
    symmetry. clear - Na. induction e as [|[[c' a'] b'] e IH]; cbn in *; auto. destruct (Nat.eqb_spec c c'); [subst; tauto|]. apply IH. tauto.
Qed.
Lemma sumn_lsum_swap {A} nc (l : list A) (f : A -> nat -> R) : sumn nc (fun c => lsum (fun y => f y c) l) = lsum (fun y => sumn nc (f y)) l.
Proof. induction l as [|a l IH]; cbn; [apply sumn_0; auto|]. rewrite sumn_add, IH. reflexivity. Qed.
Lemma sumn_scale_l nc k f : sumn nc (fun c => k * f c) = k * sumn nc f.
Proof. induction nc as [|n IH]; cbn; [ring|]. rewrite IH. ring. Qed.
Lemma row_wv nc G t s rs : row_wf (t, s, rs) = true -> cols_ok nc (t, s, rs) = true -> row_ok G (t, s, rs) ->
  exists fs, length fs = length rs /\ (forall k, G t k = sval G s k - lsum (fun y => fst y * look G (snd y) k) (combine fs rs)) /\
    forall w, wv nc w G t = swv w G s - lsum (fun y => fst y * shs w G (snd y)) (combine fs rs).
Proof.
  intros W B (P & Ps & fs & L & F). exists fs. split; auto. split; auto. intro w. unfold wv. cbn [row_wf] in W. apply andb_prop in W as [W1 W2].
  cbn [cols_ok] in B. apply andb_prop in B as [B1 B2]. rewrite forallb_forall in W2, B2.
  transitivity (sumn nc (fun c => w c * sval G s c) - sumn nc (fun c => lsum (fun y => fst y * (w c * look G (snd y) c)) (combine fs rs))).
  { rewrite <- sumn_sub. apply sumn_ext. intros c Hc. rewrite F. rewrite Rmult_minus_distr_l. f_equal. rewrite <- lsum_scale. apply lsum_ext. intros. ring. }
  rewrite (sval_sum nc w G t s W1 B1). f_equal. rewrite sumn_lsum_swap. apply lsum_ext. intros [f o] Ho. cbn [fst snd]. apply in_combine_r in Ho.
  rewrite sumn_scale_l. f_equal. apply (look_sum nc w G t); auto.
Qed.
(** a row that is zero outside the listed columns *)
Lemma wv_cover nc w G r l : NoDup l -> (forall c, In c l -> (c < nc)%nat) -> (forall c, (c < nc)%nat -> ~ In c l -> G r c = 0) ->
  wv nc w G r = lsum (fun c => w c * G r c) l.
Proof. intros ND B Z. symmetry. apply lsum_cover; auto. intros c Hc N. rewrite Z by auto. ring. Qed.

(** * The support check with cancelling terms *)
Ltac split_and H := repeat match type of H with _ && _ = true => let H' := fresh "K" in apply andb_prop in H as [H H'] end.
Section Checker.
Variables (nr nc nv : nat) (es : list (list nat)).
Notation ex := (fun c => nth c es []).
Definition gcheckd (o : gop) (D : list (nat * nat)) (st : supp * list (nat * nat)) : option (supp * list (nat * nat)) :=
  let (S, ones) := st in
  match o with
  | GS t i p j q e =>
      let dl := esub (emax (ex p) (ex q)) (ex p) in
      let dr := esub (emax (ex p) (ex q)) (ex q) in
      if Nat.ltb t nr && Nat.ltb i nr && Nat.ltb j nr && negb (Nat.eqb t i) && negb (Nat.eqb t j)
         && Nat.ltb p nc && Nat.ltb q nc && Nat.eqb (length (ex p)) nv && Nat.eqb (length (ex q)) nv
         && eeqb (eadd (ex p) dl) (eadd (ex q) dr)
         && coversb nc S t [] && nodupb (map (fun x => fst (fst x)) e)
         && nodupb (p :: map snd (pairs_l e) ++ map fst D) && nodupb (q :: map snd (pairs_r e) ++ map snd D)
         && coversb nc S i (p :: map snd (pairs_l e) ++ map fst D) && coversb nc S j (q :: map snd (pairs_r e) ++ map snd D)
         && shiftb nc nv es dl (pairs_l e) && shiftb nc nv es dr (pairs_r e)
         && forallb (fun x => Nat.ltb (fst (fst x)) nc) e
         && forallb (fun y => Nat.ltb (fst y) nc && Nat.ltb (snd y) nc && Nat.eqb (length (ex (fst y))) nv && Nat.eqb (length (ex (snd y))) nv
                              && eeqb (eadd (ex (fst y)) dl) (eadd (ex (snd y)) dr)) D
      then Some (set_nth t (row_of nc (fun c => memb c (map (fun x => fst (fst x)) e))) S,
                 filter (fun rc => negb (Nat.eqb (fst rc) t)) ones)
      else None
  | _ => None
  end.
Variable x : nat -> R.
(** the listed pairs of terms, one in each row, are equal after normalisation *)
Definition dropped (G : gmat) (o : gop) (D : list (nat * nat)) : Prop :=
  match o with GS t i p j q e => forall y, In y D -> G i (fst y) / G i p = G j (snd y) / G j q | _ => False end.
Lemma lsum_app {A} (f : A -> R) l m : lsum f (l ++ m) = lsum f l + lsum f m.
Proof. induction l as [|a l IH]; cbn; [ring|]. rewrite IH. ring. Qed.
Lemma gcheckd_sound o D st st' G G' : gcheckd o D st = Some st' -> dropped G o D -> gstep o G = Some G' ->
  ginv nr nc es x G st -> ginv nr nc es x G' st'.
Proof.
  destruct st as [S ones]. intros C DD E [IL IZ IO IR]. cbn [fst snd] in *.
  assert (Fil : forall t (ones : list (nat * nat)) r c, In (r, c) (filter (fun rc => negb (Nat.eqb (fst rc) t)) ones) -> r <> t /\ In (r, c) ones).
  { intros t o' r c Hf. apply filter_In in Hf as [Hf Nt]. cbn in Nt. split; auto. intros ->. now rewrite Nat.eqb_refl in Nt. }
  destruct o as [t i p j q e| | |]; try discriminate. cbn [gcheckd] in C; cbn [gstep dropped] in *.
  destruct (Req_EM_T (G i p) 0) as [|Ni]; [discriminate|]. destruct (Req_EM_T (G j q) 0) as [|Nj]; [discriminate|].
  match type of C with (if ?b then _ else _) = _ => destruct b eqn:B; [|discriminate] end.
  split_and B. injection C as <-.
  apply Nat.ltb_lt in B, K16, K17, K13, K12. apply negb_true_iff, Nat.eqb_neq in K15, K14. apply Nat.eqb_eq in K11, K10.
  apply eeqb_eq in K9. apply nodupb_NoDup in K7, K6, K5. rewrite forallb_forall in K, K0.
  destruct (spoly_fold nr x t i p j q e G K15 K14 K7) as (F1 & F2 & F3).
  injection E as <-. set (H := fold_left _ e G) in *.
  assert (Zi : forall c, (c < nc)%nat -> ~ In c (p :: map snd (pairs_l e) ++ map fst D) -> G i c = 0).
  { intros c Hc N. apply IZ; auto. apply (covers nr nc x _ _ _ K4); auto. }
  assert (Zj : forall c, (c < nc)%nat -> ~ In c (q :: map snd (pairs_r e) ++ map snd D) -> G j c = 0).
  { intros c Hc N. apply IZ; auto. apply (covers nr nc x _ _ _ K3); auto. }
  assert (Zt : forall c, (c < nc)%nat -> G t c = 0).
  { intros c Hc. apply IZ; auto. apply (covers nr nc x _ _ _ K8); auto. }
  split; cbn [fst snd].
  + now rewrite set_nth_length.
  + intros r c Hr Hc. rewrite sget_set by (auto; now rewrite IL). destruct (Nat.eqb_spec r t) as [->|N].
    * intro M. rewrite F2; auto. intro I. apply memb_In in I. congruence.
    * intro M. rewrite F1; auto.
  + intros r c Hin. apply Fil in Hin as [N Hin]. rewrite F1; auto.
  + intros r Hr. destruct (Nat.eq_dec r t) as [->|N].
    2:{ rewrite <- (IR r Hr). unfold row_value. apply sumn_ext. intros c Hc. now rewrite F1. }
    unfold row_value. set (mc := fun c => mono x 0 (nth c es [])).
    transitivity (sumn nc (fun k => lsum (fun x => at_col (fst x) k (G i (snd x) / G i p)) (pairs_l e) * mc k)
                - sumn nc (fun k => lsum (fun x => at_col (fst x) k (G j (snd x) / G j q)) (pairs_r e) * mc k)).
    { rewrite <- sumn_sub. apply sumn_ext. intros k Hk. fold (mc k).
      destruct (in_dec Nat.eq_dec k (map (fun x => fst (fst x)) e)) as [Ik|Nk].
      - rewrite F3 by auto. ring.
      - rewrite F2 by auto. rewrite Zt by auto.
        rewrite (lsum_ext _ (fun _ => 0 * 0) (pairs_l e)), (lsum_ext _ (fun _ => 0 * 0) (pairs_r e)).
        + rewrite !(lsum_scale 0 (fun _ => 0)). ring.
        + intros y Hy. unfold at_col. destruct (Nat.eqb_spec k (fst y)) as [Eq|]; [|ring]. exfalso. apply Nk.
          apply in_flat_map in Hy as (z & Hz & Hy). destruct (snd z); [|destruct Hy]. destruct Hy as [<-|[]]. cbn in Eq. subst.
          now apply (in_map (fun x => fst (fst x)) e z).
        + intros y Hy. unfold at_col. destruct (Nat.eqb_spec k (fst y)) as [Eq|]; [|ring]. exfalso. apply Nk.
          apply in_flat_map in Hy as (z & Hz & Hy). destruct (snd (fst z)); [|destruct Hy]. destruct Hy as [<-|[]]. cbn in Eq. subst.
          now apply (in_map (fun x => fst (fst x)) e z). }
    assert (Bl : forall y, In y (pairs_l e) -> (fst y < nc)%nat).
    { intros y Hy. apply in_flat_map in Hy as (z & Hz & Hy). destruct (snd (fst z)); [|destruct Hy]. destruct Hy as [<-|[]]. cbn.
      specialize (K0 z Hz). now apply Nat.ltb_lt in K0. }
    assert (Br : forall y, In y (pairs_r e) -> (fst y < nc)%nat).
    { intros y Hy. apply in_flat_map in Hy as (z & Hz & Hy). destruct (snd z); [|destruct Hy]. destruct Hy as [<-|[]]. cbn.
      specialize (K0 z Hz). now apply Nat.ltb_lt in K0. }
    rewrite (sumn_lsum nc (pairs_l e) (fun a => G i a / G i p) mc Bl), (sumn_lsum nc (pairs_r e) (fun a => G j a / G j q) mc Br).
    set (dl := esub (emax (nth p es []) (nth q es [])) (nth p es [])) in *. set (dr := esub (emax (nth p es []) (nth q es [])) (nth q es [])) in *.
    assert (Side : forall i p d l (Dl : list nat), G i p <> 0 -> (p < nc)%nat -> NoDup (p :: map snd l ++ Dl) -> (forall c, In c Dl -> (c < nc)%nat) -> shiftb nc nv es d l = true ->
              (forall c, (c < nc)%nat -> ~ In c (p :: map snd l ++ Dl) -> G i c = 0) -> row_value nc es x G i = 0 ->
              lsum (fun y => G i (snd y) / G i p * mc (fst y)) l = - (mc p * mono x 0 d) - lsum (fun a => G i a / G i p * (mc a * mono x 0 d)) Dl).
    { clear - x nr nv. intros i p d l Dl Nz Hp ND BD Sh Z Rv.
      pose proof Sh as Sh'. unfold shiftb in Sh'. apply andb_prop in Sh' as [Ld Hs]. apply Nat.eqb_eq in Ld. rewrite forallb_forall in Hs.
      assert (E : forall y, In y l -> (snd y < nc)%nat /\ mc (fst y) = mc (snd y) * mono x 0 d).
      { intros y Hy. specialize (Hs y Hy). apply andb_prop in Hs as [Hs E]. apply andb_prop in Hs as [Hs L]. apply andb_prop in Hs as [A B0].
        apply Nat.ltb_lt in B0. apply Nat.eqb_eq in L. apply eeqb_eq in E. split; auto. unfold mc. fold (GbProps.ex es (fst y)). rewrite E. unfold GbProps.ex. apply mono_eadd. unfold GbProps.ex in L. congruence. }
      assert (C0 : lsum (fun c => G i c * mc c) (p :: map snd l ++ Dl) = 0).
      { rewrite <- Rv. unfold row_value. apply lsum_cover; auto.
        - intros c [<-|Hc]; auto. apply in_app_or in Hc as [Hc|Hc]; auto. apply in_map_iff in Hc as (y & <- & Hy). apply (E y Hy).
        - intros c Hc N. rewrite Z by auto. ring. }
      cbn [lsum] in C0. rewrite lsum_app, lsum_map in C0.
      rewrite (lsum_ext _ (fun y => (mono x 0 d / G i p) * (G i (snd y) * mc (snd y)))) by (intros y Hy; destruct (E y Hy) as [_ ->]; unfold Rdiv; ring).
      rewrite (lsum_ext (fun a => G i a / G i p * (mc a * mono x 0 d)) (fun a => (mono x 0 d / G i p) * (G i a * mc a)) Dl) by (intros; unfold Rdiv; ring).
      rewrite !lsum_scale. replace (lsum (fun y => G i (snd y) * mc (snd y)) l) with (- (G i p * mc p) - lsum (fun c => G i c * mc c) Dl) by lra. field. auto. }
    assert (BD : forall y, In y D -> (fst y < nc)%nat /\ (snd y < nc)%nat /\ mc (fst y) * mono x 0 dl = mc (snd y) * mono x 0 dr).
    { intros y Hy. specialize (K y Hy). split_and K. apply Nat.ltb_lt in K, K21. apply Nat.eqb_eq in K20, K19. apply eeqb_eq in K18.
      repeat split; auto. unfold mc. rewrite <- !mono_eadd; [now rewrite K18| |].
      - rewrite K19. symmetry. apply Nat.eqb_eq. unfold shiftb in K1. now apply andb_prop in K1 as [-> _].
      - rewrite K20. symmetry. apply Nat.eqb_eq. unfold shiftb in K2. now apply andb_prop in K2 as [-> _]. }
    rewrite (Side i p dl (pairs_l e) (map fst D)), (Side j q dr (pairs_r e) (map snd D)); auto.
    2,3: intros c Hc; apply in_map_iff in Hc as (y & <- & Hy); apply (BD y Hy).
    rewrite !lsum_map. rewrite (lsum_ext (fun a => G i (fst a) / G i p * (mc (fst a) * mono x 0 dl)) (fun a => G j (snd a) / G j q * (mc (snd a) * mono x 0 dr)) D).
    2:{ intros y Hy. rewrite (DD y Hy). destruct (BD y Hy) as (_ & _ & ->). reflexivity. }
    unfold mc. rewrite <- !mono_eadd.
    * rewrite K9. ring.
    * rewrite K10. symmetry. apply Nat.eqb_eq. unfold shiftb in K1. now apply andb_prop in K1 as [-> _].
    * rewrite K11. symmetry. apply Nat.eqb_eq. unfold shiftb in K2. now apply andb_prop in K2 as [-> _].
Qed.
(** entries that are known to vanish leave the support *)
Definition prune (r : nat) (l : list nat) (st : supp * list (nat * nat)) : supp * list (nat * nat) :=
  (set_nth r (row_of nc (fun c => sget (fst st) r c && negb (memb c l))) (fst st), snd st).
Lemma prune_sound r l st G : (r < nr)%nat -> ginv nr nc es x G st -> (forall c, In c l -> G r c = 0) -> ginv nr nc es x G (prune r l st).
Proof.
  intros Hr [IL IZ IO IR] Z. split; cbn [prune fst snd]; auto.
  - now rewrite set_nth_length.
  - intros r' c Hr' Hc. rewrite sget_set by (auto; now rewrite IL). destruct (Nat.eqb_spec r' r) as [->|]; [|now apply IZ].
    intro E. apply andb_false_iff in E as [E|E]; [now apply IZ|]. apply Z. apply memb_In. now apply negb_false_iff.
Qed.
End Checker.
