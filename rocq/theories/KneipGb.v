(** A checker for the template of fivept_kneip, with the possible nonzero
    entries of a row kept as a bit mask, and its soundness. *)
From Coq Require Import Reals Lra Lia List Arith NArith ZArith Bool.
From Verif Require Import Lin GenLin GbModel GbProps KneipOps KneipData KneipModel KneipForms KneipRow.
Import ListNotations.
Local Open Scope R_scope.

(** * Masks *)
Definition bit (c : nat) : N := N.setbit 0 (N.of_nat c).
Definition has (m : N) (c : nat) : bool := N.testbit m (N.of_nat c).
Definition mask (l : list nat) : N := fold_right (fun c m => N.setbit m (N.of_nat c)) 0%N l.
Definition subm (a b : N) : bool := N.eqb (N.ldiff a b) 0.
Fixpoint nodupm (l : list nat) (seen : N) : bool :=
  match l with [] => true | c :: l => negb (has seen c) && nodupm l (N.setbit seen (N.of_nat c)) end.

Lemma has_setbit m c k : has (N.setbit m (N.of_nat c)) k = Nat.eqb k c || has m k.
Proof.
  unfold has. rewrite N.setbit_eqb. f_equal. destruct (Nat.eqb_spec k c) as [->|E]; [apply N.eqb_refl|].
  apply N.eqb_neq. intro Q. apply Nat2N.inj in Q. congruence.
Qed.
Lemma has_bit c k : has (bit c) k = Nat.eqb k c.
Proof. unfold bit. rewrite has_setbit. unfold has. rewrite N.bits_0. now rewrite orb_false_r. Qed.
Lemma has_mask l k : has (mask l) k = memb k l.
Proof.
  induction l as [|c l IH]; cbn [mask fold_right memb existsb]; [unfold has; apply N.bits_0|]. fold (mask l). rewrite has_setbit, IH. reflexivity.
Qed.
Lemma has_lor a b k : has (N.lor a b) k = has a k || has b k. Proof. apply N.lor_spec. Qed.
Lemma has_ldiff a b k : has (N.ldiff a b) k = has a k && negb (has b k). Proof. apply N.ldiff_spec. Qed.
Lemma subm_ok a b k : subm a b = true -> has b k = false -> has a k = false.
Proof.
  unfold subm. intro H. apply N.eqb_eq in H. intro B. pose proof (has_ldiff a b k) as L. rewrite H in L. unfold has at 1 in L. rewrite N.bits_0, B in L.
  destruct (has a k); auto; discriminate.
Qed.
Lemma nodupm_ok l : forall seen, nodupm l seen = true -> NoDup l /\ forall c, In c l -> has seen c = false.
Proof.
  induction l as [|a l IH]; cbn [nodupm]; intros seen H; [split; [constructor|intros ? []]|].
  apply andb_prop in H as [H1 H2]. apply negb_true_iff in H1. destruct (IH _ H2) as [ND A]. split.
  - constructor; auto. intro I. specialize (A a I). rewrite has_setbit, Nat.eqb_refl in A. discriminate.
  - intros c [<-|I]; auto. specialize (A c I). rewrite has_setbit in A. now apply orb_false_iff in A as [_ A].
Qed.

Ltac split_and H := repeat match type of H with _ && _ = true => let H' := fresh "K" in apply andb_prop in H as [H H'] end.

(** * One reduction *)
Section Row.
Variables (nc nv : nat) (es : list (list nat)) (x : nat -> R).
Local Notation val := (row_value nc es x).
Definition pat_ok (c0 p : nat) (ps : list (nat * nat)) : bool :=
  nodupm (c0 :: map fst ps) 0 && nodupm (p :: map snd ps) 0 && shiftb nc nv es (esub (ex es c0) (ex es p)) ((c0, p) :: ps).
Lemma reduce G t s c0 p f ps : t <> s -> pat_ok c0 p ps = true ->
  (forall c, (c < nc)%nat -> has (mask (p :: map snd ps)) c = false -> G s c = 0) -> f * G s p = G t c0 ->
  let H := fold_left (fun H e => gset H t (fst e) (H t (fst e) - f * H s (snd e))) ps (gset G t c0 0) in
  (forall r k, r <> t -> H r k = G r k) /\ (forall k, has (mask (map fst ps)) k = false -> k <> c0 -> H t k = G t k) /\
  H t c0 = 0 /\ val H t = val G t - f * mono x 0 (esub (ex es c0) (ex es p)) * val G s.
Proof.
  intros Nts Pk Z F. unfold pat_ok in Pk. apply andb_prop in Pk as [Pk Sh]. apply andb_prop in Pk as [K2 K1].
  apply nodupm_ok in K1 as [K1 _]. apply nodupm_ok in K2 as [K2 _].
  inversion K2 as [|? ? Nc0 NDf]; subst. destruct (red_fold t s f ps (gset G t c0 0) Nts NDf) as (F1 & F2). intro H.
  change (fold_left (fun H e => gset H t (fst e) (H t (fst e) - f * H s (snd e))) ps (gset G t c0 0)) with H in F1, F2.
  assert (Off : forall k, ~ In k (map fst ps) -> lsum (fun y => at_col (fst y) k (G s (snd y))) ps = 0).
  { intros k Hk. rewrite (lsum_ext _ (fun _ => 0 * 0) ps); [rewrite (lsum_scale 0 (fun _ => 0)); ring|].
    intros y Hy. unfold at_col. destruct (Nat.eqb_spec k (fst y)) as [Eq|]; [|ring]. exfalso. apply Hk. rewrite Eq. now apply in_map. }
  assert (F2' : forall k, H t k = (if Nat.eqb k c0 then 0 else G t k) - f * lsum (fun y => at_col (fst y) k (G s (snd y))) ps).
  { intro k. rewrite F2, gset_row. rewrite (lsum_ext _ (fun y => at_col (fst y) k (G s (snd y))) ps) by (intros y _; now rewrite gset_other by auto). reflexivity. }
  assert (Row : forall k, H t k = G t k - f * lsum (fun y => at_col (fst y) k (G s (snd y))) ((c0, p) :: ps)).
  { intro k. rewrite F2'. cbn [lsum fst snd]. unfold at_col at 2. destruct (Nat.eqb_spec k c0) as [->|]; [rewrite <- F|]; ring. }
  split; [|split; [|split]].
  - intros r k N. rewrite F1 by auto. now apply gset_other.
  - intros k Hk N. rewrite F2'. apply Nat.eqb_neq in N. rewrite N, Off; [ring|]. intro I. apply memb_In in I. rewrite has_mask in Hk. congruence.
  - rewrite F2', Nat.eqb_refl, Off by auto. ring.
  - unfold row_value at 1. rewrite (sumn_ext _ _ (fun k => G t k * mc es x k - f * (lsum (fun y => at_col (fst y) k (G s (snd y))) ((c0, p) :: ps) * mc es x k))).
    2:{ intros k Hk. rewrite Row. unfold mc, ex. ring. }
    rewrite sumn_sub, sumn_scale. change (sumn nc (fun k => G t k * mc es x k)) with (val G t).
    assert (Bd : forall y, In y ((c0, p) :: ps) -> (fst y < nc)%nat).
    { intros y Hy. unfold shiftb in Sh. apply andb_prop in Sh as [_ Q]. rewrite forallb_forall in Q. specialize (Q y Hy).
      apply andb_prop in Q as [Q _]. apply andb_prop in Q as [Q _]. apply andb_prop in Q as [Q _]. now apply Nat.ltb_lt in Q. }
    rewrite (sumn_lsum nc ((c0, p) :: ps) (G s) (mc es x) Bd).
    rewrite (shifted 0%nat nc nv es x G s ((c0, p) :: ps) (esub (ex es c0) (ex es p)) Sh K1); [ring|].
    intros c Hc Nc. apply Z; auto. rewrite has_mask. destruct (memb c (p :: map snd ps)) eqn:E; auto. apply memb_In in E. contradiction.
Qed.

(** * One S-polynomial *)
Definition spoly_ok (t i p j q : nat) (e : list (nat * option nat * option nat)) : bool :=
  let dl := esub (emax (ex es p) (ex es q)) (ex es p) in
  let dr := esub (emax (ex es p) (ex es q)) (ex es q) in
  negb (Nat.eqb t i) && negb (Nat.eqb t j) && Nat.ltb p nc && Nat.ltb q nc && Nat.eqb (length (ex es p)) nv && Nat.eqb (length (ex es q)) nv
  && eeqb (eadd (ex es p) dl) (eadd (ex es q) dr)
  && nodupm (map (fun x => fst (fst x)) e) 0 && nodupm (p :: map snd (pairs_l e)) 0 && nodupm (q :: map snd (pairs_r e)) 0
  && shiftb nc nv es dl (pairs_l e) && shiftb nc nv es dr (pairs_r e).
Lemma spoly G t i p j q e : spoly_ok t i p j q e = true -> G i p <> 0 -> G j q <> 0 ->
  (forall c, (c < nc)%nat -> has (mask (p :: map snd (pairs_l e))) c = false -> G i c = 0) ->
  (forall c, (c < nc)%nat -> has (mask (q :: map snd (pairs_r e))) c = false -> G j c = 0) ->
  (forall c, (c < nc)%nat -> G t c = 0) -> val G i = 0 -> val G j = 0 ->
  let H := fold_left (fun H e => gset H t (fst (fst e)) (gterm H i p (snd (fst e)) - gterm H j q (snd e))) e G in
  (forall r k, r <> t -> H r k = G r k) /\ (forall k, (k < nc)%nat -> has (mask (map (fun x => fst (fst x)) e)) k = false -> H t k = 0) /\ val H t = 0.
Proof.
  intros B Ni Nj Zi Zj Zt Vi Vj. unfold spoly_ok in B. cbv zeta in B. split_and B.
  apply negb_true_iff, Nat.eqb_neq in B, K9. apply Nat.ltb_lt in K8, K7. apply Nat.eqb_eq in K6, K5. apply eeqb_eq in K4.
  apply nodupm_ok in K3 as [K3 _], K2 as [K2 _], K1 as [K1 _].
  destruct (spoly_fold 0%nat x t i p j q e G B K9 K3) as (F1 & F2 & F3). intro H.
  change (fold_left (fun H e => gset H t (fst (fst e)) (gterm H i p (snd (fst e)) - gterm H j q (snd e))) e G) with H in F1, F2, F3.
  split; [exact F1|]. split.
  { intros k Hk M. rewrite F2; auto. intro I. apply memb_In in I. rewrite has_mask in M. congruence. }
  unfold row_value.
  transitivity (sumn nc (fun k => lsum (fun x => at_col (fst x) k (G i (snd x) / G i p)) (pairs_l e) * mc es x k)
              - sumn nc (fun k => lsum (fun x => at_col (fst x) k (G j (snd x) / G j q)) (pairs_r e) * mc es x k)).
  { rewrite <- sumn_sub. apply sumn_ext. intros k Hk. fold (ex es k). fold (mc es x k).
    destruct (in_dec Nat.eq_dec k (map (fun x => fst (fst x)) e)) as [Ik|Nk].
    - rewrite F3 by auto. ring.
    - rewrite F2 by auto. rewrite Zt by auto.
      rewrite (lsum_ext _ (fun _ => 0 * 0) (pairs_l e)), (lsum_ext _ (fun _ => 0 * 0) (pairs_r e)).
      + rewrite !(lsum_scale 0 (fun _ => 0)). ring.
      + intros y Hy. unfold at_col. destruct (Nat.eqb_spec k (fst y)) as [Eq|]; [|ring]. exfalso. apply Nk.
        apply in_flat_map in Hy as (z & Hz & Hy). destruct (snd z); [|destruct Hy]. destruct Hy as [<-|[]]. cbn in Eq. subst.
        now apply (in_map (fun x => fst (fst x)) e z).
      + intros y Hy. unfold at_col. destruct (Nat.eqb_spec k (fst y)) as [Eq|]; [|ring]. exfalso. apply Nk.
        apply in_flat_map in Hy as (z & Hz & Hy). destruct (snd (fst z)); [|destruct Hy]. destruct Hy as [<-|[]]. cbn in Eq. subst.
        now apply (in_map (fun x => fst (fst x)) e z). }
  set (dl := esub (emax (ex es p) (ex es q)) (ex es p)) in *. set (dr := esub (emax (ex es p) (ex es q)) (ex es q)) in *.
  assert (Bd : forall d l, shiftb nc nv es d l = true -> length d = nv /\ forall y, In y l -> (fst y < nc)%nat).
  { intros d l Q. unfold shiftb in Q. apply andb_prop in Q as [Q1 Q]. apply Nat.eqb_eq in Q1. split; auto. intros y Hy. rewrite forallb_forall in Q. specialize (Q y Hy).
    apply andb_prop in Q as [Q _]. apply andb_prop in Q as [Q _]. apply andb_prop in Q as [Q _]. now apply Nat.ltb_lt in Q. }
  destruct (Bd _ _ K0) as [Ll Bl]. destruct (Bd _ _ K) as [Lr Br].
  rewrite (sumn_lsum nc (pairs_l e) (fun a => G i a / G i p) (mc es x) Bl), (sumn_lsum nc (pairs_r e) (fun a => G j a / G j q) (mc es x) Br).
  assert (Side : forall i p d l, G i p <> 0 -> (p < nc)%nat -> NoDup (p :: map snd l) -> shiftb nc nv es d l = true -> length d = length (ex es p) ->
            (forall c, (c < nc)%nat -> has (mask (p :: map snd l)) c = false -> G i c = 0) -> val G i = 0 ->
            lsum (fun y => G i (snd y) / G i p * mc es x (fst y)) l = - (mc es x p * mono x 0 d)).
  { clear - x nv. intros i p d l Nz Hp ND Sh Ld Z Rv. inversion ND as [|? ? Np ND']; subst.
    assert (Z' : forall c, (c < nc)%nat -> ~ In c (map snd l) -> gset G i p 0 i c = 0).
    { intros c Hc N. rewrite gset_row. destruct (Nat.eqb_spec c p); auto. apply Z; auto. rewrite has_mask.
      destruct (memb c (p :: map snd l)) eqn:E; auto. apply memb_In in E. destruct E as [Eq|I]; [congruence|tauto]. }
    pose proof (shifted 0%nat nc nv es x (gset G i p 0) i l d Sh ND' Z') as Hsh.
    rewrite (lsum_ext _ (fun y => / G i p * (gset G i p 0 i (snd y) * mc es x (fst y)))).
    - rewrite lsum_scale, Hsh. unfold row_value in Rv |- *.
      rewrite (sumn_ext _ _ (fun c => G i c * mono x 0 (nth c es []) - at_col p c (G i p) * mc es x c)).
      + rewrite sumn_sub, Rv, sumn_at by auto. field. auto.
      + intros c Hc. rewrite gset_row. unfold at_col, mc, ex. destruct (Nat.eqb c p) eqn:Eb; [apply Nat.eqb_eq in Eb; subst|]; ring.
    - intros y Hy. rewrite gset_row. destruct (Nat.eqb_spec (snd y) p) as [Eq|].
      + exfalso. apply Np. rewrite <- Eq. now apply in_map.
      + unfold Rdiv. ring. }
  rewrite (Side i p dl (pairs_l e)); auto; try congruence. rewrite (Side j q dr (pairs_r e)); auto; try congruence.
  unfold mc. rewrite <- !mono_eadd by congruence. rewrite K4. ring.
Qed.
End Row.

(** * The template *)
(** the first column of the rows of initMatrix *)
Definition kn_lead (s : nat) : nat :=
  nth (s - 10) [169;166;163;151;148;142;154;172;175;149;164;167;147;146;145;144;143;168;150;165]%nat 0%nat.
Definition red_info (e : nat * nat * nat * list (nat * nat)) : nat * nat * N * N :=
  let '(s, c0, p, ps) := e in (s, c0, mask (p :: map snd ps), mask (map fst ps)).
Definition inl_info (e : nat * bool * nat * list (nat * nat)) : nat * bool * nat * nat * N * N :=
  let '(c0, neg, s, ps) := e in (c0, neg, s, kn_lead s, mask (kn_lead s :: map snd ps), mask (map fst ps)).
Definition spoly_info (o : gop) : nat * nat * nat * nat * nat * N * N * N :=
  match o with GS t i p j q e => (t, i, p, j, q, mask (p :: map snd (pairs_l e)), mask (q :: map snd (pairs_r e)), mask (map (fun x => fst (fst x)) e))
  | _ => (0%nat, 0%nat, 0%nat, 0%nat, 0%nat, 0%N, 0%N, 0%N) end.
Definition red_valid (e : nat * nat * nat * list (nat * nat)) : bool := let '(s, c0, p, ps) := e in pat_ok 197 9 kn_mon c0 p ps.
Definition inl_valid (e : nat * bool * nat * list (nat * nat)) : bool := let '(c0, neg, s, ps) := e in pat_ok 197 9 kn_mon c0 (kn_lead s) ps.
Definition spoly_valid (o : gop) : bool := match o with GS t i p j q e => spoly_ok 197 9 kn_mon t i p j q e | _ => false end.
Lemma reds_valid : forallb red_valid kn_reds = true. Proof. vm_cast_no_check (@eq_refl bool true). Qed.
Lemma inls_valid : forallb inl_valid kn_inls = true. Proof. vm_cast_no_check (@eq_refl bool true). Qed.
Lemma spolys_valid : forallb spoly_valid (skipn 10 kn_spolys) = true. Proof. vm_cast_no_check (@eq_refl bool true). Qed.
