(** Soundness of the Groebner templates: a boolean checker over a template
    (which entries can be nonzero, which monomial each column stands for), and
    the proof that when it accepts, every point at which the initial rows
    vanish is a point at which all rows vanish after the run. *)
From Coq Require Import Reals Lra Lia List Arith Bool.
From Verif Require Import GenLin GbModel.
Import ListNotations.
Local Open Scope R_scope.

(** * Specification *)

(** value at x of the monomial with exponents e *)
Fixpoint mono (x : nat -> R) (k : nat) (e : list nat) : R :=
  match e with [] => 1 | d :: e => x k ^ d * mono x (S k) e end.
(** value at x of the polynomial stored in row r, when column c stands for
    the monomial with exponents [nth c es []] *)
Definition row_value (nc : nat) (es : list (list nat)) (x : nat -> R) (G : gmat) (r : nat) : R :=
  sumn nc (fun c => G r c * mono x 0 (nth c es [])).

(** * The checker *)
Definition supp := list (list bool).
Definition sget (S : supp) (r c : nat) : bool := nth c (nth r S []) false.
Fixpoint set_nth {A} (n : nat) (v : A) (l : list A) : list A :=
  match l, n with [], _ => [] | _ :: l, O => v :: l | a :: l, S n => a :: set_nth n v l end.
Fixpoint nodupb (l : list nat) : bool :=
  match l with [] => true | a :: l => negb (existsb (Nat.eqb a) l) && nodupb l end.
Fixpoint eadd (a b : list nat) : list nat :=
  match a, b with x :: a, y :: b => (x + y)%nat :: eadd a b | _, _ => [] end.
Fixpoint esub (a b : list nat) : list nat :=
  match a, b with x :: a, y :: b => (x - y)%nat :: esub a b | _, _ => [] end.
Fixpoint emax (a b : list nat) : list nat :=
  match a, b with x :: a, y :: b => Nat.max x y :: emax a b | _, _ => [] end.
Fixpoint eeqb (a b : list nat) : bool :=
  match a, b with [], [] => true | x :: a, y :: b => Nat.eqb x y && eeqb a b | _, _ => false end.
Definition memb (c : nat) (l : list nat) : bool := existsb (Nat.eqb c) l.

Section Checker.
Variables (nr nc nv : nat) (es : list (list nat)).
Definition ex (c : nat) : list nat := nth c es [].
(** every pair (ct,cs) multiplies by the monomial d *)
Definition shiftb (d : list nat) (ps : list (nat * nat)) : bool :=
  Nat.eqb (length d) nv &&
  forallb (fun p => Nat.ltb (fst p) nc && Nat.ltb (snd p) nc && Nat.eqb (length (ex (snd p))) nv && eeqb (ex (fst p)) (eadd (ex (snd p)) d)) ps.
Definition coversb (S : supp) (r : nat) (l : list nat) : bool :=
  forallb (fun c => implb (sget S r c) (memb c l)) (seq 0 nc).
Definition pairs_l (e : list (nat * option nat * option nat)) : list (nat * nat) :=
  flat_map (fun x => match snd (fst x) with Some a => [(fst (fst x), a)] | None => [] end) e.
Definition pairs_r (e : list (nat * option nat * option nat)) : list (nat * nat) :=
  flat_map (fun x => match snd x with Some a => [(fst (fst x), a)] | None => [] end) e.
Definition row_of (f : nat -> bool) : list bool := map f (seq 0 nc).

(** supports after one statement group, and the entries known to be one *)
Definition gcheck1 (o : gop) (st : supp * list (nat * nat)) : option (supp * list (nat * nat)) :=
  let (S, ones) := st in
  match o with
  | GS t i p j q e =>
      let dl := esub (emax (ex p) (ex q)) (ex p) in
      let dr := esub (emax (ex p) (ex q)) (ex q) in
      if Nat.ltb t nr && Nat.ltb i nr && Nat.ltb j nr && negb (Nat.eqb t i) && negb (Nat.eqb t j)
         && Nat.ltb p nc && Nat.ltb q nc && Nat.eqb (length (ex p)) nv && Nat.eqb (length (ex q)) nv
         && eeqb (eadd (ex p) dl) (eadd (ex q) dr)
         && coversb S t [] && nodupb (map (fun x => fst (fst x)) e)
         && nodupb (p :: map snd (pairs_l e)) && nodupb (q :: map snd (pairs_r e))
         && coversb S i (p :: map snd (pairs_l e)) && coversb S j (q :: map snd (pairs_r e))
         && shiftb dl (pairs_l e) && shiftb dr (pairs_r e)
         && forallb (fun x => Nat.ltb (fst (fst x)) nc) e
      then Some (set_nth t (row_of (fun c => memb c (map (fun x => fst (fst x)) e))) S,
                 filter (fun rc => negb (Nat.eqb (fst rc) t)) ones)
      else None
  | GR t s c0 p ps =>
      let d := esub (ex c0) (ex p) in
      if Nat.ltb t nr && Nat.ltb s nr && negb (Nat.eqb t s)
         && nodupb (c0 :: map fst ps) && nodupb (p :: map snd ps)
         && coversb S s (p :: map snd ps) && shiftb d ((c0, p) :: ps)
      then Some (set_nth t (row_of (fun c => if Nat.eqb c c0 then false
                                            else sget S t c || existsb (fun x => Nat.eqb (fst x) c && sget S s (snd x)) ps)) S,
                 filter (fun rc => negb (Nat.eqb (fst rc) t)) ones)
      else None
  | GN r c =>
      if Nat.ltb r nr then Some (S, (r, c) :: filter (fun rc => negb (Nat.eqb (fst rc) r)) ones) else None
  | GE t c s =>
      if Nat.ltb t nr && Nat.ltb s nr && negb (Nat.eqb t s)
      then Some (set_nth t (row_of (fun k => (sget S t k || sget S s k)
                                            && negb (Nat.eqb k c && existsb (fun rc => Nat.eqb (fst rc) s && Nat.eqb (snd rc) c) ones))) S,
                 filter (fun rc => negb (Nat.eqb (fst rc) t)) ones)
      else None
  end.
Fixpoint gcheck (os : list gop) (st : supp * list (nat * nat)) : option (supp * list (nat * nat)) :=
  match os with
  | [] => Some st
  | o :: os => match gcheck1 o st with Some st => gcheck os st | None => None end
  end.

(** * Soundness *)
Variable x : nat -> R.
Definition mc (c : nat) : R := mono x 0 (ex c).
Record ginv (G : gmat) (st : supp * list (nat * nat)) : Prop := {
  gi_len : length (fst st) = nr;
  gi_zero : forall r c, (r < nr)%nat -> (c < nc)%nat -> sget (fst st) r c = false -> G r c = 0;
  gi_one : forall r c, In (r, c) (snd st) -> G r c = 1;
  gi_row : forall r, (r < nr)%nat -> row_value nc es x G r = 0 }.

Lemma eeqb_eq a b : eeqb a b = true -> a = b.
Proof.
  revert b; induction a as [|u a IH]; destruct b as [|v b]; cbn; try discriminate; auto.
  intro H. apply andb_prop in H as [H1 H2]. apply Nat.eqb_eq in H1. f_equal; auto.
Qed.
Lemma mono_eadd a b k : length a = length b -> mono x k (eadd a b) = mono x k a * mono x k b.
Proof.
  revert b k; induction a as [|u a IH]; destruct b as [|v b]; cbn; intros k H; try discriminate; [ring|].
  injection H as H. rewrite IH by auto. rewrite pow_add. ring.
Qed.
Lemma memb_In c l : memb c l = true <-> In c l.
Proof. unfold memb. rewrite existsb_exists. split; [intros (y & Hy & E)|intro H; exists c; split; auto; apply Nat.eqb_refl]. apply Nat.eqb_eq in E. now subst. Qed.
Lemma nodupb_NoDup l : nodupb l = true -> NoDup l.
Proof.
  induction l as [|a l IH]; cbn; [constructor|]. intro H. apply andb_prop in H as [H1 H2]. constructor; auto.
  intro I. apply memb_In in I. unfold memb in I. rewrite I in H1. discriminate.
Qed.
Lemma covers S r l : coversb S r l = true -> forall c, (c < nc)%nat -> ~ In c l -> sget S r c = false.
Proof.
  unfold coversb. rewrite forallb_forall. intros H c Hc N. specialize (H c). rewrite in_seq in H. specialize (H ltac:(lia)).
  destruct (sget S r c); auto. cbn in H. apply memb_In in H. tauto.
Qed.
Lemma set_nth_length {A} n (v : A) l : length (set_nth n v l) = length l.
Proof. revert n; induction l as [|a l IH]; destruct n; cbn; auto. Qed.
Lemma nth_set_nth {A} n m (v d : A) l : (n < length l)%nat -> nth m (set_nth n v l) d = if Nat.eqb m n then v else nth m l d.
Proof.
  revert n m; induction l as [|a l IH]; intros n m H; cbn in H; [lia|]. destruct n, m; cbn; auto. apply IH. lia.
Qed.
Lemma sget_set S t f r c : (t < length S)%nat -> (c < nc)%nat ->
  sget (set_nth t (row_of f) S) r c = if Nat.eqb r t then f c else sget S r c.
Proof.
  intros H Hc. unfold sget. rewrite nth_set_nth by auto. destruct (Nat.eqb r t); auto. unfold row_of.
  rewrite nth_indep with (d' := f 0%nat) by (now rewrite map_length, seq_length). rewrite map_nth, seq_nth; auto.
Qed.

(** sums over a list of columns *)
Fixpoint lsum {A} (f : A -> R) (l : list A) : R := match l with [] => 0 | a :: l => f a + lsum f l end.
Lemma lsum_ext {A} (f g : A -> R) l : (forall a, In a l -> f a = g a) -> lsum f l = lsum g l.
Proof. induction l as [|a l IH]; cbn; intro H; auto. rewrite IH by (intros; apply H; auto). rewrite H; auto. Qed.
Lemma lsum_scale {A} k (f : A -> R) l : lsum (fun a => k * f a) l = k * lsum f l.
Proof. induction l as [|a l IH]; cbn; [ring|]. rewrite IH. ring. Qed.
Definition at_col (c : nat) (k : nat) (v : R) : R := if Nat.eqb k c then v else 0.
Lemma sumn_at c v f : (c < nc)%nat -> sumn nc (fun k => at_col c k v * f k) = v * f c.
Proof.
  intro H. rewrite <- (sumn_delta nc c (fun k => v * f k) H). apply sumn_ext. intros i Hi. unfold at_col, delta.
  destruct (Nat.eq_dec i c) as [->|N]; [rewrite Nat.eqb_refl|apply Nat.eqb_neq in N; rewrite N]; ring.
Qed.
Lemma sumn_lsum (ps : list (nat * nat)) (v : nat -> R) f : (forall p, In p ps -> (fst p < nc)%nat) ->
  sumn nc (fun k => lsum (fun p => at_col (fst p) k (v (snd p))) ps * f k) = lsum (fun p => v (snd p) * f (fst p)) ps.
Proof.
  induction ps as [|p ps IH]; cbn; intro H; [apply sumn_0; intros; ring|].
  rewrite <- IH by (intros; apply H; auto). rewrite <- (sumn_at (fst p) (v (snd p)) f) by (apply H; auto).
  rewrite <- sumn_add. apply sumn_ext. intros; ring.
Qed.
Lemma lsum_cover (l : list nat) h : NoDup l -> (forall c, In c l -> (c < nc)%nat) -> (forall c, (c < nc)%nat -> ~ In c l -> h c = 0) ->
  lsum h l = sumn nc h.
Proof.
  revert h; induction l as [|a l IH]; cbn; intros h ND B Z.
  - symmetry. apply sumn_0. intros. now apply Z.
  - inversion ND as [|? ? Na ND']; subst.
    transitivity (h a + lsum (fun c => if Nat.eqb c a then 0 else h c) l).
    { f_equal. apply lsum_ext. intros c Hc. destruct (Nat.eqb_spec c a); [subst; tauto|auto]. }
    rewrite IH; auto.
    + rewrite <- (sumn_delta nc a h) by auto. rewrite <- sumn_add. apply sumn_ext. intros i Hi. unfold delta.
      destruct (Nat.eq_dec i a) as [->|N]; [rewrite Nat.eqb_refl|apply Nat.eqb_neq in N; rewrite N]; ring.
    + intros c Hc N. destruct (Nat.eqb_spec c a); auto. apply Z; auto. intros [E|E]; auto.
Qed.
Lemma lsum_map {A B} (f : B -> R) (g : A -> B) l : lsum f (map g l) = lsum (fun a => f (g a)) l.
Proof. induction l as [|a l IH]; cbn; auto. now rewrite IH. Qed.

(** the sum over all pairs of a shifted row *)
Lemma shifted (G : gmat) s (ps : list (nat * nat)) d :
  shiftb d ps = true -> NoDup (map snd ps) -> (forall c, (c < nc)%nat -> ~ In c (map snd ps) -> G s c = 0) ->
  lsum (fun p => G s (snd p) * mc (fst p)) ps = mono x 0 d * row_value nc es x G s.
Proof.
  intros Hs ND Z. unfold shiftb in Hs. apply andb_prop in Hs as [Ld Hs]. apply Nat.eqb_eq in Ld. rewrite forallb_forall in Hs.
  assert (E : forall p, In p ps -> (fst p < nc)%nat /\ (snd p < nc)%nat /\ mc (fst p) = mc (snd p) * mono x 0 d).
  { intros p Hp. specialize (Hs p Hp). apply andb_prop in Hs as [Hs E]. apply andb_prop in Hs as [Hs L]. apply andb_prop in Hs as [A B].
    apply Nat.ltb_lt in A, B. apply Nat.eqb_eq in L. apply eeqb_eq in E. repeat split; auto. unfold mc. rewrite E. apply mono_eadd. congruence. }
  transitivity (lsum (fun p => mono x 0 d * (G s (snd p) * mc (snd p))) ps).
  { apply lsum_ext. intros p Hp. destruct (E p Hp) as (_ & _ & ->). ring. }
  rewrite lsum_scale. f_equal. rewrite <- (lsum_map (fun c => G s c * mc c) snd ps). unfold row_value. apply lsum_cover; auto.
  - intros c Hc. apply in_map_iff in Hc as (p & <- & Hp). apply (E p Hp).
  - intros c Hc N. rewrite Z; auto. ring.
Qed.

(** what the two fold loops write *)
Lemma gset_other G t c v r k : r <> t -> gset G t c v r k = G r k.
Proof. intro N. unfold gset. apply Nat.eqb_neq in N. now rewrite N. Qed.
Lemma gset_row G t c v k : gset G t c v t k = if Nat.eqb k c then v else G t k.
Proof. unfold gset. now rewrite Nat.eqb_refl. Qed.

Lemma red_fold t s f ps G : t <> s -> NoDup (map fst ps) ->
  let H := fold_left (fun H e => gset H t (fst e) (H t (fst e) - f * H s (snd e))) ps G in
  (forall r k, r <> t -> H r k = G r k) /\
  (forall k, H t k = G t k - f * lsum (fun p => at_col (fst p) k (G s (snd p))) ps).
Proof.
  intro N. revert G; induction ps as [|e ps IH]; cbn; intros G ND; [split; auto; intros; ring|].
  inversion ND as [|? ? Na ND']; subst. destruct (IH (gset G t (fst e) (G t (fst e) - f * G s (snd e))) ND') as [I1 I2]. split.
  - intros r k Hr. rewrite I1 by auto. now apply gset_other.
  - intro k. rewrite I2, gset_row.
    rewrite (lsum_ext _ (fun p => at_col (fst p) k (G s (snd p)))) by (intros p _; now rewrite gset_other by auto).
    unfold at_col at 2. destruct (Nat.eqb_spec k (fst e)) as [->|]; [|ring].
    rewrite (lsum_ext _ (fun _ => 0 * 0)).
    + rewrite (lsum_scale 0 (fun _ => 0)). ring.
    + intros p Hp. unfold at_col. destruct (Nat.eqb_spec (fst e) (fst p)) as [Eq|]; [|ring]. exfalso. apply Na. rewrite Eq. now apply in_map.
Qed.

Lemma spoly_fold t i p j q e G : t <> i -> t <> j -> NoDup (map (fun x => fst (fst x)) e) ->
  let H := fold_left (fun H e => gset H t (fst (fst e)) (gterm H i p (snd (fst e)) - gterm H j q (snd e))) e G in
  (forall r k, r <> t -> H r k = G r k) /\
  (forall k, ~ In k (map (fun x => fst (fst x)) e) -> H t k = G t k) /\
  (forall k, In k (map (fun x => fst (fst x)) e) ->
     H t k = lsum (fun x => at_col (fst x) k (G i (snd x) / G i p)) (pairs_l e) - lsum (fun x => at_col (fst x) k (G j (snd x) / G j q)) (pairs_r e)).
Proof.
  intros Ni Nj. revert G; induction e as [|[[c a] b] e IH]; cbn; intros G ND; [repeat split; auto; tauto|].
  inversion ND as [|? ? Na ND']; subst.
  destruct (IH (gset G t c (gterm G i p a - gterm G j q b)) ND') as (I1 & I2 & I3).
  assert (Pl : forall k, k = c -> forall pv, lsum (fun x => at_col (fst x) k (pv (snd x))) (pairs_l e) = 0).
  { intros k -> pv. rewrite (lsum_ext _ (fun _ => 0 * 0)); [rewrite (lsum_scale 0 (fun _ => 0)); ring|].
    intros y Hy. unfold at_col. destruct (Nat.eqb_spec c (fst y)) as [Eq|]; [|ring]. exfalso. apply Na.
    apply in_flat_map in Hy as (z & Hz & Hy). destruct (snd (fst z)); [|destruct Hy]. destruct Hy as [<-|[]]. cbn in Eq. subst.
    now apply (in_map (fun x => fst (fst x)) e z). }
  assert (Pr : forall k, k = c -> forall pv, lsum (fun x => at_col (fst x) k (pv (snd x))) (pairs_r e) = 0).
  { intros k -> pv. rewrite (lsum_ext _ (fun _ => 0 * 0)); [rewrite (lsum_scale 0 (fun _ => 0)); ring|].
    intros y Hy. unfold at_col. destruct (Nat.eqb_spec c (fst y)) as [Eq|]; [|ring]. exfalso. apply Na.
    apply in_flat_map in Hy as (z & Hz & Hy). destruct (snd z); [|destruct Hy]. destruct Hy as [<-|[]]. cbn in Eq. subst.
    now apply (in_map (fun x => fst (fst x)) e z). }
  split; [|split].
  - intros r k Hr. rewrite I1 by auto. now apply gset_other.
  - intros k Hk. rewrite I2 by tauto. rewrite gset_row. destruct (Nat.eqb_spec k c); [subst; tauto|auto].
  - intros k Hk. unfold pairs_l, pairs_r; cbn [flat_map fst snd]; fold (pairs_l e); fold (pairs_r e).
    destruct (in_dec Nat.eq_dec k (map (fun x => fst (fst x)) e)) as [Ik|Nk].
    + rewrite I3 by auto. assert (k <> c) by (intros ->; tauto).
      rewrite (lsum_ext _ (fun x => at_col (fst x) k (G i (snd x) / G i p))) by (intros y _; now rewrite !gset_other by auto).
      rewrite (lsum_ext (fun x => at_col (fst x) k (_ / _)) (fun x => at_col (fst x) k (G j (snd x) / G j q)) (pairs_r e)) by (intros y _; now rewrite !gset_other by auto).
      assert (Z : forall v, at_col c k v = 0) by (intro v; unfold at_col; apply Nat.eqb_neq in H; now rewrite H).
      destruct a, b; cbn; rewrite ?Z; ring.
    + destruct Hk as [Hk|Hk]; [|tauto]. symmetry in Hk. rewrite I2 by auto. rewrite gset_row, Hk, Nat.eqb_refl.
      assert (L := Pl c eq_refl (fun s => G i s / G i p)). assert (Rr := Pr c eq_refl (fun s => G j s / G j q)). cbn beta in L, Rr.
      destruct a, b; cbn; rewrite L, Rr; unfold at_col; rewrite ?Nat.eqb_refl; ring.
Qed.

Ltac split_and H := repeat match type of H with _ && _ = true => let H' := fresh "K" in apply andb_prop in H as [H H'] end.

Lemma gcheck1_sound o st st' G G' : gcheck1 o st = Some st' -> gstep o G = Some G' -> ginv G st -> ginv G' st'.
Proof.
  destruct st as [S ones]. intros C E [IL IZ IO IR]. cbn [fst snd] in *.
  assert (Fil : forall t (ones : list (nat * nat)) r c, In (r, c) (filter (fun rc => negb (Nat.eqb (fst rc) t)) ones) -> r <> t /\ In (r, c) ones).
  { intros t o' r c Hf. apply filter_In in Hf as [Hf Nt]. cbn in Nt. split; auto. intros ->. now rewrite Nat.eqb_refl in Nt. }
  destruct o as [t i p j q e|t s c0 p ps|r0 c0|t c0 s]; cbn [gcheck1] in C; cbn [gstep] in E.
  - (* sPolynomial *)
    destruct (Req_EM_T (G i p) 0) as [|Ni]; [discriminate|]. destruct (Req_EM_T (G j q) 0) as [|Nj]; [discriminate|].
    match type of C with (if ?b then _ else _) = _ => destruct b eqn:B; [|discriminate] end.
    split_and B. injection C as <-.
    apply Nat.ltb_lt in B, K15, K16, K12, K11. apply negb_true_iff, Nat.eqb_neq in K14, K13. apply Nat.eqb_eq in K10, K9.
    apply eeqb_eq in K8. apply nodupb_NoDup in K6, K5, K4. rewrite forallb_forall in K.
    destruct (spoly_fold t i p j q e G K14 K13 K6) as (F1 & F2 & F3).
    injection E as <-. set (H := fold_left _ e G) in *.
    assert (Zi : forall c, (c < nc)%nat -> ~ In c (map snd ((fst (0,0)%nat, p) :: pairs_l e)) -> G i c = 0).
    { intros c Hc N. apply IZ; auto. apply (covers _ _ _ K3); auto. }
    assert (Zj : forall c, (c < nc)%nat -> ~ In c (map snd ((fst (0,0)%nat, q) :: pairs_r e)) -> G j c = 0).
    { intros c Hc N. apply IZ; auto. apply (covers _ _ _ K2); auto. }
    assert (Zt : forall c, (c < nc)%nat -> G t c = 0).
    { intros c Hc. apply IZ; auto. apply (covers _ _ _ K7); auto. }
    split; cbn [fst snd].
    + now rewrite set_nth_length.
    + intros r c Hr Hc. rewrite sget_set by (auto; now rewrite IL). destruct (Nat.eqb_spec r t) as [->|N].
      * intro M. rewrite F2; auto. intro I. apply memb_In in I. congruence.
      * intro M. rewrite F1; auto.
    + intros r c Hin. apply Fil in Hin as [N Hin]. rewrite F1; auto.
    + intros r Hr. destruct (Nat.eq_dec r t) as [->|N].
      2:{ rewrite <- (IR r Hr). unfold row_value. apply sumn_ext. intros c Hc. now rewrite F1. }
      unfold row_value.
      transitivity (sumn nc (fun k => lsum (fun x => at_col (fst x) k (G i (snd x) / G i p)) (pairs_l e) * mc k)
                  - sumn nc (fun k => lsum (fun x => at_col (fst x) k (G j (snd x) / G j q)) (pairs_r e) * mc k)).
      { rewrite <- sumn_sub. apply sumn_ext. intros k Hk. fold (ex k). fold (mc k).
        destruct (in_dec Nat.eq_dec k (map (fun x => fst (fst x)) e)) as [Ik|Nk].
        - rewrite F3 by auto. ring.
        - rewrite F2 by auto. rewrite Zt by auto.
          rewrite (lsum_ext _ (fun _ => 0 * 0) (pairs_l e)), (lsum_ext _ (fun _ => 0 * 0) (pairs_r e)).
          + rewrite !(lsum_scale 0 (fun _ => 0)). ring.
          + intros y Hy. unfold at_col. destruct (Nat.eqb_spec k (fst y)) as [Eq|]; [|ring]. exfalso. apply Nk.
            apply in_flat_map in Hy as (z & Hz & Hy). destruct (snd z); [|destruct Hy]. destruct Hy as [<-|[]]. cbn in Eq. subst.
            now apply (in_map (fun x => fst (fst x)) e z).
          + intros y Hy. unfold at_col. destruct (Nat.eqb_spec k (fst y)) as [Eq|]; [|ring]. exfalso. apply Nk.
            apply in_flat_map in Hy as (z & Hz & Hy). destruct (snd (fst z)); [|destruct Hy]. destruct Hy as [<-|[]]. cbn in Eq. subst.
            now apply (in_map (fun x => fst (fst x)) e z). }
      assert (Bl : forall y, In y (pairs_l e) -> (fst y < nc)%nat).
      { intros y Hy. apply in_flat_map in Hy as (z & Hz & Hy). destruct (snd (fst z)); [|destruct Hy]. destruct Hy as [<-|[]]. cbn.
        specialize (K z Hz). now apply Nat.ltb_lt in K. }
      assert (Br : forall y, In y (pairs_r e) -> (fst y < nc)%nat).
      { intros y Hy. apply in_flat_map in Hy as (z & Hz & Hy). destruct (snd z); [|destruct Hy]. destruct Hy as [<-|[]]. cbn.
        specialize (K z Hz). now apply Nat.ltb_lt in K. }
      rewrite (sumn_lsum (pairs_l e) (fun a => G i a / G i p) mc Bl), (sumn_lsum (pairs_r e) (fun a => G j a / G j q) mc Br).
      set (dl := esub (emax (ex p) (ex q)) (ex p)) in *. set (dr := esub (emax (ex p) (ex q)) (ex q)) in *.
      assert (Side : forall i p d l, G i p <> 0 -> (p < nc)%nat -> NoDup (p :: map snd l) -> shiftb d l = true -> length d = length (ex p) ->
                (forall c, (c < nc)%nat -> ~ In c (p :: map snd l) -> G i c = 0) -> row_value nc es x G i = 0 ->
                lsum (fun y => G i (snd y) / G i p * mc (fst y)) l = - (mc p * mono x 0 d)).
      { clear - x nr nv. intros i p d l Nz Hp ND Sh Ld Z Rv. inversion ND as [|? ? Np ND']; subst.
        assert (Z' : forall c, (c < nc)%nat -> ~ In c (map snd l) -> gset G i p 0 i c = 0).
        { intros c Hc N. rewrite gset_row. destruct (Nat.eqb_spec c p); auto. apply Z; auto. intros [Eq|I]; [congruence|tauto]. }
        pose proof (shifted (gset G i p 0) i l d Sh ND' Z') as Hsh.
        rewrite (lsum_ext _ (fun y => / G i p * (gset G i p 0 i (snd y) * mc (fst y)))).
        - rewrite lsum_scale, Hsh. unfold row_value in Rv |- *.
          rewrite (sumn_ext _ _ (fun c => G i c * mono x 0 (nth c es []) - at_col p c (G i p) * mc c)).
          + rewrite sumn_sub, Rv, sumn_at by auto. field. auto.
          + intros c Hc. rewrite gset_row. unfold at_col, mc, ex. destruct (Nat.eqb c p) eqn:Eb; [apply Nat.eqb_eq in Eb; subst|]; ring.
        - intros y Hy. rewrite gset_row. destruct (Nat.eqb_spec (snd y) p) as [Eq|].
          + exfalso. apply Np. rewrite <- Eq. now apply in_map.
          + unfold Rdiv. ring. }
      assert (Ll : length dl = nv) by (apply Nat.eqb_eq; unfold shiftb in K1; now apply andb_prop in K1 as [-> _]).
      assert (Lr : length dr = nv) by (apply Nat.eqb_eq; unfold shiftb in K0; now apply andb_prop in K0 as [-> _]).
      rewrite (Side i p dl (pairs_l e)); auto; try congruence. rewrite (Side j q dr (pairs_r e)); auto; try congruence.
      unfold mc. rewrite <- !mono_eadd by congruence. rewrite K8. ring.
  - (* reduction *)
    destruct (Req_EM_T (G s p) 0) as [|Np]; [discriminate|].
    match type of C with (if ?b then _ else _) = _ => destruct b eqn:B; [|discriminate] end.
    split_and B. injection C as <-.
    apply Nat.ltb_lt in B, K4. apply negb_true_iff, Nat.eqb_neq in K3. apply nodupb_NoDup in K2, K1.
    inversion K2 as [|? ? Nc0 NDf]; subst.
    destruct (red_fold t s (G t c0 / G s p) ps (gset G t c0 0) K3 NDf) as (F1 & F2).
    injection E as <-. set (H := fold_left _ ps _) in *.
    assert (Row : forall k, H t k = G t k - G t c0 / G s p * lsum (fun y => at_col (fst y) k (G s (snd y))) ((c0, p) :: ps)).
    { intro k. rewrite F2, gset_row. cbn [lsum fst snd].
      rewrite (lsum_ext _ (fun y => at_col (fst y) k (G s (snd y))) ps) by (intros y _; now rewrite gset_other by auto).
      unfold at_col at 2. destruct (Nat.eqb k c0) eqn:Eb; [apply Nat.eqb_eq in Eb; subst; field; auto|ring]. }
    split; cbn [fst snd].
    + now rewrite set_nth_length.
    + intros r c Hr Hc. rewrite sget_set by (auto; now rewrite IL). destruct (Nat.eqb_spec r t) as [->|N].
      * intro M. rewrite F2, gset_row.
        rewrite (lsum_ext _ (fun y => at_col (fst y) c (G s (snd y))) ps) by (intros y _; now rewrite gset_other by auto).
        rewrite (lsum_ext _ (fun _ => 0 * 0) ps).
        -- rewrite (lsum_scale 0 (fun _ => 0)). destruct (Nat.eqb c c0) eqn:Eb; [ring|]. apply orb_false_iff in M as [M _].
           rewrite (IZ t c) by auto. ring.
        -- intros y Hy. unfold at_col. destruct (Nat.eqb_spec c (fst y)) as [Eq|]; [|ring].
           destruct (Nat.eqb_spec c c0) as [E0|N0]. { exfalso. apply Nc0. rewrite <- E0, Eq. now apply in_map. }
           apply orb_false_iff in M as [_ M]. rewrite IZ; auto; [ring| |].
           ++ unfold shiftb in K. apply andb_prop in K as [_ K]. rewrite forallb_forall in K. specialize (K y (or_intror Hy)).
              apply andb_prop in K as [K _]. apply andb_prop in K as [K _]. apply andb_prop in K as [_ K]. now apply Nat.ltb_lt in K.
           ++ destruct (sget S s (snd y)) eqn:Sg; auto. exfalso. rewrite <- not_true_iff_false in M. apply M.
              apply existsb_exists. exists y. split; auto. rewrite Eq, Nat.eqb_refl, Sg. reflexivity.
      * intro M. rewrite F1 by auto. rewrite gset_other by auto. auto.
    + intros r c Hin. apply Fil in Hin as [N Hin]. rewrite F1 by auto. rewrite gset_other by auto. auto.
    + intros r Hr. destruct (Nat.eq_dec r t) as [->|N].
      2:{ rewrite <- (IR r Hr). unfold row_value. apply sumn_ext. intros c Hc. rewrite F1 by auto. now rewrite gset_other by auto. }
      unfold row_value.
      rewrite (sumn_ext _ _ (fun k => G t k * mc k - G t c0 / G s p * (lsum (fun y => at_col (fst y) k (G s (snd y))) ((c0, p) :: ps) * mc k))).
      2:{ intros k Hk. rewrite Row. unfold mc, ex. ring. }
      rewrite sumn_sub, sumn_scale. change (sumn nc (fun k => G t k * mc k)) with (row_value nc es x G t). rewrite (IR t B).
      assert (Bd : forall y, In y ((c0, p) :: ps) -> (fst y < nc)%nat).
      { intros y Hy. unfold shiftb in K. apply andb_prop in K as [_ K]. rewrite forallb_forall in K. specialize (K y Hy). apply andb_prop in K as [K _]. apply andb_prop in K as [K _]. apply andb_prop in K as [K _]. now apply Nat.ltb_lt in K. }
      rewrite (sumn_lsum ((c0, p) :: ps) (G s) mc Bd).
      rewrite (shifted G s ((c0, p) :: ps) (esub (ex c0) (ex p)) K K1); auto.
      * rewrite (IR s K4). ring.
      * intros c Hc Nc. apply IZ; auto. apply (covers _ _ _ K0); auto.
  - (* normalisation *)
    destruct (Req_EM_T (G r0 c0) 0) as [|Np]; [discriminate|]. destruct (Nat.ltb r0 nr) eqn:B; [|discriminate].
    injection C as <-. injection E as <-. split; cbn [fst snd]; auto.
    + intros r c Hr Hc M. destruct (Nat.eqb r r0); rewrite (IZ r c) by auto; ring.
    + intros r c [Eq|Hin].
      * injection Eq as <- <-. rewrite Nat.eqb_refl. field. auto.
      * apply Fil in Hin as [N Hin]. apply Nat.eqb_neq in N. rewrite N. auto.
    + intros r Hr. unfold row_value. destruct (Nat.eqb r r0).
      * rewrite (sumn_ext _ _ (fun c => 1 / G r0 c0 * (G r c * mono x 0 (nth c es [])))) by (intros; ring).
        rewrite sumn_scale. fold (row_value nc es x G r). rewrite IR by auto. ring.
      * now apply IR.
  - (* elimination *)
    match type of C with (if ?b then _ else _) = _ => destruct b eqn:B; [|discriminate] end.
    split_and B. injection C as <-. injection E as <-.
    apply Nat.ltb_lt in B, K0. apply negb_true_iff, Nat.eqb_neq in K.
    split; cbn [fst snd].
    + now rewrite set_nth_length.
    + intros r c Hr Hc. rewrite sget_set by (auto; now rewrite IL). destruct (Nat.eqb_spec r t) as [->|N]; [|auto].
      intro M. apply andb_false_iff in M as [M|M].
      * apply orb_false_iff in M as [M1 M2]. rewrite (IZ t c), (IZ s c) by auto. ring.
      * apply negb_false_iff, andb_prop in M as [M1 M2]. apply Nat.eqb_eq in M1. subst c.
        apply existsb_exists in M2 as ([r' c'] & Hin & M2). cbn in M2. apply andb_prop in M2 as [M2 M3]. apply Nat.eqb_eq in M2, M3. subst.
        rewrite (IO s c0 Hin). ring.
    + intros r c Hin. apply Fil in Hin as [N Hin]. apply Nat.eqb_neq in N. rewrite N. auto.
    + intros r Hr. unfold row_value. destruct (Nat.eqb_spec r t) as [->|N]; [|now apply IR].
      rewrite (sumn_ext _ _ (fun c => G t c * mono x 0 (nth c es []) - G t c0 * (G s c * mono x 0 (nth c es [])))) by (intros; ring).
      rewrite sumn_sub, sumn_scale. fold (row_value nc es x G t). fold (row_value nc es x G s). rewrite !IR by auto. ring.
Qed.

Lemma gcheck_sound os st st' G G' : gcheck os st = Some st' -> grun os G = Some G' -> ginv G st -> ginv G' st'.
Proof.
  revert st G; induction os as [|o os IH]; cbn; intros st G C E I.
  - injection C as <-. injection E as <-. auto.
  - destruct (gcheck1 o st) eqn:C1; [|discriminate]. destruct (gstep o G) eqn:E1; [|discriminate].
    eapply IH; eauto. eapply gcheck1_sound; eauto.
Qed.
End Checker.
