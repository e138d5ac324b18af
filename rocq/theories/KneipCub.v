(** The first S-polynomials of fivept_kneip and the inline reductions after
    them: most of the resulting row vanishes because of the linear relations
    between the entries of the initial rows. *)
From Coq Require Import Reals Lra Lia List Arith NArith ZArith Bool.
From Verif Require Import Lin GenLin GbModel GbProps KneipOps KneipData KneipModel KneipForms KneipRow KneipGb KneipChk.
Import ListNotations.
Local Open Scope R_scope.

(** * Linear forms *)
Fixpoint axpy (z : Z) (g f : list Z) : list Z :=
  match f, g with
  | a :: f, b :: g => (a + z * b)%Z :: axpy z g f
  | f, [] => f
  | [], g => map (Z.mul z) g
  end.
Fixpoint lev (f : list Z) (v : nat -> R) : R :=
  match f with [] => 0 | z :: f => IZR z * v 0%nat + lev f (fun k => v (S k)) end.
Definition unitf (k : nat) : list Z := repeat 0%Z k ++ [1%Z].
Definition dense (f : list (nat * Z)) : list Z := fold_right (fun e F => axpy (snd e) (unitf (fst e)) F) [] f.
Lemma lev_map z g : forall v, lev (map (Z.mul z) g) v = IZR z * lev g v.
Proof. induction g as [|b g IH]; intro v; cbn [map lev]; [ring|]. rewrite IH, mult_IZR. ring. Qed.
Lemma lev_axpy z f : forall g v, lev (axpy z g f) v = lev f v + IZR z * lev g v.
Proof.
  induction f as [|a f IH]; intros [|b g] v; cbn [axpy lev]; try ring.
  - rewrite (lev_map z (b :: g)). cbn [lev]. ring.
  - rewrite IH, plus_IZR, mult_IZR. ring.
Qed.
Lemma lev_unitf k : forall v, lev (unitf k) v = v k.
Proof. induction k as [|k IH]; intro v; [cbn; ring|]. change (unitf (S k)) with (0%Z :: unitf k). cbn [lev]. rewrite IH. ring. Qed.
Lemma lev_dense f v : lev (dense f) v = rsum (map (fun t => IZR (snd t) * v (fst t)) f).
Proof.
  induction f as [|[k z] f IH]; [reflexivity|]. change (dense ((k, z) :: f)) with (axpy z (unitf k) (dense f)).
  rewrite lev_axpy, lev_unitf, IH. cbn [map fst snd]. unfold rsum. cbn [fold_right]. ring.
Qed.
Lemma lev_ext f : forall v w, (forall k, v k = w k) -> lev f v = lev f w.
Proof. induction f as [|a f IH]; intros v w E; [reflexivity|]. cbn [lev]. rewrite E, (IH _ (fun k => w (S k))); auto. Qed.
Lemma lev_comb f : forall a b x y, lev f (fun k => a k / x - b k / y) = lev f a / x - lev f b / y.
Proof. induction f as [|z f IH]; intros; cbn [lev]; [unfold Rdiv; ring|]. rewrite (IH (fun k => a (S k)) (fun k => b (S k))). unfold Rdiv. ring. Qed.
Lemma lev_div f : forall a x, lev f (fun k => a k / x) = lev f a / x.
Proof. induction f as [|z f IH]; intros; cbn [lev]; [unfold Rdiv; ring|]. rewrite (IH (fun k => a (S k))). unfold Rdiv. ring. Qed.
Definition zerof (f : list Z) : bool := forallb (Z.eqb 0) f.
Lemma lev_zerof f : forall v, zerof f = true -> lev f v = 0.
Proof.
  induction f as [|a f IH]; intros v H; [reflexivity|]. change (Z.eqb 0 a && zerof f = true) in H. apply andb_prop in H as [H1 H2]. apply Z.eqb_eq in H1. subst a.
  cbn [lev]. rewrite IH by auto. ring.
Qed.

(** * The entries of a row in terms of the parameters *)
Definition cell_form (c : nat) : list Z := match find (fun e => Nat.eqb (fst e) c) kn_form with Some e => dense (snd e) | None => [] end.
Lemma at_none l c : ~ In c (map fst l) -> kn_at l c = 0.
Proof.
  intro N. unfold kn_at. destruct (find _ l) as [e|] eqn:E; auto. apply find_some in E as [I E]. apply Nat.eqb_eq in E.
  exfalso. apply N. rewrite <- E. now apply in_map.
Qed.
Lemma relations_lev (r : nat -> R) (fs : list (nat * list (nat * Z))) (par : list nat) c :
  Forall (fun e => r (fst e) = rsum (map (fun t => IZR (snd t) * r (nth (fst t) par 0%nat)) (snd e))) fs -> (~ In c (map fst fs) -> r c = 0) ->
  r c = lev (match find (fun e => Nat.eqb (fst e) c) fs with Some e => dense (snd e) | None => [] end) (fun k => r (nth k par 0%nat)).
Proof.
  intros F Z. destruct (find _ fs) as [e|] eqn:E.
  - apply find_some in E as [I E]. apply Nat.eqb_eq in E. subst c. rewrite Forall_forall in F. rewrite lev_dense. exact (F e I).
  - cbn [lev]. apply Z. intro I. apply in_map_iff in I as (x & Ex & Ix). pose proof (find_none _ _ E _ Ix) as Q. cbn beta in Q.
    rewrite Ex, Nat.eqb_refl in Q. discriminate.
Qed.
Lemma cell_lev p0 p1 p2 q0 q1 q2 c : let r := kn_at (kn_row p0 p1 p2 q0 q1 q2) in r c = lev (cell_form c) (fun k => r (nth k kn_par 0%nat)).
Proof.
  intro r. apply relations_lev; [exact (row_relations p0 p1 p2 q0 q1 q2)|].
  intro N. apply at_none. rewrite row_keys. exact N.
Qed.
Definition zat (l : list (nat * Z)) (c : nat) : Z := match find (fun e => Nat.eqb (fst e) c) l with Some e => snd e | None => 0%Z end.
Definition zc (r c : nat) : Z := zat (crow kn_constZ r) c.
Lemma zat_ok l c : kn_at (map (fun e => (fst e, IZR (snd e))) l) c = IZR (zat l c).
Proof. unfold kn_at, zat. induction l as [|e l IH]; [reflexivity|]. cbn [map find fst snd]. destruct (Nat.eqb (fst e) c); [reflexivity|exact IH]. Qed.
Lemma const_zc r c : gcells kn_const r c = IZR (zc r c).
Proof. rewrite gcells_at, const_Z, crow_map. apply zat_ok. Qed.

(** * Inline reductions on forms *)
Fixpoint fput (l : list (list Z)) (c : nat) (f : list Z) : list (list Z) :=
  match l, c with [], _ => [] | _ :: l, O => f :: l | a :: l, S c => a :: fput l c f end.
Lemma fput_nth l : forall c f k, (k < length l)%nat -> nth k (fput l c f) [] = if Nat.eqb k c then f else nth k l [].
Proof. induction l as [|a l IH]; intros c f k H; [cbn in H; lia|]. destruct c, k; cbn; auto. apply IH. cbn in H. lia. Qed.
Lemma fput_length l : forall c f, length (fput l c f) = length l.
Proof. induction l; destruct c; cbn; auto. Qed.
Definition finl (c0 : nat) (neg : bool) (s : nat) (ps : list (nat * nat)) (F : list (list Z)) : list (list Z) :=
  let f := nth c0 F [] in
  fold_left (fun F e => let z := zc s (snd e) in if Z.eqb z 0 then F else fput F (fst e) (axpy (if neg then z else - z)%Z f (nth (fst e) F []))) ps (fput F c0 []).
Definition fstep (i : kinstr) (F : list (list Z)) : list (list Z) :=
  match i with CI k t => let '(c0, neg, s, ps) := nth k kn_inls (0%nat, false, 0%nat, []) in finl c0 neg s ps F | _ => F end.
Definition inl_on (t : nat) (i : kinstr) : bool :=
  match i with CI k t' => Nat.eqb t' t && let '(c0, neg, s, ps) := nth k kn_inls (0%nat, false, 0%nat, []) in Nat.leb 10 s && Nat.ltb s 30 && Nat.ltb c0 197
  | _ => false end.

Definition frel (v : nat -> R) (F : list (list Z)) (G : gmat) (t : nat) : Prop :=
  length F = 197%nat /\ forall c, (c < 197)%nat -> G t c = lev (nth c F []) v.
Definition consts (G : gmat) : Prop := forall r c, (10 <= r < 30)%nat -> G r c = IZR (zc r c).

Lemma frel_put v F G t c f x : frel v F G t -> x = lev f v -> frel v (fput F c f) (gset G t c x) t.
Proof.
  intros [L E] X. split; [now rewrite fput_length|]. intros k Hk. rewrite gset_row, fput_nth by lia. destruct (Nat.eqb k c); auto.
Qed.
Lemma finl_fold v t s factor f (neg : bool) (zf : nat -> Z) ps : t <> s -> (forall x, factor * x = lev f v * ((if neg then -1 else 1) * x)) ->
  forall F G, frel v F G t -> (forall c, G s c = IZR (zf c)) ->
  let H := fold_left (fun H e => gset H t (fst e) (H t (fst e) - factor * H s (snd e))) ps G in
  frel v (fold_left (fun F e => let z := zf (snd e) in if Z.eqb z 0 then F else fput F (fst e) (axpy (if neg then z else - z)%Z f (nth (fst e) F []))) ps F) H t
  /\ forall r c, r <> t -> H r c = G r c.
Proof.
  intros Nts Ef. induction ps as [|[ct cs] ps IH]; intros F H R0 C0; cbn [fold_left fst snd]; [auto|]. cbv zeta.
  set (H1 := gset H t ct (H t ct - factor * H s cs)).
  set (F1 := if Z.eqb (zf cs) 0 then F else fput F ct (axpy (if neg then zf cs else - zf cs)%Z f (nth ct F []))).
  assert (N1 : forall r c, r <> t -> H1 r c = H r c) by (intros; now apply gset_other).
  destruct (IH F1 H1) as [I1 I2].
  - unfold F1, H1. destruct (Z.eqb_spec (zf cs) 0) as [Z0|_].
    + destruct R0 as [L0 R0]. split; auto. intros k Hk. rewrite gset_row. destruct (Nat.eqb_spec k ct) as [->|]; auto.
      rewrite C0, Z0, R0 by auto. ring.
    + destruct (Nat.ltb_spec ct 197) as [Hct|Hct].
      * apply frel_put; auto. rewrite C0, Ef, lev_axpy. destruct R0 as [L0 R0]. rewrite R0 by auto.
        destruct neg; [|rewrite opp_IZR]; ring.
      * destruct R0 as [L0 R0]. split; [now rewrite fput_length|]. intros k Hk. rewrite gset_row, fput_nth by lia.
        assert (k <> ct) as N by lia. apply Nat.eqb_neq in N. rewrite N. now apply R0.
  - intro c. rewrite N1 by auto. apply C0.
  - split; [exact I1|]. intros r c Hr. cbv zeta in I2. rewrite I2, N1 by auto. reflexivity.
Qed.
Lemma finl_ok v F G t c0 neg s ps : (30 <= t)%nat -> (10 <= s < 30)%nat -> (c0 < 197)%nat -> consts G -> frel v F G t ->
  exists H, kstep (KI t c0 neg s ps) G = Some H /\ frel v (finl c0 neg s ps F) H t /\ forall r c, r <> t -> H r c = G r c.
Proof.
  intros Ht Hs Hc0 C R. eexists. split; [reflexivity|].
  assert (Ef : forall x, (if neg then - G t c0 else G t c0) * x = lev (nth c0 F []) v * ((if neg then -1 else 1) * x)).
  { intro x. destruct R as [_ R]. rewrite <- R by auto. destruct neg; ring. }
  destruct (finl_fold v t s (if neg then - G t c0 else G t c0) (nth c0 F []) neg (zc s) ps ltac:(lia) Ef (fput F c0 []) (gset G t c0 0)) as [A B].
  - apply frel_put; auto.
  - intro c. rewrite gset_other by lia. apply C. lia.
  - split; [exact A|]. intros r c Hr. cbv zeta in B. rewrite B by auto. now apply gset_other.
Qed.
Lemma fsteps_ok v t l : (30 <= t)%nat -> forallb (inl_on t) l = true -> forall F G H, consts G -> frel v F G t -> krun (map kn_op l) G = Some H ->
  frel v (fold_left (fun F i => fstep i F) l F) H t /\ forall r c, r <> t -> H r c = G r c.
Proof.
  intro Ht. induction l as [|i l IH]; intros B F G H C R K; cbn [map krun fold_left] in *; [injection K as <-; auto|].
  cbn [forallb] in B. apply andb_prop in B as [B1 B2].
  destruct i as [k|k t'|k t'|r c|t' c s]; try discriminate B1. cbn [inl_on] in B1. apply andb_prop in B1 as [B1 B3]. apply Nat.eqb_eq in B1. subst t'.
  cbn [fstep kn_op] in *. destruct (nth k kn_inls (0%nat, false, 0%nat, [])) as [[[c0 neg] s] ps].
  apply andb_prop in B3 as [B3 B5]. apply andb_prop in B3 as [B3 B4]. apply Nat.leb_le in B3. apply Nat.ltb_lt in B4, B5.
  destruct (finl_ok v F G t c0 neg s ps Ht (conj B3 B4) B5 C R) as (G1 & E1 & R1 & N1). rewrite E1 in K.
  destruct (IH B2 _ _ _ (fun r c Hr => eq_trans (N1 r c ltac:(lia)) (C r c Hr)) R1 K) as [R2 N2]. split; auto.
  intros r c Hr. now rewrite N2, N1.
Qed.

(** * The S-polynomials 30 to 39 *)
Lemma spoly_at t i p j q e : t <> i -> t <> j -> NoDup (map (fun x => fst (fst x)) e) -> forall G,
  let H := fold_left (fun H e => gset H t (fst (fst e)) (gterm H i p (snd (fst e)) - gterm H j q (snd e))) e G in
  (forall r k, r <> t -> H r k = G r k) /\
  forall c, H t c = match find (fun x => Nat.eqb (fst (fst x)) c) e with Some x => gterm G i p (snd (fst x)) - gterm G j q (snd x) | None => G t c end.
Proof.
  intros Ni Nj. induction e as [|[[c a] b] e IH]; intros ND G; cbn [fold_left fst snd]; [auto|].
  inversion ND as [|? ? Nc ND']; subst. destruct (IH ND' (gset G t c (gterm G i p a - gterm G j q b))) as [I1 I2]. split.
  - intros r k Hr. rewrite I1 by auto. now apply gset_other.
  - intro k. rewrite I2. cbn [find fst snd]. destruct (Nat.eqb_spec c k) as [->|N].
    + destruct (find _ e) as [y|] eqn:E.
      * exfalso. apply find_some in E as [I E]. apply Nat.eqb_eq in E. apply Nc. cbn in *. rewrite <- E. now apply (in_map (fun x => fst (fst x))).
      * rewrite gset_row, Nat.eqb_refl. reflexivity.
    + rewrite gset_row. replace (Nat.eqb k c) with false by (symmetry; apply Nat.eqb_neq; congruence).
      destruct (find _ e) as [[[c' a'] b']|]; [|reflexivity]. cbn [fst snd].
      assert (T : forall r x y, r <> t -> gterm (gset G t c (gterm G i p a - gterm G j q b)) r x y = gterm G r x y).
      { intros r x [y|] Hr; cbn [gterm]; auto. now rewrite !gset_other by auto. }
      now rewrite !T by auto.
Qed.
(** the columns the S-polynomials 30 to 38 assign *)
Definition cov : list nat := match kn_s30 with GS _ _ _ _ _ e => map (fun x => fst (fst x)) e | _ => [] end.
Definition same (x : nat * option nat * option nat) : bool :=
  match x with (c, Some a, Some b) => Nat.eqb a c && Nat.eqb b c | _ => false end.
Definition leq (a b : list nat) : bool := if list_eq_dec Nat.eq_dec a b then true else false.
Definition diff_ok (k : nat) : bool :=
  match nth k kn_spolys (GE 0 0 0) with
  | GS t i p j q e => Nat.eqb t (30 + k) && Nat.eqb i k && Nat.eqb p 0 && Nat.eqb j (S k) && Nat.eqb q 0 && leq (map (fun x => fst (fst x)) e) cov && forallb same e
  | _ => false end.
Definition cov_ok : bool :=
  nodupm cov 0 && forallb (fun c => memb c cov || Nat.eqb c 0 || Nat.eqb c 7 || match cell_form c with [] => true | _ => false end) (seq 0 197).
Lemma diffs_ok : forallb diff_ok (seq 0 9) = true. Proof. vm_compute. reflexivity. Qed.
Lemma cov_is_ok : cov_ok = true. Proof. vm_compute. reflexivity. Qed.
Definition forms30 : list (list Z) := map (fun c => if memb c cov then cell_form c else []) (seq 0 197).
Definition forms39 : list (list Z) :=
  match kn_s39 with
  | GS _ _ _ _ _ e => map (fun c => match find (fun x => Nat.eqb (fst (fst x)) c) e with
      | Some x => axpy (match snd x with Some d => - zc 14 d | None => 0 end)%Z (unitf 0) (match snd (fst x) with Some a => cell_form a | None => [] end)
      | None => [] end) (seq 0 197)
  | _ => [] end.
(** what is left after the inline reductions *)
Definition wide : N := mask (seq 152 19 ++ [172; 173]%nat ++ seq 175 12 ++ seq 188 9).
Definition full : N := mask (seq 0 197).
Definition left_ok (F : list (list Z)) : bool := forallb (fun c => has wide c || zerof (nth c F [])) (seq 0 197).
Lemma left30 : left_ok (fold_left (fun F i => fstep i F) (kn_cubic 30) forms30) = true.
Proof. vm_cast_no_check (@eq_refl bool true). Qed.
Lemma left39 : left_ok (fold_left (fun F i => fstep i F) kn_cubic39 forms39) = true.
Proof. vm_cast_no_check (@eq_refl bool true). Qed.
