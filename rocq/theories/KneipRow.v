(** The rows of fivept_kneip/init.cpp. *)
From Coq Require Import Reals Lra Lia List Arith NArith ZArith Bool.
From Verif Require Import Lin GenLin GbModel GbProps KneipOps KneipData KneipModel KneipForms.
Import ListNotations.
Local Open Scope R_scope.

Lemma one_term (x : R) : x = 1 * x + 0. Proof. ring. Qed.
Lemma row_relations p0 p1 p2 q0 q1 q2 : let r := kn_at (kn_row p0 p1 p2 q0 q1 q2) in
  Forall (fun e => r (fst e) = rsum (map (fun t => IZR (snd t) * r (nth (fst t) kn_par 0%nat)) (snd e))) kn_form.
Proof.
  intro r. unfold kn_form, rsum.
  repeat (apply Forall_cons; [lazy beta iota zeta delta [fst snd map fold_right nth kn_par]; first [exact (one_term _)|
    lazy beta iota zeta delta [r kn_at kn_row find fst snd Nat.eqb]; ring]|]).
  apply Forall_nil.
Qed.

(** the value of a row at a matrix *)
Definition kn_x (M : mat3) (k : nat) : R :=
  nth k [m22 M; m21 M; m20 M; m12 M; m11 M; m10 M; m02 M; m01 M; m00 M] 0.
Definition kn_value (M : mat3) (G : gmat) (r : nat) : R := row_value 197 kn_mon (kn_x M) G r.

Lemma sumn_0' n f : (forall c, (c < n)%nat -> f c = 0) -> sumn n f = 0.
Proof. induction n as [|n IH]; cbn; intro H; [reflexivity|]. rewrite IH, H by auto with arith. ring. Qed.
Lemma at_sum n l m : NoDup (map fst l) -> (forall e, In e l -> (fst e < n)%nat) ->
  sumn n (fun c => kn_at l c * m c) = lsum (fun e => snd e * m (fst e)) l.
Proof.
  induction l as [|[k v] l IH]; intros ND B.
  - cbn. apply sumn_0'. intros; unfold kn_at; cbn; ring.
  - cbn [lsum fst snd]. inversion ND as [|? ? Nk ND']; subst. rewrite <- IH; auto; [|intros; apply B; now right].
    rewrite <- (sumn_at n k v m) by (apply (B (k, v)); now left). rewrite <- sumn_add. apply sumn_ext. intros c Hc.
    unfold kn_at at 1, at_col. cbn [find fst snd]. rewrite (Nat.eqb_sym k c). destruct (Nat.eqb_spec c k) as [->|N]; [cbn [snd]|unfold kn_at; ring].
    replace (kn_at l k) with 0; [ring|]. unfold kn_at. destruct (find _ l) as [e|] eqn:E; auto. apply find_some in E as [I E].
    apply Nat.eqb_eq in E. exfalso. apply Nk. rewrite <- E. now apply in_map.
Qed.
Definition row_cols : list nat := map fst kn_form.
Lemma row_keys p0 p1 p2 q0 q1 q2 : map fst (kn_row p0 p1 p2 q0 q1 q2) = row_cols. Proof. reflexivity. Qed.

Lemma row_nodup p0 p1 p2 q0 q1 q2 : NoDup (map fst (kn_row p0 p1 p2 q0 q1 q2)).
Proof. rewrite row_keys. apply nodupb_NoDup. vm_compute. reflexivity. Qed.
Lemma row_bound p0 p1 p2 q0 q1 q2 e : In e (kn_row p0 p1 p2 q0 q1 q2) -> (fst e < 197)%nat.
Proof.
  intro I. apply (in_map fst) in I. rewrite row_keys in I. assert (B : forallb (fun c => Nat.ltb c 197) row_cols = true) by (vm_compute; reflexivity).
  rewrite forallb_forall in B. apply Nat.ltb_lt. now apply B.
Qed.
Lemma row_det a b c a' b' c' M :
  sumn 197 (fun k => kn_at (kn_epi a b c a' b' c') k * mono (kn_x M) 0 (nth k kn_mon [])) =
  det (of_cols (cross a (mv M a')) (cross b (mv M b')) (cross c (mv M c'))).
Proof.
  rewrite (at_sum 197 _ (fun k => mono (kn_x M) 0 (nth k kn_mon []))); [|apply row_nodup|intros e; apply row_bound].
  unfold kn_epi, kn_row. cbv zeta. destruct M as [r00 r01 r02 r10 r11 r12 r20 r21 r22], a as [a0 a1 a2], b as [b0 b1 b2], c as [c0 c1 c2], a' as [a3 a4 a5], b' as [b3 b4 b5], c' as [c3 c4 c5].
  lazy beta iota zeta delta [lsum fst snd nth kn_mon mono Nat.add pow kn_x mscale outer m00 m01 m02 m10 m11 m12 m20 m21 m22 vx vy vz det of_cols cross mv].
  ring.
Qed.

(** * The constant rows *)
Definition crow {A} (l : list (nat * nat * A)) (r : nat) : list (nat * A) :=
  map (fun e => (snd (fst e), snd e)) (filter (fun e => Nat.eqb (fst (fst e)) r) (rev l)).
Lemma gcells_at l r c : gcells l r c = kn_at (crow l r) c.
Proof.
  unfold gcells, crow. rewrite <- fold_left_rev_right. induction (rev l) as [|[[a b] v] q IH]; [reflexivity|].
  cbn [fold_right filter fst snd]. unfold gset at 1. rewrite (Nat.eqb_sym a r). destruct (Nat.eqb r a); cbn [andb map]; [|exact IH].
  unfold kn_at. cbn [find fst snd]. rewrite (Nat.eqb_sym b c). destruct (Nat.eqb c b); [reflexivity|exact IH].
Qed.
Lemma const_Z : kn_const = map (fun e => (fst e, IZR (snd e))) kn_constZ. Proof. reflexivity. Qed.
Lemma crow_map l r : crow (map (fun e => (fst e, IZR (snd e))) l) r = map (fun e => (fst e, IZR (snd e))) (crow l r).
Proof.
  unfold crow. rewrite <- map_rev. induction (rev l) as [|[[a b] v] q IH]; [reflexivity|]. cbn [map filter fst snd].
  destruct (Nat.eqb a r); cbn [map fst snd]; now rewrite IH.
Qed.
Lemma cells_sum n l r m : nodupb (map fst (crow l r)) && forallb (fun c => Nat.ltb c n) (map fst (crow l r)) = true ->
  sumn n (fun c => gcells (map (fun e => (fst e, IZR (snd e))) l) r c * m c) = lsum (fun e => IZR (snd e) * m (fst e)) (crow l r).
Proof.
  intro K. rewrite (sumn_ext _ _ (fun c => kn_at (map (fun e => (fst e, IZR (snd e))) (crow l r)) c * m c)) by (intros; now rewrite gcells_at, crow_map).
  apply andb_prop in K as [K1 K2].
  assert (E : map fst (map (fun e : nat * Z => (fst e, IZR (snd e))) (crow l r)) = map fst (crow l r)) by (rewrite map_map; reflexivity).
  rewrite (at_sum n (map (fun e : nat * Z => (fst e, IZR (snd e))) (crow l r)) m).
  - clear. induction (crow l r) as [|e q IH]; [reflexivity|]. cbn [map lsum fst snd]. now rewrite IH.
  - rewrite E. now apply nodupb_NoDup.
  - intros e I. apply (in_map fst) in I. rewrite E in I. rewrite forallb_forall in K2. apply Nat.ltb_lt. exact (K2 _ I).
Qed.
Lemma const_sum r m : (10 <= r < 30)%nat -> sumn 197 (fun c => gcells kn_const r c * m c) = lsum (fun e => IZR (snd e) * m (fst e)) (crow kn_constZ r).
Proof.
  intro Hr. rewrite const_Z. apply cells_sum.
  do 10 (destruct r as [|r]; [exfalso; lia|]). do 20 (destruct r as [|r]; [vm_compute; reflexivity|]). exfalso; lia.
Qed.
Lemma const_zero M r : rotation M -> (10 <= r < 30)%nat -> kn_value M (gcells kn_const) r = 0.
Proof.
  intros Rot Hr. unfold kn_value, row_value. rewrite (const_sum r (fun k => mono (kn_x M) 0 (nth k kn_mon []))) by auto.
  pose proof (rot_r M Rot) as O1. pose proof (rot_l M Rot) as O2. pose proof (rot_adj M Rot) as O3. clear Rot.
  destruct M as [r00 r01 r02 r10 r11 r12 r20 r21 r22].
  unfold adj, mT, mmul, mid in O1, O2, O3. cbn [m00 m01 m02 m10 m11 m12 m20 m21 m22] in O1, O2, O3.
  injection O1 as ? ? ? ? ? ? ? ? ?. injection O2 as ? ? ? ? ? ? ? ? ?. injection O3 as ? ? ? ? ? ? ? ? ?.
  do 10 (destruct r as [|r]; [exfalso; lia|]).
  do 20 (destruct r as [|r]; [match goal with |- lsum _ ?l = _ => let v := eval vm_compute in l in change l with v end;
    lazy beta iota zeta delta [lsum fst snd nth kn_mon mono Nat.add pow kn_x]; cbn [m00 m01 m02 m10 m11 m12 m20 m21 m22]; lra|]). exfalso; lia.
Qed.
