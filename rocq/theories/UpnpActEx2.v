(** The coefficient matrices of the two scenes before and after the reduction of
    their leading blocks, and their eliminations (examples only). *)
From Coq Require Import Reals Lra Lia List Arith NArith ZArith Bool Znumtheory.
From Verif Require Import Lin GenLin RotModel SturmModel GaussModel GaussProps GbModel GbMod GbProps GpnpGb MacModel MacProps ModElim UpnpModel
  UpnpGen UpnpActModel UpnpActGrad UpnpActProps UpnpActData UpnpActEx1.
Import ListNotations.
Local Open Scope R_scope.

(** * Tables *)
Definition has (l : list (nat * nat * R)) (r c : nat) : bool := existsb (fun k => Nat.eqb (fst k) r && Nat.eqb (snd k) c) (map fst l).
Lemma cells_fold (T : nat -> nat -> R) l : Forall (fun e => snd e = T (fst (fst e)) (snd (fst e))) l -> forall G r c,
  fold_left (fun G e => gset G (fst (fst e)) (snd (fst e)) (snd e)) l G r c = if has l r c then T r c else G r c.
Proof.
  induction 1 as [|e l He Hl IH]; intros G r c; cbn [fold_left]; auto. rewrite IH. unfold has. cbn [map existsb]. unfold gset.
  rewrite (Nat.eqb_sym r), (Nat.eqb_sym c).
  destruct (Nat.eqb_spec (fst (fst e)) r) as [<-|]; cbn [andb orb]; [|destruct (existsb _ _); auto].
  destruct (Nat.eqb_spec (snd (fst e)) c) as [<-|]; cbn [andb orb]; destruct (existsb _ _); auto.
Qed.
Fixpoint zsum (n : nat) (f : nat -> Z) : Z := match n with O => 0%Z | S n => (zsum n f + f n)%Z end.
Lemma zsum_IZR n f : IZR (zsum n f) = sumn n (fun i => IZR (f i)).
Proof. induction n as [|n IH]; cbn [zsum sumn]; [reflexivity|]. now rewrite plus_IZR, IH. Qed.
Definition zat (t : list (list Z)) (i j : nat) : Z := nth j (nth i t []) 0%Z.
(** zero outside the listed entries *)
Definition tab_ok (l : list (nat * nat)) (nr nc : nat) (t : list (list Z)) : bool :=
  Nat.leb (length t) nr && forallb (fun row => Nat.leb (length row) nc) t &&
  forallb (fun r => forallb (fun c => existsb (fun k => Nat.eqb (fst k) r && Nat.eqb (snd k) c) l || (zat t r c =? 0)%Z) (seq 0 nc)) (seq 0 nr).
Lemma zat_out t nr nc i j : Nat.leb (length t) nr && forallb (fun row => Nat.leb (length row) nc) t = true -> (nr <= i \/ nc <= j)%nat -> zat t i j = 0%Z.
Proof.
  intros H O. apply andb_prop in H as [H1 H2]. apply Nat.leb_le in H1. unfold zat. destruct (Nat.lt_ge_cases i (length t)) as [L|L].
  - rewrite forallb_forall in H2. specialize (H2 (nth i t []) (nth_In _ _ L)). apply Nat.leb_le in H2. apply nth_overflow. lia.
  - rewrite (nth_overflow t) by lia. now destruct j.
Qed.
Lemma cells_table d t l nr nc r c : Forall (fun e => snd e = rtab d t (fst (fst e)) (snd (fst e))) l ->
  tab_ok (map fst l) nr nc t = true -> gcells l r c = rtab d t r c.
Proof.
  intros F K. unfold gcells. rewrite (cells_fold (rtab d t)) by auto. destruct (has l r c) eqn:E; auto.
  assert (Z : zat t r c = 0%Z).
  { unfold tab_ok in K. apply andb_prop in K as [K1 K2]. destruct (Nat.lt_ge_cases r nr) as [Hr|Hr]; [|eapply zat_out; eauto].
    destruct (Nat.lt_ge_cases c nc) as [Hc|Hc]; [|eapply zat_out; eauto].
    rewrite forallb_forall in K2. specialize (K2 r). rewrite in_seq in K2. specialize (K2 ltac:(lia)).
    rewrite forallb_forall in K2. specialize (K2 c). rewrite in_seq in K2. specialize (K2 ltac:(lia)).
    unfold has in E. rewrite E in K2. now apply Z.eqb_eq in K2. }
  unfold rtab. fold (zat t r c). rewrite Z. unfold Rdiv. ring.
Qed.

(** * Reduction of the leading block *)
(** Az = Az_lead Gz / dG, and the other rows agree *)
Definition lead_ok (n nr nc : nat) (dG : Z) (Az Gz : list (list Z)) : bool :=
  forallb (fun i => forallb (fun j => (zsum n (fun k => zat Az i k * zat Gz k j) =? zat Az i j * dG)%Z) (seq 0 nc)) (seq 0 n) &&
  (Nat.leb (length Az) nr && forallb (fun row => Nat.leb (length row) nc) Az) && (Nat.leb (length Gz) nr && forallb (fun row => Nat.leb (length row) nc) Gz).
Lemma lead_values inv n nr nc dA dG Az Gz A : (forall i j, A i j = rtab dA Az i j) -> IZR dA <> 0 -> IZR dG <> 0 ->
  lead_ok n nr nc dG Az Gz = true -> inverts n A (inv n (lead_block n A)) ->
  forall i j, (i < n)%nat -> reduce_lead inv n A i j = rtab dG Gz i j.
Proof.
  intros EA NA NG K I i j Hi. unfold lead_ok in K. apply andb_prop in K as [K KG]. apply andb_prop in K as [K KA].
  assert (E : forall k, (k < n)%nat -> A k j = sumn n (fun l => A k l * rtab dG Gz l j)).
  { intros k Hk. destruct (Nat.lt_ge_cases j nc) as [Hj|Hj].
    - rewrite forallb_forall in K. specialize (K k). rewrite in_seq in K. specialize (K ltac:(lia)).
      rewrite forallb_forall in K. specialize (K j). rewrite in_seq in K. specialize (K ltac:(lia)). apply Z.eqb_eq in K.
      apply (f_equal IZR) in K. rewrite zsum_IZR, mult_IZR in K.
      rewrite (sumn_ext n _ (fun l => / IZR dA * / IZR dG * IZR (zat Az k l * zat Gz l j))).
      + rewrite sumn_scale, K, EA. unfold rtab, zat. field. auto.
      + intros l _. rewrite EA, mult_IZR. unfold rtab, zat. field. auto.
    - rewrite EA. unfold rtab at 1. fold (zat Az k j). rewrite (zat_out Az nr nc) by auto. rewrite sumn_0; [unfold Rdiv; ring|].
      intros l _. unfold rtab. fold (zat Gz l j). rewrite (zat_out Gz nr nc) by auto. unfold Rdiv; ring. }
  unfold reduce_lead. destruct (Nat.ltb_spec i n); [|lia].
  rewrite (sumn_ext n _ (fun k => sumn n (fun l => inv n (lead_block n A) i k * A k l * rtab dG Gz l j))).
  - rewrite sumn_swap. rewrite (sumn_ext n _ (fun l => delta l i * rtab dG Gz l j)).
    + now apply (sumn_delta n i (fun l => rtab dG Gz l j)).
    + intros l Hl. idtac.
      rewrite (sumn_ext n _ (fun k => rtab dG Gz l j * (inv n (lead_block n A) i k * A k l))) by (intros; ring).
      rewrite sumn_scale, (I i l Hi Hl). unfold delta. destruct (Nat.eq_dec i l), (Nat.eq_dec l i); try congruence; ring.
  - intros k Hk. rewrite E at 1 by auto. rewrite <- sumn_scale. apply sumn_ext. intros; ring.
Qed.

(** a left inverse of the leading block *)
Definition inv_ok (n : nat) (dA dI : Z) (Az Iz : list (list Z)) : bool :=
  forallb (fun i => forallb (fun j => (zsum n (fun k => zat Iz i k * zat Az k j) =? (if Nat.eqb i j then dA * dI else 0))%Z) (seq 0 n)) (seq 0 n).
Lemma inv_inverts n dA dI Az Iz A : (forall i j, A i j = rtab dA Az i j) -> IZR dA <> 0 -> IZR dI <> 0 ->
  inv_ok n dA dI Az Iz = true -> inverts n A (rtab dI Iz).
Proof.
  intros EA NA NI K i j Hi Hj. unfold inv_ok in K. rewrite forallb_forall in K. specialize (K i). rewrite in_seq in K. specialize (K ltac:(lia)).
  rewrite forallb_forall in K. specialize (K j). rewrite in_seq in K. specialize (K ltac:(lia)). apply Z.eqb_eq in K.
  apply (f_equal IZR) in K. rewrite zsum_IZR in K. rewrite (sumn_ext n _ (fun k => / IZR dA * / IZR dI * IZR (zat Iz i k * zat Az k j))).
  - rewrite sumn_scale, K. unfold delta. destruct (Nat.eqb_spec i j), (Nat.eq_dec i j); try congruence; rewrite ?mult_IZR; field; auto.
  - intros k _. rewrite EA, mult_IZR. unfold rtab, zat. field. auto.
Qed.

(** * Residues *)
Definition res_ok (P d : Z) (nr nc : nat) (t zm : list (list Z)) : bool :=
  (Z.gcd d P =? 1)%Z && forallb (fun i => forallb (fun j => ((zat t i j - zat zm i j * d) mod P =? 0)%Z) (seq 0 nc)) (seq 0 nr) &&
  (Nat.leb (length t) nr && forallb (fun row => Nat.leb (length row) nc) t) && (Nat.leb (length zm) nr && forallb (fun row => Nat.leb (length row) nc) zm).
Lemma tab_residue P d nr nc t zm : (1 < P)%Z -> IZR d <> 0 -> res_ok P d nr nc t zm = true -> forall i k, residue P (rtab d t i k) (nth k (nth i zm []) 0%Z).
Proof.
  intros P1 Nd K i k. unfold res_ok in K. apply andb_prop in K as [K Kz]. apply andb_prop in K as [K Kt]. apply andb_prop in K as [K1 K2]. apply Z.eqb_eq in K1.
  unfold rtab. fold (zat t i k) (zat zm i k).
  assert (C : ((zat t i k - zat zm i k * d) mod P = 0)%Z).
  { destruct (Nat.lt_ge_cases i nr) as [Hi|Hi].
    - destruct (Nat.lt_ge_cases k nc) as [Hk|Hk].
      + rewrite forallb_forall in K2. specialize (K2 i). rewrite in_seq in K2. specialize (K2 ltac:(lia)).
        rewrite forallb_forall in K2. specialize (K2 k). rewrite in_seq in K2. specialize (K2 ltac:(lia)). now apply Z.eqb_eq in K2.
      + rewrite (zat_out t nr nc), (zat_out zm nr nc) by auto. apply Zmod_0_l.
    - rewrite (zat_out t nr nc), (zat_out zm nr nc) by auto. apply Zmod_0_l. }
  exists (zat t i k), d. split; [|split].
  - now apply Zgcd_1_rel_prime.
  - field. auto.
  - apply Z.mod_divide in C; auto. lia.
Qed.

(** * Kernel vectors of templates *)
Lemma mac_pairs n1 nc nv mon1 mon2 supp1 m1 row (y : nat -> R) : mac_ok n1 nc nv mon1 mon2 supp1 row = true ->
  sumn nc (fun c => mac_cell m1 row c * y c) = lsum (fun p => m1 (fst row) (snd p) * y (fst p)) (pairs row).
Proof.
  intro H. unfold mac_ok in H. cbv zeta in H. apply andb_prop in H as [H Cv]. apply andb_prop in H as [H F]. apply andb_prop in H as [H Ld].
  apply andb_prop in H as [N1 N2]. rewrite forallb_forall in F.
  rewrite (sumn_ext nc _ (fun c => lsum (fun p => at_col (fst p) c (m1 (fst row) (snd p))) (pairs row) * y c)).
  - apply (sumn_lsum nc (pairs row) (fun k => m1 (fst row) k) y). intros p Hp. specialize (F p Hp). apply andb_prop in F as [F _]. apply andb_prop in F as [F _].
    apply andb_prop in F as [A _]. now apply Nat.ltb_lt in A.
  - intros c _. f_equal. destruct row as [i es]. cbn [fst]. apply find_pairs. unfold pairs in N1. cbn [snd] in N1. rewrite map_map in N1. exact N1.
Qed.
Fixpoint zdot (t : list Z) (ys : list Z) (es : list (N * N)) : Z :=
  match es with [] => 0%Z | e :: es => (nth (N.to_nat (snd e)) t 0 * nth (N.to_nat (fst e)) ys 0 + zdot t ys es)%Z end.
Lemma zdot_ok d t ys i es : IZR d <> 0 -> lsum (fun p => rtab d t i (snd p) * IZR (nth (fst p) ys 0%Z)) (map (fun e => (N.to_nat (fst e), N.to_nat (snd e))) es)
  = IZR (zdot (nth i t []) ys es) / IZR d.
Proof. intro Nd. induction es as [|e es IH]; cbn [map lsum zdot fst snd]; [field; auto|]. rewrite IH, plus_IZR, mult_IZR. unfold rtab. field. auto. Qed.
Definition ker_ok (t : list (list Z)) (ys : list Z) (tab : list trow) : bool := forallb (fun row => (zdot (nth (fst row) t []) ys (snd row) =? 0)%Z) tab.
Lemma ker_mac n1 nc nv mon1 mon2 supp1 d t ys tab m1 : forallb (mac_ok n1 nc nv mon1 mon2 supp1) tab = true -> IZR d <> 0 ->
  (forall i k, m1 i k = rtab d t i k) -> ker_ok t ys tab = true -> forall q, In q (mac m1 nc tab) -> dotlist q (map (fun c => IZR (nth c ys 0%Z)) (seq 0 nc)) = 0.
Proof.
  intros T Nd E K q Hq. unfold mac in Hq. apply in_map_iff in Hq as (row & <- & Hr). rewrite mac_dot.
  unfold ker_ok in K. rewrite forallb_forall in T, K. specialize (T row Hr). specialize (K row Hr). apply Z.eqb_eq in K.
  rewrite (mac_pairs _ _ _ _ _ _ m1 row _ T).
  transitivity (lsum (fun p => rtab d t (fst row) (snd p) * IZR (nth (fst p) ys 0%Z)) (pairs row)).
  - apply lsum_ext. intros p _. now rewrite E.
  - unfold pairs. rewrite zdot_ok, K by auto. unfold Rdiv. ring.
Qed.
