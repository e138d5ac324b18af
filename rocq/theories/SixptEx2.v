(** Six correspondences: the hypotheses of C77 are met. *)
From Coq Require Import Reals Lra Lia List Arith NArith ZArith Bool Znumtheory.
From Verif Require Import Lin GenLin Cplx CEig GbMod GbProps RotModel RotProps GeoModel SeventeenProps MacModel MacProps ModElim LinSolve
  SixptGen SixptModel SixptRow2 SixptDet SixptProps SixptData SixptEx1 UpnpActGrad UpnpActProps UpnpActEx1 UpnpActEx2 UpnpActEx4.
Import ListNotations.
Local Open Scope R_scope.

Definition s6_E := six_eqs s6_A s6_idx.
Lemma zlsum_IZR {A} (f : A -> Z) l : IZR (zlsum f l) = lsum (fun a => IZR (f a)) l.
Proof. induction l as [|a l IH]; cbn [zlsum lsum]; [reflexivity|]. now rewrite plus_IZR, IH. Qed.
Lemma s6_E_ok r k : (r < 60)%nat -> s6_E r k = rtab 19683 s6_M1p r k.
Proof.
  intro Hr. unfold rtab. rewrite <- s6_M1p_rows. rewrite nth_indep with (d' := zM1p_row 0) by (rewrite map_length, seq_length; auto).
  rewrite (map_nth zM1p_row), seq_nth by auto. cbn [Nat.add]. unfold s6_E, six_eqs, six_M1p, zM1p_row.
  pose proof states_ok as S. rewrite forallb_forall in S. specialize (S r). rewrite in_seq in S. specialize (S ltac:(lia)).
  destruct (six_state r) as [[[d r0] r1] r2]. cbn [state_ok] in S.
  apply andb_prop in S as [S H2]. apply andb_prop in S as [S H1]. apply andb_prop in S as [Hd H0]. apply Nat.ltb_lt in Hd, H0, H1, H2.
  rewrite fill_row2_groups. cbv zeta. transitivity (nth k (map (fun g => IZR (zlsum (zd3 (zm d r0) (zm d r1) (zm d r2)) g) / 19683) six_groups) 0).
  - f_equal. apply map_ext. intro g. rewrite zlsum_IZR. unfold Rdiv. rewrite Rmult_comm, <- lsum_scale. apply lsum_ext. intros [[a b] c] _.
    unfold d3, zd3. rewrite !zm_ok by auto. repeat (rewrite plus_IZR || rewrite minus_IZR || rewrite mult_IZR). field.
  - rewrite <- (map_map (zlsum (zd3 (zm d r0) (zm d r1) (zm d r2))) (fun z => IZR z / 19683)). fold (over 19683 (map (zlsum (zd3 (zm d r0) (zm d r1) (zm d r2))) six_groups)).
    apply nth_over.
Qed.

(** * The fifteen leading columns *)
Lemma s6_B_regular : regular s6_P (length s6_bcs) (map (fun r => map (fun c => (zat s6_M1p r c mod s6_P)%Z) s6_bcs) s6_brs) = true.
Proof. vm_cast_no_check (@eq_refl bool true). Qed.
Lemma sum_squares n f : sumn n (fun r => f r * f r) = 0 -> forall r, (r < n)%nat -> f r = 0.
Proof.
  assert (P : forall n, 0 <= sumn n (fun r => f r * f r)) by (clear; induction n as [|n IH]; cbn [sumn]; [lra|nra]).
  induction n as [|n IH]; intros H r Hr; [lia|]. cbn [sumn] in H. pose proof (P n). destruct (Nat.eq_dec r n) as [->|]; [nra|]. apply IH; [nra|lia].
Qed.
Lemma s6_BtB : nonsingular 15 (six_BtB s6_E).
Proof.
  intros x Hx. set (y := fun r => sumn 15 (fun j => s6_E r j * x j)).
  assert (Y : forall r, (r < 60)%nat -> y r = 0).
  { apply sum_squares. transitivity (sumn 15 (fun i => x i * sumn 15 (fun j => six_BtB s6_E i j * x j))).
    - unfold six_BtB, y. rewrite (sumn_ext 60 _ (fun r => sumn 15 (fun i => sumn 15 (fun j => s6_E r i * x i * (s6_E r j * x j))))).
      + rewrite sumn_swap. apply sumn_ext. intros i _. rewrite sumn_swap, <- sumn_scale. apply sumn_ext. intros j _.
        rewrite (sumn_ext 60 _ (fun r => x i * x j * (s6_E r i * s6_E r j))) by (intros; ring). rewrite sumn_scale. ring.
      + intros r _. rewrite <- sumn_scale. apply sumn_ext. intros i _. rewrite Rmult_comm, <- sumn_scale. reflexivity.
    - apply sumn_0. intros i Hi. rewrite Hx by auto. ring. }
  assert (Rg : forallb (fun r => Nat.ltb r 60) s6_brs = true) by (vm_compute; reflexivity).
  apply (regular_kernel s6_P ltac:(reflexivity) 15 s6_bcs (map (fun r c => IZR (zat s6_M1p r c)) s6_brs) _ x s6_B_regular).
  - clear. generalize s6_brs, s6_bcs. intros rs cs. induction rs as [|r rs IH]; cbn [map]; constructor; auto. clear IH.
    induction cs as [|c cs IH]; cbn [map]; constructor; auto. apply residue_IZR. reflexivity.
  - vm_compute; reflexivity.
  - vm_compute; reflexivity.
  - intros c Hc N. exfalso. apply N. assert (V : forallb (fun c => memb c s6_bcs) (seq 0 15) = true) by (vm_compute; reflexivity).
    rewrite forallb_forall in V. apply memb_In, V, in_seq. lia.
  - intros f Hf. apply in_map_iff in Hf as (r & <- & Hr). rewrite forallb_forall in Rg. specialize (Rg r Hr). apply Nat.ltb_lt in Rg.
    specialize (Y r Rg). unfold y in Y. rewrite (sumn_ext 15 _ (fun j => / 19683 * (IZR (zat s6_M1p r j) * x j))) in Y.
    + rewrite sumn_scale in Y. apply (Rmult_eq_reg_l (/ 19683)); [rewrite Y; ring|lra].
    + intros j _. rewrite s6_E_ok by auto. unfold rtab, zat. field.
Qed.

(** * The reduced equations *)
Fixpoint ladd (a b : list Z) : list Z := match a, b with x :: a, y :: b => (x + y)%Z :: ladd a b | [], b => b | a, [] => a end.
Fixpoint lcomb (cs : list Z) (rows : list (list Z)) : list Z :=
  match cs, rows with c :: cs, r :: rows => ladd (map (Z.mul c) r) (lcomb cs rows) | _, _ => [] end.
Lemma nth_ladd a : forall b j, nth j (ladd a b) 0%Z = (nth j a 0 + nth j b 0)%Z.
Proof.
  induction a as [|x a IH]; intros [|y b] [|j]; cbn [ladd nth]; auto; lia.
Qed.
Lemma nth_lcomb j : forall n cs rows, length cs = n -> length rows = n -> IZR (nth j (lcomb cs rows) 0%Z) = sumn n (fun l => IZR (nth l cs 0%Z) * IZR (nth j (nth l rows []) 0%Z)).
Proof.
  induction n as [|n IH]; intros [|c cs] [|r rows] L1 L2; try discriminate; cbn [lcomb].
  - now destruct j.
  - rewrite nth_ladd, plus_IZR. cbn [length] in L1, L2. rewrite (IH cs rows) by lia.
    rewrite (sumn_first n). cbn [nth]. f_equal. replace 0%Z with (c * 0)%Z at 1 by ring. rewrite (map_nth (Z.mul c)). apply mult_IZR.
Qed.
Lemma nth_firstn_lt {A} (d : A) n : forall l j, (j < n)%nat -> nth j (firstn n l) d = nth j l d.
Proof. induction n as [|n IH]; intros [|a l] j H; try lia; cbn [firstn]; auto. destruct j; cbn [nth]; auto. apply IH. lia. Qed.
Lemma s6_reduced : map (fun r => lcomb (firstn 15 r) s6_M1) s6_M1p = map (map (Z.mul s6_d)) s6_M1p.
Proof. vm_cast_no_check (@eq_refl (list (list Z)) (map (map (Z.mul s6_d)) s6_M1p)). Qed.
Lemma s6_M1_ok inv : good_inverse inv -> forall i k, (i < 15)%nat -> six_M1 inv s6_E i k = rtab s6_d s6_M1 i k.
Proof.
  intros GI i k Hi. assert (Nd : IZR s6_d <> 0) by (apply IZR_neq; discriminate).
  assert (E : forall r, (r < 60)%nat -> s6_E r k = sumn 15 (fun l => s6_E r l * rtab s6_d s6_M1 l k)).
  { intros r Hr. pose proof s6_reduced as Q. apply (f_equal (fun t => nth k (nth r t []) 0%Z)) in Q.
    rewrite nth_indep with (d' := lcomb (firstn 15 []) s6_M1) in Q by (rewrite map_length; exact Hr). rewrite (map_nth (fun r => lcomb (firstn 15 r) s6_M1)) in Q.
    change [] with (map (Z.mul s6_d) []) in Q at 2. rewrite (map_nth (map (Z.mul s6_d))) in Q.
    replace 0%Z with (s6_d * 0)%Z in Q at 2 by ring. rewrite (map_nth (Z.mul s6_d)) in Q. apply (f_equal IZR) in Q.
    assert (L15 : forallb (fun r => Nat.leb 15 (length r)) s6_M1p = true) by (vm_compute; reflexivity).
    rewrite forallb_forall in L15. specialize (L15 (nth r s6_M1p []) (nth_In s6_M1p _ Hr)). apply Nat.leb_le in L15.
    rewrite (nth_lcomb k 15) in Q by (rewrite ?firstn_length; try lia; reflexivity). rewrite mult_IZR in Q.
    rewrite (sumn_ext 15 _ (fun l => / 19683 * / IZR s6_d * (IZR (nth l (firstn 15 (nth r s6_M1p [])) 0%Z) * IZR (nth k (nth l s6_M1 []) 0%Z)))).
    - rewrite sumn_scale, Q, s6_E_ok by auto. unfold rtab. field. auto.
    - intros l Hl. rewrite s6_E_ok by auto. unfold rtab. rewrite nth_firstn_lt by auto. field. auto. }
  unfold six_M1. rewrite (sumn_ext 60 _ (fun r => sumn 15 (fun l => rtab s6_d s6_M1 l k * sumn 15 (fun q => inv 15%nat (six_BtB s6_E) i q * (s6_E r q * s6_E r l))))).
  - rewrite sumn_swap. rewrite (sumn_ext 15 _ (fun l => delta l i * rtab s6_d s6_M1 l k)); [now apply (sumn_delta 15 i (fun l => rtab s6_d s6_M1 l k))|].
    intros l Hl. rewrite sumn_scale, sumn_swap. rewrite (sumn_ext 15 _ (fun q => inv 15%nat (six_BtB s6_E) i q * six_BtB s6_E q l)) by (intros; unfold six_BtB; now rewrite sumn_scale).
    rewrite (GI 15%nat _ s6_BtB i l Hi Hl). unfold delta. destruct (Nat.eq_dec i l), (Nat.eq_dec l i); try congruence; ring.
  - intros r Hr. rewrite (E r Hr) at 1. rewrite <- sumn_scale. apply sumn_ext. intros l _.
    transitivity (rtab s6_d s6_M1 l k * (s6_E r l * sumn 15 (fun q => inv 15%nat (six_BtB s6_E) i q * s6_E r q))); [ring|].
    f_equal. rewrite <- sumn_scale. apply sumn_ext. intros; ring.
Qed.

(** * The template *)
Section Inverse.
Variable inv : nat -> (nat -> nat -> R) -> nat -> nat -> R.
Variable solve : nat -> nat -> (nat -> nat -> R) -> (nat -> nat -> R) -> nat -> nat -> R.
Hypothesis GI : good_inverse inv.
Hypothesis GS : good_solve solve.
Definition s6_m1 (i k : nat) : R := if Nat.ltb i 15 then six_M1 inv s6_E i k else 0.
Lemma s6_m1_res i k : residue s6_P (s6_m1 i k) (nth k (nth i s6_res []) 0%Z).
Proof.
  assert (K : residue s6_P (rtab s6_d s6_M1 i k) (nth k (nth i s6_res []) 0%Z)).
  { apply (tab_residue s6_P s6_d 15 84); [reflexivity|apply IZR_neq; discriminate|vm_compute; reflexivity]. }
  unfold s6_m1. destruct (Nat.ltb_spec i 15) as [H|H]; [now rewrite s6_M1_ok|].
  rewrite (nth_overflow s6_res); [destruct k; apply residue_0|exact H].
Qed.
Lemma s6_M2_m1 r c : (r < 93)%nat -> six_M2 (six_M1 inv s6_E) r c = mac_cell s6_m1 (nth r six_rows (0%nat, [])) c.
Proof.
  intro Hr. unfold six_M2, mac_cell, s6_m1. pose proof six_table as T. rewrite forallb_forall in T.
  specialize (T _ (nth_In six_rows (0%nat, []) (Hr : (r < length six_rows)%nat))). unfold six_row_ok in T. cbv zeta in T.
  do 4 (apply andb_prop in T as [T _]). rewrite T. reflexivity.
Qed.
Lemma s6_regular : regular s6_P (length (map N.to_nat s6_cs)) (map (fun r => map (zcell s6_res (nth r six_rows (0%nat, []))) s6_cs) s6_rs) = true.
Proof. vm_cast_no_check (@eq_refl bool true). Qed.
Lemma s6_lead : nonsingular 93 (six_lead (six_M1 inv s6_E)).
Proof.
  intros x Hx.
  apply (regular_kernel s6_P ltac:(reflexivity) 93 (map N.to_nat s6_cs) (map (fun r => mac_cell s6_m1 (nth r six_rows (0%nat, []))) s6_rs) _ x s6_regular).
  - exact (zrows_ok s6_P s6_m1 s6_res six_rows s6_rs s6_cs s6_m1_res).
  - vm_compute; reflexivity.
  - vm_compute; reflexivity.
  - intros c Hc N. exfalso. apply N. assert (V : forallb (fun c => memb c (map N.to_nat s6_cs)) (seq 0 93) = true) by (vm_compute; reflexivity).
    rewrite forallb_forall in V. apply memb_In, V, in_seq. lia.
  - intros f Hf. apply in_map_iff in Hf as (r & <- & Hr). assert (Rg : forallb (fun r => Nat.ltb r 93) s6_rs = true) by (vm_compute; reflexivity).
    rewrite forallb_forall in Rg. specialize (Rg r Hr). apply Nat.ltb_lt in Rg. rewrite <- (Hx r Rg). apply sumn_ext. intros c _. unfold six_lead. now rewrite s6_M2_m1.
Qed.

(** * The eigenvalue 1 is simple *)
Definition target (i : nat) : nat := match nth i six_action_rows (ActOne 0) with ActRow k => k | ActOne j => (93 + j)%nat end.
Definition eig6 (i c : nat) : R := delta c (target i) - delta c (93 + i).
Definition zeig6 (i : nat) : N -> Z := let a := N.of_nat (target i) in let b := N.of_nat (93 + i) in
  fun c => if N.eqb c a then 1%Z else if N.eqb c b then (-1)%Z else 0%Z.
Lemma targets_ok : forallb (fun i => negb (Nat.eqb (target i) (93 + i)) && Nat.ltb (target i) 157) (seq 0 64) = true.
Proof. vm_compute. reflexivity. Qed.
Lemma target_ok i : (i < 64)%nat -> target i <> (93 + i)%nat /\ (target i < 157)%nat.
Proof.
  intro Hi. pose proof targets_ok as T. rewrite forallb_forall in T. specialize (T i). rewrite in_seq in T. specialize (T ltac:(lia)).
  apply andb_prop in T as [T1 T2]. apply Nat.ltb_lt in T2. destruct (Nat.eqb_spec (target i) (93 + i)); [discriminate|auto].
Qed.
Lemma deltaN c i : delta (N.to_nat c) i = if N.eqb c (N.of_nat i) then 1 else 0.
Proof.
  unfold delta. destruct (N.eqb_spec c (N.of_nat i)) as [->|E]; destruct (Nat.eq_dec _ i) as [E'|E']; auto.
  - now rewrite Nat2N.id in E'.
  - exfalso. apply E. rewrite <- E'. now rewrite N2Nat.id.
Qed.
Lemma zeig6_ok i c : (i < 64)%nat -> residue s6_P (eig6 i (N.to_nat c)) (zeig6 i c).
Proof.
  intro Hi. destruct (target_ok i Hi) as [Ne _]. unfold eig6, zeig6. cbv zeta. rewrite !deltaN.
  assert (Nn : N.of_nat (target i) <> N.of_nat (93 + i)) by (intro Q; apply Nat2N.inj in Q; congruence).
  destruct (N.eqb_spec c (N.of_nat (target i))) as [->|_].
  - destruct (N.eqb_spec (N.of_nat (target i)) (N.of_nat (93 + i))); [congruence|]. rewrite Rminus_0_r. exists 1%Z, 1%Z. split; [apply rel_prime_1|split; [lra|exists 0%Z; lia]].
  - destruct (N.eqb c _).
    + exists (-1)%Z, 1%Z. split; [apply rel_prime_1|split; [lra|exists 0%Z; lia]].
    + rewrite Rminus_0_r. apply residue_0.
Qed.
Lemma zeig6_row i cs : (i < 64)%nat -> rrow s6_P (map (eig6 i) (map N.to_nat cs)) (map (zeig6 i) cs).
Proof. intro Hi. induction cs as [|c cs IH]; cbn [map]; constructor; auto. now apply zeig6_ok. Qed.
Definition pick6 {T} (f g : nat -> T) (r : nat) : T := if Nat.ltb r 93 then f r else g (r - 93)%nat.
Definition rows6 : list (nat -> R) := map (pick6 (fun r => mac_cell s6_m1 (nth r six_rows (0%nat, []))) eig6) s6_ers.
Definition zrows6 : list (list Z) := map (pick6 (fun r => map (zcell s6_res (nth r six_rows (0%nat, []))) s6_ecs) (fun i => map (zeig6 i) s6_ecs)) s6_ers.
Lemma s6_ers_range : forallb (fun r => Nat.ltb r 157) s6_ers = true. Proof. vm_compute; reflexivity. Qed.
Lemma rows6_ok : Forall2 (fun f zr => rrow s6_P (map f (map N.to_nat s6_ecs)) zr) rows6 zrows6.
Proof.
  assert (Rg := s6_ers_range). rewrite forallb_forall in Rg. unfold rows6, zrows6. induction s6_ers as [|r l IH]; cbn [map]; constructor.
  - unfold pick6. destruct (Nat.ltb_spec r 93); [apply zcell_ok; exact s6_m1_res|].
    specialize (Rg r (or_introl eq_refl)). apply Nat.ltb_lt in Rg. apply zeig6_row. lia.
  - apply IH. intros; apply Rg. now right.
Qed.
Lemma s6_eig_regular : regular s6_P (length (map N.to_nat s6_ecs)) zrows6 = true.
Proof. vm_cast_no_check (@eq_refl bool true). Qed.
Definition s6_action := six_action inv solve (lines1 s6_A s6_idx) (lines2 s6_A s6_idx).
(** a real eigenvector whose last entry is zero is zero *)
Lemma s6_real x : eigenpair 64 s6_action 1 x -> x 63%nat = 0 -> forall i, (i < 64)%nat -> x i = 0.
Proof.
  intros Eg X63. unfold s6_action, six_action in Eg. fold (six_eqs s6_A s6_idx) in Eg. fold s6_E in Eg. unfold six_M3 in Eg.
  set (M1 := six_M1 inv s6_E) in Eg. pose proof (GS 93%nat 64%nat (six_lead M1) (six_trail M1) s6_lead) as Sv.
  set (Y := solve 93%nat 64%nat (six_lead M1) (six_trail M1)) in *.
  set (y := fun c => if Nat.ltb c 93 then - sumn 64 (fun s => Y c s * x s) else x (c - 93)%nat).
  assert (Yl : forall c, (c < 93)%nat -> y c = - sumn 64 (fun s => Y c s * x s)) by (intros c Hc; unfold y; destruct (Nat.ltb_spec c 93); [auto|lia]).
  assert (Yt : forall s, y (93 + s)%nat = x s) by (intro s; unfold y; destruct (Nat.ltb_spec (93 + s) 93); [lia|f_equal; lia]).
  assert (Z : forall c, (c < 157)%nat -> y c = 0).
  { apply (regular_kernel s6_P ltac:(reflexivity) 157 (map N.to_nat s6_ecs) rows6 zrows6 y s6_eig_regular rows6_ok).
    - vm_compute; reflexivity.
    - vm_compute; reflexivity.
    - intros c Hc NI. destruct (Nat.eq_dec c 156) as [->|Nc].
      + change 156%nat with (93 + 63)%nat. rewrite Yt. exact X63.
      + exfalso. apply NI. assert (V : forallb (fun c => memb c (map N.to_nat s6_ecs)) (seq 0 156) = true) by (vm_compute; reflexivity).
        rewrite forallb_forall in V. apply memb_In, V, in_seq. lia.
    - intros f Hf. unfold rows6 in Hf. apply in_map_iff in Hf as (r & <- & Hr).
      assert (Rg := s6_ers_range). rewrite forallb_forall in Rg. specialize (Rg r Hr). apply Nat.ltb_lt in Rg. unfold pick6. destruct (Nat.ltb_spec r 93) as [L|L].
      + rewrite (sumn_ext 157 _ (fun c => six_M2 M1 r c * y c)) by (intros; unfold M1; now rewrite s6_M2_m1).
        change 157%nat with (93 + 64)%nat. rewrite (sumn_split 93 64).
        rewrite (sumn_ext 64 _ (fun s => six_trail M1 r s * x s)) by (intros; now rewrite Yt).
        rewrite (sumn_ext 93 _ (fun c => sumn 64 (fun s => - (six_lead M1 r c * Y c s * x s)))).
        * rewrite sumn_swap. rewrite (sumn_ext 64 _ (fun s => - (six_trail M1 r s * x s))); [rewrite sumn_neg; ring|].
          intros s Hs. rewrite sumn_neg. f_equal. rewrite <- (Sv r s L Hs). rewrite Rmult_comm, <- sumn_scale. apply sumn_ext. intros; ring.
        * intros c Hc. rewrite Yl by auto. unfold six_lead. rewrite <- sumn_neg, <- sumn_scale. apply sumn_ext. intros; ring.
      + assert (Hi : (r - 93 < 64)%nat) by lia. destruct (target_ok _ Hi) as [_ Ht]. unfold eig6.
        rewrite (sumn_ext 157 _ (fun c => delta c (target (r - 93)) * y c - delta c (93 + (r - 93)) * y c)) by (intros; ring).
        rewrite sumn_sub, !sumn_delta by (auto; lia). rewrite Yt. specialize (Eg _ Hi). unfold six_action_of in Eg. pose proof acts_ok as Ao. rewrite forallb_forall in Ao.
        specialize (Ao (r - 93)%nat). rewrite in_seq in Ao. specialize (Ao ltac:(lia)). unfold act_ok in Ao. cbv zeta in Ao.
        unfold target. destruct (nth (r - 93) six_action_rows (ActOne 0)) as [k|j]; apply andb_prop in Ao as [B _]; apply Nat.ltb_lt in B.
        * rewrite Yl by auto. rewrite (sumn_ext 64 _ (fun s => - (Y k s * x s))) in Eg by (intros; ring). rewrite sumn_neg in Eg. lra.
        * rewrite Yt. rewrite sumn_delta in Eg by auto. lra. }
  intros i Hi. rewrite <- Yt. apply Z. lia.
Qed.
Lemma s6_eigenpair : eigenpair 64 s6_action 1 (six_basis s6_v).
Proof. exact (C77_eigenvector inv solve s6_R s6_t s6_A s6_idx s6_v GI GS eq_refl eq_refl s6_exact s6_BtB s6_lead). Qed.
Lemma s6_simple : simple_eig 64 s6_action 1 (six_basis s6_v).
Proof.
  intros u [_ E]. destruct (ceigen_parts 64 _ _ u E) as [Er Ei]. destruct (six_basis_last s6_v) as (_ & _ & _ & B3).
  assert (K : forall x, eigenpair 64 s6_action 1 x -> forall i, (i < 64)%nat -> x i = x 63%nat * six_basis s6_v i).
  { intros x Ex i Hi. enough (x i - x 63%nat * six_basis s6_v i = 0) by lra.
    apply (s6_real (fun i => x i - x 63%nat * six_basis s6_v i)); auto.
    - intros j Hj. rewrite (sumn_ext 64 _ (fun k => s6_action j k * x k + - x 63%nat * (s6_action j k * six_basis s6_v k))) by (intros; ring).
      rewrite sumn_add, sumn_scale, Ex, s6_eigenpair by auto. ring.
    - rewrite B3. ring. }
  exists (u 63%nat). intros i Hi. apply cx_eq.
  - rewrite (K _ Er i Hi). cbn [cmul RtoC re im]. ring.
  - rewrite (K _ Ei i Hi). cbn [cmul RtoC re im]. ring.
Qed.
End Inverse.

(** * The hypotheses of C77 are met *)
Example C77_equations_nonvacuous : length s6_idx = 6%nat /\ s6_R = mT (cayley2rot s6_v) /\ six_exact s6_R s6_t s6_A s6_idx /\ six_eqs s6_A s6_idx 0 0 <> 0.
Proof.
  split; [reflexivity|]. split; [reflexivity|]. split; [exact s6_exact|]. fold s6_E. rewrite s6_E_ok by lia. unfold rtab. change (nth 0 (nth 0 s6_M1p []) 0%Z) with 58320%Z. lra.
Qed.
Example C77_recovers_nonvacuous : exists inv solve eig, good_inverse inv /\ good_solve solve /\
  nonsingular 15 (six_BtB (six_eqs s6_A s6_idx)) /\ nonsingular 93 (six_lead (six_M1 inv (six_eqs s6_A s6_idx))) /\
  In (Some s6_R) (sixpt inv solve eig s6_A s6_idx).
Proof.
  destruct good_inverse_exists as [inv GI]. destruct good_solve_exists as [solve GS]. destruct (ceig_function_exists 64) as [eig0 G0].
  exists inv, solve, (fun _ => eig0). split; [exact GI|]. split; [exact GS|]. split; [exact s6_BtB|]. split; [exact (s6_lead inv GI)|].
  apply (C77_recovers inv solve (fun _ => eig0) s6_R s6_t s6_A s6_idx s6_v GI GS eq_refl eq_refl s6_exact s6_BtB (s6_lead inv GI)); [apply G0|].
  exact (s6_simple inv solve GI GS).
Qed.
(** one camera in each view, looking at the six points *)
Example C77_single_camera_nonvacuous : exists A, (forall k, In k s6_idx -> centre1 A k = V3 0 0 0 /\ centre2 A k = V3 0 0 0 /\ norm2 (ray1 A k) = 1 /\ norm2 (ray2 A k) = 1).
Proof.
  exists (RelAdapter (rf1 s6_A) (rf2 s6_A) (fun _ => V3 0 0 0) (fun _ => V3 0 0 0) (rr1 s6_A) (rr2 s6_A) (rprior s6_A)).
  intros k Hk. destruct (s6_exact k Hk) as (_ & U1 & U2). split; [reflexivity|]. split; [reflexivity|]. split; [exact U1|exact U2].
Qed.
