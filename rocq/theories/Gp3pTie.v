(** gp3p: the first half of the template.  In the rows 0..20 the terms with n1, n2,
    n3 stay proportional to polynomials that do not depend on the row, which is why
    terms that have no column cancel, and why the rows 10, 12 and 15 end up without
    any n. *)
From Coq Require Import Reals Lra Lia List Arith Bool.
From Verif Require Import Lin GenLin GbModel GbProps GpnpGb GbSeg Gp3pData Gp3pInit Gp3pRows.
Import ListNotations.
Local Open Scope R_scope.

(** the columns of the monomials 0..17 of Gp3pSym, alone and times n_(k+1) *)
Definition pc (m : nat) : nat := nth m [66; 70; 71; 75; 76; 77; 81; 82; 83; 84; 49; 50; 54; 55; 56; 45; 34; 35]%nat 0%nat.
Definition nc (k m : nat) : nat := (nth m [21; 30; 33; 44; 48; 53; 65; 69; 74; 80; 2; 5; 8; 11; 14] 0 - k)%nat.
Definition Rt (t : nat) : grow := nth (t - 9) gp_rowl R9.
Lemma rows_wf : forallb row_wf gp_rowl = true. Proof. vm_compute. reflexivity. Qed.
Lemma rows_cols : forallb (cols_ok 85) gp_rowl = true. Proof. vm_compute. reflexivity. Qed.
Lemma rows_tgt : map (fun r : grow => fst (fst r)) gp_rowl = seq 9 23. Proof. vm_compute. reflexivity. Qed.
Lemma Rt_tgt t : (9 <= t <= 31)%nat -> fst (fst (Rt t)) = t.
Proof.
  intro H. unfold Rt. pose proof (map_nth (fun r : grow => fst (fst r)) gp_rowl R9 (t - 9)) as E. cbv beta in E. rewrite <- E, rows_tgt.
  rewrite seq_nth by lia. lia.
Qed.
Lemma Rt_in t : (9 <= t <= 31)%nat -> In (Rt t) gp_rowl.
Proof. intro H. apply nth_In. change (length gp_rowl) with 23%nat. lia. Qed.
Lemma Rt_wf t : (9 <= t <= 31)%nat -> row_wf (Rt t) = true.
Proof. intro H. pose proof rows_wf as W. rewrite forallb_forall in W. apply W. now apply Rt_in. Qed.
Lemma Rt_cols t : (9 <= t <= 31)%nat -> cols_ok 85 (Rt t) = true.
Proof. intro H. pose proof rows_cols as W. rewrite forallb_forall in W. apply W. now apply Rt_in. Qed.

(** a run, row by row *)
Definition gp_trace (f v p : nat -> vec3) (GG : nat -> gmat) : Prop :=
  GG 8%nat = gp_init f v p /\ forall t, (9 <= t <= 31)%nat -> grun (row_ops (Rt t)) (GG (t - 1)%nat) = Some (GG t).
Lemma gp_trace_ex f v p G : grun gp_compute (gp_init f v p) = Some G ->
  exists GG, gp_trace f v p GG /\ grun gp_rest (GG 31%nat) = Some G.
Proof.
  rewrite gp_split, grun_app. unfold gp_trace, Rt. generalize (gp_init f v p). intro G0.
  assert (X : forall rl d n G0 G1, length rl = n -> grun (flat_map row_ops rl) G0 = Some G1 ->
    exists GG, GG 8%nat = G0 /\ GG (8 + n)%nat = G1 /\ forall t, (9 <= t <= 8 + n)%nat -> grun (row_ops (nth (t - 9) rl d)) (GG (t - 1)%nat) = Some (GG t)).
  { clear. intros rl d n. revert rl. induction n as [|n IH]; intros rl G0 G1 L E.
    - destruct rl; [|discriminate]. cbn in E. injection E as <-. exists (fun _ => G0). repeat split; auto. intros; lia.
    - destruct (@exists_last _ rl) as (rl' & r & ->); [now intros ->|]. rewrite app_length in L. cbn in L.
      rewrite flat_map_app, grun_app in E. destruct (grun (flat_map row_ops rl') G0) as [Gm|] eqn:Em; [|discriminate].
      destruct (IH rl' G0 Gm ltac:(lia) Em) as (GG & E0 & En & Es). cbn [flat_map] in E. rewrite app_nil_r in E.
      exists (fun t => if Nat.eqb t (9 + n) then G1 else GG t). split; [|split].
      + destruct (Nat.eqb_spec 8 (9 + n)); [lia|auto].
      + destruct (Nat.eqb_spec (8 + S n) (9 + n)); [auto|lia].
      + intros t Ht. destruct (Nat.eqb_spec (t - 1) (9 + n)); [lia|]. destruct (Nat.eqb_spec t (9 + n)) as [->|].
        * rewrite app_nth2 by lia. replace (9 + n - 9 - length rl')%nat with 0%nat by lia. cbn [nth]. replace (9 + n - 1)%nat with (8 + n)%nat by lia. now rewrite En.
        * rewrite app_nth1 by lia. apply Es. lia. }
  destruct (grun (flat_map row_ops gp_rowl) G0) as [G1|] eqn:E1; [|discriminate]. intro E.
  destruct (X gp_rowl R9 23%nat G0 G1 eq_refl E1) as (GG & A & B & C). exists GG. split; [split; auto|]. change (8 + 23)%nat with 31%nat in B. now rewrite B.
Qed.

Section Run.
Variables (f v p : nat -> vec3) (x : nat -> R) (GG : nat -> gmat).
Hypothesis T : gp_trace f v p GG.
Hypothesis Z0 : forall r, (r < 48)%nat -> cell_sum gp_mon x (gp_cells f v p) r = 0.
Notation M := (GG 31%nat).
Notation ginv t st := (ginv 48 85 gp_mon x (GG t) st).

Lemma init_zero r c : (9 <= r)%nat -> gp_init f v p r c = 0.
Proof. intro H. do 9 (destruct r as [|r]; [lia|]). reflexivity. Qed.
Lemma step_zero t : (8 <= t <= 31)%nat -> forall r c, (t < r)%nat -> GG t r c = 0.
Proof.
  destruct T as [T0 Ts]. induction t as [|t IH]; [lia|]. intros H r c Hr. destruct (Nat.eq_dec t 7) as [->|].
  - rewrite T0. apply init_zero. lia.
  - specialize (Ts (S t) ltac:(lia)). replace (S t - 1)%nat with t in Ts by lia. pose proof (Rt_wf (S t) ltac:(lia)) as W. pose proof (Rt_tgt (S t) ltac:(lia)) as G.
    destruct (Rt (S t)) as [[t' s] rs]. cbn in G. subst t'.
    destruct (row_run _ _ _ _ _ W Ts) as [U _]; [intro k; apply IH; lia|]. rewrite U by lia. apply IH; lia.
Qed.
Lemma step_row t : (9 <= t <= 31)%nat -> (forall r k, r <> t -> GG t r k = GG (t - 1)%nat r k) /\ row_ok (GG t) (Rt t).
Proof.
  intro H. destruct T as [T0 Ts]. specialize (Ts t H). pose proof (Rt_wf t H) as W. pose proof (Rt_tgt t H) as G.
  destruct (Rt t) as [[t' s] rs]. cbn in G. subst t'. apply (row_run _ _ _ _ _ W Ts). intro k. apply step_zero; lia.
Qed.
Lemma keep t r k : (8 <= t <= 31)%nat -> (r <= t)%nat -> M r k = GG t r k.
Proof.
  intros H. assert (X : forall d, (d <= 31 - t)%nat -> (r <= t)%nat -> GG (t + d)%nat r k = GG t r k).
  { induction d as [|d IH]; intros Hd Hr; [now rewrite Nat.add_0_r|]. rewrite <- IH by lia.
    destruct (step_row (t + S d)) as [U _]; [lia|]. rewrite U by lia. f_equal. lia. }
  intro Hr. rewrite <- (X (31 - t)%nat) by lia. f_equal. lia.
Qed.
Lemma rows_ok t : (9 <= t <= 31)%nat -> row_ok M (Rt t).
Proof.
  intro H. destruct (step_row t H) as [_ R]. pose proof (Rt_wf t H) as W. pose proof (Rt_tgt t H) as G. destruct (Rt t) as [[t' s] rs]. cbn in G. subst t'.
  apply (row_ok_ext (GG t)); auto. intros r k Hr. apply keep; lia.
Qed.
Lemma row_form t : (9 <= t <= 31)%nat -> let '(t', s, rs) := Rt t in sp_piv M s /\ Forall (fun o => M (rsrc o) (rpiv o) <> 0) rs /\
  exists fs, length fs = length rs /\ (forall k, M t k = sval M s k - lsum (fun y => fst y * look M (snd y) k) (combine fs rs)) /\
    forall w, wv 85 w M t = swv w M s - lsum (fun y => fst y * shs w M (snd y)) (combine fs rs).
Proof.
  intro H. pose proof (rows_ok t H) as R. pose proof (Rt_wf t H) as W. pose proof (Rt_tgt t H) as G. pose proof (Rt_cols t H) as C.
  destruct (Rt t) as [[t' s] rs]. cbn in G. subst t'. destruct R as (P & Ps & R). split; auto. split; auto. apply (row_wv 85); auto. split; auto.
Qed.

(** * Supports *)
Lemma inv8 : ginv 8%nat st8.
Proof.
  destruct T as [T0 _]. rewrite T0. change st8 with (supp0 48 85 gp_keys, @nil (nat * nat)).
  split; cbn [fst snd].
  - unfold supp0. now rewrite map_length, seq_length.
  - intros r c Hr Hc H. rewrite sget_supp0 in H by auto. unfold gp_init, gcells. rewrite gcells_fold; auto.
  - intros r c [].
  - intros r Hr. unfold gp_init. rewrite gcells_value; [now apply Z0|]. change (map fst (gp_cells f v p)) with gp_keys. vm_compute. reflexivity.
Qed.
Definition spo (t : nat) : gop := snd (fst (Rt t)).
Lemma pre_step t st st' : (9 <= t <= 31)%nat -> gp_pre (Rt t) st = Some st' -> dropped M (spo t) (gp_drop t) -> ginv (t - 1)%nat st -> ginv t st'.
Proof.
  intros H C D I. destruct T as [_ Ts]. specialize (Ts t H). pose proof (Rt_wf t H) as W. pose proof (Rt_tgt t H) as G. unfold spo in D.
  destruct (Rt t) as [[t' s] rs]. cbn in G, D. subst t'. cbn [gp_pre] in C. cbn [row_ops grun] in Ts.
  destruct (gstep s (GG (t - 1)%nat)) as [G1|] eqn:E1; [|discriminate]. destruct (gcheckd 48 85 6 gp_mon s (gp_drop t) st) as [st1|] eqn:C1; [|discriminate].
  apply (gcheck_sound 48 85 6 gp_mon x rs st1 st' G1 (GG t)); auto. apply (gcheckd_sound 48 85 6 gp_mon x s (gp_drop t) st st1 (GG (t - 1)%nat) G1); auto.
  cbn [row_wf] in W. apply andb_prop in W as [W _]. destruct s as [t' i p0 j q e| | |]; try discriminate. cbn [sp_wf] in W.
  apply andb_prop in W as [W _]. apply andb_prop in W as [W W2]. apply andb_prop in W as [_ W1]. apply Nat.ltb_lt in W1, W2.
  cbn [dropped] in *. intros y Hy. rewrite <- !(keep (t - 1)) by lia. now apply D.
Qed.
Lemma post_step t st st' : (9 <= t <= 31)%nat -> gp_post (Rt t) st = st' -> (forall c, In c (gp_prune t) -> M t c = 0) -> ginv t st -> ginv t st'.
Proof.
  intros H E Z I. pose proof (Rt_tgt t H) as G. destruct (Rt t) as [[t' s] rs]. cbn in G. subst t' st'. cbn [gp_post].
  destruct (gp_prune t) eqn:Ep; auto. apply prune_sound; auto; [lia|]. intros c Hc. rewrite <- (keep t) by lia. auto.
Qed.
Lemma zero_at t st r c : (8 <= t <= 31)%nat -> ginv t st -> (Nat.leb r t && Nat.ltb c 85 && negb (sget (fst st) r c))%bool = true -> M r c = 0.
Proof.
  intros H [_ Z _ _] B. apply andb_prop in B as [B B3]. apply andb_prop in B as [B1 B2]. apply Nat.leb_le in B1. apply Nat.ltb_lt in B2. apply negb_true_iff in B3.
  rewrite (keep t) by lia. apply Z; auto. lia.
Qed.

(** * Rows 0..8 *)
Definition W0 (m : nat) : R := match m with 0 | 2 | 5 | 9 => 1 | _ => 0 end.
Lemma tie0 r k m : (r < 9)%nat -> (k < 3)%nat -> (m < 10)%nat -> M r (nc k m) = M r (nc k 0) * W0 m.
Proof.
  intros Hr Hk Hm. rewrite !(keep 8) by lia. destruct T as [-> _].
  do 9 (destruct r as [|r]; [do 3 (destruct k as [|k]; [do 10 (destruct m as [|m]; [cbn [W0]; rewrite ?Rmult_1_r, ?Rmult_0_r; reflexivity|]); lia|]); lia|]). lia.
Qed.
End Run.
