(** gp3p: the rows 9..20 of the template. *)
From Coq Require Import Reals Lra Lia List Arith Bool.
From Verif Require Import Lin GenLin GbModel GbProps GpnpGb GbSeg Gp3pData Gp3pInit Gp3pRows Gp3pTie.
Import ListNotations.
Local Open Scope R_scope.

(** if a lead is cleared with a multiple of Q, the multiple is the right one *)
Lemma clear_lead (V W Q : nat -> R) al g l : Q l <> 0 -> (forall m, (m < 10)%nat -> V m = al * W m - g * Q m) -> (l < 10)%nat -> V l = 0 ->
  forall m, (m < 10)%nat -> V m = al * (W m - W l / Q l * Q m).
Proof.
  intros N E Hl Z m Hm. rewrite E by auto. pose proof (E l Hl) as El. rewrite Z in El.
  replace g with (al * W l / Q l); [field; auto|]. assert (G : g * Q l = al * W l) by lra. rewrite <- G. field. auto.
Qed.

Section Run.
Variables (f v p : nat -> vec3) (x : nat -> R) (GG : nat -> gmat).
Hypothesis T : gp_trace f v p GG.
Hypothesis Z0 : forall r, (r < 48)%nat -> cell_sum gp_mon x (gp_cells f v p) r = 0.
Notation M := (GG 31%nat).
Notation ginv t st := (ginv 48 85 gp_mon x (GG t) st).

Definition W1 (m : nat) : R := W0 m - W0 0 / M 10%nat (pc 0) * M 10%nat (pc m).
Definition W2 (m : nat) : R := W1 m - W1 1 / M 12%nat (pc 1) * M 12%nat (pc m).
Definition W3 (m : nat) : R := W2 m - W2 2 / M 15%nat (pc 2) * M 15%nat (pc m).

Ltac ev H := lazy beta iota zeta delta [sval sfind look assoc rpairs rsrc lsum combine fst snd Nat.eqb gterm nc pc nth Nat.sub] in H.
Ltac evg := lazy beta iota zeta delta [sval sfind look assoc rpairs rsrc lsum combine fst snd Nat.eqb gterm nc pc nth Nat.sub].
Ltac zr t st I := repeat match goal with |- context [GG 31%nat ?r ?c] => rewrite (zero_at f v p x GG T t st r c ltac:(lia) I eq_refl) end.
Ltac pf t := let P := fresh "P" in let Ps := fresh "Ps" in let fs := fresh "fs" in let L := fresh "L" in let E := fresh "E" in let Wv := fresh "Wv" in
  pose proof (row_form f v p GG T t ltac:(lia)) as P; let r := eval lazy in (Rt t) in change (Rt t) with r in P; cbv iota beta in P;
  destruct P as (P & Ps & fs & L & E & Wv); cbn [sp_piv] in P; cbn [length] in L.
Ltac lst := repeat match goal with H : length ?l = S _ |- _ => let g := fresh "g" in destruct l as [|g l]; [discriminate H|]; cbn [length] in H; apply eq_add_S in H
                             | H : length ?l = 0%nat |- _ => apply length_zero_iff_nil in H; subst l end.
Ltac cases10 m := destruct m as [|[|[|[|[|[|[|[|[|[|m]]]]]]]]]]; [..|lia].
Ltac tie r k m n := pose proof (tie0 f v p GG T r k m ltac:(lia) ltac:(lia) ltac:(assumption)) as n.
Ltac fin := first [ring | unfold Rdiv; ring].
Ltac ev2 n := ev n; cbn [W0] in n.

Lemma drop_tie r1 r2 k : (r1 < 9)%nat -> (r2 < 9)%nat -> (k < 3)%nat -> M r1 (nc k 0) <> 0 -> M r2 (nc k 0) <> 0 -> forall y, In y [(nc k 2, nc k 2); (nc k 5, nc k 5); (nc k 9, nc k 9)] ->
  M r1 (fst y) / M r1 (nc k 0) = M r2 (snd y) / M r2 (nc k 0).
Proof.
  intros H1 H2 Hk N1 N2 y [<-|[<-|[<-|[]]]]; cbn [fst snd].
  - rewrite (tie0 f v p GG T r1 k 2), (tie0 f v p GG T r2 k 2) by lia. cbn [W0]. field. auto.
  - rewrite (tie0 f v p GG T r1 k 5), (tie0 f v p GG T r2 k 5) by lia. cbn [W0]. field. auto.
  - rewrite (tie0 f v p GG T r1 k 9), (tie0 f v p GG T r2 k 9) by lia. cbn [W0]. field. auto.
Qed.
Ltac dropt t r1 r2 k := pf t; unfold spo; let r := eval lazy in (Rt t) in change (Rt t) with r; cbn [fst snd dropped]; match goal with H : _ /\ _ |- _ => destruct H end; apply (drop_tie r1 r2 k); auto; lia.
Lemma drop9 : dropped M (spo 9) (gp_drop 9).
Proof. dropt 9%nat 0%nat 1%nat 1%nat. Qed.
Lemma invp9 : ginv 9%nat pre9.
Proof. apply (pre_step f v p x GG T 9 st8); [lia|exact pre9_ok|exact drop9|exact (inv8 f v p x GG T Z0)]. Qed.
Lemma inv9 : ginv 9%nat st9.
Proof. apply (post_step f v p x GG T 9 pre9); [lia|reflexivity|intros c []|exact invp9]. Qed.
Lemma N9 : exists a, forall m, (m < 10)%nat -> M 9%nat (nc 0 m) = a * W0 m.
Proof.
  pf 9%nat. exists (M 0%nat 21%nat / M 0%nat 20%nat - M 1%nat 21%nat / M 1%nat 20%nat). intros m Hm.
  destruct fs; [|discriminate]. rewrite E. clear E Wv. tie 0%nat 0%nat m Ta. tie 1%nat 0%nat m Tb.
  cases10 m; ev2 Ta; ev2 Tb; evg; cbn [W0]; try rewrite Ta; try rewrite Tb; fin.
Qed.
Lemma drop10 : dropped M (spo 10) (gp_drop 10).
Proof. dropt 10%nat 1%nat 2%nat 1%nat. Qed.
Lemma invp10 : ginv 10%nat pre10.
Proof. apply (pre_step f v p x GG T 10 st9); [lia|exact pre10_ok|exact drop10|exact inv9]. Qed.
Lemma N10 m : (m < 10)%nat -> M 10%nat (nc 0 m) = 0.
Proof.
  destruct N9 as (a & Na). pf 10%nat. destruct fs as [|g [|? ?]]; try discriminate. set (b := M 1%nat 21%nat / M 1%nat 20%nat - M 2%nat 21%nat / M 2%nat 20%nat).
  assert (F : forall m, (m < 10)%nat -> M 10%nat (nc 0 m) = (b - g * a) * W0 m).
  { clear m. intros m Hm. rewrite E. clear E Wv. pose proof (Na m Hm) as Nm. tie 1%nat 0%nat m Ta. tie 2%nat 0%nat m Tb. unfold b.
    pose proof (zero_at f v p x GG T 10 pre10 9 (nc 0 m) ltac:(lia) invp10) as Zm.
    cases10 m; ev2 Ta; ev2 Tb; ev2 Nm; evg; cbn [W0]; try rewrite Nm; try rewrite Ta; try rewrite Tb; fin. }
  intro Hm. pose proof (F 0%nat ltac:(lia)) as F0. rewrite (zero_at f v p x GG T 10 pre10 10 (nc 0 0) ltac:(lia) invp10 eq_refl) in F0.
  cbn [W0] in F0. rewrite F by auto. replace (b - g * a) with 0 by lra. ring.
Qed.
Lemma inv10 : ginv 10%nat st10.
Proof. apply (post_step f v p x GG T 10 pre10); [lia|reflexivity|intros c Hc; cbn [gp_prune] in Hc; repeat destruct Hc as [<-|Hc]; try (destruct Hc); first [exact (N10 0%nat ltac:(lia)) | exact (N10 1%nat ltac:(lia)) | exact (N10 2%nat ltac:(lia)) | exact (N10 3%nat ltac:(lia)) | exact (N10 4%nat ltac:(lia)) | exact (N10 5%nat ltac:(lia)) | exact (N10 6%nat ltac:(lia)) | exact (N10 7%nat ltac:(lia)) | exact (N10 8%nat ltac:(lia)) | exact (N10 9%nat ltac:(lia))]|exact invp10]. Qed.
Lemma Q10 : M 10%nat (pc 0) <> 0.
Proof. pf 11%nat. inversion Ps as [|? ? P1 ?]. exact P1. Qed.
Lemma W10 : W1 0 = 0.
Proof. unfold W1. cbn [W0]. field. exact Q10. Qed.
Lemma drop11 : dropped M (spo 11) (gp_drop 11).
Proof. dropt 11%nat 3%nat 4%nat 2%nat. Qed.
Lemma invp11 : ginv 11%nat pre11.
Proof. apply (pre_step f v p x GG T 11 st10); [lia|exact pre11_ok|exact drop11|exact inv10]. Qed.
Lemma inv11 : ginv 11%nat st11.
Proof. apply (post_step f v p x GG T 11 pre11); [lia|reflexivity|intros c []|exact invp11]. Qed.
Lemma N11 : exists a, forall m, (m < 10)%nat -> M 11%nat (nc 1 m) = a * W1 m.
Proof.
  pf 11%nat. destruct fs as [|g [|g' [|? ?]]]; try discriminate. exists (M 3%nat 20%nat / M 3%nat 19%nat - M 4%nat 20%nat / M 4%nat 19%nat).
  apply (clear_lead _ W0 (fun m => M 10%nat (pc m)) _ g 0); [exact Q10| |lia|apply (zero_at f v p x GG T 11 pre11 _ _ ltac:(lia) invp11); reflexivity].
  intros m Hm. rewrite E. clear E Wv. tie 3%nat 1%nat m Ta. tie 4%nat 1%nat m Tb.
  cases10 m; ev2 Ta; ev2 Tb; evg; cbn [W0]; try rewrite Ta; try rewrite Tb; fin.
Qed.
Lemma drop12 : dropped M (spo 12) (gp_drop 12).
Proof. dropt 12%nat 4%nat 5%nat 2%nat. Qed.
Lemma invp12 : ginv 12%nat pre12.
Proof. apply (pre_step f v p x GG T 12 st11); [lia|exact pre12_ok|exact drop12|exact inv11]. Qed.
Lemma N12 m : (m < 10)%nat -> M 12%nat (nc 1 m) = 0.
Proof.
  destruct N11 as (a & Na). pf 12%nat. destruct fs as [|g [|g' [|g'' [|? ?]]]]; try discriminate. set (b := M 4%nat 20%nat / M 4%nat 19%nat - M 5%nat 20%nat / M 5%nat 19%nat).
  assert (F : forall m, (m < 10)%nat -> M 12%nat (nc 1 m) + g' * a * W1 m = b * (W0 m - W0 0 / M 10%nat (pc 0) * M 10%nat (pc m))).
  { apply (clear_lead (fun m => M 12%nat (nc 1 m) + g' * a * W1 m) W0 (fun m => M 10%nat (pc m)) _ g 0); [exact Q10| |lia|].
    2:{ cbv beta. rewrite W10, (zero_at f v p x GG T 12 pre12 12 (nc 1 0) ltac:(lia) invp12 eq_refl). ring. }
    clear m. intros m Hm. rewrite E. clear E Wv. pose proof (Na m Hm) as Nm. tie 4%nat 1%nat m Ta. tie 5%nat 1%nat m Tb. unfold b. rewrite Rmult_assoc, <- Nm.
    cases10 m; ev2 Ta; ev2 Tb; evg; cbn [W0]; try rewrite Ta; try rewrite Tb; zr 12%nat pre12 invp12; fin. }
  assert (F' : forall m, (m < 10)%nat -> M 12%nat (nc 1 m) = (b - g' * a) * W1 m) by (clear m; intros m Hm; pose proof (F m Hm) as Fm; fold (W1 m) in Fm; lra).
  intro Hm. pose proof (F' 1%nat ltac:(lia)) as F1. rewrite (zero_at f v p x GG T 12 pre12 12 (nc 1 1) ltac:(lia) invp12 eq_refl) in F1.
  assert (N : M 11%nat (nc 1 1) <> 0) by (inversion Ps as [|? ? ? Q]; inversion Q as [|? ? P1 ?]; exact P1).
  rewrite Na in N by lia. assert (W1 1 <> 0) by (intro Z; apply N; rewrite Z; ring).
  rewrite F' by auto. replace (b - g' * a) with 0; [ring|]. symmetry in F1. apply Rmult_integral in F1 as [->|]; tauto.
Qed.
Lemma inv12 : ginv 12%nat st12.
Proof. apply (post_step f v p x GG T 12 pre12); [lia|reflexivity|intros c Hc; cbn [gp_prune] in Hc; repeat destruct Hc as [<-|Hc]; try (destruct Hc); first [exact (N12 0%nat ltac:(lia)) | exact (N12 1%nat ltac:(lia)) | exact (N12 2%nat ltac:(lia)) | exact (N12 3%nat ltac:(lia)) | exact (N12 4%nat ltac:(lia)) | exact (N12 5%nat ltac:(lia)) | exact (N12 6%nat ltac:(lia)) | exact (N12 7%nat ltac:(lia)) | exact (N12 8%nat ltac:(lia)) | exact (N12 9%nat ltac:(lia))]|exact invp12]. Qed.
Lemma Q12 : M 12%nat (pc 1) <> 0.
Proof. pf 13%nat. do 2 (inversion Ps as [|? ? _ Ps']; subst; clear Ps; rename Ps' into Ps). inversion Ps as [|? ? P1 ?]. exact P1. Qed.
Lemma Q12_0 : M 12%nat (pc 0) = 0.
Proof. exact (zero_at f v p x GG T 12 pre12 12 (pc 0) ltac:(lia) invp12 eq_refl). Qed.
Lemma W20 : W2 0 = 0.
Proof. unfold W2. rewrite W10, Q12_0. ring. Qed.
Lemma W21 : W2 1 = 0.
Proof. unfold W2. field. exact Q12. Qed.
(** two leads *)
Lemma clear2 (V : nat -> R) b g g' : (forall m, (m < 10)%nat -> V m = b * W0 m - g * M 10%nat (pc m) - g' * M 12%nat (pc m)) -> V 0%nat = 0 -> V 1%nat = 0 ->
  forall m, (m < 10)%nat -> V m = b * W2 m.
Proof.
  intros E V0 V1.
  assert (F : forall m, (m < 10)%nat -> V m + g' * M 12%nat (pc m) = b * (W0 m - W0 0 / M 10%nat (pc 0) * M 10%nat (pc m))).
  { apply (clear_lead (fun m => V m + g' * M 12%nat (pc m)) W0 (fun m => M 10%nat (pc m)) _ g 0); [exact Q10| |lia|].
    - intros m Hm. rewrite E by auto. ring.
    - rewrite V0, Q12_0. ring. }
  apply (clear_lead V W1 (fun m => M 12%nat (pc m)) b g' 1); [exact Q12| |lia|auto].
  intros m Hm. pose proof (F m Hm) as Fm. fold (W1 m) in Fm. lra.
Qed.
Lemma drop13 : dropped M (spo 13) (gp_drop 13).
Proof. dropt 13%nat 5%nat 6%nat 2%nat. Qed.
Lemma invp13 : ginv 13%nat pre13.
Proof. apply (pre_step f v p x GG T 13 st12); [lia|exact pre13_ok|exact drop13|exact inv12]. Qed.
Lemma inv13 : ginv 13%nat st13.
Proof. apply (post_step f v p x GG T 13 pre13); [lia|reflexivity|intros c []|exact invp13]. Qed.
Lemma N13_0 : exists a, forall m, (m < 10)%nat -> M 13%nat (nc 0 m) = a * W2 m.
Proof.
  pf 13%nat. destruct fs as [|g11 [|g12 [|g13 [|g14 [|g15 [|g16 [|? ?]]]]]]]; try discriminate.
  exists (M 5%nat 21%nat / M 5%nat 19%nat - M 6%nat 21%nat / M 6%nat 19%nat).
  apply (clear2 (fun m => M 13%nat (nc 0 m)) _ g12 g14); [|apply (zero_at f v p x GG T 13 pre13 _ _ ltac:(lia) invp13); reflexivity..].
  intros m Hm. rewrite E. clear E Wv. tie 5%nat 0%nat m Ta. tie 6%nat 0%nat m Tb.
  cases10 m; ev2 Ta; ev2 Tb; evg; cbn [W0]; try rewrite Ta; try rewrite Tb; zr 13%nat pre13 invp13; fin.
Qed.
Lemma N13_1 : exists a, forall m, (m < 10)%nat -> M 13%nat (nc 1 m) = a * W2 m.
Proof.
  pf 13%nat. destruct fs as [|g11 [|g12 [|g13 [|g14 [|g15 [|g16 [|? ?]]]]]]]; try discriminate.
  exists (M 5%nat 20%nat / M 5%nat 19%nat - M 6%nat 20%nat / M 6%nat 19%nat).
  apply (clear2 (fun m => M 13%nat (nc 1 m)) _ g11 g13); [|apply (zero_at f v p x GG T 13 pre13 _ _ ltac:(lia) invp13); reflexivity..].
  intros m Hm. rewrite E. clear E Wv. tie 5%nat 1%nat m Ta. tie 6%nat 1%nat m Tb.
  cases10 m; ev2 Ta; ev2 Tb; evg; cbn [W0]; try rewrite Ta; try rewrite Tb; zr 13%nat pre13 invp13; fin.
Qed.
Lemma drop14 : dropped M (spo 14) (gp_drop 14).
Proof. dropt 14%nat 6%nat 7%nat 2%nat. Qed.
Lemma invp14 : ginv 14%nat pre14.
Proof. apply (pre_step f v p x GG T 14 st13); [lia|exact pre14_ok|exact drop14|exact inv13]. Qed.
Lemma inv14 : ginv 14%nat st14.
Proof. apply (post_step f v p x GG T 14 pre14); [lia|reflexivity|intros c []|exact invp14]. Qed.
Lemma N14 : exists a, forall m, (m < 10)%nat -> M 14%nat (nc 0 m) = a * W2 m.
Proof.
  pf 14%nat. destruct fs as [|g1 [|g2 [|g3 [|g4 [|? ?]]]]]; try discriminate.
  exists (M 6%nat 21%nat / M 6%nat 19%nat - M 7%nat 21%nat / M 7%nat 19%nat).
  apply (clear2 (fun m => M 14%nat (nc 0 m)) _ g1 g2); [|apply (zero_at f v p x GG T 14 pre14 _ _ ltac:(lia) invp14); reflexivity..].
  intros m Hm. rewrite E. clear E Wv. tie 6%nat 0%nat m Ta. tie 7%nat 0%nat m Tb.
  cases10 m; ev2 Ta; ev2 Tb; evg; cbn [W0]; try rewrite Ta; try rewrite Tb; zr 14%nat pre14 invp14; fin.
Qed.
Lemma drop15 : dropped M (spo 15) (gp_drop 15).
Proof. dropt 15%nat 7%nat 8%nat 2%nat. Qed.
Lemma invp15 : ginv 15%nat pre15.
Proof. apply (pre_step f v p x GG T 15 st14); [lia|exact pre15_ok|exact drop15|exact inv14]. Qed.
Lemma N14_piv : M 14%nat (nc 0 2) <> 0.
Proof. pf 17%nat. destruct P as [P _]. exact P. Qed.
Lemma W2_2 : W2 2 <> 0.
Proof. destruct N14 as (a & Na). pose proof N14_piv as N. rewrite Na in N by lia. intro Z. apply N. rewrite Z. ring. Qed.
Lemma N15 m : (m < 10)%nat -> M 15%nat (nc 0 m) = 0.
Proof.
  destruct N14 as (a & Na). pf 15%nat. destruct fs as [|g1 [|g2 [|g3 [|g4 [|g5 [|? ?]]]]]]; try discriminate. set (b := M 7%nat 21%nat / M 7%nat 19%nat - M 8%nat 21%nat / M 8%nat 19%nat).
  assert (F : forall m, (m < 10)%nat -> M 15%nat (nc 0 m) + g3 * M 14%nat (nc 0 m) = b * W2 m).
  { apply (clear2 (fun m => M 15%nat (nc 0 m) + g3 * M 14%nat (nc 0 m)) b g1 g2); [|zr 15%nat pre15 invp15; ring..].
    clear m. intros m Hm. rewrite E. clear E Wv. tie 7%nat 0%nat m Ta. tie 8%nat 0%nat m Tb. unfold b.
    cases10 m; ev2 Ta; ev2 Tb; evg; cbn [W0]; try rewrite Ta; try rewrite Tb; zr 15%nat pre15 invp15; fin. }
  assert (F' : forall m, (m < 10)%nat -> M 15%nat (nc 0 m) = (b - g3 * a) * W2 m) by (clear m; intros m Hm; pose proof (F m Hm) as Fm; rewrite (Na m Hm) in Fm; lra).
  intro Hm. pose proof (F' 2%nat ltac:(lia)) as F1. rewrite (zero_at f v p x GG T 15 pre15 15 (nc 0 2) ltac:(lia) invp15 eq_refl) in F1.
  rewrite F' by auto. replace (b - g3 * a) with 0; [ring|]. symmetry in F1. pose proof W2_2. apply Rmult_integral in F1 as [->|]; tauto.
Qed.
Lemma inv15 : ginv 15%nat st15.
Proof. apply (post_step f v p x GG T 15 pre15); [lia|reflexivity|intros c Hc; cbn [gp_prune] in Hc; repeat destruct Hc as [<-|Hc]; try (destruct Hc); first [exact (N15 0%nat ltac:(lia)) | exact (N15 1%nat ltac:(lia)) | exact (N15 2%nat ltac:(lia)) | exact (N15 3%nat ltac:(lia)) | exact (N15 4%nat ltac:(lia)) | exact (N15 5%nat ltac:(lia)) | exact (N15 6%nat ltac:(lia)) | exact (N15 7%nat ltac:(lia)) | exact (N15 8%nat ltac:(lia)) | exact (N15 9%nat ltac:(lia))]|exact invp15]. Qed.
Lemma Q15 : M 15%nat (pc 2) <> 0.
Proof. pf 17%nat. destruct P as [_ P]. exact P. Qed.
Lemma W32 : W3 2 = 0.
Proof. unfold W3. field. exact Q15. Qed.
Lemma invp16 : ginv 16%nat pre16.
Proof. apply (pre_step f v p x GG T 16 st15); [lia|exact pre16_ok|intros y []|exact inv15]. Qed.
Lemma inv16 : ginv 16%nat st16.
Proof. apply (post_step f v p x GG T 16 pre16); [lia|reflexivity|intros c []|exact invp16]. Qed.
Lemma invp17 : ginv 17%nat pre17.
Proof. apply (pre_step f v p x GG T 17 st16); [lia|exact pre17_ok|intros y []|exact inv16]. Qed.
Lemma inv17 : ginv 17%nat st17.
Proof. apply (post_step f v p x GG T 17 pre17); [lia|reflexivity|intros c []|exact invp17]. Qed.
Lemma Q15_01 : M 15%nat (pc 0) = 0 /\ M 15%nat (pc 1) = 0.
Proof. split; apply (zero_at f v p x GG T 15 pre15 15 _ ltac:(lia) invp15); reflexivity. Qed.
Lemma N17 m : (m < 10)%nat -> M 17%nat (nc 0 m) = / W2 2 * W3 m.
Proof.
  destruct N14 as (a & Na). pf 17%nat. destruct fs as [|g1 [|? ?]]; try discriminate. intro Hm. pose proof (Na m Hm) as Nm. pose proof (Na 2%nat ltac:(lia)) as N2.
  pose proof N14_piv as NZ. rewrite N2 in NZ. pose proof W2_2 as NW. pose proof Q15 as NQ. rewrite E. clear E Wv. unfold W3.
  assert (Ha : a <> 0) by (intro Z; apply NZ; rewrite Z; ring). pose proof W20 as A0. pose proof W21 as A1. pose proof Q15_01 as [B0 B1].
  cases10 m; ev Nm; ev N2; ev NQ; ev B0; ev B1; evg; try rewrite Nm; try rewrite N2; try rewrite A0; try rewrite A1; try rewrite B0; try rewrite B1; field; repeat split; assumption.
Qed.
Lemma invp18 : ginv 18%nat pre18.
Proof. apply (pre_step f v p x GG T 18 st17); [lia|exact pre18_ok|intros y []|exact inv17]. Qed.
Lemma W3_3 : W3 3 <> 0.
Proof.
  pf 18%nat. inversion Ps as [|? ? _ Q]. inversion Q as [|? ? P1 _]. change (M 17%nat (nc 0 3) <> 0) in P1. rewrite N17 in P1 by lia. intro Z. apply P1. rewrite Z. ring.
Qed.
Lemma N18 m : (m < 10)%nat -> M 18%nat (nc 0 m) = 0.
Proof.
  destruct N13_0 as (a & Na). pf 18%nat. destruct fs as [|g1 [|g2 [|g3 [|? ?]]]]; try discriminate. set (b := a / M 13%nat (nc 1 2)).
  assert (F : forall m, (m < 10)%nat -> M 18%nat (nc 0 m) + g2 * M 17%nat (nc 0 m) = b * (W2 m - W2 2 / M 15%nat (pc 2) * M 15%nat (pc m))).
  { apply (clear_lead (fun m => M 18%nat (nc 0 m) + g2 * M 17%nat (nc 0 m)) W2 (fun m => M 15%nat (pc m)) b g1 2); [exact Q15| |lia|zr 18%nat pre18 invp18; ring].
    clear m. intros m Hm. rewrite E. clear E Wv. pose proof (Na m Hm) as Nm. unfold b. transitivity (M 13%nat (nc 0 m) / M 13%nat (nc 1 2) - g1 * M 15%nat (pc m)); [|rewrite Nm; unfold Rdiv; ring]. clear Nm.
    cases10 m; evg; zr 18%nat pre18 invp18; fin. }
  assert (F' : forall m, (m < 10)%nat -> M 18%nat (nc 0 m) = (b - g2 * / W2 2) * W3 m) by (clear m; intros m Hm; pose proof (F m Hm) as Fm; rewrite (N17 m Hm) in Fm; fold (W3 m) in Fm; lra).
  intro Hm. pose proof (F' 3%nat ltac:(lia)) as F1. rewrite (zero_at f v p x GG T 18 pre18 18 (nc 0 3) ltac:(lia) invp18 eq_refl) in F1.
  rewrite F' by auto. replace (b - g2 * / W2 2) with 0; [ring|]. symmetry in F1. pose proof W3_3. apply Rmult_integral in F1 as [->|]; tauto.
Qed.
Lemma N18_1 m : (m < 10)%nat -> M 18%nat (nc 1 m) = / W2 2 * W3 m.
Proof.
  destruct N13_1 as (a & Na). pf 18%nat. destruct P as [NZ _]. change (M 13%nat (nc 1 2) <> 0) in NZ. destruct fs as [|g1 [|g2 [|g3 [|? ?]]]]; try discriminate. intro Hm. pose proof (Na m Hm) as Nm. pose proof (Na 2%nat ltac:(lia)) as N2.
  rewrite N2 in NZ. pose proof W2_2 as NW. pose proof Q15 as NQ. rewrite E. clear E Wv. unfold W3.
  assert (Ha : a <> 0) by (intro Z; apply NZ; rewrite Z; ring). pose proof W20 as A0. pose proof W21 as A1. pose proof Q15_01 as [B0 B1].
  cases10 m; ev Nm; ev N2; ev NQ; ev B0; ev B1; evg; try rewrite Nm; try rewrite N2; try rewrite A0; try rewrite A1; try rewrite B0; try rewrite B1; field; repeat split; assumption.
Qed.
Lemma inv18 : ginv 18%nat st18.
Proof. apply (post_step f v p x GG T 18 pre18); [lia|reflexivity|intros c Hc; cbn [gp_prune] in Hc; repeat destruct Hc as [<-|Hc]; try (destruct Hc); first [exact (N18 0%nat ltac:(lia)) | exact (N18 1%nat ltac:(lia)) | exact (N18 2%nat ltac:(lia)) | exact (N18 3%nat ltac:(lia)) | exact (N18 4%nat ltac:(lia)) | exact (N18 5%nat ltac:(lia)) | exact (N18 6%nat ltac:(lia)) | exact (N18 7%nat ltac:(lia)) | exact (N18 8%nat ltac:(lia)) | exact (N18 9%nat ltac:(lia))]|exact invp18]. Qed.
Lemma invp19 : ginv 19%nat pre19.
Proof. apply (pre_step f v p x GG T 19 st18); [lia|exact pre19_ok|intros y []|exact inv18]. Qed.
Lemma inv19 : ginv 19%nat st19.
Proof. apply (post_step f v p x GG T 19 pre19); [lia|reflexivity|intros c []|exact invp19]. Qed.
Lemma invp20 : ginv 20%nat pre20.
Proof. apply (pre_step f v p x GG T 20 st19); [lia|exact pre20_ok|intros y []|exact inv19]. Qed.
Lemma N20 m : (m < 10)%nat -> M 20%nat (nc 0 m) = 0.
Proof.
  pf 20%nat. destruct fs as [|g53 [|g54 [|g55 [|g56 [|g57 [|g58 [|g59 [|g60 [|g61 [|? ?]]]]]]]]]]; try discriminate. set (b := M 8%nat (nc 0 0) / M 8%nat 19%nat).
  assert (F : forall m, (m < 10)%nat -> M 20%nat (nc 0 m) + g57 * M 15%nat (pc m) + g58 * M 17%nat (nc 0 m) = b * W2 m).
  { apply (clear2 (fun m => M 20%nat (nc 0 m) + g57 * M 15%nat (pc m) + g58 * M 17%nat (nc 0 m)) b g53 g55); [|zr 20%nat pre20 invp20; ring..].
    clear m. intros m Hm. rewrite E. clear E Wv. tie 8%nat 0%nat m Ta. unfold b. transitivity (M 8%nat (nc 0 m) / M 8%nat 19%nat - g53 * M 10%nat (pc m) - g55 * M 12%nat (pc m)); [|rewrite Ta; unfold Rdiv; ring]. clear Ta.
    cases10 m; evg; zr 20%nat pre20 invp20; fin. }
  assert (F2 : forall m, (m < 10)%nat -> M 20%nat (nc 0 m) + g58 * M 17%nat (nc 0 m) = b * (W2 m - W2 2 / M 15%nat (pc 2) * M 15%nat (pc m))).
  { apply (clear_lead (fun m => M 20%nat (nc 0 m) + g58 * M 17%nat (nc 0 m)) W2 (fun m => M 15%nat (pc m)) b g57 2); [exact Q15| |lia|zr 20%nat pre20 invp20; ring].
    clear m. intros m Hm. pose proof (F m Hm). cbv beta. lra. }
  assert (F' : forall m, (m < 10)%nat -> M 20%nat (nc 0 m) = (b - g58 * / W2 2) * W3 m) by (clear m; intros m Hm; pose proof (F2 m Hm) as Fm; rewrite (N17 m Hm) in Fm; fold (W3 m) in Fm; lra).
  intro Hm. pose proof (F' 3%nat ltac:(lia)) as F1. rewrite (zero_at f v p x GG T 20 pre20 20 (nc 0 3) ltac:(lia) invp20 eq_refl) in F1.
  rewrite F' by auto. replace (b - g58 * / W2 2) with 0; [ring|]. symmetry in F1. pose proof W3_3. apply Rmult_integral in F1 as [->|]; tauto.
Qed.
Lemma N20_2 m : (m < 10)%nat -> M 20%nat (nc 2 m) = W3 m.
Proof.
  pf 20%nat. destruct P as [N8 _]. destruct fs as [|g53 [|g54 [|g55 [|g56 [|g57 [|g58 [|g59 [|g60 [|g61 [|? ?]]]]]]]]]]; try discriminate.
  assert (F : forall m, (m < 10)%nat -> M 20%nat (nc 2 m) + g56 * M 15%nat (pc m) = 1 * (W1 m - W1 1 / M 12%nat (pc 1) * M 12%nat (pc m))).
  { apply (clear_lead (fun m => M 20%nat (nc 2 m) + g56 * M 15%nat (pc m)) W1 (fun m => M 12%nat (pc m)) 1 g54 1); [exact Q12| |lia|zr 20%nat pre20 invp20; ring].
    clear m. intros m Hm. rewrite E. clear E Wv. unfold W1. tie 8%nat 2%nat m Ta. pose proof Q10 as NQ. ev NQ.
    pose proof (zero_at f v p x GG T 20 pre20) as Z.
    cases10 m; ev Ta; cbn [W0] in Ta |- *; evg; try rewrite Ta; zr 20%nat pre20 invp20; field; repeat split; assumption. }
  assert (F2 : forall m, (m < 10)%nat -> M 20%nat (nc 2 m) = 1 * (W2 m - W2 2 / M 15%nat (pc 2) * M 15%nat (pc m))).
  { apply (clear_lead (fun m => M 20%nat (nc 2 m)) W2 (fun m => M 15%nat (pc m)) 1 g56 2); [exact Q15| |lia|zr 20%nat pre20 invp20; ring].
    clear m. intros m Hm. pose proof (F m Hm) as Fm. fold (W2 m) in Fm. cbv beta. lra. }
  intro Hm. rewrite F2 by auto. unfold W3. ring.
Qed.
Lemma inv20 : ginv 20%nat st20.
Proof. apply (post_step f v p x GG T 20 pre20); [lia|reflexivity|intros c Hc; cbn [gp_prune] in Hc; repeat destruct Hc as [<-|Hc]; try (destruct Hc); first [exact (N20 0%nat ltac:(lia)) | exact (N20 1%nat ltac:(lia)) | exact (N20 2%nat ltac:(lia)) | exact (N20 3%nat ltac:(lia)) | exact (N20 4%nat ltac:(lia)) | exact (N20 5%nat ltac:(lia)) | exact (N20 6%nat ltac:(lia)) | exact (N20 7%nat ltac:(lia)) | exact (N20 8%nat ltac:(lia)) | exact (N20 9%nat ltac:(lia))]|exact invp20]. Qed.
End Run.
