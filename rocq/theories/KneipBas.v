(** The rows of the template of fivept_kneip after computeBasis vanish at every
    rotation that makes the ten triples of normals coplanar. *)
From Coq Require Import Reals Lra Lia List Arith NArith ZArith Bool.
From Verif Require Import Lin GenLin GbModel GbProps KneipOps KneipData KneipModel KneipForms KneipRow KneipGb KneipChk KneipCub.
Import ListNotations.
Local Open Scope R_scope.

Lemma krun_app a : forall b G, krun (a ++ b) G = match krun a G with Some H => krun b H | None => None end.
Proof. induction a as [|o a IH]; intros b G; cbn [app krun]; [reflexivity|]. destruct (kstep o G); auto. Qed.

Section Basis.
Variables (f1 f2 : nat -> vec3) (M : mat3).
Definition fixed (G : gmat) : Prop := forall r c, (r < 30)%nat -> G r c = kn_init f1 f2 r c.
Lemma init_low r : (r < 10)%nat -> exists a b c a' b' c', forall k, kn_init f1 f2 r k = kn_at (kn_epi a b c a' b' c') k.
Proof.
  intro H. unfold kn_init. destruct (nth_error kn_triples r) as [[[i j] k]|] eqn:E.
  - do 6 eexists. intro; reflexivity.
  - exfalso. apply nth_error_None in E. change (length kn_triples) with 10%nat in E. lia.
Qed.
Lemma init_high r k : (10 <= r)%nat -> kn_init f1 f2 r k = IZR (zc r k).
Proof.
  intro H. unfold kn_init. destruct (nth_error kn_triples r) as [[[i j] l]|] eqn:E.
  - exfalso. assert (r < length kn_triples)%nat by (apply nth_error_Some; congruence). change (length kn_triples) with 10%nat in *. lia.
  - apply const_zc.
Qed.
Lemma fixed_consts G : fixed G -> consts G.
Proof. intros F r c Hr. rewrite F by lia. apply init_high. lia. Qed.
Lemma fixed_lev G r c : fixed G -> (r < 10)%nat -> G r c = lev (cell_form c) (fun k => G r (nth k kn_par 0%nat)).
Proof.
  intros F Hr. destruct (init_low r Hr) as (a & b & d & a' & b' & d' & E).
  rewrite F, E by lia. unfold kn_epi. cbv zeta. etransitivity; [apply cell_lev|]. apply lev_ext. intro k. rewrite F, E by lia. reflexivity.
Qed.

Lemma nth_map_seq {A} (f : nat -> list A) n c : (c < n)%nat -> nth c (map f (seq 0 n)) [] = f c.
Proof.
  intro H. rewrite (nth_indep _ [] (f 0%nat)) by (rewrite map_length, seq_length; auto). rewrite (map_nth f), seq_nth by auto. reflexivity.
Qed.
Lemma find_memb e c : find (fun x : nat * option nat * option nat => Nat.eqb (fst (fst x)) c) e = None <-> memb c (map (fun x => fst (fst x)) e) = false.
Proof.
  induction e as [|x e IH]; [tauto|]. cbn [find map]. unfold memb. cbn [existsb]. fold (memb c (map (fun x => fst (fst x)) e)).
  rewrite (Nat.eqb_sym c). destruct (Nat.eqb (fst (fst x)) c); cbn; [split; discriminate|exact IH].
Qed.
Lemma cell0 : cell_form 0 = [1%Z]. Proof. vm_compute. reflexivity. Qed.
Lemma cell7 : cell_form 7 = [(-1)%Z]. Proof. vm_compute. reflexivity. Qed.
Lemma par0 : nth 0 kn_par 0%nat = 0%nat. Proof. reflexivity. Qed.

(** the difference of two of the first ten rows *)
Lemma diff_row k G H : (k < 9)%nat -> fixed G -> (forall c, (c < 197)%nat -> G (30 + k)%nat c = 0) -> kstep (kn_op (CS k)) G = Some H ->
  let w c := G k c / G k 0%nat - G (S k) c / G (S k) 0%nat in
  (forall r c, r <> (30 + k)%nat -> H r c = G r c) /\ (forall c, (c < 197)%nat -> H (30 + k)%nat c = w c) /\
  frel (fun i => w (nth i kn_par 0%nat)) forms30 H (30 + k).
Proof.
  intros Hk Fx Z K w. pose proof diffs_ok as D. rewrite forallb_forall in D. specialize (D k). rewrite in_seq in D. specialize (D ltac:(lia)).
  unfold diff_ok in D. cbn [kn_op] in K. destruct (nth k kn_spolys (GE 0 0 0)) as [t i p j q e| | |]; try discriminate D.
  split_and D. apply Nat.eqb_eq in D, K5, K4, K3, K2. subst i p j q. rewrite D in K. clear D t.
  unfold leq in K1. destruct (list_eq_dec _ _ _) as [Ec|]; [|discriminate]. clear K1.
  pose proof cov_is_ok as C. unfold cov_ok in C. apply andb_prop in C as [C1 C2]. apply nodupm_ok in C1 as [C1 _]. rewrite forallb_forall in C2.
  cbn [kstep gstep] in K. destruct (Req_EM_T (G k 0%nat) 0) as [|Ni]; [discriminate|]. destruct (Req_EM_T (G (S k) 0%nat) 0) as [|Nj]; [discriminate|].
  injection K as <-. destruct (spoly_at (30 + k) k 0 (S k) 0 e ltac:(lia) ltac:(lia) ltac:(rewrite Ec; exact C1) G) as [F1 F2]. cbv zeta in F1, F2.
  match goal with |- (forall r c, _ -> ?h r c = _) /\ _ => set (H := h) in * end.
  assert (W : forall c, w c = lev (cell_form c) (fun i => w (nth i kn_par 0%nat))).
  { intro c. unfold w at 1. rewrite (fixed_lev G k c), (fixed_lev G (S k) c) by (auto; lia). rewrite <- lev_comb. reflexivity. }
  assert (W0 : w 0%nat = 0) by (unfold w; field; auto).
  assert (Hc : forall c, (c < 197)%nat -> H (30 + k)%nat c = w c /\ H (30 + k)%nat c = lev (nth c forms30 []) (fun i => w (nth i kn_par 0%nat))).
  { intros c Hc. unfold forms30. rewrite nth_map_seq by auto. rewrite F2. rewrite <- Ec. destruct (find _ e) as [x|] eqn:E.
    - destruct (memb c (map (fun x => fst (fst x)) e)) eqn:Mb; [|apply find_memb in Mb; congruence].
      apply find_some in E as [I E]. apply Nat.eqb_eq in E. rewrite forallb_forall in K0. specialize (K0 x I). destruct x as [[c' [a|]] [b|]]; try discriminate K0.
      cbn [fst snd] in *. cbn [same] in K0. apply andb_prop in K0 as [Ka Kb]. apply Nat.eqb_eq in Ka, Kb. subst. cbn [gterm]. split; [reflexivity|]. exact (W c).
    - pose proof E as Mb. apply find_memb in Mb. rewrite Mb. cbn [lev]. rewrite Z by auto. split; auto. symmetry.
      specialize (C2 c). rewrite in_seq in C2. specialize (C2 ltac:(lia)). rewrite <- Ec, Mb in C2. cbn [orb] in C2.
      apply orb_prop in C2 as [C2|C2]; [apply orb_prop in C2 as [C2|C2]|].
      + apply Nat.eqb_eq in C2. now subst c.
      + apply Nat.eqb_eq in C2. subst c. rewrite W, cell7. cbn [lev]. rewrite par0, W0. ring.
      + rewrite W. destruct (cell_form c); [reflexivity|discriminate]. }
  split; [exact F1|]. split; [intros c Hcc; apply (Hc c Hcc)|]. split; [unfold forms30; now rewrite map_length, seq_length|]. intros c Hcc. apply (Hc c Hcc).
Qed.

Lemma left_zero F c : left_ok F = true -> (c < 197)%nat -> has wide c = false -> zerof (nth c F []) = true.
Proof.
  intros L Hc Hw. unfold left_ok in L. rewrite forallb_forall in L. specialize (L c). rewrite in_seq in L. specialize (L ltac:(lia)). rewrite Hw in L. exact L.
Qed.
Lemma has_full c : (c < 197)%nat -> has full c = true.
Proof. intro H. unfold full. rewrite has_mask. apply memb_In. apply in_seq. lia. Qed.
Lemma cubic_forms t F : fold_left (fun F i => fstep i F) (kn_cubic t) F = fold_left (fun F i => fstep i F) (kn_cubic 30) F.
Proof.
  unfold kn_cubic. match goal with |- context [map (fun k => CI k t) ?q] => generalize q end. intro q. revert F.
  induction q as [|a q IH]; intro F0; [reflexivity|].
  cbn [map fold_left]. apply IH.
Qed.
Lemma cubic_on t : forallb (inl_on t) (kn_cubic t) = true.
Proof.
  assert (E : forallb (inl_on 30) (kn_cubic 30) = true) by (vm_compute; reflexivity). revert E. unfold kn_cubic.
  match goal with |- context [map (fun k => CI k t) ?q] => generalize q end. intro q. induction q as [|a q IH]; [reflexivity|].
  cbn [map forallb inl_on]. intro E. apply andb_prop in E as [E1 E2]. apply andb_prop in E1 as [_ E1]. rewrite Nat.eqb_refl. cbn [andb].
  rewrite E1. auto.
Qed.

(** a block: an S-polynomial and the inline reductions after it *)
Lemma block_ok k st st1 G H : (k < 9)%nat -> inv M st G -> fixed G -> supp st (30 + k) = 0%N ->
  kcheck 30 (put st (30 + k) (full, 0%N, 0%N)) (kn_cubic (30 + k)) = Some st1 -> krun (map kn_op (CS k :: kn_cubic (30 + k))) G = Some H ->
  inv M (put st (30 + k) (wide, 0%N, 0%N)) H /\ fixed H.
Proof.
  intros Hk I Fx Z C K. pose proof I as [L IS IO IM IV]. cbn [map krun] in K. destruct (kstep (kn_op (CS k)) G) as [G1|] eqn:E1; [|discriminate].
  assert (Zt : forall c, (c < 197)%nat -> G (30 + k)%nat c = 0).
  { intros c Hc. apply IS; [lia|exact Hc|]. rewrite Z. apply has_0. }
  destruct (diff_row k G G1 Hk Fx Zt E1) as (F1 & F2 & F3).
  remember (kn_cubic (30 + k)) as code eqn:Ecode.
  assert (I1 : inv M (put st (30 + k) (full, 0%N, 0%N)) G1).
  { apply (inv_put M st G); auto; cbn [fst snd]; try lia.
    - intros c Hc. rewrite has_full by auto. discriminate.
    - intros c Hc. now rewrite has_0.
    - intros c Hc. now rewrite has_0.
    - unfold kn_value, row_value. set (m c := mono (kn_x M) 0 (nth c kn_mon [])).
      rewrite (sumn_ext _ _ (fun c => / G k 0%nat * (G k c * m c) - / G (S k) 0%nat * (G (S k) c * m c))).
      + rewrite sumn_sub, !sumn_scale. pose proof (IV k ltac:(lia)) as V1. pose proof (IV (S k) ltac:(lia)) as V2. unfold kn_value, row_value in V1, V2.
        unfold m. rewrite V1, V2. ring.
      + intros c Hc. rewrite F2 by auto. unfold m, Rdiv. ring. }
  destruct (kcheck_sound M 30 _ _ _ _ _ I1 C K) as [I2 _]. destruct I2 as [_ _ _ _ IV2].
  assert (Fx1 : fixed G1) by (intros r c Hr; rewrite F1 by lia; apply Fx; auto).
  destruct (fsteps_ok _ (30 + k) code ltac:(lia) ltac:(rewrite Ecode; apply cubic_on) forms30 G1 H (fixed_consts _ Fx1) F3 K) as [R2 N2].
  split.
  - apply (inv_put M st G); auto; cbn [fst snd]; try lia.
    + intros r c Hr. rewrite N2 by auto. now apply F1.
    + intros c Hc Hw. destruct R2 as [_ R2]. rewrite R2 by auto. rewrite Ecode, cubic_forms. apply lev_zerof. apply left_zero; [exact left30|exact Hc|exact Hw].
    + intros c Hc. now rewrite has_0.
    + intros c Hc. now rewrite has_0.
    + apply IV2. lia.
  - intros r c Hr. rewrite N2 by lia. now apply Fx1.
Qed.

(** the tenth block *)
Definition s39_entries : list (nat * option nat * option nat) := match kn_s39 with GS _ _ _ _ _ e => e | _ => [] end.
Definition s39_mask : N := mask (0%nat :: map snd (pairs_l s39_entries)).
Definition s39_mask' : N := mask (148%nat :: map snd (pairs_r s39_entries)).
Lemma s39_eq : nth 9 kn_spolys (GE 0 0 0) = GS 39 9 0 14 148 s39_entries. Proof. reflexivity. Qed.
Lemma s39_ok : spoly_ok 197 9 kn_mon 39 9 0 14 148 s39_entries = true. Proof. vm_cast_no_check (@eq_refl bool true). Qed.
Lemma s39_nodup : nodupm (map (fun x => fst (fst x)) s39_entries) 0 = true. Proof. vm_compute. reflexivity. Qed.
Lemma zc14 : zc 14 148 = 1%Z. Proof. vm_compute. reflexivity. Qed.
Lemma cubic39_on : forallb (inl_on 39) kn_cubic39 = true. Proof. vm_compute. reflexivity. Qed.
Lemma forms39_eq : forms39 = map (fun c => match find (fun x => Nat.eqb (fst (fst x)) c) s39_entries with
      | Some x => axpy (match snd x with Some d => - zc 14 d | None => 0 end)%Z (unitf 0) (match snd (fst x) with Some a => cell_form a | None => [] end)
      | None => [] end) (seq 0 197).
Proof. reflexivity. Qed.
Lemma block39_ok st st1 G H : inv M st G -> fixed G -> supp st 39 = 0%N -> subm (supp st 9) s39_mask = true -> subm (supp st 14) s39_mask' = true ->
  kcheck 30 (put st 39 (full, 0%N, 0%N)) kn_cubic39 = Some st1 -> krun (map kn_op (CS 9 :: kn_cubic39)) G = Some H ->
  inv M (put st 39 (wide, 0%N, 0%N)) H /\ fixed H.
Proof.
  intros I Fx Z S9 S14 C K. pose proof I as [L IS IO IM IV]. cbn [map krun] in K. remember kn_cubic39 as code eqn:Ecode. destruct (kstep (kn_op (CS 9)) G) as [G1|] eqn:E1; [|discriminate].
  unfold kn_op in E1. rewrite s39_eq in E1. cbn [kstep gstep] in E1.
  destruct (Req_EM_T (G 9%nat 0%nat) 0) as [|Ni]; [discriminate|]. destruct (Req_EM_T (G 14%nat 148%nat) 0) as [|Nj]; [discriminate|].
  assert (Zt : forall c, (c < 197)%nat -> G 39%nat c = 0).
  { intros c Hc. apply IS; [lia|exact Hc|]. rewrite Z. apply has_0. }
  assert (Z9 : forall c, (c < 197)%nat -> has (mask (0%nat :: map snd (pairs_l s39_entries))) c = false -> G 9%nat c = 0).
  { intros c Hc Hm. apply IS; [lia|exact Hc|]. exact (subm_ok _ _ _ S9 Hm). }
  assert (Z14 : forall c, (c < 197)%nat -> has (mask (148%nat :: map snd (pairs_r s39_entries))) c = false -> G 14%nat c = 0).
  { intros c Hc Hm. apply IS; [lia|exact Hc|]. exact (subm_ok _ _ _ S14 Hm). }
  assert (V9 : row_value 197 kn_mon (kn_x M) G 9 = 0) by (apply IV; lia).
  assert (V14 : row_value 197 kn_mon (kn_x M) G 14 = 0) by (apply IV; lia).
  destruct (spoly 197 9 kn_mon (kn_x M) G 39 9 0 14 148 s39_entries s39_ok Ni Nj Z9 Z14 Zt V9 V14) as (P1 & P2 & P3).
  pose proof s39_nodup as ND. apply nodupm_ok in ND as [ND _].
  destruct (spoly_at 39 9 0 14 148 s39_entries ltac:(lia) ltac:(lia) ND G) as [F1 F2]. cbv zeta in F1, F2.
  cbv zeta in P1, P2, P3.
  remember (fold_left (fun H e => gset H 39 (fst (fst e)) (gterm H 9 0 (snd (fst e)) - gterm H 14 148 (snd e))) s39_entries G) as G1' eqn:EG.
  injection E1 as <-. clear EG.
  assert (I1 : inv M (put st 39 (full, 0%N, 0%N)) G1').
  { apply (inv_put M st G G1' 39 _ I); cbn [fst snd]; [lia|exact F1| | | |exact P3].
    - intros c Hc. rewrite has_full by exact Hc. discriminate.
    - intros c Hc. rewrite has_0. discriminate.
    - intros c Hc. rewrite has_0. discriminate. }
  destruct (kcheck_sound M 30 _ _ _ _ _ I1 C K) as [I2 _]. destruct I2 as [_ _ _ _ IV2].
  assert (Fx1 : fixed G1') by (intros r c Hr; rewrite F1 by lia; apply Fx; exact Hr).
  assert (R1 : frel (fun k => G 9%nat (nth k kn_par 0%nat) / G 9%nat 0%nat) forms39 G1' 39).
  { rewrite forms39_eq. split; [now rewrite map_length, seq_length|]. intros c Hc. rewrite nth_map_seq by exact Hc. rewrite F2.
    destruct (find _ s39_entries) as [[[c' a] b]|]; [cbn [fst snd]|cbn [lev]; exact (Zt c Hc)].
    rewrite lev_axpy, lev_unitf, par0.
      assert (A : gterm G 9 0 a = lev (match a with Some a => cell_form a | None => [] end) (fun k => G 9%nat (nth k kn_par 0%nat) / G 9%nat 0%nat)).
      { destruct a as [a|]; cbn [gterm lev]; [|reflexivity]. rewrite lev_div, <- (fixed_lev G 9 a Fx) by lia. reflexivity. }
      assert (B : gterm G 14 148 b = - IZR (match b with Some d => - zc 14 d | None => 0 end)).
      { destruct b as [d|]; cbn [gterm]; [|ring]. rewrite (fixed_consts G Fx 14%nat d), (fixed_consts G Fx 14%nat 148%nat), zc14, opp_IZR by lia. field. }
      rewrite A, B. field. exact Ni. }
  destruct (fsteps_ok _ 39 code ltac:(lia) ltac:(rewrite Ecode; exact cubic39_on) forms39 G1' H (fixed_consts _ Fx1) R1 K) as [R2 N2].
  split.
  - apply (inv_put M st G H 39 _ I); cbn [fst snd]; [lia| | | | |].
    + intros r c Hr. rewrite N2 by exact Hr. exact (F1 r c Hr).
    + intros c Hc Hw. destruct R2 as [_ R2]. rewrite R2 by exact Hc. rewrite Ecode. apply lev_zerof. apply left_zero; [exact left39|exact Hc|exact Hw].
    + intros c Hc. rewrite has_0. discriminate.
    + intros c Hc. rewrite has_0. discriminate.
    + apply IV2. lia.
  - intros r c Hr. rewrite N2 by lia. exact (Fx1 r c Hr).
Qed.
End Basis.
