(** UPnP with five correspondences: the hypotheses of C75 are met. *)
From Coq Require Import Reals Lra Lia List Arith NArith ZArith Bool Znumtheory Classical_Prop ClassicalChoice.
From Verif Require Import Lin GenLin Cplx CEig RotModel RotProps SturmModel GaussModel GaussProps GbModel GbMod GbProps GpnpGb MacModel MacProps ModElim GjSolve
  UpnpModel UpnpProps UpnpProps2 UpnpProps3 UpnpGen UpnpActModel UpnpActGrad UpnpActProps UpnpActData UpnpActEx1 UpnpActEx2.
Import ListNotations.
Local Open Scope R_scope.

Lemma s5_cells : Forall (fun e => snd e = rtab 3 s5_m1 (fst (fst e)) (snd (fst e))) (u4_cells s5_M s5_C).
Proof.
  unfold u4_cells. repeat constructor; cbn [fst snd]; rewrite ?s5_uM, ?s5_uC by lia; unfold rtab, s5_Mz, s5_Cz, s5_m1; cbn [nth]; lra.
Qed.
Definition A5 := gcells (u4_cells s5_M s5_C).
Lemma s5_A5 i j : A5 i j = rtab 3 s5_m1 i j.
Proof. apply (cells_table 3 s5_m1 _ 8 24); [apply s5_cells|vm_compute; reflexivity]. Qed.
Lemma s5_red_ok inv i j : inverts 7 A5 (inv 7%nat (lead_block 7 A5)) -> reduce_lead inv 7 A5 i j = rtab 34 s5_red i j.
Proof.
  intro I. destruct (Nat.lt_ge_cases i 7) as [H|H].
  - apply (lead_values inv 7 8 24 3 34 s5_m1 s5_red A5 s5_A5); [lra|lra|vm_compute; reflexivity|exact I|exact H].
  - rewrite reduce_lead_rest, s5_A5 by auto. unfold rtab.
    assert (K : (34 * zat s5_m1 i j = 3 * zat s5_red i j)%Z).
    { destruct (Nat.lt_ge_cases i 8) as [Hi|Hi].
      - assert (i = 7%nat) by lia. subst i. do 24 (destruct j as [|j]; [reflexivity|]). unfold zat; cbn [s5_m1 s5_red nth]; destruct j; reflexivity.
      - rewrite (zat_out s5_m1 8 24), (zat_out s5_red 8 24); auto. }
    apply (f_equal IZR) in K. rewrite !mult_IZR in K. unfold zat in K. lra.
Qed.
Definition cancel_ok : bool := forallb (fun i => forallb (fun j => (34 * zat s5_red i j - zat s5_red i 10 * zat s5_red 7 j =? 34 * zat s5_fin i j)%Z) (seq 0 24)) (seq 0 7).
Lemma s5_cancel : cancel_ok = true. Proof. vm_compute; reflexivity. Qed.
Lemma s5_M1 inv i j : inverts 7 A5 (inv 7%nat (lead_block 7 A5)) -> u4_M1 inv s5_M s5_C i j = rtab 34 s5_fin i j.
Proof.
  intro I. unfold u4_M1, cancel10. fold A5. rewrite !s5_red_ok by auto. unfold rtab. fold (zat s5_red i j) (zat s5_red i 10) (zat s5_red 7 10) (zat s5_red 7 j) (zat s5_fin i j).
  change (zat s5_red 7 10) with 34%Z. destruct (Nat.ltb_spec i 7) as [H|H].
  - destruct (Nat.lt_ge_cases j 24) as [Hj|Hj].
    + pose proof s5_cancel as K. unfold cancel_ok in K. rewrite forallb_forall in K. specialize (K i). rewrite in_seq in K. specialize (K ltac:(lia)).
      rewrite forallb_forall in K. specialize (K j). rewrite in_seq in K. specialize (K ltac:(lia)). apply Z.eqb_eq in K.
      apply (f_equal IZR) in K. rewrite minus_IZR, !mult_IZR in K. replace (IZR (zat s5_fin i j)) with ((34 * IZR (zat s5_red i j) - IZR (zat s5_red i 10) * IZR (zat s5_red 7 j)) / 34) by lra. field.
    + rewrite (zat_out s5_red 8 24 i j), (zat_out s5_red 8 24 7 j), (zat_out s5_fin 8 24 i j) by auto. field.
  - f_equal. f_equal. destruct (Nat.lt_ge_cases i 8) as [Hi|Hi].
    + assert (i = 7%nat) by lia. subst i. reflexivity.
    + rewrite (zat_out s5_red 8 24), (zat_out s5_fin 8 24); auto.
Qed.
Definition inv5 : nat -> (nat -> nat -> R) -> nat -> nat -> R := fun _ _ => rtab s5_di s5_inv.
Lemma s5_inverts : inverts 7 A5 (inv5 7%nat (lead_block 7 A5)).
Proof. apply (inv_inverts 7 3 s5_di s5_m1 s5_inv A5 s5_A5); [lra|unfold s5_di; lra|vm_compute; reflexivity]. Qed.
Lemma s5_res_ok i k : residue s5_P (u4_M1 inv5 s5_M s5_C i k) (nth k (nth i s5_res []) 0%Z).
Proof. rewrite s5_M1 by exact s5_inverts. apply (tab_residue s5_P 34 8 24); [reflexivity|lra|vm_compute; reflexivity]. Qed.
Lemma s5_regular : regular s5_P (length (map N.to_nat s5_cs)) (map (fun r => map (zcell s5_res (nth r u4_rows (0%nat, []))) s5_cs) s5_rs) = true.
Proof. vm_cast_no_check (@eq_refl bool true). Qed.
Lemma s5_reduced : exists m, gauss_jordan 0 121 (u4_M2 inv5 s5_M s5_C) = Reduced m.
Proof.
  unfold u4_M2.
  refine (mac_regular s5_P ltac:(reflexivity) (u4_M1 inv5 s5_M s5_C) s5_res 141 149 121 u4_rows s5_rs (map N.to_nat s5_cs) s5_cs s5_res_ok eq_refl _ _ _ eq_refl _ _ _ _ s5_regular).
  - discriminate.
  - lia.
  - lia.
  - vm_compute; reflexivity.
  - vm_compute; reflexivity.
  - vm_compute; reflexivity.
  - vm_compute; reflexivity.
Qed.
Lemma s5_well inv : well_shaped (u4_M2 inv s5_M s5_C) (141 + 8).
Proof.
  unfold u4_M2. split; [|split].
  - discriminate.
  - intros q Hq. unfold mac in Hq. apply in_map_iff in Hq as (row & <- & _). now rewrite map_length, seq_length.
  - unfold mac. rewrite map_length. vm_compute. lia.
Qed.

(** * The eigenvalue 1/4 is simple *)
Definition eig_row (r c : nat) : R :=
  if Nat.ltb r 4 then delta c (121 + r) - 1 / 4 * delta c (141 + r) else delta c (137 + r) - 1 / 4 * delta c (141 + r).
Definition zeig_row (r : N) (c : N) : Z :=
  if N.eqb c (if N.ltb r 4 then 121 + r else 137 + r) then 1%Z else if N.eqb c (141 + r) then 15%Z else 0%Z.

Lemma eig_row_ok r c : (r < 8)%nat -> residue 61 (eig_row r (N.to_nat c)) (zeig_row (N.of_nat r) c).
Proof.
  intro Hr. assert (R1 : residue 61 1 1) by (exists 1%Z, 1%Z; split; [apply rel_prime_1|split; [lra|exists 0%Z; lia]]).
  assert (R4 : residue 61 (- (1 / 4)) 15).
  { exists (-1)%Z, 4%Z. split; [apply Zgcd_1_rel_prime; reflexivity|split; [lra|exists (-1)%Z; reflexivity]]. }
  assert (D : forall a b : R, forall i : nat, a * delta (N.to_nat c) i + b = if N.eqb c (N.of_nat i) then a + b else b).
  { intros a b i. unfold delta. destruct (N.eqb_spec c (N.of_nat i)) as [->|E]; destruct (Nat.eq_dec _ i) as [E'|E']; try ring.
    - now rewrite Nat2N.id in E'.
    - exfalso. apply E. rewrite <- E'. now rewrite N2Nat.id. }
  assert (T : forall i k : nat, i <> k -> residue 61 (delta (N.to_nat c) i - 1 / 4 * delta (N.to_nat c) k)
    (if N.eqb c (N.of_nat i) then 1 else if N.eqb c (N.of_nat k) then 15 else 0)).
  { intros i k Nik. replace (delta (N.to_nat c) i - 1 / 4 * delta (N.to_nat c) k) with (1 * delta (N.to_nat c) i + (- (1 / 4) * delta (N.to_nat c) k + 0)) by ring.
    rewrite !D. destruct (N.eqb_spec c (N.of_nat i)) as [->|E].
    - destruct (N.eqb_spec (N.of_nat i) (N.of_nat k)) as [E|E]; [apply Nat2N.inj in E; congruence|]. now replace (1 + 0) with 1 by ring.
    - destruct (N.eqb c (N.of_nat k)); [now replace (- (1 / 4) + 0) with (- (1 / 4)) by ring|apply residue_0]. }
  do 8 (destruct r as [|r]; [match goal with |- residue _ (eig_row ?n _) _ => exact (T (if Nat.ltb n 4 then 121 + n else 137 + n)%nat (141 + n)%nat ltac:(vm_compute; discriminate)) end|]). lia.
Qed.
Lemma zeig_ok r cs : (r < 8)%nat -> rrow 61 (map (eig_row r) (map N.to_nat cs)) (map (zeig_row (N.of_nat r)) cs).
Proof. intro Hr. induction cs as [|c cs IH]; cbn [map]; constructor; auto. now apply eig_row_ok. Qed.
(** rows of the template and of the eigenvector equations, in the order of s5_ers *)
Definition pick {T} (f : nat -> T) (g : nat -> T) (r : nat) : T := if Nat.ltb r 141 then f r else g (r - 141)%nat.
Definition all_rows : list (nat -> R) := map (pick (fun r => mac_cell (u4_M1 inv5 s5_M s5_C) (nth r u4_rows (0%nat, []))) eig_row) s5_ers.
Definition zall_rows : list (list Z) :=
  map (pick (fun r => map (zcell s5_eres (nth r u4_rows (0%nat, []))) s5_ecs) (fun r => map (zeig_row (N.of_nat r)) s5_ecs)) s5_ers.
Lemma s5_ers_range : forallb (fun r => Nat.ltb r 149) s5_ers = true. Proof. vm_compute; reflexivity. Qed.
Lemma all_rows_ok : Forall2 (fun f zr => rrow 61 (map f (map N.to_nat s5_ecs)) zr) all_rows zall_rows.
Proof.
  assert (E : forall i k, residue 61 (u4_M1 inv5 s5_M s5_C i k) (nth k (nth i s5_eres []) 0%Z)).
  { intros. rewrite s5_M1 by exact s5_inverts. apply (tab_residue 61 34 8 24); [reflexivity|lra|vm_compute; reflexivity]. }
  assert (Rg := s5_ers_range). rewrite forallb_forall in Rg. unfold all_rows, zall_rows. induction s5_ers as [|r l IH]; cbn [map]; constructor.
  - unfold pick. destruct (Nat.ltb_spec r 141); [now apply zcell_ok|].
    specialize (Rg r (or_introl eq_refl)). apply Nat.ltb_lt in Rg. apply zeig_ok. lia.
  - apply IH. intros; apply Rg. now right.
Qed.
Lemma s5_eig_regular : regular 61 (length (map N.to_nat s5_ecs)) zall_rows = true.
Proof. vm_cast_no_check (@eq_refl bool true). Qed.
(** a real eigenvector whose last entry is zero is zero *)
Lemma s5_real m x : gauss_jordan 0 121 (u4_M2 inv5 s5_M s5_C) = Reduced m -> eigenpair 8 (u4_action_of m) (1 / 4) x -> x 7%nat = 0 ->
  forall i, (i < 8)%nat -> x i = 0.
Proof.
  intros Rd Eg X7. assert (W := s5_well inv5). assert (Cl := clean_0 121 (u4_M2 inv5 s5_M s5_C)).
  assert (Lm : length (u4_M2 inv5 s5_M s5_C) = 141%nat) by (unfold u4_M2, mac; rewrite map_length; reflexivity).
  assert (Inm : forall r, (r < 141)%nat -> In (map (mac_cell (u4_M1 inv5 s5_M s5_C) (nth r u4_rows (0%nat, []))) (seq 0 149)) (u4_M2 inv5 s5_M s5_C)).
  { intros r Hr. unfold u4_M2, mac. apply (in_map (fun row => map (mac_cell (u4_M1 inv5 s5_M s5_C) row) (seq 0 149))). apply nth_In. exact Hr. }
  remember (u4_M2 inv5 s5_M s5_C) as m2 eqn:E2. clear E2.
  assert (P0 : 0 <= 0 < 1) by lra.
  destruct (gj_extend 0 121 m2 m 141 8 P0 W Lm ltac:(lia) Cl Rd x) as (y & T & K).
  assert (Lead : forall i, (i < 4)%nat -> y (121 + i)%nat = 1 / 4 * x i).
  { intros i Hi. rewrite (gj_row 0 121 m2 m 141 8 P0 W Lm ltac:(lia) Cl Rd y (121 + i) K ltac:(lia) ltac:(lia)).
    rewrite <- (Eg i) by lia. rewrite <- sumn_neg. apply sumn_ext. intros s Hs. rewrite T by auto. unfold u4_action_of.
    do 4 (destruct i as [|i]; [cbn [Nat.add]; ring|]). lia. }
  assert (Low : forall i, (i < 4)%nat -> x i = 1 / 4 * x (4 + i)%nat).
  { intros i Hi. rewrite <- (Eg (4 + i)%nat) by lia. unfold u4_action_of.
    do 4 (destruct i as [|i]; [cbn [Nat.add]; rewrite sumn_delta by lia; reflexivity|]). lia. }
  assert (Y : forall c, (c < 149)%nat -> y c = 0).
  { apply (regular_kernel 61 ltac:(reflexivity) 149 (map N.to_nat s5_ecs) all_rows zall_rows y s5_eig_regular all_rows_ok).
    - vm_compute; reflexivity.
    - vm_compute; reflexivity.
    - intros c Hc NI. destruct (Nat.eq_dec c 148) as [->|Nc].
      + change 148%nat with (141 + 7)%nat. rewrite T by lia. exact X7.
      + exfalso. apply NI. assert (V : forallb (fun c => memb c (map N.to_nat s5_ecs)) (seq 0 148) = true) by (vm_compute; reflexivity).
        rewrite forallb_forall in V. apply memb_In, V, in_seq. lia.
    - intros f Hf. unfold all_rows in Hf. apply in_map_iff in Hf as (r & <- & Hr).
      assert (Rg := s5_ers_range). rewrite forallb_forall in Rg. specialize (Rg r Hr). apply Nat.ltb_lt in Rg. unfold pick. destruct (Nat.ltb_spec r 141) as [L|L].
      + rewrite <- mac_dot. apply K. now apply Inm.
      + unfold eig_row. assert (D : forall a b, (a < 149)%nat -> (b < 149)%nat -> sumn 149 (fun c => (delta c a - 1 / 4 * delta c b) * y c) = y a - 1 / 4 * y b).
        { intros a b Ha Hb. rewrite (sumn_ext 149 _ (fun c => delta c a * y c + - (1 / 4) * (delta c b * y c))) by (intros; ring).
          rewrite sumn_add, sumn_scale, !sumn_delta by auto. ring. }
        destruct (Nat.ltb_spec (r - 141) 4) as [Q|Q].
        * rewrite D by lia. rewrite Lead, T by lia. ring.
        * rewrite D by lia. replace (137 + (r - 141))%nat with (141 + (r - 145))%nat by lia. replace (141 + (r - 141))%nat with (141 + (4 + (r - 145)))%nat by lia.
          rewrite !T by lia. rewrite Low by lia. ring. }
  intros i Hi. rewrite <- T by auto. apply Y. lia.
Qed.

(** * Eigenvectors *)
Lemma csum_re n f : re (csum n f) = sumn n (fun i => re (f i)).
Proof. induction n as [|n IH]; cbn [csum sumn]; [reflexivity|]. rewrite <- IH. reflexivity. Qed.
Lemma csum_im n f : im (csum n f) = sumn n (fun i => im (f i)).
Proof. induction n as [|n IH]; cbn [csum sumn]; [reflexivity|]. rewrite <- IH. reflexivity. Qed.
Lemma ceigen_parts n A lam w : (forall i, (i < n)%nat -> csum n (fun j => cmul (RtoC (A i j)) (w j)) = cmul (RtoC lam) (w i)) ->
  eigenpair n A lam (fun i => re (w i)) /\ eigenpair n A lam (fun i => im (w i)).
Proof.
  intro H. split; intros i Hi.
  - specialize (H i Hi). apply (f_equal re) in H. rewrite csum_re in H. cbn [cmul RtoC re im] in H.
    rewrite (sumn_ext n _ (fun j => A i j * re (w j) - 0 * im (w j))) by (intros; ring). lra.
  - specialize (H i Hi). apply (f_equal im) in H. rewrite csum_im in H. cbn [cmul RtoC re im] in H.
    rewrite (sumn_ext n _ (fun j => A i j * im (w j) + 0 * re (w j))) by (intros; ring). lra.
Qed.
Lemma eigenpair_real n A lam x : eigenpair n A lam x -> forall i, (i < n)%nat -> csum n (fun j => cmul (RtoC (A i j)) (RtoC (x j))) = cmul (RtoC lam) (RtoC (x i)).
Proof.
  intros H i Hi. rewrite (csum_ext n _ (fun j => RtoC (A i j * x j))) by (intros; now rewrite RtoC_mul). rewrite csum_real, <- RtoC_mul. f_equal. now apply H.
Qed.
Lemma cx_nonzero z : z <> c0 -> re z <> 0 \/ im z <> 0.
Proof.
  intro N. destruct (Req_dec (re z) 0) as [R|R]; auto. destruct (Req_dec (im z) 0) as [I|I]; auto. exfalso. apply N. destruct z as [a b]. cbn [re im] in *. subst. reflexivity.
Qed.
(** Eigenvectors can be scaled so that real eigenvalues have real ones and none
    has a vanishing real part among the rows that matter. *)
Lemma nice_columns n A (rows : nat -> Prop) i0 : rows i0 ->
  (forall mu w, ceigen n A mu w -> exists i, (i < n)%nat /\ rows i /\ w i <> c0) ->
  exists V, good_ceig n A V /\ real_columns n A V /\ forall k, (k < n)%nat -> exists i, rows i /\ re (V i k) <> 0.
Proof.
  intros R0 NZ. destruct (ceig_function_exists n) as [eig0 G0]. set (V0 := eig0 A). assert (G : good_ceig n A V0) by apply G0.
  assert (X : forall k, exists w, (forall mu, ceigen n A mu (fun i => V0 i k) -> ceigen n A mu w) /\
    (forall lam, ceigen n A (RtoC lam) w -> forall i, (i < n)%nat -> im (w i) = 0) /\ exists i, rows i /\ re (w i) <> 0).
  { intro k. destruct (classic (exists mu, ceigen n A mu (fun i => V0 i k))) as [[mu E]|E].
    - destruct (NZ _ _ E) as (i & Hi & Ri & Ni). cbv beta in Ni.
      assert (Uniq : forall mu', ceigen n A mu' (fun i => V0 i k) -> mu' = mu).
      { intros mu' E'. destruct E as [_ E], E' as [_ E']. specialize (E i Hi). specialize (E' i Hi). cbv beta in E, E'. rewrite E in E'.
        assert (Z : cmul (csub mu' mu) (V0 i k) = c0).
        { transitivity (csub (cmul mu' (V0 i k)) (cmul mu (V0 i k))); [ring|]. rewrite <- E'. ring. }
        apply cmul_eq_0 in Z as [Z|Z]; [now apply csub_eq_0|contradiction]. }
      destruct (Req_dec (im mu) 0) as [Im|Im].
      + assert (Emu : mu = RtoC (re mu)) by (destruct mu as [a b]; cbn [re im] in *; subst; reflexivity).
        assert (PP : eigenpair n A (re mu) (fun i => re (V0 i k)) /\ eigenpair n A (re mu) (fun i => im (V0 i k))).
        { apply (ceigen_parts n A (re mu) (fun i => V0 i k)). destruct E as [_ E]. rewrite Emu in E. exact E. }
        assert (Y : exists x, eigenpair n A (re mu) x /\ x i <> 0).
        { destruct (cx_nonzero _ Ni) as [N|N]; [exists (fun i => re (V0 i k))|exists (fun i => im (V0 i k))]; split; tauto. }
        destruct Y as (x & Ex & Nx). exists (fun i => RtoC (x i)). split; [|split].
        * intros mu' E'. rewrite (Uniq mu' E'), Emu. split; [exists i; split; [auto|now apply RtoC_neq]|]. now apply eigenpair_real.
        * intros; reflexivity.
        * exists i. split; auto.
      + assert (Z : exists s, s <> c0 /\ re (cmul s (V0 i k)) <> 0).
        { destruct (cx_nonzero _ Ni) as [N|N].
          - exists c1. split; [exact c1_neq_c0|]. cbn [cmul c1 RtoC re im]. lra.
          - exists (Cx 0 1). split; [intro Q; apply (f_equal im) in Q; cbn [im c0 RtoC] in Q; lra|]. cbn [cmul re im]. lra. }
        destruct Z as (s & Ns & Zs). exists (fun i => cmul s (V0 i k)).
        assert (Sc : forall mu', ceigen n A mu' (fun i => V0 i k) -> ceigen n A mu' (fun i => cmul s (V0 i k))).
        { intros mu' [(j & Hj & Nj) E']. split.
          - exists j. split; auto. intro Q. apply cmul_eq_0 in Q. tauto.
          - intros j' Hj'. rewrite (csum_ext n _ (fun j => cmul s (cmul (RtoC (A j' j)) (V0 j k)))) by (intros; ring). rewrite csum_scale, E' by auto. ring. }
        split; [exact Sc|split; [|exists i; auto]].
        intros lam [_ E'] j Hj. exfalso. apply Im. specialize (E' i Hi). destruct (Sc mu E) as [_ E2]. specialize (E2 i Hi). cbv beta in E', E2. rewrite E2 in E'.
        assert (Q : cmul (csub (RtoC lam) mu) (cmul s (V0 i k)) = c0).
        { transitivity (csub (cmul (RtoC lam) (cmul s (V0 i k))) (cmul mu (cmul s (V0 i k)))); [ring|]. rewrite <- E'. ring. }
        apply cmul_eq_0 in Q as [Q|Q].
        * apply csub_eq_0 in Q. rewrite <- Q. reflexivity.
        * exfalso. apply Zs. rewrite Q. reflexivity.
    - exists (fun _ => c1). split; [intros mu H; exfalso; apply E; eauto|]. split; [reflexivity|]. exists i0. split; auto. cbn [c1 RtoC re]. lra. }
  apply choice in X as [W HW]. exists (fun i k => W k i). split; [|split].
  - intros mu w E. destruct (G mu w E) as (k & Hk & Ek). exists k. split; auto. exact (proj1 (HW k) mu Ek).
  - intros k lam Hk E. exact (proj1 (proj2 (HW k)) lam E).
  - intros k Hk. exact (proj2 (proj2 (HW k))).
Qed.
Lemma s5_nonzero m mu w : ceigen 8 (u4_action_of m) mu w -> exists i, (i < 8)%nat /\ (4 <= i < 8)%nat /\ w i <> c0.
Proof.
  intros [(i & Hi & Ni) E]. destruct (Nat.lt_ge_cases i 4) as [L|L]; [|exists i; repeat split; auto].
  exists (4 + i)%nat. split; [lia|]. split; [lia|]. intro Z. apply Ni. specialize (E (4 + i)%nat ltac:(lia)). rewrite Z in E.
  assert (S : csum 8 (fun j => cmul (RtoC (u4_action_of m (4 + i) j)) (w j)) = w i).
  { apply cx_eq.
    - rewrite csum_re. transitivity (sumn 8 (fun j => delta j i * re (w j))); [|now rewrite (sumn_delta 8 i (fun j => re (w j))) by lia].
      apply sumn_ext. intros j _. unfold u4_action_of. do 4 (destruct i as [|i]; [cbn [Nat.add cmul RtoC re im]; ring|]). lia.
    - rewrite csum_im. transitivity (sumn 8 (fun j => delta j i * im (w j))); [|now rewrite (sumn_delta 8 i (fun j => im (w j))) by lia].
      apply sumn_ext. intros j _. unfold u4_action_of. do 4 (destruct i as [|i]; [cbn [Nat.add cmul RtoC re im]; ring|]). lia. }
  rewrite S in E. rewrite E. ring.
Qed.
Lemma s5_simple m w : gauss_jordan 0 121 (u4_M2 inv5 s5_M s5_C) = Reduced m -> eigenpair 8 (u4_action_of m) (1 / 4) (u4_basis hq) ->
  ceigen 8 (u4_action_of m) (RtoC (1 / 4)) w -> exists c, forall i, (i < 8)%nat -> w i = cmul c (RtoC (u4_basis hq i)).
Proof.
  intros Rd B [_ E]. destruct (ceigen_parts 8 _ _ w E) as [Er Ei].
  assert (K : forall x, eigenpair 8 (u4_action_of m) (1 / 4) x -> forall i, (i < 8)%nat -> x i = 2 * x 7%nat * u4_basis hq i).
  { intros x Ex i Hi. enough (x i - 2 * x 7%nat * u4_basis hq i = 0) by lra.
    apply (s5_real m (fun i => x i - 2 * x 7%nat * u4_basis hq i) Rd); auto.
    - intros j Hj. rewrite (sumn_ext 8 _ (fun k => u4_action_of m j k * x k + - (2 * x 7%nat) * (u4_action_of m j k * u4_basis hq k))) by (intros; ring).
      rewrite sumn_add, sumn_scale, Ex, B by auto. ring.
    - unfold u4_basis, hq; cbn [nth q0 q1 q2 q3]. field. }
  exists (cmul (RtoC 2) (w 7%nat)). intros i Hi. apply cx_eq.
  - rewrite (K _ Er i Hi). cbn [cmul RtoC re im]. ring.
  - rewrite (K _ Ei i Hi). cbn [cmul RtoC re im]. ring.
Qed.

(** * The hypotheses of C75 are met *)
Example C75_eigenvector_nonvacuous : exists inv A, inverts 7 A5 (inv 7%nat (lead_block 7 A5)) /\ clean 0 121 (u4_M2 inv s5_M s5_C) /\
  u4_action inv 0 s5_M s5_C = Some A /\ eigenpair 8 A (1 / 4) (u4_basis hq).
Proof.
  destruct s5_reduced as [m E]. exists inv5, (u4_action_of m). split; [exact s5_inverts|]. split; [apply clean_0|].
  assert (Ac : u4_action inv5 0 s5_M s5_C = Some (u4_action_of m)) by (rewrite u4_action_def, E; reflexivity). split; [exact Ac|].
  replace (1 / 4) with (q3 hq ^ 2) by (unfold hq; cbn [q3]; field).
  apply (C75_true_pose inv5 0 s5_l s5_H hq s5_t _ s5_unit s5_uH hq_norm (in_front_on_rays _ _ _ s5_front) s5_inverts ltac:(lra) (clean_0 _ _) Ac).
Qed.
Example C75_recovers_nonvacuous : exists inv eig out, upnp_complete inv 0 eig s5_l = Some out /\
  In (Some (mT (quaternion2rot hq)), Some (vneg (mv (mT (quaternion2rot hq)) s5_t))) out.
Proof.
  destruct s5_reduced as [m E].
  assert (Ac : u4_action inv5 0 s5_M s5_C = Some (u4_action_of m)) by (rewrite u4_action_def, E; reflexivity).
  destruct (nice_columns 8 (u4_action_of m) (fun i => (4 <= i < 8)%nat) 4%nat ltac:(cbv beta; lia) (s5_nonzero m)) as (V & GV & RV & NV).
  assert (B := C75_true_pose inv5 0 s5_l s5_H hq s5_t _ s5_unit s5_uH hq_norm (in_front_on_rays _ _ _ s5_front) s5_inverts ltac:(lra) (clean_0 _ _) Ac).
  assert (Q : q3 hq ^ 2 = 1 / 4) by (unfold hq; cbn [q3]; field). rewrite Q in B.
  exists inv5, (fun _ _ => V).
  apply (C75_recovers inv5 0 (fun _ _ => V) s5_l s5_H hq s5_t (u4_action_of m) s5_unit s5_uH ltac:(cbn; lia) hq_norm s5_front s5_inverts ltac:(lra) (clean_0 _ _) Ac GV RV NV).
  - intros w Hw. rewrite Q in Hw. now apply (s5_simple m).
  - exact s5_det.
  - unfold hq; cbn [q0 q1 q2 q3]. lra.
Qed.
