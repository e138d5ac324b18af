(** The template of fivept_kneip keeps every row zero at a rotation that makes
    the normals coplanar: the checker over bit masks and its soundness. *)
From Coq Require Import Reals Lra Lia List Arith NArith ZArith Bool.
From Verif Require Import Lin GenLin GbModel GbProps KneipOps KneipData KneipModel KneipForms KneipRow KneipGb.
Import ListNotations.
Local Open Scope R_scope.

(** what is known of a row: the columns that may be nonzero, columns that hold 1, columns that hold -1 *)
Definition rinfo : Type := N * N * N.
Definition state : Type := list rinfo.
Definition info (st : state) (r : nat) : rinfo := nth r st (0, 0, 0)%N.
Definition supp st r := fst (fst (info st r)).
Definition ones st r := snd (fst (info st r)).
Definition mones st r := snd (info st r).
Fixpoint put (st : state) (r : nat) (v : rinfo) : state :=
  match st, r with [], _ => [] | _ :: st, O => v :: st | a :: st, S r => a :: put st r v end.
Lemma put_length st : forall r v, length (put st r v) = length st.
Proof. induction st; destruct r; cbn; auto. Qed.
Lemma info_put st : forall r v k, (r < length st)%nat -> info (put st r v) k = if Nat.eqb k r then v else info st k.
Proof.
  unfold info. induction st as [|a st IH]; intros r v k H; [cbn in H; lia|]. destruct r, k; cbn; auto. apply IH. cbn in H. lia.
Qed.

Definition red_table := map red_info kn_reds.
Definition inl_table := map inl_info kn_inls.
Definition spoly_table := map spoly_info (skipn 10 kn_spolys).

Definition kcheck1 (low : nat) (st : state) (i : kinstr) : option state :=
  match i with
  | CR k t =>
      let '(s, c0, pm, fm) := nth k red_table (0%nat, 0%nat, 0%N, 0%N) in
      if Nat.ltb k 65 && Nat.leb low t && Nat.ltb t 66 && Nat.ltb s 66 && negb (Nat.eqb t s) && subm (supp st s) pm
      then Some (put st t (N.ldiff (N.lor (supp st t) fm) (bit c0), N.ldiff (N.ldiff (ones st t) fm) (bit c0), 0%N)) else None
  | CI k t =>
      let '(c0, neg, s, p, pm, fm) := nth k inl_table (0%nat, false, 0%nat, 0%nat, 0%N, 0%N) in
      if Nat.ltb k 108 && Nat.leb low t && Nat.ltb t 66 && Nat.ltb s 66 && negb (Nat.eqb t s) && subm (supp st s) pm
         && (if neg then has (mones st s) p else has (ones st s) p)
      then Some (put st t (N.ldiff (N.lor (supp st t) fm) (bit c0), N.ldiff (N.ldiff (ones st t) fm) (bit c0), 0%N)) else None
  | CN r c => if Nat.leb low r && Nat.ltb r 66 && Nat.ltb c 197 then Some (put st r (supp st r, bit c, 0%N)) else None
  | CE t c s =>
      if Nat.leb low t && Nat.ltb t 66 && Nat.ltb s 66 && negb (Nat.eqb t s) && Nat.ltb c 197 && has (ones st s) c
      then Some (put st t (N.ldiff (N.lor (supp st t) (supp st s)) (bit c), N.ldiff (N.ldiff (ones st t) (supp st s)) (bit c), 0%N)) else None
  | CS k =>
      let '(t, i, p, j, q, pm, qm, fm) := nth (k - 10) spoly_table (0%nat, 0%nat, 0%nat, 0%nat, 0%nat, 0%N, 0%N, 0%N) in
      if Nat.leb 10 k && Nat.ltb k 36 && Nat.leb low t && Nat.ltb t 66 && Nat.ltb i 66 && Nat.ltb j 66 && N.eqb (supp st t) 0
         && subm (supp st i) pm && subm (supp st j) qm
      then Some (put st t (fm, 0%N, 0%N)) else None
  end.
Fixpoint kcheck (low : nat) (st : state) (l : list kinstr) : option state :=
  match l with [] => Some st | i :: l => match kcheck1 low st i with Some st => kcheck low st l | None => None end end.

Section Sound.
Variable M : mat3.
Record inv (st : state) (G : gmat) : Prop := {
  i_len : length st = 66%nat;
  i_supp : forall r c, (r < 66)%nat -> (c < 197)%nat -> has (supp st r) c = false -> G r c = 0;
  i_ones : forall r c, (r < 66)%nat -> (c < 197)%nat -> has (ones st r) c = true -> G r c = 1;
  i_mones : forall r c, (r < 66)%nat -> (c < 197)%nat -> has (mones st r) c = true -> G r c = -1;
  i_val : forall r, (r < 66)%nat -> kn_value M G r = 0 }.

Lemma value_ext G H r : (forall c, (c < 197)%nat -> H r c = G r c) -> kn_value M H r = kn_value M G r.
Proof. intro E. unfold kn_value, row_value. apply sumn_ext. intros c Hc. now rewrite E. Qed.
Lemma has_0 c : has 0 c = false. Proof. apply N.bits_0. Qed.

(** changing one row *)
Lemma inv_put st G H t v : inv st G -> (t < 66)%nat -> (forall r c, r <> t -> H r c = G r c) ->
  (forall c, (c < 197)%nat -> has (fst (fst v)) c = false -> H t c = 0) ->
  (forall c, (c < 197)%nat -> has (snd (fst v)) c = true -> H t c = 1) ->
  (forall c, (c < 197)%nat -> has (snd v) c = true -> H t c = -1) -> kn_value M H t = 0 -> inv (put st t v) H.
Proof.
  intros I Ht F S O P V. destruct I as [L IS IO IM IV].
  assert (Q : forall k, info (put st t v) k = if Nat.eqb k t then v else info st k) by (intro; apply info_put; lia).
  split.
  - now rewrite put_length.
  - intros r c Hr Hc. unfold supp. rewrite Q. destruct (Nat.eqb_spec r t) as [->|N]; [apply S; auto|]. rewrite F by auto. now apply IS.
  - intros r c Hr Hc. unfold ones. rewrite Q. destruct (Nat.eqb_spec r t) as [->|N]; [apply O; auto|]. rewrite F by auto. now apply IO.
  - intros r c Hr Hc. unfold mones. rewrite Q. destruct (Nat.eqb_spec r t) as [->|N]; [apply P; auto|]. rewrite F by auto. now apply IM.
  - intros r Hr. destruct (Nat.eq_dec r t) as [->|N]; auto. rewrite (value_ext G); auto.
Qed.

Lemma reds_nth k : (k < 65)%nat -> red_valid (nth k kn_reds (0, 0, 0, [])%nat) = true.
Proof. intro H. pose proof reds_valid as V. rewrite forallb_forall in V. apply V, nth_In. exact H. Qed.
Lemma inls_nth k : (k < 108)%nat -> inl_valid (nth k kn_inls (0%nat, false, 0%nat, [])) = true.
Proof. intro H. pose proof inls_valid as V. rewrite forallb_forall in V. apply V, nth_In. exact H. Qed.
Lemma spolys_nth k : (k < 26)%nat -> spoly_valid (nth k (skipn 10 kn_spolys) (GE 0 0 0)) = true.
Proof. intro H. pose proof spolys_valid as V. rewrite forallb_forall in V. apply V, nth_In. exact H. Qed.
Lemma reds_len : length kn_reds = 65%nat. Proof. reflexivity. Qed.
Lemma inls_len : length kn_inls = 108%nat. Proof. reflexivity. Qed.
Lemma spolys_len : length (skipn 10 kn_spolys) = 26%nat. Proof. reflexivity. Qed.
Lemma red_table_nth k : (k < 65)%nat -> nth k red_table (0%nat, 0%nat, 0%N, 0%N) = red_info (nth k kn_reds (0, 0, 0, [])%nat).
Proof. intro H. unfold red_table. rewrite (nth_indep _ _ (red_info (0, 0, 0, [])%nat)) by (now rewrite map_length, reds_len). apply map_nth. Qed.
Lemma inl_table_nth k : (k < 108)%nat -> nth k inl_table (0%nat, false, 0%nat, 0%nat, 0%N, 0%N) = inl_info (nth k kn_inls (0%nat, false, 0%nat, [])).
Proof. intro H. unfold inl_table. rewrite (nth_indep _ _ (inl_info (0%nat, false, 0%nat, []))) by (now rewrite map_length, inls_len). apply map_nth. Qed.
Lemma spoly_table_nth k : (k < 26)%nat -> nth k spoly_table (0%nat, 0%nat, 0%nat, 0%nat, 0%nat, 0%N, 0%N, 0%N) = spoly_info (nth k (skipn 10 kn_spolys) (GE 0 0 0)).
Proof. intro H. unfold spoly_table. rewrite (nth_indep _ _ (spoly_info (GE 0 0 0))) by (now rewrite map_length, spolys_len). apply map_nth. Qed.
Lemma nth_skipn {A} (d : A) n l k : nth k (skipn n l) d = nth (n + k) l d.
Proof. revert l. induction n as [|n IH]; intros [|a l]; cbn; auto. now destruct k. Qed.

(** the effect of a reduction on the invariant *)
Lemma red_inv st G t s c0 p f ps : inv st G -> (t < 66)%nat -> (s < 66)%nat -> t <> s -> pat_ok 197 9 kn_mon c0 p ps = true ->
  subm (supp st s) (mask (p :: map snd ps)) = true -> f * G s p = G t c0 ->
  let H := fold_left (fun H e => gset H t (fst e) (H t (fst e) - f * H s (snd e))) ps (gset G t c0 0) in
  inv (put st t (N.ldiff (N.lor (supp st t) (mask (map fst ps))) (bit c0), N.ldiff (N.ldiff (ones st t) (mask (map fst ps))) (bit c0), 0%N)) H
  /\ forall r k, r <> t -> H r k = G r k.
Proof.
  intros I Ht Hs N P Sb F H. pose proof I as [L IS IO IM IV].
  destruct (reduce 197 9 kn_mon (kn_x M) G t s c0 p f ps N P) as (F1 & F2 & F3 & F4); auto.
  { intros c Hc Hm. apply IS; auto. now apply (subm_ok _ _ _ Sb). }
  change (fold_left (fun H e => gset H t (fst e) (H t (fst e) - f * H s (snd e))) ps (gset G t c0 0)) with H in F1, F2, F3, F4.
  split; auto. apply (inv_put st G); auto; cbn [fst snd].
  - intros c Hc. rewrite has_ldiff, has_lor, has_bit. intro B. destruct (Nat.eq_dec c c0) as [->|Nc]; auto.
    pose proof Nc as Nc'. apply Nat.eqb_neq in Nc'. rewrite Nc' in B. cbn in B. rewrite andb_true_r in B. apply orb_false_iff in B as [B1 B2].
    rewrite F2; auto.
  - intros c Hc. rewrite !has_ldiff, has_bit. intro B. apply andb_prop in B as [B B3]. apply andb_prop in B as [B1 B2].
    apply negb_true_iff in B2, B3. apply Nat.eqb_neq in B3. rewrite F2; auto.
  - intros c Hc. now rewrite has_0.
  - unfold kn_value in *. rewrite F4, !IV by auto. ring.
Qed.

Lemma kcheck1_sound low st i st' G H : inv st G -> kcheck1 low st i = Some st' -> kstep (kn_op i) G = Some H ->
  inv st' H /\ forall r c, (r < low)%nat -> H r c = G r c.
Proof.
  intros I C K. pose proof I as [L IS IO IM IV]. destruct i as [k|k t|k t|r c|t c s]; unfold kcheck1 in C.
  - destruct (Nat.ltb k 36 && Nat.leb 10 k) eqn:Kb.
    2:{ exfalso. destruct (nth (k - 10) spoly_table _) as [[[[[[[? ?] ?] ?] ?] ?] ?] ?]. destruct (Nat.leb 10 k), (Nat.ltb k 36); try discriminate. }
    apply andb_prop in Kb as [K1 K2]. apply Nat.ltb_lt in K1. apply Nat.leb_le in K2.
    rewrite spoly_table_nth in C by lia. pose proof (spolys_nth (k - 10) ltac:(lia)) as V.
    unfold kn_op in K. replace k with (10 + (k - 10))%nat in K by lia. rewrite <- nth_skipn in K.
    destruct (nth (k - 10) (skipn 10 kn_spolys) (GE 0 0 0)) as [t i p j q e| | |]; try discriminate V.
    unfold spoly_info in C. cbn [spoly_valid] in V.
    destruct (_ && _ && _ && _ && _ && _ && _ && _ && _) eqn:B in C; [|discriminate]. injection C as <-. split_and B.
    clear B K9. apply Nat.leb_le in K8. apply Nat.ltb_lt in K7, K6, K5. apply N.eqb_eq in K4.
    cbn [kstep gstep] in K. destruct (Req_EM_T (G i p) 0) as [|Ni]; [discriminate|]. destruct (Req_EM_T (G j q) 0) as [|Nj]; [discriminate|].
    destruct (spoly 197 9 kn_mon (kn_x M) G t i p j q e V Ni Nj) as (F1 & F2 & F3).
    { intros c Hc Hm. apply IS; auto. now apply (subm_ok _ _ _ K3). }
    { intros c Hc Hm. apply IS; auto. now apply (subm_ok _ _ _ K0). }
    { intros c Hc. apply IS; auto. rewrite K4. apply has_0. }
    { now apply IV. } { now apply IV. }
    injection K as <-. split.
    + apply (inv_put st G); auto; cbn [fst snd]; intros c Hc; now rewrite has_0.
    + intros r c Hr. apply F1. lia.
  - destruct (Nat.ltb k 65) eqn:Kb.
    2:{ exfalso. destruct (nth k red_table _) as [[[? ?] ?] ?]. discriminate. }
    apply Nat.ltb_lt in Kb. rewrite red_table_nth in C by auto. pose proof (reds_nth k Kb) as V. unfold kn_op in K.
    destruct (nth k kn_reds (0, 0, 0, [])%nat) as [[[s c0] p] ps]. unfold red_info in C. cbn [red_valid] in V.
    cbn [andb] in C. destruct (_ && _ && _ && _ && _) eqn:B in C; [|discriminate]. injection C as <-. split_and B.
    apply Nat.leb_le in B. apply Nat.ltb_lt in K3, K2. apply negb_true_iff, Nat.eqb_neq in K1.
    cbn [kstep gstep] in K. destruct (Req_EM_T (G s p) 0) as [|Nz]; [discriminate|]. injection K as <-.
    destruct (red_inv st G t s c0 p (G t c0 / G s p) ps) as [J F]; auto; [field; auto|]. split; auto. intros r c Hr. apply F. lia.
  - destruct (Nat.ltb k 108) eqn:Kb.
    2:{ exfalso. destruct (nth k inl_table _) as [[[[[? ?] ?] ?] ?] ?]. discriminate. }
    apply Nat.ltb_lt in Kb. rewrite inl_table_nth in C by auto. pose proof (inls_nth k Kb) as V. unfold kn_op in K.
    destruct (nth k kn_inls (0%nat, false, 0%nat, [])) as [[[c0 neg] s] ps]. unfold inl_info in C. cbn [inl_valid] in V.
    cbn [andb] in C. destruct (_ && _ && _ && _ && _ && _) eqn:B in C; [|discriminate]. injection C as <-. split_and B.
    apply Nat.leb_le in B. apply Nat.ltb_lt in K4, K3. apply negb_true_iff, Nat.eqb_neq in K2.
    assert (Hl : (kn_lead s < 197)%nat).
    { unfold pat_ok in V. split_and V. unfold shiftb in K5. apply andb_prop in K5 as [_ K5]. cbn [forallb fst snd] in K5. apply andb_prop in K5 as [K5 _].
      split_and K5. apply Nat.ltb_lt; assumption. }
    cbn [kstep] in K. injection K as <-.
    destruct (red_inv st G t s c0 (kn_lead s) (if neg then - G t c0 else G t c0) ps) as [J F]; auto.
    { destruct neg; [rewrite (IM s _ K3 Hl K0)|rewrite (IO s _ K3 Hl K0)]; ring. }
    split; auto. intros r c Hr. apply F. lia.
  - destruct (_ && _ && _) eqn:B in C; [|discriminate]. injection C as <-. split_and B. apply Nat.leb_le in B. apply Nat.ltb_lt in K1, K0.
    cbn [kn_op kstep gstep] in K. destruct (Req_EM_T (G r c) 0) as [|Nz]; [discriminate|]. injection K as <-. split.
    + apply (inv_put st G); auto; cbn [fst snd].
      * intros r' c' N. apply Nat.eqb_neq in N. now rewrite N.
      * intros c' Hc' Hm. rewrite Nat.eqb_refl, (IS r c') by auto. ring.
      * intros c' Hc'. rewrite has_bit. intro E. apply Nat.eqb_eq in E. subst. rewrite Nat.eqb_refl. field. auto.
      * intros c' Hc'. now rewrite has_0.
      * unfold kn_value, row_value. rewrite (sumn_ext _ _ (fun k => 1 / G r c * (G r k * mono (kn_x M) 0 (nth k kn_mon [])))).
        -- rewrite sumn_scale. specialize (IV r K1). unfold kn_value, row_value in IV. rewrite IV. ring.
        -- intros. rewrite Nat.eqb_refl. ring.
    + intros r' c' Hr. assert (N : r' <> r) by lia. apply Nat.eqb_neq in N. now rewrite N.
  - destruct (_ && _ && _ && _ && _ && _) eqn:B in C; [|discriminate]. injection C as <-. split_and B. apply Nat.leb_le in B. apply Nat.ltb_lt in K4, K3, K1.
    apply negb_true_iff, Nat.eqb_neq in K2. cbn [kn_op kstep gstep] in K. injection K as <-. split.
    + apply (inv_put st G); auto; cbn [fst snd].
      * intros r' c' N. apply Nat.eqb_neq in N. now rewrite N.
      * intros c' Hc'. rewrite has_ldiff, has_lor, has_bit, Nat.eqb_refl. intro Hm. destruct (Nat.eqb_spec c' c) as [->|N].
        -- rewrite (IO s c) by auto. ring.
        -- cbn in Hm. rewrite andb_true_r in Hm. apply orb_false_iff in Hm as [Hm1 Hm2]. rewrite (IS t c'), (IS s c') by auto. ring.
      * intros c' Hc'. rewrite !has_ldiff, has_bit, Nat.eqb_refl. intro Hm. apply andb_prop in Hm as [Hm Hm3]. apply andb_prop in Hm as [Hm1 Hm2]. apply negb_true_iff in Hm2.
        rewrite (IO t c'), (IS s c') by auto. ring.
      * intros c' Hc'. now rewrite has_0.
      * unfold kn_value, row_value. rewrite (sumn_ext _ _ (fun k => G t k * mono (kn_x M) 0 (nth k kn_mon []) - G t c * (G s k * mono (kn_x M) 0 (nth k kn_mon [])))).
        -- rewrite sumn_sub, sumn_scale. pose proof (IV s K3) as Vs. pose proof (IV t K4) as Vt. unfold kn_value, row_value in Vs, Vt. rewrite Vs, Vt. ring.
        -- intros. rewrite Nat.eqb_refl. ring.
    + intros r' c' Hr. assert (N : r' <> t) by lia. apply Nat.eqb_neq in N. now rewrite N.
Qed.
Lemma kcheck_sound low l : forall st st' G H, inv st G -> kcheck low st l = Some st' -> krun (map kn_op l) G = Some H ->
  inv st' H /\ forall r c, (r < low)%nat -> H r c = G r c.
Proof.
  induction l as [|i l IH]; intros st st' G H I C K; cbn [kcheck map krun] in C, K.
  - injection C as <-. injection K as <-. auto.
  - destruct (kcheck1 low st i) as [s1|] eqn:E1; [|discriminate]. destruct (kstep (kn_op i) G) as [G1|] eqn:E2; [|discriminate].
    destruct (kcheck1_sound _ _ _ _ _ _ I E1 E2) as [I1 F1]. destruct (IH _ _ _ _ I1 C K) as [I2 F2]. split; auto.
    intros r c Hr. now rewrite F2, F1.
Qed.
End Sound.
