(** The bound on the roots and the bracketing loop. *)
From Coq Require Import Reals Lra Psatz List Lia Permutation Classical ZArith.
From Verif Require Import SturmModel SturmProofs.
Import ListNotations.
Local Open Scope R_scope.

(** * Lagrange's bound *)
Lemma Rdiv_le_0_compat x y : 0 <= x -> 0 < y -> 0 <= x / y.
Proof. intros. now apply Rle_mult_inv_pos. Qed.
Lemma rpow_nonneg x y : 0 <= rpow x y.
Proof. unfold rpow. destruct (Req_EM_T x 0); [lra|]. unfold Rpower. left. apply exp_pos. Qed.
Lemma rpow_root x i : 0 <= x -> rpow x (1 / INR (S i)) ^ S i = x.
Proof.
  intro H. unfold rpow. destruct (Req_EM_T x 0) as [->|N].
  - cbn. ring.
  - assert (0 < INR (S i)) by (apply lt_0_INR; lia).
    rewrite <- Rpower_pow by apply exp_pos. rewrite Rpower_mult.
    replace (1 / INR (S i) * INR (S i)) with 1 by (field; lra). apply Rpower_1. lra.
Qed.
Lemma bound_terms_length a0 : forall r i, length (bound_terms a0 i r) = length r.
Proof. induction r; intro i; cbn; auto. Qed.
Lemma bound_terms_nonneg a0 : forall r i, Forall (fun t => 0 <= t) (bound_terms a0 i r).
Proof. induction r; intro i; cbn; constructor; auto. apply rpow_nonneg. Qed.

Fixpoint W (y : R) (k : nat) (ts : list R) : R :=
  match ts with [] => 0 | t :: r => (t / y) ^ S k + W y (S k) r end.
Lemma tail_value a0 x : a0 <> 0 -> x <> 0 -> forall r k,
  Rabs (peval r x) <= Rabs a0 * Rabs x ^ (k + length r) * W (Rabs x) k (bound_terms a0 k r).
Proof.
  intros Ha Hx. assert (Hy : 0 < Rabs x) by (now apply Rabs_pos_lt).
  induction r as [|c r IH]; intro k.
  - cbn. rewrite Rabs_R0. lra.
  - cbn [peval bound_terms W length]. eapply Rle_trans; [apply Rabs_triang|].
    specialize (IH (S k)). replace (S k + length r)%nat with (k + S (length r))%nat in IH by lia.
    rewrite Rmult_plus_distr_l. apply Rplus_le_compat; [|exact IH]. right.
    rewrite Rabs_mult, <- RPow_abs. set (t := rpow (Rabs (c / a0)) (1 / INR (S k))).
    assert (Et : Rabs c = Rabs a0 * t ^ S k).
    { unfold t. rewrite rpow_root by apply Rabs_pos. unfold Rdiv. rewrite Rabs_mult, Rabs_inv. field. now apply Rabs_no_R0. }
    rewrite Et. unfold Rdiv. rewrite Rpow_mult_distr. replace (k + S (length r))%nat with (S k + length r)%nat by lia.
    rewrite pow_add, pow_inv. field. apply pow_nonzero. lra.
Qed.

Fixpoint G (u : R) (k n : nat) : R := match n with O => 0 | S n => u ^ S k + G u (S k) n end.
Lemma G_geo u : 0 <= u -> u < 1 -> forall n k, (1 - u) * G u k n <= u ^ S k.
Proof.
  intros H0 H1. induction n as [|n IH]; intro k; cbn [G].
  - assert (0 <= u ^ S k) by (now apply pow_le). lra.
  - specialize (IH (S k)). rewrite Rmult_plus_distr_l. cbn [pow] in *. nra.
Qed.
Lemma W_all y u : 0 < y -> 0 <= u -> forall ts k, Forall (fun t => 0 <= t <= u * y) ts -> W y k ts <= G u k (length ts).
Proof.
  intros Hy Hu. induction ts as [|t r IH]; intros k F; cbn [W G length]; [lra|].
  inversion F; subst. apply Rplus_le_compat; [|apply IH; auto].
  apply pow_incr. split; [apply Rdiv_le_0_compat; lra|].
  apply Rmult_le_reg_r with y; auto. unfold Rdiv. rewrite Rmult_assoc, Rinv_l by lra. lra.
Qed.
Lemma W_one y u v : 0 < y -> 0 <= u -> 0 <= v -> forall ts k j, (j < length ts)%nat ->
  Forall (fun t => 0 <= t) ts -> nth j ts 0 <= v * y -> (forall i, i <> j -> (i < length ts)%nat -> nth i ts 0 <= u * y) ->
  W y k ts <= v ^ S (k + j) - u ^ S (k + j) + G u k (length ts).
Proof.
  intros Hy Hu Hv. induction ts as [|t r IH]; intros k j Hj F Nj Ni; cbn [length] in *; [lia|].
  inversion F; subst. destruct j as [|j].
  - cbn [W G]. rewrite Nat.add_0_r. cbn [nth] in Nj.
    assert (W y (S k) r <= G u (S k) (length r)).
    { apply W_all; auto. apply Forall_forall. intros t' Ht'. rewrite Forall_forall in H2. split; [auto|].
      destruct (In_nth r t' 0 Ht') as (i & Hi & <-). apply (Ni (S i)); lia. }
    assert ((t / y) ^ S k <= v ^ S k).
    { apply pow_incr. split; [apply Rdiv_le_0_compat; lra|].
      apply Rmult_le_reg_r with y; auto. unfold Rdiv. rewrite Rmult_assoc, Rinv_l by lra. lra. }
    lra.
  - cbn [W G]. specialize (IH (S k) j ltac:(lia) H2 Nj (fun i Hi Hl => Ni (S i) ltac:(lia) ltac:(lia))).
    replace (k + S j)%nat with (S k + j)%nat by lia.
    assert ((t / y) ^ S k <= u ^ S k).
    { apply pow_incr. split; [apply Rdiv_le_0_compat; lra|]. specialize (Ni 0%nat ltac:(lia) ltac:(lia)). cbn [nth] in Ni.
      apply Rmult_le_reg_r with y; auto. unfold Rdiv. rewrite Rmult_assoc, Rinv_l by lra. lra. }
    lra.
Qed.
Lemma pow_diff u v j : 0 <= u -> u <= v -> u + v <= 1 -> v ^ S j - u ^ S j <= v - u.
Proof.
  intros Hu Hv H. assert (Hj : forall j, u ^ S j <= u).
  { intro i0. induction i0 as [|i IH]; [cbn; lra|]. cbn [pow] in *. assert (0 <= u ^ i) by (now apply pow_le). nra. }
  assert (forall j, 0 <= v ^ S j - u ^ S j <= v - u); [|apply H0].
  intro i0. induction i0 as [|i IH]; [cbn; lra|].
  replace (v ^ S (S i) - u ^ S (S i)) with (v * (v ^ S i - u ^ S i) + (v - u) * u ^ S i) by (cbn [pow]; ring).
  specialize (Hj i). assert (0 <= u ^ S i) by (now apply pow_le). split; [nra|].
  assert (v * (v ^ S i - u ^ S i) <= v * (v - u)) by (apply Rmult_le_compat_l; lra).
  assert ((v - u) * u ^ S i <= (v - u) * u) by (apply Rmult_le_compat_l; lra).
  nra.
Qed.

Lemma argmax_spec : forall l i j m, match argmax l i j m with (j', m') =>
  (forall t, In t l -> t <= m') /\ m <= m' /\
  ((m' = m /\ j' = j) \/ exists k, j' = (i + k)%nat /\ (k < length l)%nat /\ nth k l 0 = m') end.
Proof.
  induction l as [|c r IH]; intros i j m; cbn [argmax].
  - split; [intros ? []|]. split; [lra|]. now left.
  - destruct (Rgt_dec c m) as [Hc|Hc].
    + specialize (IH (S i) i c). destruct (argmax r (S i) i c) as [j' m']. destruct IH as (A & B & D).
      split; [|split; [lra|]].
      * intros t [<-|Ht]; auto.
      * right. destruct D as [[-> ->]|(k & -> & Hk & Nk)].
        -- exists 0%nat. cbn. repeat split; lia.
        -- exists (S k). cbn. repeat split; auto; lia.
    + specialize (IH (S i) j m). destruct (argmax r (S i) j m) as [j' m']. destruct IH as (A & B & D).
      split; [|split; [lra|]].
      * intros t [<-|Ht]; auto. lra.
      * destruct D as [[-> ->]|(k & -> & Hk & Nk)]; [now left|]. right.
        exists (S k). cbn. repeat split; auto; lia.
Qed.
Lemma maximum_spec : forall l m, (forall t, In t l -> t <= maximum l m) /\ m <= maximum l m /\ (maximum l m = m \/ In (maximum l m) l).
Proof.
  induction l as [|c r IH]; intro m; cbn [maximum].
  - split; [intros ? []|]. split; [lra|]. now left.
  - destruct (Rgt_dec c m); [specialize (IH c)|specialize (IH m)]; destruct IH as (A & B & D); (split; [|split; [lra|]]).
    + intros t [<-|Ht]; auto.
    + right. destruct D as [D|D]; [left; auto|now right].
    + intros t [<-|Ht]; auto. lra.
    + destruct D as [D|D]; [left; auto|right; now right].
Qed.
Lemma set_nth_other v : forall l j i, i <> j -> nth i (set_nth l j v) 0 = nth i l 0.
Proof. induction l; intros [|j] [|i] H; cbn; auto; try lia. Qed.
Lemma set_nth_length v : forall l j, length (set_nth l j v) = length l.
Proof. induction l; intros [|j]; cbn; auto. Qed.
Lemma set_nth_in v : forall l j t, In t (set_nth l j v) -> t = v \/ In t l.
Proof. induction l; intros [|j] t H; cbn in *; auto; destruct H as [<-|H]; auto. destruct (IHl _ _ H); auto. Qed.

(** What the two maxima are. *)
Lemma lagrangian_bound_spec p B : lagrangian_bound p = Some B -> (3 <= length p)%nat ->
  exists a0 r j max1 max2, p = a0 :: r /\ a0 <> 0 /\ B = max1 + max2 /\ 0 <= max2 <= max1 /\
    (j < length r)%nat /\ nth j (bound_terms a0 0 r) 0 = max1 /\
    (forall i, i <> j -> (i < length r)%nat -> nth i (bound_terms a0 0 r) 0 <= max2).
Proof.
  intros E L. destruct p as [|a0 r]; [discriminate|]. cbn [length] in L. cbn [lagrangian_bound] in E.
  destruct (Req_EM_T a0 0) as [|Na]; [discriminate|].
  pose proof (bound_terms_length a0 r 0) as Lt. pose proof (bound_terms_nonneg a0 r 0) as Pt.
  remember (bound_terms a0 0 r) as ts eqn:Ets.
  pose proof (argmax_spec ts 0 0 (-1)) as A. destruct (argmax ts 0 0 (-1)) as [j max1]. destruct A as (A & _ & D).
  injection E as <-. rewrite Forall_forall in Pt.
  assert (D' : exists k, j = k /\ (k < length ts)%nat /\ nth k ts 0 = max1).
  { destruct D as [[-> ->]|(k & -> & H)]; [|exists k; auto].
    exfalso. destruct ts as [|t ts]; [cbn in Lt; lia|]. specialize (A t (or_introl eq_refl)). specialize (Pt t (or_introl eq_refl)). lra. }
  destruct D' as (k & <- & Hj & Nj).
  destruct (maximum_spec (set_nth ts j (-1)) (-1)) as (M1 & M2 & M3). set (max2 := maximum (set_nth ts j (-1)) (-1)) in *.
  assert (Ni : forall i, i <> j -> (i < length ts)%nat -> nth i ts 0 <= max2).
  { intros i Hi Hl. apply M1. rewrite <- (set_nth_other (-1) ts j i Hi). apply nth_In. now rewrite set_nth_length. }
  assert (H1 : 0 <= max1) by (apply Pt; rewrite <- Nj; now apply nth_In).
  exists a0, r, j, max1, max2. rewrite <- Ets. repeat split; auto; try lia.
  - (* 0 <= max2 : another index exists *)
    set (i := if Nat.eqb j 0 then 1%nat else 0%nat).
    assert (Hi : i <> j /\ (i < length ts)%nat) by (unfold i; destruct (Nat.eqb_spec j 0); lia).
    eapply Rle_trans; [|apply (Ni i); tauto]. apply Pt. apply nth_In. tauto.
  - destruct M3 as [->|M3]; [lra|]. apply set_nth_in in M3. destruct M3 as [M3|M3]; [lra|]. now apply A.
  - intros i Hi Hl. apply Ni; auto. lia.
Qed.

Lemma root_bound p B x : lagrangian_bound p = Some B -> (3 <= length p)%nat -> peval p x = 0 -> Rabs x <= B.
Proof.
  intros E L Z. destruct (lagrangian_bound_spec p B E L) as (a0 & r & j & max1 & max2 & -> & Na & -> & [H0 H1] & Hj & Nj & Ni).
  destruct (Rle_dec (Rabs x) (max1 + max2)) as [|N]; auto. exfalso. apply Rnot_le_lt in N.
  assert (Hy : 0 < Rabs x) by lra. assert (Hx : x <> 0) by (intro; subst; rewrite Rabs_R0 in Hy; lra).
  set (y := Rabs x) in *. set (u := max2 / y). set (v := max1 / y).
  assert (Eu : u * y = max2) by (unfold u; field; lra). assert (Ev : v * y = max1) by (unfold v; field; lra).
  assert (Hu : 0 <= u) by (apply Rdiv_le_0_compat; lra).
  assert (Hv : 0 <= v) by (apply Rdiv_le_0_compat; lra).
  assert (Huv : u <= v) by nra. assert (Hs : u + v < 1) by nra.
  assert (A1 : Rabs (peval r x) = Rabs a0 * y ^ length r).
  { cbn [peval] in Z. replace (peval r x) with (- (a0 * x ^ length r)) by lra. rewrite Rabs_Ropp, Rabs_mult, <- RPow_abs. reflexivity. }
  pose proof (tail_value a0 x Na Hx r 0) as T. fold y in T. cbn [Nat.add] in T. rewrite A1 in T.
  assert (0 < Rabs a0 * y ^ length r) by (apply Rmult_lt_0_compat; [now apply Rabs_pos_lt|now apply pow_lt]).
  assert (W1 : 1 <= W y 0 (bound_terms a0 0 r)) by nra.
  pose proof (W_one y u v Hy Hu Hv (bound_terms a0 0 r) 0 j) as O. rewrite bound_terms_length in O.
  specialize (O Hj (bound_terms_nonneg a0 r 0)). rewrite Nj, Ev, Eu in O. specialize (O ltac:(lra) Ni). cbn [Nat.add] in O.
  pose proof (pow_diff u v j Hu Huv ltac:(lra)) as P.
  pose proof (G_geo u Hu ltac:(lra) (length r) 0) as Q. cbn [pow] in Q. rewrite Rmult_1_r in Q.
  set (g := G u 0 (length r)) in *. nra.
Qed.

(** * The stack of brackets *)
Section Brackets.
Variables (p : list R) (C : list (list R)).
Hypothesis Hchain : sturm_chain p = Some C.
Hypothesis Hlen : (2 <= length p)%nat.
Hypothesis Hlen64 : (Z.of_nat (length p) < 2 ^ 64)%Z.
Hypothesis Hreg : regular C.

Definition good (b : bracket) : Prop :=
  b_lo b < b_hi b /\ b_lo_changes b = evaluate_chain C (b_lo b) /\ b_hi_changes b = evaluate_chain C (b_hi b).
(** the roots a bracket is responsible for *)
Definition owns (b : bracket) (x : R) : Prop := charged (peval p) (peval (deriv p)) (b_lo b) (b_hi b) x.
Definition root_list (b : bracket) (rs : list R) : Prop := NoDup rs /\ (forall x, In x rs <-> owns b x).

Lemma chain_len : length C = length p.
Proof.
  clear Hlen64 Hreg.
  unfold sturm_chain in Hchain. destruct p as [|a [|c q]]; cbn [length] in *; try lia.
  destruct (chain_rows _ _ _) as [l|] eqn:E; [|discriminate]. injection Hchain as <-. cbn [length].
  assert (K : forall n p1 p2 l, chain_rows n p1 p2 = Some l -> length l = n).
  { induction n as [|n IH]; intros p1 p2 l0 H; cbn [chain_rows] in H; [now injection H as <-|].
    destruct (negated_remainder p1 p2); [|discriminate]. destruct (chain_rows n p2 _) eqn:E'; [|discriminate].
    injection H as <-. cbn [length]. f_equal. eauto. }
  apply K in E. cbn in E. lia.
Qed.
Lemma changes_le : forall l b, (changes b l <= length l)%nat.
Proof. induction l as [|s r IH]; intros b; cbn; auto. destruct b; [destruct (Rlt_dec s 0)|destruct (Rgt_dec s 0)]; pose proof (IH true); pose proof (IH false); lia. Qed.
Lemma evaluate_le x : (evaluate_chain C x < length p)%nat.
Proof.
  pose proof chain_len as CL. rewrite <- CL. unfold evaluate_chain. destruct C as [|r C']; [cbn in CL; lia|].
  cbn [map length]. pose proof (changes_le (map (fun row => row_value row x) C') (if Rgt_dec (row_value r x) 0 then true else false)) as H.
  rewrite map_length in H. lia.
Qed.
Lemma good_roots b : good b -> exists rs, root_list b rs /\ number_roots b = Z.of_nat (length rs).
Proof.
  intros (Hlt & E1 & E2). destruct (chain_spec p C Hchain Hlen Hreg) as (l & M & S & Cont).
  destruct (sturm (peval p) (peval (deriv p)) l Cont (peval_derivable p) S (b_lo b) (b_hi b) ltac:(lra)) as (rs & N & I & V).
  exists rs. split; [split; auto|]. unfold number_roots. rewrite E1, E2.
  rewrite !(evaluate_chain_V p C Hchain Hlen Hreg l M), V.
  rewrite Nat2Z.inj_add, Z.add_simpl_l. apply Z.mod_small. split; [lia|].
  pose proof (evaluate_le (b_lo b)) as Le. rewrite (evaluate_chain_V p C Hchain Hlen Hreg l M), V in Le. lia.
Qed.
Lemma root_list_perm b l1 l2 : root_list b l1 -> root_list b l2 -> Permutation l1 l2.
Proof. intros [N1 I1] [N2 I2]. apply NoDup_Permutation; auto. intro x. rewrite I1, I2. tauto. Qed.
Lemma good_number b rs : good b -> root_list b rs -> number_roots b = Z.of_nat (length rs).
Proof.
  intros Gd Rl. destruct (good_roots b Gd) as (rs' & Rl' & ->). f_equal. apply Permutation_length. eauto using root_list_perm.
Qed.
Lemma owns_in b x : good b -> owns b x -> b_lo b <= x <= b_hi b /\ peval p x = 0.
Proof. intros (Hl & _) [Z [H|[(-> & _)|(-> & _)]]]; split; auto; lra. Qed.

Lemma center_in b : good b -> b_lo b < center b < b_hi b.
Proof. intros (H & _). unfold center. lra. Qed.
Lemma split_good b : good b -> good (fst (split C b)) /\ good (snd (split C b)).
Proof. intros Gd. pose proof (center_in b Gd). destruct Gd as (H1 & H2 & H3). unfold split, good. cbn. repeat split; auto; lra. Qed.
Lemma split_width b : b_hi (fst (split C b)) - b_lo (fst (split C b)) = (b_hi b - b_lo b) / 2
  /\ b_hi (snd (split C b)) - b_lo (snd (split C b)) = (b_hi b - b_lo b) / 2.
Proof. unfold split, center. cbn. lra. Qed.
Lemma root_simple_p x : peval p x = 0 -> peval (deriv p) x <> 0.
Proof.
  destruct (chain_spec p C Hchain Hlen Hreg) as (l & M & S & Cont). now apply (root_simple _ _ l S).
Qed.
Lemma split_owns b x : good b -> (owns b x <-> owns (fst (split C b)) x \/ owns (snd (split C b)) x)
  /\ ~ (owns (fst (split C b)) x /\ owns (snd (split C b)) x).
Proof.
  intros Gd. pose proof (center_in b Gd) as Hc. unfold owns, charged, split. cbn. set (c := center b) in *. clearbody c. split.
  - split.
    + intros [Z H]. destruct H as [H|[(-> & ? & H)|(-> & ? & H)]].
      * destruct (Rtotal_order x c) as [L|[L|L]].
        -- left. split; auto. left. lra.
        -- subst x. pose proof (root_simple_p c Z) as Nb.
           destruct (Rtotal_order (peval (deriv p) c) 0) as [G0|[G0|G0]]; [|contradiction|].
           ++ left. split; auto. right. right. repeat split; try lra.
           ++ right. split; auto. right. left. repeat split; try lra.
        -- right. split; auto. left. lra.
      * left. split; auto. right. left. repeat split; try lra.
      * right. split; auto. right. right. repeat split; try lra.
    + intros [[Z H]|[Z H]]; split; auto.
      * destruct H as [H|[(-> & ? & H)|(-> & ? & H)]]; [left; lra|right; left; repeat split; auto; lra|left; lra].
      * destruct H as [H|[(-> & ? & H)|(-> & ? & H)]]; [left; lra|left; lra|right; right; repeat split; auto; lra].
  - intros [[_ H1] [_ H2]].
    destruct H1 as [H1|[(E1 & _ & H1)|(E1 & _ & H1)]]; destruct H2 as [H2|[(E2 & _ & H2)|(E2 & _ & H2)]]; subst; try lra.
Qed.
Lemma split_roots b rs : good b -> root_list b rs -> exists rl ru,
  root_list (fst (split C b)) rl /\ root_list (snd (split C b)) ru /\ Permutation rs (rl ++ ru).
Proof.
  intros Gd [N I]. destruct (split_good b Gd) as [G1 G2].
  destruct (good_roots _ G1) as (rl & Rl & _). destruct (good_roots _ G2) as (ru & Ru & _).
  exists rl, ru. split; auto. split; auto. destruct Rl as [N1 I1], Ru as [N2 I2]. apply NoDup_Permutation; auto.
  - clear N I. assert (Dj : forall x, In x rl -> ~ In x ru).
    { intros x X1 X2. apply (split_owns b x Gd). split; [now apply I1|now apply I2]. }
    clear I1 I2. induction rl as [|x rl IH]; auto. cbn. inversion N1; subst. constructor.
    + intro H. apply in_app_iff in H. destruct H; [auto|]. apply (Dj x); auto. now left.
    + apply IH; auto. intros y Hy. apply Dj. now right.
  - intro x. rewrite I, in_app_iff, I1, I2. apply split_owns. auto.
Qed.

(** all roots of p *)
Lemma finite_gap rs : NoDup rs -> exists g, 0 < g /\ forall x y, In x rs -> In y rs -> x <> y -> g <= Rabs (x - y).
Proof.
  induction rs as [|z rs IH]; intro N.
  - exists 1. split; [lra|]. intros x y [].
  - inversion N; subst. destruct IH as (g & Hg & H); auto.
    assert (K : forall l, ~ In z l -> exists d, 0 < d /\ forall y, In y l -> d <= Rabs (z - y)).
    { induction l as [|y l IHl]; intro Nz; [exists 1; split; [lra|intros ? []]|].
      destruct IHl as (d & Hd & Hl); [intro; apply Nz; now right|].
      assert (z - y <> 0) by (intro; apply Nz; left; lra).
      exists (Rmin d (Rabs (z - y))). split; [apply Rmin_glb_lt; auto; now apply Rabs_pos_lt|].
      intros w [<-|Hw]; [apply Rmin_r|]. eapply Rle_trans; [apply Rmin_l|auto]. }
    destruct (K rs H1) as (d & Hd & Hk). exists (Rmin g d). split; [now apply Rmin_glb_lt|].
    intros x y [<-|Hx] [<-|Hy] Ne; [contradiction| | |].
    + eapply Rle_trans; [apply Rmin_r|auto].
    + rewrite Rabs_minus_sym. eapply Rle_trans; [apply Rmin_r|auto].
    + eapply Rle_trans; [apply Rmin_l|auto].
Qed.
Lemma narrow_one b rs g : good b -> root_list b rs ->
  (forall x y, peval p x = 0 -> peval p y = 0 -> b_lo b <= x <= b_hi b -> b_lo b <= y <= b_hi b -> x <> y -> g <= Rabs (x - y)) ->
  b_hi b - b_lo b < g -> (length rs <= 1)%nat.
Proof.
  intros Gd [N I] Hg Hw. destruct rs as [|x [|y rs]]; cbn; auto. exfalso.
  assert (Ne : x <> y). { inversion N; subst. intro; subst. apply H1. now left. }
  assert (Ox : owns b x) by (apply I; now left). assert (Oy : owns b y) by (apply I; right; now left).
  apply (owns_in b x Gd) in Ox. apply (owns_in b y Gd) in Oy. destruct Ox as [Ox Zx], Oy as [Oy Zy].
  specialize (Hg x y Zx Zy Ox Oy Ne). unfold Rabs in Hg. destruct (Rcase_abs (x - y)); lra.
Qed.

Lemma dividable_true eps b rs : good b -> root_list b rs -> dividable eps b = true ->
  rs <> [] /\ ~ (length rs = 1%nat /\ b_hi b - b_lo b < eps).
Proof.
  intros Gd Rl D. unfold dividable in D. rewrite (good_number b rs Gd Rl) in D.
  destruct rs as [|x rs].
  - cbn in D. discriminate.
  - split; [discriminate|]. intros [L Hw]. rewrite L in D. cbn [Z.of_nat Z.eqb] in D.
    destruct (Rlt_dec (b_hi b - b_lo b) eps); [|lra]. cbn in D. discriminate.
Qed.
Lemma dividable_false eps b rs : good b -> root_list b rs -> dividable eps b = false ->
  rs = [] \/ (exists x, rs = [x] /\ b_hi b - b_lo b < eps).
Proof.
  intros Gd Rl D. unfold dividable in D. rewrite (good_number b rs Gd Rl) in D.
  destruct rs as [|x [|y rs]]; auto.
  - right. exists x. split; auto. cbn [length] in D. change (Z.of_nat 1) with 1%Z in D. cbn [Z.eqb Pos.eqb andb] in D.
    pose proof (center_in b Gd).
    destruct (Rlt_dec (b_hi b - b_lo b) eps); auto.
    destruct (Req_EM_T (center b) (b_hi b)); [lra|]. destruct (Req_EM_T (center b) (b_lo b)); [lra|]. discriminate.
  - exfalso. destruct (Z.eqb_spec (Z.of_nat (length (x :: y :: rs))) 1) as [H|H]; [cbn [length] in H; lia|].
    cbn [andb] in D. destruct (Z.eqb_spec (Z.of_nat (length (x :: y :: rs))) 0) as [H'|H']; [cbn [length] in H'; lia|].
    pose proof (center_in b Gd).
    destruct (Req_EM_T (center b) (b_hi b)); [lra|]. destruct (Req_EM_T (center b) (b_lo b)); [lra|]. discriminate.
Qed.

(** Stack invariant: good brackets, their roots, and how often each can still
    be halved before it is narrower than [g]. *)
Variable eps g lo0 hi0 : R.
Hypothesis Heps : 0 < eps.
Hypothesis Hg : 0 < g <= eps.
Hypothesis Hgap : forall x y, peval p x = 0 -> peval p y = 0 -> lo0 <= x <= hi0 -> lo0 <= y <= hi0 -> x <> y -> g <= Rabs (x - y).

Inductive sorted_stack : list bracket -> list (list R) -> nat -> Prop :=
| st_nil : sorted_stack [] [] 0
| st_cons b rs k stack ls m :
    good b -> lo0 <= b_lo b -> b_hi b <= hi0 -> root_list b rs -> b_hi b - b_lo b < g * 2 ^ k ->
    sorted_stack stack ls m -> sorted_stack (b :: stack) (rs :: ls) ((2 ^ S k - 1) + m).
Lemma sorted_app s1 l1 m1 s2 l2 m2 : sorted_stack s1 l1 m1 -> sorted_stack s2 l2 m2 -> sorted_stack (s1 ++ s2) (l1 ++ l2) (m1 + m2).
Proof.
  induction 1; intro K; cbn [app]; auto. rewrite <- Nat.add_assoc. constructor; auto.
Qed.
Lemma halving_needed b rs k : good b -> lo0 <= b_lo b -> b_hi b <= hi0 -> root_list b rs -> b_hi b - b_lo b < g * 2 ^ k ->
  dividable eps b = true -> exists k', k = S k'.
Proof.
  intros Gd H1 H2 Rl Hw D. destruct k as [|k]; [|eauto]. exfalso. cbn in Hw. rewrite Rmult_1_r in Hw.
  destruct (dividable_true eps b rs Gd Rl D) as [Ne N1].
  assert (L : (length rs <= 1)%nat) by (apply (narrow_one b rs g Gd Rl); auto; intros; apply Hgap; auto; lra).
  apply N1. split; [|lra]. destruct rs as [|x [|]]; auto; [contradiction|cbn in L; lia].
Qed.
Lemma sorted_split b rs k : good b -> lo0 <= b_lo b -> b_hi b <= hi0 -> root_list b rs -> b_hi b - b_lo b < g * 2 ^ S k ->
  exists rl ru, Permutation rs (rl ++ ru) /\ sorted_stack [fst (split C b); snd (split C b)] [rl; ru] (2 ^ S k - 1 + (2 ^ S k - 1 + 0)).
Proof.
  intros Gd H1 H2 Rl Hw. destruct (split_roots b rs Gd Rl) as (rl & ru & R1 & R2 & P). destruct (split_good b Gd) as [G1 G2].
  destruct (split_width b) as [W1 W2]. cbn [pow] in Hw. pose proof (center_in b Gd).
  exists rl, ru. split; auto. constructor; auto; [unfold split; cbn; lra|lra|].
  constructor; auto; [unfold split; cbn; lra|lra|constructor].
Qed.

Lemma bracket_loop_complete : forall m stack ls, sorted_stack stack ls m -> forall fuel roots, (m <= fuel)%nat ->
  exists zs rs, bracket_loop C eps fuel stack roots = Some (roots ++ zs) /\ Permutation rs (concat ls)
    /\ Forall2 (fun z r => Rabs (z - r) < eps / 2) zs rs.
Proof.
  induction m as [m IH] using lt_wf_ind. intros stack ls St fuel roots Hf.
  destruct St as [|b rs k stack ls m Gd H1 H2 Rl Hw St].
  - exists [], []. rewrite app_nil_r. destruct fuel; cbn; auto.
  - assert (P2 : (2 <= 2 ^ S k)%nat) by (cbn; pose proof (Nat.pow_nonzero 2 k ltac:(lia)); lia).
    destruct fuel as [|fuel]; [lia|]. cbn [bracket_loop].
    destruct (dividable eps b) eqn:D.
    + destruct (halving_needed b rs k Gd H1 H2 Rl Hw D) as (k' & ->).
      destruct (sorted_split b rs k' Gd H1 H2 Rl Hw) as (rl & ru & P & St2).
      pose proof (sorted_app _ _ _ _ _ _ St St2) as St3.
      destruct (split C b) as [bl bu] eqn:Es. cbn [fst snd] in St3.
      destruct (IH (m + (2 ^ S k' - 1 + (2 ^ S k' - 1 + 0)))%nat) with (stack := stack ++ [bl; bu]) (ls := ls ++ [rl; ru]) (fuel := fuel) (roots := roots)
        as (zs & rs' & E & P' & F); auto.
      { change (2 ^ S (S k'))%nat with (2 ^ S k' + (2 ^ S k' + 0))%nat in *. pose proof (Nat.pow_nonzero 2 (S k') ltac:(lia)). lia. }
      { change (2 ^ S (S k'))%nat with (2 ^ S k' + (2 ^ S k' + 0))%nat in *. pose proof (Nat.pow_nonzero 2 (S k') ltac:(lia)). lia. }
      exists zs, rs'. split; auto. split; auto. rewrite P', concat_app. cbn [concat]. rewrite app_nil_r, P.
      apply Permutation_app_comm.
    + rewrite (good_number b rs Gd Rl).
      destruct (dividable_false eps b rs Gd Rl D) as [->|(x & -> & Hx)].
      * cbn [length Z.of_nat Z.gtb Z.compare].
        destruct (IH m) with (stack := stack) (ls := ls) (fuel := fuel) (roots := roots) as (zs & rs' & E & P' & F); auto; try lia.
        exists zs, rs'. auto.
      * cbn [length Z.of_nat Z.gtb Z.compare Pos.of_succ_nat].
        destruct (IH m) with (stack := stack) (ls := ls) (fuel := fuel) (roots := roots ++ [midpoint b]) as (zs & rs' & E & P' & F); auto; try lia.
        exists (midpoint b :: zs), (x :: rs'). rewrite E, <- app_assoc. split; auto. split; [cbn; now constructor|].
        constructor; auto. destruct Rl as [_ I]. destruct (owns_in b x Gd) as [Hb _]; [apply I; now left|].
        unfold midpoint. unfold Rabs. destruct (Rcase_abs _); lra.
Qed.
End Brackets.

Lemma bracket_loop_mono C eps : forall fuel stack roots r, bracket_loop C eps fuel stack roots = Some r ->
  bracket_loop C eps (S fuel) stack roots = Some r.
Proof.
  induction fuel as [|fuel IH]; intros stack roots r H.
  - destruct stack; cbn in *; auto. discriminate.
  - destruct stack as [|b stack]; [cbn in *; auto|]. cbn [bracket_loop] in H |- *.
    destruct (dividable eps b).
    + destruct (split C b) as [l u]. apply IH in H. exact H.
    + destruct (Z.gtb (number_roots b) 0); apply IH in H; exact H.
Qed.
Lemma bracket_loop_mono' C eps stack roots r f1 f2 : (f1 <= f2)%nat -> bracket_loop C eps f1 stack roots = Some r ->
  bracket_loop C eps f2 stack roots = Some r.
Proof. induction 1; auto. intro K. apply bracket_loop_mono. auto. Qed.
