(** C32-C35: real roots by Sturm chains. *)
From Coq Require Import Reals Lra Psatz List Lia Permutation ZArith.
From Verif Require Import SturmModel SturmProofs SturmBoundProofs SturmPolishProofs.
Import ListNotations.
Local Open Scope R_scope.

(** Vocabulary (see SturmProofs): [peval p x] is the value of the polynomial
    with descending coefficients p; [regular C]: no row of the chain has
    leading coefficient 0 (then p has no multiple real root). *)

(** * C32 *)
(** No root at the ends: the difference of the counts is the number of
    distinct real roots in between. *)
Theorem C32_sturm_count : forall p C a b,
  sturm_chain p = Some C -> (2 <= length p)%nat -> regular C -> a < b ->
  peval p a <> 0 -> peval p b <> 0 ->
  exists rs, NoDup rs /\ (forall x, In x rs <-> a < x < b /\ peval p x = 0)
    /\ evaluate_chain C a = (evaluate_chain C b + length rs)%nat.
Proof.
  intros p C a b E L Rg Hab Ha Hb. destruct (chain_spec p C E L Rg) as (l & M & S & Cont).
  destruct (sturm (peval p) (peval (deriv p)) l Cont (peval_derivable p) S a b ltac:(lra)) as (rs & N & I & V).
  exists rs. split; auto. split.
  - intro x. rewrite I. unfold charged. split.
    + intros [Z [H|[(-> & _)|(-> & _)]]]; [auto|contradiction|contradiction].
    + intros [H Z]. split; auto.
  - rewrite !(evaluate_chain_V p C E L Rg l M). exact V.
Qed.
(** With roots at the ends: a root at the lower end is counted if and only if
    the polynomial increases there, one at the upper end if and only if it
    decreases there. *)
Theorem C32_sturm_count_ends : forall p C a b,
  sturm_chain p = Some C -> (2 <= length p)%nat -> regular C -> a < b ->
  exists rs, NoDup rs
    /\ (forall x, In x rs <-> peval p x = 0 /\ (a < x < b \/ (x = a /\ 0 < peval (deriv p) x) \/ (x = b /\ peval (deriv p) x < 0)))
    /\ evaluate_chain C a = (evaluate_chain C b + length rs)%nat.
Proof.
  intros p C a b E L Rg Hab. destruct (chain_spec p C E L Rg) as (l & M & S & Cont).
  destruct (sturm (peval p) (peval (deriv p)) l Cont (peval_derivable p) S a b ltac:(lra)) as (rs & N & I & V).
  exists rs. split; auto. split.
  - intro x. rewrite I. unfold charged. split.
    + intros [Z [H|[(-> & _ & H)|(-> & _ & H)]]]; split; auto.
    + intros [Z [H|[(-> & H)|(-> & H)]]]; split; auto.
  - rewrite !(evaluate_chain_V p C E L Rg l M). exact V.
Qed.
(** The second row is the derivative and every further row is minus the
    remainder of the two rows before it. *)
Theorem C32_chain_rows : forall p C, sturm_chain p = Some C -> (2 <= length p)%nat -> regular C ->
  length C = length p
  /\ (forall x, derivable_pt_lim (peval (nth 0 C [])) x (peval (nth 1 C []) x))
  /\ nth 0 C [] = p
  /\ (forall i, (i + 2 < length C)%nat -> (length (nth (i + 2) C []) < length (nth (i + 1) C []))%nat /\
        exists q : R -> R, forall x, peval (nth i C []) x = q x * peval (nth (i + 1) C []) x - peval (nth (i + 2) C []) x).
Proof.
  intros p C E L Rg. pose proof (chain_len p C E L) as Lc. split; auto.
  unfold sturm_chain in E. destruct p as [|a [|b p]]; cbn [length] in L; try lia.
  set (q := a :: b :: p) in *.
  destruct (chain_rows (length q - 2) q (deriv q)) as [l|] eqn:Ec; [|discriminate]. injection E as <-. cbn [nth].
  split; [apply peval_derivable|]. split; auto. clear Lc.
  assert (Ld : length q = Datatypes.S (length (deriv q))) by (rewrite deriv_length; cbn; lia).
  assert (Ln : (length (deriv q) = Datatypes.S (length q - 2))%nat) by (rewrite deriv_length; cbn; lia).
  revert Ec Ld Ln.
  cut (forall n p1 p2 l, chain_rows n p1 p2 = Some l -> length p1 = Datatypes.S (length p2) -> length p2 = Datatypes.S n ->
    forall i, (i + 2 < length (p1 :: p2 :: l))%nat -> (length (nth (i + 2) (p1 :: p2 :: l) []) < length (nth (i + 1) (p1 :: p2 :: l) []))%nat /\
    exists Q : R -> R, forall x, peval (nth i (p1 :: p2 :: l) []) x = Q x * peval (nth (i + 1) (p1 :: p2 :: l) []) x - peval (nth (i + 2) (p1 :: p2 :: l) []) x).
  { intros K Ec Ld Ln. exact (K _ _ _ _ Ec Ld Ln). }
  clear. induction n as [|n IH]; intros p1 p2 l Ec Ld Ln i Hi; cbn [chain_rows] in Ec.
  - injection Ec as <-. cbn [length] in Hi. lia.
  - destruct (negated_remainder p1 p2) as [r|] eqn:En; [|discriminate].
    destruct (negrem_spec p1 p2 r Ld En) as (Hb & Lr & N0 & N1 & Q & HQ).
    destruct (chain_rows n p2 (skipn 2 r)) as [l'|] eqn:Er; [|discriminate].
    assert (El : l = skipn 2 r :: l') by congruence. rewrite El in *. clear El Ec.
    assert (Ls : length (skipn 2 r) = Datatypes.S n) by (rewrite skipn_length; lia).
    destruct i as [|i].
    + cbn [nth Nat.add]. split; [lia|]. exists Q. intro x. rewrite peval_skip2 by auto. rewrite HQ. ring.
    + specialize (IH p2 (skipn 2 r) l' Er ltac:(lia) ltac:(lia) i ltac:(cbn [length] in *; lia)). exact IH.
Qed.

Definition cubic : list R := [1; 0; -1; 0].     (* x^3 - x *)
Definition cubic_chain : list (list R) := [[1; 0; -1; 0]; [3; 0; -1]; [2/3; 0]; [1]].
Ltac chain_step := match goal with |- context [Req_EM_T ?a ?b] => destruct (Req_EM_T a b); [exfalso; lra|] end.
Ltac lists := repeat match goal with |- Some _ = Some _ => apply f_equal | |- _ :: _ = _ :: _ => apply f_equal2 | |- [] = [] => reflexivity end.
Lemma cubic_ok : sturm_chain cubic = Some cubic_chain /\ regular cubic_chain.
Proof.
  split.
  - unfold sturm_chain, cubic. cbn. repeat (chain_step; cbn). unfold cubic_chain. lists; field.
  - repeat constructor; cbn; lra.
Qed.
Lemma cubic_at x : evaluate_chain cubic_chain x =
  changes (pos (x ^ 3 - x)) [3 * x ^ 2 - 1; 2/3 * x; 1].
Proof.
  unfold evaluate_chain, cubic_chain. cbn [map]. rewrite !row_value_eval. cbn [peval length pow].
  assert (E1 : 1 * (x * (x * (x * 1))) + (0 * (x * (x * 1)) + (-1 * (x * 1) + (0 * 1 + 0))) = x ^ 3 - x) by ring.
  rewrite E1. unfold pos. apply f_equal. lists; ring.
Qed.
Example C32_nonvacuous :
  sturm_chain cubic = Some cubic_chain /\ regular cubic_chain /\ peval cubic (-2) <> 0 /\ peval cubic (1/2) <> 0 /\
  evaluate_chain cubic_chain (-2) = 3%nat /\ evaluate_chain cubic_chain (1/2) = 1%nat.
Proof.
  destruct cubic_ok as [H1 H2]. split; auto. split; auto. split; [cbn; lra|]. split; [cbn; lra|]. split.
  - rewrite cubic_at. rewrite pos_false by lra. rewrite changes_pos, changes_neg, changes_pos by lra. reflexivity.
  - rewrite cubic_at. rewrite pos_false by lra. rewrite changes_neg, changes_pos, changes_pos by lra. reflexivity.
Qed.
(** A polynomial without multiple roots whose chain cannot be built: x^4 - 1
    (a row starts with 0 and is divided by). *)
Theorem C32_incomplete_chain_refuted : sturm_chain [1; 0; 0; 0; -1] = None
  /\ forall x, peval [1; 0; 0; 0; -1] x = x ^ 4 - 1.
Proof.
  split; [|intro; cbn; ring]. unfold sturm_chain. cbn. chain_step. cbn.
  match goal with |- context [Req_EM_T ?a 0] => destruct (Req_EM_T a 0) as [|N]; [reflexivity|exfalso; apply N; field] end.
Qed.

(** * C34 *)
Theorem C34_bound : forall p B, lagrangian_bound p = Some B -> (3 <= length p)%nat ->
  forall x, peval p x = 0 -> - B <= x <= B.
Proof. intros p B E L x Z. pose proof (root_bound p B x E L Z) as H. unfold Rabs in H. destruct (Rcase_abs x); lra. Qed.
Theorem C34_bound_defined : forall p, (3 <= length p)%nat -> hd 0 p <> 0 -> exists B, lagrangian_bound p = Some B /\ 0 <= B.
Proof.
  intros p L N. destruct p as [|a0 r]; cbn [length hd] in *; [lia|].
  assert (Ex : exists B, lagrangian_bound (a0 :: r) = Some B).
  { cbn [lagrangian_bound]. destruct (Req_EM_T a0 0); [contradiction|]. destruct (argmax _ _ _ _). eauto. }
  destruct Ex as (B & E). exists B. split; auto.
  destruct (lagrangian_bound_spec _ B E ltac:(cbn [length]; lia)) as (a & r' & j & m1 & m2 & _ & _ & -> & H & _). lra.
Qed.
Lemma rpow_0 y : rpow (Rabs (0 / 1)) y = 0.
Proof. unfold rpow. replace (0 / 1) with 0 by field. rewrite Rabs_R0. destruct (Req_EM_T 0 0); auto. contradiction. Qed.
Lemma rpow_1' y : rpow (Rabs (-1 / 1)) y = 1.
Proof.
  unfold rpow. replace (-1 / 1) with (-1) by field. replace (-1) with (- (1)) by ring. rewrite Rabs_Ropp, Rabs_R1.
  destruct (Req_EM_T 1 0); [lra|]. unfold Rpower. rewrite ln_1, Rmult_0_r. apply exp_0.
Qed.
Ltac gts := repeat match goal with |- context [Rgt_dec ?a ?b] => destruct (Rgt_dec a b); [try (exfalso; lra)|try (exfalso; lra)] end.
Lemma bound_quad : lagrangian_bound [1; 0; -1] = Some 1.
Proof.
  cbn [lagrangian_bound]. destruct (Req_EM_T 1 0); [lra|]. cbn [bound_terms].
  rewrite rpow_0, rpow_1'. cbn [argmax]. gts. cbn [set_nth maximum]. gts. f_equal. ring.
Qed.
Lemma bound_cubic : lagrangian_bound cubic = Some 1.
Proof.
  unfold cubic. cbn [lagrangian_bound]. destruct (Req_EM_T 1 0); [lra|]. cbn [bound_terms].
  rewrite !rpow_0, rpow_1'. cbn [argmax]. gts. cbn [set_nth maximum]. gts. f_equal. ring.
Qed.
Example C34_nonvacuous : lagrangian_bound cubic = Some 1 /\ peval cubic 1 = 0 /\ peval cubic (-1) = 0.
Proof. split; [apply bound_cubic|]. cbn. lra. Qed.
(** Degree 1: x - 1/2 has the "bound" -1/2 and the root 1/2. *)
Theorem C34_degree_one_refuted : lagrangian_bound [2; -1] = Some (-1/2) /\ peval [2; -1] (1/2) = 0.
Proof.
  split; [|cbn; lra]. cbn [lagrangian_bound]. destruct (Req_EM_T 2 0); [lra|]. cbn [bound_terms].
  assert (E : rpow (Rabs (-1 / 2)) (1 / INR 1) = 1/2).
  { unfold rpow. replace (-1 / 2) with (- (1/2)) by field. rewrite Rabs_Ropp, Rabs_pos_eq by lra.
    destruct (Req_EM_T (1/2) 0); [lra|]. cbn [INR]. replace (1 / 1) with 1 by field. apply Rpower_1. lra. }
  rewrite E. cbn [argmax]. gts. cbn [set_nth maximum]. gts. f_equal. lra.
Qed.

(** * C33 *)
(** all real roots of p *)
Definition all_roots (p : list R) (rs : list R) : Prop := NoDup rs /\ forall x, In x rs <-> peval p x = 0.

Lemma initial_good (p : list R) C B : 0 < B -> good C (initial_bracket C B).
Proof. intro H. unfold good, initial_bracket. cbn. repeat split; auto. lra. Qed.
Lemma initial_roots p C B rs : lagrangian_bound p = Some B -> (3 <= length p)%nat -> peval p B <> 0 -> peval p (- B) <> 0 ->
  (root_list p (initial_bracket C B) rs <-> all_roots p rs).
Proof.
  intros E L H1 H2. unfold root_list, all_roots, owns, charged, initial_bracket. cbn [b_lo b_hi].
  assert (K : forall x, peval p x = 0 <-> peval p x = 0 /\ (- B < x < B \/ x = - B /\ - B < B /\ 0 < peval (deriv p) (- B) \/ x = B /\ - B < B /\ peval (deriv p) B < 0)).
  { intro x. split; [|tauto]. intro Z. split; auto. left. pose proof (C34_bound p B E L x Z) as [A1 A2].
    split; [destruct A1|destruct A2]; auto; exfalso; subst; contradiction. }
  split; intros [N I]; split; auto; intro x; rewrite I; [symmetry; apply K|apply K].
Qed.
Lemma bound_pos p B : lagrangian_bound p = Some B -> (3 <= length p)%nat -> peval p B <> 0 -> 0 < B.
Proof.
  intros E L N. destruct (lagrangian_bound_spec p B E L) as (a & r & j & m1 & m2 & -> & _ & -> & H & Hj & Nj & Ni).
  destruct (Rle_lt_or_eq_dec 0 (m1 + m2) ltac:(lra)) as [|Z]; auto. exfalso. apply N. rewrite <- Z.
  assert (m1 = 0 /\ m2 = 0) as [-> ->] by lra.
  assert (Zr : forall c, In c r -> c = 0).
  { intros c Hc. destruct (In_nth r c 0 Hc) as (i & Hi & <-).
    assert (Nt : nth i (bound_terms a 0 r) 0 = rpow (Rabs (nth i r 0 / a)) (1 / INR (S (0 + i)))).
    { revert Hi. generalize 0%nat. clear. revert i. induction r as [|c r IH]; intros i k Hi; [cbn in Hi; lia|].
      destruct i as [|i]; cbn [bound_terms nth]; [now rewrite Nat.add_0_r|]. cbn [length] in Hi. rewrite IH by lia. now rewrite Nat.add_succ_comm. }
    assert (T0 : nth i (bound_terms a 0 r) 0 <= 0) by (destruct (Nat.eq_dec i j) as [->|Ne]; [rewrite Nj; lra|apply Ni; auto]).
    rewrite Nt in T0. pose proof (rpow_root (Rabs (nth i r 0 / a)) (0 + i) (Rabs_pos _)) as P.
    pose proof (rpow_nonneg (Rabs (nth i r 0 / a)) (1 / INR (S (0 + i)))) as Q.
    replace (rpow (Rabs (nth i r 0 / a)) (1 / INR (S (0 + i)))) with 0 in P by lra.
    rewrite pow_ne_zero in P by lia. symmetry in P. destruct (Req_dec (nth i r 0) 0); auto. exfalso.
    apply Rabs_no_R0 in P; auto. unfold Rdiv. apply Rmult_integral_contrapositive_currified; auto.
    apply Rinv_neq_0_compat. destruct (Req_dec a 0); auto. subst. cbn in E. destruct (Req_EM_T 0 0); [discriminate|contradiction]. }
  cbn [peval]. assert (peval r 0 = 0).
  { clear - Zr. induction r as [|c r IH]; auto. cbn [peval]. rewrite (Zr c) by now left. rewrite IH; [ring|]. intros; apply Zr; now right. }
  rewrite H0. destruct r as [|c r]; [cbn in L; lia|]. cbn. ring.
Qed.

Lemma width_enough g w : 0 < g -> exists k, w < g * 2 ^ k.
Proof.
  intro Hg. destruct (archimed (w / g)) as [A _]. set (n := Z.to_nat (up (w / g))).
  exists n. assert (B : w / g < INR n \/ w <= 0).
  { destruct (Rle_dec w 0); [now right|left]. unfold n. rewrite INR_IZR_INZ, Z2Nat.id; [lra|].
    apply le_IZR. assert (0 < w / g) by (apply Rdiv_lt_0_compat; lra). lra. }
  assert (P : 0 < 2 ^ n) by (apply pow_lt; lra).
  destruct B as [B|B]; [|nra].
  assert (INR n < 2 ^ n).
  { clear. induction n as [|n IH]; [cbn; lra|]. rewrite S_INR. cbn [pow]. assert (1 <= 2 ^ n) by (apply pow_R1_Rle; lra). lra. }
  assert (w = g * (w / g)) by (field; lra). nra.
Qed.

(** For a regular chain and no root exactly at the bound, bracketRoots ends and
    its values stand, one for one, for the distinct real roots, each closer
    than half the tolerance. *)
Theorem C33_bracketing_complete : forall p C B eps,
  sturm_chain p = Some C -> (3 <= length p)%nat -> (Z.of_nat (length p) < 2 ^ 64)%Z -> regular C ->
  lagrangian_bound p = Some B -> peval p B <> 0 -> peval p (- B) <> 0 -> 0 < eps ->
  exists zs rs fuel0, (forall fuel, (fuel0 <= fuel)%nat -> bracket_roots fuel p eps = Some zs)
    /\ all_roots p rs /\ Forall2 (fun z r => Rabs (z - r) < eps / 2) zs rs.
Proof.
  intros p C B eps E L L64 Rg EB H1 H2 He.
  assert (L2 : (2 <= length p)%nat) by lia. pose proof (bound_pos p B EB L H1) as HB.
  pose proof (initial_good p C B HB) as Gd.
  destruct (good_roots p C E L2 L64 Rg _ Gd) as (rs & Rl & _).
  pose proof (proj1 (initial_roots p C B rs EB L H1 H2) Rl) as [Nd Ir].
  destruct (finite_gap rs Nd) as (g0 & Hg0 & Gap).
  set (g := Rmin g0 eps). assert (Hg : 0 < g <= eps) by (split; [now apply Rmin_glb_lt|apply Rmin_r]).
  assert (Gap' : forall x y, peval p x = 0 -> peval p y = 0 -> - B <= x <= B -> - B <= y <= B -> x <> y -> g <= Rabs (x - y)).
  { intros x y Zx Zy _ _ Ne. eapply Rle_trans; [apply Rmin_l|]. apply Gap; auto; now apply Ir. }
  destruct (width_enough g (B - - B) ltac:(lra)) as (k & Hk).
  assert (St : sorted_stack p C g (- B) B [initial_bracket C B] [rs] (2 ^ S k - 1 + 0)).
  { constructor; auto; cbn; try lra. constructor. }
  destruct (bracket_loop_complete p C E L2 L64 Rg eps g (- B) B Hg Gap' _ _ _ St (2 ^ S k - 1 + 0)%nat [] ltac:(lia)) as (zs & rs' & Eb & P & F).
  cbn [concat app] in P, Eb. rewrite app_nil_r in P.
  exists zs, rs', (2 ^ S k - 1 + 0)%nat. split; [|split; auto].
  - intros fuel Hf. unfold bracket_roots. rewrite E, EB. unfold local_eps. destruct (Rlt_dec eps 0); [lra|].
    eapply bracket_loop_mono'; eauto.
  - split.
    + eapply Permutation_NoDup; [symmetry; exact P|auto].
    + intro x. rewrite <- Ir. split; intro Hx; [exact (Permutation_in _ P Hx)|exact (Permutation_in _ (Permutation_sym P) Hx)].
Qed.
(** The default tolerance (a negative argument) is the bound over ten times
    the number of roots. *)
Theorem C33_bracketing_complete_default : forall p C B eps,
  sturm_chain p = Some C -> (3 <= length p)%nat -> (Z.of_nat (length p) < 2 ^ 64)%Z -> regular C ->
  lagrangian_bound p = Some B -> peval p B <> 0 -> peval p (- B) <> 0 -> eps < 0 ->
  exists zs rs fuel0, (forall fuel, (fuel0 <= fuel)%nat -> bracket_roots fuel p eps = Some zs)
    /\ all_roots p rs /\ Forall2 (fun z r => Rabs (z - r) < B / (20 * INR (length rs))) zs rs.
Proof.
  intros p C B eps E L L64 Rg EB H1 H2 He.
  assert (L2 : (2 <= length p)%nat) by lia. pose proof (bound_pos p B EB L H1) as HB.
  pose proof (initial_good p C B HB) as Gd.
  destruct (good_roots p C E L2 L64 Rg _ Gd) as (rs & Rl & Nr).
  pose proof (proj1 (initial_roots p C B rs EB L H1 H2) Rl) as A.
  destruct rs as [|r0 rs0] eqn:Ers.
  - (* no root: nothing to do *)
    exists [], [], 1%nat. split; [|split; auto]. intros [|fuel] Hf; [lia|]. unfold bracket_roots. rewrite E, EB.
    cbn [bracket_loop]. unfold dividable. rewrite Nr. cbn. now destruct fuel.
  - set (e := B / (10 * IZR (number_roots (initial_bracket C B)))).
    assert (Hn : 0 < IZR (number_roots (initial_bracket C B))) by (rewrite Nr; apply IZR_lt; cbn [length]; lia).
    assert (Hpe : 0 < e) by (apply Rdiv_lt_0_compat; lra).
    destruct (C33_bracketing_complete p C B e E L L64 Rg EB H1 H2 Hpe) as (zs & rs' & f0 & Hf & A' & F).
    exists zs, rs', f0. split; [|split; auto].
    + intros fuel Hfu. specialize (Hf fuel Hfu). unfold bracket_roots in *. rewrite E, EB in *. unfold local_eps in *.
      destruct (Rlt_dec e 0); [lra|]. destruct (Rlt_dec eps 0); [|lra]. exact Hf.
    + assert (Ln : length rs' = length (r0 :: rs0)).
      { apply Permutation_length. destruct A as [N I], A' as [N' I']. apply NoDup_Permutation; auto. intro x. now rewrite I, I'. }
      assert (e / 2 = B / (20 * INR (length rs'))).
      { unfold e. rewrite Ln, Nr, <- INR_IZR_INZ. field. apply not_0_INR. cbn. lia. }
      now rewrite <- H.
Qed.
(** findRoots returns as many values as there are distinct real roots. *)
Theorem C33_find_roots_number : forall p C B,
  sturm_chain p = Some C -> (3 <= length p)%nat -> (Z.of_nat (length p) < 2 ^ 64)%Z -> regular C ->
  lagrangian_bound p = Some B -> peval p B <> 0 -> peval p (- B) <> 0 ->
  exists zs rs fuel0, (forall fuel, (fuel0 <= fuel)%nat -> find_roots fuel p = Some zs)
    /\ all_roots p rs /\ length zs = length rs.
Proof.
  intros p C B E L L64 Rg EB H1 H2.
  destruct (C33_bracketing_complete_default p C B (-1) E L L64 Rg EB H1 H2 ltac:(lra)) as (zs & rs & f0 & Hf & A & F).
  exists (map (newton5 p) zs), rs, f0. split; [|split; auto].
  - intros fuel Hfu. unfold find_roots. now rewrite Hf.
  - rewrite map_length. clear - F. induction F; cbn; auto.
Qed.
(** A Newton correction leaves an exact simple root where it is. *)
Theorem C33_newton_fixes_roots : forall p x, peval p x = 0 -> peval (deriv p) x <> 0 -> newton p x = Some x.
Proof.
  intros p x Z D. unfold newton. rewrite !row_value_eval. destruct (Req_EM_T _ 0); [contradiction|].
  rewrite Z. f_equal. field. auto.
Qed.

(** x^2 - x - 1, bound 2, roots (1 +- sqrt 5)/2. *)
Definition golden : list R := [1; -1; -1].
Definition golden_chain : list (list R) := [[1; -1; -1]; [2; -1]; [5/4]].
Lemma golden_ok : sturm_chain golden = Some golden_chain /\ regular golden_chain.
Proof.
  split.
  - unfold sturm_chain, golden. cbn. repeat (chain_step; cbn). unfold golden_chain. lists; field.
  - repeat constructor; cbn; lra.
Qed.
Lemma bound_golden : lagrangian_bound golden = Some 2.
Proof.
  unfold golden. cbn [lagrangian_bound]. destruct (Req_EM_T 1 0); [lra|]. cbn [bound_terms].
  rewrite !rpow_1'. cbn [argmax]. gts. cbn [set_nth maximum]. gts. apply f_equal. ring.
Qed.
Example C33_nonvacuous : sturm_chain golden = Some golden_chain /\ regular golden_chain /\ lagrangian_bound golden = Some 2
  /\ peval golden 2 <> 0 /\ peval golden (- 2) <> 0.
Proof. destruct golden_ok. repeat split; auto; [apply bound_golden| |]; cbn; lra. Qed.

(** Roots exactly at the bound can be lost: x^2 - 1 is reported rootless. *)
Theorem C33_root_on_bound_refuted : (forall fuel, bracket_roots (S fuel) [1; 0; -1] (1/10) = Some [])
  /\ peval [1; 0; -1] 1 = 0 /\ peval [1; 0; -1] (-1) = 0
  /\ exists C, sturm_chain [1; 0; -1] = Some C /\ regular C.
Proof.
  assert (E : sturm_chain [1; 0; -1] = Some [[1; 0; -1]; [2; 0]; [1]]).
  { unfold sturm_chain. cbn. repeat (chain_step; cbn). lists; field. }
  split; [|split; [cbn; lra|split; [cbn; lra|]]].
  - intro fuel. unfold bracket_roots. rewrite E, bound_quad.
    assert (N : number_roots (initial_bracket [[1; 0; -1]; [2; 0]; [1]] 1) = 0%Z).
    { unfold initial_bracket, number_roots, evaluate_chain. cbn [b_lo_changes b_hi_changes map]. rewrite !row_value_eval.
      assert (A1 : peval [1; 0; -1] (- (1)) = 0) by (cbn; ring). assert (A2 : peval [1; 0; -1] 1 = 0) by (cbn; ring).
      assert (A3 : peval [2; 0] (- (1)) = -2) by (cbn; ring). assert (A4 : peval [2; 0] 1 = 2) by (cbn; ring).
      assert (A5 : forall x, peval [1] x = 1) by (intro; cbn; ring).
      rewrite A1, A2, A3, A4, !A5. destruct (Rgt_dec 0 0); [lra|].
      rewrite (changes_neg _ (-2)), (changes_pos _ 2), !(changes_pos _ 1) by lra. reflexivity. }
    cbn [bracket_loop]. unfold dividable. rewrite N. cbn. now destruct fuel.
  - eexists. split; [exact E|]. repeat constructor; cbn; lra.
Qed.

(** * C35 *)
(** If findRoots2 returns, its values stand one for one for the real roots:
    each lies in an interval containing no other root, and is closer than
    eps_x/2 to the root or has a residual below eps_val. *)
Theorem C35_results : forall p C B eps_x eps_val fuel zs,
  sturm_chain p = Some C -> (3 <= length p)%nat -> (Z.of_nat (length p) < 2 ^ 64)%Z -> regular C ->
  lagrangian_bound p = Some B -> peval p B <> 0 -> peval p (- B) <> 0 ->
  find_roots2 fuel p eps_x eps_val = Some zs ->
  exists rs, all_roots p rs /\
    Forall2 (fun z r => exists lo hi, lo <= z <= hi /\ lo <= r <= hi /\ (forall x, lo < x < hi -> peval p x = 0 -> x = r)
               /\ (Rabs (z - r) < eps_x / 2 \/ Rabs (peval p z) < eps_val)) zs rs.
Proof.
  intros p C B eps_x eps_val fuel zs E L L64 Rg EB H1 H2 Ef.
  assert (L2 : (2 <= length p)%nat) by lia. pose proof (bound_pos p B EB L H1) as HB.
  pose proof (initial_good p C B HB) as Gd.
  destruct (good_roots p C E L2 L64 Rg _ Gd) as (rs & Rl & _).
  pose proof (proj1 (initial_roots p C B rs EB L H1 H2) Rl) as [Nd Ir].
  unfold find_roots2 in Ef. rewrite E, EB in Ef.
  destruct (roots2_partial p C E L2 L64 Rg eps_x eps_val fuel [initial_bracket C B] [rs] [] zs) as (zs' & rs' & -> & P & F); auto.
  { constructor; auto. }
  cbn [concat app] in P. rewrite app_nil_r in P.
  exists rs'. split; [|exact F]. split.
  - eapply Permutation_NoDup; [symmetry; exact P|auto].
  - intro x. rewrite <- Ir. split; intro Hx; [exact (Permutation_in _ P Hx)|exact (Permutation_in _ (Permutation_sym P) Hx)].
Qed.
(** It returns if every Newton loop started from the middle of a bracket ends. *)
Theorem C35_terminates_if_newton_does : forall p C B eps_x eps_val,
  sturm_chain p = Some C -> (3 <= length p)%nat -> (Z.of_nat (length p) < 2 ^ 64)%Z -> regular C ->
  lagrangian_bound p = Some B -> peval p B <> 0 -> peval p (- B) <> 0 -> 0 < eps_x ->
  (forall lo hi, - B <= lo -> lo < hi -> hi <= B ->
     exists n, polish p eps_val lo hi n (Some (1/2 * (lo + hi)), Some (peval p (1/2 * (lo + hi)))) <> None) ->
  exists fuel0 zs, forall fuel, (fuel0 <= fuel)%nat -> find_roots2 fuel p eps_x eps_val = Some zs.
Proof.
  intros p C B eps_x eps_val E L L64 Rg EB H1 H2 He Hp.
  assert (L2 : (2 <= length p)%nat) by lia. pose proof (bound_pos p B EB L H1) as HB.
  pose proof (initial_good p C B HB) as Gd.
  destruct (good_roots p C E L2 L64 Rg _ Gd) as (rs & Rl & _).
  pose proof (proj1 (initial_roots p C B rs EB L H1 H2) Rl) as [Nd Ir].
  destruct (finite_gap rs Nd) as (g0 & Hg0 & Gap).
  set (g := Rmin g0 eps_x). assert (Hg : 0 < g <= eps_x) by (split; [now apply Rmin_glb_lt|apply Rmin_r]).
  assert (Gap' : forall x y, peval p x = 0 -> peval p y = 0 -> - B <= x <= B -> - B <= y <= B -> x <> y -> g <= Rabs (x - y)).
  { intros x y Zx Zy _ _ Ne. eapply Rle_trans; [apply Rmin_l|]. apply Gap; auto; now apply Ir. }
  destruct (width_enough g (B - - B) ltac:(lra)) as (k & Hk).
  assert (St : sorted_stack p C g (- B) B [initial_bracket C B] [rs] (2 ^ S k - 1 + 0)).
  { constructor; auto; cbn; try lra. constructor. }
  assert (Hp' : forall b, - B <= b_lo b -> b_hi b <= B -> b_lo b < b_hi b -> exists n, polishing p eps_val n b <> None).
  { intros b X1 X2 X3. destruct (Hp (b_lo b) (b_hi b) X1 X3 X2) as (n & Hn). exists n. unfold polishing, midpoint. now rewrite row_value_eval. }
  destruct (roots2_halts p C E L2 L64 Rg eps_x eps_val g (- B) B Hg Gap' Hp' _ _ _ St []) as (f0 & zs & Hf).
  exists f0, zs. intros fuel Hfu. unfold find_roots2. rewrite E, EB. auto.
Qed.

(** The Newton loop need not end: x^5+5x^4+6x^3-2x^2+4x+8 has a single, simple
    real root (-1) and a regular chain, but starting from the middle 0 of the
    first bracket Newton jumps 0, -2, 0, -2, ... with |value| = 8 for ever. *)
Definition cycling : list R := [1; 5; 6; -2; 4; 8].
Definition cycling_chain : list (list R) :=
  [[1; 5; 6; -2; 4; 8]; [5; 20; 18; -4; 4]; [8/5; 24/5; -4; -36/5]; [-31/2; -31; -53/2]; [308/31; 308/31]; [11]].
Lemma chain_rows_step n p1 p2 r l : negated_remainder p1 p2 = Some (0 :: 0 :: r) -> chain_rows n p2 r = Some l ->
  chain_rows (S n) p1 p2 = Some (r :: l).
Proof. intros H1 H2. cbn [chain_rows]. rewrite H1. cbn [skipn]. now rewrite H2. Qed.
Lemma negrem_1 : negated_remainder [1; 5; 6; -2; 4; 8] [5; 20; 18; -4; 4] = Some [0; 0; 8/5; 24/5; -4; -36/5].
Proof. cbn. chain_step. lists; field. Qed.
Lemma negrem_2 : negated_remainder [5; 20; 18; -4; 4] [8/5; 24/5; -4; -36/5] = Some [0; 0; -31/2; -31; -53/2].
Proof. cbn. chain_step. lists; field. Qed.
Lemma negrem_3 : negated_remainder [8/5; 24/5; -4; -36/5] [-31/2; -31; -53/2] = Some [0; 0; 308/31; 308/31].
Proof. cbn. chain_step. lists; field. Qed.
Lemma negrem_4 : negated_remainder [-31/2; -31; -53/2] [308/31; 308/31] = Some [0; 0; 11].
Proof. cbn. chain_step. lists; field. Qed.
Lemma cycling_ok : sturm_chain cycling = Some cycling_chain /\ regular cycling_chain.
Proof.
  split.
  - assert (D : deriv cycling = [5; 20; 18; -4; 4]) by (unfold cycling; cbn; lists; ring).
    unfold sturm_chain. unfold cycling at 1. rewrite D. change (length cycling - 2)%nat with 4%nat. unfold cycling.
    rewrite (chain_rows_step 3 _ _ _ [[-31/2; -31; -53/2]; [308/31; 308/31]; [11]] negrem_1); [reflexivity|].
    apply (chain_rows_step 2 _ _ _ _ negrem_2), (chain_rows_step 1 _ _ _ _ negrem_3), (chain_rows_step 0 _ _ _ _ negrem_4). reflexivity.
  - repeat constructor; cbn; lra.
Qed.
Lemma cycling_root x : peval cycling x = 0 <-> x = -1.
Proof.
  assert (F : peval cycling x = (x + 1) * (((x + 1) ^ 2 - 2) ^ 2 + 7)) by (cbn; ring).
  rewrite F. split.
  - intro H. apply Rmult_integral in H. destruct H as [H|H]; [lra|]. exfalso.
    assert (0 <= ((x + 1) ^ 2 - 2) ^ 2) by (rewrite <- Rsqr_pow2; apply Rle_0_sqr). lra.
  - intros ->. ring.
Qed.
Theorem C35_termination_refuted : sturm_chain cycling = Some cycling_chain /\ regular cycling_chain
  /\ (forall x, peval cycling x = 0 <-> x = -1)
  /\ forall eps_x eps_val, eps_x <= 10 -> eps_val <= 8 -> forall fuel, find_roots2 fuel cycling eps_x eps_val = None.
Proof.
  destruct cycling_ok as [E Rg]. split; auto. split; auto. split; [apply cycling_root|].
  intros eps_x eps_val Hx Hv fuel.
  destruct (C34_bound_defined cycling ltac:(cbn; lia) ltac:(cbn; lra)) as (B & EB & _).
  assert (HB : 5 <= B).
  { destruct (lagrangian_bound_spec _ B EB ltac:(cbn; lia)) as (a & r & j & m1 & m2 & Ep & _ & -> & H & Hj & Nj & Ni).
    unfold cycling in Ep. injection Ep as <- <-.
    assert (T0 : nth 0 (bound_terms 1 0 [5; 6; -2; 4; 8]) 0 = 5).
    { cbn [bound_terms nth]. unfold rpow. replace (5 / 1) with 5 by field. rewrite Rabs_pos_eq by lra.
      destruct (Req_EM_T 5 0); [lra|]. cbn [INR]. replace (1 / 1) with 1 by field. apply Rpower_1. lra. }
    destruct j as [|j]; [lra|]. specialize (Ni 0%nat ltac:(lia) ltac:(cbn; lia)). lra. }
  pose proof (initial_good cycling cycling_chain B ltac:(lra)) as Gd.
  assert (L64 : (Z.of_nat (length cycling) < 2 ^ 64)%Z) by reflexivity.
  assert (Rl : root_list cycling (initial_bracket cycling_chain B) [-1]).
  { split; [constructor; [intros []|constructor]|]. intro x. unfold owns, charged, initial_bracket. cbn [b_lo b_hi]. rewrite cycling_root. split.
    - intros [<-|[]]. split; auto. left. lra.
    - intros [-> _]. now left. }
  pose proof (good_number cycling cycling_chain E ltac:(cbn; lia) L64 Rg _ _ Gd Rl) as Nr. cbn in Nr.
  unfold find_roots2. rewrite E, EB. destruct fuel as [|fuel]; [reflexivity|]. cbn [roots2_loop].
  assert (D : dividable eps_x (initial_bracket cycling_chain B) = true).
  { unfold dividable. rewrite Nr. cbn [Z.eqb Pos.eqb]. unfold center. cbn [initial_bracket b_hi b_lo].
    destruct (Rlt_dec (B - - B) eps_x); [lra|]. cbn [andb].
    destruct (Req_EM_T _ B); [lra|]. destruct (Req_EM_T _ (- B)); [lra|]. reflexivity. }
  rewrite D, Nr. cbn [Z.eqb Pos.eqb]. rewrite row_value_eval. cbn [initial_bracket b_lo b_hi].
  replace (midpoint (initial_bracket cycling_chain B)) with 0 by (unfold midpoint; cbn; field).
  assert (V0 : peval cycling 0 = 8) by (cbn; ring). assert (V2 : peval cycling (-2) = -8) by (cbn; ring).
  assert (D0 : peval (deriv cycling) 0 = 4) by (cbn; ring). assert (D2 : peval (deriv cycling) (-2) = 4) by (cbn; ring).
  assert (Cyc : forall n, polish cycling eps_val (- B) B n (Some 0, Some 8) = None /\ polish cycling eps_val (- B) B n (Some (-2), Some (-8)) = None).
  { induction n as [|n [I1 I2]]; [auto|]. split; cbn [polish]; unfold polish_step; rewrite !row_value_eval.
    - rewrite D0. destruct (Req_EM_T 4 0); [lra|]. replace (0 - 8 / 4) with (-2) by field.
      destruct (Rlt_dec (-2) (- B)); [lra|]. destruct (Rgt_dec (-2) B); [lra|]. rewrite V2.
      replace (Rabs (-8)) with 8 by (rewrite Rabs_left; lra). rewrite Rabs_pos_eq by lra.
      destruct (Rgt_dec 8 8); [lra|]. destruct (Rlt_dec 8 eps_val); [lra|]. exact I2.
    - rewrite D2. destruct (Req_EM_T 4 0); [lra|]. replace (-2 - -8 / 4) with 0 by field.
      destruct (Rlt_dec 0 (- B)); [lra|]. destruct (Rgt_dec 0 B); [lra|]. rewrite V0.
      replace (Rabs (-8)) with 8 by (rewrite Rabs_left; lra). rewrite Rabs_pos_eq by lra.
      destruct (Rgt_dec 8 8); [lra|]. destruct (Rlt_dec 8 eps_val); [lra|]. exact I1. }
  rewrite V0. rewrite (proj1 (Cyc fuel)). reflexivity.
Qed.
