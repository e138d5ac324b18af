(** The bracketing loop with built-in polishing (findRoots2). *)
From Coq Require Import Reals Lra Psatz List Lia Permutation Classical ZArith.
From Verif Require Import SturmModel SturmProofs SturmBoundProofs.
Import ListNotations.
Local Open Scope R_scope.

Lemma polish_result p eps_val lo hi : forall fuel s r, polish p eps_val lo hi fuel s = Some (Some r) ->
  lo <= r <= hi /\ Rabs (peval p r) < eps_val.
Proof.
  induction fuel as [|fuel IH]; intros s r H; cbn [polish] in H; [discriminate|].
  destruct (polish_step p eps_val lo hi s) as [o|s'] eqn:E; [|eauto].
  injection H as ->. unfold polish_step in E. destruct s as [[x|] [v|]]; try discriminate.
  destruct (Req_EM_T _ 0); [destruct (Req_EM_T v 0); discriminate|].
  destruct (Rlt_dec _ lo); [discriminate|]. destruct (Rgt_dec _ hi); [discriminate|].
  destruct (Rgt_dec _ (Rabs v)); [discriminate|]. destruct (Rlt_dec _ eps_val) as [L|]; [|discriminate].
  injection E as E. rewrite E in *. rewrite row_value_eval in L. split; lra.
Qed.
Lemma polish_mono p eps_val lo hi : forall fuel s r, polish p eps_val lo hi fuel s = Some r ->
  polish p eps_val lo hi (S fuel) s = Some r.
Proof.
  induction fuel as [|fuel IH]; intros s r H; [discriminate|].
  cbn [polish] in H. change (polish p eps_val lo hi (S (S fuel)) s) with
    (match polish_step p eps_val lo hi s with inl r => Some r | inr s' => polish p eps_val lo hi (S fuel) s' end).
  destruct (polish_step p eps_val lo hi s) as [o|s']; auto.
Qed.
Lemma polish_mono' p eps_val lo hi s r f1 f2 : (f1 <= f2)%nat -> polish p eps_val lo hi f1 s = Some r -> polish p eps_val lo hi f2 s = Some r.
Proof. induction 1; auto. intro. apply polish_mono; auto. Qed.

Definition polishing (p : list R) (eps_val : R) (fuel : nat) (b : bracket) : option (option R) :=
  polish p eps_val (b_lo b) (b_hi b) fuel (Some (midpoint b), Some (row_value p (midpoint b))).

Section Roots2.
Variables (p : list R) (C : list (list R)).
Hypothesis Hchain : sturm_chain p = Some C.
Hypothesis Hlen : (2 <= length p)%nat.
Hypothesis Hlen64 : (Z.of_nat (length p) < 2 ^ 64)%Z.
Hypothesis Hreg : regular C.
Variables (eps_x eps_val : R).

(** [z] stands for the root [r]: both lie in an interval that has no other
    root inside, and the interval is narrow or the polynomial is small at z. *)
Definition stands_for (z r : R) : Prop :=
  exists lo hi, lo <= z <= hi /\ lo <= r <= hi /\ (forall x, lo < x < hi -> peval p x = 0 -> x = r)
    /\ (Rabs (z - r) < eps_x / 2 \/ Rabs (peval p z) < eps_val).

Lemma owned_alone b x y : root_list p b [x] -> b_lo b < y < b_hi b -> peval p y = 0 -> y = x.
Proof. intros [_ I] H Z. assert (K : In y [x]) by (apply I; split; auto). destruct K as [K|[]]. auto. Qed.

Definition stack_roots (stack : list bracket) (ls : list (list R)) : Prop :=
  Forall2 (fun b rs => good C b /\ root_list p b rs) stack ls.

Lemma roots2_partial : forall fuel stack ls roots out, stack_roots stack ls ->
  roots2_loop p C eps_x eps_val fuel stack roots = Some out ->
  exists zs rs, out = roots ++ zs /\ Permutation rs (concat ls) /\ Forall2 stands_for zs rs.
Proof.
  induction fuel as [|fuel IH]; intros stack ls roots out St E.
  - destruct St as [|b rs stack ls [Gd Rl] St]; [|discriminate].
    injection E as <-. exists [], []. rewrite app_nil_r. auto.
  - destruct St as [|b rs stack ls [Gd Rl] St].
    { injection E as <-. exists [], []. rewrite app_nil_r. auto. }
    cbn [roots2_loop] in E.
    assert (Hdiv : (let (l, u) := split C b in roots2_loop p C eps_x eps_val fuel (stack ++ [l; u]) roots) = Some out ->
      exists zs rs0, out = roots ++ zs /\ Permutation rs0 (concat (rs :: ls)) /\ Forall2 stands_for zs rs0).
    { intro D. destruct (split_roots p C Hchain Hlen Hlen64 Hreg b rs Gd Rl) as (rl & ru & R1 & R2 & P).
      destruct (split_good C b Gd) as [G1 G2]. destruct (split C b) as [l u]. cbn [fst snd] in *.
      assert (St' : stack_roots (stack ++ [l; u]) (ls ++ [rl; ru])).
      { apply Forall2_app; auto. }
      destruct (IH _ _ _ _ St' D) as (zs & rs' & -> & P' & F). exists zs, rs'. split; auto. split; auto.
      rewrite P', concat_app. cbn [concat]. rewrite app_nil_r, P. apply Permutation_app_comm. }
    rewrite (good_number p C Hchain Hlen Hlen64 Hreg b rs Gd Rl) in E.
    destruct (dividable eps_x b) eqn:D.
    + destruct (Z.eqb_spec (Z.of_nat (length rs)) 1) as [N1|N1]; [|auto].
      destruct rs as [|x [|]]; cbn [length] in N1; try lia. fold (polishing p eps_val fuel b) in E.
      destruct (polishing p eps_val fuel b) as [[z|]|] eqn:Ep; [| |discriminate]; [|auto].
      destruct (IH _ _ _ _ St E) as (zs & rs' & -> & P' & F).
      exists (z :: zs), (x :: rs'). rewrite <- app_assoc. split; auto. split; [cbn; now constructor|].
      constructor; auto. destruct (polish_result _ _ _ _ _ _ _ Ep) as [Hz Hv].
      exists (b_lo b), (b_hi b). split; auto. destruct (owns_in p C b x Gd) as [Hx _]; [apply Rl; now left|].
      split; auto. split; auto. intros y Hy Z. eapply owned_alone; eauto.
    + destruct (dividable_false p C Hchain Hlen Hlen64 Hreg eps_x b rs Gd Rl D) as [->|(x & -> & Hw)].
      * cbn [length Z.of_nat Z.gtb Z.compare] in E. destruct (IH _ _ _ _ St E) as (zs & rs' & -> & P' & F). exists zs, rs'. auto.
      * cbn [length Z.of_nat Z.gtb Z.compare Pos.of_succ_nat] in E. destruct (IH _ _ _ _ St E) as (zs & rs' & -> & P' & F).
        exists (midpoint b :: zs), (x :: rs'). rewrite <- app_assoc. split; auto. split; [cbn; now constructor|].
        constructor; auto. destruct (owns_in p C b x Gd) as [Hx _]; [apply Rl; now left|]. pose proof Gd as (Hlt & _).
        exists (b_lo b), (b_hi b). split; [unfold midpoint; lra|]. split; auto. split; [intros y Hy Z; eapply owned_alone; eauto|].
        left. unfold midpoint, Rabs. destruct (Rcase_abs _); lra.
Qed.

(** If every polishing loop ends, so does the whole search. *)
Variable g lo0 hi0 : R.
Hypothesis Heps : 0 < eps_x.
Hypothesis Hg : 0 < g <= eps_x.
Hypothesis Hgap : forall x y, peval p x = 0 -> peval p y = 0 -> lo0 <= x <= hi0 -> lo0 <= y <= hi0 -> x <> y -> g <= Rabs (x - y).
Hypothesis Hpolish : forall b, lo0 <= b_lo b -> b_hi b <= hi0 -> b_lo b < b_hi b -> exists n, polishing p eps_val n b <> None.

Lemma roots2_halts : forall m stack ls, sorted_stack p C g lo0 hi0 stack ls m -> forall roots,
  exists fuel0 out, forall fuel, (fuel0 <= fuel)%nat -> roots2_loop p C eps_x eps_val fuel stack roots = Some out.
Proof.
  induction m as [m IH] using lt_wf_ind. intros stack ls St roots.
  destruct St as [|b rs k stack ls m Gd H1 H2 Rl Hw St].
  - exists 0%nat, roots. intros [|fuel] _; reflexivity.
  - assert (P2 : (2 <= 2 ^ S k)%nat) by (cbn; pose proof (Nat.pow_nonzero 2 k ltac:(lia)); lia).
    destruct (dividable eps_x b) eqn:D.
    + destruct (halving_needed p C Hchain Hlen Hlen64 Hreg eps_x g lo0 hi0 Hg Hgap b rs k Gd H1 H2 Rl Hw D) as (k' & ->).
      destruct (sorted_split p C Hchain Hlen Hlen64 Hreg g lo0 hi0 b rs k' Gd H1 H2 Rl Hw) as (rl & ru & P & St2).
      pose proof (sorted_app _ _ _ _ _ _ _ _ _ _ _ St St2) as St3.
      destruct (IH (m + (2 ^ S k' - 1 + (2 ^ S k' - 1 + 0)))%nat) with (stack := stack ++ [fst (split C b); snd (split C b)]) (ls := ls ++ [rl; ru]) (roots := roots)
        as (f1 & out1 & E1); auto.
      { change (2 ^ S (S k'))%nat with (2 ^ S k' + (2 ^ S k' + 0))%nat in *. pose proof (Nat.pow_nonzero 2 (S k') ltac:(lia)). lia. }
      assert (Hd : forall fuel, (f1 <= fuel)%nat ->
        (let (l, u) := split C b in roots2_loop p C eps_x eps_val fuel (stack ++ [l; u]) roots) = Some out1).
      { intros fuel Hf. specialize (E1 fuel Hf). destruct (split C b). exact E1. }
      destruct (Z.eqb (number_roots b) 1) eqn:N1.
      * destruct (Hpolish b H1 H2 (proj1 Gd)) as (n & Hn). destruct (polishing p eps_val n b) as [[z|]|] eqn:Ep; [| |contradiction].
        -- destruct (IH m ltac:(lia) stack ls St (roots ++ [z])) as (f2 & out2 & E2).
           exists (S (Nat.max n f2)), out2. intros [|fuel] Hf; [lia|]. cbn [roots2_loop]. rewrite D, N1. fold (polishing p eps_val fuel b).
           assert (Ep' : polishing p eps_val fuel b = Some (Some z)) by (apply (polish_mono' _ _ _ _ _ _ n fuel); [lia|exact Ep]).
           rewrite Ep'. apply E2. lia.
        -- exists (S (Nat.max n f1)), out1. intros [|fuel] Hf; [lia|]. cbn [roots2_loop]. rewrite D, N1. fold (polishing p eps_val fuel b).
           assert (Ep' : polishing p eps_val fuel b = Some None) by (apply (polish_mono' _ _ _ _ _ _ n fuel); [lia|exact Ep]).
           rewrite Ep'. apply Hd. lia.
      * exists (S f1), out1. intros [|fuel] Hf; [lia|]. cbn [roots2_loop]. rewrite D, N1. apply Hd. lia.
    + destruct (Z.gtb (number_roots b) 0) eqn:N0.
      * destruct (IH m ltac:(lia) stack ls St (roots ++ [midpoint b])) as (f2 & out2 & E2).
        exists (S f2), out2. intros [|fuel] Hf; [lia|]. cbn [roots2_loop]. rewrite D, N0. apply E2. lia.
      * destruct (IH m ltac:(lia) stack ls St roots) as (f2 & out2 & E2).
        exists (S f2), out2. intros [|fuel] Hf; [lia|]. cbn [roots2_loop]. rewrite D, N0. apply E2. lia.
Qed.
End Roots2.
