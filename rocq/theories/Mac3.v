(** Templates over three variables: a fast checker. *)
From Coq Require Import Reals Lra Lia List Arith Bool NArith.
From Verif Require Import Lin GenLin GbProps MacModel MacProps SixptRow2.
Import ListNotations.
Local Open Scope R_scope.

Lemma NoDup_nodupb l : NoDup l -> nodupb l = true.
Proof.
  induction 1 as [|a l N H IH]; cbn; auto. rewrite IH, andb_true_r. apply negb_true_iff. destruct (existsb (Nat.eqb a) l) eqn:E; auto.
  exfalso. apply N. apply existsb_exists in E as (b & Hb & Eb). apply Nat.eqb_eq in Eb. now subst.
Qed.
Fixpoint nodupN (l : list N) : bool := match l with [] => true | a :: l => (negb (existsb (N.eqb a) l) && nodupN l)%bool end.
Lemma nodupN_NoDup l : nodupN l = true -> NoDup l.
Proof.
  induction l as [|a l IH]; cbn; intro H; constructor; apply andb_prop in H as [H1 H2]; auto. intro I. apply negb_true_iff in H1.
  assert (E : existsb (N.eqb a) l = true) by (apply existsb_exists; exists a; split; auto; apply N.eqb_refl). congruence.
Qed.

Lemma mac_row_gen m1 i es n1 nc (E1 E2 : nat -> R) s :
  NoDup (map fst es) -> NoDup (map snd es) ->
  (forall e, In e es -> (N.to_nat (fst e) < nc)%nat /\ (N.to_nat (snd e) < n1)%nat /\ E2 (N.to_nat (fst e)) = E1 (N.to_nat (snd e)) * s) ->
  (forall k, (k < n1)%nat -> ~ In (N.of_nat k) (map snd es) -> m1 i k = 0) ->
  sumn nc (fun c => mac_cell m1 (i, es) c * E2 c) = s * sumn n1 (fun k => m1 i k * E1 k).
Proof.
  intros N1 N2 E Z. set (ps := pairs (i, es)).
  assert (Inj : forall l, NoDup l -> NoDup (map N.to_nat l)) by (intros l Hl; apply FinFun.Injective_map_NoDup; auto; intros a b; apply N2Nat.inj).
  assert (P1 : map fst ps = map N.to_nat (map fst es)) by (unfold ps, pairs; cbn [snd]; now rewrite !map_map).
  assert (P2 : map snd ps = map N.to_nat (map snd es)) by (unfold ps, pairs; cbn [snd]; now rewrite !map_map).
  assert (B : forall p, In p ps -> (fst p < nc)%nat /\ (snd p < n1)%nat /\ E2 (fst p) = E1 (snd p) * s).
  { intros p Hp. unfold ps, pairs in Hp. cbn [snd] in Hp. apply in_map_iff in Hp as (e & <- & He). exact (E e He). }
  rewrite (sumn_ext nc _ (fun c => lsum (fun p => at_col (fst p) c (m1 i (snd p))) ps * E2 c)).
  2:{ intros c _. f_equal. apply find_pairs. apply NoDup_nodupb. rewrite <- (map_map fst N.to_nat). now apply Inj. }
  rewrite (sumn_lsum nc ps (fun k => m1 i k) E2) by (intros p Hp; apply (B p Hp)).
  transitivity (lsum (fun p => s * (m1 i (snd p) * E1 (snd p))) ps).
  { apply lsum_ext. intros p Hp. destruct (B p Hp) as (_ & _ & ->). ring. }
  rewrite lsum_scale. f_equal. rewrite <- (lsum_map (fun k => m1 i k * E1 k) snd ps). apply (lsum_cover 0%nat n1 E1).
  - rewrite P2. now apply Inj.
  - intros c Hc. apply in_map_iff in Hc as (p & <- & Hp). apply (B p Hp).
  - intros c Hc N. rewrite Z; auto; [ring|]. intro I. apply N. rewrite P2. apply in_map_iff. exists (N.of_nat c). split; auto. apply Nat2N.id.
Qed.
