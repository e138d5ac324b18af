(** Soundness of elimination templates: a boolean checker (every row of the
    template is a complete shifted copy of a row of the coefficient matrix), and
    the proof that a point at which the small polynomials vanish annihilates the
    template. *)
From Coq Require Import Reals Lra Lia List Arith Bool NArith ZArith.
From Verif Require Import GenLin SturmModel GaussModel GaussProps GbProps MacModel.
Import ListNotations.
Local Open Scope R_scope.

Section Checker.
(** n1, nc: columns of the small and of the large matrix; nv: variables; mon1,
    mon2: their monomials; supp1: entries of the small matrix that may be nonzero *)
Variables (n1 nc nv : nat) (mon1 mon2 : list (list nat)) (supp1 : nat -> nat -> bool).
Definition pairs (row : trow) : list (nat * nat) := map (fun e => (N.to_nat (fst e), N.to_nat (snd e))) (snd row).
Definition shift_of (ps : list (nat * nat)) : list nat :=
  match ps with [] => [] | p :: _ => esub (nth (fst p) mon2 []) (nth (snd p) mon1 []) end.
Definition mac_ok (row : trow) : bool :=
  let ps := pairs row in let d := shift_of ps in
  nodupb (map fst ps) && nodupb (map snd ps) && Nat.eqb (length d) nv &&
  forallb (fun p => Nat.ltb (fst p) nc && Nat.ltb (snd p) n1 && Nat.eqb (length (nth (snd p) mon1 [])) nv
                    && eeqb (nth (fst p) mon2 []) (eadd (nth (snd p) mon1 []) d)) ps &&
  forallb (fun k => implb (supp1 (fst row) k) (memb k (map snd ps))) (seq 0 n1).

Lemma find_pairs m1 i es c : nodupb (map (fun e : N * N => N.to_nat (fst e)) es) = true ->
  mac_cell m1 (i, es) c = lsum (fun p => at_col (fst p) c (m1 i (snd p))) (map (fun e => (N.to_nat (fst e), N.to_nat (snd e))) es).
Proof.
  unfold mac_cell. cbn [fst snd]. induction es as [|[a b] es IH]; cbn [find map lsum fst snd]; auto.
  intro H. cbn in H. apply andb_prop in H as [H1 H2]. unfold at_col at 1. destruct (N.eqb_spec a (N.of_nat c)) as [->|E].
  - rewrite Nat2N.id, Nat.eqb_refl. cbn [fst snd].
    assert (Z : lsum (fun p => at_col (fst p) c (m1 i (snd p))) (map (fun e => (N.to_nat (fst e), N.to_nat (snd e))) es) = 0); [|lra].
    rewrite Nat2N.id in H1. apply negb_true_iff in H1.
    assert (NI : forall e, In e es -> N.to_nat (fst e) <> c).
    { intros e He Ee. assert (T : existsb (Nat.eqb c) (map (fun e : N * N => N.to_nat (fst e)) es) = true); [|rewrite T in H1; discriminate].
      apply existsb_exists. exists c. split; [|apply Nat.eqb_refl]. apply in_map_iff. exists e. auto. }
    clear - NI. induction es as [|e es IH]; cbn [map lsum fst snd]; auto. rewrite IH by (intros; apply NI; right; auto).
    unfold at_col. destruct (Nat.eqb_spec c (N.to_nat (fst e))) as [E|_]; [|lra]. exfalso. apply (NI e); [left|]; auto.
  - destruct (Nat.eqb_spec c (N.to_nat a)) as [->|E2]; [rewrite N2Nat.id in E; congruence|]. rewrite IH by auto. lra.
Qed.

Lemma mac_row m1 row x : mac_ok row = true -> (forall k, (k < n1)%nat -> supp1 (fst row) k = false -> m1 (fst row) k = 0) ->
  sumn nc (fun c => mac_cell m1 row c * mono x 0 (nth c mon2 []))
  = mono x 0 (shift_of (pairs row)) * sumn n1 (fun k => m1 (fst row) k * mono x 0 (nth k mon1 [])).
Proof.
  intros H Z. unfold mac_ok in H. cbv zeta in H. apply andb_prop in H as [H Cv]. apply andb_prop in H as [H F]. apply andb_prop in H as [H Ld].
  apply andb_prop in H as [N1 N2]. apply Nat.eqb_eq in Ld. rewrite forallb_forall in F, Cv. set (d := shift_of (pairs row)) in *.
  assert (E : forall p, In p (pairs row) -> (fst p < nc)%nat /\ (snd p < n1)%nat /\ mono x 0 (nth (fst p) mon2 []) = mono x 0 (nth (snd p) mon1 []) * mono x 0 d).
  { intros p Hp. specialize (F p Hp). apply andb_prop in F as [F E]. apply andb_prop in F as [F L]. apply andb_prop in F as [A B].
    apply Nat.ltb_lt in A, B. apply Nat.eqb_eq in L. apply eeqb_eq in E. repeat split; auto. rewrite E. apply mono_eadd. congruence. }
  rewrite (sumn_ext nc _ (fun c => lsum (fun p => at_col (fst p) c (m1 (fst row) (snd p))) (pairs row) * mono x 0 (nth c mon2 []))).
  2:{ intros c _. f_equal. destruct row as [i es]. cbn [fst]. apply find_pairs. unfold pairs in N1. cbn [snd] in N1. rewrite map_map in N1. exact N1. }
  rewrite (sumn_lsum nc (pairs row) (fun k => m1 (fst row) k) (fun c => mono x 0 (nth c mon2 []))) by (intros p Hp; apply (E p Hp)).
  transitivity (lsum (fun p => mono x 0 d * (m1 (fst row) (snd p) * mono x 0 (nth (snd p) mon1 []))) (pairs row)).
  { apply lsum_ext. intros p Hp. destruct (E p Hp) as (_ & _ & ->). ring. }
  rewrite lsum_scale. f_equal. rewrite <- (lsum_map (fun k => m1 (fst row) k * mono x 0 (nth k mon1 [])) snd (pairs row)).
  apply (lsum_cover 0%nat n1 x).
  - now apply nodupb_NoDup.
  - intros c Hc. apply in_map_iff in Hc as (p & <- & Hp). apply (E p Hp).
  - intros c Hc N. rewrite Z; auto; [ring|]. specialize (Cv c). rewrite in_seq in Cv. specialize (Cv ltac:(lia)).
    destruct (supp1 (fst row) c); auto. cbn in Cv. apply memb_In in Cv. tauto.
Qed.
End Checker.

Lemma dotlist_sumn : forall a b, length a = length b -> dotlist a b = sumn (length a) (fun j => nth j a 0 * nth j b 0).
Proof.
  induction a as [|x a IH]; intros [|y b] H; cbn [length] in H; try discriminate; auto.
  cbn [dotlist length]. rewrite (sumn_split 1 (length a)). cbn [sumn nth Nat.add]. rewrite IH by lia. ring.
Qed.
(** the monomials at x *)
Definition monos (mon2 : list (list nat)) (nc : nat) (x : nat -> R) : list R := map (fun c => mono x 0 (nth c mon2 [])) (seq 0 nc).
Lemma nth_map_seq0 (f : nat -> R) n k : (k < n)%nat -> nth k (map f (seq 0 n)) 0 = f k.
Proof. intro H. rewrite nth_indep with (d' := f 0%nat) by (now rewrite map_length, seq_length). rewrite map_nth, seq_nth; auto. Qed.

(** Reduced rows of an accepted template: at a point where the small polynomials
    vanish, the monomial of each fully reduced row is minus the combination of
    the trailing monomials with the coefficients of that row. *)
Lemma mac_reduced n1 nr nf nv mon1 mon2 supp1 tab m1 x prec exitc m' :
  forallb (mac_ok n1 (nr + nf) nv mon1 mon2 supp1) tab = true -> length tab = nr -> tab <> [] ->
  (forall row, In row tab -> (forall k, (k < n1)%nat -> supp1 (fst row) k = false -> m1 (fst row) k = 0) /\
                             sumn n1 (fun k => m1 (fst row) k * mono x 0 (nth k mon1 [])) = 0) ->
  0 <= prec < 1 -> (0 <= exitc)%Z -> clean prec exitc (mac m1 (nr + nf) tab) ->
  gauss_jordan prec exitc (mac m1 (nr + nf) tab) = Reduced m' ->
  forall r, (r < nr)%nat -> (exitc <= Z.of_nat r)%Z ->
  mono x 0 (nth r mon2 []) = - sumn nf (fun s => nth (nr + s) (nth r m' []) 0 * mono x 0 (nth (nr + s) mon2 [])).
Proof.
  intros Ck Ln Ne Hr P He Cl Rd r Hrn Hre. set (nc := (nr + nf)%nat) in *.
  assert (Lm : length (mac m1 nc tab) = nr) by (unfold mac; now rewrite map_length).
  assert (W : well_shaped (mac m1 nc tab) nc).
  { split; [|split].
    - unfold mac. destruct tab; [congruence|discriminate].
    - intros q Hq. unfold mac in Hq. apply in_map_iff in Hq as (row & <- & _). now rewrite map_length, seq_length.
    - rewrite Lm. unfold nc. lia. }
  destruct (C31_solution_set prec exitc _ nc m' P W He Cl Rd) as (L' & Sh & Sol).
  destruct (C31_reduced_form prec exitc _ nc m' P W He Cl Rd) as (Id & _).
  set (X := monos mon2 nc x). assert (LX : length X = nc) by (unfold X, monos; now rewrite map_length, seq_length).
  assert (SX : forall q, In q (mac m1 nc tab) -> dotlist q X = 0).
  { intros q Hq. unfold mac in Hq. apply in_map_iff in Hq as (row & <- & Hin). rewrite forallb_forall in Ck. specialize (Ck row Hin).
    destruct (Hr row Hin) as [Z V]. rewrite dotlist_sumn by (rewrite map_length, seq_length, LX; auto). rewrite map_length, seq_length.
    rewrite (sumn_ext nc _ (fun c => mac_cell m1 row c * mono x 0 (nth c mon2 []))).
    - rewrite (mac_row n1 nc nv mon1 mon2 supp1) by auto. rewrite V. ring.
    - intros c Hc. rewrite nth_map_seq0 by auto. unfold X, monos. now rewrite nth_map_seq0. }
  assert (In (nth r m' []) m') by (apply nth_In; rewrite L', Lm; auto).
  pose proof (proj1 (Sol X) SX _ H) as D. rewrite dotlist_sumn in D by (rewrite LX; apply Sh; auto). rewrite (Sh _ H) in D. unfold nc in D at 1. rewrite sumn_split in D.
  rewrite (sumn_ext nr _ (fun j => delta j r * mono x 0 (nth j mon2 []))) in D.
  - rewrite sumn_delta in D by auto.
    rewrite (sumn_ext nf _ (fun s => nth (nr + s) (nth r m' []) 0 * mono x 0 (nth (nr + s) mon2 []))) in D; [lra|].
    intros s Hs. unfold X, monos. rewrite nth_map_seq0 by (unfold nc; lia). reflexivity.
  - intros j Hj. rewrite Lm in Id. rewrite Id by auto. unfold X, monos. rewrite nth_map_seq0 by (unfold nc; lia).
    f_equal. unfold delta. destruct (Nat.eq_dec r j), (Nat.eq_dec j r); congruence.
Qed.

(** the same for a matrix given by an equation *)
Lemma mac_reduced_eq n1 nr nf nc nv mon1 mon2 supp1 tab m1 x prec exitc m2 m' :
  nc = (nr + nf)%nat -> m2 = mac m1 nc tab ->
  forallb (mac_ok n1 nc nv mon1 mon2 supp1) tab = true -> length tab = nr -> tab <> [] ->
  (forall row, In row tab -> (forall k, (k < n1)%nat -> supp1 (fst row) k = false -> m1 (fst row) k = 0) /\
                             sumn n1 (fun k => m1 (fst row) k * mono x 0 (nth k mon1 [])) = 0) ->
  0 <= prec < 1 -> (0 <= exitc)%Z -> clean prec exitc m2 ->
  gauss_jordan prec exitc m2 = Reduced m' ->
  forall r, (r < nr)%nat -> (exitc <= Z.of_nat r)%Z ->
  mono x 0 (nth r mon2 []) = - sumn nf (fun s => nth (nr + s) (nth r m' []) 0 * mono x 0 (nth (nr + s) mon2 [])).
Proof. intros -> ->. apply mac_reduced. Qed.
