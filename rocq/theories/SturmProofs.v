(** Sturm's theorem for the chain built by the code. *)
From Coq Require Import Reals Lra Psatz List Lia Permutation Classical ZArith.
From Verif Require Import SturmModel.
Import ListNotations.
Local Open Scope R_scope.

(** * Polynomials *)
(** The polynomial function denoted by a descending coefficient list. *)
Fixpoint peval (p : list R) (x : R) : R :=
  match p with [] => 0 | c :: r => c * x ^ length r + peval r x end.

Lemma monomials_S n x : monomials (S n) x = x ^ n :: monomials n x.
Proof.
  induction n as [|n IH]; [cbn; f_equal|]. 
  change (monomials (S (S n)) x) with (match monomials (S n) x with [] => [1] | m :: r => m * x :: m :: r end).
  rewrite IH. cbn [pow]. f_equal. ring.
Qed.
Lemma row_value_eval p x : row_value p x = peval p x.
Proof.
  unfold row_value. induction p as [|c r IH]; [reflexivity|].
  cbn [length]. rewrite monomials_S. cbn [dotlist peval]. now rewrite IH.
Qed.

Lemma peval_map_scale k p x : peval (map (Rmult k) p) x = k * peval p x.
Proof. induction p as [|c r IH]; cbn [map peval]; [ring|]. rewrite IH, map_length. ring. Qed.
Lemma peval_map_opp p x : peval (map Ropp p) x = - peval p x.
Proof. induction p as [|c r IH]; cbn [map peval]; [ring|]. rewrite IH, map_length. ring. Qed.
Lemma map2_length {X Y Z} (f : X -> Y -> Z) : forall a b, length a = length b -> length (map2 f a b) = length a.
Proof. induction a; intros [|y b] H; cbn in *; auto; try discriminate. Qed.
Lemma peval_map2_add x : forall a b, length a = length b -> peval (map2 Rplus a b) x = peval a x + peval b x.
Proof.
  induction a as [|c a IH]; intros [|d b] H; cbn [map2 peval]; try discriminate; [ring|].
  injection H as H. rewrite IH, map2_length by auto. rewrite H. ring.
Qed.
Lemma peval_snoc0 p x : peval (p ++ [0]) x = x * peval p x.
Proof.
  induction p as [|c r IH]; cbn [app peval length pow]; [ring|].
  rewrite IH, app_length. cbn [length]. rewrite Nat.add_1_r. cbn [pow]. ring.
Qed.
Lemma peval_0_cons p x : peval (0 :: p) x = peval p x.
Proof. cbn [peval]. ring. Qed.

Lemma deriv_length p : length (deriv p) = (length p - 1)%nat.
Proof.
  induction p as [|c r IH]; auto. destruct r as [|d r]; auto.
  change (deriv (c :: d :: r)) with (c * INR (length (d :: r)) :: deriv (d :: r)).
  cbn [length] in *. rewrite IH. lia.
Qed.
Lemma peval_derivable p x : derivable_pt_lim (peval p) x (peval (deriv p) x).
Proof.
  induction p as [|c r IH].
  - cbn. apply (derivable_pt_lim_const 0).
  - destruct r as [|d r].
    + intros eps He. exists (mkposreal 1 Rlt_0_1). intros h Hh _. cbn.
      replace ((c * 1 + 0 - (c * 1 + 0)) / h - 0) with 0 by (field; auto). now rewrite Rabs_R0.
    + set (q := d :: r) in *. change (deriv (c :: q)) with (c * INR (length q) :: deriv q).
      cbn [peval]. apply (derivable_pt_lim_plus (fun x => c * x ^ length q) (peval q)); auto.
      rewrite deriv_length. replace (c * INR (length q) * x ^ (length q - 1)) with (c * (INR (length q) * x ^ pred (length q))).
      * apply (derivable_pt_lim_scal (fun x => x ^ length q)). apply derivable_pt_lim_pow.
      * rewrite Nat.sub_1_r. ring.
Qed.
Lemma peval_continuity p : continuity (peval p).
Proof.
  intro x. apply derivable_continuous_pt. exists (peval (deriv p) x). apply peval_derivable.
Qed.

(** * The chain recurrence *)
Lemma negrem_spec p1 p2 r : length p1 = S (length p2) -> negated_remainder p1 p2 = Some r ->
  hd 0 p2 <> 0 /\ length r = length p1 /\ nth 0 r 0 = 0 /\ nth 1 r 0 = 0
  /\ exists q : R -> R, forall x, peval r x = q x * peval p2 x - peval p1 x.
Proof.
  intros L E. unfold negated_remainder in E.
  destruct p1 as [|a0 [|a1 p1]]; try discriminate. destruct p2 as [|b0 [|b1 p2]]; try discriminate.
  destruct (Req_EM_T b0 0) as [Z|Z]; [discriminate|].
  set (A := a0 :: a1 :: p1) in *. set (B := b0 :: b1 :: p2) in *. cbv zeta in E.
  match type of E with Some ?t = Some _ => assert (E' : t = r) by congruence; clear E; rename E' into E end.
  assert (L1 : length (map Ropp A) = length (map (Rmult (a0 / b0)) B ++ [0])).
  { rewrite map_length, app_length, map_length. cbn [length]. lia. }
  assert (L2 : length (map Ropp A) = length (0 :: map (Rmult (a1 / b0)) B)).
  { cbn [length]. now rewrite !map_length. }
  assert (L3 : length (map Ropp A) = length (0 :: map (Rmult (- b1 * a0 / b0 ^ 2)) B)).
  { cbn [length]. now rewrite !map_length. }
  assert (M1 : length (map2 Rplus (map Ropp A) (map (Rmult (a0 / b0)) B ++ [0])) = length (map Ropp A)) by (now apply map2_length).
  assert (M2 : length (map2 Rplus (map2 Rplus (map Ropp A) (map (Rmult (a0 / b0)) B ++ [0])) (0 :: map (Rmult (a1 / b0)) B)) = length (map Ropp A)).
  { rewrite map2_length; congruence. }
  split; [exact Z|]. split; [rewrite <- E, map2_length by congruence; rewrite M2; apply map_length|].
  split; [|split].
  - rewrite <- E. cbn. field. auto.
  - rewrite <- E. destruct p2; cbn; field; auto.
  - exists (fun x => a0 / b0 * x + a1 / b0 + - b1 * a0 / b0 ^ 2). intro x. rewrite <- E.
    rewrite !peval_map2_add by congruence.
    rewrite peval_snoc0, !peval_0_cons, !peval_map_scale, peval_map_opp. ring.
Qed.
Lemma peval_skip2 r x : nth 0 r 0 = 0 -> nth 1 r 0 = 0 -> peval (skipn 2 r) x = peval r x.
Proof.
  destruct r as [|a [|b r]]; cbn; intros; subst; try ring.
Qed.

(** Rows of the chain: consecutive ones related by a negated remainder. *)
Fixpoint seq_ok (l : list (R -> R)) : Prop :=
  match l with
  | f :: (g :: l') as t =>
      match l' with
      | [] => (exists c, c <> 0 /\ forall x, g x = c)
      | h :: _ => (exists q : R -> R, forall x, h x = q x * g x - f x) /\ seq_ok t
      end
  | _ => False
  end.

Lemma seq_ok_no_common x : forall l f g, seq_ok (f :: g :: l) -> f x = 0 -> g x = 0 -> False.
Proof.
  induction l as [|h l IH]; intros f g H Hf Hg.
  - destruct H as (c & Hc & E). rewrite E in Hg. contradiction.
  - destruct H as [(q & E) H]. apply (IH g h H Hg). rewrite E, Hf, Hg. ring.
Qed.

Definition same_sign (a b : R) : Prop := (0 < a /\ 0 < b) \/ (a < 0 /\ b < 0).
Definition pos (a : R) : bool := if Rgt_dec a 0 then true else false.
Lemma pos_true a : 0 < a -> pos a = true. Proof. unfold pos. destruct (Rgt_dec a 0); auto; lra. Qed.
Lemma pos_false a : a <= 0 -> pos a = false. Proof. unfold pos. destruct (Rgt_dec a 0); auto; lra. Qed.
Lemma pos_same a b : same_sign a b -> pos a = pos b.
Proof. intros [[? ?]|[? ?]]; [rewrite !pos_true|rewrite !pos_false]; auto; lra. Qed.

(** effect of one value on the counter *)
Lemma changes_pos b s r : 0 < s -> changes b (s :: r) = ((if b then 0 else 1) + changes true r)%nat.
Proof. intro H. destruct b; cbn [changes]; [destruct (Rlt_dec s 0)|destruct (Rgt_dec s 0)]; auto; lra. Qed.
Lemma changes_neg b s r : s < 0 -> changes b (s :: r) = ((if b then 1 else 0) + changes false r)%nat.
Proof. intro H. destruct b; cbn [changes]; [destruct (Rlt_dec s 0)|destruct (Rgt_dec s 0)]; auto; lra. Qed.
Lemma changes_zero b r : changes b (0 :: r) = changes b r.
Proof. destruct b; cbn [changes]; [destruct (Rlt_dec 0 0)|destruct (Rgt_dec 0 0)]; auto; lra. Qed.

(** After a non-vanishing member, the rest of the chain has the same number of
    sign changes at x and at a nearby u. *)
Lemma local_tail x u : forall n l f g, (length l <= n)%nat -> seq_ok (f :: g :: l) -> f x <> 0 ->
  (forall h, In h (g :: l) -> h x <> 0 -> same_sign (h x) (h u)) ->
  changes (pos (f x)) (map (fun h => h x) (g :: l)) = changes (pos (f x)) (map (fun h => h u) (g :: l)).
Proof.
  induction n as [|n IH]; intros l f g Hn H Hf N.
  - destruct l; [|cbn in Hn; lia]. destruct H as (c & Hc & E). cbn [map]. rewrite !E. reflexivity.
  - destruct (Req_dec (g x) 0) as [Z|Z].
    + destruct l as [|h l].
      { destruct H as (c & Hc & E). rewrite E in Z. contradiction. }
      destruct H as [(q & E) H].
      assert (Hh : h x = - f x) by (rewrite E, Z; ring).
      assert (Hh0 : h x <> 0) by lra.
      pose proof (N h ltac:(right; now left) Hh0) as Sh.
      cbn [map]. rewrite Z, changes_zero.
      assert (Rest : changes (pos (h x)) (map (fun k => k x) l) = changes (pos (h x)) (map (fun k => k u) l)).
      { destruct l as [|k l]; [reflexivity|]. destruct H as [_ H]. apply IH; auto.
        - cbn in Hn. lia.
        - intros k' Hk. apply N. right. now right. }
      destruct (Rtotal_order (f x) 0) as [Lf|[Lf|Lf]]; [|contradiction|].
      * rewrite (pos_false (f x)) by lra. rewrite (pos_true (h x)) in Rest by lra.
        assert (0 < h u) by (destruct Sh; lra).
        rewrite (changes_pos _ (h x)) by lra. rewrite Rest.
        destruct (Rtotal_order (g u) 0) as [G|[G|G]].
        -- rewrite (changes_neg _ (g u)), (changes_pos _ (h u)) by lra. reflexivity.
        -- rewrite G, changes_zero, (changes_pos _ (h u)) by lra. reflexivity.
        -- rewrite (changes_pos _ (g u)), (changes_pos _ (h u)) by lra. reflexivity.
      * rewrite (pos_true (f x)) by lra. rewrite (pos_false (h x)) in Rest by lra.
        assert (h u < 0) by (destruct Sh; lra).
        rewrite (changes_neg _ (h x)) by lra. rewrite Rest.
        destruct (Rtotal_order (g u) 0) as [G|[G|G]].
        -- rewrite (changes_neg _ (g u)), (changes_neg _ (h u)) by lra. reflexivity.
        -- rewrite G, changes_zero, (changes_neg _ (h u)) by lra. reflexivity.
        -- rewrite (changes_pos _ (g u)), (changes_neg _ (h u)) by lra. reflexivity.
    + pose proof (N g ltac:(now left) Z) as Sg. cbn [map].
      assert (Rest : changes (pos (g x)) (map (fun k => k x) l) = changes (pos (g x)) (map (fun k => k u) l)).
      { destruct l as [|h l]; [reflexivity|]. destruct H as [_ H]. apply IH; auto.
        - cbn in Hn. lia.
        - intros k' Hk. apply N. now right. }
      destruct Sg as [[S1 S2]|[S1 S2]].
      * rewrite (pos_true (g x)) in Rest by auto. rewrite (changes_pos _ (g x)), (changes_pos _ (g u)) by auto. now rewrite Rest.
      * rewrite (pos_false (g x)) in Rest by lra. rewrite (changes_neg _ (g x)), (changes_neg _ (g u)) by auto. now rewrite Rest.
Qed.

(** * Nearby signs *)
Lemma near_sign f x : continuity f -> f x <> 0 -> exists d, 0 < d /\ forall u, Rabs (u - x) < d -> same_sign (f x) (f u).
Proof.
  intros C N. specialize (C x).
  destruct (C (Rabs (f x)) (Rabs_pos_lt _ N)) as (d & Hd & H). exists d. split; auto.
  intros u Hu. destruct (Req_dec u x) as [->|Ne].
  - destruct (Rtotal_order (f x) 0) as [L|[L|L]]; [right|contradiction|left]; auto.
  - specialize (H u). cbn in H. unfold R_dist in H.
    assert (A : Rabs (f u - f x) < Rabs (f x)).
    { apply H. split; auto. split; [exact I|auto]. }
    unfold same_sign. revert A. unfold Rabs. destruct (Rcase_abs (f u - f x)), (Rcase_abs (f x)); intros; lra.
Qed.
Lemma near_sign_all (l : list (R -> R)) x : (forall f, In f l -> continuity f) ->
  exists d, 0 < d /\ forall u, Rabs (u - x) < d -> forall f, In f l -> f x <> 0 -> same_sign (f x) (f u).
Proof.
  induction l as [|f l IH]; intro C.
  - exists 1. split; [lra|]. intros u _ f [].
  - destruct IH as (d & Hd & H); [intros; apply C; now right|].
    destruct (Req_dec (f x) 0) as [Z|Z].
    + exists d. split; auto. intros u Hu g [<-|Hg] Ng; [contradiction|]. now apply H.
    + destruct (near_sign f x (C f (or_introl eq_refl)) Z) as (e & He & K).
      exists (Rmin d e). split; [now apply Rmin_glb_lt|]. intros u Hu g [<-|Hg] Ng.
      * apply K. eapply Rlt_le_trans; [exact Hu|apply Rmin_r].
      * apply H; auto. eapply Rlt_le_trans; [exact Hu|apply Rmin_l].
Qed.
(** Simple zero: the sign on either side. *)
Lemma near_zero f x c : derivable_pt_lim f x c -> f x = 0 -> c <> 0 ->
  exists d, 0 < d /\ forall u, Rabs (u - x) < d -> u <> x -> same_sign (f u) (c * (u - x)).
Proof.
  intros D Z N. assert (Hc : 0 < Rabs c) by (now apply Rabs_pos_lt).
  destruct (D (Rabs c / 2) ltac:(lra)) as ((d & Hd) & H). exists d. split; auto.
  intros u Hu Ne. specialize (H (u - x) ltac:(lra) Hu). replace (x + (u - x)) with u in H by ring. rewrite Z, Rminus_0_r in H.
  assert (Q : same_sign (f u / (u - x)) c).
  { revert H. unfold same_sign, Rabs. destruct (Rcase_abs (f u / (u - x) - c)), (Rcase_abs c); intros; lra. }
  assert (Eq : f u = f u / (u - x) * (u - x)) by (field; lra).
  unfold same_sign in *. rewrite Eq. set (y := f u / (u - x)) in *. set (w := u - x) in *.
  assert (w <> 0) by (unfold w; lra).
  destruct Q as [[Q1 Q2]|[Q1 Q2]]; destruct (Rtotal_order w 0) as [L|[L|L]]; try contradiction; [right|left|left|right]; split; nra.
Qed.

(** * Real induction *)
Lemma creep (P : R -> R -> Prop) :
  (forall x, P x x) -> (forall a b c, a <= b -> b <= c -> P a b -> P b c -> P a c) ->
  (forall x, exists d, 0 < d /\ (forall u, x - d < u -> u < x -> P u x) /\ (forall v, x < v -> v < x + d -> P x v)) ->
  forall a b, a <= b -> P a b.
Proof.
  intros Refl Trans Loc a b Hab.
  set (E := fun t => a <= t <= b /\ P a t).
  destruct (completeness E) as (s & Ub & Lub).
  - exists b. intros t [Ht _]. lra.
  - exists a. split; [lra|apply Refl].
  - assert (Has : a <= s) by (apply Ub; split; [lra|apply Refl]).
    assert (Hsb : s <= b) by (apply Lub; intros t [Ht _]; lra).
    destruct (Loc s) as (d & Hd & L & Rr).
    assert (Ps : P a s).
    { destruct (Rle_lt_or_eq_dec _ _ Has) as [Hlt|<-]; [|apply Refl].
      assert (Ex : exists t, E t /\ s - d < t).
      { apply NNPP. intro N. assert (s <= s - d); [|lra]. apply Lub. intros t Ht.
        destruct (Rle_dec t (s - d)); auto. exfalso. apply N. exists t. split; auto. lra. }
      destruct Ex as (t & [Ht Pt] & Hts). assert (t <= s) by (apply Ub; split; auto).
      destruct (Rle_lt_or_eq_dec t s ltac:(auto)) as [Hl|<-]; auto.
      apply (Trans a t s); try lra; auto. }
    destruct (Rle_lt_or_eq_dec _ _ Hsb) as [Hlt|<-]; auto.
    exfalso. set (v := Rmin b (s + d / 2)).
    assert (Hv : s < v) by (apply Rmin_glb_lt; lra).
    assert (Hv2 : v < s + d) by (apply Rle_lt_trans with (s + d / 2); [apply Rmin_r|lra]).
    assert (Hv3 : v <= b) by apply Rmin_l.
    assert (v <= s); [|lra]. apply Ub. split; [lra|]. apply (Trans a s v); try lra; auto.
Qed.

(** * Sturm's theorem *)
Section Sturm.
Variables (f g : R -> R) (l : list (R -> R)).
Hypothesis Hcont : forall h, In h (f :: g :: l) -> continuity h.
Hypothesis Hder : forall x, derivable_pt_lim f x (g x).
Hypothesis Hseq : seq_ok (f :: g :: l).
Definition V (x : R) : nat := changes (pos (f x)) (map (fun h => h x) (g :: l)).

(** The roots charged to the interval from a to b: those strictly inside, a
    itself if f increases there, and b if f decreases there. *)
Definition charged (a b x : R) : Prop :=
  f x = 0 /\ ((a < x < b) \/ (x = a /\ a < b /\ 0 < g a) \/ (x = b /\ a < b /\ g b < 0)).
Definition counted (a b : R) : Prop :=
  exists rs, NoDup rs /\ (forall x, In x rs <-> charged a b x) /\ V a = (V b + length rs)%nat.

Lemma root_simple x : f x = 0 -> g x <> 0.
Proof. intros Z G. exact (seq_ok_no_common x l f g Hseq Z G). Qed.

Lemma counted_trans a b c : a <= b -> b <= c -> counted a b -> counted b c -> counted a c.
Proof.
  intros Hab Hbc (r1 & N1 & I1 & E1) (r2 & N2 & I2 & E2).
  destruct (Rle_lt_or_eq_dec _ _ Hab) as [Lab|<-].
  2: { assert (r1 = []).
       { destruct r1 as [|x r1]; auto. exfalso. destruct (proj1 (I1 x) (or_introl eq_refl)) as [_ [?|[(_&?&_)|(_&?&_)]]]; lra. }
       subst r1. exists r2. split; [auto|split; auto]. }
  destruct (Rle_lt_or_eq_dec _ _ Hbc) as [Lbc|<-].
  2: { exists r1. assert (r2 = []).
       { destruct r2 as [|x r2]; auto. exfalso. destruct (proj1 (I2 x) (or_introl eq_refl)) as [_ [?|[(_&?&_)|(_&?&_)]]]; lra. }
       subst r2. split; [auto|split; auto]. }
  exists (r1 ++ r2). split; [|split].
  - assert (Dj : forall x, In x r1 -> ~ In x r2).
    { intros x H1 H2. apply I1 in H1. apply I2 in H2.
      destruct H1 as [_ H1], H2 as [_ H2].
      destruct H1 as [H1|[(-> & _ & H1)|(-> & _ & H1)]]; destruct H2 as [H2|[(? & _ & H2)|(? & _ & H2)]]; subst; try lra. }
    clear - N1 N2 Dj. induction r1 as [|x r1 IH]; auto. cbn. inversion N1; subst. constructor.
    + intro H. apply in_app_iff in H. destruct H; [auto|]. apply (Dj x); auto. now left.
    + apply IH; auto. intros y Hy. apply Dj. now right.
  - intro x. rewrite in_app_iff, I1, I2. unfold charged. split.
    + intros [[Z H]|[Z H]]; split; auto.
      * destruct H as [H|[(-> & ? & H)|(-> & ? & H)]]; [left; lra|right; left; repeat split; auto; lra|left; lra].
      * destruct H as [H|[(-> & ? & H)|(-> & ? & H)]]; [left; lra|left; lra|right; right; repeat split; auto; lra].
    + intros [Z H]. destruct H as [H|[(-> & ? & H)|(-> & ? & H)]].
      * destruct (Rtotal_order x b) as [L|[L|L]].
        -- left. split; auto. left. lra.
        -- subst x. pose proof (root_simple b Z) as Nb.
           destruct (Rtotal_order (g b) 0) as [G|[G|G]]; [|contradiction|].
           ++ left. split; auto.
           ++ right. split; auto.
        -- right. split; auto. left. lra.
      * left. split; auto.
      * right. split; auto.
  - rewrite app_length. lia.
Qed.

Lemma counted_local x : exists d, 0 < d
  /\ (forall u, x - d < u -> u < x -> counted u x) /\ (forall v, x < v -> v < x + d -> counted x v).
Proof.
  destruct (near_sign_all (f :: g :: l) x Hcont) as (d & Hd & N).
  destruct (Req_dec (f x) 0) as [Z|Z].
  - (* a root of f *)
    pose proof (root_simple x Z) as G.
    destruct (near_zero f x (g x) (Hder x) Z G) as (e & He & K).
    exists (Rmin d e). split; [now apply Rmin_glb_lt|].
    assert (Near : forall u, Rabs (u - x) < Rmin d e -> u <> x ->
        same_sign (f u) (g x * (u - x)) /\ (forall h, In h (g :: l) -> h x <> 0 -> same_sign (h x) (h u))).
    { intros u Hu Ne. split.
      - apply K; auto. eapply Rlt_le_trans; [exact Hu|apply Rmin_r].
      - intros h Hh. apply N; [eapply Rlt_le_trans; [exact Hu|apply Rmin_l]|now right]. }
    assert (Rest : forall u, Rabs (u - x) < Rmin d e -> u <> x ->
        changes (pos (g x)) (map (fun h => h x) l) = changes (pos (g x)) (map (fun h => h u) l)).
    { intros u Hu Ne. destruct (Near u Hu Ne) as [_ Q]. pose proof Hseq as Hs. destruct l as [|h l']; [reflexivity|].
      destruct Hs as [_ Hs]. apply (local_tail x u (length l')) with (f := g); auto. intros k Hk. apply Q. now right. }
    assert (Vx : V x = ((if pos (g x) then 1 else 0) + changes (pos (g x)) (map (fun h => h x) l))%nat).
    { unfold V. rewrite (pos_false (f x)) by lra. cbn [map].
      destruct (Rtotal_order (g x) 0) as [L|[L|L]]; [|contradiction|].
      - rewrite changes_neg, (pos_false (g x)) by lra. reflexivity.
      - rewrite changes_pos, (pos_true (g x)) by lra. reflexivity. }
    assert (Vu : forall u, Rabs (u - x) < Rmin d e -> u <> x ->
        V u = ((if pos (f u) then if pos (g x) then 0 else 1 else if pos (g x) then 1 else 0)
               + changes (pos (g x)) (map (fun h => h x) l))%nat).
    { intros u Hu Ne. destruct (Near u Hu Ne) as [_ Q]. rewrite (Rest u Hu Ne). unfold V. cbn [map].
      specialize (Q g (or_introl eq_refl) G). destruct Q as [[Q1 Q2]|[Q1 Q2]].
      - rewrite changes_pos, (pos_true (g x)) by lra. destruct (pos (f u)); reflexivity.
      - rewrite changes_neg, (pos_false (g x)) by lra. destruct (pos (f u)); reflexivity. }
    assert (NoRoot : forall u y, Rabs (u - x) < Rmin d e -> Rabs (y - x) < Rmin d e -> y <> x -> f y <> 0).
    { intros u y _ Hy Ne Q. destruct (Near y Hy Ne) as [S _]. rewrite Q in S. destruct S; lra. }
    split.
    + intros u H1 H2. assert (Hu : Rabs (u - x) < Rmin d e) by (rewrite Rabs_left; lra).
      destruct (Near u Hu ltac:(lra)) as [S _].
      destruct (Rtotal_order (g x) 0) as [L|[L|L]]; [|contradiction|].
      * exists [x]. split; [constructor; [auto|constructor]|]. split.
        -- intro y. split.
           ++ intros [<-|[]]. split; [exact Z|]. right. right. repeat split; lra.
           ++ intros [Zy Hy]. left. destruct Hy as [Hy|[(-> & _)|(-> & _)]]; auto.
              ** exfalso. apply (NoRoot u y Hu); auto; [rewrite Rabs_left; lra|lra].
              ** exfalso. apply (NoRoot u u Hu); auto. lra.
        -- rewrite Vx, Vu by (auto; lra). rewrite (pos_false (g x)) by lra.
           rewrite (pos_true (f u)); [cbn [length]; lia|]. destruct S as [[S _]|[S S']]; auto. nra.
      * exists []. split; [constructor|]. split.
        -- intro y. split; [intros []|]. intros [Zy Hy]. exfalso.
           destruct Hy as [Hy|[(-> & _)|(-> & _ & Hy)]]; [| |lra].
           ++ apply (NoRoot u y Hu); auto; [rewrite Rabs_left; lra|lra].
           ++ apply (NoRoot u u Hu); auto. lra.
        -- rewrite Vx, Vu by (auto; lra). rewrite (pos_true (g x)) by lra.
           rewrite (pos_false (f u)); [cbn [length]; lia|]. destruct S as [[S S']|[S _]]; nra.
    + intros v H1 H2. assert (Hu : Rabs (v - x) < Rmin d e) by (rewrite Rabs_pos_eq; lra).
      destruct (Near v Hu ltac:(lra)) as [S _].
      destruct (Rtotal_order (g x) 0) as [L|[L|L]]; [|contradiction|].
      * exists []. split; [constructor|]. split.
        -- intro y. split; [intros []|]. intros [Zy Hy]. exfalso.
           destruct Hy as [Hy|[(-> & _ & Hy)|(-> & _ & Hy)]]; [|lra|].
           ++ apply (NoRoot v y Hu); auto; [rewrite Rabs_pos_eq; lra|lra].
           ++ apply (NoRoot v v Hu); auto. lra.
        -- rewrite Vx, Vu by (auto; lra). rewrite (pos_false (g x)) by lra.
           rewrite (pos_false (f v)); [cbn [length]; lia|]. destruct S as [[S S']|[S _]]; nra.
      * exists [x]. split; [constructor; [auto|constructor]|]. split.
        -- intro y. split.
           ++ intros [<-|[]]. split; [exact Z|]. right. left. repeat split; lra.
           ++ intros [Zy Hy]. left. destruct Hy as [Hy|[(-> & _)|(-> & _)]]; auto.
              ** exfalso. apply (NoRoot v y Hu); auto; [rewrite Rabs_pos_eq; lra|lra].
              ** exfalso. apply (NoRoot v v Hu); auto. lra.
        -- rewrite Vx, Vu by (auto; lra). rewrite (pos_true (g x)) by lra.
           rewrite (pos_true (f v)); [cbn [length]; lia|]. destruct S as [[S _]|[S S']]; auto. nra.
  - (* not a root *)
    exists d. split; auto.
    assert (Same : forall u, Rabs (u - x) < d -> V u = V x /\ f u <> 0).
    { intros u Hu. pose proof (N u Hu f (or_introl eq_refl) Z) as S. split.
      - unfold V. rewrite <- (pos_same _ _ S). symmetry. apply (local_tail x u (length l)); auto.
        intros h Hh. apply N; auto. now right.
      - destruct S; lra. }
    split.
    + intros u H1 H2. exists []. split; [constructor|]. split.
      * intro y. split; [intros []|]. intros [Zy Hy]. exfalso.
        assert (Rabs (y - x) < d).
        { destruct Hy as [Hy|[(-> & _)|(-> & _)]]; [rewrite Rabs_left; lra|rewrite Rabs_left; lra|].
          rewrite Rminus_diag_eq, Rabs_R0; auto. }
        now apply (Same y).
      * destruct (Same u) as [E _]; [rewrite Rabs_left; lra|]. cbn [length]. lia.
    + intros u H1 H2. exists []. split; [constructor|]. split.
      * intro y. split; [intros []|]. intros [Zy Hy]. exfalso.
        assert (Rabs (y - x) < d).
        { destruct Hy as [Hy|[(-> & _)|(-> & _)]]; [rewrite Rabs_pos_eq; lra| |rewrite Rabs_pos_eq; lra].
          rewrite Rminus_diag_eq, Rabs_R0; auto. }
        now apply (Same y).
      * destruct (Same u) as [E _]; [rewrite Rabs_pos_eq; lra|]. cbn [length]. lia.
Qed.

Lemma counted_refl x : counted x x.
Proof.
  exists []. split; [constructor|]. split; [|cbn [length]; lia].
  intro y. split; [intros []|]. intros [_ [?|[(_ & ? & _)|(_ & ? & _)]]]; lra.
Qed.

Lemma sturm a b : a <= b -> counted a b.
Proof. apply creep; [apply counted_refl|apply counted_trans|apply counted_local]. Qed.
End Sturm.

(** * The chain of the code satisfies the hypotheses *)
(** Regular: no leading coefficient vanishes. *)
Definition regular (C : list (list R)) : Prop := Forall (fun row => hd 0 row <> 0) C.

Lemma chain_rows_ok : forall n p1 p2 l, chain_rows n p1 p2 = Some l ->
  length p1 = S (length p2) -> length p2 = S n -> regular (p2 :: l) ->
  seq_ok (map peval (p1 :: p2 :: l)).
Proof.
  induction n as [|n IH]; intros p1 p2 l E L1 L2 Rg.
  - injection E as <-. cbn. destruct p2 as [|c [|]]; try discriminate.
    inversion Rg; subst. exists c. split; auto. intro x. cbn. ring.
  - cbn [chain_rows] in E. destruct (negated_remainder p1 p2) as [r|] eqn:En; [|discriminate].
    destruct (negrem_spec p1 p2 r L1 En) as (Hb & Lr & N0 & N1 & q & Q).
    destruct (chain_rows n p2 (skipn 2 r)) as [l'|] eqn:Ec; [|discriminate]. injection E as <-.
    assert (Ls : length (skipn 2 r) = S n) by (rewrite skipn_length; lia).
    change (seq_ok (peval p1 :: peval p2 :: peval (skipn 2 r) :: map peval l')).
    split.
    + exists q. intro x. rewrite peval_skip2 by auto. apply Q.
    + apply (IH p2 (skipn 2 r) l'); auto; try lia. inversion Rg; subst. auto.
Qed.

Lemma chain_spec p C : sturm_chain p = Some C -> (2 <= length p)%nat -> regular C ->
  exists l, map peval C = peval p :: peval (deriv p) :: l /\ seq_ok (peval p :: peval (deriv p) :: l)
    /\ forall h, In h (peval p :: peval (deriv p) :: l) -> continuity h.
Proof.
  intros E L Rg. unfold sturm_chain in E. destruct p as [|a [|b p]]; cbn [length] in L; try lia.
  set (q := a :: b :: p) in *.
  destruct (chain_rows (length q - 2) q (deriv q)) as [l|] eqn:Ec; [|discriminate]. injection E as <-.
  exists (map peval l). split; auto. split.
  - inversion Rg; subst. apply (chain_rows_ok (length q - 2) q (deriv q) l); auto.
    + rewrite deriv_length. cbn. lia.
    + rewrite deriv_length. cbn. lia.
  - intros h Hh. change (In h (map peval (q :: deriv q :: l))) in Hh. apply in_map_iff in Hh.
    destruct Hh as (r & <- & _). apply peval_continuity.
Qed.
Lemma evaluate_chain_V p C : sturm_chain p = Some C -> (2 <= length p)%nat -> regular C ->
  forall l, map peval C = peval p :: peval (deriv p) :: l ->
  forall x, evaluate_chain C x = V (peval p) (peval (deriv p)) l x.
Proof.
  intros E L Rg l M x. unfold evaluate_chain.
  assert (Ev : map (fun row => row_value row x) C = map (fun h => h x) (map peval C)).
  { rewrite map_map. apply map_ext. intro r. apply row_value_eval. }
  rewrite Ev, M. reflexivity.
Qed.
