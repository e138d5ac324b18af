(** C78: the five-point solver fivept_kneip. *)
From Coq Require Import Reals Lra Lia List Arith NArith ZArith Bool ClassicalChoice.
From Verif Require Import Lin GenLin Cplx CEig GbModel GbProps GeoModel KneipOps KneipData KneipModel KneipForms KneipRow KneipGb KneipChk KneipCub KneipBas KneipFin
  UpnpActGrad UpnpActProps SixptProps.
Import ListNotations.
Local Open Scope R_scope.

(** * Specification *)
(** the bearing vectors are those of points X in front of both cameras, with
    the second camera at t and its axes given by R12 *)
Definition kn_scene (R12 : mat3) (t : vec3) (f1 f2 : nat -> vec3) : Prop :=
  forall i, (i < 5)%nat -> exists X lam mu, 0 < lam /\ 0 < mu /\ f1 i = vscale lam X /\ mv R12 (f2 i) = vscale mu (vsub X t).
(** the coplanarity of three epipolar plane normals under a rotation *)
Definition coplanar3 (f1 f2 : nat -> vec3) (M : mat3) (i j k : nat) : R :=
  det (of_cols (cross (f1 i) (mv M (f2 i))) (cross (f1 j) (mv M (f2 j))) (cross (f1 k) (mv M (f2 k)))).
(** the monomials of the entries of a rotation that span the quotient ring *)
Definition kn_monomials (M : mat3) : list R :=
  [m01 M * m01 M; m22 M * m00 M; m21 M * m00 M; m20 M * m00 M; m12 M * m00 M; m11 M * m00 M; m10 M * m00 M; m02 M * m00 M; m01 M * m00 M; m00 M * m00 M;
   m22 M; m21 M; m20 M; m12 M; m11 M; m10 M; m02 M; m01 M; m00 M; 1].
Definition kn_vec (M : mat3) (s : nat) : R := nth s (kn_monomials M) 0.
(** an eigensolver that finds an eigenvector of every eigenvalue and returns both *)
Definition good_eigen (n : nat) (M : nat -> nat -> R) (DV : (nat -> cx) * (nat -> nat -> cx)) : Prop :=
  forall mu w, ceigen n M mu w -> exists k, (k < n)%nat /\ fst DV k = mu /\ ceigen n M mu (fun i => snd DV i k).

(** * The ten equations *)
Theorem C78_rows : forall f1 f2 M r, (r < 10)%nat ->
  sumn 197 (fun c => kn_init f1 f2 r c * mono (kn_x M) 0 (nth c kn_mon [])) =
  (let '(i, j, k) := nth r kn_triples (0, 0, 0)%nat in coplanar3 f1 f2 M i j k).
Proof.
  intros f1 f2 M r Hr. assert (E : nth_error kn_triples r = Some (nth r kn_triples (0, 0, 0)%nat)) by (apply nth_error_nth'; exact Hr).
  destruct (nth r kn_triples (0, 0, 0)%nat) as [[i j] k].
  rewrite (sumn_ext _ _ (fun c => kn_at (kn_epi (f1 i) (f1 j) (f1 k) (f2 i) (f2 j) (f2 k)) c * mono (kn_x M) 0 (nth c kn_mon []))).
  - apply row_det.
  - intros c Hc. unfold kn_init. now rewrite E.
Qed.

(** * The eigenvector *)
Lemma mon_vec M s : (s < 20)%nat -> mon M (177 + s) = kn_vec M s.
Proof.
  intro H. unfold mon, kn_vec, kn_monomials. destruct M as [r00 r01 r02 r10 r11 r12 r20 r21 r22].
  do 20 (destruct s as [|s]; [cbn [Nat.add]; match goal with |- mono _ _ ?l = _ => let l' := eval vm_compute in l in change l with l' end;
    lazy beta iota zeta delta [nth mono Nat.add pow kn_x]; cbn [m00 m01 m02 m10 m11 m12 m20 m21 m22]; ring|]). lia.
Qed.
Lemma mon_lead M i : (i < 10)%nat -> mon M (132 + i) = m00 M * kn_vec M i.
Proof.
  intro H. unfold mon, kn_vec, kn_monomials. destruct M as [r00 r01 r02 r10 r11 r12 r20 r21 r22].
  do 10 (destruct i as [|i]; [cbn [Nat.add]; match goal with |- mono _ _ ?l = _ => let l' := eval vm_compute in l in change l with l' end;
    lazy beta iota zeta delta [nth mono Nat.add pow kn_x]; cbn [m00 m01 m02 m10 m11 m12 m20 m21 m22]; ring|]). lia.
Qed.
Lemma vec_step M r : (10 <= r < 20)%nat -> kn_vec M (if Nat.ltb r 19 then r - 9 else 18) = m00 M * kn_vec M r.
Proof.
  intro H. unfold kn_vec, kn_monomials. destruct M as [r00 r01 r02 r10 r11 r12 r20 r21 r22]. cbn [m00 m01 m02 m10 m11 m12 m20 m21 m22].
  do 10 (destruct r as [|r]; [lia|]). do 10 (destruct r as [|r]; [cbn [Nat.ltb Nat.leb Nat.sub nth]; ring|]). lia.
Qed.
Theorem C78_eigenvector : forall f1 f2 M G, rotation M ->
  (forall i j k, (i < j < k)%nat -> (k < 5)%nat -> coplanar3 f1 f2 M i j k = 0) ->
  kn_basis f1 f2 = Some G -> eigenpair 20 (kn_action G) (m00 M) (kn_vec M).
Proof.
  intros f1 f2 M G Rot Cop K i Hi.
  assert (Cop' : forall i j k, In (i, j, k) kn_triples -> det (of_cols (kn_normal f1 f2 M i) (kn_normal f1 f2 M j) (kn_normal f1 f2 M k)) = 0).
  { intros a b c I. apply (Cop a b c); unfold kn_triples in I; cbn [In] in I; repeat (destruct I as [I|I]; [injection I as <- <- <-; lia|]); destruct I. }
  unfold kn_action. destruct (Nat.ltb_spec i 10) as [L|L].
  - rewrite <- mon_lead by auto. rewrite (basis_rows f1 f2 M Rot Cop' G i K L), <- sumn_neg. apply sumn_ext. intros s Hs. rewrite mon_vec by auto. ring.
  - rewrite <- vec_step by lia. destruct (Nat.ltb_spec i 19) as [L'|L'].
    + apply (sumn_delta 20 (i - 9) (kn_vec M)). lia.
    + apply (sumn_delta 20 18 (kn_vec M)). lia.
Qed.

(** * What is returned *)
Lemma rsum_bound l x : (forall y, In y l -> 0 <= y) -> In x l -> x <= rsum l.
Proof.
  unfold rsum. induction l as [|a l IH]; intros P I; [destruct I|]. cbn [fold_right].
  assert (0 <= fold_right Rplus 0 l) by (clear - P; induction l as [|b l IH]; cbn [fold_right]; [lra|];
    assert (0 <= b) by (apply P; right; now left); assert (0 <= fold_right Rplus 0 l) by (apply IH; intros y [->|Hy]; apply P; [now left|right; now right]); lra).
  assert (0 <= a) by (apply P; now left). destruct I as [->|I]; [lra|]. assert (x <= fold_right Rplus 0 l) by (apply IH; auto; intros; apply P; now right). lra.
Qed.
Lemma rsum_nonneg l : (forall y, In y l -> 0 <= y) -> 0 <= rsum l.
Proof. unfold rsum. induction l as [|a l IH]; intro P; cbn [fold_right]; [lra|]. assert (0 <= a) by (apply P; now left). assert (0 <= fold_right Rplus 0 l) by (apply IH; intros; apply P; now right). lra. Qed.
Lemma ortho_nonneg M y : In y (kn_ortho M) -> 0 <= y.
Proof. unfold kn_ortho. cbn [In]. intro I. repeat (destruct I as [<-|I]; [apply Rabs_pos|]). destruct I. Qed.
Lemma eval_nonneg f1 f2 M y : In y (map (kn_eval f1 f2 M) kn_triples) -> 0 <= y.
Proof. intro I. apply in_map_iff in I as ([[i j] k] & <- & _). apply Rabs_pos. Qed.
Lemma triples_In i j k : (i < j < k)%nat -> (k < 5)%nat -> In (i, j, k) kn_triples.
Proof.
  intros H K. unfold kn_triples. assert (k = 2 \/ k = 3 \/ k = 4)%nat as [->|[->| ->]] by lia.
  - assert (i = 0 /\ j = 1)%nat as [-> ->] by lia. cbn. auto 20.
  - assert (j = 1 \/ j = 2)%nat as [->| ->] by lia; [assert (i = 0)%nat as -> by lia|assert (i = 0 \/ i = 1)%nat as [->| ->] by lia]; cbn; auto 20.
  - assert (j = 1 \/ j = 2 \/ j = 3)%nat as [->|[->| ->]] by lia;
      [assert (i = 0)%nat as -> by lia|assert (i = 0 \/ i = 1)%nat as [->| ->] by lia|assert (i = 0 \/ i = 1 \/ i = 2)%nat as [->|[->| ->]] by lia]; cbn; auto 20.
Qed.
Lemma pairs_In a b : (a < b)%nat -> (b < 5)%nat -> In (a, b) kn_pairs.
Proof.
  intros H K. unfold kn_pairs. assert (b = 1 \/ b = 2 \/ b = 3 \/ b = 4)%nat as [->|[->|[->| ->]]] by lia;
    [assert (a = 0)%nat as -> by lia|assert (a = 0 \/ a = 1)%nat as [->| ->] by lia|assert (a = 0 \/ a = 1 \/ a = 2)%nat as [->|[->| ->]] by lia|
     assert (a = 0 \/ a = 1 \/ a = 2 \/ a = 3)%nat as [->|[->|[->| ->]]] by lia]; cbn; auto 20.
Qed.
Lemma column_In f1 f2 D V i M : In M (kn_column f1 f2 D V i) ->
  kn_rotation V i = Some M /\ Rabs (det M - 1) < 1 / 10 /\ kn_total f1 f2 M < 1 / 1000 /\ kn_positive f1 f2 M = true.
Proof.
  unfold kn_column. destruct (Rlt_dec _ _); [|intros []]. destruct (kn_rotation V i) as [N|]; [|intros []].
  destruct (Rlt_dec (Rabs (det N - 1)) (1 / 10)); [|intros []]. destruct (Rlt_dec (kn_total f1 f2 N) (1 / 1000)); [|intros []].
  destruct (kn_positive f1 f2 N) eqn:P; [|intros []]. intros [<-|[]]. auto.
Qed.
Lemma divs_unit r : norm r <> 0 -> norm2 (vdivs r (norm r)) = 1.
Proof.
  intro N. unfold norm in *. assert (0 <= norm2 r) by (destruct r; lunf; nra). assert (S : sqrt (norm2 r) * sqrt (norm2 r) = norm2 r) by (now apply sqrt_sqrt).
  transitivity (norm2 r / (sqrt (norm2 r) * sqrt (norm2 r))); [destruct r; lunf; field; exact N|]. rewrite S. field. intro Q. rewrite Q in N. apply N. apply sqrt_0.
Qed.
Theorem C78_accepts : forall eig A idx Ms, fivept_kneip eig A idx = Some Ms ->
  (length Ms <= 20)%nat /\
  forall M, In M Ms ->
    norm2 (row M 1) = 1 /\ norm2 (row M 2) = 1 /\ Rabs (det M - 1) < 1 / 10 /\
    (forall i j, (i < 3)%nat -> (j < 3)%nat -> Rabs (dot (row M i) (row M j) - delta i j) < 1 / 1000) /\
    let f1 i := rf1 A (nth i idx 0%nat) in let f2 i := rf2 A (nth i idx 0%nat) in
    (forall i j k, (i < j < k)%nat -> (k < 5)%nat -> Rabs (coplanar3 f1 f2 M i j k) < 1 / 1000) /\
    (forall i a b, (i < 5)%nat -> (a < b < 5)%nat ->
       let trans := cross (cross (f1 a) (mv M (f2 a))) (cross (f1 b) (mv M (f2 b))) in
       0 <= dot (cross trans (f1 i)) (cross trans (mv M (f2 i)))).
Proof.
  intros eig A idx Ms E. unfold fivept_kneip, fivept_kneip_main in E. set (f1 := fun i => rf1 A (nth i idx 0%nat)) in *. set (f2 := fun i => rf2 A (nth i idx 0%nat)) in *.
  destruct (kn_basis f1 f2) as [G|]; [|discriminate]. destruct (eig (kn_action G)) as [D V]. remember (seq 0 20) as l20 eqn:El. injection E as <-. split.
  - assert (B : forall l, (length (flat_map (kn_column f1 f2 D V) l) <= length l)%nat).
    { induction l as [|i l IH]; cbn [flat_map length]; [lia|]. rewrite app_length.
      assert (length (kn_column f1 f2 D V i) <= 1)%nat; [|lia].
      unfold kn_column. repeat (match goal with |- context [if ?b then _ else _] => destruct b | |- context [match ?b with Some _ => _ | None => _ end] => destruct b end; cbn [length]; try lia). }
    specialize (B l20). rewrite El, seq_length in B. now rewrite El.
  - intros M I. apply in_flat_map in I as (c & _ & I). apply column_In in I as (Er & Hd & Ht & Hp).
    assert (Ht1 : rsum (map (kn_eval f1 f2 M) kn_triples) < 1 / 1000).
    { unfold kn_total in Ht. pose proof (rsum_nonneg (kn_ortho M) (ortho_nonneg M)). lra. }
    assert (Ht2 : rsum (kn_ortho M) < 1 / 1000).
    { unfold kn_total in Ht. pose proof (rsum_nonneg _ (eval_nonneg f1 f2 M)). lra. }
    assert (O : forall y, In y (kn_ortho M) -> y < 1 / 1000).
    { intros y Hy. pose proof (rsum_bound _ y (ortho_nonneg M) Hy). lra. }
    assert (Rows : norm2 (row M 1) = 1 /\ norm2 (row M 2) = 1).
    { unfold kn_rotation in Er. destruct (ceqb _ _); [discriminate|]. cbv zeta in Er.
      match type of Er with context [norm (V3 ?a ?b ?c)] => set (r1 := V3 a b c) in * end.
      destruct (Req_EM_T (norm r1) 0) as [|N1]; [discriminate|].
      match type of Er with context [Req_EM_T (norm (V3 ?a ?b ?c)) 0] => set (r2 := V3 a b c) in * end.
      destruct (Req_EM_T (norm r2) 0) as [|N2]; [discriminate|]. injection Er as <-.
      split; [rewrite <- (divs_unit r1 N1)|rewrite <- (divs_unit r2 N2)]; [destruct (vdivs r1 (norm r1))|destruct (vdivs r2 (norm r2))]; reflexivity. }
    destruct Rows as [R1 R2]. split; [exact R1|]. split; [exact R2|]. split; [exact Hd|]. split; [|split].
    + intros i j Hi Hj.
      assert (Dd : forall k, delta k k = 1) by (intro k; unfold delta; destruct (Nat.eq_dec k k); congruence).
      assert (Dn : forall a b, a <> b -> delta a b = 0) by (intros a b N; unfold delta; destruct (Nat.eq_dec a b); congruence).
      assert (T : forall y x, In y (kn_ortho M) -> Rabs x = y -> Rabs x < 1 / 1000) by (intros y x Hy ->; now apply O).
      destruct M as [r00 r01 r02 r10 r11 r12 r20 r21 r22]. unfold kn_ortho in T. cbn [m00 m01 m02 m10 m11 m12 m20 m21 m22] in T.
      assert (i = 0 \/ i = 1 \/ i = 2)%nat as Ci by lia. assert (j = 0 \/ j = 1 \/ j = 2)%nat as Cj by lia.
      destruct Ci as [->|[->| ->]], Cj as [->|[->| ->]]; (rewrite Dd || rewrite Dn by discriminate); lazy beta iota delta [row col mT dot vx vy vz m00 m01 m02 m10 m11 m12 m20 m21 m22];
        match goal with |- Rabs ?x < _ => first
          [ apply (T (Rabs (r00 * r00 + r01 * r01 + r02 * r02 - 1)) x); [cbn; tauto|f_equal; ring]
          | apply (T (Rabs (r00 * r10 + r01 * r11 + r02 * r12)) x); [cbn; tauto|f_equal; ring]
          | apply (T (Rabs (r00 * r20 + r01 * r21 + r02 * r22)) x); [cbn; tauto|f_equal; ring]
          | apply (T (Rabs (r10 * r10 + r11 * r11 + r12 * r12 - 1)) x); [cbn; tauto|f_equal; ring]
          | apply (T (Rabs (r10 * r20 + r11 * r21 + r12 * r22)) x); [cbn; tauto|f_equal; ring]
          | apply (T (Rabs (r20 * r20 + r21 * r21 + r22 * r22 - 1)) x); [cbn; tauto|f_equal; ring] ] end.
    + intros i j k Hij Hk. pose proof (rsum_bound _ (kn_eval f1 f2 M (i, j, k)) (eval_nonneg f1 f2 M) (in_map _ _ _ (triples_In i j k Hij Hk))) as B.
      exact (Rle_lt_trans _ _ _ B Ht1).
    + intros i a b Hi Hab. unfold kn_positive in Hp. rewrite forallb_forall in Hp.
      assert (Ii : In i [0; 1; 2; 3; 4]%nat) by (cbn; lia). specialize (Hp i Ii). rewrite forallb_forall in Hp. specialize (Hp (a, b) (pairs_In a b ltac:(lia) ltac:(lia))).
      unfold kn_front in Hp. cbn [fst snd] in Hp. unfold kn_normal in Hp. cbv zeta. destruct (Rlt_dec _ _) as [|N]; [discriminate|]. lra.
Qed.

(** * Exact data *)
Section Exact.
Variables (R12 : mat3) (t : vec3) (f1 f2 : nat -> vec3).
Hypothesis Rot : rotation R12.
Hypothesis Sc : kn_scene R12 t f1 f2.
Lemma scene_normal i : (i < 5)%nat -> exists X s, kn_normal f1 f2 R12 i = vscale s (cross X t).
Proof.
  intro Hi. destruct (Sc i Hi) as (X & lam & mu & _ & _ & E1 & E2). exists X, (- (lam * mu)). unfold kn_normal. rewrite E1, E2.
  destruct X, t. lunf. f_equal; ring.
Qed.
Lemma scene_coplanar i j k : (i < 5)%nat -> (j < 5)%nat -> (k < 5)%nat -> det (of_cols (kn_normal f1 f2 R12 i) (kn_normal f1 f2 R12 j) (kn_normal f1 f2 R12 k)) = 0.
Proof.
  intros Hi Hj Hk. destruct (scene_normal i Hi) as (X & a & ->). destruct (scene_normal j Hj) as (Y & b & ->). destruct (scene_normal k Hk) as (Z & c & ->).
  destruct X, Y, Z, t. lunf. ring.
Qed.
Lemma scene_total : kn_total f1 f2 R12 = 0.
Proof.
  unfold kn_total. assert (E1 : rsum (map (kn_eval f1 f2 R12) kn_triples) = 0).
  { unfold rsum, kn_triples. cbn [map fold_right]. unfold kn_eval. rewrite !scene_coplanar by lia. rewrite Rabs_R0. ring. }
  rewrite E1. pose proof (rot_r R12 Rot) as O1. pose proof (rot_adj R12 Rot) as O3. clear - O1 O3.
  destruct R12 as [r00 r01 r02 r10 r11 r12 r20 r21 r22]. unfold adj, mT, mmul, mid in O1, O3. cbn [m00 m01 m02 m10 m11 m12 m20 m21 m22] in O1, O3.
  injection O1 as ? ? ? ? ? ? ? ? ?. injection O3 as ? ? ? ? ? ? ? ? ?. unfold rsum, kn_ortho. cbn [fold_right m00 m01 m02 m10 m11 m12 m20 m21 m22].
  assert (Z : forall x, x = 0 -> Rabs x = 0) by (intros x ->; apply Rabs_R0). rewrite !Z by lra. ring.
Qed.
Lemma scene_positive : kn_positive f1 f2 R12 = true.
Proof.
  unfold kn_positive. apply forallb_forall. intros i Ii. apply forallb_forall. intros [a b] Iab.
  assert (Hi : (i < 5)%nat) by (cbn in Ii; lia).
  assert (Hab : (a < 5 /\ b < 5)%nat).
  { unfold kn_pairs in Iab. cbn [In] in Iab. repeat (destruct Iab as [Q|Iab]; [injection Q as <- <-; lia|]). destruct Iab. }
  destruct Hab as [Ha Hb]. unfold kn_front. cbn [fst snd]. destruct (Rlt_dec _ 0) as [L|]; [exfalso|reflexivity].
  destruct (scene_normal a Ha) as (X & u & Ea). destruct (scene_normal b Hb) as (Y & w & Eb). rewrite Ea, Eb in L.
  destruct (Sc i Hi) as (Z & lam & mu & Pl & Pm & E1 & E2). rewrite E1, E2 in L.
  set (k := u * w * dot (cross X t) Y).
  assert (Q : cross (vscale u (cross X t)) (vscale w (cross Y t)) = vscale (- k) t).
  { unfold k. destruct X, Y, t. lunf. f_equal; ring. }
  rewrite Q in L. assert (P : dot (cross (vscale (- k) t) (vscale lam Z)) (cross (vscale (- k) t) (vscale mu (vsub Z t))) = lam * mu * norm2 (cross (vscale k t) Z)).
  { clearbody k. destruct Z, t. lunf. ring. }
  rewrite P in L. assert (0 <= norm2 (cross (vscale k t) Z)) by (destruct (cross (vscale k t) Z); lunf; nra). pose proof (Rmult_lt_0_compat _ _ Pl Pm). nra.
Qed.
End Exact.

Theorem C78_recovers : forall eig R12 t A idx, rotation R12 ->
  let f1 i := rf1 A (nth i idx 0%nat) in let f2 i := rf2 A (nth i idx 0%nat) in
  kn_scene R12 t f1 f2 ->
  forall G, kn_basis f1 f2 = Some G -> good_eigen 20 (kn_action G) (eig (kn_action G)) ->
  simple_eig 20 (kn_action G) (m00 R12) (kn_vec R12) ->
  exists Ms, fivept_kneip eig A idx = Some Ms /\ In R12 Ms.
Proof.
  intros eig R12 t A idx Rot f1 f2 Sc G K GE Sim.
  assert (EP : eigenpair 20 (kn_action G) (m00 R12) (kn_vec R12)).
  { apply (C78_eigenvector f1 f2); auto. intros i j k Hij Hk. apply (scene_coplanar R12 t f1 f2 Sc); lia. }
  destruct (GE (RtoC (m00 R12)) (fun i => RtoC (kn_vec R12 i))) as (k & Hk & ED & Ek).
  { split.
    - exists 19%nat. split; [lia|]. change (kn_vec R12 19) with 1. intro Q. unfold RtoC, c0 in Q. injection Q. lra.
    - intros i Hi. rewrite (csum_ext 20 _ (fun j => RtoC (kn_action G i j * kn_vec R12 j))) by (intros; now rewrite RtoC_mul).
      rewrite csum_real, <- RtoC_mul. f_equal. now apply EP. }
  destruct (Sim _ Ek) as (c & Hc). cbv beta in Hc.
  assert (Nc : c <> c0).
  { intros ->. destruct Ek as [(i & Hi & Ni) _]. apply Ni. rewrite Hc by auto. ring. }
  unfold fivept_kneip, fivept_kneip_main. fold f1 f2. rewrite K. destruct (eig (kn_action G)) as [D V]. cbn [fst snd] in ED, Hc.
  eexists. split; [reflexivity|]. apply in_flat_map. exists k. split; [apply in_seq; lia|]. unfold kn_column.
  rewrite ED. destruct (Rlt_dec (Rabs (im (RtoC (m00 R12)))) (1 / 10)) as [_|N].
  2:{ exfalso. apply N. unfold RtoC. cbn [im]. rewrite Rabs_R0. lra. }
  assert (ER : kn_rotation V k = Some R12).
  { unfold kn_rotation. assert (E19 : V 19%nat k = c) by (rewrite Hc by lia; change (kn_vec R12 19) with 1; replace (RtoC 1) with c1 by reflexivity; ring). rewrite E19.
    destruct (ceqb c c0) as [|_]; [congruence|].
    assert (Dv : forall x, re (cdiv (cmul c (RtoC x)) c) = x) by (intro x; replace (cdiv (cmul c (RtoC x)) c) with (RtoC x); [reflexivity|field; auto]).
    cbv zeta. rewrite !Hc by lia. rewrite !Dv. unfold kn_vec, kn_monomials. cbn [nth].
    pose proof (rot_r R12 Rot) as O1. destruct R12 as [r00 r01 r02 r10 r11 r12 r20 r21 r22]. unfold mT, mmul, mid in O1. cbn [m00 m01 m02 m10 m11 m12 m20 m21 m22] in *.
    injection O1 as ? ? ? ? ? ? ? ? ?.
    assert (N1 : norm (V3 r10 r11 r12) = 1) by (unfold norm; replace (norm2 (V3 r10 r11 r12)) with 1 by (lunf; lra); apply sqrt_1).
    assert (N2 : norm (V3 r20 r21 r22) = 1) by (unfold norm; replace (norm2 (V3 r20 r21 r22)) with 1 by (lunf; lra); apply sqrt_1).
    rewrite N1, N2. destruct (Req_EM_T 1 0) as [|_]; [lra|]. f_equal. lunf. f_equal; field. }
  rewrite ER. destruct Rot as [O Dt]. destruct (Rlt_dec (Rabs (det R12 - 1)) (1 / 10)) as [_|N].
  2:{ exfalso. apply N. rewrite Dt. replace (1 - 1) with 0 by ring. rewrite Rabs_R0. lra. }
  destruct (Rlt_dec (kn_total f1 f2 R12) (1 / 1000)) as [_|N].
  2:{ exfalso. apply N. rewrite (scene_total R12 t f1 f2 (conj O Dt) Sc). lra. }
  rewrite (scene_positive R12 t f1 f2 Sc). now left.
Qed.

(** such an eigensolver exists *)
Lemma good_eigen_exists n : exists eig : (nat -> nat -> R) -> (nat -> cx) * (nat -> nat -> cx), forall M, good_eigen n M (eig M).
Proof.
  apply (choice (good_eigen n)). intro M. destruct (eig_list n M) as (L & ND & HL & AL).
  assert (Len := eig_at_most n M L ND HL).
  assert (HW : forall i, exists w, (i < length L)%nat -> ceigen n M (nth i L c0) w).
  { intro i. destruct (Nat.lt_ge_cases i (length L)) as [B|B]; [|exists (fun _ => c0); lia].
    destruct (HL (nth i L c0) (nth_In _ _ B)) as [w Hw]. eauto. }
  apply choice in HW as [w HW]. exists (fun k => nth k L c0, fun i k => w k i). intros mu v Hv.
  destruct (In_nth L mu c0 (AL mu v Hv)) as (k & Hk & <-). exists k. split; [lia|]. cbn [fst snd]. split; [reflexivity|]. now apply HW.
Qed.
