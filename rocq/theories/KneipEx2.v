(** Five correspondences: the hypotheses of C78 are met. *)
From Coq Require Import Reals Lra Lia List Arith NArith ZArith Bool Znumtheory Uint63.
From Verif Require Import Lin GenLin Cplx CEig GbModel GbMod GbProps GeoModel ModElim KneipOps KneipData KneipModel KneipForms KneipRow KneipProps KneipZrow KneipEx1
  UpnpActGrad UpnpActEx4 SixptProps.
Import ListNotations.
Local Open Scope R_scope.

(** * The scene *)
Definition k5_X : list (Z * Z * Z) := [(1, 2, 9); (-3, 1, 8); (2, -4, 7); (-1, -2, 10); (4, 3, 11)]%Z.
Definition k5_Y : list (Z * Z * Z) := [(-1, 20, 11); (-10, 20, 2); (-9, 3, 15); (-14, 16, 13); (5, 23, 20)]%Z.
Definition zv3 (p : Z * Z * Z) : vec3 := let '(a, b, c) := p in V3 (IZR a) (IZR b) (IZR c).
Definition k5_x (i : nat) : Z * Z * Z := nth i k5_X (0, 0, 0)%Z.
Definition k5_y (i : nat) : Z * Z * Z := nth i k5_Y (0, 0, 0)%Z.
Definition k5_A : rel_adapter := RelAdapter (fun i => zv3 (k5_x i)) (fun i => zv3 (k5_y i)) (fun _ => V3 0 0 0) (fun _ => V3 0 0 0) (fun _ => mid) (fun _ => mid) (Pose mid (V3 0 0 0)).
Definition k5_idx : list nat := seq 0 5.
Definition k5_R : mat3 := M3 (2 / 3) (-1 / 3) (2 / 3) (2 / 3) (2 / 3) (-1 / 3) (-1 / 3) (2 / 3) (2 / 3).
Definition k5_t : vec3 := V3 1 (-1) 2.
Definition k5_f1 (i : nat) : vec3 := rf1 k5_A (nth i k5_idx 0%nat).
Definition k5_f2 (i : nat) : vec3 := rf2 k5_A (nth i k5_idx 0%nat).
Lemma k5_rot : rotation k5_R.
Proof. unfold rotation, orthogonal, k5_R. split; [lunf; f_equal; field|lunf; field]. Qed.
Lemma k5_scene : kn_scene k5_R k5_t k5_f1 k5_f2.
Proof.
  intros i Hi. exists (k5_f1 i), 1, 3. split; [lra|]. split; [lra|].
  do 5 (destruct i as [|i]; [split; [destruct (k5_f1 _); lunf; f_equal; ring|unfold k5_f1, k5_f2, k5_A, k5_idx, k5_x, k5_y, k5_X, k5_Y, k5_R, k5_t; cbn [rf1 rf2 nth seq zv3]; lunf; f_equal; field]|]). lia.
Qed.

(** * The matrix at the start *)
Definition rz (A : z33) : mat3 := M3 (IZR (z00 A)) (IZR (z01 A)) (IZR (z02 A)) (IZR (z10 A)) (IZR (z11 A)) (IZR (z12 A)) (IZR (z20 A)) (IZR (z21 A)) (IZR (z22 A)).
Lemma zkn_row_ok p0 p1 p2 q0 q1 q2 : kn_row (rz p0) (rz p1) (rz p2) (rz q0) (rz q1) (rz q2) = map (fun e => (fst e, IZR (snd e))) (zkn_row p0 p1 p2 q0 q1 q2).
Proof.
  unfold kn_row, zkn_row, rz. cbn [map fst snd m00 m01 m02 m10 m11 m12 m20 m21 m22].
  repeat (apply f_equal2; [apply f_equal; repeat (rewrite plus_IZR || rewrite minus_IZR || rewrite mult_IZR || rewrite opp_IZR); reflexivity|]). reflexivity.
Qed.
Definition zout (s : Z) (a b : Z * Z * Z) : z33 :=
  (let '(a0, a1, a2) := a in let '(b0, b1, b2) := b in
  Z33 (s * (a0 * b0)) (s * (a0 * b1)) (s * (a0 * b2)) (s * (a1 * b0)) (s * (a1 * b1)) (s * (a1 * b2)) (s * (a2 * b0)) (s * (a2 * b1)) (s * (a2 * b2)))%Z.
Lemma zout_ok s a b : mscale (IZR s) (outer (zv3 a) (zv3 b)) = rz (zout s a b).
Proof. destruct a as [[a0 a1] a2], b as [[b0 b1] b2]. unfold rz, zout, mscale, outer, zv3. cbn [vx vy vz m00 m01 m02 m10 m11 m12 m20 m21 m22 z00 z01 z02 z10 z11 z12 z20 z21 z22]. now rewrite !mult_IZR. Qed.
Definition zepi (a b c a' b' c' : Z * Z * Z) : list (nat * Z) :=
  let '(c0, c1, c2) := c in let '(d0, d1, d2) := c' in
  zkn_row (zout c0 a b) (zout c1 a b) (zout c2 a b) (zout d0 a' b') (zout d1 a' b') (zout d2 a' b').
Lemma zepi_ok a b c a' b' c' : kn_epi (zv3 a) (zv3 b) (zv3 c) (zv3 a') (zv3 b') (zv3 c') = map (fun e => (fst e, IZR (snd e))) (zepi a b c a' b' c').
Proof.
  destruct c as [[c0 c1] c2], c' as [[d0 d1] d2]. unfold kn_epi, zepi. cbv zeta.
  change (vx (zv3 (c0, c1, c2))) with (IZR c0). change (vy (zv3 (c0, c1, c2))) with (IZR c1). change (vz (zv3 (c0, c1, c2))) with (IZR c2).
  change (vx (zv3 (d0, d1, d2))) with (IZR d0). change (vy (zv3 (d0, d1, d2))) with (IZR d1). change (vz (zv3 (d0, d1, d2))) with (IZR d2).
  rewrite !zout_ok. apply zkn_row_ok.
Qed.

Definition k5_p : int := 8191%uint63.
Lemma k5_p1 : (1 < to_Z k5_p)%Z. Proof. reflexivity. Qed.
Lemma k5_p2 : (to_Z k5_p < 2147483648)%Z. Proof. reflexivity. Qed.
Definition zint (z : Z) : int := of_Z (z mod 8191).
Lemma zint_ok z : rok k5_p (IZR z) (zint z).
Proof.
  pose proof (Z.mod_pos_bound z 8191 ltac:(lia)) as B. assert (E : to_Z (zint z) = (z mod 8191)%Z).
  { unfold zint. rewrite of_Z_spec. apply Z.mod_small. change wB with 9223372036854775808%Z. lia. }
  split; rewrite E; change (to_Z k5_p) with 8191%Z; [|lia]. apply (residue_IZR 8191). reflexivity.
Qed.
Definition lrow (l : list (nat * Z)) : irow := fold_right (fun e w => tset 0%uint63 w (key (fst e)) (zint (snd e))) L l.
Lemma lrow_ok l : rrel k5_p (kn_at (map (fun e => (fst e, IZR (snd e))) l)) (lrow l).
Proof.
  induction l as [|[k z] l IH]; intro c; cbn [map fst snd lrow fold_right]; unfold kn_at; cbn [find fst snd].
  - unfold cell. rewrite tget_L. apply rok_0. exact k5_p1.
  - unfold cell. rewrite tget_set, key_eqb, (Nat.eqb_sym k c). destruct (Nat.eqb c k); cbn [snd]; [apply zint_ok|]. apply (IH c).
Qed.
Definition k5_const : imat := fold_left (fun M e => tset L M (key (fst (fst e))) (tset 0%uint63 (rowof M (key (fst (fst e)))) (key (snd (fst e))) (zint (snd e)))) kn_constZ L.
Lemma k5_const_ok : imrel k5_p (gcells kn_const) k5_const.
Proof.
  rewrite const_Z. unfold gcells, k5_const.
  assert (K : forall l G M, imrel k5_p G M ->
    imrel k5_p (fold_left (fun G e => gset G (fst (fst e)) (snd (fst e)) (snd e)) (map (fun e => (fst e, IZR (snd e))) l) G)
      (fold_left (fun M e => tset L M (key (fst (fst e))) (tset 0%uint63 (rowof M (key (fst (fst e)))) (key (snd (fst e))) (zint (snd e)))) l M)).
  { induction l as [|[[r c] z] l IH]; cbn [map fold_left fst snd]; intros G M Rl; [exact Rl|]. apply IH.
    apply (imrel_set k5_p G); auto.
    - intro j. rewrite gset_same. apply (rrel_set k5_p (G r)); [apply Rl|apply zint_ok].
    - intros q j Hq. now apply gset_row. }
  apply K. intros r c. unfold cell, rowof. rewrite !tget_L. apply rok_0. exact k5_p1.
Qed.
Definition k5_row (r : nat) (t : nat * nat * nat) : irow := let '(i, j, k) := t in lrow (zepi (k5_x i) (k5_x j) (k5_x k) (k5_y i) (k5_y j) (k5_y k)).
Definition k5_init : imat := fold_left (fun M r => tset L M (key r) (k5_row r (nth r kn_triples (0, 0, 0)%nat))) (seq 0 10) k5_const.
Lemma k5_row_ok r : (r < 10)%nat -> rrel k5_p (kn_init k5_f1 k5_f2 r) (k5_row r (nth r kn_triples (0, 0, 0)%nat)).
Proof.
  intros Hr c. unfold kn_init.
  do 10 (destruct r as [|r]; [cbn [nth_error kn_triples nth k5_row];
    match goal with |- rok _ (kn_at (kn_epi (k5_f1 ?i) (k5_f1 ?j) (k5_f1 ?k) _ _ _) _) _ =>
      change (kn_epi (k5_f1 i) (k5_f1 j) (k5_f1 k) (k5_f2 i) (k5_f2 j) (k5_f2 k)) with (kn_epi (zv3 (k5_x i)) (zv3 (k5_x j)) (zv3 (k5_x k)) (zv3 (k5_y i)) (zv3 (k5_y j)) (zv3 (k5_y k))) end;
    rewrite zepi_ok; apply lrow_ok|]). lia.
Qed.
Lemma k5_init_ok : imrel k5_p (kn_init k5_f1 k5_f2) k5_init.
Proof.
  assert (S : forall l M, (forall r, In r l -> (r < 10)%nat) -> (forall r, ~ In r l -> rrel k5_p (kn_init k5_f1 k5_f2 r) (rowof M (key r))) ->
    imrel k5_p (kn_init k5_f1 k5_f2) (fold_left (fun M r => tset L M (key r) (k5_row r (nth r kn_triples (0, 0, 0)%nat))) l M)).
  { induction l as [|q l IH]; intros M B H; cbn [fold_left]; [intro r; apply H; intros []|]. apply IH; [intros; apply B; now right|].
    intros r Nr. unfold rowof. rewrite tget_set, key_eqb. destruct (Nat.eqb_spec r q) as [->|Ne]; [apply k5_row_ok, B; now left|]. apply H. intros [|]; auto. }
  apply S.
  - intros r Hr. apply in_seq in Hr. lia.
  - intros r Nr. assert (Hr : (10 <= r)%nat) by (destruct (Nat.lt_ge_cases r 10); [exfalso; apply Nr, in_seq; lia|auto]).
    intro c. unfold kn_init. replace (nth_error kn_triples r) with (@None (nat * nat * nat)) by (symmetry; now apply nth_error_None). apply k5_const_ok.
Qed.

(** * The action matrix modulo 8191; 2731 is 2/3 *)
Definition k5_act (M : imat) (r : nat) : nat -> int :=
  if Nat.ltb r 10 then let w := rowof M (key (51 + r)) in fun c => isub k5_p 0%uint63 (cell w (key (177 + c)))
  else let s := if Nat.ltb r 19 then (r - 9)%nat else 18%nat in fun c => if Nat.eqb c s then 1%uint63 else 0%uint63.
Definition k5_erow (M : imat) (r : nat) : list Z :=
  let f := k5_act M r in map (fun c => to_Z (isub k5_p (f c) (if Nat.eqb c r then 2731%uint63 else 0%uint63))) (seq 0 19).
Definition k5_order : list nat := [9; 10; 11; 12; 13; 14; 15; 16; 17; 18; 8; 7; 6; 5; 4; 3; 2; 1; 19]%nat.
Definition testo {A} (f : A -> bool) (o : option A) : bool := match o with Some a => f a | None => false end.
Definition k5_good (M : imat) : bool := regular 8191 19 (map (k5_erow M) k5_order).
Lemma k5_checked : testo k5_good (irun k5_p (decode iS iR iI) kn_code k5_init) = true.
Proof. vm_cast_no_check (@eq_refl bool true). Qed.
Definition k5_eq (G : gmat) (r c : nat) : R := kn_action G r c - 2 / 3 * delta c r.
Lemma rok_int z : (0 <= z < 8191)%Z -> rok k5_p (IZR z) (of_Z z).
Proof. intro H. pose proof (zint_ok z) as K. unfold zint in K. now rewrite Z.mod_small in K. Qed.
Lemma k5_delta c s : rok k5_p (delta c s) (if Nat.eqb c s then 1%uint63 else 0%uint63).
Proof. unfold delta. destruct (Nat.eq_dec c s), (Nat.eqb_spec c s); try congruence; [exact (rok_int 1 ltac:(lia))|exact (rok_int 0 ltac:(lia))]. Qed.
Lemma k5_act_ok G M r c : imrel k5_p G M -> rok k5_p (kn_action G r c) (k5_act M r c).
Proof.
  intro Rl. unfold kn_action, k5_act. destruct (Nat.ltb r 10).
  - cbv zeta. replace (- G (51 + r)%nat (177 + c)%nat) with (0 - G (51 + r)%nat (177 + c)%nat) by ring. apply rok_sub; [exact k5_p1|exact k5_p2|apply rok_0; exact k5_p1|apply Rl].
  - cbv zeta. destruct (Nat.ltb r 19); apply k5_delta.
Qed.
Lemma k5_erow_ok G M r : imrel k5_p G M -> rrow 8191 (map (k5_eq G r) (seq 0 19)) (k5_erow M r).
Proof.
  intro Rl. unfold k5_erow. cbv zeta. induction (seq 0 19) as [|c l IH]; cbn [map]; constructor; auto.
  unfold k5_eq. destruct (rok_sub k5_p k5_p1 k5_p2 (kn_action G r c) (2 / 3 * delta c r) (k5_act M r c) (if Nat.eqb c r then 2731%uint63 else 0%uint63)) as [K _]; [now apply k5_act_ok| |exact K].
  unfold delta. destruct (Nat.eq_dec c r), (Nat.eqb_spec c r); try congruence.
  - split; [|reflexivity]. exists 2%Z, 3%Z. split; [apply Zgcd_1_rel_prime; reflexivity|]. split; [lra|]. exists (-1)%Z. reflexivity.
  - rewrite Rmult_0_r. apply rok_0. exact k5_p1.
Qed.
Lemma machine_good p good code G0 M0 : (1 < to_Z p)%Z -> (to_Z p < 2147483648)%Z -> imrel p G0 M0 -> testo good (irun p (decode iS iR iI) code M0) = true ->
  exists G M, krun (map kn_op code) G0 = Some G /\ imrel p G M /\ good M = true.
Proof.
  intros P1 P2 Rl T. unfold testo in T. destruct (irun p (decode iS iR iI) code M0) as [M|] eqn:E; [|discriminate].
  destruct (irun_ok p P1 P2 (decode iS iR iI) decode_ok code G0 M0 M Rl E) as (G & EG & Rg). exists G, M. auto.
Qed.
Lemma k5_basis : exists G, kn_basis k5_f1 k5_f2 = Some G /\ forall x, eigenpair 20 (kn_action G) (2 / 3) x -> x 19%nat = 0 -> forall i, (i < 20)%nat -> x i = 0.
Proof.
  destruct (machine_good k5_p k5_good kn_code (kn_init k5_f1 k5_f2) k5_init k5_p1 k5_p2 k5_init_ok k5_checked) as (G & M & EG & Rl & C).
  exists G. split; [exact EG|]. clear EG.
  intros x Ex X19. apply (regular_kernel 8191 ltac:(reflexivity) 20 (seq 0 19) (map (k5_eq G) k5_order) (map (k5_erow M) k5_order) x C).
  - assert (K := fun r => k5_erow_ok G M r Rl). clear - K. generalize k5_order. intro l. induction l as [|r l IH]; cbn [map]; constructor; auto.
  - vm_compute; reflexivity.
  - vm_compute; reflexivity.
  - intros c Hc N. assert (c = 19)%nat as -> by (destruct (Nat.lt_ge_cases c 19); [exfalso; apply N, in_seq; lia|lia]). exact X19.
  - intros f Hf. apply in_map_iff in Hf as (r & <- & Hr). assert (Hr' : (r < 20)%nat) by (unfold k5_order in Hr; cbn [In] in Hr; lia).
    unfold k5_eq. rewrite (sumn_ext 20 _ (fun c => kn_action G r c * x c - 2 / 3 * (delta c r * x c))) by (intros; ring).
    rewrite sumn_sub, sumn_scale, (sumn_delta 20 r x Hr'), (Ex r Hr'). ring.
Qed.

(** * The hypotheses of C78 are met *)
Lemma k5_coplanar i j k : (i < j < k)%nat -> (k < 5)%nat -> coplanar3 k5_f1 k5_f2 k5_R i j k = 0.
Proof. intros. apply (scene_coplanar k5_R k5_t k5_f1 k5_f2 k5_scene); lia. Qed.
Lemma k5_simple G : kn_basis k5_f1 k5_f2 = Some G -> (forall x, eigenpair 20 (kn_action G) (2 / 3) x -> x 19%nat = 0 -> forall i, (i < 20)%nat -> x i = 0) ->
  simple_eig 20 (kn_action G) (m00 k5_R) (kn_vec k5_R).
Proof.
  intros EG Z u [_ E]. change (m00 k5_R) with (2 / 3) in *. destruct (ceigen_parts 20 _ _ u E) as [Er Ei].
  pose proof (C78_eigenvector k5_f1 k5_f2 k5_R G k5_rot k5_coplanar EG) as EV. change (m00 k5_R) with (2 / 3) in EV.
  assert (K : forall x, eigenpair 20 (kn_action G) (2 / 3) x -> forall i, (i < 20)%nat -> x i = x 19%nat * kn_vec k5_R i).
  { intros x Ex i Hi. enough (x i - x 19%nat * kn_vec k5_R i = 0) by lra.
    apply (Z (fun i => x i - x 19%nat * kn_vec k5_R i)); auto.
    - intros j Hj. rewrite (sumn_ext 20 _ (fun k => kn_action G j k * x k + - x 19%nat * (kn_action G j k * kn_vec k5_R k))) by (intros; ring).
      rewrite sumn_add, sumn_scale, Ex, EV by auto. ring.
    - change (kn_vec k5_R 19) with 1. ring. }
  exists (u 19%nat). intros i Hi. apply cx_eq.
  - rewrite (K _ Er i Hi). cbn [cmul RtoC re im]. ring.
  - rewrite (K _ Ei i Hi). cbn [cmul RtoC re im]. ring.
Qed.
Example C78_rows_nonvacuous : coplanar3 k5_f1 k5_f2 k5_R 0 1 2 = 0 /\ coplanar3 k5_f1 k5_f2 mid 0 1 2 <> 0.
Proof.
  split; [apply k5_coplanar; lia|]. unfold coplanar3, k5_f1, k5_f2, k5_A, k5_idx, k5_x, k5_y, k5_X, k5_Y. cbn [rf1 rf2 nth seq zv3]. lunf. lra.
Qed.
Example C78_eigenvector_nonvacuous : rotation k5_R /\ (forall i j k, (i < j < k)%nat -> (k < 5)%nat -> coplanar3 k5_f1 k5_f2 k5_R i j k = 0) /\ exists G, kn_basis k5_f1 k5_f2 = Some G.
Proof. split; [exact k5_rot|]. split; [exact k5_coplanar|]. destruct k5_basis as (G & EG & _). eauto. Qed.
Example C78_recovers_nonvacuous : exists eig, (forall M, good_eigen 20 M (eig M)) /\ kn_scene k5_R k5_t k5_f1 k5_f2 /\
  exists Ms, fivept_kneip eig k5_A k5_idx = Some Ms /\ In k5_R Ms.
Proof.
  destruct (good_eigen_exists 20) as [eig GE]. exists eig. split; [exact GE|]. split; [exact k5_scene|]. destruct k5_basis as (G & EG & Z).
  exact (C78_recovers eig k5_R k5_t k5_A k5_idx k5_rot k5_scene G EG (GE (kn_action G)) (k5_simple G EG Z)).
Qed.
Example C78_accepts_nonvacuous : exists eig Ms M, fivept_kneip eig k5_A k5_idx = Some Ms /\ In M Ms.
Proof. destruct C78_recovers_nonvacuous as (eig & _ & _ & Ms & E & I). exists eig, Ms, k5_R. auto. Qed.
