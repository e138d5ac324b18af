(** A way to show that a template runs to the end on concrete integer data
    without following the huge rational numbers it produces: run it modulo P.
    If every divisor is invertible modulo P, no divisor is zero over the reals,
    and the residues tell which results are nonzero.  Used for examples and
    counterexamples only. *)
From Coq Require Import Reals Lra Lia List Arith ZArith Bool Znumtheory.
From Verif Require Import GbModel.
Import ListNotations.
Local Open Scope Z_scope.

Section Mod.
Variable P : Z.
(** x is a fraction a/b with b invertible modulo P and a/b = k modulo P *)
Definition residue (x : R) (k : Z) : Prop :=
  exists a b, rel_prime b P /\ (x * IZR b = IZR a)%R /\ (P | a - k * b).

Fixpoint powmod (b : Z) (n : positive) : Z :=
  match n with xH => b mod P | xO n => let h := powmod b n in (h * h) mod P | xI n => let h := powmod b n in (h * h mod P * b) mod P end.
Definition zdiv (x y : Z) : option Z :=
  let i := powmod y (Z.to_pos (P - 2)) in if (y * i) mod P =? 1 then Some ((x * i) mod P) else None.
Fixpoint setl {A} (n : nat) (v : A) (l : list A) : option (list A) :=
  match l, n with
  | [], _ => None
  | _ :: l, O => Some (v :: l)
  | a :: l, S n => match setl n v l with Some l => Some (a :: l) | None => None end
  end.
Definition zmat := list (list Z).
Definition mget (M : zmat) (r c : nat) : Z := nth c (nth r M []) 0.
Definition mset (M : zmat) (r c : nat) (v : Z) : option zmat :=
  match setl c v (nth r M []) with Some row => setl r row M | None => None end.
Definition zterm (M : zmat) (i p : nat) (a : option nat) : option Z :=
  match a with Some a => zdiv (mget M i a) (mget M i p) | None => Some 0 end.
Definition zstep (o : gop) (M : zmat) : option zmat :=
  match o with
  | GS t i p j q es =>
      match zdiv 1 (mget M i p), zdiv 1 (mget M j q) with
      | Some _, Some _ =>
          fold_left (fun H e => match H with None => None | Some H =>
            match zterm H i p (snd (fst e)), zterm H j q (snd e) with
            | Some u, Some v => mset H t (fst (fst e)) ((u - v) mod P)
            | _, _ => None end end) es (Some M)
      | _, _ => None
      end
  | GR t s c0 p ps =>
      match zdiv (mget M t c0) (mget M s p) with
      | None => None
      | Some f => fold_left (fun H e => match H with None => None | Some H =>
                    mset H t (fst e) ((mget H t (fst e) - f * mget H s (snd e)) mod P) end) ps (mset M t c0 0)
      end
  | _ => None
  end.
Fixpoint zrun (os : list gop) (M : zmat) : option zmat :=
  match os with [] => Some M | o :: os => match zstep o M with Some H => zrun os H | None => None end end.
Definition zero_mat (nr nc : nat) : zmat := repeat (repeat 0 nc) nr.
Definition zcells (nr nc : nat) (l : list (nat * nat * Z)) : option zmat :=
  fold_left (fun H e => match H with None => None | Some H => mset H (fst (fst e)) (snd (fst e)) (snd e mod P) end) l (Some (zero_mat nr nc)).

Hypothesis P1 : 1 < P.

Lemma rp_nz b : rel_prime b P -> b <> 0.
Proof. intros H ->. apply rel_prime_sym in H. assert (D : (P | 1)) by (apply H; [exists 1; lia|exists 0; lia]). apply Z.divide_1_r in D. lia. Qed.
Lemma residue_mod x k : residue x k -> residue x (k mod P).
Proof.
  intros (a & b & B & E & (q & D)). exists a, b. split; [|split]; auto. exists (q + (k / P) * b).
  rewrite Z.mod_eq by lia. replace a with (q * P + k * b) by lia. ring.
Qed.
Lemma residue_IZR z : residue (IZR z) (z mod P).
Proof. apply residue_mod. exists z, 1. split; [|split]. - apply rel_prime_1. - lra. - exists 0. lia. Qed.
Lemma residue_0 : residue 0 0. Proof. exists 0, 1. split; [|split]. - apply rel_prime_1. - lra. - exists 0. lia. Qed.
Lemma residue_sub x y k l : residue x k -> residue y l -> residue (x - y) (k - l).
Proof.
  intros (a & b & B & E & (q & D)) (a' & b' & B' & E' & (q' & D')). exists (a * b' - a' * b), (b * b'). split; [|split].
  - apply rel_prime_sym, rel_prime_mult; now apply rel_prime_sym.
  - rewrite minus_IZR, !mult_IZR, <- E, <- E'. ring.
  - exists (q * b' - q' * b). replace a with (q * P + k * b) by lia. replace a' with (q' * P + l * b') by lia. ring.
Qed.
Lemma residue_mul x y k l : residue x k -> residue y l -> residue (x * y) (k * l).
Proof.
  intros (a & b & B & E & (q & D)) (a' & b' & B' & E' & (q' & D')). exists (a * a'), (b * b'). split; [|split].
  - apply rel_prime_sym, rel_prime_mult; now apply rel_prime_sym.
  - rewrite !mult_IZR, <- E, <- E'. ring.
  - exists (q * a' + k * b * q'). replace a with (q * P + k * b) by lia. replace a' with (q' * P + l * b') by lia. ring.
Qed.
Lemma residue_nz y l : residue y l -> rel_prime l P -> exists a b, rel_prime a P /\ rel_prime b P /\ (y * IZR b = IZR a)%R /\ (P | a - l * b).
Proof.
  intros (a & b & B & E & (q & D)) L. exists a, b. split; [|split; [|split]]; auto; [|exists q; lia].
  constructor; [exists a; lia|exists P; lia|].
  intros z Z1 Z2. assert (M : rel_prime (l * b) P) by (apply rel_prime_sym, rel_prime_mult; now apply rel_prime_sym).
  apply M; auto. replace (l * b) with (a - q * P) by lia. apply Z.divide_sub_r; auto. now apply Z.divide_mul_r.
Qed.
Lemma residue_neq y l : residue y l -> rel_prime l P -> y <> 0%R.
Proof.
  intros H L. destruct (residue_nz y l H L) as (a & b & A & B & E & _). intros ->. rewrite Rmult_0_l in E.
  apply (eq_IZR 0 a) in E. apply (rp_nz a A). auto.
Qed.
Lemma inv_rp y i : (y * i) mod P = 1 -> rel_prime y P.
Proof.
  intro H. constructor; [exists y; lia|exists P; lia|]. intros z Z1 Z2.
  replace 1 with (y * i - P * (y * i / P)) by (pose proof (Z.div_mod (y * i) P ltac:(lia)); lia).
  apply Z.divide_sub_r; [now apply Z.divide_mul_l|now apply Z.divide_mul_l].
Qed.
Lemma zdiv_ok x y k l q : residue x k -> residue y l -> zdiv k l = Some q -> y <> 0%R /\ residue (x / y) q.
Proof.
  unfold zdiv. intros X Y. set (i := powmod l (Z.to_pos (P - 2))). destruct (Z.eqb_spec ((l * i) mod P) 1) as [I|]; [|discriminate].
  intro Q. injection Q as <-. assert (L := inv_rp l i I). split; [exact (residue_neq y l Y L)|]. apply residue_mod.
  destruct (residue_nz y l Y L) as (a & b & A & B & E & (u & D)). destruct X as (c & d & Dd & F & (w & W)).
  pose proof (residue_neq y l Y L) as Ny.
  assert (Na : IZR a <> 0%R) by (intro Z0; apply eq_IZR in Z0; now apply (rp_nz a A)).
  exists (c * b), (d * a). split; [|split].
  - apply rel_prime_sym, rel_prime_mult; now apply rel_prime_sym.
  - rewrite !mult_IZR, <- F, <- E. field. auto.
  - assert (I' : l * i = 1 + P * (l * i / P)) by (pose proof (Z.div_mod (l * i) P ltac:(lia)); lia).
    set (m := l * i / P) in *. exists (w * b - k * d * (i * u) - k * d * b * m).
    replace c with (w * P + k * d) by lia. replace a with (u * P + l * b) by lia.
    transitivity (w * P * b + k * d * b - k * d * u * P * i - k * d * b * (l * i)); [ring|]. rewrite I'. ring.
Qed.

Definition mrel (G : gmat) (M : zmat) : Prop := forall r c, residue (G r c) (mget M r c).
Lemma setl_nth {A} n v (l l' : list A) d m : setl n v l = Some l' -> nth m l' d = if Nat.eqb m n then v else nth m l d.
Proof.
  revert n l' m; induction l as [|a l IH]; intros n l' m H; [destruct n; discriminate|].
  destruct n; cbn in H; [injection H as <-; now destruct m|].
  destruct (setl n v l) eqn:E; [|discriminate]. injection H as <-. destruct m; cbn; auto.
Qed.
Lemma mset_ok G M M' r c v k : mrel G M -> residue v k -> mset M r c k = Some M' -> mrel (gset G r c v) M'.
Proof.
  intros H V E i j. unfold mset in E. destruct (setl c k (nth r M [])) as [row|] eqn:E1; [|discriminate].
  unfold mget. rewrite (setl_nth _ _ _ _ _ i E). unfold gset. destruct (Nat.eqb_spec i r) as [->|]; cbn [andb]; [|apply H].
  rewrite (setl_nth _ _ _ _ _ j E1). destruct (Nat.eqb j c); auto. apply H.
Qed.
Lemma fold_none {A} (f : zmat -> A -> option zmat) l : fold_left (fun H e => match H with None => None | Some H => f H e end) l None = None.
Proof. induction l; auto. Qed.
Lemma fold_rel {A} (f : gmat -> A -> gmat) (g : zmat -> A -> option zmat) :
  (forall G M M' e, mrel G M -> g M e = Some M' -> mrel (f G e) M') ->
  forall l G M M', mrel G M -> fold_left (fun H e => match H with None => None | Some H => g H e end) l (Some M) = Some M' -> mrel (fold_left f l G) M'.
Proof.
  intros S. induction l as [|e l IH]; cbn; intros G M M' H E; [injection E as <-; auto|].
  destruct (g M e) as [M1|] eqn:E1; [|rewrite fold_none in E; discriminate]. eapply IH; [|exact E]. eapply S; eauto.
Qed.
Lemma zstep_ok o G M M' : mrel G M -> zstep o M = Some M' -> exists G', gstep o G = Some G' /\ mrel G' M'.
Proof.
  intros H E. destruct o as [t i p j q es|t s c0 p ps|r c|t c s]; cbn [zstep] in E; try discriminate.
  - destruct (zdiv 1 (mget M i p)) eqn:D1; [|discriminate]. destruct (zdiv 1 (mget M j q)) eqn:D2; [|discriminate].
    assert (O : residue 1 1). { pose proof (residue_IZR 1) as O. rewrite Z.mod_1_l in O by lia. exact O. }
    destruct (zdiv_ok 1 (G i p) 1 (mget M i p) z O (H i p) D1) as [N1 _].
    destruct (zdiv_ok 1 (G j q) 1 (mget M j q) z0 O (H j q) D2) as [N2 _].
    cbn [gstep]. destruct (Req_EM_T (G i p) 0); [tauto|]. destruct (Req_EM_T (G j q) 0); [tauto|]. eexists. split; [reflexivity|].
    eapply (fold_rel _ (fun H e => match zterm H i p (snd (fst e)), zterm H j q (snd e) with
            | Some u, Some v => mset H t (fst (fst e)) ((u - v) mod P)
            | _, _ => None end)); [|exact H|exact E].
    clear - P1. intros G M M' [[c a] b] H E. cbn [fst snd] in *.
    destruct (zterm M i p a) eqn:Ta; [|discriminate]. destruct (zterm M j q b) eqn:Tb; [|discriminate].
    eapply mset_ok; eauto. apply residue_mod, residue_sub.
    + destruct a; cbn in *; [|injection Ta as <-; apply residue_0]. eapply (zdiv_ok _ _ _ _ _ (H i n) (H i p) Ta).
    + destruct b; cbn in *; [|injection Tb as <-; apply residue_0]. eapply (zdiv_ok _ _ _ _ _ (H j n) (H j q) Tb).
  - destruct (zdiv (mget M t c0) (mget M s p)) as [f|] eqn:D; [|discriminate].
    destruct (zdiv_ok _ _ _ _ _ (H t c0) (H s p) D) as [N F]. cbn [gstep]. destruct (Req_EM_T (G s p) 0); [tauto|].
    eexists. split; [reflexivity|]. cbv zeta.
    destruct (mset M t c0 0) as [M1|] eqn:E1; [|rewrite fold_none in E; discriminate].
    eapply (fold_rel (fun H e => gset H t (fst e) (H t (fst e) - G t c0 / G s p * H s (snd e))%R) (fun H e => mset H t (fst e) ((mget H t (fst e) - f * mget H s (snd e)) mod P))); [| |exact E].
    + intros G2 M2 M3 e H2 E2. eapply mset_ok; eauto. apply residue_mod, residue_sub; [apply H2|]. apply residue_mul; [exact F|apply H2].
    + eapply mset_ok; eauto. apply residue_0.
Qed.
Lemma zrun_ok os : forall G M M', mrel G M -> zrun os M = Some M' -> exists G', grun os G = Some G' /\ mrel G' M'.
Proof.
  induction os as [|o os IH]; cbn; intros G M M' H E; [injection E as <-; eauto|].
  destruct (zstep o M) as [M1|] eqn:E1; [|discriminate]. destruct (zstep_ok o G M M1 H E1) as (G1 & -> & H1). eauto.
Qed.
Lemma zcells_ok nr nc l M : zcells nr nc l = Some M -> mrel (gcells (map (fun e => (fst e, IZR (snd e))) l)) M.
Proof.
  intro E. unfold zcells in E. unfold gcells.
  assert (Z : mrel (fun _ _ => 0%R) (zero_mat nr nc)).
  { intros r c. unfold mget, zero_mat. replace (nth c (nth r (repeat (repeat 0 nc) nr) []) 0) with 0; [apply residue_0|].
    destruct (Nat.lt_ge_cases r nr) as [L|L].
    - rewrite nth_indep with (d' := repeat 0 nc) by (now rewrite repeat_length). rewrite nth_repeat. symmetry. apply nth_repeat.
    - rewrite (nth_overflow (repeat (repeat 0 nc) nr) []) by (now rewrite repeat_length). now destruct c. }
  revert Z E. generalize (zero_mat nr nc), (fun _ _ : nat => 0%R). induction l as [|e l IH]; cbn; intros M0 G0 Z E; [injection E as <-; auto|].
  destruct (mset M0 (fst (fst e)) (snd (fst e)) (snd e mod P)) as [M1|] eqn:E1.
  - eapply IH; [|exact E]. eapply mset_ok; eauto. apply residue_IZR.
  - rewrite (fold_none (fun H e => mset H (fst (fst e)) (snd (fst e)) (snd e mod P))) in E. discriminate.
Qed.
End Mod.
