(** Running the template of fivept_kneip modulo a prime with machine integers, to
    show that it divides by nothing that is zero on concrete data.  Used for
    examples only. *)
From Coq Require Import Reals Lra Lia List Arith NArith ZArith Bool Znumtheory Uint63.
From Verif Require Import GbModel GbMod KneipOps KneipData KneipModel.
Import ListNotations.
Local Open Scope Z_scope.

(** * Tries *)
Inductive tr (A : Type) := L | N (l : tr A) (v : A) (r : tr A).
Arguments L {A}. Arguments N {A} l v r.
Section Tries.
Context {A : Type}.
Variable d : A.
Fixpoint tget (t : tr A) (k : positive) : A :=
  match t with
  | L => d
  | N l v r => match k with xH => v | xO k => tget l k | xI k => tget r k end
  end.
Fixpoint tset (t : tr A) (k : positive) (x : A) : tr A :=
  match k with
  | xH => match t with L => N L x L | N l _ r => N l x r end
  | xO k => match t with L => N (tset L k x) d L | N l v r => N (tset l k x) v r end
  | xI k => match t with L => N L d (tset L k x) | N l v r => N l v (tset r k x) end
  end.
Fixpoint tmap (f : A -> A) (t : tr A) : tr A := match t with L => L | N l v r => N (tmap f l) (f v) (tmap f r) end.
Fixpoint tmap2 (f : A -> A -> A) (a b : tr A) : tr A :=
  match a with
  | L => tmap (f d) b
  | N l v r => match b with L => N (tmap2 f l L) (f v d) (tmap2 f r L) | N l' v' r' => N (tmap2 f l l') (f v v') (tmap2 f r r') end
  end.
Lemma tget_L k : tget L k = d. Proof. now destruct k. Qed.
Lemma tget_set t k x j : tget (tset t k x) j = if Pos.eqb j k then x else tget t j.
Proof.
  revert t j; induction k as [k IH|k IH|]; intros [|l v r] [j|j|]; cbn; rewrite ?IH, ?tget_L; auto.
Qed.
Lemma tget_map f t k : f d = d -> tget (tmap f t) k = f (tget t k).
Proof. intro E. revert k; induction t as [|l IHl v r IHr]; intros [k|k|]; cbn; auto. Qed.
Lemma tget_map2 f a b k : f d d = d -> tget (tmap2 f a b) k = f (tget a k) (tget b k).
Proof.
  intro E. revert b k; induction a as [|l IHl v r IHr]; intros b k; cbn [tmap2].
  - rewrite tget_L. now apply tget_map.
  - destruct b as [|l' v' r']; destruct k as [k|k|]; cbn [tget]; rewrite ?IHl, ?IHr, ?tget_L; auto.
Qed.
End Tries.

Section Machine.
Variable p : int.
Notation P := (to_Z p).
Hypothesis P1 : 1 < P.
Hypothesis P2 : P < 2147483648.
(** * Arithmetic modulo p *)
Definition imul (a b : int) : int := ((a * b) mod p)%uint63.
Definition isub (a b : int) : int := ((a + (p - b)) mod p)%uint63.
Fixpoint ipow (b : int) (n : positive) : int :=
  match n with xH => b | xO n => let h := ipow b n in imul h h | xI n => let h := ipow b n in imul (imul h h) b end.
Definition iinv (y : int) : option int :=
  let i := ipow y (Z.to_pos (P - 2)) in if (imul y i =? 1)%uint63 then Some i else None.
Definition rok (x : R) (k : int) : Prop := residue P x (to_Z k) /\ to_Z k < P.

Lemma imul_val a b : to_Z a < P -> to_Z b < P -> to_Z (imul a b) = (to_Z a * to_Z b) mod P.
Proof.
  intros A B. unfold imul. rewrite mod_spec, mul_spec. pose proof (to_Z_bounded a). pose proof (to_Z_bounded b).
  rewrite (Z.mod_small (to_Z a * to_Z b)); auto. change wB with 9223372036854775808. nia.
Qed.
Lemma isub_val a b : to_Z a < P -> to_Z b < P -> to_Z (isub a b) = (to_Z a - to_Z b) mod P.
Proof.
  intros A B. unfold isub. rewrite mod_spec, add_spec, sub_spec. pose proof (to_Z_bounded a). pose proof (to_Z_bounded b).
  assert (W : wB = 9223372036854775808) by reflexivity. rewrite (Z.mod_small (P - to_Z b)) by lia. rewrite (Z.mod_small (to_Z a + _)) by lia.
  replace (to_Z a + (P - to_Z b)) with (to_Z a - to_Z b + 1 * P) by ring. apply Z.mod_add. lia.
Qed.
Lemma rok_0 : rok 0 0%uint63. Proof. split; [apply residue_0|]. change (to_Z 0%uint63) with 0. lia. Qed.
Lemma rok_mul x y a b : rok x a -> rok y b -> rok (x * y) (imul a b).
Proof.
  intros [A A'] [B B']. split; rewrite imul_val by auto; [|apply Z.mod_pos_bound; lia]. apply residue_mod; [exact P1|]. now apply residue_mul.
Qed.
Lemma rok_sub x y a b : rok x a -> rok y b -> rok (x - y) (isub a b).
Proof.
  intros [A A'] [B B']. split; rewrite isub_val by auto; [|apply Z.mod_pos_bound; lia]. apply residue_mod; [exact P1|]. now apply residue_sub.
Qed.
Lemma ipow_lt b n : to_Z b < P -> to_Z (ipow b n) < P.
Proof.
  intro B. induction n as [n IH|n IH|]; cbn [ipow]; cbv zeta; [| |auto]; unfold imul; rewrite mod_spec; apply Z.mod_pos_bound; lia.
Qed.
Lemma rok_inv y b i : rok y b -> iinv b = Some i -> y <> 0%R /\ rok (1 / y) i.
Proof.
  intros [Y B] E. unfold iinv in E. cbv zeta in E. destruct (imul b (ipow b (Z.to_pos (P - 2))) =? 1)%uint63 eqn:Q; [|discriminate].
  injection E as <-. apply eqb_spec in Q. pose proof (ipow_lt b (Z.to_pos (P - 2)) B) as I. set (i := ipow b (Z.to_pos (P - 2))) in *.
  apply (f_equal to_Z) in Q. rewrite imul_val in Q by auto. change (to_Z 1%uint63) with 1 in Q.
  assert (Lp := inv_rp P P1 _ _ Q). assert (Ny := residue_neq P P1 y (to_Z b) Y Lp). split; [exact Ny|]. split; [|exact I].
  destruct (residue_nz P y (to_Z b) Y Lp) as (a & c & Ap & Cp & Eq & (u & D)).
  exists c, a. split; [auto|]. split; [rewrite <- Eq; field; exact Ny|].
  assert (I' : to_Z b * to_Z i = 1 + P * (to_Z b * to_Z i / P)) by (pose proof (Z.div_mod (to_Z b * to_Z i) P ltac:(lia)); lia).
  set (m := to_Z b * to_Z i / P) in *. exists (- (to_Z i * u) - c * m). replace a with (u * P + to_Z b * c) by lia.
  transitivity (c - to_Z i * u * P - c * (to_Z b * to_Z i)); [ring|]. rewrite I'. ring.
Qed.

(** * Matrices *)
Definition irow := tr int.
Definition imat := tr irow.
Definition key (n : nat) : positive := Pos.of_succ_nat n.
Lemma key_eqb a b : Pos.eqb (key a) (key b) = Nat.eqb a b.
Proof. unfold key. destruct (Nat.eqb_spec a b) as [->|Ne]; [apply Pos.eqb_refl|]. apply Pos.eqb_neq. intro Q. apply SuccNat2Pos.inj in Q. auto. Qed.
Definition cell (w : irow) (c : positive) : int := tget 0%uint63 w c.
Definition rowof (M : imat) (r : positive) : irow := tget (@L int) M r.
Definition rrel (g : nat -> R) (w : irow) : Prop := forall c, rok (g c) (cell w (key c)).
Definition imrel (G : gmat) (M : imat) : Prop := forall r, rrel (G r) (rowof M (key r)).
Lemma rrel_set g w c x k : rrel g w -> rok x k -> rrel (fun j => if Nat.eqb j c then x else g j) (tset 0%uint63 w (key c) k).
Proof. intros H K j. unfold cell. rewrite tget_set, key_eqb. destruct (Nat.eqb j c); [exact K|apply H]. Qed.
Lemma imrel_set G M H t w : imrel G M -> rrel (H t) w -> (forall r c, r <> t -> H r c = G r c) -> imrel H (tset L M (key t) w).
Proof.
  intros R W E r. unfold rowof. rewrite tget_set, key_eqb. destruct (Nat.eqb_spec r t) as [->|Ne]; auto. intro c. rewrite E by auto. apply R.
Qed.

(** * Statement groups *)
Definition ipairs := list (positive * positive).
Inductive iop :=
| IS (t i a j b : positive) (es : list (positive * option positive * option positive))
| IR (t s c0 a : positive) (ps : ipairs)
| IN (r c : positive)
| IE (t c s : positive)
| II (t c0 : positive) (neg : bool) (s : positive) (ps : ipairs).
Definition conv2 (ps : list (nat * nat)) : ipairs := map (fun e => (key (fst e), key (snd e))) ps.
Definition conv3 (es : list (nat * option nat * option nat)) := map (fun e => (key (fst (fst e)), option_map key (snd (fst e)), option_map key (snd e))) es.
Definition conv (o : kop) : iop :=
  match o with
  | KG (GS t i a j b es) => IS (key t) (key i) (key a) (key j) (key b) (conv3 es)
  | KG (GR t s c0 a ps) => IR (key t) (key s) (key c0) (key a) (conv2 ps)
  | KG (GN r c) => IN (key r) (key c)
  | KG (GE t c s) => IE (key t) (key c) (key s)
  | KI t c0 neg s ps => II (key t) (key c0) neg (key s) (conv2 ps)
  end.
Definition isweep (f : int) (src : irow) (ps : ipairs) (w : irow) : irow :=
  fold_left (fun w e => tset 0%uint63 w (fst e) (isub (cell w (fst e)) (imul f (cell src (snd e))))) ps w.
Definition iterm (v : int) (src : irow) (a : option positive) : int := match a with Some a => imul (cell src a) v | None => 0%uint63 end.
Definition istep (o : iop) (M : imat) : option imat :=
  match o with
  | IS t i a j b es =>
      if Pos.eqb i t then None else if Pos.eqb j t then None else
      let wi := rowof M i in let wj := rowof M j in
      match iinv (cell wi a), iinv (cell wj b) with
      | Some u, Some v => Some (tset L M t (fold_left (fun w e => tset 0%uint63 w (fst (fst e)) (isub (iterm u wi (snd (fst e))) (iterm v wj (snd e)))) es (rowof M t)))
      | _, _ => None
      end
  | IR t s c0 a ps =>
      if Pos.eqb s t then None else
      let wt := rowof M t in let ws := rowof M s in
      match iinv (cell ws a) with
      | Some u => Some (tset L M t (isweep (imul (cell wt c0) u) ws ps (tset 0%uint63 wt c0 0%uint63)))
      | None => None
      end
  | IN r c =>
      let w := rowof M r in
      match iinv (cell w c) with Some u => Some (tset L M r (tmap (imul u) w)) | None => None end
  | IE t c s =>
      if Pos.eqb s t then None else
      let wt := rowof M t in let f := cell wt c in Some (tset L M t (tmap2 0%uint63 (fun x y => isub x (imul f y)) wt (rowof M s)))
  | II t c0 neg s ps =>
      if Pos.eqb s t then None else
      let wt := rowof M t in let f := if neg then isub 0%uint63 (cell wt c0) else cell wt c0 in
      Some (tset L M t (isweep f (rowof M s) ps (tset 0%uint63 wt c0 0%uint63)))
  end.
Lemma gset_same G t c x j : gset G t c x t j = if Nat.eqb j c then x else G t j.
Proof. unfold gset. rewrite Nat.eqb_refl. now destruct (Nat.eqb j c). Qed.
Lemma gset_row G t c x r j : r <> t -> gset G t c x r j = G r j.
Proof. intro Ne. unfold gset. destruct (Nat.eqb_spec r t); [congruence|]. reflexivity. Qed.
Lemma sweep_ok G t s fr fi src : t <> s -> rrel (G s) src -> rok fr fi -> forall ps H w, rrel (H t) w -> (forall r c, r <> t -> H r c = G r c) ->
  let H' := fold_left (fun H e => gset H t (fst e) (H t (fst e) - fr * H s (snd e))%R) ps H in
  rrel (H' t) (isweep fi src (conv2 ps) w) /\ forall r c, r <> t -> H' r c = G r c.
Proof.
  intros Ts Sr F. induction ps as [|e ps IH]; intros H w W E; cbv zeta; cbn [fold_left conv2 map]; [auto|].
  unfold isweep. cbn [fold_left fst snd]. apply IH.
  - intro c. rewrite gset_same. apply (rrel_set (H t) w (fst e)); auto. apply rok_sub; [apply W|]. apply rok_mul; auto. rewrite E by auto. apply Sr.
  - intros r c Hr. rewrite gset_row by auto. now apply E.
Qed.
Lemma istep_ok o G M M' : imrel G M -> istep (conv o) M = Some M' -> exists G', kstep o G = Some G' /\ imrel G' M'.
Proof.
  intros Rl E. assert (One : rok 1 1%uint63).
  { split; [|change (to_Z 1%uint63) with 1; lia]. change (to_Z 1%uint63) with 1. exists 1, 1. split; [apply rel_prime_1|]. split; [lra|exists 0; lia]. }
  destruct o as [[t i a j b es|t s c0 a ps|r c|t c s]|t c0 neg s ps]; cbn [conv istep] in E; cbv zeta in E.
  - rewrite !key_eqb in E. destruct (Nat.eqb_spec i t) as [|Ni]; [discriminate|]. destruct (Nat.eqb_spec j t) as [|Nj]; [discriminate|].
    destruct (iinv (cell (rowof M (key i)) (key a))) as [u|] eqn:U; [|discriminate]. destruct (iinv (cell (rowof M (key j)) (key b))) as [v|] eqn:V; [|discriminate].
    injection E as <-. destruct (rok_inv _ _ _ (Rl i a) U) as [Na Ua]. destruct (rok_inv _ _ _ (Rl j b) V) as [Nb Vb].
    cbn [kstep gstep]. destruct (Req_EM_T (G i a) 0); [tauto|]. destruct (Req_EM_T (G j b) 0); [tauto|]. eexists. split; [reflexivity|].
    assert (K : forall es H w, rrel (H t) w -> (forall r c, r <> t -> H r c = G r c) ->
      let H' := fold_left (fun H e => gset H t (fst (fst e)) (gterm H i a (snd (fst e)) - gterm H j b (snd e))%R) es H in
      rrel (H' t) (fold_left (fun w e => tset 0%uint63 w (fst (fst e)) (isub (iterm u (rowof M (key i)) (snd (fst e))) (iterm v (rowof M (key j)) (snd e)))) (conv3 es) w) /\
      forall r c, r <> t -> H' r c = G r c).
    { clear es. induction es as [|[[c x] y] es IH]; intros H w W Eq; cbv zeta; cbn [fold_left conv3 map fst snd]; [auto|]. apply IH.
      - intro k. rewrite gset_same. apply (rrel_set (H t) w c); auto. apply rok_sub.
        + destruct x as [x|]; cbn [gterm iterm option_map]; [|apply rok_0]. rewrite !Eq by auto. replace (G i x / G i a)%R with (G i x * (1 / G i a))%R by (field; auto). apply rok_mul; [apply Rl|exact Ua].
        + destruct y as [y|]; cbn [gterm iterm option_map]; [|apply rok_0]. rewrite !Eq by auto. replace (G j y / G j b)%R with (G j y * (1 / G j b))%R by (field; auto). apply rok_mul; [apply Rl|exact Vb].
      - intros r k Hr. rewrite gset_row by auto. now apply Eq. }
    destruct (K es G (rowof M (key t)) (Rl t) (fun _ _ _ => eq_refl)) as [K1 K2]. eapply imrel_set; eauto.
  - rewrite !key_eqb in E. destruct (Nat.eqb_spec s t) as [|Ns]; [discriminate|].
    destruct (iinv (cell (rowof M (key s)) (key a))) as [u|] eqn:U; [|discriminate]. injection E as <-.
    destruct (rok_inv _ _ _ (Rl s a) U) as [Na Ua]. cbn [kstep gstep]. destruct (Req_EM_T (G s a) 0); [tauto|]. eexists. split; [reflexivity|]. cbv zeta.
    assert (F : rok (G t c0 / G s a) (imul (cell (rowof M (key t)) (key c0)) u)).
    { replace (G t c0 / G s a)%R with (G t c0 * (1 / G s a))%R by (field; auto). apply rok_mul; [apply Rl|exact Ua]. }
    destruct (sweep_ok G t s _ _ _ (not_eq_sym Ns) (Rl s) F ps (gset G t c0 0%R) (tset 0%uint63 (rowof M (key t)) (key c0) 0%uint63)) as [K1 K2].
    + intro k. rewrite gset_same. apply (rrel_set (G t) (rowof M (key t)) c0); [apply Rl|apply rok_0].
    + intros r k Hr. now apply gset_row.
    + eapply imrel_set; eauto.
  - destruct (iinv (cell (rowof M (key r)) (key c))) as [u|] eqn:U; [|discriminate]. injection E as <-. destruct (rok_inv _ _ _ (Rl r c) U) as [Na Ua].
    cbn [kstep gstep]. destruct (Req_EM_T (G r c) 0); [tauto|]. eexists. split; [reflexivity|]. cbv zeta. apply (imrel_set G); auto.
    + intro k. cbv beta. rewrite Nat.eqb_refl. unfold cell. rewrite tget_map; [apply rok_mul; [exact Ua|apply Rl]|].
      apply to_Z_inj. rewrite imul_val; [change (to_Z 0%uint63) with 0; rewrite Z.mul_0_r; apply Z.mod_0_l; lia|apply Ua|change (to_Z 0%uint63) with 0; lia].
    + intros q k Hq. cbv beta. destruct (Nat.eqb_spec q r); [congruence|reflexivity].
  - rewrite !key_eqb in E. destruct (Nat.eqb_spec s t) as [|Ns]; [discriminate|]. injection E as <-. cbn [kstep gstep]. eexists. split; [reflexivity|]. cbv zeta. apply (imrel_set G); auto.
    + intro k. cbv beta. rewrite Nat.eqb_refl. unfold cell. rewrite tget_map2; [apply rok_sub; [apply Rl|apply rok_mul; apply Rl]|].
      assert (Z0 : to_Z 0%uint63 < P) by (change (to_Z 0%uint63) with 0; lia).
      assert (T : imul (tget 0%uint63 (rowof M (key t)) (key c)) 0%uint63 = 0%uint63).
      { apply to_Z_inj. rewrite imul_val; [change (to_Z 0%uint63) with 0; rewrite Z.mul_0_r; apply Z.mod_0_l; lia|apply Rl|exact Z0]. }
      rewrite T. apply to_Z_inj. rewrite isub_val by exact Z0. change (to_Z 0%uint63) with 0. apply Z.mod_0_l. lia.
    + intros q k Hq. cbv beta. destruct (Nat.eqb_spec q t); [congruence|reflexivity].
  - rewrite !key_eqb in E. destruct (Nat.eqb_spec s t) as [|Ns]; [discriminate|]. injection E as <-. cbn [kstep]. eexists. split; [reflexivity|]. cbv zeta.
    assert (F : rok (if neg then (- G t c0)%R else G t c0) (if neg then isub 0%uint63 (cell (rowof M (key t)) (key c0)) else cell (rowof M (key t)) (key c0))).
    { destruct neg; [|apply Rl]. replace (- G t c0)%R with (0 - G t c0)%R by ring. apply rok_sub; [apply rok_0|apply Rl]. }
    destruct (sweep_ok G t s _ _ _ (not_eq_sym Ns) (Rl s) F ps (gset G t c0 0%R) (tset 0%uint63 (rowof M (key t)) (key c0) 0%uint63)) as [K1 K2].
    + intro k. rewrite gset_same. apply (rrel_set (G t) (rowof M (key t)) c0); [apply Rl|apply rok_0].
    + intros r k Hr. now apply gset_row.
    + eapply imrel_set; eauto.
Qed.
Fixpoint irun (f : kinstr -> iop) (code : list kinstr) (M : imat) : option imat :=
  match code with [] => Some M | c :: code => match istep (f c) M with Some M' => irun f code M' | None => None end end.
Lemma irun_ok f : (forall c, f c = conv (kn_op c)) -> forall code G M M', imrel G M -> irun f code M = Some M' -> exists G', krun (map kn_op code) G = Some G' /\ imrel G' M'.
Proof.
  intro F. induction code as [|c code IH]; cbn [irun map krun]; intros G M M' Rl E; [injection E as <-; eauto|].
  rewrite F in E. destruct (istep (conv (kn_op c)) M) as [M1|] eqn:E1; [|discriminate]. destruct (istep_ok _ _ _ _ Rl E1) as (G1 & -> & R1). eauto.
Qed.
End Machine.

(** the instructions with their functions converted once *)
Definition iS : list iop := map (fun o => conv (KG o)) kn_spolys.
Definition iR : list (positive * positive * positive * ipairs) := map (fun e => let '(s, c0, a, ps) := e in (key s, key c0, key a, conv2 ps)) kn_reds.
Definition iI : list (positive * bool * positive * ipairs) := map (fun e => let '(c0, neg, s, ps) := e in (key c0, neg, key s, conv2 ps)) kn_inls.
Definition decode (tS : list iop) (tR : list (positive * positive * positive * ipairs)) (tI : list (positive * bool * positive * ipairs)) (c : kinstr) : iop :=
  match c with
  | CS k => nth k tS (conv (KG (GE 0 0 0)))
  | CR k t => let '(s, c0, a, ps) := nth k tR (key 0, key 0, key 0, []) in IR (key t) s c0 a ps
  | CI k t => let '(c0, neg, s, ps) := nth k tI (key 0, false, key 0, []) in II (key t) c0 neg s ps
  | CN r c => IN (key r) (key c)
  | CE t c s => IE (key t) (key c) (key s)
  end.
Lemma decode_ok c : decode iS iR iI c = conv (kn_op c).
Proof.
  destruct c as [k|k t|k t|r c|t c s]; cbn [decode kn_op]; auto.
  - unfold iS. apply (map_nth (fun o => conv (KG o))).
  - unfold iR. change (key 0, key 0, key 0, []) with ((fun e : nat * nat * nat * list (nat * nat) => let '(s, c0, a, ps) := e in (key s, key c0, key a, conv2 ps)) (0, 0, 0, [])%nat).
    rewrite map_nth. now destruct (nth k kn_reds _) as [[[s c0] a] ps].
  - unfold iI. change (key 0, false, key 0, []) with ((fun e : nat * bool * nat * list (nat * nat) => let '(c0, neg, s, ps) := e in (key c0, neg, key s, conv2 ps)) (0%nat, false, 0%nat, [])).
    rewrite map_nth. now destruct (nth k kn_inls _) as [[[c0 neg] s] ps].
Qed.
