(** Elimination modulo P as a certificate that a rational matrix is regular.
    Used for examples and counterexamples only. *)
From Coq Require Import Reals Lra Lia List Arith NArith ZArith Bool Znumtheory.
From Verif Require Import GenLin SturmModel GaussModel GaussProps GbMod GbProps MacModel MacProps.
Import ListNotations.
Local Open Scope Z_scope.

Section Elim.
Variable P : Z.
Hypothesis P1 : 1 < P.

Fixpoint zsub (m : Z) (ft gt : list Z) : list Z :=
  match ft, gt with
  | f :: ft, g :: gt => (if f =? 0 then g else (g - m * f) mod P) :: zsub m ft gt
  | _, _ => []
  end.
Definition zelim (i : Z) (ft g : list Z) : list Z :=
  match g with [] => [] | b :: gt => if b =? 0 then gt else zsub ((b * i) mod P) ft gt end.
(** the first row has an invertible first entry, and so on for the other rows
    after elimination of that column *)
Fixpoint regular (n : nat) (rows : list (list Z)) : bool :=
  match n with
  | O => true
  | S n => match rows with
           | (a :: ft) :: rest => match zdiv P 1 a with None => false | Some i => regular n (map (zelim i ft) rest) end
           | _ => false
           end
  end.

Local Open Scope R_scope.
Definition rrow := Forall2 (residue P).
Definition sub_row (c : R) (f g : list R) : list R := map2 (fun x y => y - c * x) f g.
Lemma sub_row_dot c : forall f g y, length f = length y -> length g = length y -> dotlist (sub_row c f g) y = dotlist g y - c * dotlist f y.
Proof.
  induction f as [|a f IH]; intros [|b g] [|z y] Lf Lg; cbn in *; try discriminate; try ring.
  fold (sub_row c f g). rewrite IH by lia. ring.
Qed.
Lemma sub_row_length c : forall f g, length f = length g -> length (sub_row c f g) = length g.
Proof. induction f as [|a f IH]; intros [|b g] L; cbn in *; try discriminate; auto. f_equal. apply IH. lia. Qed.
Lemma zsub_ok c m : residue P c m -> forall f ft g gt, rrow f ft -> rrow g gt -> length f = length g -> rrow (sub_row c f g) (zsub m ft gt).
Proof.
  intro C. induction f as [|a f IH]; intros ft [|b g] gt F G L; cbn in L; try discriminate.
  - inversion F. constructor.
  - inversion F as [|? z ? ft' Fa Ff]; subst. inversion G as [|? w ? gt' Gb Gg]; subst. cbn. constructor; [|apply IH; auto].
    assert (K : residue P (b - c * a) (w - m * z)) by (apply residue_sub; auto; apply residue_mul; auto).
    destruct (Z.eqb_spec z 0) as [->|]; [|now apply residue_mod]. replace w with (w - m * 0)%Z by lia. exact K.
Qed.
Lemma sub_row_0 c : residue P c 0 -> forall f ft g gt, rrow f ft -> rrow g gt -> length f = length g -> rrow (sub_row c f g) gt.
Proof.
  intro C. induction f as [|a f IH]; intros ft [|b g] gt F G L; cbn in L; try discriminate.
  - inversion G. constructor.
  - inversion F as [|? z ? ft' Fa Ff]; subst. inversion G as [|? w ? gt' Gb Gg]; subst. cbn. constructor; [|eapply IH; eauto].
    replace w with (w - 0 * z)%Z by lia. apply residue_sub; auto. apply residue_mul; auto.
Qed.
Definition elim_row (a : R) (f : list R) (g : list R) : list R := match g with [] => [] | b :: g => sub_row (b / a) f g end.
Lemma elim_ok a za i f ft g zg : zdiv P 1 za = Some i -> residue P a za -> rrow f ft -> rrow g zg -> length g = S (length f) ->
  rrow (elim_row a f g) (zelim i ft zg).
Proof.
  intros D A F G L. destruct g as [|b g]; [discriminate|]. cbn in L. inversion G as [|? w ? gt Gb Gg]; subst. cbn [elim_row zelim].
  assert (One : residue P 1 1) by (exists 1%Z, 1%Z; split; [apply rel_prime_1|split; [lra|exists 0%Z; lia]]).
  destruct (zdiv_ok P P1 1 a 1 za i One A D) as [Na I].
  assert (K : residue P (b / a) (w * i)) by (replace (b / a) with (b * (1 / a)) by (field; auto); now apply residue_mul).
  destruct (Z.eqb_spec w 0) as [->|].
  - eapply sub_row_0; eauto; lia.
  - apply zsub_ok; auto; [now apply residue_mod|lia].
Qed.
Theorem regular_trivial n : forall rows zrows y, regular n zrows = true -> Forall2 rrow rows zrows ->
  (forall r, In r rows -> length r = n) -> length y = n -> (forall r, In r rows -> dotlist r y = 0) -> forall j, nth j y 0 = 0.
Proof.
  induction n as [|n IH]; intros rows zrows y H F L Ly Z j.
  - destruct y; [|discriminate]. now destruct j.
  - cbn in H. destruct zrows as [|[|za ft] rest]; try discriminate. destruct (zdiv P 1 za) as [i|] eqn:D; [|discriminate].
    inversion F as [|r0 zr0 rows' rest' Fr Frest]; subst. inversion Fr as [|a z f ft' Fa Ff]; subst.
    destruct y as [|y0 y]; [discriminate|]. cbn in Ly.
    assert (Lf : length f = n) by (specialize (L _ (or_introl eq_refl)); cbn in L; lia).
    assert (One : residue P 1 1) by (exists 1%Z, 1%Z; split; [apply rel_prime_1|split; [lra|exists 0%Z; lia]]).
    destruct (zdiv_ok P P1 1 a 1 za i One Fa D) as [Na _].
    pose proof (Z _ (or_introl eq_refl)) as Z0. cbn in Z0.
    assert (Yt : forall j, nth j y 0 = 0).
    { apply (IH (map (elim_row a f) rows') (map (zelim i ft) rest)); auto.
      - assert (Lr : forall r, In r rows' -> length r = S n) by (intros; apply L; now right). clear - D Fa Ff Frest Lr Lf P1.
        induction Frest as [|r zr rs zrs Hr Hrs IHF]; cbn; constructor; auto.
        + apply (elim_ok a za); auto. rewrite Lf. apply Lr. now left.
        + apply IHF. intros; apply Lr. now right.
      - intros r Hr. apply in_map_iff in Hr as (g & <- & Hg). specialize (L g (or_intror Hg)). destruct g; [discriminate|].
        cbn [elim_row]. rewrite sub_row_length; cbn in L; lia.
      - intros r Hr. apply in_map_iff in Hr as (g & <- & Hg). pose proof (L g (or_intror Hg)) as Lg. pose proof (Z g (or_intror Hg)) as Zg.
        destruct g as [|b g]; [discriminate|]. cbn in Lg, Zg. cbn [elim_row]. rewrite sub_row_dot by lia.
        replace (dotlist g y) with (- (b * y0)) by lra. replace (dotlist f y) with (- (a * y0)) by lra. field. auto. }
    assert (Y0 : y0 = 0).
    { assert (dotlist f y = 0); [|].
      - clear - Yt. revert y Yt. induction f as [|b f IHf]; intros [|z y] Yt; cbn; auto.
        pose proof (Yt 0%nat) as E. cbn in E. rewrite IHf by (intro j; apply (Yt (S j))). rewrite E. ring.
      - apply (Rmult_eq_reg_l a); auto. lra. }
    destruct j; cbn; auto.
Qed.

(** the same for rows given as functions and columns in any order *)
Lemma dotlist_map (f y : nat -> R) cs : dotlist (map f cs) (map y cs) = lsum (fun c => f c * y c) cs.
Proof. induction cs as [|c cs IH]; cbn; auto. rewrite IH. ring. Qed.
Lemma regular_kernel n cs rows zrows (y : nat -> R) : regular (length cs) zrows = true ->
  Forall2 (fun f zr => rrow (map f cs) zr) rows zrows -> nodupb cs = true -> forallb (fun c => Nat.ltb c n) cs = true ->
  (forall c, (c < n)%nat -> ~ In c cs -> y c = 0) -> (forall f, In f rows -> sumn n (fun c => f c * y c) = 0) ->
  forall c, (c < n)%nat -> y c = 0.
Proof.
  intros Rg F Nd Bd Z0 K c Hc. destruct (in_dec Nat.eq_dec c cs) as [I|I]; [|now apply Z0].
  assert (T : forall j, nth j (map y cs) 0 = 0).
  { apply (regular_trivial (length cs) (map (fun f => map f cs) rows) zrows); auto.
    - clear - F. induction F; cbn; constructor; auto.
    - intros r Hr. apply in_map_iff in Hr as (f & <- & _). apply map_length.
    - apply map_length.
    - intros r Hr. apply in_map_iff in Hr as (f & <- & Hf). rewrite dotlist_map. rewrite <- (K f Hf).
      apply (lsum_cover 0%nat n y).
      + now apply nodupb_NoDup.
      + intros d Hd. rewrite forallb_forall in Bd. now apply Nat.ltb_lt, Bd.
      + intros d Hd N. rewrite Z0 by auto. ring. }
  destruct (In_nth cs c 0%nat I) as (j & Hj & E). rewrite <- E. rewrite <- (T j).
  rewrite nth_indep with (d' := y 0%nat) by (now rewrite map_length). now rewrite map_nth.
Qed.

(** templates: the residues of the entries of the small matrix *)
Definition zcell (zm : list (list Z)) (row : trow) (c : N) : Z :=
  match find (fun e => N.eqb (fst e) c) (snd row) with
  | Some e => nth (N.to_nat (snd e)) (nth (fst row) zm []) 0%Z
  | None => 0%Z
  end.
Lemma zcell_ok (m1 : nat -> nat -> R) zm row cs : (forall i k, residue P (m1 i k) (nth k (nth i zm []) 0%Z)) ->
  rrow (map (mac_cell m1 row) (map N.to_nat cs)) (map (zcell zm row) cs).
Proof.
  intro H. induction cs as [|c cs IH]; cbn [map]; constructor; auto. unfold mac_cell, zcell. rewrite N2Nat.id.
  destruct (find _ (snd row)); [apply H|apply residue_0].
Qed.
Lemma zrows_ok (m1 : nat -> nat -> R) zm tab rs cs : (forall i k, residue P (m1 i k) (nth k (nth i zm []) 0%Z)) ->
  Forall2 (fun f zr => rrow (map f (map N.to_nat cs)) zr) (map (fun r => mac_cell m1 (nth r tab (0%nat, []))) rs) (map (fun r => map (zcell zm (nth r tab (0%nat, []))) cs) rs).
Proof. intro H. induction rs as [|r rs IH]; cbn [map]; constructor; auto. now apply zcell_ok. Qed.
Lemma mac_dot m1 nc row (x : nat -> R) : dotlist (map (mac_cell m1 row) (seq 0 nc)) (map x (seq 0 nc)) = sumn nc (fun c => mac_cell m1 row c * x c).
Proof. rewrite dotlist_map. apply (lsum_cover 0%nat nc x).
  - apply seq_NoDup.
  - intros c Hc. apply in_seq in Hc. lia.
  - intros c Hc N. exfalso. apply N, in_seq. lia.
Qed.
Lemma list_as_map (x : list R) : x = map (fun c => nth c x 0) (seq 0 (length x)).
Proof.
  apply (nth_ext _ _ 0 0); [now rewrite map_length, seq_length|]. intros n Hn.
  rewrite nth_map_seq0 by auto. reflexivity.
Qed.
(** a regular template is reduced without error in exact arithmetic *)
Lemma mac_regular m1 zm nr nc exitc tab rs cs ns : (forall i k, residue P (m1 i k) (nth k (nth i zm []) 0%Z)) ->
  length tab = nr -> tab <> [] -> (nr <= nc)%nat -> (0 <= exitc)%Z ->
  cs = map N.to_nat ns ->
  nodupb cs = true -> forallb (fun c => Nat.ltb c nr) cs = true -> length cs = nr -> forallb (fun r => Nat.ltb r nr) rs = true ->
  regular (length cs) (map (fun r => map (zcell zm (nth r tab (0%nat, []))) ns) rs) = true ->
  exists m', gauss_jordan 0 exitc (mac m1 nc tab) = Reduced m'.
Proof.
  intros H Lt Nt Le He Ecs Nd Bd Lc Br Rg.
  assert (W : well_shaped (mac m1 nc tab) nc).
  { split; [|split].
    - unfold mac. destruct tab; [congruence|discriminate].
    - intros q Hq. unfold mac in Hq. apply in_map_iff in Hq as (row & <- & _). now rewrite map_length, seq_length.
    - unfold mac. rewrite map_length. lia. }
  assert (P0 : 0 <= 0 < 1) by lra. pose proof (clean_0 exitc (mac m1 nc tab)) as C.
  destruct (gauss_jordan 0 exitc (mac m1 nc tab)) as [m'| |] eqn:E; [now exists m'| |].
  - exfalso. apply (C31_singular_iff 0 exitc _ nc P0 W He C) in E. destruct E as (x & Lx & Tx & (j & Nx) & Sx). apply Nx.
    assert (Lm : length (mac m1 nc tab) = nr) by (unfold mac; now rewrite map_length).
    destruct (Nat.lt_ge_cases j nc) as [J|J]; [|apply nth_overflow; lia].
    apply (regular_kernel nc cs (map (fun r => mac_cell m1 (nth r tab (0%nat, []))) rs) _ (fun c => nth c x 0) Rg); auto.
    + subst cs. exact (zrows_ok m1 zm tab rs ns H).
    + rewrite forallb_forall in *. intros c Hc. specialize (Bd c Hc). apply Nat.ltb_lt in Bd. apply Nat.ltb_lt. lia.
    + intros c Hc N. destruct (Nat.lt_ge_cases c nr) as [Q|Q]; [|apply Tx; lia]. exfalso. apply N.
      assert (Inc : incl (seq 0 nr) cs).
      { apply NoDup_length_incl; [now apply nodupb_NoDup|rewrite seq_length; lia|]. intros d Hd. rewrite forallb_forall in Bd.
        specialize (Bd d Hd). apply Nat.ltb_lt in Bd. apply in_seq. lia. }
      apply Inc, in_seq. lia.
    + intros f Hf. apply in_map_iff in Hf as (r & <- & Hr). rewrite forallb_forall in Br. specialize (Br r Hr). apply Nat.ltb_lt in Br.
      rewrite <- mac_dot. replace (map (fun c => nth c x 0) (seq 0 nc)) with x by (rewrite <- Lx; apply list_as_map). apply Sx. unfold mac.
      apply (in_map (fun row => map (mac_cell m1 row) (seq 0 nc))). apply nth_In. lia.
  - exfalso. destruct (C31_undefined 0 exitc (mac m1 nc tab)) as (_ & _ & _ & K). exact (K nc He W E).
Qed.
End Elim.
