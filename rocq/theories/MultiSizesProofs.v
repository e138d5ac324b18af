(** C17, C18: distributing the sample over the cameras, round robin. *)
From Coq Require Import ZArith List Bool Lia Permutation Arith.
From Verif Require Import SacModel SacDrawProofs MultiModel MultiSpec.
Import ListNotations.
Open Scope Z_scope.

(** * getSampleSizes *)
Lemma bump_some : forall l b, (b < length l)%nat -> exists l', bump l b = Some l'
  /\ length l' = length l /\ Zsum l' = Zsum l + 1
  /\ forall i, nth i l' 0 = nth i l 0 + (if Nat.eqb i b then 1 else 0).
Proof.
  induction l as [|x l IH]; intros b H; cbn in H; [lia|]. destruct b as [|b]; cbn [bump].
  - exists (x + 1 :: l). repeat split; cbn; auto; try lia. intros [|i]; cbn; lia.
  - destruct (IH b ltac:(lia)) as (l' & E & L & S & N). rewrite E.
    exists (x :: l'). unfold Zsum in *. repeat split; cbn; auto; try lia.
    intros i; destruct i as [|i]; cbn; [lia|apply N].
Qed.

Lemma bump_none : forall l b, (length l <= b)%nat -> bump l b = None.
Proof.
  induction l; intros b H; destruct b; cbn in *; auto; try lia. rewrite IHl by lia. auto.
Qed.

(** [b] cyclic pointer, [m] cameras (the last [m] before b) are one ahead. *)
Definition Dinv (n : nat) (b m : nat) (q : Z) (l : list Z) : Prop :=
  length l = n /\ (b < n)%nat /\ (m < n)%nat
  /\ forall i, (i < n)%nat ->
       nth i l 0 = q + (if Nat.ltb ((b + n - 1 - i) mod n) m then 1 else 0).

Lemma mod_shift : forall n b i, (b < n)%nat -> (i < n)%nat -> i <> b ->
  ((S b + n - 1 - i) mod n)%nat = S ((b + n - 1 - i) mod n).
Proof.
  intros n b i Hb Hi Hn.
  destruct (lt_dec i b).
  - replace (b + n - 1 - i)%nat with ((b - 1 - i) + 1 * n)%nat by lia.
    replace (S b + n - 1 - i)%nat with ((b - i) + 1 * n)%nat by lia.
    rewrite !Nat.mod_add by lia. rewrite !Nat.mod_small by lia. lia.
  - rewrite !Nat.mod_small by lia. lia.
Qed.

Lemma mod_wrap : forall n i, (0 < n)%nat -> (i < n)%nat ->
  ((n + n - 1 - i) mod n)%nat = ((0 + n - 1 - i) mod n)%nat.
Proof.
  intros. replace (n + n - 1 - i)%nat with ((0 + n - 1 - i) + 1 * n)%nat by lia.
  rewrite Nat.mod_add by lia. reflexivity.
Qed.

Lemma Dinv_step : forall n b m q l, Dinv n b m q l -> exists l' m' q',
  bump l b = Some l' /\ Zsum l' = Zsum l + 1
  /\ Dinv n (if Nat.leb (length l') (S b) then O else S b) m' q' l'.
Proof.
  intros n b m q l (L & Hb & Hm & N).
  destruct (bump_some l b ltac:(lia)) as (l' & E & L' & Sm & N').
  assert (VB : ((b + n - 1 - b) mod n)%nat = (n - 1)%nat).
  { replace (b + n - 1 - b)%nat with (n - 1)%nat by lia. apply Nat.mod_small. lia. }
  assert (NB : nth b l 0 = q).
  { rewrite N by lia. rewrite VB. destruct (Nat.ltb_spec (n - 1) m); lia. }
  assert (K : forall b', (b' = S b \/ b' = 0%nat /\ S b = n) -> forall i, (i < n)%nat ->
            nth i l' 0 = q + (if Nat.ltb ((b' + n - 1 - i) mod n) (S m) then 1 else 0)).
  { intros b' HB i Hi. rewrite N'.
    assert (EQ : ((b' + n - 1 - i) mod n)%nat = ((S b + n - 1 - i) mod n)%nat).
    { destruct HB as [->|[-> HB]]; auto. rewrite HB. now rewrite mod_wrap by lia. }
    rewrite EQ. destruct (Nat.eqb_spec i b) as [->|Hn].
    - rewrite NB. replace (S b + n - 1 - b)%nat with (0 + 1 * n)%nat by lia.
      rewrite Nat.mod_add, Nat.mod_small by lia. destruct (Nat.ltb_spec 0 (S m)); lia.
    - rewrite mod_shift by auto. rewrite N by auto.
      destruct (Nat.ltb_spec ((b + n - 1 - i) mod n) m), (Nat.ltb_spec (S ((b + n - 1 - i) mod n)) (S m)); lia. }
  set (b' := if Nat.leb (length l') (S b) then O else S b).
  assert (HB : b' = S b \/ b' = 0%nat /\ S b = n).
  { unfold b'. destruct (Nat.leb_spec (length l') (S b)); [right|left]; lia. }
  assert (HB2 : (b' < n)%nat).
  { unfold b'. destruct (Nat.leb_spec (length l') (S b)); lia. }
  destruct (Nat.eq_dec (S m) n) as [En|En].
  - exists l', 0%nat, (q + 1). repeat split; auto; try lia.
    intros i Hi. rewrite (K b' HB i Hi).
    pose proof (Nat.mod_upper_bound (b' + n - 1 - i) n ltac:(lia)).
    destruct (Nat.ltb_spec ((b' + n - 1 - i) mod n) (S m)); [|lia].
    match goal with |- context [Nat.ltb ?x 0] => destruct (Nat.ltb_spec x 0) end; lia.
  - exists l', (S m), q. repeat split; auto; try lia.
Qed.

Lemma distribute_ok : forall n k b m q l, Dinv n b m q l -> exists l' b' m' q',
  distribute k b l = Ret l' /\ Zsum l' = Zsum l + Z.of_nat k /\ Dinv n b' m' q' l'.
Proof.
  induction k; intros b m q l D; cbn [distribute].
  - exists l, b, m, q. repeat split; try apply D. lia.
  - destruct (Dinv_step _ _ _ _ _ D) as (l1 & m1 & q1 & E & Sm & D1). rewrite E.
    destruct (IHk _ _ _ _ D1) as (l' & b' & m' & q' & E' & Sm' & D').
    exists l', b', m', q'. repeat split; auto; try apply D'. lia.
Qed.

Lemma Zsum_repeat : forall n, Zsum (repeat 0 n) = 0.
Proof. induction n; cbn; auto. Qed.

Lemma nth_repeat0 : forall n i, nth i (repeat 0 n) 0 = 0.
Proof. induction n; intros [|i]; cbn; auto. Qed.

Lemma sizes_ok : forall cams k b, (b < cams)%nat ->
  exists l, distribute k b (repeat 0 cams) = Ret l /\ length l = cams
    /\ Zsum l = Z.of_nat k
    /\ forall i j, (i < cams)%nat -> (j < cams)%nat -> nth i l 0 <= nth j l 0 + 1 /\ 0 <= nth i l 0.
Proof.
  intros cams k b H.
  assert (D : Dinv cams b 0 0 (repeat 0 cams)).
  { repeat split; try lia. - apply repeat_length.
    - intros i Hi. rewrite nth_repeat0. destruct (Nat.ltb_spec ((b + cams - 1 - i) mod cams) 0); lia. }
  destruct (distribute_ok cams k b 0 0 _ D) as (l & b' & m' & q' & E & Sm & D').
  rewrite Zsum_repeat in Sm. exists l. repeat split; auto; try (apply D'); try lia.
  - destruct D' as (_ & _ & _ & N). rewrite (N i), (N j) by auto.
    destruct (Nat.ltb _ _), (Nat.ltb _ _); lia.
  - assert (Q : forall k b l l', (forall i, 0 <= nth i l 0) -> distribute k b l = Ret l' -> forall i, 0 <= nth i l' 0).
    { clear. induction k; intros b l l' H E; cbn [distribute] in E; [inversion E; subst; auto|].
      destruct (lt_dec b (length l)).
      - destruct (bump_some l b l0) as (l1 & E1 & L1 & _ & N1). rewrite E1 in E.
        eapply IHk; [|exact E]. intro i. rewrite N1. specialize (H i). destruct (Nat.eqb i b); lia.
      - rewrite bump_none in E by lia. discriminate. }
    eapply Q; [|exact E]. intro. rewrite nth_repeat0. lia.
Qed.

(** * Round robin *)
Lemma cam_count : forall n d q e, (d < n)%nat -> (e < n)%nat ->
  ((q * n + e + (n - 1 - d)) / n = if Nat.ltb d e then S q else q)%nat.
Proof.
  intros n d q e Hd He. destruct (Nat.ltb_spec d e).
  - replace (q * n + e + (n - 1 - d))%nat with (S q * n + (e - 1 - d))%nat by lia.
    rewrite Nat.div_add_l by lia. rewrite Nat.div_small by lia. lia.
  - replace (q * n + e + (n - 1 - d))%nat with (q * n + (e + (n - 1 - d)))%nat by lia.
    rewrite Nat.div_add_l by lia. rewrite Nat.div_small by lia. lia.
Qed.

Definition sumn (l : list nat) : nat := fold_right plus O l.

Lemma sum_le : forall (temp : list nat) (ind : list (list Z)), length temp = length ind ->
  (forall c, (c < length ind)%nat -> (nth c temp 0 <= length (nth c ind []))%nat) ->
  (sumn temp <= total_len ind)%nat.
Proof.
  induction temp as [|t ts IH]; intros [|l ls] L H; cbn in *; try lia.
  specialize (IH ls ltac:(lia)). specialize (H 0%nat) as H0. cbn in H0.
  assert (IHs : (sumn ts <= total_len ls)%nat). { apply IH. intros c Hc. apply (H (S c)). lia. }
  unfold total_len, sumn in *. lia.
Qed.

Lemma is_done_spec : forall temp ind', length temp = length ind' ->
  if is_done temp ind' then forall c, (c < length ind')%nat -> (length (nth c ind' []) <= nth c temp 0)%nat
  else exists c, (c < length ind')%nat /\ (nth c temp 0 < length (nth c ind' []))%nat.
Proof.
  induction temp as [|t ts IH]; intros [|l ls] H; cbn in H; try discriminate; cbn [is_done].
  - intros c Hc; cbn in Hc; lia.
  - destruct (Nat.ltb_spec t (length l)).
    + exists 0%nat. cbn. lia.
    + specialize (IH ls ltac:(lia)). destruct (is_done ts ls).
      * intros [|c] Hc; cbn in *; [lia|]. apply IH. lia.
      * destruct IH as (c & H1 & H2). exists (S c). cbn. lia.
Qed.

Section RR.
  Variable ind : list (list Z).
  Variable b0 : nat.
  Notation n := (length ind).
  Hypothesis Hb0 : (b0 < n)%nat.

  Definition cam (v : nat) : nat := ((b0 + v) mod n)%nat.
  Definition offs (c : nat) : nat := ((c + n - b0) mod n)%nat.
  (** number of visits to camera c among the first v *)
  Definition seen (v c : nat) : nat := ((v + (n - 1 - offs c)) / n)%nat.

  Lemma cam_lt v : (cam v < n)%nat.
  Proof. apply Nat.mod_upper_bound. lia. Qed.
  Lemma offs_lt c : (offs c < n)%nat.
  Proof. apply Nat.mod_upper_bound. lia. Qed.

  Lemma cam_offs : forall c v, (c < n)%nat -> cam v = c <-> (v mod n = offs c)%nat.
  Proof.
    intros c v Hc. unfold cam, offs.
    pose proof (Nat.div_mod v n ltac:(lia)) as DV. pose proof (Nat.mod_upper_bound v n ltac:(lia)) as UB.
    set (e := (v mod n)%nat) in *. set (q := (v / n)%nat) in *.
    replace (b0 + v)%nat with ((b0 + e) + q * n)%nat by lia. rewrite Nat.mod_add by lia.
    destruct (lt_dec (b0 + e) n) as [Hlt|Hlt].
    - rewrite (Nat.mod_small (b0 + e)) by lia. destruct (le_lt_dec b0 c).
      + replace (c + n - b0)%nat with ((c - b0) + 1 * n)%nat by lia. rewrite Nat.mod_add, Nat.mod_small by lia. lia.
      + rewrite (Nat.mod_small (c + n - b0)) by lia. lia.
    - replace (b0 + e)%nat with ((b0 + e - n) + 1 * n)%nat by lia.
      rewrite Nat.mod_add, Nat.mod_small by lia. destruct (le_lt_dec b0 c).
      + replace (c + n - b0)%nat with ((c - b0) + 1 * n)%nat by lia. rewrite Nat.mod_add, Nat.mod_small by lia. lia.
      + rewrite (Nat.mod_small (c + n - b0)) by lia. lia.
  Qed.

  Lemma seen_at v : seen v (cam v) = (v / n)%nat.
  Proof.
    pose proof (proj1 (cam_offs (cam v) v (cam_lt v)) eq_refl) as E.
    unfold seen. rewrite <- E. pose proof (Nat.div_mod v n ltac:(lia)) as DV.
    pose proof (Nat.mod_upper_bound v n ltac:(lia)).
    rewrite DV at 1. rewrite (Nat.mul_comm n), cam_count by lia.
    destruct (Nat.ltb_spec (v mod n) (v mod n)); lia.
  Qed.

  Lemma seen_S v c : (c < n)%nat -> seen (S v) c = (seen v c + if Nat.eqb c (cam v) then 1 else 0)%nat.
  Proof.
    intro Hc. unfold seen. pose proof (Nat.div_mod v n ltac:(lia)) as DV.
    pose proof (Nat.mod_upper_bound v n ltac:(lia)). pose proof (offs_lt c) as OL.
    pose proof (cam_offs c v Hc) as CO.
    set (e := (v mod n)%nat) in *. set (q := (v / n)%nat) in *. set (d := offs c) in *.
    replace (v + (n - 1 - d))%nat with (q * n + e + (n - 1 - d))%nat by lia.
    rewrite cam_count by lia.
    destruct (Nat.eqb_spec c (cam v)) as [Ec|Ec].
    - assert (e = d) by (apply CO; auto).
      replace (S v + (n - 1 - d))%nat with (S q * n + 0)%nat by lia.
      rewrite Nat.div_add_l, Nat.div_small by lia. destruct (Nat.ltb_spec d e); lia.
    - assert (e <> d) by (intro; apply Ec; symmetry; apply CO; auto).
      destruct (Nat.eq_dec (S e) n) as [Hen|Hen].
      + replace (S v + (n - 1 - d))%nat with (S q * n + (n - 1 - d))%nat by lia.
        rewrite Nat.div_add_l, Nat.div_small by lia. destruct (Nat.ltb_spec d e); lia.
      + replace (S v + (n - 1 - d))%nat with (q * n + S e + (n - 1 - d))%nat by lia.
        rewrite cam_count by lia. destruct (Nat.ltb_spec d e), (Nat.ltb_spec d (S e)); lia.
  Qed.

  Lemma seen_0 c : seen 0 c = 0%nat.
  Proof. unfold seen. apply Nat.div_small. pose proof (offs_lt c). lia. Qed.

  Lemma seen_mono v k c : (c < n)%nat -> (seen v c <= seen (v + k) c)%nat.
  Proof. intros. unfold seen. apply Nat.div_le_mono; lia. Qed.

  Definition len (c : nat) : nat := length (nth c ind []).

  Definition tinv (v : nat) (temp : list nat) : Prop :=
    length temp = n /\ forall c, (c < n)%nat -> nth c temp 0%nat = Nat.min (len c) (seen v c).

  Lemma visit_none v : (len (cam v) <= v / n)%nat -> visit ind b0 v = [].
  Proof.
    intro H. unfold visit. fold (cam v).
    destruct (nth_error (nth (cam v) ind []) (v / n)) eqn:E; auto.
    assert (v / n < length (nth (cam v) ind []))%nat by (apply nth_error_Some; congruence).
    unfold len in H. lia.
  Qed.

  Lemma nth_error_nth_lt {X} (l : list X) c d : (c < length l)%nat -> nth_error l c = Some (nth c l d).
  Proof.
    intro H. destruct (nth_error l c) eqn:E.
    - f_equal. symmetry. now apply nth_error_nth.
    - apply nth_error_None in E. lia.
  Qed.

  Lemma tinv_skip v temp : tinv v temp -> (len (cam v) <= nth (cam v) temp 0)%nat -> tinv (S v) temp.
  Proof.
    intros [L T] H. split; auto. intros c Hc. rewrite seen_S by auto. rewrite T by auto.
    rewrite T in H by apply cam_lt. destruct (Nat.eqb_spec c (cam v)) as [->|]; lia.
  Qed.

  Lemma next_cam v : (if Nat.leb n (S (cam v)) then O else S (cam v)) = cam (S v).
  Proof.
    unfold cam. replace (b0 + S v)%nat with (S (b0 + v)) by lia.
    pose proof (Nat.div_mod (b0 + v) n ltac:(lia)) as DV.
    pose proof (Nat.mod_upper_bound (b0 + v) n ltac:(lia)).
    set (e := ((b0 + v) mod n)%nat) in *. set (q := ((b0 + v) / n)%nat) in *.
    destruct (Nat.leb_spec n (S e)).
    - replace (S (b0 + v)) with (0 + S q * n)%nat by lia. rewrite Nat.mod_add, Nat.mod_small; lia.
    - replace (S (b0 + v)) with (S e + q * n)%nat by lia. rewrite Nat.mod_add, Nat.mod_small; lia.
  Qed.

  Lemma skip_ok : forall f v u temp, tinv v temp -> (v <= u)%nat -> (u - v <= f)%nat ->
    (nth (cam u) temp 0 < len (cam u))%nat ->
    exists w, skip_bins f (cam v) temp ind = Ret (cam w) /\ (v <= w)%nat /\ tinv w temp
      /\ (nth (cam w) temp 0 < len (cam w))%nat
      /\ flat_map (visit ind b0) (seq v (w - v)) = [].
  Proof.
    induction f; intros v u temp T Hv Hf Hu; cbn [skip_bins];
      rewrite (nth_error_nth_lt temp (cam v) 0%nat) by (rewrite (proj1 T); apply cam_lt);
      rewrite (nth_error_nth_lt ind (cam v) []) by apply cam_lt; fold (len (cam v));
      destruct (Nat.leb_spec (len (cam v)) (nth (cam v) temp 0%nat)) as [Hl|Hl].
    - replace u with v in Hu by lia. lia.
    - exists v. rewrite Nat.sub_diag. repeat split; auto; apply T.
    - assert (v <> u) by (intros ->; lia).
      rewrite next_cam.
      destruct (IHf (S v) u temp (tinv_skip _ _ T Hl) ltac:(lia) ltac:(lia) Hu) as (w & E & Hw & T' & L' & F).
      exists w. repeat split; auto; try lia; try apply T'.
      replace (w - v)%nat with (S (w - S v)) by lia. cbn [seq flat_map]. rewrite F, app_nil_r.
      apply visit_none. rewrite <- seen_at. destruct T as [_ T]. rewrite T in Hl by apply cam_lt. lia.
    - exists v. rewrite Nat.sub_diag. repeat split; auto; apply T.
  Qed.


  Lemma visits_app v w : (v <= w)%nat -> visits ind b0 w = visits ind b0 v ++ flat_map (visit ind b0) (seq v (w - v)).
  Proof.
    intro H. unfold visits. replace w with (v + (w - v))%nat at 1 by lia.
    rewrite seq_app, flat_map_app. reflexivity.
  Qed.

  Lemma nth_set_nth : forall (l : list nat) i x j, (i < length l)%nat ->
    nth j (set_nth l i x) 0%nat = if Nat.eqb j i then x else nth j l 0%nat.
  Proof.
    induction l; intros [|i] x [|j] H; cbn in *; auto; try lia. apply IHl. lia.
  Qed.
  Lemma sumn_set_nth : forall (l : list nat) i, (i < length l)%nat ->
    sumn (set_nth l i (S (nth i l 0%nat))) = S (sumn l).
  Proof. unfold sumn. induction l; intros [|i] H; cbn in *; try lia. rewrite IHl by lia. lia. Qed.

  Lemma tinv_sum : forall v temp, tinv v temp -> (sumn temp <= total_len ind)%nat.
  Proof.
    intros v temp [L T]. assert (H : forall c, (c < n)%nat -> (nth c temp 0 <= length (nth c ind []))%nat).
    { intros c Hc. rewrite T by auto. unfold len. lia. }
    clear T. apply sum_le; auto.
  Qed.

  Variable conv : nat -> Z -> Z.
  Definition cv (p : nat * Z) : Z := conv (fst p) (snd p).

  Lemma rr_ok : forall fuel v temp acc, tinv v temp ->
    (total_len ind < fuel + sumn temp)%nat ->
    acc = map cv (visits ind b0 v) ->
    exists w, (v <= w)%nat /\ (forall c, (c < n)%nat -> (len c <= seen w c)%nat)
      /\ round_robin conv fuel (cam v) temp ind acc = Ret (map cv (visits ind b0 w)).
  Proof.
    induction fuel; intros v temp acc T F A.
    - pose proof (tinv_sum _ _ T). lia.
    - cbn [round_robin]. pose proof (is_done_spec temp ind (proj1 T)) as D.
      destruct (is_done temp ind).
      + exists v. split; auto. split.
        * intros c Hc. specialize (D c Hc). destruct T as [_ T]. rewrite T in D by auto. unfold len in *. lia.
        * now rewrite A.
      + destruct D as (c & Hc & Dc).
        assert (U : exists u, (v <= u)%nat /\ (u - v <= n)%nat /\ cam u = c).
        { pose proof (Nat.div_mod v n ltac:(lia)) as DV. pose proof (Nat.mod_upper_bound v n ltac:(lia)) as UB.
          pose proof (offs_lt c).
          set (q := (v / n)%nat) in *.
          destruct (le_lt_dec (v mod n) (offs c)).
          - exists (q * n + offs c)%nat. repeat split; try lia. apply cam_offs; auto.
            rewrite Nat.add_comm, Nat.mod_add, Nat.mod_small; lia.
          - exists (S q * n + offs c)%nat. repeat split; try lia. apply cam_offs; auto.
            rewrite Nat.add_comm, Nat.mod_add, Nat.mod_small; lia. }
        destruct U as (u & U1 & U2 & U3).
        destruct (skip_ok n v u temp T U1 U2 ltac:(rewrite U3; exact Dc)) as (w & E & Hw & T' & Lw & FM).
        rewrite E. cbn [obind].
        rewrite (nth_error_nth_lt temp (cam w) 0%nat) by (rewrite (proj1 T); apply cam_lt).
        rewrite (nth_error_nth_lt ind (cam w) []) by apply cam_lt.
        rewrite (nth_error_nth_lt (nth (cam w) ind []) (nth (cam w) temp 0%nat) 0) by exact Lw.
        assert (TW : nth (cam w) temp 0%nat = (w / n)%nat).
        { destruct T' as [_ T']. rewrite T' by apply cam_lt. rewrite seen_at.
          rewrite T' in Lw by apply cam_lt. rewrite seen_at in Lw. lia. }
        assert (VW : visit ind b0 w = [(cam w, nth (nth (cam w) temp 0%nat) (nth (cam w) ind []) 0)]).
        { unfold visit. fold (cam w). rewrite <- TW.
          rewrite (nth_error_nth_lt (nth (cam w) ind []) (nth (cam w) temp 0%nat) 0) by exact Lw. reflexivity. }
        rewrite next_cam.
        destruct (IHfuel (S w) (set_nth temp (cam w) (S (nth (cam w) temp 0%nat)))
          (acc ++ [conv (cam w) (nth (nth (cam w) temp 0%nat) (nth (cam w) ind []) 0)])) as (w' & W1 & W2 & W3).
        * split; [rewrite set_nth_length; apply T|]. intros x Hx.
          rewrite nth_set_nth by (rewrite (proj1 T); apply cam_lt).
          rewrite seen_S by auto.
          destruct (Nat.eqb_spec x (cam w)) as [->|].
          -- rewrite TW, seen_at. unfold len in *. lia.
          -- rewrite (proj2 T') by auto. lia.
        * rewrite sumn_set_nth by (rewrite (proj1 T); apply cam_lt). lia.
        * rewrite A. rewrite (visits_app v (S w)) by lia.
          replace (S w - v)%nat with ((w - v) + 1)%nat by lia.
          rewrite seq_app, flat_map_app, FM. replace (v + (w - v))%nat with w by lia.
          cbn [seq flat_map app]. rewrite VW. rewrite map_app. reflexivity.
        * exists w'. split; [lia|]. split; auto.
  Qed.

  Lemma longest_ge : forall c, (len c <= longest ind)%nat.
  Proof.
    unfold len. clear. intro c. revert c. induction ind as [|l ls IH]; intros [|c]; cbn; try lia.
    specialize (IH c). unfold longest in IH. lia.
  Qed.

  Lemma rr_final : forall w, (forall c, (c < n)%nat -> (len c <= seen w c)%nat) ->
    visits ind b0 w = visits ind b0 (n * longest ind).
  Proof.
    intros w H.
    assert (NIL : forall k v, (forall u, (v <= u)%nat -> visit ind b0 u = []) ->
              flat_map (visit ind b0) (seq v k) = []).
    { induction k; intros v HV; cbn; auto. rewrite HV by lia. cbn. apply IHk. intros; apply HV; lia. }
    assert (AFTER : forall u, (w <= u)%nat -> visit ind b0 u = []).
    { intros u Hu. apply visit_none. rewrite <- seen_at. eapply Nat.le_trans; [apply H, cam_lt|].
      replace u with (w + (u - w))%nat at 2 by lia. apply seen_mono. apply cam_lt. }
    assert (AFTERK : forall u, (n * longest ind <= u)%nat -> visit ind b0 u = []).
    { intros u Hu. apply visit_none. eapply Nat.le_trans; [apply longest_ge|].
      apply Nat.div_le_lower_bound; lia. }
    destruct (le_lt_dec w (n * longest ind)).
    - rewrite (visits_app w _ l). rewrite NIL by auto. now rewrite app_nil_r.
    - rewrite (visits_app (n * longest ind) w) by lia. rewrite NIL by auto. now rewrite app_nil_r.
  Qed.

  Lemma stratify_ok : stratify conv b0 ind = Ret (map cv (visits ind b0 (n * longest ind))).
  Proof.
    unfold stratify.
    assert (C0 : b0 = cam 0). { unfold cam. rewrite Nat.add_0_r, Nat.mod_small; lia. }
    rewrite C0 at 1.
    destruct (rr_ok (S (total_len ind)) 0 (repeat 0%nat n) []) as (w & _ & W & E).
    - split; [apply repeat_length|]. intros c Hc. rewrite seen_0, Nat.min_0_r.
      clear. generalize (length ind). intro m. revert c. induction m; intros [|c]; cbn; auto.
    - lia.
    - reflexivity.
    - rewrite E, (rr_final w W). reflexivity.
  Qed.
End RR.

(** The visits are all the samples, each once. *)
Lemma flat_map_perm {X Y} (f g : X -> list Y) l :
  (forall x, In x l -> Permutation (f x) (g x)) -> Permutation (flat_map f l) (flat_map g l).
Proof.
  induction l; cbn; intros; auto. apply Permutation_app; auto.
Qed.

Lemma NoDup_visits : forall (ind : list (list Z)) b V, (b < length ind)%nat ->
  NoDup (map (fun v => ((b + v) mod length ind, v / length ind)%nat) (seq 0 V)).
Proof.
  intros ind b V H. apply FinFun.Injective_map_NoDup; [|apply seq_NoDup].
  intros u v E. inversion E as [[E1 E2]].
  assert (cam ind b u = cam ind b v) by exact E1.
  pose proof (Nat.div_mod u (length ind) ltac:(lia)). pose proof (Nat.div_mod v (length ind) ltac:(lia)).
  pose proof (proj1 (cam_offs ind b H (cam ind b v) u (cam_lt ind b H v)) H0).
  pose proof (proj1 (cam_offs ind b H (cam ind b v) v (cam_lt ind b H v)) eq_refl).
  rewrite E2 in H1. lia.
Qed.

(** the slots (camera, position) of all samples *)
Definition slot_val (ind : list (list Z)) (p : nat * nat) : list (nat * Z) :=
  match nth_error (nth (fst p) ind []) (snd p) with Some i => [(fst p, i)] | None => [] end.

Lemma pairs_from_slots : forall ind c K, (longest ind <= K)%nat ->
  pairs_from c ind = flat_map (fun x => flat_map (fun j =>
      match nth_error (nth x ind []) j with Some i => [((c + x)%nat, i)] | None => [] end) (seq 0 K))
      (seq 0 (length ind)).
Proof.
  induction ind as [|l ls IH]; intros c K H; cbn [pairs_from length]; auto.
  cbn [seq flat_map]. cbn in H. f_equal.
  - replace (c + 0)%nat with c by lia. cbn [nth].
    assert (KL : (length l <= K)%nat) by lia. clear -KL.
    assert (G : forall (l : list Z) j0 K, (length l <= K)%nat -> forall pre : list Z, length pre = j0 ->
       map (pair c) l = flat_map (fun j => match nth_error (pre ++ l) j with Some i => [(c, i)] | None => [] end) (seq j0 K)).
    { clear. induction l as [|x l IH]; intros j0 K H pre HP.
      - cbn. rewrite app_nil_r. symmetry.
        assert (Q : forall k j, (length pre <= j)%nat -> flat_map (fun j => match nth_error pre j with Some i => [(c, i)] | None => [] end) (seq j k) = []).
        { induction k; intros j Hj; cbn; auto. rewrite IHk by lia.
          replace (nth_error pre j) with (@None Z) by (symmetry; apply nth_error_None; lia). reflexivity. }
        apply Q. lia.
      - destruct K; cbn in H; [lia|]. cbn [map seq flat_map].
        rewrite nth_error_app2 by lia. replace (j0 - length pre)%nat with 0%nat by lia. cbn [nth_error app].
        f_equal. rewrite (IH (S j0) K ltac:(lia) (pre ++ [x])) by (rewrite app_length; cbn; lia).
        rewrite <- app_assoc. reflexivity. }
    apply (G l 0%nat K KL []). reflexivity.
  - rewrite (IH (S c) K) by (unfold longest; lia). rewrite <- seq_shift, flat_map_concat_map, flat_map_concat_map, map_map.
    f_equal. apply map_ext. intro x. cbn [nth]. replace (S c + x)%nat with (c + S x)%nat by lia. reflexivity.
Qed.

Lemma flat_map_flat_map {X Y W} (f : X -> list Y) (g : Y -> list W) l :
  flat_map g (flat_map f l) = flat_map (fun x => flat_map g (f x)) l.
Proof. induction l; cbn; auto. now rewrite flat_map_app, IHl. Qed.

Lemma visits_perm : forall ind b, (b < length ind)%nat ->
  Permutation (visits ind b (length ind * longest ind)) (pairs_from 0 ind).
Proof.
  intros ind b H. rewrite (pairs_from_slots ind 0 (longest ind)) by lia.
  set (n := length ind) in *. set (K := longest ind).
  set (slots1 := map (fun v => ((b + v) mod n, v / n)%nat) (seq 0 (n * K))).
  set (slots2 := flat_map (fun x => map (fun j => (x, j)) (seq 0 K)) (seq 0 n)).
  assert (E1 : visits ind b (n * K) = flat_map (slot_val ind) slots1).
  { unfold visits, slots1. rewrite !flat_map_concat_map, map_map. reflexivity. }
  assert (E2 : flat_map (fun x => flat_map (fun j => match nth_error (nth x ind []) j with Some i => [((0 + x)%nat, i)] | None => [] end) (seq 0 K)) (seq 0 n)
        = flat_map (slot_val ind) slots2).
  { unfold slots2. rewrite flat_map_flat_map. rewrite !flat_map_concat_map. f_equal. apply map_ext. intro x.
    rewrite !flat_map_concat_map, map_map. reflexivity. }
  rewrite E1, E2. apply Permutation_flat_map.
  apply NoDup_Permutation.
  - apply NoDup_visits. exact H.
  - unfold slots2. clear. generalize (seq_NoDup n 0). induction (seq 0 n) as [|x l IH]; intro ND; [constructor|].
    cbn. inversion ND; subst. assert (D : NoDup (map (fun j => (x, j)) (seq 0 K))).
    { apply FinFun.Injective_map_NoDup; [intros u v E; now inversion E|apply seq_NoDup]. }
    specialize (IH H2).
    assert (NI : forall sK Lr : list _, (forall j, ~ In (x, j) Lr) -> NoDup Lr -> NoDup (map (fun j : nat => (x, j)) sK) ->
       NoDup (map (fun j => (x, j)) sK ++ Lr)).
    { intros sK Lr HN HL. induction sK; cbn; auto. intro D'. inversion D'; subst. constructor; auto.
      rewrite in_app_iff. intros [X|X]; [auto|eapply HN; eauto]. }
    apply NI; auto. intros j Hj. apply in_flat_map in Hj. destruct Hj as (y & Hy & Hj).
    apply in_map_iff in Hj. destruct Hj as (z & Ez & _). inversion Ez; subst. contradiction.
  - intros [c j]. unfold slots1, slots2. rewrite in_map_iff, in_flat_map. split.
    + intros (v & E & Hv). apply in_seq in Hv. inversion E; subst.
      exists ((b + v) mod n)%nat. split.
      * apply in_seq. pose proof (Nat.mod_upper_bound (b + v) n). lia.
      * apply in_map. apply in_seq. split; [lia|]. cbn. apply Nat.div_lt_upper_bound; lia.
    + intros (x & Hx & Hj). apply in_map_iff in Hj. destruct Hj as (j' & Ej & Hj'). inversion Ej; subst.
      apply in_seq in Hx, Hj'. cbn in Hx.
      pose proof (offs_lt ind b H c) as OL. fold n in OL.
      exists (j * n + offs ind b c)%nat. split.
      * f_equal.
        -- apply (proj2 (cam_offs ind b H c (j * n + offs ind b c)%nat ltac:(fold n; lia))).
           fold n. rewrite Nat.add_comm, Nat.mod_add, Nat.mod_small; lia.
        -- rewrite Nat.div_add_l, Nat.div_small by lia. lia.
      * apply in_seq. cbn. split; [lia|]. nia.
Qed.
