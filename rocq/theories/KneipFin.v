(** The ten rows of the template of fivept_kneip that the action matrix uses. *)
From Coq Require Import Reals Lra Lia List Arith NArith ZArith Bool.
From Verif Require Import Lin GenLin GbModel GbProps KneipOps KneipData KneipModel KneipForms KneipRow KneipGb KneipChk KneipCub KneipBas.
Import ListNotations.
Local Open Scope R_scope.

Definition st0 : state := map (fun r =>
  if Nat.ltb r 10 then (mask row_cols, 0, 0)%N
  else if Nat.ltb r 30 then (mask (map fst (crow kn_constZ r)),
    if Z.eqb (zc r (kn_lead r)) 1 then bit (kn_lead r) else 0, if Z.eqb (zc r (kn_lead r)) (-1) then bit (kn_lead r) else 0)%N
  else (0, 0, 0)%N) (seq 0 66).
Fixpoint kcode (k : nat) (rests : list (list kinstr)) (tail : list kinstr) : list kinstr :=
  match rests with [] => tail | rest :: rests => (CS k :: kn_cubic (30 + k)) ++ rest ++ kcode (S k) rests tail end.
Fixpoint kphase (k : nat) (rests : list (list kinstr)) (st : state) : option state :=
  match rests with
  | [] => Some st
  | rest :: rests =>
      if Nat.ltb k 9 && N.eqb (supp st (30 + k)) 0 then
        match kcheck 30 (put st (30 + k) (full, 0%N, 0%N)) (kn_cubic (30 + k)), kcheck 30 (put st (30 + k) (wide, 0%N, 0%N)) rest with
        | Some _, Some st => kphase (S k) rests st
        | _, _ => None
        end
      else None
  end.
Definition kn_rests : list (list kinstr) := [kn_rest30; kn_rest31; kn_rest32; kn_rest33; kn_rest34; kn_rest35; kn_rest36; kn_rest37; kn_rest38].
Definition final_ok (st : state) : bool :=
  forallb (fun i => subm (supp st (51 + i)) (N.lor (bit (132 + i)) (mask (seq 177 20))) && has (ones st (51 + i)) (132 + i)) (seq 0 10).
Definition kall : bool :=
  match kphase 0 kn_rests st0 with
  | None => false
  | Some st =>
      N.eqb (supp st 39) 0 && subm (supp st 9) s39_mask && subm (supp st 14) s39_mask' &&
      match kcheck 30 (put st 39 (full, 0%N, 0%N)) kn_cubic39, kcheck 0 (put st 39 (wide, 0%N, 0%N)) (kn_rest39 ++ kn_tail) with
      | Some _, Some st => final_ok st
      | _, _ => false
      end
  end.
Lemma kall_true : kall = true. Proof. vm_cast_no_check (@eq_refl bool true). Qed.
Lemma code_eq : kn_code = kcode 0 kn_rests ((CS 9 :: kn_cubic39) ++ (kn_rest39 ++ kn_tail)).
Proof. unfold kn_code, kn_rests. cbn [kcode Nat.add]. rewrite <- !app_comm_cons. cbn [app]. rewrite <- ?app_assoc. reflexivity. Qed.

Section Final.
Variables (f1 f2 : nat -> vec3) (M : mat3).
Hypothesis Rot : rotation M.
Hypothesis Cop : forall i j k, In (i, j, k) kn_triples -> det (of_cols (kn_normal f1 f2 M i) (kn_normal f1 f2 M j) (kn_normal f1 f2 M k)) = 0.

Lemma st0_info r : (r < 66)%nat -> info st0 r =
  if Nat.ltb r 10 then (mask row_cols, 0, 0)%N
  else if Nat.ltb r 30 then (mask (map fst (crow kn_constZ r)),
    if Z.eqb (zc r (kn_lead r)) 1 then bit (kn_lead r) else 0, if Z.eqb (zc r (kn_lead r)) (-1) then bit (kn_lead r) else 0)%N
  else (0, 0, 0)%N.
Proof.
  intro H. unfold info, st0. match goal with |- nth r (map ?f _) ?d = _ => rewrite (nth_indep (map f (seq 0 66)) d (f 0%nat)) by (rewrite map_length, seq_length; auto);
    rewrite (map_nth f) end. rewrite seq_nth by auto. reflexivity.
Qed.
Lemma zat_none l c : ~ In c (map fst l) -> zat l c = 0%Z.
Proof.
  intro N. unfold zat. destruct (find _ l) as [e|] eqn:E; auto. apply find_some in E as [I E]. apply Nat.eqb_eq in E.
  exfalso. apply N. rewrite <- E. now apply in_map.
Qed.
Lemma crow_high r : (30 <= r)%nat -> crow kn_constZ r = [].
Proof.
  intro H. assert (B : forallb (fun e => Nat.ltb (fst (fst e)) 30) (rev kn_constZ) = true) by (vm_compute; reflexivity).
  unfold crow. induction (rev kn_constZ) as [|e l IH]; [reflexivity|]. cbn [forallb] in B. apply andb_prop in B as [B1 B2]. apply Nat.ltb_lt in B1.
  cbn [filter]. assert (N : fst (fst e) <> r) by lia. apply Nat.eqb_neq in N. rewrite N. auto.
Qed.
Lemma init_inv : inv M st0 (kn_init f1 f2).
Proof.
  assert (NM : forall c l, has (mask l) c = false -> ~ In c l) by (intros c l Hm Hi; apply memb_In in Hi; rewrite has_mask in Hm; congruence).
  split; [reflexivity| | | |].
  - intros r c Hr Hc. unfold supp. rewrite st0_info by auto. destruct (Nat.ltb_spec r 10) as [L|L]; cbn [fst snd].
    + intro Hm. destruct (init_low f1 f2 r L) as (a & b & d & a' & b' & d' & E). rewrite E. apply at_none. unfold kn_epi. cbv zeta. rewrite row_keys. now apply NM.
    + rewrite init_high by auto. destruct (Nat.ltb_spec r 30) as [L'|L']; cbn [fst snd].
      * intro Hm. unfold zc. rewrite zat_none; auto.
      * intros _. unfold zc. rewrite crow_high by auto. reflexivity.
  - intros r c Hr Hc. unfold ones. rewrite st0_info by auto. destruct (Nat.ltb_spec r 10) as [L|L]; cbn [fst snd]; [now rewrite has_0|].
    destruct (Nat.ltb_spec r 30) as [L'|L']; cbn [fst snd]; [|now rewrite has_0]. destruct (Z.eqb_spec (zc r (kn_lead r)) 1) as [E|]; [|now rewrite has_0].
    rewrite has_bit. intro Eb. apply Nat.eqb_eq in Eb. subst c. rewrite init_high by auto. now rewrite E.
  - intros r c Hr Hc. unfold mones. rewrite st0_info by auto. destruct (Nat.ltb_spec r 10) as [L|L]; cbn [fst snd]; [now rewrite has_0|].
    destruct (Nat.ltb_spec r 30) as [L'|L']; cbn [fst snd]; [|now rewrite has_0]. destruct (Z.eqb_spec (zc r (kn_lead r)) (-1)) as [E|]; [|now rewrite has_0].
    rewrite has_bit. intro Eb. apply Nat.eqb_eq in Eb. subst c. rewrite init_high by auto. now rewrite E.
  - intros r Hr. destruct (Nat.ltb_spec r 10) as [L|L].
    + unfold kn_value, row_value. destruct (nth_error kn_triples r) as [[[i j] k]|] eqn:E.
      * rewrite (sumn_ext _ _ (fun c => kn_at (kn_epi (f1 i) (f1 j) (f1 k) (f2 i) (f2 j) (f2 k)) c * mono (kn_x M) 0 (nth c kn_mon []))).
        -- rewrite row_det. apply (Cop i j k). now apply (nth_error_In _ r).
        -- intros c Hc. unfold kn_init. now rewrite E.
      * exfalso. apply nth_error_None in E. change (length kn_triples) with 10%nat in E. lia.
    + rewrite (value_ext M (gcells kn_const)) by (intros c Hc; rewrite init_high, const_zc by auto; reflexivity).
      destruct (Nat.ltb_spec r 30) as [L'|L']; [apply const_zero; auto|].
      unfold kn_value, row_value. apply sumn_0'. intros c Hc. rewrite const_zc. unfold zc. rewrite crow_high by auto. cbn. ring.
Qed.
Lemma kphase_ok rests : forall k tail st st' G H, inv M st G -> fixed f1 f2 G -> kphase k rests st = Some st' ->
  krun (map kn_op (kcode k rests tail)) G = Some H -> exists G', inv M st' G' /\ fixed f1 f2 G' /\ krun (map kn_op tail) G' = Some H.
Proof.
  induction rests as [|rest rests IH]; intros k tail st st' G H I Fx C K.
  - cbn [kphase kcode] in C, K. injection C as <-. exists G. auto.
  - cbn [kphase] in C. destruct (Nat.ltb k 9 && N.eqb (supp st (30 + k)) 0) eqn:B; [|discriminate]. apply andb_prop in B as [B1 B2].
    apply Nat.ltb_lt in B1. apply N.eqb_eq in B2.
    destruct (kcheck 30 (put st (30 + k) (full, 0%N, 0%N)) (kn_cubic (30 + k))) as [s1|] eqn:E1; [|discriminate].
    destruct (kcheck 30 (put st (30 + k) (wide, 0%N, 0%N)) rest) as [s2|] eqn:E2; [|discriminate].
    change (kcode k (rest :: rests) tail) with ((CS k :: kn_cubic (30 + k)) ++ rest ++ kcode (S k) rests tail) in K.
    rewrite map_app, krun_app in K. destruct (krun (map kn_op (CS k :: kn_cubic (30 + k))) G) as [G1|] eqn:K1; [|discriminate].
    rewrite map_app, krun_app in K. destruct (krun (map kn_op rest) G1) as [G2|] eqn:K2; [|discriminate].
    destruct (block_ok f1 f2 M k st s1 G G1 B1 I Fx B2 E1 K1) as [I1 Fx1].
    destruct (kcheck_sound M 30 rest _ _ _ _ I1 E2 K2) as [I2 F2].
    apply (IH (S k) tail s2 st' G2 H I2); [|exact C|exact K]. intros r c Hr. rewrite F2 by exact Hr. exact (Fx1 r c Hr).
Qed.
Lemma basis_inv H : kn_basis f1 f2 = Some H -> exists st, inv M st H /\ final_ok st = true.
Proof.
  intro K. unfold kn_basis in K. rewrite code_eq in K. pose proof kall_true as A. unfold kall in A.
  destruct (kphase 0 kn_rests st0) as [st|] eqn:P; [|discriminate A].
  destruct (kphase_ok kn_rests 0 _ st0 st _ H init_inv (fun r c _ => eq_refl) P K) as (G & I & Fx & K').
  apply andb_prop in A as [A A4]. apply andb_prop in A as [A A3]. apply andb_prop in A as [A1 A2]. apply N.eqb_eq in A1.
  destruct (kcheck 30 (put st 39 (full, 0%N, 0%N)) kn_cubic39) as [s1|] eqn:E1; [|discriminate A4].
  destruct (kcheck 0 (put st 39 (wide, 0%N, 0%N)) (kn_rest39 ++ kn_tail)) as [s2|] eqn:E2; [|discriminate A4].
  rewrite map_app, krun_app in K'. destruct (krun (map kn_op (CS 9 :: kn_cubic39)) G) as [G1|] eqn:K1; [|discriminate K'].
  destruct (block39_ok f1 f2 M st s1 G G1 I Fx A1 A2 A3 E1 K1) as [I1 _].
  destruct (kcheck_sound M 0 _ _ _ _ _ I1 E2 K') as [I2 _]. exists s2. split; [exact I2|exact A4].
Qed.

(** rows 51 to 60 *)
Definition mon (c : nat) : R := mono (kn_x M) 0 (nth c kn_mon []).
Lemma basis_rows H i : kn_basis f1 f2 = Some H -> (i < 10)%nat -> mon (132 + i) = - sumn 20 (fun s => H (51 + i)%nat (177 + s)%nat * mon (177 + s)).
Proof.
  intros K Hi. destruct (basis_inv H K) as (st & [L IS IO IM IV] & F). unfold final_ok in F. rewrite forallb_forall in F.
  specialize (F i). rewrite in_seq in F. specialize (F ltac:(lia)). apply andb_prop in F as [F1 F2].
  assert (One : H (51 + i)%nat (132 + i)%nat = 1) by (apply IO; [lia|lia|exact F2]).
  assert (Z : forall c, (c < 197)%nat -> c <> (132 + i)%nat -> ~ (177 <= c < 197)%nat -> H (51 + i)%nat c = 0).
  { intros c Hc N1 N2. apply IS; [lia|lia|]. apply (subm_ok _ _ _ F1). rewrite has_lor, has_bit, has_mask. apply orb_false_iff. split; [now apply Nat.eqb_neq|].
    destruct (memb c (seq 177 20)) eqn:E; auto. apply memb_In, in_seq in E. exfalso. lia. }
  pose proof (IV (51 + i)%nat ltac:(lia)) as V. unfold kn_value, row_value in V.
  change 197%nat with (177 + 20)%nat in V. rewrite sumn_split in V.
  rewrite (sumn_ext 177 _ (fun c => at_col (132 + i) c 1 * mon c)) in V.
  - rewrite sumn_at in V by lia. unfold mon in *. lra.
  - intros c Hc. unfold at_col, mon. destruct (Nat.eqb_spec c (132 + i)) as [->|N]; [rewrite One; reflexivity|]. rewrite Z by lia. ring.
Qed.
End Final.
