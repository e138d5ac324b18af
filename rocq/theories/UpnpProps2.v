(** C55, continued: the candidates, the second round and the output of upnp. *)
From Coq Require Import Reals Lra List Lia Permutation Sorted.
From Verif Require Import Lin GenLin RotModel RotProps Spectral UpnpModel UpnpProps.
Import ListNotations.
Local Open Scope R_scope.

(** * Candidates *)
Definition cheaper (a b : cand) : Prop := fst a <= fst b.

Lemma insert_perm x l : Permutation (insert_cand x l) (x :: l).
Proof.
  induction l as [|y l IH]; cbn [insert_cand]; auto.
  destruct (Rlt_dec (fst y) (fst x)); auto.
  rewrite IH. apply perm_swap.
Qed.
Lemma insert_hd x l a : cheaper a x -> HdRel cheaper a l -> HdRel cheaper a (insert_cand x l).
Proof.
  intros Hx Hl. destruct l as [|y l]; cbn [insert_cand]; [constructor; auto|].
  inversion Hl; subst. destruct (Rlt_dec (fst y) (fst x)); constructor; auto.
Qed.
Lemma insert_sorted x l : Sorted cheaper l -> Sorted cheaper (insert_cand x l).
Proof.
  induction l as [|y l IH]; intro S; cbn [insert_cand]; [repeat constructor|].
  inversion S; subst. destruct (Rlt_dec (fst y) (fst x)) as [L|L].
  - constructor; auto. apply insert_hd; auto. unfold cheaper; lra.
  - constructor; auto. constructor. unfold cheaper; lra.
Qed.

Lemma qnrm_nonneg q : 0 <= qnrm q.
Proof. apply sqrt_pos. Qed.
Lemma qnrm_sq q : qnrm q * qnrm q = qnorm2 q.
Proof.
  unfold qnrm, qnorm2. apply sqrt_sqrt. pose proof (pow2_ge_0 (q0 q)). pose proof (pow2_ge_0 (q1 q)).
  pose proof (pow2_ge_0 (q2 q)). pose proof (pow2_ge_0 (q3 q)). lra.
Qed.
Lemma qdivs_unit e s : s * s = qnorm2 e -> s <> 0 -> qnorm2 (qdivs e s) = 1.
Proof.
  intros E N. unfold qnorm2, qdivs in *. qc. transitivity ((q0 e ^ 2 + q1 e ^ 2 + q2 e ^ 2 + q3 e ^ 2) / (s * s)); [now field|].
  rewrite <- E. now field.
Qed.

(** A quaternion is the multiple of e by a nonzero factor. *)
Definition qscale (s : R) (q : quat) : quat := Q4 (s * q0 q) (s * q1 q) (s * q2 q) (s * q3 q).
Lemma qdivs_scale e s : s <> 0 -> e = qscale s (qdivs e s).
Proof. intro N. destruct e as [a b c d]. unfold qscale, qdivs; qc. f_equal; field; auto. Qed.
Definition qzero : quat := Q4 0 0 0 0.
Lemma qnrm_zero q : qnrm q = 0 <-> q = qzero.
Proof.
  split.
  - intro H. pose proof (qnrm_sq q) as E. rewrite H in E. destruct q as [a b c d]. unfold qnorm2 in E. qc.
    assert (a = 0 /\ b = 0 /\ c = 0 /\ d = 0) by (repeat split; nra). destruct H0 as (->&->&->&->). reflexivity.
  - intros ->. unfold qnrm, qzero; qc. replace (0 ^ 2 + 0 ^ 2 + 0 ^ 2 + 0 ^ 2) with 0 by ring. apply sqrt_0.
Qed.

Definition sym_cand (val : quat -> R) (e : quat) : cand :=
  let q := qdivs e (qnrm e) in (val q, q).

Lemma sym_fold val evs : forall acc, fold_left (upnp_sym_step val) evs None = None /\
  (forall l, fold_left (upnp_sym_step val) evs (Some acc) = Some l ->
     (Sorted cheaper acc -> Sorted cheaper l) /\ Permutation l (map (sym_cand val) evs ++ acc) /\
     forall e, In e evs -> e <> qzero) /\
  ((forall e, In e evs -> e <> qzero) -> exists l, fold_left (upnp_sym_step val) evs (Some acc) = Some l).
Proof.
  induction evs as [|e evs IH]; intro acc; cbn [fold_left].
  - split; auto. split; [|eauto]. intros l E. injection E as <-. cbn. repeat split; auto.
  - split; [apply (IH acc)|]. cbn [upnp_sym_step].
    destruct (Req_EM_T (qnrm e) 0) as [Z|Z].
    + destruct (IH acc) as [Hn _]. rewrite Hn. split; [discriminate|].
      intro A. exfalso. apply (A e); [left; auto|]. now apply qnrm_zero.
    + fold (sym_cand val e).
      destruct (IH (insert_cand (sym_cand val e) acc)) as (_&H1&H2). split.
      * intros l E. destruct (H1 l E) as (Sl&Pl&Nl). split; [|split].
        -- intro Sa. apply Sl. now apply insert_sorted.
        -- rewrite Pl. rewrite insert_perm. cbn [map app]. symmetry. apply Permutation_middle.
        -- intros e' [<-|He']; auto. intro X. apply Z. now apply qnrm_zero.
      * intro A. apply H2. intros; apply A; right; auto.
Qed.

(** With more than four correspondences: one candidate per eigenvector, a unit
    quaternion that is a positive multiple of it, and the candidates come in
    the order of increasing cost. *)
Theorem C55_candidates_sym : forall val evs,
  ((exists l, upnp_main_sym val evs = Some l) <-> (forall e, In e evs -> e <> qzero)) /\
  forall l, upnp_main_sym val evs = Some l ->
    Sorted cheaper l /\ length l = length evs /\
    (forall c, In c l -> fst c = val (snd c) /\ qnorm2 (snd c) = 1 /\
        exists e s, In e evs /\ 0 < s /\ e = qscale s (snd c)) /\
    (forall e, In e evs -> exists c s, In c l /\ 0 < s /\ e = qscale s (snd c)).
Proof.
  intros val evs. unfold upnp_main_sym. destruct (sym_fold val evs []) as (_&H1&H2). split; [split|].
  - intros [l E]. now apply (H1 l).
  - exact H2.
  - intros l E. destruct (H1 l E) as (S&P&N). rewrite app_nil_r in P.
    assert (Q : forall e, In e evs -> 0 < qnrm e /\ qnorm2 (snd (sym_cand val e)) = 1 /\ e = qscale (qnrm e) (snd (sym_cand val e))).
    { intros e He. assert (Z : qnrm e <> 0) by (intro Z; apply (N e He); now apply qnrm_zero).
      pose proof (qnrm_nonneg e). split; [lra|]. unfold sym_cand; cbn [snd].
      split; [apply qdivs_unit; auto; apply qnrm_sq|now apply qdivs_scale]. }
    split; [apply S; constructor|]. split; [rewrite (Permutation_length P); apply map_length|]. split.
    + intros c Hc. apply (Permutation_in _ P) in Hc. apply in_map_iff in Hc. destruct Hc as (e&<-&He).
      destruct (Q e He) as (A&B&C). split; [reflexivity|]. split; auto. exists e, (qnrm e). auto.
    + intros e He. destruct (Q e He) as (A&B&C). exists (sym_cand val e), (qnrm e). repeat split; auto.
      apply (Permutation_in _ (Permutation_sym P)). now apply in_map.
Qed.

(** ** At most four correspondences: sign normalisation and duplicates *)
Definition qdist (p q : quat) : R := qnrm (qsub p q).
Definition small : R := 1 / 100000000.
Definition signed_norm (e : quat) : R := if Rlt_dec (q0 e) 0 then -1 * qnrm e else qnrm e.
Definition pos_quat (e : quat) : quat := qdivs e (signed_norm e).

Lemma already_spec q l : already q l = true <-> exists c, In c l /\ qdist q (snd c) < small.
Proof.
  unfold already. rewrite existsb_exists. split; intros (c&Hc&D); exists c; split; auto.
  - destruct (Rlt_dec (qnrm (qsub q (snd c))) (1 / 100000000)); [auto|discriminate].
  - destruct (Rlt_dec (qnrm (qsub q (snd c))) (1 / 100000000)) as [|NL]; [auto|]. exfalso. apply NL. exact D.
Qed.
Lemma qdist_self q : qdist q q < small.
Proof.
  unfold qdist, qnrm, qsub, small; qc. replace ((q0 q - q0 q) ^ 2 + (q1 q - q1 q) ^ 2 + (q2 q - q2 q) ^ 2 + (q3 q - q3 q) ^ 2) with 0 by ring.
  rewrite sqrt_0. lra.
Qed.
Lemma qdist_sym p q : qdist p q = qdist q p.
Proof. unfold qdist, qnrm, qsub; qc. f_equal. ring. Qed.

Definition apart (a b : cand) : Prop := small <= qdist (snd a) (snd b).
Lemma apart_insert x l : ForallOrdPairs apart l -> (forall c, In c l -> apart x c) -> ForallOrdPairs apart (insert_cand x l).
Proof.
  induction l as [|y l IH]; intros F A; cbn [insert_cand]; [repeat constructor|].
  inversion F; subst. destruct (Rlt_dec (fst y) (fst x)).
  - constructor; [|apply IH; auto; intros; apply A; right; auto].
    rewrite Forall_forall. intros c Hc. apply (Permutation_in _ (insert_perm x l)) in Hc.
    destruct Hc as [<-|Hc]; [|rewrite Forall_forall in H1; now apply H1].
    unfold apart. rewrite qdist_sym. apply A. left; auto.
  - constructor; auto. rewrite Forall_forall. exact A.
Qed.

Record main_inv (val : quat -> R) (evs : list quat) (l : list cand) : Prop := {
  mi_sorted : Sorted cheaper l;
  mi_apart : ForallOrdPairs apart l;
  mi_from : forall c, In c l -> exists e, In e evs /\ e <> qzero /\ c = (val (pos_quat e), pos_quat e);
  mi_all : forall e, In e evs -> e <> qzero /\ exists c, In c l /\ qdist (pos_quat e) (snd c) < small }.

Lemma main_fold val evs : forall pre acc, main_inv val pre acc ->
  (forall l, fold_left (upnp_main_step val) evs (Some acc) = Some l -> main_inv val (pre ++ evs) l) /\
  ((forall e, In e evs -> e <> qzero) -> exists l, fold_left (upnp_main_step val) evs (Some acc) = Some l).
Proof.
  assert (NN : forall evs, fold_left (upnp_main_step val) evs None = None) by (induction evs0; auto).
  induction evs as [|e evs IH]; intros pre acc I; cbn [fold_left].
  - split; [|eauto]. intros l E. injection E as <-. now rewrite app_nil_r.
  - cbn [upnp_main_step]. destruct (Req_EM_T (qnrm e) 0) as [Z|Z].
    + rewrite NN. split; [discriminate|]. intro A. exfalso. apply (A e); [left; auto|]. now apply qnrm_zero.
    + fold (signed_norm e). fold (pos_quat e).
      assert (NE : e <> qzero) by (intro X; apply Z; now apply qnrm_zero).
      set (acc' := if already (pos_quat e) acc then acc else insert_cand (val (pos_quat e), pos_quat e) acc).
      assert (I' : main_inv val (pre ++ [e]) acc').
      { unfold acc'. destruct (already (pos_quat e) acc) eqn:Al.
        - apply already_spec in Al. destruct I as [S A F C]. constructor; auto.
          + intros c Hc. destruct (F c Hc) as (e'&He'&N'&->). exists e'. repeat split; auto. apply in_app_iff; auto.
          + intros e' He'. apply in_app_iff in He'. destruct He' as [He'|[<-|[]]]; auto.
        - assert (Al' : forall c, In c acc -> apart (val (pos_quat e), pos_quat e) c).
          { intros c Hc. unfold apart; cbn [snd]. apply Rnot_lt_le. intro L.
            assert (already (pos_quat e) acc = true) by (apply already_spec; eauto). congruence. }
          destruct I as [S A F C]. constructor.
          + now apply insert_sorted.
          + now apply apart_insert.
          + intros c Hc. apply (Permutation_in _ (insert_perm _ _)) in Hc. destruct Hc as [<-|Hc].
            * exists e. repeat split; auto. apply in_app_iff; right; left; auto.
            * destruct (F c Hc) as (e'&He'&N'&->). exists e'. repeat split; auto. apply in_app_iff; auto.
          + intros e' He'. apply in_app_iff in He'. destruct He' as [He'|[<-|[]]].
            * destruct (C e' He') as (N'&c&Hc&D). split; auto. exists c. split; auto.
              apply (Permutation_in _ (Permutation_sym (insert_perm _ _))). right; auto.
            * split; auto. exists (val (pos_quat e), pos_quat e). split; [|apply qdist_self].
              apply (Permutation_in _ (Permutation_sym (insert_perm _ _))). left; auto. }
      destruct (IH _ _ I') as [H1 H2]. split.
      * intros l E. apply H1 in E. now rewrite <- app_assoc in E.
      * intro A. apply H2. intros; apply A; right; auto.
Qed.

Lemma signed_norm_nz e : e <> qzero -> signed_norm e <> 0.
Proof.
  intro N. assert (qnrm e <> 0) by (intro X; apply N; now apply qnrm_zero).
  unfold signed_norm. destruct (Rlt_dec (q0 e) 0); lra.
Qed.
Lemma pos_quat_unit e : e <> qzero -> qnorm2 (pos_quat e) = 1 /\ 0 <= q0 (pos_quat e) /\ e = qscale (signed_norm e) (pos_quat e).
Proof.
  intro N. pose proof (signed_norm_nz e N) as NZ. split; [|split; [|now apply qdivs_scale]].
  - apply qdivs_unit; auto. rewrite <- qnrm_sq. unfold signed_norm. destruct (Rlt_dec (q0 e) 0); ring.
  - unfold pos_quat, qdivs; qc. pose proof (qnrm_nonneg e). unfold signed_norm in *.
    destruct (Rlt_dec (q0 e) 0) as [L|L].
    + apply Rlt_le. unfold Rdiv. replace (q0 e * / (-1 * qnrm e)) with (- q0 e * / qnrm e).
      * apply Rmult_lt_0_compat; [lra|]. apply Rinv_0_lt_compat. lra.
      * field. lra.
    + apply Rmult_le_pos; [lra|]. apply Rlt_le, Rinv_0_lt_compat. lra.
Qed.

(** With at most four correspondences: the candidates are unit quaternions with
    nonnegative first component, in the order of increasing cost, at least 1e-8
    apart from each other, and every eigenvector is represented, up to a
    distance below 1e-8, by one of them. *)
Theorem C55_candidates : forall val evs,
  ((exists l, upnp_main val evs = Some l) <-> (forall e, In e evs -> e <> qzero)) /\
  forall l, upnp_main val evs = Some l ->
    Sorted cheaper l /\ ForallOrdPairs apart l /\
    (forall c, In c l -> fst c = val (snd c) /\ qnorm2 (snd c) = 1 /\ 0 <= q0 (snd c) /\
        exists e s, In e evs /\ s <> 0 /\ e = qscale s (snd c)) /\
    (forall e, In e evs -> exists q s c, qnorm2 q = 1 /\ 0 <= q0 q /\ s <> 0 /\ e = qscale s q /\
        In c l /\ qdist q (snd c) < small).
Proof.
  intros val evs. unfold upnp_main.
  assert (I0 : main_inv val [] []) by (constructor; [constructor|constructor|intros c []|intros c []]).
  destruct (main_fold val evs [] [] I0) as [H1 H2]. split; [split|].
  - intros [l E]. intros e He. now apply (mi_all _ _ _ (H1 l E)).
  - exact H2.
  - intros l E. destruct (H1 l E) as [S A F C]. split; auto. split; auto. split.
    + intros c Hc. destruct (F c Hc) as (e&He&N&->). destruct (pos_quat_unit e N) as (U&P&Ee).
      cbn [fst snd]. repeat split; auto. exists e, (signed_norm e). repeat split; auto. now apply signed_norm_nz.
    + intros e He. destruct (C e He) as (N&c&Hc&D). destruct (pos_quat_unit e N) as (U&P&Ee).
      exists (pos_quat e), (signed_norm e), c. repeat split; auto. now apply signed_norm_nz.
Qed.

(** A rotation can still be listed twice: when the first component is zero the
    sign is not normalised, and the antipodal quaternion is a second candidate
    with the same rotation. *)
Theorem C55_antipodal_refuted : forall val, exists evs l a b,
  upnp_main val evs = Some l /\ In a l /\ In b l /\ snd a <> snd b /\
  quaternion2rot (snd a) = quaternion2rot (snd b).
Proof.
  intro val. set (p := Q4 0 1 0 0). set (m := Q4 0 (-1) 0 0).
  destruct (C55_candidates val [p; m]) as [[_ D] K].
  destruct D as [l E].
  { intros e [<-|[<-|[]]]; unfold p, m, qzero; intro X; injection X; lra. }
  exists [p; m], l. destruct (main_fold val [p; m] [] [] ltac:(constructor; [constructor|constructor|intros c []|intros c []])) as [H1 _].
  specialize (H1 l E). destruct H1 as [_ _ F C].
  assert (Np : qnrm p = 1 /\ qnrm m = 1).
  { unfold qnrm, p, m; qc. split; replace (0 ^ 2 + _ ^ 2 + 0 ^ 2 + 0 ^ 2) with 1 by ring; apply sqrt_1. }
  assert (Pp : pos_quat p = p /\ pos_quat m = m).
  { unfold pos_quat, signed_norm. destruct Np as [-> ->]. unfold p, m, qdivs; qc.
    destruct (Rlt_dec 0 0); [lra|]. split; f_equal; field. }
  destruct Pp as [Pp Pm].
  assert (Dpm : qdist p m = 2).
  { unfold qdist, qnrm, qsub, p, m; qc. replace ((0 - 0) ^ 2 + (1 - -1) ^ 2 + (0 - 0) ^ 2 + (0 - 0) ^ 2) with (2 * 2) by ring. apply sqrt_square. lra. }
  assert (Get : forall e, In e [p; m] -> exists c, In c l /\ snd c = e).
  { intros e He. destruct (C e He) as (_&c&Hc&Dc). exists c. split; auto.
    destruct (F c Hc) as (e'&He'&_&Ec). rewrite Ec in *. cbn [snd] in *.
    destruct He as [<-|[<-|[]]]; destruct He' as [<-|[<-|[]]]; rewrite ?Pp, ?Pm in *; auto; exfalso;
      rewrite ?(qdist_sym m p), Dpm in Dc; unfold small in Dc; lra. }
  destruct (Get p) as (a&Ha&Ea); [left; auto|]. destruct (Get m) as (b&Hb&Eb); [right; left; auto|].
  exists a, b. rewrite Ea, Eb. repeat split; auto.
  - unfold p, m. intro X. injection X. lra.
  - unfold quaternion2rot, p, m; qc. f_equal; ring.
Qed.

(** * The second round *)
Section Quadratic.
Variables (M : nat -> nat -> R) (C : nat -> R) (g : R).
Hypothesis Sym : forall j k, M j k = M k j.
Definition bil (x y : nat -> R) : R := sumn 10 (fun j => sumn 10 (fun k => x j * M j k * y k)).
Definition lin (x : nat -> R) : R := sumn 10 (fun j => C j * x j).
Lemma bil_sym x y : bil x y = bil y x.
Proof. unfold bil. rewrite sumn_swap. apply sumn_ext; intros. apply sumn_ext; intros. rewrite (Sym i0 i). ring. Qed.
Lemma bil_add x y z : bil x (fun i => y i + z i) = bil x y + bil x z.
Proof. unfold bil. rewrite <- sumn_add. apply sumn_ext; intros. rewrite <- sumn_add. apply sumn_ext; intros. ring. Qed.
Lemma bil_scale x a y : bil x (fun i => a * y i) = a * bil x y.
Proof. unfold bil. rewrite <- sumn_scale. apply sumn_ext; intros. rewrite <- sumn_scale. apply sumn_ext; intros. ring. Qed.
Lemma lin_add y z : lin (fun i => y i + z i) = lin y + lin z.
Proof. unfold lin. rewrite <- sumn_add. apply sumn_ext; intros. ring. Qed.
Lemma lin_scale a y : lin (fun i => a * y i) = a * lin y.
Proof. unfold lin. rewrite <- sumn_scale. apply sumn_ext; intros. ring. Qed.
Lemma bil_ext x y x' y' : (forall i, (i < 10)%nat -> x i = x' i) -> (forall i, (i < 10)%nat -> y i = y' i) -> bil x y = bil x' y'.
Proof. intros Hx Hy. unfold bil. apply sumn_ext; intros. apply sumn_ext; intros. now rewrite Hx, Hy. Qed.
Lemma lin_ext x x' : (forall i, (i < 10)%nat -> x i = x' i) -> lin x = lin x'.
Proof. intros Hx. unfold lin. apply sumn_ext; intros. now rewrite Hx. Qed.

Variable d : vec3.
Definition S0 : nat -> R := fun j => nth j [1;0;0;0;0;0;0;0;0;0] 0.
Definition S1 : nat -> R := fun j => nth j [0;0;0;0;vx d;vy d;vz d;0;0;0] 0.
Definition S2 : nat -> R := fun j => nth j [0;vx d * vx d;vy d * vy d;vz d * vz d;0;0;0;vx d * vy d;vx d * vz d;vy d * vz d] 0.
Definition D := norm2 d.

(** coefficients of the Cayley vector h d *)
Definition scay (h : R) : nat -> R := fun j => / (1 + D * h ^ 2) * fill_s (Q4 1 (h * vx d) (h * vy d) (h * vz d)) j.
Lemma scay_split h j : (j < 10)%nat -> scay h j = / (1 + D * h ^ 2) * (S0 j + (h * S1 j + h ^ 2 * S2 j)).
Proof.
  intro Hj. unfold scay. f_equal. unfold S0, S1, S2, fill_s.
  do 10 (destruct j as [|j]; [cbn [nth q0 q1 q2 q3]; ring|]). lia.
Qed.
Lemma D_pos h : 1 + D * h ^ 2 > 0.
Proof. unfold D. pose proof (norm2_nonneg d). pose proof (pow2_ge_0 h). nra. Qed.

Lemma value_rational h :
  uvalue M C g (scay h) =
  ((bil S0 S0 + 2 * lin S0 + g) + (2 * bil S0 S1 + 2 * lin S1) * h
   + (2 * bil S0 S2 + bil S1 S1 + 2 * lin S2 + 2 * D * lin S0 + 2 * D * g) * h ^ 2
   + (2 * bil S1 S2 + 2 * D * lin S1) * h ^ 3 + (bil S2 S2 + 2 * D * lin S2 + D ^ 2 * g) * h ^ 4)
  * (/ (1 + D * h ^ 2) * / (1 + D * h ^ 2)).
Proof.
  unfold uvalue. fold (bil (scay h) (scay h)). fold (lin (scay h)).
  pose proof (D_pos h) as P. set (w := / (1 + D * h ^ 2)).
  assert (Hw : w * (1 + D * h ^ 2) = 1) by (unfold w; field; lra).
  rewrite (bil_ext _ _ (fun j => w * (S0 j + (h * S1 j + h ^ 2 * S2 j))) (fun j => w * (S0 j + (h * S1 j + h ^ 2 * S2 j))))
    by (intros; now apply scay_split).
  rewrite (lin_ext _ (fun j => w * (S0 j + (h * S1 j + h ^ 2 * S2 j)))) by (intros; now apply scay_split).
  set (T := fun j => S0 j + (h * S1 j + h ^ 2 * S2 j)).
  assert (ET : forall x, bil x T = bil x S0 + (h * bil x S1 + h ^ 2 * bil x S2)).
  { intro x. unfold T. rewrite (bil_add x S0 (fun j => h * S1 j + h ^ 2 * S2 j)).
    rewrite (bil_add x (fun j => h * S1 j) (fun j => h ^ 2 * S2 j)), !bil_scale. ring. }
  assert (LT : lin T = lin S0 + (h * lin S1 + h ^ 2 * lin S2)).
  { unfold T. rewrite (lin_add S0 (fun j => h * S1 j + h ^ 2 * S2 j)).
    rewrite (lin_add (fun j => h * S1 j) (fun j => h ^ 2 * S2 j)), !lin_scale. ring. }
  change (fun j => w * (S0 j + (h * S1 j + h ^ 2 * S2 j))) with (fun j => w * T j).
  rewrite (bil_scale (fun j => w * T j) w T). rewrite (bil_sym (fun j => w * T j) T).
  rewrite (bil_scale T w T). rewrite (lin_scale w T), LT.
  rewrite (ET T), (bil_sym T S0), (bil_sym T S1), (bil_sym T S2), !ET.
  rewrite (bil_sym S1 S0), (bil_sym S2 S0), (bil_sym S2 S1).
  generalize (bil S0 S0) (bil S0 S1) (bil S0 S2) (bil S1 S1) (bil S1 S2) (bil S2 S2) (lin S0) (lin S1) (lin S2).
  intros b00 b01 b02 b11 b12 b22 l0 l1 l2.
  replace g with (g * (w * (1 + D * h ^ 2)) * (w * (1 + D * h ^ 2))) at 1 by (rewrite Hw; ring).
  replace (2 * (w * (l0 + (h * l1 + h ^ 2 * l2)))) with (2 * (w * (l0 + (h * l1 + h ^ 2 * l2))) * (w * (1 + D * h ^ 2))) by (rewrite Hw; ring).
  ring.
Qed.

Lemma first_coeff : 2 * bil S0 S1 + 2 * lin S1 = dot (ugrad M C) d.
Proof.
  unfold bil, lin, S0, S1, ugrad, dot. cbn [sumn nth vx vy vz]. ring.
Qed.
Lemma second_coeff :
  2 * (2 * bil S0 S2 + bil S1 S1 + 2 * lin S2 + 2 * D * lin S0 + 2 * D * g) - 4 * D * (bil S0 S0 + 2 * lin S0 + g)
  = dot d (mv (uhess M C) d).
Proof.
  unfold bil, lin, S0, S1, S2, uhess, D, norm2, dot, mv.
  cbn [sumn nth vx vy vz m00 m01 m02 m10 m11 m12 m20 m21 m22].
  rewrite (Sym 5 4), (Sym 6 4), (Sym 6 5). ring.
Qed.
End Quadratic.

Lemma dplus f g x a b : derivable_pt_lim f x a -> derivable_pt_lim g x b -> derivable_pt_lim (fun h => f h + g h) x (a + b).
Proof. apply derivable_pt_lim_plus. Qed.
Lemma rational_derivatives D a0 a1 a2 a3 a4 : 0 <= D ->
  let phi h := (a0 + a1 * h + a2 * h ^ 2 + a3 * h ^ 3 + a4 * h ^ 4) * (/ (1 + D * h ^ 2) * / (1 + D * h ^ 2)) in
  exists phi1, (forall h, derivable_pt_lim phi h (phi1 h)) /\ phi1 0 = a1 /\
    derivable_pt_lim phi1 0 (2 * a2 - 4 * D * a0).
Proof.
  intros HD phi.
  assert (Pos : forall h, 1 + D * h ^ 2 <> 0) by (intro h; pose proof (pow2_ge_0 h); nra).
  set (u := fun h => / (1 + D * h ^ 2)).
  assert (Pw : forall h n, derivable_pt_lim (fun h => h ^ n) h (INR n * h ^ pred n)) by (intros; apply derivable_pt_lim_pow).
  assert (Du : forall h, derivable_pt_lim u h (- (2 * D * h) * (u h * u h))).
  { intro h. assert (X : derivable_pt_lim (fun h => 1 + D * h ^ 2) h (2 * D * h)).
    { replace (2 * D * h) with (0 + D * (INR 2 * h ^ 1)) by (cbn [INR]; ring).
      apply (derivable_pt_lim_plus (fun _ => 1) (fun h => D * h ^ 2)); [apply derivable_pt_lim_const|].
      apply (derivable_pt_lim_scal (fun h => h ^ 2)), (Pw h 2%nat). }
    assert (Y := derivable_pt_lim_div (fun _ => 1) (fun h => 1 + D * h ^ 2) h 0 (2 * D * h)
      (derivable_pt_lim_const 1 h) X (Pos h)).
    unfold div_fct in Y. unfold u.
    replace (- (2 * D * h) * (/ (1 + D * h ^ 2) * / (1 + D * h ^ 2))) with ((0 * (1 + D * h ^ 2) - 2 * D * h * 1) / Rsqr (1 + D * h ^ 2)).
    - apply (derivable_pt_lim_ext (fun x => 1 / (1 + D * x ^ 2))); [|exact Y]. intro. unfold Rdiv. ring.
    - unfold Rsqr. field. apply Pos. }
  set (P := fun h => a0 + a1 * h + a2 * h ^ 2 + a3 * h ^ 3 + a4 * h ^ 4).
  set (P1 := fun h => a1 + 2 * a2 * h + 3 * a3 * h ^ 2 + 4 * a4 * h ^ 3).
  assert (DP : forall h, derivable_pt_lim P h (P1 h)).
  { intro h. unfold P, P1.
    replace (a1 + 2 * a2 * h + 3 * a3 * h ^ 2 + 4 * a4 * h ^ 3) with
      (0 + a1 * 1 + a2 * (INR 2 * h ^ 1) + a3 * (INR 3 * h ^ 2) + a4 * (INR 4 * h ^ 3)) by (cbn [INR]; ring).
    repeat apply dplus.
    - apply derivable_pt_lim_const.
    - apply (derivable_pt_lim_scal (fun h => h)), derivable_pt_lim_id.
    - apply (derivable_pt_lim_scal (fun h => h ^ 2)), (Pw h 2%nat).
    - apply (derivable_pt_lim_scal (fun h => h ^ 3)), (Pw h 3%nat).
    - apply (derivable_pt_lim_scal (fun h => h ^ 4)), (Pw h 4%nat). }
  set (w := fun h => u h * u h).
  assert (Dw : forall h, derivable_pt_lim w h (- (4 * D * h) * (u h * (u h * u h)))).
  { intro h. replace (- (4 * D * h) * (u h * (u h * u h))) with
      ((- (2 * D * h) * (u h * u h)) * u h + u h * (- (2 * D * h) * (u h * u h))) by ring.
    apply (derivable_pt_lim_mult u u h); apply Du. }
  exists (fun h => P1 h * w h + P h * (- (4 * D * h) * (u h * (u h * u h)))).
  split; [|split].
  - intro h. apply (derivable_pt_lim_mult P w h); [apply DP|apply Dw].
  - unfold P1, P, w, u. replace (1 + D * 0 ^ 2) with 1 by ring. field.
  - set (z := fun h => u h * (u h * u h)).
    assert (Dz : derivable_pt_lim z 0 0).
    { replace 0 with ((- (2 * D * 0) * (u 0 * u 0)) * w 0 + u 0 * (- (4 * D * 0) * (u 0 * (u 0 * u 0)))) at 2 by ring.
      apply (derivable_pt_lim_mult u w 0); [apply Du|apply Dw]. }
    assert (DP1 : derivable_pt_lim P1 0 (2 * a2)).
    { apply (eq_ind (0 + 2 * a2 * 1 + 3 * a3 * (INR 2 * 0 ^ 1) + 4 * a4 * (INR 3 * 0 ^ 2)) (derivable_pt_lim P1 0));
        [unfold P1|cbn [INR]; ring].
      repeat apply dplus.
      - apply derivable_pt_lim_const.
      - apply (derivable_pt_lim_scal (fun h => h)), derivable_pt_lim_id.
      - apply (derivable_pt_lim_scal (fun h => h ^ 2)), (Pw 0 2%nat).
      - apply (derivable_pt_lim_scal (fun h => h ^ 3)), (Pw 0 3%nat). }
    assert (DL : derivable_pt_lim (fun h => - (4 * D * h)) 0 (- (4 * D))).
    { replace (- (4 * D)) with ((- (4 * D)) * 1) by ring.
      apply (derivable_pt_lim_ext (fun h => (- (4 * D)) * h)); [intro; ring|].
      apply (derivable_pt_lim_scal (fun h => h)), derivable_pt_lim_id. }
    assert (u0 : u 0 = 1) by (unfold u; replace (1 + D * 0 ^ 2) with 1 by ring; field).
    replace (2 * a2 - 4 * D * a0) with
      ((2 * a2 * w 0 + P1 0 * (- (4 * D * 0) * (u 0 * (u 0 * u 0)))) +
       (P1 0 * ((- (4 * D * 0)) * z 0) + P 0 * ((- (4 * D)) * z 0 + (- (4 * D * 0)) * 0))).
    + apply (derivable_pt_lim_plus (fun h => P1 h * w h) (fun h => P h * (- (4 * D * h) * (u h * (u h * u h))))).
      * apply (derivable_pt_lim_mult P1 w 0); [exact DP1|apply Dw].
      * apply (derivable_pt_lim_mult P (fun h => - (4 * D * h) * z h) 0); [apply DP|].
        apply (derivable_pt_lim_mult (fun h => - (4 * D * h)) z 0); [exact DL|exact Dz].
    + unfold w, z, P, P1. rewrite u0. ring.
Qed.
