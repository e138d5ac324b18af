(** C55, continued: the second round and the output of upnp. *)
From Coq Require Import Reals Lra List Lia Permutation Sorted.
From Verif Require Import Lin GenLin RotModel RotProps Spectral UpnpModel UpnpProps UpnpProps2.
Import ListNotations.
Local Open Scope R_scope.

(** The least object space error for a given rotation. *)
Definition least_error (l : list ucorr) (Q : mat3) (e : R) : Prop :=
  (exists t, e = space_error l Q t) /\ forall t, e <= space_error l Q t.

Lemma uM_sym I pt l j k : uM I pt l j k = uM I pt l k j.
Proof.
  unfold uM. assert (G : forall l M, (forall j k, M j k = M k j) -> forall j k,
    fold_left (fun M q j k => M j k + dot (uA I pt q j) (uA I pt q k)) l M j k
    = fold_left (fun M q j k => M j k + dot (uA I pt q j) (uA I pt q k)) l M k j).
  { induction l0 as [|a l0 IH]; intros M HM j0 k0; cbn [fold_left]; auto.
    apply IH. intros. rewrite HM. f_equal. apply dot_comm. }
  apply G. auto.
Qed.
Lemma mapp_scale A w s : mapp A (fun j => w * s j) = vscale w (mapp A s).
Proof. unfold mapp, vscale; cbn [vx vy vz]. f_equal; rewrite <- sumn_scale; apply sumn_ext; intros; ring. Qed.
Lemma cayley_scay d h x : mapp (fill3x10 x) (scay d h) = mv (cayley2rot (vscale h d)) x.
Proof.
  unfold scay. rewrite mapp_scale, fill_rotates.
  pose proof (D_pos d h) as P. unfold D, norm2 in *. destruct d as [a b c], x as [x y z].
  unfold quaternion2rot, cayley2rot, vscale, mv, mscale, dot in *.
  cbn [q0 q1 q2 q3 vx vy vz m00 m01 m02 m10 m11 m12 m20 m21 m22] in *.
  replace (1 + (h * a) ^ 2 + (h * b) ^ 2 + (h * c) ^ 2) with (1 + (a * a + b * b + c * c) * h ^ 2) by ring.
  set (w := 1 + (a * a + b * b + c * c) * h ^ 2) in *. f_equal; field; lra.
Qed.

Lemma value_best H l pt s : let I := uI H pt l in let J := uJ H l in
  vsub (mapp I s) J = best H l (fun c => mapp (fill3x10 (pt c)) s).
Proof. intros I J. unfold best, I. now rewrite mapp_uI. Qed.

Lemma least_error_best l H Q e : unit_bearings l -> uH l = Some H -> least_error l Q e ->
  e = space_error l Q (best H l (fun c => mv Q (up c))).
Proof.
  intros U EH [[t Et] Le].
  pose proof (Le (best H l (fun c => mv Q (up c)))) as A.
  assert (B : space_error l Q (best H l (fun c => mv Q (up c))) <= space_error l Q t).
  { unfold space_error. rewrite (error_split H l (fun c => mv Q (up c)) t U EH).
    assert (0 <= rsum (map (fun c => norm2 (perp (uf c) (vsub t (best H l (fun c => mv Q (up c)))))) l)); [|lra].
    apply rsum_nonneg. intros y Hy. apply in_map_iff in Hy. destruct Hy as (c'&<-&_). apply norm2_nonneg. }
  lra.
Qed.

(** The vector and the matrix of the second round are the gradient and the
    Hessian, with respect to a Cayley vector c multiplied to the candidate's
    rotation, of the least object space error over all translations: the first
    and the second derivative along every direction d. *)
Theorem C55_gradient_and_hessian : forall l H q d phi, unit_bearings l -> uH l = Some H ->
  (forall h, least_error l (mmul (cayley2rot (vscale h d)) (quaternion2rot q)) (phi h)) ->
  let pt c := mv (quaternion2rot q) (up c) in
  let M := uM (uI H pt l) pt l in let C := uC (uI H pt l) (uJ H l) pt l in
  exists phi1, (forall h, derivable_pt_lim phi h (phi1 h)) /\
    phi1 0 = dot (ugrad M C) d /\
    derivable_pt_lim phi1 0 (dot d (mv (uhess M C) d)).
Proof.
  intros l H q d phi U EH HL pt M C.
  set (g := ugamma (uJ H l) l).
  assert (E : forall h, phi h = uvalue M C g (scay d h)).
  { intro h. rewrite (least_error_best l H _ (phi h) U EH (HL h)).
    unfold M, C, g. rewrite value_error. unfold space_error. rewrite value_best.
    assert (B : best H l (fun c => mv (mmul (cayley2rot (vscale h d)) (quaternion2rot q)) (up c))
              = best H l (fun c => mapp (fill3x10 (pt c)) (scay d h))).
    { unfold best. f_equal. apply vsum_ext. intros c _. rewrite cayley_scay, mv_mmul. reflexivity. }
    rewrite B. apply rsum_ext. intros c _. rewrite cayley_scay, mv_mmul. reflexivity. }
  assert (Sy : forall j k, M j k = M k j) by (intros; apply uM_sym).
  set (a0 := bil M (S0) (S0) + 2 * lin C (S0) + g).
  set (a1 := 2 * bil M S0 (S1 d) + 2 * lin C (S1 d)).
  set (a2 := 2 * bil M S0 (S2 d) + bil M (S1 d) (S1 d) + 2 * lin C (S2 d) + 2 * D d * lin C S0 + 2 * D d * g).
  set (a3 := 2 * bil M (S1 d) (S2 d) + 2 * D d * lin C (S1 d)).
  set (a4 := bil M (S2 d) (S2 d) + 2 * D d * lin C (S2 d) + D d ^ 2 * g).
  destruct (rational_derivatives (D d) a0 a1 a2 a3 a4 (norm2_nonneg d)) as (p1&D1&V1&D2).
  exists p1. split; [|split].
  - intro h. apply (derivable_pt_lim_ext (fun h => (a0 + a1 * h + a2 * h ^ 2 + a3 * h ^ 3 + a4 * h ^ 4) * (/ (1 + D d * h ^ 2) * / (1 + D d * h ^ 2)))); [|apply D1].
    intro k. rewrite E. symmetry. apply (value_rational M C g Sy d k).
  - rewrite V1. unfold a1. apply first_coeff.
  - rewrite <- (second_coeff M C g Sy d). exact D2.
Qed.

(** ** One candidate *)
Lemma rot2quaternion_some A q : rotation A -> rot2quaternion A = Some q -> quaternion2rot q = A /\ qnorm2 q = 1.
Proof.
  intros HA E. destruct (rotation_from_quat A HA) as (p & N & <-).
  destruct (rot2quaternion_spec p N) as [S1 S0].
  destruct (Req_EM_T (q0 p * q1 p * q2 p * q3 p) 0) as [Z|Z]; [rewrite S0 in E by auto; discriminate|].
  assert (q0 p <> 0 /\ q1 p <> 0 /\ q2 p <> 0 /\ q3 p <> 0).
  { repeat split; intro X; apply Z; rewrite X; ring. }
  destruct H as (A0&A1&A2&A3). destruct (S1 A0 A1 A2 A3) as [X|X]; rewrite X in E; injection E as <-.
  - auto.
  - split; [apply C26_antipodal_same|]. unfold qnorm2, qneg in *; qc. lra.
Qed.

(** The second round makes one Newton step for the rotation and returns the
    translation that is optimal for the new rotation; unless the Hessian is
    singular or the new rotation has a quaternion with a zero component. *)
Theorem C55_polish : forall l H q, unit_bearings l -> uH l = Some H -> qnorm2 q = 1 ->
  let pt c := mv (quaternion2rot q) (up c) in
  let I := uI H up l in let J := uJ H l in
  let M := uM (uI H pt l) pt l in let C := uC (uI H pt l) J pt l in
  (det (uhess M C) = 0 /\ polish H I J l q = (None, None)) \/
  (det (uhess M C) <> 0 /\ exists cay Q t, mv (uhess M C) cay = vneg (ugrad M C) /\
     Q = mmul (cayley2rot cay) (quaternion2rot q) /\ rotation Q /\
     polish H I J l q = (Some (mT Q), t) /\
     forall t', t = Some t' -> exists tb, t' = vneg (mv (mT Q) tb) /\
        forall tt, space_error l Q tb <= space_error l Q tt).
Proof.
  intros l H q U EH N pt I J M C. unfold polish. fold pt. fold M. fold C.
  unfold inverse. destruct (Req_EM_T (det (uhess M C)) 0) as [Z|Z]; [left; auto|]. right. split; auto.
  set (cay := mv (mneg (minv (uhess M C))) (ugrad M C)).
  set (Q := mmul (cayley2rot cay) (quaternion2rot q)).
  assert (HQ : rotation Q).
  { apply rot_mmul; [|now apply q2r_rot]. destruct (cayley_as_quat cay) as (p&Np&_&->&_). now apply q2r_rot. }
  exists cay, Q. fold I J.
  assert (Ec : mv (uhess M C) cay = vneg (ugrad M C)).
  { unfold cay, mneg. rewrite mv_mscale, mv_scale, mv_minv by auto. generalize (ugrad M C). lring. }
  destruct (rot2quaternion Q) as [q'|] eqn:E.
  - destruct (rot2quaternion_some Q q' HQ E) as [Eq Nq].
    eexists. split; [exact Ec|]. split; [reflexivity|]. split; [exact HQ|].
    unfold to_pose. split; [reflexivity|]. intros t' Et. injection Et as <-.
    exists (utinv I J q'). split.
    + unfold mneg. rewrite mv_mscale. generalize (mv (mT Q) (utinv I J q')). lring.
    + intro tt. rewrite <- Eq. now apply C55_translation_optimal.
  - exists None. repeat split; auto; try apply HQ. discriminate.
Qed.

(** ** The output *)
Lemma filter_incl {X} (p : X -> bool) l x : In x (filter p l) -> In x l.
Proof. intro H. now apply filter_In in H. Qed.
Lemma filter_len {X} (p : X -> bool) l : (length (filter p l) <= length l)%nat.
Proof. induction l; cbn; auto. destruct (p a); cbn; lia. Qed.

Lemma main_len val evs : forall acc l, fold_left (upnp_main_step val) evs (Some acc) = Some l ->
  (length l <= length evs + length acc)%nat.
Proof.
  induction evs as [|e evs IH]; intros acc l E; cbn [fold_left] in E; [injection E as <-; cbn; lia|].
  cbn [upnp_main_step] in E. destruct (Req_EM_T (qnrm e) 0).
  - assert (NN : forall evs, fold_left (upnp_main_step val) evs None = None) by (induction evs0; auto).
    rewrite NN in E. discriminate.
  - apply IH in E. cbn [length]. destruct (already _ _); [lia|].
    rewrite (Permutation_length (insert_perm _ _)) in E. cbn [length] in E. lia.
Qed.

(** upnp returns at least one pose and at most one per eigenvector; every
    rotation it returns (that is not NaN) is a proper rotation. *)
Theorem C55_output : forall evs l out, unit_bearings l -> upnp evs l = Some out -> evs <> [] ->
  out <> [] /\ (length out <= length evs)%nat /\
  forall Q t, In (Some Q, t) out -> rotation Q.
Proof.
  intros evs l out U E NE. unfold upnp in E.
  destruct (uH l) as [H|] eqn:EH; [|discriminate].
  set (val := fun q => uvalue _ _ _ (fill_s q)) in E.
  set (cs := if Nat.ltb 4 (length l) then upnp_main_sym val evs else upnp_main val evs) in E.
  destruct cs as [qs|] eqn:Eq; [|discriminate].
  assert (K : (length qs <= length evs)%nat /\ qs <> [] /\ forall c, In c qs -> qnorm2 (snd c) = 1).
  { unfold cs in Eq. destruct (Nat.ltb 4 (length l)).
    - destruct (C55_candidates_sym val evs) as [_ S]. destruct (S qs Eq) as (_&L&F&_). split; [lia|].
      split; [|intros c Hc; now apply F]. intros ->. destruct evs; [congruence|discriminate].
    - pose proof (main_len val evs [] qs Eq) as L. cbn in L.
      destruct (C55_candidates val evs) as [_ S]. destruct (S qs Eq) as (_&_&F&G). split; [lia|].
      split; [|intros c Hc; now apply F]. intros ->. destruct evs as [|e evs]; [congruence|].
      destruct (G e) as (?&?&c&_&_&_&_&[]&_). left; auto. }
  destruct K as (L&NN&F).
  set (p := chirality_ok (uI H up l) (uJ H l) l) in E.
  injection E as <-.
  pose proof (filter_len p qs) as L2.
  destruct (filter p qs) as [|c2 q2] eqn:E2.
  - destruct qs as [|c qs]; [congruence|]. cbn [length] in *. split; [discriminate|]. split; [cbn; lia|].
    intros Q t [X|[]]. unfold to_pose in X. injection X as <- _. apply rot_T, q2r_rot, F. left; auto.
  - split; [discriminate|]. split; [rewrite map_length; lia|].
    intros Q t X. apply in_map_iff in X. destruct X as (c&X&Hc). rewrite <- E2 in Hc. apply filter_incl in Hc.
    destruct (C55_polish l H (snd c) U EH (F c Hc)) as [[_ Y]|[_ (cay&Q'&t'&_&_&R'&Y&_)]]; rewrite Y in X.
    + discriminate.
    + injection X as <- _. now apply rot_T.
Qed.

(** ** Noise-free data *)
Lemma in_front_on_rays l Q t : in_front l Q t -> on_rays l Q t.
Proof. intros F c Hc. destruct (F c Hc) as (lam&_&E). eauto. Qed.
Lemma filter_none {X} (p : X -> bool) l : (forall x, In x l -> p x = false) -> filter p l = [].
Proof. intro H. induction l; cbn; auto. rewrite H by (left; auto). apply IHl. intros; apply H; right; auto. Qed.
Lemma front_count l Q t : unit_bearings l -> in_front l Q t -> count_negative Q t l = 0%nat.
Proof.
  intros U F. unfold count_negative. rewrite filter_none; auto. intros c Hc.
  destruct (F c Hc) as (lam&Hl&E). rewrite E. destruct (Rlt_dec _ 0) as [L|]; auto. exfalso.
  rewrite dot_scale_l in L. pose proof (U c Hc) as Uc. unfold unit, norm2 in Uc. rewrite Uc in L. lra.
Qed.

Lemma fold_grad I J pt l : forall M C j, (forall j, M 0%nat j + C j = 0) ->
  (forall c, In c l -> vadd (uA I pt c 0%nat) (ub J c) = v0) ->
  fold_left (fun M q j k => M j k + dot (uA I pt q j) (uA I pt q k)) l M 0%nat j
  + fold_left (fun C q j => C j + dot (ub J q) (uA I pt q j)) l C j = 0.
Proof.
  induction l as [|a l IH]; intros M C j Z A; cbn [fold_left]; auto.
  apply IH; [|intros; apply A; right; auto]. intro k.
  transitivity ((M 0%nat k + C k) + dot (vadd (uA I pt a 0%nat) (ub J a)) (uA I pt a k)).
  - rewrite dot_add_l. ring.
  - rewrite Z, A by (left; auto). generalize (uA I pt a k). lring.
Qed.

Lemma true_gradient l H q t : unit_bearings l -> uH l = Some H -> on_rays l (quaternion2rot q) t ->
  let pt c := mv (quaternion2rot q) (up c) in
  ugrad (uM (uI H pt l) pt l) (uC (uI H pt l) (uJ H l) pt l) = v0.
Proof.
  intros U EH O pt.
  assert (T : vsub (uI H pt l 0%nat) (uJ H l) = t).
  { destruct (C55_true_pose l H q t U EH O) as [Et _]. rewrite <- Et. unfold utinv. f_equal. rewrite mapp_uI.
    unfold uI. rewrite (fold_cols (fun q j => mv (uVk H (uf q)) (fill3x10 (pt q) j))), vadd_0_l.
    apply vsum_ext. intros c _. rewrite fill_rotates. f_equal. }
  assert (Z : forall j, uM (uI H pt l) pt l 0%nat j + uC (uI H pt l) (uJ H l) pt l j = 0).
  { intro j. unfold uM, uC. apply fold_grad; [intro; ring|]. intros c Hc.
    unfold uA, ub.
    replace (fill3x10 (pt c) 0%nat) with (pt c) by (unfold fill3x10; cbn [nth]; now destruct (pt c)).
    assert (X : perp (uf c) (vsub (vadd (pt c) t) (uv c)) = v0).
    { destruct (O c Hc) as (lam&E). unfold pt. rewrite E. apply perp_on_ray, U, Hc. }
    rewrite <- T in X. revert X. generalize (uI H pt l 0%nat) (uJ H l) (pt c). intros i J p X.
    transitivity (vneg (perp (uf c) (vsub (vadd p (vsub i J)) (uv c)))); [|rewrite X; lring].
    unfold mneg. rewrite mv_mscale, !utemp_perp.
    transitivity (vneg (vsub (perp (uf c) (vadd p i)) (perp (uf c) (vadd (uv c) J)))).
    - generalize (perp (uf c) (vadd p i)) (perp (uf c) (vadd (uv c) J)). lring.
    - rewrite <- perp_sub. f_equal. f_equal. generalize (uv c). lring. }
  unfold ugrad, v0. f_equal.
  - pose proof (Z 4%nat). lra.
  - pose proof (Z 5%nat). lra.
  - pose proof (Z 6%nat). lra.
Qed.

Lemma fill_s_neg q : fill_s (qneg q) = fill_s q.
Proof. unfold fill_s, qneg; qc. replace (- q0 q * - q0 q) with (q0 q * q0 q) by ring.
  replace (- q1 q * - q1 q) with (q1 q * q1 q) by ring. replace (- q2 q * - q2 q) with (q2 q * q2 q) by ring.
  replace (- q3 q * - q3 q) with (q3 q * q3 q) by ring. replace (- q0 q * - q1 q) with (q0 q * q1 q) by ring.
  replace (- q0 q * - q2 q) with (q0 q * q2 q) by ring. replace (- q0 q * - q3 q) with (q0 q * q3 q) by ring.
  replace (- q1 q * - q2 q) with (q1 q * q2 q) by ring. replace (- q1 q * - q3 q) with (q1 q * q3 q) by ring.
  replace (- q2 q * - q3 q) with (q2 q * q3 q) by ring. reflexivity.
Qed.

Definition hess_at (H : mat3) (l : list ucorr) (q : quat) : mat3 :=
  let pt c := mv (quaternion2rot q) (up c) in
  uhess (uM (uI H pt l) pt l) (uC (uI H pt l) (uJ H l) pt l).

Lemma polish_true l H q t : unit_bearings l -> uH l = Some H -> qnorm2 q = 1 ->
  on_rays l (quaternion2rot q) t -> det (hess_at H l q) <> 0 ->
  (q0 q * q1 q * q2 q * q3 q <> 0 ->
     polish H (uI H up l) (uJ H l) l q = (Some (mT (quaternion2rot q)), Some (vneg (mv (mT (quaternion2rot q)) t)))) /\
  (q0 q * q1 q * q2 q * q3 q = 0 ->
     polish H (uI H up l) (uJ H l) l q = (Some (mT (quaternion2rot q)), None)).
Proof.
  intros U EH N O D. unfold polish. fold (hess_at H l q). unfold inverse.
  destruct (Req_EM_T (det (hess_at H l q)) 0); [contradiction|].
  rewrite (true_gradient l H q t U EH O). rewrite mv_0.
  assert (C0 : cayley2rot v0 = mid).
  { unfold cayley2rot, v0, mid, mscale; cbn. f_equal; field. }
  rewrite C0, mmul_id_l.
  destruct (rot2quaternion_spec q N) as [R1 R0]. split; intro Z.
  - assert (q0 q <> 0 /\ q1 q <> 0 /\ q2 q <> 0 /\ q3 q <> 0) as (A0&A1&A2&A3).
    { repeat split; intro X; apply Z; rewrite X; ring. }
    assert (T : utinv (uI H up l) (uJ H l) q = t) by now apply C55_true_pose.
    unfold to_pose. destruct (R1 A0 A1 A2 A3) as [-> | ->].
    + rewrite T. unfold mneg. rewrite mv_mscale. f_equal. f_equal. generalize (mv (mT (quaternion2rot q)) t). lring.
    + unfold utinv in *. rewrite fill_s_neg, T. unfold mneg. rewrite mv_mscale. f_equal. f_equal.
      generalize (mv (mT (quaternion2rot q)) t). lring.
  - rewrite R0 by auto. reflexivity.
Qed.

(** The list of candidates contains q or its antipode exactly. *)
Lemma polish_neg H I J l q : polish H I J l (qneg q) = polish H I J l q.
Proof. unfold polish. now rewrite C26_antipodal_same. Qed.

Definition is_candidate (l : list ucorr) (evs : list quat) (q : quat) : Prop :=
  exists e s, In e evs /\ s <> 0 /\ e = qscale s q /\
    ((4 < length l)%nat \/ forall e', In e' evs -> pos_quat e' = pos_quat e \/ small <= qdist (pos_quat e) (pos_quat e')).


Lemma same_dir s q r p : qnorm2 q = 1 -> qnorm2 p = 1 -> s <> 0 -> qscale s q = qscale r p -> p = q \/ p = qneg q.
Proof.
  intros Nq Np Hs E. destruct q as [a b c d], p as [a' b' c' d']. unfold qscale, qneg, qnorm2 in *. qc.
  injection E as E0 E1 E2 E3.
  assert (X : s * s = r * r).
  { transitivity (s * s * (a ^ 2 + b ^ 2 + c ^ 2 + d ^ 2)); [rewrite Nq; ring|].
    transitivity (r * r * (a' ^ 2 + b' ^ 2 + c' ^ 2 + d' ^ 2)); [|rewrite Np; ring].
    replace (s * s * (a ^ 2 + b ^ 2 + c ^ 2 + d ^ 2)) with ((s * a) ^ 2 + (s * b) ^ 2 + (s * c) ^ 2 + (s * d) ^ 2) by ring.
    rewrite E0, E1, E2, E3. ring. }
  assert (Y : (s - r) * (s + r) = 0) by (replace ((s - r) * (s + r)) with (s * s - r * r) by ring; lra).
  apply Rmult_integral in Y. destruct Y as [Y|Y].
  - left. assert (r = s) by lra. subst r. f_equal; apply (Rmult_eq_reg_l s); auto.
  - right. assert (r = - s) by lra. subst r. f_equal; apply (Rmult_eq_reg_l s); auto; lra.
Qed.

Lemma upnp_true l H evs q t : unit_bearings l -> uH l = Some H -> (3 <= length l)%nat ->
  (forall e, In e evs -> e <> qzero) -> qnorm2 q = 1 -> in_front l (quaternion2rot q) t ->
  is_candidate l evs q ->
  exists out, upnp evs l = Some out /\ In (polish H (uI H up l) (uJ H l) l q) out.
Proof.
  intros U EH L3 NZ N F (e&s&He&Hs&Ee&Sep). unfold upnp. rewrite EH.
  set (val := fun q => uvalue _ _ _ (fill_s q)).
  assert (K : exists qs, (if Nat.ltb 4 (length l) then upnp_main_sym val evs else upnp_main val evs) = Some qs /\
     exists c, In c qs /\ (snd c = q \/ snd c = qneg q)).
  { destruct (Nat.ltb 4 (length l)) eqn:Lt.
    - destruct (C55_candidates_sym val evs) as [[_ Def] S]. destruct (Def NZ) as [qs Eq].
      exists qs. split; auto. destruct (S qs Eq) as (_&_&A&B). destruct (B e He) as (c&r&Hc&Hr&Er).
      exists c. split; auto. apply (same_dir s q r); auto; [now apply A|congruence].
    - apply Nat.ltb_ge in Lt. destruct Sep as [Sep|Sep]; [lia|].
      unfold upnp_main. assert (I0 : main_inv val [] []) by (constructor; [constructor|constructor|intros ? []|intros ? []]).
      destruct (main_fold val evs [] [] I0) as [H1 H2]. destruct (H2 NZ) as [qs Eq]. exists qs. split; auto.
      destruct (H1 qs Eq) as [_ _ Fr Al]. destruct (Al e He) as (NE&c&Hc&Dc). exists c. split; auto.
      destruct (Fr c Hc) as (e'&He'&_&Ec). rewrite Ec in Dc |- *. cbn [snd] in *.
      destruct (Sep e' He') as [X|X]; [|lra]. rewrite X.
      destruct (pos_quat_unit e NE) as (U1&_&E1). apply (same_dir s q (signed_norm e)); auto. congruence. }
  destruct K as (qs&->&c&Hc&Ec).
  assert (Ch : chirality_ok (uI H up l) (uJ H l) l c = true).
  { unfold chirality_ok. apply Nat.ltb_lt.
    assert (Er : quaternion2rot (snd c) = quaternion2rot q) by (destruct Ec as [-> | ->]; [auto|apply C26_antipodal_same]).
    rewrite Er. assert (Tc : utinv (uI H up l) (uJ H l) (snd c) = t).
    { apply C55_true_pose; auto. rewrite Er. now apply in_front_on_rays. }
    rewrite Tc, front_count by auto. unfold max_negative.
    assert (10 <= 2 * length l + 5)%nat by lia.
    apply Nat.div_str_pos. lia. }
  assert (Hf : In c (filter (chirality_ok (uI H up l) (uJ H l) l) qs)) by (apply filter_In; auto).
  eexists. split; [reflexivity|].
  destruct (filter (chirality_ok (uI H up l) (uJ H l) l) qs) as [|c2 r] eqn:E2; [destruct Hf|].
  rewrite <- E2 in *. apply in_map_iff. exists c. split; auto.
  destruct Ec as [-> | ->]; auto. apply polish_neg.
Qed.

(** Noise-free data with the points in front of the cameras: if an eigenvector
    is a multiple of the true quaternion, the true pose is among the results -
    provided the Hessian is regular and no quaternion component is zero. *)
Theorem C55_recovers_pose : forall l H evs q t, unit_bearings l -> uH l = Some H -> (3 <= length l)%nat ->
  (forall e, In e evs -> e <> qzero) -> qnorm2 q = 1 -> in_front l (quaternion2rot q) t ->
  is_candidate l evs q -> det (hess_at H l q) <> 0 -> q0 q * q1 q * q2 q * q3 q <> 0 ->
  exists out, upnp evs l = Some out /\
    In (Some (mT (quaternion2rot q)), Some (vneg (mv (mT (quaternion2rot q)) t))) out.
Proof.
  intros l H evs q t U EH L3 NZ N F Cd D Z.
  destruct (upnp_true l H evs q t U EH L3 NZ N F Cd) as (out&E&Hin). exists out. split; auto.
  destruct (polish_true l H q t U EH N (in_front_on_rays _ _ _ F) D) as [P _]. rewrite (P Z) in Hin. exact Hin.
Qed.

(** Without the last condition this is false: if a component of the quaternion
    is zero - the identity, or any rotation about a coordinate axis or an axis
    in a coordinate plane - the translation returned for the true rotation is
    NaN. *)
Theorem C55_zero_component_refuted : forall l H evs q t, unit_bearings l -> uH l = Some H -> (3 <= length l)%nat ->
  (forall e, In e evs -> e <> qzero) -> qnorm2 q = 1 -> in_front l (quaternion2rot q) t ->
  is_candidate l evs q -> det (hess_at H l q) <> 0 -> q0 q * q1 q * q2 q * q3 q = 0 ->
  exists out, upnp evs l = Some out /\ In (Some (mT (quaternion2rot q)), None) out.
Proof.
  intros l H evs q t U EH L3 NZ N F Cd D Z.
  destruct (upnp_true l H evs q t U EH L3 NZ N F Cd) as (out&E&Hin). exists out. split; auto.
  destruct (polish_true l H q t U EH N (in_front_on_rays _ _ _ F) D) as [_ P]. rewrite (P Z) in Hin. exact Hin.
Qed.

(** ** Which candidates are returned *)
(** k of the points lie behind their cameras in the pose (Q, t) *)
Inductive behind (Q : mat3) (t : vec3) : list ucorr -> nat -> Prop :=
| behind_nil : behind Q t [] 0
| behind_yes c l k : dot (vsub (vadd (mv Q (up c)) t) (uv c)) (uf c) < 0 -> behind Q t l k -> behind Q t (c :: l) (S k)
| behind_no c l k : 0 <= dot (vsub (vadd (mv Q (up c)) t) (uv c)) (uf c) -> behind Q t l k -> behind Q t (c :: l) k.
Definition best_translation (l : list ucorr) (Q : mat3) (t : vec3) : Prop :=
  forall t', space_error l Q t <= space_error l Q t' /\ (space_error l Q t' = space_error l Q t -> t' = t).
(** less than a fifth (rounded) of the points are behind their cameras *)
Definition plausible (l : list ucorr) (q : quat) : Prop :=
  exists t k, best_translation l (quaternion2rot q) t /\ behind (quaternion2rot q) t l k /\
    (10 * (k + 1) <= 2 * length l + 5)%nat.
(** the sublist of the elements with property P, in order *)
Inductive keeps {X} (P : X -> Prop) : list X -> list X -> Prop :=
| keeps_nil : keeps P [] []
| keeps_yes x l r : P x -> keeps P l r -> keeps P (x :: l) (x :: r)
| keeps_no x l r : ~ P x -> keeps P l r -> keeps P (x :: l) r.

Lemma behind_count Q t l : behind Q t l (count_negative Q t l).
Proof.
  unfold count_negative. induction l as [|c l IH]; cbn [filter length]; [constructor|].
  destruct (Rlt_dec _ 0); cbn [length]; [apply behind_yes|apply behind_no]; auto; lra.
Qed.
Lemma behind_unique Q t l k : behind Q t l k -> k = count_negative Q t l.
Proof.
  unfold count_negative. induction 1; cbn [filter length]; auto; destruct (Rlt_dec _ 0); cbn [length]; auto; lra.
Qed.
Lemma plausible_iff l H q : unit_bearings l -> uH l = Some H ->
  plausible l (snd q) <-> chirality_ok (uI H up l) (uJ H l) l (q : cand) = true.
Proof.
  intros U EH. unfold chirality_ok. rewrite Nat.ltb_lt. unfold max_negative.
  set (tb := utinv (uI H up l) (uJ H l) (snd q)). set (Q := quaternion2rot (snd q)).
  assert (B : best_translation l Q tb) by (intro t'; apply C55_translation_optimal; auto).
  set (n := length l).
  assert (A : forall k, (k < (2 * n + 5) / 10)%nat <-> (10 * (k + 1) <= 2 * n + 5)%nat).
  { intro k. split; intro X.
    - assert ((2 * n + 5) / 10 * 10 <= 2 * n + 5)%nat by (rewrite Nat.mul_comm; apply Nat.mul_div_le; lia). lia.
    - apply (Nat.div_le_lower_bound (2 * n + 5) 10 (k + 1)) in X; lia. }
  rewrite A. split.
  - intros (t&k&Bt&Bk&Hk). assert (t = tb) as ->.
    { apply B. apply Rle_antisym; [apply Bt|apply B]. }
    apply behind_unique in Bk. subst k. exact Hk.
  - intro X. exists tb, (count_negative Q tb l). split; auto. split; auto. apply behind_count.
Qed.
Lemma keeps_filter {X} (P : X -> Prop) (p : X -> bool) l : (forall x, P x <-> p x = true) -> keeps P l (filter p l).
Proof.
  intro E. induction l as [|x l IH]; cbn [filter]; [constructor|].
  destruct (p x) eqn:Ex; [apply keeps_yes|apply keeps_no]; auto; rewrite E; congruence.
Qed.

Theorem C55_chirality : forall evs l H out, unit_bearings l -> uH l = Some H -> upnp evs l = Some out ->
  exists cs keep, Sorted cheaper cs /\
    (forall c, In c cs -> qnorm2 (snd c) = 1 /\ (exists t, best_translation l (quaternion2rot (snd c)) t /\
        fst c = space_error l (quaternion2rot (snd c)) t) /\ exists e s, In e evs /\ s <> 0 /\ e = qscale s (snd c)) /\
    ((4 < length l)%nat -> length cs = length evs) /\
    keeps (fun c => plausible l (snd c)) cs keep /\
    (keep <> [] -> out = map (fun c => polish H (uI H up l) (uJ H l) l (snd c)) keep) /\
    (keep = [] -> forall c r, cs = c :: r -> exists t, best_translation l (quaternion2rot (snd c)) t /\
        out = [(Some (mT (quaternion2rot (snd c))), Some (vneg (mv (mT (quaternion2rot (snd c))) t)))]).
Proof.
  intros evs l H out U EH E. unfold upnp in E. rewrite EH in E.
  set (val := fun q => uvalue _ _ _ (fill_s q)) in E.
  set (cs0 := if Nat.ltb 4 (length l) then upnp_main_sym val evs else upnp_main val evs) in E.
  destruct cs0 as [cs|] eqn:Ec; [|discriminate].
  exists cs, (filter (chirality_ok (uI H up l) (uJ H l) l) cs).
  assert (V : forall q, exists t, best_translation l (quaternion2rot q) t /\ val q = space_error l (quaternion2rot q) t).
  { intro q. exists (utinv (uI H up l) (uJ H l) q). split; [intro t'; apply C55_translation_optimal; auto|].
    now apply C55_value_is_error. }
  assert (K : Sorted cheaper cs /\ (forall c, In c cs -> fst c = val (snd c) /\ qnorm2 (snd c) = 1 /\
     exists e s, In e evs /\ s <> 0 /\ e = qscale s (snd c)) /\ ((4 < length l)%nat -> length cs = length evs)).
  { unfold cs0 in Ec. destruct (Nat.ltb 4 (length l)) eqn:Lt.
    - destruct (C55_candidates_sym val evs) as [_ S]. destruct (S cs Ec) as (A&B&C&_). split; auto. split; auto.
      intros c Hc. destruct (C c Hc) as (C1&C2&e&s&C3&C4&C5). split; auto. split; auto. exists e, s. split; auto. split; auto. lra.
    - destruct (C55_candidates val evs) as [_ S]. destruct (S cs Ec) as (A&B&C&_). split; auto. split.
      + intros c Hc. destruct (C c Hc) as (C1&C2&_&e&s&C3&C4&C5). split; auto. split; auto. exists e, s. auto.
      + apply Nat.ltb_ge in Lt. lia. }
  destruct K as (K1&K2&K3). split; auto. split.
  { intros c Hc. destruct (K2 c Hc) as (C1&C2&C3). split; auto. split; auto. rewrite C1. apply V. }
  split; auto. split; [apply keeps_filter; intro c; now apply plausible_iff|].
  injection E as <-. split.
  - intro NE. destruct (filter _ cs); [congruence|reflexivity].
  - intros -> c r ->. exists (utinv (uI H up l) (uJ H l) (snd c)).
    split; [intro t'; apply C55_translation_optimal; auto|].
    unfold to_pose. do 2 f_equal. unfold mneg. rewrite mv_mscale. repeat f_equal. generalize (mv (mT (quaternion2rot (snd c))) (utinv (uI H up l) (uJ H l) (snd c))). clear. lring.
Qed.
