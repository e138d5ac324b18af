(** C55: the cost, the translation and the second round of upnp. *)
From Coq Require Import Reals Lra List Lia Permutation Sorted.
From Verif Require Import Lin GenLin RotModel RotProps Spectral UpnpModel.
Import ListNotations.
Local Open Scope R_scope.

(** * Specification *)
(** The part of x that is perpendicular to the (unit) direction f. *)
Definition perp (f x : vec3) : vec3 := vsub x (vscale (dot f x) f).
(** The object space error of the pose "p -> Q p + t" (world to body): the sum
    of the squared distances of the transformed points from their rays, the ray
    of a correspondence starting at v with direction f. *)
Definition space_error (l : list ucorr) (Q : mat3) (t : vec3) : R :=
  rsum (map (fun c => norm2 (perp (uf c) (vsub (vadd (mv Q (up c)) t) (uv c)))) l).
Definition unit_bearings (l : list ucorr) : Prop := forall c, In c l -> unit (uf c).

(** * Linear algebra of the accumulated terms *)
Lemma vsum_map_add {X} (f g : X -> vec3) l :
  vsum (map (fun x => vadd (f x) (g x)) l) = vadd (vsum (map f l)) (vsum (map g l)).
Proof. induction l; sums. - lring. - rewrite IHl. generalize (vsum (map f l)) (vsum (map g l)) (f a) (g a). lring. Qed.
Lemma vsum_map_sub {X} (f g : X -> vec3) l :
  vsum (map (fun x => vsub (f x) (g x)) l) = vsub (vsum (map f l)) (vsum (map g l)).
Proof. induction l; sums. - lring. - rewrite IHl. generalize (vsum (map f l)) (vsum (map g l)) (f a) (g a). lring. Qed.
Lemma vsum_ext {X} (f g : X -> vec3) l : (forall x, In x l -> f x = g x) -> vsum (map f l) = vsum (map g l).
Proof. intro H. f_equal. now apply map_ext_in. Qed.
Lemma rsum_ext {X} (f g : X -> R) l : (forall x, In x l -> f x = g x) -> rsum (map f l) = rsum (map g l).
Proof. intro H. f_equal. now apply map_ext_in. Qed.
Lemma dot_vsum {X} (f : X -> vec3) d l : rsum (map (fun x => dot (f x) d) l) = dot (vsum (map f l)) d.
Proof. induction l; sums. - lring. - rewrite IHl. now rewrite dot_add_l. Qed.

Lemma mapp_add A B s : mapp (fun j => vadd (A j) (B j)) s = vadd (mapp A s) (mapp B s).
Proof.
  unfold mapp, vadd; cbn [vx vy vz]. f_equal; rewrite <- sumn_add; apply sumn_ext; intros; ring.
Qed.
Lemma mapp_mv T A s : mapp (fun j => mv T (A j)) s = mv T (mapp A s).
Proof.
  unfold mapp, mv; cbn [vx vy vz]. f_equal; rewrite <- !sumn_scale, <- !sumn_add; apply sumn_ext; intros; ring.
Qed.
Lemma mapp_0 s : mapp (fun _ => v0) s = v0.
Proof. unfold mapp, v0; cbn [vx vy vz]. f_equal; apply sumn_0; intros; ring. Qed.
Lemma mapp_ext A B s : (forall j, A j = B j) -> mapp A s = mapp B s.
Proof. intro H. unfold mapp. f_equal; apply sumn_ext; intros; now rewrite H. Qed.
Lemma mapp_ext_r A s s' : (forall j, (j < 10)%nat -> s j = s' j) -> mapp A s = mapp A s'.
Proof. intro H. unfold mapp. f_equal; apply sumn_ext; intros; now rewrite H. Qed.
Lemma dot_mapp v A s : dot v (mapp A s) = sumn 10 (fun k => dot v (A k) * s k).
Proof.
  unfold mapp, dot; cbn [vx vy vz]. rewrite <- !sumn_scale, <- !sumn_add. apply sumn_ext; intros; ring.
Qed.

Lemma fold_cols (g : ucorr -> mat3x10) l : forall I0 j,
  fold_left (fun I q j => vadd (I j) (g q j)) l I0 j = vadd (I0 j) (vsum (map (fun q => g q j) l)).
Proof.
  induction l as [|a l IH]; intros I0 j; cbn [fold_left]; sums.
  - symmetry. apply vadd_0_r.
  - rewrite IH. generalize (I0 j) (g a j) (vsum (map (fun q => g q j) l)). lring.
Qed.

Lemma mapp_uI H pt l s :
  mapp (uI H pt l) s = vsum (map (fun q => mv (uVk H (uf q)) (mapp (fill3x10 (pt q)) s)) l).
Proof.
  unfold uI.
  rewrite (mapp_ext _ (fun j => vadd v0 (vsum (map (fun q => mv (uVk H (uf q)) (fill3x10 (pt q) j)) l))))
    by (intro j; apply (fold_cols (fun q j => mv (uVk H (uf q)) (fill3x10 (pt q) j)))).
  rewrite mapp_add, mapp_0, vadd_0_l.
  induction l as [|a l IH]; sums.
  - apply mapp_0.
  - rewrite <- IH, <- mapp_mv, <- mapp_add. apply mapp_ext. intro j. now sums.
Qed.
Lemma uJ_sum H l : uJ H l = vsum (map (fun q => mv (uVk H (uf q)) (uv q)) l).
Proof.
  unfold uJ. assert (E : forall l a, fold_left (fun J q => vadd J (mv (uVk H (uf q)) (uv q))) l a
    = vadd a (vsum (map (fun q => mv (uVk H (uf q)) (uv q)) l))).
  { induction l0 as [|b l0 IH]; intro a; cbn [fold_left]; sums; [lring|]. rewrite IH.
    generalize (mv (uVk H (uf b)) (uv b)) (vsum (map (fun q => mv (uVk H (uf q)) (uv q)) l0)). lring. }
  rewrite E. apply vadd_0_l.
Qed.

Lemma value_step M C g a b s :
  uvalue (fun j k => M j k + dot (a j) (a k)) (fun j => C j + dot b (a j)) (g + dot b b) s
  = uvalue M C g s + norm2 (vadd (mapp a s) b).
Proof.
  unfold uvalue.
  assert (E1 : sumn 10 (fun j => sumn 10 (fun k => s j * (M j k + dot (a j) (a k)) * s k))
     = sumn 10 (fun j => sumn 10 (fun k => s j * M j k * s k)) + norm2 (mapp a s)).
  { unfold norm2 at 1. rewrite dot_mapp. rewrite <- sumn_add. apply sumn_ext. intros j _.
    rewrite (dot_comm (mapp a s)), dot_mapp.
    rewrite (Rmult_comm _ (s j)), <- sumn_scale, <- sumn_add. apply sumn_ext. intros k _. ring. }
  assert (E2 : sumn 10 (fun j => (C j + dot b (a j)) * s j) = sumn 10 (fun j => C j * s j) + dot b (mapp a s)).
  { rewrite dot_mapp, <- sumn_add. apply sumn_ext. intros; ring. }
  rewrite E1, E2. generalize (mapp a s). intro w.
  replace (norm2 (vadd w b)) with (norm2 w + 2 * dot b w + dot b b) by lring. ring.
Qed.
Lemma value_fold I J pt s l : forall M C g,
  uvalue (fold_left (fun M q j k => M j k + dot (uA I pt q j) (uA I pt q k)) l M)
         (fold_left (fun C q j => C j + dot (ub J q) (uA I pt q j)) l C)
         (fold_left (fun g q => g + dot (ub J q) (ub J q)) l g) s
  = uvalue M C g s + rsum (map (fun q => norm2 (vadd (mapp (uA I pt q) s) (ub J q))) l).
Proof.
  induction l as [|a l IH]; intros M C g; cbn [fold_left]; sums; [ring|].
  rewrite IH. pose proof (value_step M C g (uA I pt a) (ub J a) s) as E. cbv beta in E. rewrite E. ring.
Qed.
Lemma value_sum I J pt s l :
  uvalue (uM I pt l) (uC I J pt l) (ugamma J l) s
  = rsum (map (fun q => norm2 (vadd (mapp (uA I pt q) s) (ub J q))) l).
Proof.
  unfold uM, uC, ugamma. rewrite value_fold.
  replace (uvalue (fun _ _ => 0) (fun _ => 0) 0 s) with 0; [ring|].
  unfold uvalue. rewrite !sumn_0; [ring| |]; intros; [ring|].
  apply sumn_0; intros; ring.
Qed.

Lemma utemp_perp f x : mv (utemp f) x = vneg (perp f x).
Proof. unfold utemp, perp. lring. Qed.

(** The cost for any coefficient vector: the squared distances of the rays from
    the points x(q) + t with t = I s - J. *)
Lemma value_error H pt l s : let I := uI H pt l in let J := uJ H l in
  uvalue (uM I pt l) (uC I J pt l) (ugamma J l) s
  = rsum (map (fun c => norm2 (perp (uf c)
      (vsub (vadd (mapp (fill3x10 (pt c)) s) (vsub (mapp I s) J)) (uv c)))) l).
Proof.
  intros I J. rewrite value_sum. apply rsum_ext. intros c _.
  unfold uA, ub. rewrite (mapp_mv (utemp (uf c))), mapp_add.
  generalize (mapp (fill3x10 (pt c)) s) (mapp I s) J (uf c) (uv c). clear. intros x y J f v.
  replace (mv (mneg (utemp f)) (vadd v J)) with (vneg (mv (utemp f) (vadd v J))) by (unfold mneg; rewrite mv_mscale; generalize (mv (utemp f) (vadd v J)); lring).
  rewrite !utemp_perp. unfold perp. lring.
Qed.

Lemma fill_rotates p q : mapp (fill3x10 p) (fill_s q) = mv (quaternion2rot q) p.
Proof.
  destruct p as [x y z], q as [a b c d]. unfold mapp, fill3x10, fill_s, quaternion2rot, mv.
  cbn [sumn nth q0 q1 q2 q3 vx vy vz m00 m01 m02 m10 m11 m12 m20 m21 m22]. f_equal; ring.
Qed.

(** ** Normal equations *)
Lemma uF_mv l d : mv (uF l) d = vsum (map (fun q => vscale (dot (uf q) d) (uf q)) l).
Proof.
  unfold uF. assert (E : forall l A, mv (fold_left (fun F q => madd F (outer (uf q) (uf q))) l A) d
     = vadd (mv A d) (vsum (map (fun q => vscale (dot (uf q) d) (uf q)) l))).
  { induction l0 as [|a l0 IH]; intro A; cbn [fold_left]; sums; [generalize (mv A d); lring|].
    rewrite IH, mv_madd, outer_mv. rewrite <- vadd_assoc. reflexivity. }
  rewrite E. replace (mv mzero d) with v0 by lring. apply vadd_0_l.
Qed.
Lemma uHinv_mv l d : mv (uHinv l) d = vsum (map (fun q => perp (uf q) d) l).
Proof.
  unfold uHinv, perp. rewrite vsum_map_sub, <- uF_mv.
  assert (E : vsum (map (fun _ : ucorr => d) l) = vscale (INR (length l)) d).
  { induction l as [|a l IH]; sums; [cbn; lring|]. cbn [length]. rewrite S_INR, IH.
    generalize (INR (length l)). lring. }
  rewrite E. generalize (uF l) (INR (length l)). lring.
Qed.

Lemma perp_sub f x y : perp f (vsub x y) = vsub (perp f x) (perp f y).
Proof. unfold perp. lring. Qed.
Lemma perp_add f x y : perp f (vadd x y) = vadd (perp f x) (perp f y).
Proof. unfold perp. lring. Qed.
Lemma perp_dot f x d : unit f -> dot (perp f x) (perp f d) = dot (perp f x) d.
Proof.
  unfold unit. intro U.
  replace (dot (perp f x) (perp f d)) with (dot (perp f x) d + dot f x * dot f d * (norm2 f - 1)) by (unfold perp; lring).
  rewrite U. ring.
Qed.
Lemma perp_norm2 f d : unit f -> norm2 (perp f d) = dot (perp f d) d.
Proof. apply perp_dot. Qed.
Lemma perp_norm2_cross f d : unit f -> norm2 (perp f d) = norm2 (cross f d).
Proof.
  unfold unit. intro U.
  replace (norm2 (perp f d)) with (norm2 (cross f d) + (norm2 f - 1) * (dot f d * dot f d - norm2 d)) by (unfold perp; lring).
  rewrite U. ring.
Qed.

Definition best (H : mat3) (l : list ucorr) (x : ucorr -> vec3) : vec3 :=
  vsub (vsum (map (fun q => mv (uVk H (uf q)) (x q)) l)) (uJ H l).

Lemma inverse_some A B : inverse A = Some B -> det A <> 0 /\ B = minv A.
Proof. unfold inverse. destruct (Req_EM_T (det A) 0); [discriminate|]. intro E. injection E as <-. auto. Qed.

Lemma normal_equations H l x : uH l = Some H ->
  vsum (map (fun c => perp (uf c) (vsub (vadd (x c) (best H l x)) (uv c))) l) = v0.
Proof.
  intro EH. apply inverse_some in EH. destruct EH as [D ->].
  set (t := best (minv (uHinv l)) l x).
  assert (Et : t = mv (minv (uHinv l)) (vneg (vsum (map (fun c => perp (uf c) (vsub (x c) (uv c))) l)))).
  { unfold t, best. rewrite uJ_sum. rewrite <- vsum_map_sub.
    rewrite <- (vscale_1 (vsum (map (fun c => perp (uf c) (vsub (x c) (uv c))) l))).
    replace (vneg (vscale 1 (vsum (map (fun c => perp (uf c) (vsub (x c) (uv c))) l))))
      with (vscale (-1) (vsum (map (fun c => perp (uf c) (vsub (x c) (uv c))) l)))
      by (generalize (vsum (map (fun c => perp (uf c) (vsub (x c) (uv c))) l)); lring).
    rewrite vscale_vsum, map_map, mv_vsum, map_map. apply vsum_ext. intros c _.
    unfold uVk. rewrite <- mv_sub, mv_mmul, utemp_perp. f_equal.
    generalize (perp (uf c) (vsub (x c) (uv c))). lring. }
  transitivity (vadd (vsum (map (fun c => perp (uf c) (vsub (x c) (uv c))) l)) (mv (uHinv l) t)).
  - rewrite uHinv_mv, <- vsum_map_add. apply vsum_ext. intros c _. rewrite <- perp_add. f_equal. lring.
  - rewrite Et, mv_minv by exact D. generalize (vsum (map (fun c => perp (uf c) (vsub (x c) (uv c))) l)). lring.
Qed.

Lemma error_split H l x t : unit_bearings l -> uH l = Some H ->
  rsum (map (fun c => norm2 (perp (uf c) (vsub (vadd (x c) t) (uv c)))) l)
  = rsum (map (fun c => norm2 (perp (uf c) (vsub (vadd (x c) (best H l x)) (uv c)))) l)
    + rsum (map (fun c => norm2 (perp (uf c) (vsub t (best H l x)))) l).
Proof.
  intros U EH. pose proof (normal_equations H l x EH) as N.
  set (tb := best H l x) in *.
  transitivity (rsum (map (fun c => norm2 (perp (uf c) (vsub (vadd (x c) tb) (uv c))) + norm2 (perp (uf c) (vsub t tb))) l)
    + 2 * rsum (map (fun c => dot (perp (uf c) (vsub (vadd (x c) tb) (uv c))) (vsub t tb)) l)).
  - rewrite <- rsum_map_scale, <- rsum_map_add. apply rsum_ext. intros c Hc.
    rewrite <- perp_dot by now apply U.
    replace (perp (uf c) (vsub (vadd (x c) t) (uv c)))
      with (vadd (perp (uf c) (vsub (vadd (x c) tb) (uv c))) (perp (uf c) (vsub t tb)))
      by (rewrite <- perp_add; f_equal; generalize (x c) (uv c) tb; lring).
    generalize (perp (uf c) (vsub (vadd (x c) tb) (uv c))) (perp (uf c) (vsub t tb)). lring.
  - rewrite (dot_vsum (fun c => perp (uf c) (vsub (vadd (x c) tb) (uv c)))), N, rsum_map_add.
    replace (dot v0 (vsub t tb)) with 0 by lring. ring.
Qed.

Lemma perp_sum_zero l d : unit_bearings l -> det (uHinv l) <> 0 ->
  rsum (map (fun c => norm2 (perp (uf c) d)) l) = 0 -> d = v0.
Proof.
  intros U D E.
  assert (Z : mv (uHinv l) d = v0).
  { rewrite uHinv_mv.
    assert (P : forall c, In c l -> perp (uf c) d = v0).
    { intros c Hc. apply norm2_zero. apply (rsum_zero (map (fun c => norm2 (perp (uf c) d)) l)); auto.
      - intros y Hy. apply in_map_iff in Hy. destruct Hy as (c'&<-&_). apply norm2_nonneg.
      - apply in_map_iff. exists c. auto. }
    clear D E U. induction l as [|a l IH]; sums; auto. rewrite P by (left; auto).
    rewrite IH, vadd_0_l; auto. intros; apply P; right; auto. }
  apply (mv_inj (uHinv l)); auto. rewrite Z. symmetry. apply mv_0.
Qed.

(** * Theorems: cost and translation *)

(** The value upnp compares its candidates by is the object space error of the
    candidate's rotation together with the translation it will return. *)
Theorem C55_value_is_error : forall l H q, uH l = Some H ->
  let I := uI H up l in let J := uJ H l in
  uvalue (uM I up l) (uC I J up l) (ugamma J l) (fill_s q)
  = space_error l (quaternion2rot q) (utinv I J q).
Proof.
  intros l H q EH I J. unfold I, J. rewrite value_error. unfold space_error.
  apply rsum_ext. intros c _. now rewrite fill_rotates.
Qed.

(** For every rotation the translation is the only minimiser of the error. *)
Theorem C55_translation_optimal : forall l H q t, unit_bearings l -> uH l = Some H ->
  let tinv := utinv (uI H up l) (uJ H l) q in
  space_error l (quaternion2rot q) tinv <= space_error l (quaternion2rot q) t /\
  (space_error l (quaternion2rot q) t = space_error l (quaternion2rot q) tinv -> t = tinv).
Proof.
  intros l H q t U EH tinv.
  assert (Et : tinv = best H l (fun c => mv (quaternion2rot q) (up c))).
  { unfold tinv, utinv, best. rewrite mapp_uI. f_equal. apply vsum_ext. intros. now rewrite fill_rotates. }
  unfold space_error. rewrite Et.
  rewrite (error_split H l (fun c => mv (quaternion2rot q) (up c)) t U EH).
  set (S2 := rsum (map (fun c => norm2 (perp (uf c) (vsub t _))) l)).
  split.
  - assert (0 <= S2); [|lra]. apply rsum_nonneg. intros y Hy. apply in_map_iff in Hy.
    destruct Hy as (c'&<-&_). apply norm2_nonneg.
  - intro E. assert (E0 : S2 = 0) by lra.
    apply perp_sum_zero in E0; auto; [|now apply inverse_some in EH].
    rewrite <- (vsub_add t (best H l (fun c => mv (quaternion2rot q) (up c)))). rewrite E0. apply vadd_0_l.
Qed.

(** upnp has a well-defined translation exactly when two of the bearing vectors
    are not parallel. *)
Theorem C55_defined : forall l, unit_bearings l ->
  (exists H, uH l = Some H) <-> (exists a b, In a l /\ In b l /\ ~ parallel (uf a) (uf b)).
Proof.
  intros l U. split.
  - intros [H EH]. apply inverse_some in EH. destruct EH as [D _].
    destruct l as [|a l].
    { exfalso. apply D. unfold uHinv. cbn. lring. }
    destruct (Exists_dec (fun b => ~ parallel (uf a) (uf b)) (a :: l)) as [X|X].
    { intro b. unfold parallel. destruct (cross (uf a) (uf b)) as [x y z].
      destruct (Req_EM_T x 0), (Req_EM_T y 0), (Req_EM_T z 0);
      try (left; intro E; injection E; intros; congruence).
      right. intro E. apply E. subst. reflexivity. }
    + apply Exists_exists in X. destruct X as (b&Hb&P). exists a, b. repeat split; auto. left; auto.
    + exfalso.
      assert (Z : uf a = v0); [|apply (unit_nonzero (uf a)); auto; apply U; left; auto].
      apply (perp_sum_zero (a :: l)); auto.
      assert (P : forall b, In b (a :: l) -> norm2 (perp (uf b) (uf a)) = 0).
      { intros b Hb. rewrite perp_norm2_cross by now apply U.
        assert (PP : cross (uf a) (uf b) = v0).
        { destruct (cross (uf a) (uf b)) as [x y z] eqn:Ec.
          destruct (Req_EM_T x 0), (Req_EM_T y 0), (Req_EM_T z 0); try (subst; reflexivity);
          exfalso; apply X, Exists_exists; exists b; split; auto; unfold parallel; rewrite Ec;
          intro E; injection E; intros; congruence. }
        rewrite cross_anti, PP. lring. }
      revert P. generalize (uf a). generalize (a :: l). clear. intros l f P.
      induction l as [|b l IH]; sums; auto. rewrite P by (left; auto). rewrite IH; [ring|].
      intros; apply P; right; auto.
  - intros (a&b&Ha&Hb&NP). unfold uH, inverse.
    destruct (Req_EM_T (det (uHinv l)) 0) as [D|D]; [|eexists; reflexivity].
    exfalso. apply NP. destruct (null_vector _ D) as (d&Ud&Ed).
    assert (Z : rsum (map (fun c => norm2 (perp (uf c) d)) l) = 0).
    { rewrite (rsum_ext _ (fun c => dot (perp (uf c) d) d)) by (intros; apply perp_norm2; auto).
      rewrite (dot_vsum (fun c => perp (uf c) d)), <- uHinv_mv, Ed. lring. }
    assert (P : forall c, In c l -> perp (uf c) d = v0).
    { intros c Hc. apply norm2_zero. apply (rsum_zero (map (fun c => norm2 (perp (uf c) d)) l)); auto.
      - intros y Hy. apply in_map_iff in Hy. destruct Hy as (c'&<-&_). apply norm2_nonneg.
      - apply in_map_iff. exists c. auto. }
    pose proof (P a Ha) as Pa. pose proof (P b Hb) as Pb. pose proof (U a Ha) as Ua. pose proof (U b Hb) as Ub.
    assert (Ea : d = vscale (dot (uf a) d) (uf a)).
    { unfold perp in Pa. rewrite <- (vsub_add d (vscale (dot (uf a) d) (uf a))) at 1. rewrite Pa. apply vadd_0_l. }
    assert (Eb : d = vscale (dot (uf b) d) (uf b)).
    { unfold perp in Pb. rewrite <- (vsub_add d (vscale (dot (uf b) d) (uf b))) at 1. rewrite Pb. apply vadd_0_l. }
    set (s := dot (uf a) d) in *. set (r := dot (uf b) d) in *. unfold parallel.
    assert (NZ : s * r <> 0).
    { assert (s * s = 1). { rewrite Ea in Ud. unfold unit in *. rewrite norm2_scale, Ua in Ud. lra. }
      assert (r * r = 1). { rewrite Eb in Ud. unfold unit in *. rewrite norm2_scale, Ub in Ud. lra. }
      intro Z0. assert (s * s * (r * r) = 0) by (replace (s * s * (r * r)) with ((s * r) * (s * r)) by ring; rewrite Z0; ring). nra. }
    assert (X : vscale (s * r) (cross (uf a) (uf b)) = v0).
    { rewrite <- vscale_scale, <- cross_scale_r, <- cross_scale_l, <- Ea, <- Eb. apply cross_self. }
    apply norm2_zero. assert (Y : norm2 (vscale (s * r) (cross (uf a) (uf b))) = 0) by (rewrite X; lring).
    rewrite norm2_scale in Y. apply Rmult_integral in Y. destruct Y as [Y|Y]; auto.
    apply Rmult_integral in Y. tauto.
Qed.

(** ** Noise-free data *)
(** Every transformed point lies on its ray. *)
Definition on_rays (l : list ucorr) (Q : mat3) (t : vec3) : Prop :=
  forall c, In c l -> exists lam, vsub (vadd (mv Q (up c)) t) (uv c) = vscale lam (uf c).
(** ... in front of the camera *)
Definition in_front (l : list ucorr) (Q : mat3) (t : vec3) : Prop :=
  forall c, In c l -> exists lam, 0 <= lam /\ vsub (vadd (mv Q (up c)) t) (uv c) = vscale lam (uf c).

Lemma perp_on_ray f lam : unit f -> perp f (vscale lam f) = v0.
Proof.
  unfold unit. intro U. replace (perp f (vscale lam f)) with (vscale (lam * (1 - norm2 f)) f) by (unfold perp; lring).
  rewrite U. replace (lam * (1 - 1)) with 0 by ring. apply vscale_0.
Qed.
Lemma on_rays_error l Q t : unit_bearings l -> on_rays l Q t -> space_error l Q t = 0.
Proof.
  intros U O. unfold space_error.
  assert (forall c, In c l -> norm2 (perp (uf c) (vsub (vadd (mv Q (up c)) t) (uv c))) = 0).
  { intros c Hc. destruct (O c Hc) as (lam&->). rewrite perp_on_ray by auto. lring. }
  clear -H. induction l; sums; auto. rewrite H by (left; auto). rewrite IHl; [ring|]. intros; apply H; right; auto.
Qed.
Lemma space_error_nonneg l Q t : 0 <= space_error l Q t.
Proof. apply rsum_nonneg. intros y Hy. apply in_map_iff in Hy. destruct Hy as (c'&<-&_). apply norm2_nonneg. Qed.

(** With noise-free correspondences the true rotation has cost 0, the least
    possible, and its translation is the true one. *)
Theorem C55_true_pose : forall l H q t, unit_bearings l -> uH l = Some H ->
  on_rays l (quaternion2rot q) t ->
  let I := uI H up l in let J := uJ H l in
  utinv I J q = t /\
  uvalue (uM I up l) (uC I J up l) (ugamma J l) (fill_s q) = 0 /\
  forall p, 0 <= uvalue (uM I up l) (uC I J up l) (ugamma J l) (fill_s p).
Proof.
  intros l H q t U EH O I J. pose proof (on_rays_error l _ t U O) as E0.
  destruct (C55_translation_optimal l H q t U EH) as [Le Un].
  pose proof (space_error_nonneg l (quaternion2rot q) (utinv (uI H up l) (uJ H l) q)) as P.
  assert (Et : t = utinv I J q) by (apply Un; unfold I, J in *; lra).
  split; [auto|]. split.
  - unfold I, J. rewrite (C55_value_is_error l H q EH). fold I J. rewrite <- Et. exact E0.
  - intro p. unfold I, J. rewrite (C55_value_is_error l H p EH). apply space_error_nonneg.
Qed.
