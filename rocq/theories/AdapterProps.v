(** Properties C16 and C23. *)
From Coq Require Import List Arith Bool Lia Permutation.
From Verif Require Import SacModel AdapterModel.
Import ListNotations.

(** * Specification vocabulary *)
(** Number of correspondences before camera [c], and in total. *)
Definition before (sizes : list nat) (c : nat) : nat := fold_right plus 0 (firstn c sizes).
Definition total (sizes : list nat) : nat := fold_right plus 0 sizes.
(** Successful reads of a list: all elements at given places. *)
Definition packs3 {T} (l : list (T * T * T)) : list T :=
  flat_map (fun v => [fst (fst v); snd (fst v); snd v]) l.
Definition packs6 {T} (l : list ((T * T * T) * (T * T * T))) : list T :=
  flat_map (fun r => let '((a, b, c), (d, e, f)) := r in [a; b; c; d; e; f]) l.

(** * Serialisation tables *)
Lemma fill_cam_eq : forall n cam key t,
  fill_cam n cam key t = mkTables (t_offsets t) (t_cams t ++ repeat cam n) (t_keys t ++ seq key n).
Proof.
  induction n; intros cam key t; cbn [fill_cam repeat seq].
  - rewrite !app_nil_r. destruct t; reflexivity.
  - rewrite IHn. cbn. rewrite <- !app_assoc. reflexivity.
Qed.

Fixpoint offs_from (o : nat) (sizes : list nat) : list nat :=
  match sizes with [] => [] | n :: ns => o :: offs_from (o + n) ns end.
Fixpoint cams_from (c : nat) (sizes : list nat) : list nat :=
  match sizes with [] => [] | n :: ns => repeat c n ++ cams_from (S c) ns end.
Fixpoint keys_of (sizes : list nat) : list nat :=
  match sizes with [] => [] | n :: ns => seq 0 n ++ keys_of ns end.

Lemma fill_all_eq : forall sizes cam off t,
  fill_all sizes cam off t =
    mkTables (t_offsets t ++ offs_from off sizes) (t_cams t ++ cams_from cam sizes) (t_keys t ++ keys_of sizes).
Proof.
  induction sizes as [|n ns IH]; intros cam off t; cbn [fill_all offs_from cams_from keys_of].
  - rewrite !app_nil_r. destruct t; reflexivity.
  - rewrite IH, fill_cam_eq. cbn. rewrite <- !app_assoc. reflexivity.
Qed.

Lemma build_eq sizes : build sizes = mkTables (offs_from 0 sizes) (cams_from 0 sizes) (keys_of sizes).
Proof. unfold build. now rewrite fill_all_eq. Qed.

Lemma offs_nth : forall sizes o c, c < length sizes ->
  nth_error (offs_from o sizes) c = Some (o + before sizes c).
Proof.
  induction sizes as [|n ns IH]; intros o c H; cbn in H; [lia|].
  destruct c; cbn [offs_from nth_error]; unfold before; cbn.
  - f_equal; lia.
  - rewrite IH by lia. unfold before. f_equal. lia.
Qed.
Lemma offs_len : forall sizes o, length (offs_from o sizes) = length sizes.
Proof. induction sizes; cbn; auto. Qed.

Lemma cams_keys_nth : forall sizes c0 c k, c < length sizes -> k < nth c sizes 0 ->
  nth_error (cams_from c0 sizes) (before sizes c + k) = Some (c0 + c)
  /\ nth_error (keys_of sizes) (before sizes c + k) = Some k.
Proof.
  induction sizes as [|n ns IH]; intros c0 c k Hc Hk; cbn in Hc; [lia|].
  destruct c; cbn [nth] in Hk; unfold before; cbn [firstn fold_right cams_from keys_of].
  - cbn [plus]. rewrite !nth_error_app1 by (rewrite ?repeat_length, ?seq_length; lia).
    split.
    + rewrite nth_error_repeat by lia. f_equal; lia.
    + rewrite (nth_error_nth' _ 0) by (rewrite seq_length; lia). now rewrite seq_nth by lia.
  - rewrite !nth_error_app2 by (rewrite ?repeat_length, ?seq_length; lia).
    rewrite repeat_length, seq_length.
    replace (n + fold_right Nat.add 0 (firstn c ns) + k - n) with (before ns c + k) by (unfold before; lia).
    destruct (IH (S c0) c k ltac:(lia) Hk) as [A B]. rewrite A, B. split; auto. f_equal; lia.
Qed.

Lemma cams_len : forall sizes c, length (cams_from c sizes) = total sizes.
Proof. induction sizes; intros; cbn; auto. rewrite app_length, repeat_length, IHsizes. reflexivity. Qed.
Lemma keys_len : forall sizes, length (keys_of sizes) = total sizes.
Proof. induction sizes; intros; cbn; auto. rewrite app_length, seq_length, IHsizes. reflexivity. Qed.

Lemma locate : forall sizes i, i < total sizes ->
  exists c k, c < length sizes /\ k < nth c sizes 0 /\ i = before sizes c + k.
Proof.
  induction sizes as [|n ns IH]; intros i H; cbn in H; [lia|].
  destruct (lt_dec i n).
  - exists 0, i. cbn. repeat split; auto. lia.
  - destruct (IH (i - n)) as (c & k & A & B & E); [unfold total; lia|].
    exists (S c), k. cbn. repeat split; auto; try lia. unfold before in *. cbn. lia.
Qed.

Lemma before_lt : forall sizes c k, c < length sizes -> k < nth c sizes 0 ->
  before sizes c + k < total sizes.
Proof.
  induction sizes as [|n ns IH]; intros c k Hc Hk; cbn in Hc; [lia|].
  destruct c; cbn in Hk |- *; unfold before; cbn; [lia|].
  specialize (IH c k ltac:(lia) Hk). unfold before, total in IH. lia.
Qed.

(** * C16 *)
Theorem C16_multi_to_serial_and_back :
  forall sizes cam key, cam < length sizes -> key < nth cam sizes 0 ->
    exists i, convertMultiIndex (build sizes) cam key = Ret i
      /\ i < total sizes
      /\ multiCamIndex (build sizes) i = Ret cam
      /\ multiCorrespondenceIndex (build sizes) i = Ret key.
Proof.
  intros sizes cam key Hc Hk. exists (before sizes cam + key).
  unfold convertMultiIndex, multiCamIndex, multiCorrespondenceIndex, at_. rewrite build_eq. cbn [t_offsets t_cams t_keys].
  rewrite offs_nth by auto. destruct (cams_keys_nth sizes 0 cam key Hc Hk) as [A B]. rewrite A, B.
  repeat split; auto. now apply before_lt.
Qed.

Theorem C16_serial_to_multi_and_back :
  forall sizes i, i < total sizes ->
    exists cam key, multiCamIndex (build sizes) i = Ret cam
      /\ multiCorrespondenceIndex (build sizes) i = Ret key
      /\ cam < length sizes /\ key < nth cam sizes 0
      /\ convertMultiIndex (build sizes) cam key = Ret i.
Proof.
  intros sizes i H. destruct (locate sizes i H) as (c & k & Hc & Hk & ->).
  exists c, k. unfold convertMultiIndex, multiCamIndex, multiCorrespondenceIndex, at_. rewrite build_eq.
  cbn [t_offsets t_cams t_keys].
  rewrite offs_nth by auto. destruct (cams_keys_nth sizes 0 c k Hc Hk) as [A B]. rewrite A, B.
  repeat split; auto.
Qed.

(** Nothing outside 0..N-1 is a serial index. *)
Theorem C16_serial_range :
  forall sizes i, total sizes <= i ->
    multiCamIndex (build sizes) i = UB /\ multiCorrespondenceIndex (build sizes) i = UB.
Proof.
  intros sizes i H. unfold multiCamIndex, multiCorrespondenceIndex, at_. rewrite build_eq. cbn [t_cams t_keys].
  split.
  - replace (nth_error (cams_from 0 sizes) i) with (@None nat); auto.
    symmetry. apply nth_error_None. now rewrite cams_len.
  - replace (nth_error (keys_of sizes) i) with (@None nat); auto.
    symmetry. apply nth_error_None. now rewrite keys_len.
Qed.

(** Serial access reads the camera-wise data laid out one camera after the other. *)
Lemma get_multi_concat {X} : forall (data : list (list X)) c k, c < length data -> k < length (nth c data []) ->
  get_multi data c k = at_ (concat data) (before (map (@length X) data) c + k).
Proof.
  induction data as [|d ds IH]; intros c k Hc Hk; cbn in Hc; [lia|].
  destruct c; cbn [nth] in Hk; unfold get_multi; cbn [at_ nth_error obind].
  - unfold before. cbn. unfold at_. rewrite nth_error_app1 by auto. reflexivity.
  - unfold before. cbn. unfold at_ at 3. rewrite nth_error_app2 by lia.
    replace (length d + fold_right Nat.add 0 (firstn c (map (@length X) ds)) + k - length d)
      with (before (map (@length X) ds) c + k) by (unfold before; lia).
    exact (IH c k ltac:(lia) Hk).
Qed.

Theorem C16_serial_access :
  forall (X : Type) (data : list (list X)) i, i < length (concat data) ->
    let t := build (map (@length X) data) in
    get_serial data t i = at_ (concat data) i
    /\ exists cam key, get_serial data t i = get_multi data cam key
         /\ convertMultiIndex t cam key = Ret i.
Proof.
  intros X data i H t.
  assert (T : total (map (@length X) data) = length (concat data)).
  { clear. induction data; cbn; auto. now rewrite app_length, <- IHdata. }
  destruct (locate (map (@length X) data) i ltac:(lia)) as (c & k & Hc & Hk & Ei).
  rewrite map_length in Hc.
  assert (Hk' : k < length (nth c data [])).
  { rewrite <- (map_nth (@length X)). exact Hk. }
  pose proof (C16_serial_to_multi_and_back (map (@length X) data) i ltac:(lia)) as (c' & k' & A & B & Hc' & Hkk & D).
  assert (E2 : get_serial data t i = get_multi data c' k').
  { unfold get_serial, t. rewrite A, B. reflexivity. }
  assert (Hc'' : c' < length data) by (rewrite map_length in Hc'; auto).
  assert (Hk'' : k' < length (nth c' data [])) by (rewrite <- (map_nth (@length X)); exact Hkk).
  assert (Ei' : i = before (map (@length X) data) c' + k').
  { unfold convertMultiIndex, at_ in D. rewrite build_eq in D. cbn [t_offsets] in D.
    rewrite offs_nth in D by auto. cbn in D. inversion D. reflexivity. }
  split.
  - rewrite E2, get_multi_concat by auto. now rewrite <- Ei'.
  - exists c', k'. split; auto.
Qed.

(** Per-camera attributes of a correspondence are those of its camera. *)
Theorem C16_serial_camera_attributes :
  forall (Y : Type) sizes (per_cam : list Y) cam key i,
    cam < length sizes -> key < nth cam sizes 0 ->
    convertMultiIndex (build sizes) cam key = Ret i ->
    get_serial_cam per_cam (build sizes) i = at_ per_cam cam.
Proof.
  intros Y sizes per_cam cam key i Hc Hk E.
  destruct (C16_multi_to_serial_and_back sizes cam key Hc Hk) as (j & E' & _ & A & _).
  rewrite E in E'. inversion E'; subst. unfold get_serial_cam. now rewrite A.
Qed.

Theorem C16_number_of_correspondences :
  forall (X : Type) (data : list (list X)),
    getNumberCorrespondences data (length data) = Ret (length (concat data)).
Proof.
  intros X data. unfold getNumberCorrespondences.
  assert (G : forall data pre, count_from (pre ++ data) (length pre) (length data) = Ret (length (concat (A:=X) data))).
  { clear. induction data as [|d ds IH]; intros pre; cbn [count_from length concat]; auto.
    unfold at_. rewrite nth_error_app2, Nat.sub_diag by lia. cbn [nth_error obind].
    specialize (IH (pre ++ [d])). rewrite <- app_assoc, app_length in IH. cbn [length app] in IH.
    rewrite Nat.add_1_r in IH. rewrite IH. cbn [obind]. now rewrite app_length. }
  exact (G data []).
Qed.

(** convertMultiIndices: camera by camera, and distinct multi-indices give
    distinct serial ones. *)
Fixpoint multi_pairs (cam : nat) (mi : list (list nat)) : list (nat * nat) :=
  match mi with [] => [] | ks :: r => map (pair cam) ks ++ multi_pairs (S cam) r end.
Definition valid_pairs (sizes : list nat) (l : list (nat * nat)) : Prop :=
  forall c k, In (c, k) l -> c < length sizes /\ k < nth c sizes 0.

Lemma convert_spec sizes : forall mi cam, valid_pairs sizes (multi_pairs cam mi) ->
  convert_from (build sizes) cam mi = Ret (map (fun p => before sizes (fst p) + snd p) (multi_pairs cam mi)).
Proof.
  assert (One : forall c k, c < length sizes -> convertMultiIndex (build sizes) c k = Ret (before sizes c + k)).
  { intros c k H. unfold convertMultiIndex, at_. rewrite build_eq. cbn [t_offsets]. now rewrite offs_nth. }
  induction mi as [|ks r IH]; intros cam V; cbn [convert_from multi_pairs]; auto.
  assert (H1 : convert_cam (build sizes) cam ks = Ret (map (fun p => before sizes (fst p) + snd p) (map (pair cam) ks))).
  { assert (V1 : forall k, In k ks -> cam < length sizes).
    { intros k Hk. apply (V cam k). cbn. apply in_app_iff. left. now apply in_map. }
    clear V IH. induction ks as [|k ks IHk]; cbn [convert_cam map]; auto.
    rewrite One by (eapply V1; left; reflexivity). cbn [obind]. rewrite IHk by (intros; eapply V1; right; eauto).
    reflexivity. }
  rewrite H1. cbn [obind]. rewrite IH by (intros c k Hin; apply V; cbn; apply in_app_iff; auto).
  cbn [obind]. now rewrite map_app.
Qed.

Theorem C16_convert_lists :
  forall sizes mi, valid_pairs sizes (multi_pairs 0 mi) -> NoDup (multi_pairs 0 mi) ->
    exists serial, convertMultiIndices (build sizes) mi = Ret serial
      /\ NoDup serial /\ (forall i, In i serial -> i < total sizes)
      /\ Forall2 (fun p i => convertMultiIndex (build sizes) (fst p) (snd p) = Ret i) (multi_pairs 0 mi) serial.
Proof.
  intros sizes mi V ND. unfold convertMultiIndices. rewrite convert_spec by auto.
  eexists. split; [reflexivity|].
  assert (Inj : forall p q, In p (multi_pairs 0 mi) -> In q (multi_pairs 0 mi) ->
     before sizes (fst p) + snd p = before sizes (fst q) + snd q -> p = q).
  { intros [c k] [c' k'] Hp Hq E. cbn [fst snd] in E. destruct (V _ _ Hp) as [A B]. destruct (V _ _ Hq) as [A' B'].
    destruct (cams_keys_nth sizes 0 c k A B) as [X Y]. destruct (cams_keys_nth sizes 0 c' k' A' B') as [X' Y'].
    rewrite E in X, Y. cbn in X, X'. congruence. }
  split; [|split].
  - revert ND Inj. generalize (multi_pairs 0 mi) as l. induction l as [|p l IH]; intros ND Inj; cbn; constructor.
    + intro Hin. apply in_map_iff in Hin. destruct Hin as (q & E & Hq). inversion ND; subst.
      assert (q = p) by (apply Inj; cbn; auto). subst. contradiction.
    + inversion ND; subst. apply IH; auto. intros; apply Inj; cbn; auto.
  - intros i Hin. apply in_map_iff in Hin. destruct Hin as ([c k] & <- & Hq). destruct (V _ _ Hq). cbn. now apply before_lt.
  - revert V. generalize (multi_pairs 0 mi) as l. clear. induction l as [|[c k] l IH]; intros V; cbn; constructor.
    + cbn. destruct (V c k ltac:(left; auto)). unfold convertMultiIndex, at_. rewrite build_eq. cbn [t_offsets].
      now rewrite offs_nth.
    + apply IH. intros c' k' Hin. apply V. right; auto.
Qed.

Example C16_nonvacuous :
  convertMultiIndex (build [3;0;2]) 2 1 = Ret 4
  /\ multiCamIndex (build [3;0;2]) 4 = Ret 2 /\ multiCorrespondenceIndex (build [3;0;2]) 4 = Ret 1
  /\ get_serial [[10;11;12];[];[20;21]] (build [3;0;2]) 4 = Ret 21
  /\ convertMultiIndices (build [3;0;2]) [[2;0];[];[1]] = Ret [2;0;4]
  /\ multiCamIndex (build [3;0;2]) 5 = UB.
Proof. repeat split. Qed.

(** * C23 *)
(** The array-backed adapters show the same data as the vector-backed ones. *)
Lemma triple_pack3 {T} : forall (l : list (T * T * T)) i,
  triple (packs3 l) (i * 3) = at_ l i.
Proof.
  induction l as [|[[x y] z] l IH]; intros i.
  - unfold triple, at_. cbn. destruct (i * 3), i; reflexivity.
  - destruct i; [reflexivity|]. cbn [Nat.mul]. cbn [packs3 flat_map fst snd].
    unfold triple, at_ in *. cbn [app Nat.add nth_error]. exact (IH i).
Qed.

Lemma triple_pack6 {T} : forall (l : list ((T * T * T) * (T * T * T))) i,
  triple (packs6 l) (i * 6) = at_ (map fst l) i /\ triple (packs6 l) (i * 6 + 3) = at_ (map snd l) i.
Proof.
  induction l as [|[[[x y] z] [[u v] w]] l IH]; intros i.
  - unfold triple, at_. split; destruct i; cbn; auto.
  - destruct i; [split; reflexivity|]. cbn [Nat.mul]. cbn [packs6 flat_map].
    unfold triple, at_ in *. cbn [app Nat.add nth_error map]. exact (IH i).
Qed.

Lemma guard_at {X} (l : list X) n i : n = length l -> guard_ (Nat.ltb i n) (at_ l i) = at_ l i.
Proof.
  intros ->. unfold guard_. destruct (Nat.ltb_spec i (length l)); auto.
  unfold at_. replace (nth_error l i) with (@None X); auto. symmetry. now apply nth_error_None.
Qed.

Lemma at_length_none {X} (l : list X) i : length l <= i -> at_ l i = UB.
Proof. intros. unfold at_. replace (nth_error l i) with (@None X); auto. symmetry. now apply nth_error_None. Qed.

Theorem C23_array_central_absolute :
  forall (T Rot : Type) (zero : T) (one : Rot) (bearings points : list (T * T * T)) i,
    length points = length bearings ->
    let A := CentralAbsolute (zero, zero, zero) one bearings points in
    let B := MACentralAbsolute zero one (packs3 points) (packs3 bearings) (length points) (length bearings) in
    v_bearing B i = v_bearing A i /\ v_point B i = v_point A i /\ v_offset B i = v_offset A i
    /\ v_rotation B i = v_rotation A i /\ v_number B = v_number A
    /\ v_bearing A i = at_ bearings i /\ v_point A i = at_ points i.
Proof.
  intros T Rot zero one bearings points i L A B. unfold A, B, CentralAbsolute, MACentralAbsolute, CentralRelative, MACentralRelative; cbn [v_bearing v_point v_offset v_rotation v_number w_bearing1 w_bearing2 w_offset1 w_offset2 w_rotation1 w_rotation2 w_number]. rewrite !triple_pack3, !guard_at by auto.
  repeat split; auto.
Qed.

Theorem C23_array_noncentral_absolute :
  forall (T Rot : Type) (one : Rot) (recs : list ((T * T * T) * (T * T * T))) (points : list (T * T * T)) i,
    length points = length recs ->
    let A := NoncentralAbsolute (map fst recs) (seq 0 (length recs)) points (map snd recs)
               (repeat one (length recs)) in
    let B := MANoncentralAbsolute one (packs3 points) (packs6 recs) (length points) (length recs) in
    i < length recs ->
    v_bearing B i = v_bearing A i /\ v_point B i = v_point A i /\ v_offset B i = v_offset A i
    /\ v_rotation B i = v_rotation A i /\ v_number B = v_number A
    /\ v_bearing A i = at_ (map fst recs) i /\ v_point A i = at_ points i /\ v_offset A i = at_ (map snd recs) i.
Proof.
  intros T Rot one recs points i L A B Hi. unfold A, B, NoncentralAbsolute, MANoncentralAbsolute, NoncentralRelative, MANoncentralRelative; cbn [v_bearing v_point v_offset v_rotation v_number w_bearing1 w_bearing2 w_offset1 w_offset2 w_rotation1 w_rotation2 w_number].
  destruct (triple_pack6 recs i) as [E1 E2].
  assert (S : at_ (seq 0 (length recs)) i = Ret i).
  { unfold at_. rewrite (nth_error_nth' _ 0) by (rewrite seq_length; lia). now rewrite seq_nth by lia. }
  rewrite S, triple_pack3, E1, E2. cbn [obind].
  rewrite !guard_at by (rewrite ?map_length; auto).
  repeat split; auto.
  - unfold at_. now rewrite nth_error_repeat.
  - now rewrite map_length.
Qed.

Theorem C23_array_central_relative :
  forall (T Rot : Type) (zero : T) (one : Rot) (b1 b2 : list (T * T * T)) i,
    let A := CentralRelative (zero, zero, zero) one b1 b2 in
    let B := MACentralRelative zero one (packs3 b1) (packs3 b2) (length b1) (length b2) in
    w_bearing1 B i = w_bearing1 A i /\ w_bearing2 B i = w_bearing2 A i
    /\ w_offset1 B i = w_offset1 A i /\ w_offset2 B i = w_offset2 A i
    /\ w_rotation1 B i = w_rotation1 A i /\ w_rotation2 B i = w_rotation2 A i
    /\ w_number B = w_number A
    /\ w_bearing1 A i = at_ b1 i /\ w_bearing2 A i = at_ b2 i.
Proof.
  intros T Rot zero one b1 b2 i A B. unfold A, B, CentralAbsolute, MACentralAbsolute, CentralRelative, MACentralRelative; cbn [v_bearing v_point v_offset v_rotation v_number w_bearing1 w_bearing2 w_offset1 w_offset2 w_rotation1 w_rotation2 w_number]. rewrite !triple_pack3, !guard_at by auto. repeat split; auto.
Qed.

Theorem C23_array_noncentral_relative :
  forall (T Rot : Type) (one : Rot) (r1 r2 : list ((T * T * T) * (T * T * T))) i,
    length r1 = length r2 ->
    let n := length r2 in
    let A := NoncentralRelative (map fst r1) (map fst r2) (seq 0 n) (seq n n)
               (map snd r1 ++ map snd r2) (repeat one (n + n)) in
    let B := MANoncentralRelative one (packs6 r1) (packs6 r2) n n in
    i < n ->
    w_bearing1 B i = w_bearing1 A i /\ w_bearing2 B i = w_bearing2 A i
    /\ w_offset1 B i = w_offset1 A i /\ w_offset2 B i = w_offset2 A i
    /\ w_rotation1 B i = w_rotation1 A i /\ w_rotation2 B i = w_rotation2 A i
    /\ w_number B = w_number A
    /\ w_bearing1 A i = at_ (map fst r1) i /\ w_bearing2 A i = at_ (map fst r2) i
    /\ w_offset1 A i = at_ (map snd r1) i /\ w_offset2 A i = at_ (map snd r2) i.
Proof.
  intros T Rot one r1 r2 i L n A B Hi. unfold A, B, NoncentralAbsolute, MANoncentralAbsolute, NoncentralRelative, MANoncentralRelative; cbn [v_bearing v_point v_offset v_rotation v_number w_bearing1 w_bearing2 w_offset1 w_offset2 w_rotation1 w_rotation2 w_number].
  destruct (triple_pack6 r1 i) as [E1 E2]. destruct (triple_pack6 r2 i) as [E3 E4].
  assert (S1 : at_ (seq 0 n) i = Ret i).
  { unfold at_. rewrite (nth_error_nth' _ 0) by (rewrite seq_length; lia). now rewrite seq_nth by lia. }
  assert (S2 : at_ (seq n n) i = Ret (n + i)).
  { unfold at_. rewrite (nth_error_nth' _ 0) by (rewrite seq_length; lia). now rewrite seq_nth by lia. }
  rewrite S1, S2, E1, E2, E3, E4. cbn [obind].
  rewrite !guard_at by (rewrite ?map_length; subst n; auto).
  assert (O1 : at_ (map snd r1 ++ map snd r2) i = at_ (map snd r1) i).
  { unfold at_. rewrite nth_error_app1; auto. rewrite map_length. subst n; lia. }
  assert (O2 : at_ (map snd r1 ++ map snd r2) (n + i) = at_ (map snd r2) i).
  { unfold at_. rewrite nth_error_app2; rewrite map_length; unfold n in *; [|lia]. replace (length r2 + i - length r1) with i by lia. reflexivity. }
  rewrite O1, O2. repeat split; auto.
  - unfold at_. rewrite nth_error_repeat; auto. lia.
  - unfold at_. rewrite nth_error_repeat; auto. lia.
  - now rewrite map_length.
Qed.

Theorem C23_array_multi :
  forall (T : Type) (b : list (list (T * T * T))) (offs : list (T * T * T)) cam key,
    length offs = length b ->
    MAmulti_bearing (map packs3 b) (map (@length _) b) cam key = get_multi b cam key
    /\ MAmulti_offset (packs3 offs) (map (@length _) b) cam = at_ offs cam.
Proof.
  intros T b offs cam key L. unfold MAmulti_bearing, MAmulti_offset, get_multi. split.
  - unfold at_ at 1 2 3. rewrite !nth_error_map. destruct (nth_error b cam); cbn [option_map obind]; auto.
    rewrite triple_pack3. now apply guard_at.
  - rewrite triple_pack3. apply guard_at. now rewrite map_length.
Qed.

(** The assert in getPoint does not protect: with fewer points than bearing
    vectors an index that passes it is still out of range. *)
Theorem C23_short_points_refuted :
  forall (V Rot : Type) zero one (bearings points : list V),
    length points < length bearings ->
    exists i, i < v_number (CentralAbsolute (Rot := Rot) zero one bearings points)
      /\ v_point (CentralAbsolute (Rot := Rot) zero one bearings points) i = UB.
Proof.
  intros V Rot zero one bearings points H. exists (length points). split; auto.
  unfold CentralAbsolute; cbn [v_point]; unfold guard_. destruct (Nat.ltb_spec (length points) (length bearings)); [|lia].
  now apply at_length_none.
Qed.

(** Indices: all correspondences = the explicit list 0..n-1, for any loop of a
    method; and a sub-list = the adapter holding only those correspondences. *)
Lemma for_indices_ext {D S} (read : nat -> outcome D) (step : S -> D -> S) x y : forall left i acc,
  (forall j, i <= j < i + left -> indices_get x j = indices_get y j) ->
  for_indices read step x i left acc = for_indices read step y i left acc.
Proof.
  induction left; intros i acc H; cbn [for_indices]; auto.
  rewrite (H i) by lia. destruct (indices_get y i) as [a| |]; cbn [obind]; auto.
  destruct (read a); cbn [obind]; auto. apply IHleft. intros; apply H; lia.
Qed.

Theorem C23_all_is_explicit_list :
  forall (D S : Type) (read : nat -> outcome D) (step : S -> D -> S) n init,
    run_method read step (UseIndices (seq 0 n)) init = run_method read step (AllIndices n) init.
Proof.
  intros D S read step n init. unfold run_method. cbn [indices_size]. rewrite seq_length.
  apply for_indices_ext. intros j Hj. cbn. unfold at_.
  rewrite (nth_error_nth' _ 0) by (rewrite seq_length; lia). now rewrite seq_nth by lia.
Qed.

Theorem C23_sublist_is_restriction :
  forall (D S : Type) (data : list D) (step : S -> D -> S) l init,
    (forall i, In i l -> i < length data) ->
    exists sub, Forall2 (fun i d => nth_error data i = Some d) l sub
      /\ run_method (at_ data) step (UseIndices l) init = run_method (at_ sub) step (AllIndices (length sub)) init
      /\ run_method (at_ data) step (UseIndices l) init = Ret (fold_left step sub init).
Proof.
  intros D S data step l init H.
  assert (Ex : exists sub, Forall2 (fun i d => nth_error data i = Some d) l sub).
  { clear -H. induction l as [|i l IH]; [exists []; constructor|].
    destruct IH as [sub Hs]; [intros; apply H; right; auto|].
    destruct (nth_error data i) as [d|] eqn:E.
    - exists (d :: sub). constructor; auto.
    - apply nth_error_None in E. specialize (H i (or_introl eq_refl)). lia. }
  destruct Ex as [sub Hs]. exists sub. split; auto.
  assert (G : forall l sub, Forall2 (fun i d => nth_error data i = Some d) l sub -> forall pre psub acc,
     length pre = length psub ->
     for_indices (at_ data) step (UseIndices (pre ++ l)) (length pre) (length l) acc = Ret (fold_left step sub acc)
     /\ for_indices (at_ (psub ++ sub)) step (AllIndices (length (psub ++ sub))) (length pre) (length sub) acc
        = Ret (fold_left step sub acc)).
  { clear. induction 1 as [|i d l sub Hd Hs IH]; intros pre psub acc L; cbn [length for_indices fold_left]; auto.
    cbn [indices_get]. unfold at_ at 1 3. rewrite !nth_error_app2 by lia. rewrite Nat.sub_diag. cbn [nth_error obind].
    replace (length pre - length psub) with 0 by lia. cbn [nth_error].
    unfold at_ at 1. rewrite Hd. cbn [obind].
    destruct (IH (pre ++ [i]) (psub ++ [d]) (step acc d)) as [A B]; [rewrite !app_length, L; reflexivity|].
    rewrite (app_length pre) in A, B. cbn [length] in A, B. rewrite Nat.add_1_r in A, B.
    rewrite <- app_assoc in A, B. cbn [app] in A, B. split; [exact A|].
    replace (at_ (psub ++ d :: sub) (length pre)) with (Ret d); [exact B|].
    unfold at_. rewrite nth_error_app2, L, Nat.sub_diag by lia. reflexivity. }
  unfold run_method. cbn [indices_size]. destruct (G l sub Hs [] [] init eq_refl) as [A B]. cbn [app length] in A, B.
  split; [rewrite A, B|rewrite A]; reflexivity.
Qed.

Example C23_nonvacuous :
  run_method (at_ [10;20;30;40]) Nat.add (UseIndices [3;1]) 0 = Ret 60
  /\ run_method (at_ [10;20;30]) Nat.add (AllIndices 3) 0 = Ret 60
  /\ v_offset (MANoncentralAbsolute (Rot := unit) tt (packs3 [(1,2,3);(4,5,6)])
       (packs6 [((1,0,0),(7,8,9));((0,1,0),(10,11,12))]) 2 2) 1 = Ret (10,11,12).
Proof. repeat split. Qed.
