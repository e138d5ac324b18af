(** The Matlab entry point (C84). *)
From Coq Require Import ZArith Reals List String Ascii Bool Lia Lra Psatz.
From Verif Require Import Lin MexModel MexSpec.
Import ListNotations.
Local Open Scope string_scope.

(** * Method lookup *)
Notation chars := list_ascii_of_string.
Lemma chars_length s : List.length (chars s) = String.length s.
Proof. induction s; cbn; auto. Qed.
Lemma chars_inj s t : chars s = chars t -> s = t.
Proof. intro H. rewrite <- (string_of_list_ascii_of_string s), <- (string_of_list_ascii_of_string t). now rewrite H. Qed.

Lemma all_same_true a b k : forall i, all_same a b i k = true <-> forall j, (i <= j < i + k)%nat -> char_at a j = char_at b j.
Proof.
  induction k; intro i; cbn [all_same]; split; intro H.
  - intros j Hj. lia.
  - reflexivity.
  - destruct (Ascii.eqb _ _) eqn:E; [|discriminate]. apply Ascii.eqb_eq in E. intros j Hj.
    destruct (Nat.eq_dec j i) as [->|N]; auto. apply (proj1 (IHk (S i)) H). lia.
  - rewrite (proj2 (Ascii.eqb_eq _ _) (H i ltac:(lia))). apply IHk. intros j Hj. apply H. lia.
Qed.
Lemma all_same_eq a b : List.length a = List.length b -> (all_same a b 0 (List.length a) = true <-> a = b).
Proof.
  intro L. rewrite all_same_true. split.
  - intro H. apply nth_ext with (d := zero) (d' := zero); auto. intros n Hn. apply H. lia.
  - intros ->. reflexivity.
Qed.

Definition table_lengths : methodsLengths = map String.length methods := eq_refl.
Lemma methods_len : List.length methods = numberMethods. Proof. reflexivity. Qed.

Lemma find_from_spec a k : forall n, (n + k = numberMethods)%nat ->
  match find_from a (List.length a) n k with
  | Some m => nth_error methods m = Some (string_of_list_ascii a)
  | None => forall m, (n <= m < numberMethods)%nat -> nth_error methods m <> Some (string_of_list_ascii a)
  end.
Proof.
  induction k; intros n Hn; cbn [find_from].
  - intros m Hm. lia.
  - replace (nth n methodsLengths O) with (String.length (nth n methods ""))
      by (rewrite table_lengths; symmetry; exact (map_nth String.length methods "" n)).
    assert (B : (n < List.length methods)%nat) by (rewrite methods_len; lia).
    assert (EQ : (Nat.eqb (List.length a) (String.length (nth n methods "")) &&
                  all_same a (chars (nth n methods "")) 0 (List.length a) = true) <->
                 nth n methods "" = string_of_list_ascii a).
    { rewrite andb_true_iff, Nat.eqb_eq. split.
      - intros [L S]. rewrite <- chars_length in L. apply all_same_eq in S; auto.
        rewrite S. now rewrite string_of_list_ascii_of_string.
      - intro E. assert (C : chars (nth n methods "") = a) by (rewrite E; apply list_ascii_of_string_of_list_ascii).
        split; [now rewrite <- C at 1; rewrite chars_length|]. rewrite C. now apply all_same_eq. }
    destruct (_ && _) eqn:E.
    + apply proj1 in EQ. specialize (EQ eq_refl). rewrite (nth_error_nth' methods "" B). now f_equal.
    + specialize (IHk (S n) ltac:(lia)). destruct (find_from _ _ _ _); auto.
      intros m Hm. destruct (Nat.eq_dec m n) as [->|N]; [|apply IHk; lia].
      rewrite (nth_error_nth' methods "" B). intro X. injection X as X. apply EQ in X. discriminate.
Qed.

Lemma incl_dec (l m : list string) : forallb (fun x => existsb (String.eqb x) m) l = true -> incl l m.
Proof.
  intros H x I. rewrite forallb_forall in H. specialize (H x I). apply existsb_exists in H.
  destruct H as (y & Y & E). apply String.eqb_eq in E. now subst.
Qed.

(** C84: a string selects a method exactly when it is one of the names. *)
Theorem C84_method_lookup : forall s,
  (forall n, findCase (chars s) (String.length s) = Some n -> nth_error methods n = Some s) /\
  (findCase (chars s) (String.length s) = None <-> ~ In s (map r_name interface)).
Proof.
  intro s. rewrite <- chars_length. pose proof (find_from_spec (chars s) numberMethods 0 eq_refl) as H.
  rewrite string_of_list_ascii_of_string in H. unfold findCase. split.
  - intros n E. now rewrite E in H.
  - assert (P : In s methods <-> In s (map r_name interface)).
    { assert (I1 : incl methods (map r_name interface)) by (apply incl_dec; vm_compute; reflexivity).
      assert (I2 : incl (map r_name interface) methods) by (apply incl_dec; vm_compute; reflexivity). split; auto. }
    destruct (find_from _ _ _ _) as [n|].
    + split; [discriminate|]. intro N. exfalso. apply N, P. now apply nth_error_In in H.
    + split; auto. intros _ I. apply P in I. apply In_nth_error in I. destruct I as [n I].
      apply (H n); auto. split; [lia|]. rewrite <- methods_len. apply nth_error_Some. congruence.
Qed.

Lemma data_ok_interface w n l1 l2 : In w interface -> (1 <= n)%nat ->
  data_ok (matrix (r_1 w) n l1) (matrix (r_2 w) n l2) = true.
Proof.
  intros I N.
  assert (R36 : forall l, rows36 (matrix (r_1 w) n l) = true /\ rows36 (matrix (r_2 w) n l) = true).
  { intro l. unfold interface in I. cbn [In] in I.
    repeat match type of I with _ \/ _ => destruct I as [<-|I] end; [..|contradiction]; split; reflexivity. }
  unfold data_ok. rewrite (proj1 (R36 l1)), (proj2 (R36 l2)).
  cbn [two_dims matrix mx_dims List.length dim nth Nat.eqb andb]. rewrite Nat.eqb_refl.
  replace (Nat.leb 1 n) with true by (symmetry; apply Nat.leb_le; lia). reflexivity.
Qed.

(** * Dispatch *)
Section ENTRY.
Variable run1 : mcall -> list R.
Variable runN : mcall -> list (list R).
Variable runS : mcall -> list R * list Z.
Notation mexFunction := (mexFunction run1 runN runS).
Notation switch := (switch run1 runN runS).
Notation outputs := (outputs run1 runN runS).

Lemma flat_map_firstn k (l : list (list R)) : (forall x, In x l -> List.length x = k) -> flat_map (firstn k) l = List.concat l.
Proof.
  induction l as [|x l IH]; intro H; cbn; auto. rewrite IH by (intros; apply H; now right).
  rewrite firstn_all2; auto. rewrite (H x); auto. now left.
Qed.
Lemma single_out nlhs c r k : nlhs = 1%nat -> exists p, single run1 nlhs c r k = Out p /\ outputs (One r k) nlhs c p.
Proof.
  intros ->. eexists. split; [reflexivity|]. split; auto. intro L. unfold matrix. rewrite firstn_all2; auto. lia.
Qed.
Lemma many_out nlhs c r k : nlhs = 1%nat -> exists p, many runN nlhs c r k = Out p /\ outputs (Several r k) nlhs c p.
Proof.
  intros ->. eexists. split; [reflexivity|]. split; auto. intro L. rewrite flat_map_firstn; auto.
Qed.
Lemma sac_out nlhs c r k : nlhs = 1%nat \/ nlhs = 2%nat -> exists p, sac runS nlhs c r k = Out p /\ outputs (Sac r k) nlhs c p.
Proof.
  intros H. unfold sac, MexSpec.outputs. destruct (runS c) as [m inl]. eexists. split; [reflexivity|].
  intro L. unfold matrix. rewrite firstn_all2 by lia. destruct H as [-> | ->]; [left|right]; split; auto.
Qed.

Definition dispatches (w : mrow) (k : nat) : Prop :=
  findCase (chars (r_name w)) (String.length (r_name w)) = Some k /\
  sizes_ok k (r_1 w) (r_2 w) = true /\ kind_of k (r_2 w) = Some (r_kind w) /\
  exists m, nth_error enum k = Some m /\
    forall nlhs a ix, lhs_ok (r_out w) nlhs -> (r_name w = "fivept_kneip" -> ix <> None) ->
      exists p, switch m nlhs a ix = Out p /\ outputs (r_out w) nlhs (MCall (r_fn w) a ix) p.

Lemma interface_dispatch w : In w interface -> exists k, dispatches w k.
Proof.
  intro H. unfold interface in H. cbn [In] in H.
  repeat match type of H with _ \/ _ => destruct H as [<-|H] end; [..|contradiction];
    (eexists; split; [vm_compute; reflexivity|]; split; [vm_compute; reflexivity|]; split; [vm_compute; reflexivity|];
     eexists; split; [vm_compute; reflexivity|]; intros nlhs a ix L K; cbn [r_out r_fn r_name lhs_ok] in *; cbn [MexModel.switch];
     first [apply single_out; exact L|apply many_out; exact L|apply sac_out; exact L|idtac]).
  subst nlhs. destruct ix as [ix|]; [|exfalso; now apply K]. cbn [Nat.ltb Nat.leb]. now apply many_out.
Qed.

(** ** indices *)
Lemma to_index_spec x z : to_index x = Some z -> (IZR z + 1 - / 100 <= x < IZR z + 2 - / 100)%R.
Proof.
  unfold to_index. intro H. destruct (_ && _); [|discriminate]. injection H as <-.
  destruct (base_Int_part (x + / 100)). rewrite minus_IZR. lra.
Qed.
Lemma Int_part_unique x z : (IZR z <= x < IZR z + 1)%R -> Int_part x = z.
Proof.
  intros [A B]. destruct (base_Int_part x) as [C D].
  assert (IZR (Int_part x) < IZR (z + 1))%R by (rewrite plus_IZR; lra).
  assert (IZR z < IZR (Int_part x + 1))%R by (rewrite plus_IZR; lra).
  apply lt_IZR in H, H0. lia.
Qed.
Lemma to_index_in x z : (-2147483648 <= z <= 2147483647)%Z ->
  (IZR z + 1 - / 100 <= x < IZR z + 2 - / 100)%R -> to_index x = Some z.
Proof.
  intros B H. unfold to_index. rewrite (Int_part_unique _ (z + 1)) by (rewrite plus_IZR; lra).
  replace (z + 1 - 1)%Z with z by lia. replace ((_ <=? z) && (z <=? _))%Z with true; auto. symmetry. lia.
Qed.
Lemma to_indices_good n ix : (Z.of_nat n <= 2147483647)%Z -> (forall i, In i ix -> (1 <= i <= n)%nat) ->
  to_indices (map INR ix) = Some (zero_based ix).
Proof.
  intros B. induction ix as [|i ix IH]; intro H; cbn [to_indices map zero_based]; auto.
  pose proof (H i (or_introl eq_refl)).
  rewrite (to_index_in _ (Z.of_nat i - 1)) by (try lia; rewrite INR_IZR_INZ, minus_IZR; lra).
  rewrite IH by (intros; apply H; now right). reflexivity.
Qed.

Lemma entry_ok w k n l1 l2 nlhs ixa ix pra t A :
  In w interface -> dispatches w k -> (1 <= n)%nat ->
  lhs_ok (r_out w) nlhs -> (r_name w = "fivept_kneip" -> ix <> None) ->
  match ixa with None => ix = None
  | Some i => exists l z, as_double i = Some l /\ to_indices (firstn (dim i 1) l) = Some z /\ ix = Some z end ->
  match pra with None => t = v0 /\ A = mid
  | Some p => exists l, as_double p = Some l /\
       t = match fst (read_prior (dim p 1) l) with Some t => t | None => v0 end /\
       A = match snd (read_prior (dim p 1) l) with Some A => A | None => mid end end ->
  exists p, entry run1 runN runS k nlhs ixa (matrix (r_1 w) n l1) (matrix (r_2 w) n l2) pra = Out p /\
    outputs (r_out w) nlhs (MCall (r_fn w) (Ma (r_kind w) l1 l2 n n t A) ix) p.
Proof.
  intros I (F & S & K & m & E & SW) N L KN HI HP.
  assert (NL : (Nat.eqb nlhs 1 || Nat.eqb nlhs 2) = true).
  { destruct (r_out w); cbn in L; try subst nlhs; auto. destruct L as [-> | ->]; auto. }
  unfold entry.
  destruct (SW nlhs (Ma (r_kind w) l1 l2 n n t A) ix L KN) as (p & P1 & P2). exists p. split; auto. rewrite <- P1.
  cbn [matrix dim mx_dims nth]. rewrite S, NL. cbn [negb]. rewrite K, E.
  destruct pra as [pr|].
  - destruct HP as (lp & EP & -> & ->). rewrite EP. cbn [option_map].
    destruct (read_prior (dim pr 1) lp) as [pt pA].
    destruct ixa as [i|].
    + destruct HI as (li & z & EL & EZ & ->). rewrite EL, EZ. reflexivity.
    + subst ix. reflexivity.
  - destruct HP as [-> ->]. destruct ixa as [i|].
    + destruct HI as (li & z & EL & EZ & ->). rewrite EL, EZ. reflexivity.
    + subst ix. reflexivity.
Qed.

(** C84: a call with a method of the interface and arguments of the documented
    form runs the library function of that name once, on an adapter over the
    caller's data with the caller's prior, with the caller's indices counted
    from zero, and returns its result; fivept_kneip needs indices. *)
Theorem C84_dispatch : forall w n l1 l2 args ix t A junk nlhs,
  In w interface -> (1 <= n)%nat -> (Z.of_nat n <= 2147483647)%Z -> lhs_ok (r_out w) nlhs ->
  call_form n (matrix (r_1 w) n l1) (matrix (r_2 w) n l2) args ix t A ->
  (r_name w = "fivept_kneip" -> ix <> None) ->
  exists plhs, mexFunction junk nlhs (str (r_name w) :: args) = Out plhs /\
    outputs (r_out w) nlhs (MCall (r_fn w) (Ma (r_kind w) l1 l2 n n t A) ix) plhs.
Proof.
  intros w n l1 l2 args ix t A junk nlhs I N B L C KN.
  destruct (interface_dispatch w I) as [k D]. pose proof D as D'. destruct D' as (F & _).
  pose proof (data_ok_interface w n l1 l2 I N) as DOK.
  assert (IOK : forall ix, good_indices n ix -> indices_ok (index_row ix) (matrix (r_2 w) n l2) = true /\
     exists l z, as_double (index_row ix) = Some l /\ to_indices (firstn (dim (index_row ix) 1) l) = Some z /\
       Some (zero_based ix) = Some z).
  { intros jx [G1 G2]. split.
    - unfold indices_ok. cbn [two_dims index_row matrix mx_dims List.length dim nth Nat.eqb andb]. now apply Nat.leb_le.
    - exists (map INR jx), (zero_based jx). split; auto. split; auto. cbn [index_row dim mx_dims nth].
      rewrite firstn_all2 by (rewrite map_length; lia). now apply (to_indices_good n). }
  unfold MexModel.mexFunction.
  assert (GN : mxGetN (str (r_name w)) = String.length (r_name w)) by (unfold mxGetN, str; cbn; lia).
  assert (GM : mxGetM (str (r_name w)) = 1%nat) by reflexivity.
  rewrite GN, GM. cbn [Nat.eqb negb]. change (mx_data (str (r_name w))) with (ClsChar (chars (r_name w))). cbv beta iota zeta. rewrite F.
  destruct C as [|jx G|jx t G|jx A G|jx A t G];
    cbn [in_range List.length Nat.leb andb negb]; rewrite DOK; try rewrite (proj1 (IOK jx G)); cbn [andb].
  - now apply entry_ok.
  - apply entry_ok; auto. now apply IOK.
  - change (prior_ok (matrix 3 1 (entries t))) with true. cbn iota. apply entry_ok; auto; [now apply IOK|].
    exists (entries t). repeat split. destruct t; reflexivity.
  - change (prior_ok (matrix 3 3 (columns A))) with true. cbn iota. apply entry_ok; auto; [now apply IOK|].
    exists (columns A). repeat split. destruct A; reflexivity.
  - change (prior_ok (matrix 3 4 (columns A ++ entries t)%list)) with true. cbn iota. apply entry_ok; auto; [now apply IOK|].
    exists (columns A ++ entries t)%list. repeat split; [destruct A, t; reflexivity|destruct A; reflexivity].
Qed.

Lemma switch_out m nlhs a ix p w k :
  dispatches w k -> nth_error enum k = Some m -> (nlhs = 1%nat \/ nlhs = 2%nat) -> switch m nlhs a ix = Out p ->
  In w interface -> lhs_ok (r_out w) nlhs /\ (r_name w = "fivept_kneip" -> ix <> None).
Proof.
  intros (F & _ & _ & m' & E' & _) E L H I. assert (m' = m) by congruence. subst m'. clear E'. revert F E.
  unfold interface in I. cbn [In] in I.
  repeat match type of I with _ \/ _ => destruct I as [<-|I] end; [..|contradiction]; cbn [r_name r_out lhs_ok]; intros F E;
    match type of F with ?x = _ => let y := eval vm_compute in x in change (y = Some k) in F end; injection F as <-;
    cbn in E; injection E as <-;
    (split; [try exact L|try (intro Z; discriminate Z)]);
    destruct L as [-> | ->]; try reflexivity; try discriminate H.
  all: intros _ ->; discriminate H.
Qed.

Lemma lookup_row s k : findCase (chars s) (String.length s) = Some k ->
  exists w, In w interface /\ r_name w = s.
Proof.
  intro H. destruct (C84_method_lookup s) as [_ [_ B]].
  destruct (in_dec string_dec s (map r_name interface)) as [I|I]; [|rewrite (B I) in H; discriminate].
  apply in_map_iff in I. destruct I as (w & E & I). eauto.
Qed.

(** rows of the data select the row of the interface, which has two for upnp *)
Lemma sizes_row k s r1 r2 : findCase (chars s) (String.length s) = Some k -> sizes_ok k r1 r2 = true ->
  exists w, In w interface /\ r_name w = s /\ r_1 w = r1 /\ r_2 w = r2.
Proof.
  intros F S. destruct (lookup_row s k F) as (w & I & <-). revert F S. pose proof I as I0. revert I0.
  unfold interface in I. cbn [In] in I.
  repeat match type of I with _ \/ _ => destruct I as [<-|I] end; [..|contradiction]; intros I0; cbn [r_name]; intros F S;
    match type of F with ?x = _ => let y := eval vm_compute in x in change (y = Some k) in F end; injection F as <-;
    unfold sizes_ok in S; cbn [in_range Nat.leb Nat.eqb andb orb negb absCentralFirst absCentralLast absNoncentralFirst
      absNoncentralLast upnpIndex relCentralFirst relCentralLast relNoncentralFirst relNoncentralLast pointCloudFirst pointCloudLast] in S;
    repeat rewrite ?andb_true_r, ?andb_true_iff, ?orb_true_iff, ?Nat.eqb_eq in S;
    try (destruct S as [-> ->]; exact (ex_intro _ _ (conj I0 (conj eq_refl (conj eq_refl eq_refl))))).
  all: assert (U1 : In (Row "upnp" 3 3 MACentralAbs L_upnp (Several 3 4)) interface)
         by (unfold interface; cbn [In]; repeat first [left; reflexivity|right]).
  all: assert (U2 : In (Row "upnp" 3 6 MANoncentralAbs L_upnp (Several 3 4)) interface)
         by (unfold interface; cbn [In]; repeat first [left; reflexivity|right]).
  all: destruct S as [-> [-> | ->]];
    [exact (ex_intro _ _ (conj U1 (conj eq_refl (conj eq_refl eq_refl))))
    |exact (ex_intro _ _ (conj U2 (conj eq_refl (conj eq_refl eq_refl))))].
Qed.

(** C84: output is produced only for a method of the interface with data of the
    right sizes, equally many columns in both, at least one, the right number
    of left-hand sides, and indices where they are needed.  Every other call
    leaves the outputs alone and runs nothing. *)
Theorem C84_output_only_if_well_formed : forall junk nlhs s args plhs,
  mexFunction junk nlhs (str s :: args) = Out plhs ->
  exists w n pre d1 d2 post, In w interface /\ r_name w = s /\ args = (pre ++ d1 :: d2 :: post)%list /\
    mx_dims d1 = [r_1 w; n] /\ mx_dims d2 = [r_2 w; n] /\ (1 <= n)%nat /\ lhs_ok (r_out w) nlhs /\
    (pre = [] /\ post = [] \/ exists ix m, pre = [ix] /\ mx_dims ix = [1; m]%nat /\ (m <= n)%nat /\
      (post = [] \/ exists p c, post = [p] /\ mx_dims p = [3; c]%nat /\ (c = 1 \/ c = 3 \/ c = 4)%nat)) /\
    (s = "fivept_kneip" -> pre <> []).
Proof.
  intros junk nlhs s args plhs H. unfold MexModel.mexFunction in H.
  assert (GN : mxGetN (str s) = String.length s) by (unfold mxGetN, str; cbn; lia).
  assert (GM : mxGetM (str s) = 1%nat) by reflexivity.
  rewrite GN, GM in H. change (mx_data (str s)) with (ClsChar (chars s)) in H. cbv beta iota zeta in H. cbn [Nat.eqb negb] in H.
  destruct (negb (in_range 3 _ 5)); [discriminate|].
  destruct (findCase (chars s) (String.length s)) as [k|] eqn:F; [|discriminate].
  assert (DIMS : forall a, two_dims a = true -> mx_dims a = [dim a 0; dim a 1]).
  { intros [d x] T. unfold two_dims in T. cbn in *. apply Nat.eqb_eq in T. destruct d as [|? [|? [|? ?]]]; try discriminate. reflexivity. }
  assert (CORE : forall ix d1 d2 pr, data_ok d1 d2 = true -> entry run1 runN runS k nlhs ix d1 d2 pr = Out plhs ->
     exists w n, In w interface /\ r_name w = s /\ mx_dims d1 = [r_1 w; n] /\ mx_dims d2 = [r_2 w; n] /\ (1 <= n)%nat /\
       n = dim d2 1 /\ lhs_ok (r_out w) nlhs /\ (s = "fivept_kneip" -> ix <> None)).
  { intros ix d1 d2 pr D E. unfold data_ok in D. rewrite !andb_true_iff in D.
    destruct D as [[[[[[T1 T2] R1] R2] N] N1] N2]. apply Nat.eqb_eq in N. apply Nat.leb_le in N1.
    unfold entry in E. destruct (match pr with None => _ | Some _ => _ end); [|discriminate].
    destruct (sizes_ok k (dim d1 0) (dim d2 0)) eqn:S; [cbn [negb] in E|discriminate].
    destruct (sizes_row k s _ _ F S) as (w & I & W & E1 & E2).
    destruct (interface_dispatch w I) as [k' D]. assert (k' = k) by (destruct D as [F' _]; rewrite W in F'; congruence). subst k'.
    destruct (Nat.eqb nlhs 1 || Nat.eqb nlhs 2) eqn:L; cbn [negb] in E; [|destruct (Nat.ltb 2 nlhs); discriminate].
    assert (L' : nlhs = 1%nat \/ nlhs = 2%nat).
    { apply orb_true_iff in L. destruct L as [L|L]; apply Nat.eqb_eq in L; auto. }
    destruct (match ix with None => _ | Some _ => _ end) as [idx|] eqn:IX; [|discriminate].
    destruct (nth_error enum k) as [m|] eqn:EN; [|discriminate].
    destruct (match kind_of k (dim d2 0) with Some _ => _ | None => _ end) as [a|]; [|discriminate].
    destruct (switch_out m nlhs a idx plhs w k D EN L' E I) as [LO KN].
    exists w, (dim d2 1). rewrite E1, E2. repeat split; auto; try (rewrite (DIMS d1 T1), N; reflexivity); try lia.
    intros Z Q. subst ix. injection IX as <-. rewrite W in KN. now apply KN. }
  destruct args as [|a [|b [|c [|d [|? ?]]]]]; try discriminate H.
  - destruct (data_ok a b) eqn:D; [|discriminate].
    destruct (CORE None a b None D H) as (w & n & I & W & D1 & D2 & N & _ & L & K).
    exists w, n, [], a, b, []. repeat split; auto. intros Z. exfalso. now apply (K Z).
  - destruct (data_ok b c) eqn:D; [|discriminate]. destruct (indices_ok a c) eqn:IO; [|discriminate]. cbn [andb] in H.
    destruct (CORE (Some a) b c None D H) as (w & n & I & W & D1 & D2 & N & -> & L & K).
    unfold indices_ok in IO. rewrite !andb_true_iff, Nat.eqb_eq, Nat.leb_le in IO. destruct IO as [[T O] M].
    exists w, (dim c 1), [a], b, c, []. repeat split; auto; [|discriminate].
    right. exists a, (dim a 1). rewrite (DIMS a T) at 1. rewrite O. auto.
  - destruct (data_ok b c) eqn:D; [|discriminate]. destruct (indices_ok a c) eqn:IO; [|discriminate].
    destruct (prior_ok d) eqn:PO; [|discriminate]. cbn [andb] in H.
    destruct (CORE (Some a) b c (Some d) D H) as (w & n & I & W & D1 & D2 & N & -> & L & K).
    unfold indices_ok in IO. rewrite !andb_true_iff, Nat.eqb_eq, Nat.leb_le in IO. destruct IO as [[T O] M].
    unfold prior_ok in PO. rewrite !andb_true_iff, !orb_true_iff, !Nat.eqb_eq in PO. destruct PO as [[PT P0] P1].
    exists w, (dim c 1), [a], b, c, [d]. repeat split; auto; [|discriminate].
    right. exists a, (dim a 1). rewrite (DIMS a T) at 1. rewrite O. repeat split; auto.
    right. exists d, (dim d 1). rewrite (DIMS d PT) at 1. rewrite P0. repeat split; auto. tauto.
Qed.

(** C84: no call with a string, arrays of doubles and index values within the
    range of int has undefined behaviour in the entry point itself. *)
Theorem C84_no_undefined_behaviour : forall junk nlhs s args,
  (forall a, In a args -> exists l, mx_data a = ClsDouble l /\ forall x, In x l -> (-2147483647 < x < 2147483647)%R) ->
  mexFunction junk nlhs (str s :: args) <> MexUB.
Proof.
  intros junk nlhs s args H. unfold MexModel.mexFunction.
  destruct (negb _); [discriminate|]. destruct (negb _); [discriminate|].
  change (mx_data (str s)) with (ClsChar (chars s)). cbv beta iota zeta.
  assert (GN : mxGetN (str s) = String.length s) by (unfold mxGetN, str; cbn; lia). rewrite GN.
  destruct (findCase _ _) as [k|] eqn:F; [|discriminate].
  assert (IDX : forall l, (forall x, In x l -> (-2147483647 < x < 2147483647)%R) -> to_indices l <> None).
  { induction l as [|x l IH]; intro B; cbn; [discriminate|].
    pose proof (B x (or_introl eq_refl)) as BX. destruct (base_Int_part (x + / 100)) as [B1 B2].
    assert (R1 : (IZR (Int_part (x + / 100)) < IZR 2147483648)%R) by lra.
    assert (R2 : (IZR (-2147483648) < IZR (Int_part (x + / 100)))%R) by lra.
    apply lt_IZR in R1, R2. unfold to_index.
    replace ((_ <=? _) && (_ <=? _))%Z with true by (symmetry; apply andb_true_intro; split; apply Z.leb_le; lia).
    destruct (to_indices l); [discriminate|]. exfalso. apply IH; auto. intros y Y. apply B. now right. }
  assert (CORE : forall ix d1 d2 pr, In d1 args -> In d2 args ->
     (forall i, ix = Some i -> In i args) -> (forall p, pr = Some p -> In p args) ->
     entry run1 runN runS k nlhs ix d1 d2 pr <> MexUB).
  { intros ix d1 d2 pr I1 I2 II IP. unfold entry.
    destruct (match pr with None => _ | Some _ => _ end) as [prior|] eqn:EP.
    2:{ destruct pr as [p|]; [|discriminate]. destruct (H p (IP p eq_refl)) as (l & E & _).
        unfold as_double in EP. rewrite E in EP. discriminate. }
    destruct (sizes_ok k (dim d1 0) (dim d2 0)) eqn:S; [cbn [negb]|discriminate].
    destruct (negb _); [destruct (Nat.ltb 2 nlhs); discriminate|].
    destruct (match ix with None => _ | Some _ => _ end) as [idx|] eqn:IX.
    2:{ destruct ix as [i|]; [|discriminate]. destruct (H i (II i eq_refl)) as (l & E & B).
        unfold as_double in IX. rewrite E in IX. destruct (to_indices (firstn (dim i 1) l)) eqn:Q; [discriminate|].
        exfalso. apply (IDX (firstn (dim i 1) l)); auto. intros x X. apply B.
        rewrite <- (firstn_skipn (dim i 1) l). apply in_or_app. now left. }
    destruct (sizes_row k s _ _ F S) as (w & I & W & E1 & E2).
    destruct (interface_dispatch w I) as [k' (F' & _ & K & m & EM & _)].
    rewrite W in F'. assert (k' = k) by congruence. subst k'. rewrite EM, <- E2, K.
    unfold make_adapter, as_double. destruct (H d1 I1) as (l1 & -> & _), (H d2 I2) as (l2 & -> & _).
    assert (SW : forall a, switch m nlhs a idx <> MexUB); [|apply SW].
    intro a. unfold MexModel.switch, single, many, sac.
    destruct m; try destruct (runS _); try destruct (Nat.ltb 1 nlhs); try destruct idx; discriminate. }
  destruct args as [|a [|b [|c [|d [|? ?]]]]]; try discriminate.
  - destruct (data_ok a b); [|discriminate]. apply CORE; cbn; auto; discriminate.
  - destruct (_ && _); [|discriminate]. apply CORE; cbn; auto; try discriminate. intros i E. injection E as <-. auto.
  - destruct (_ && _); [|discriminate]. apply CORE; cbn; auto; intros i E; injection E as <-; auto.
Qed.
End ENTRY.

(** C84: an index value x stands for correspondence k (counted from zero)
    exactly when k + 1 - 0.01 <= x < k + 2 - 0.01. *)
Theorem C84_index_rounding : forall x k, (-2147483648 <= k <= 2147483647)%Z ->
  (to_index x = Some k <-> (IZR k + 1 - / 100 <= x < IZR k + 2 - / 100)%R).
Proof. intros x k B. split; [apply to_index_spec|now apply to_index_in]. Qed.

(** C84: the inliers returned, converted to double, are indices that select the
    same correspondences; unconverted they are an array of int32 that every
    call reads as doubles. *)
Theorem C84_inliers_as_indices : forall run1 runN runS inliers,
  (forall i, In i inliers -> (0 <= i < 2147483647)%Z) ->
  to_indices (map IZR (map Z.succ inliers)) = Some inliers /\
  forall w n l1 l2 junk nlhs, In w interface -> (List.length inliers <= n)%nat -> (1 <= n)%nat ->
    lhs_ok (r_out w) nlhs ->
    mexFunction run1 runN runS junk nlhs
      [str (r_name w); Mx [1; List.length inliers]%nat (ClsInt32 (map Z.succ inliers));
       matrix (r_1 w) n l1; matrix (r_2 w) n l2] = MexUB.
Proof.
  intros run1 runN runS inliers B. split.
  - induction inliers as [|i l IH]; cbn; auto. pose proof (B i (or_introl eq_refl)).
    rewrite (to_index_in _ i) by (try lia; rewrite succ_IZR; lra). rewrite IH; auto. intros j J. apply B. now right.
  - intros w n l1 l2 junk nlhs I L N LO.
    destruct (interface_dispatch run1 runN runS w I) as [k (F & S & K & m & E & _)].
    unfold mexFunction.
    assert (GN : mxGetN (str (r_name w)) = String.length (r_name w)) by (unfold mxGetN, str; cbn; lia).
    rewrite GN. change (mxGetM (str (r_name w))) with 1%nat. cbn [Nat.eqb negb in_range List.length Nat.leb andb].
    change (mx_data (str (r_name w))) with (ClsChar (chars (r_name w))). cbv beta iota zeta. rewrite F.
    pose proof (data_ok_interface w n l1 l2 I N) as DOK.
    rewrite DOK. unfold indices_ok. cbn [two_dims matrix mx_dims List.length dim nth Nat.eqb andb].
    replace (Nat.leb (List.length inliers) n) with true by (symmetry; now apply Nat.leb_le).
    unfold entry. cbn [matrix dim mx_dims nth]. rewrite S. cbn [negb].
    assert (NL : (Nat.eqb nlhs 1 || Nat.eqb nlhs 2) = true).
    { destruct (r_out w); cbn in LO; try subst nlhs; auto. destruct LO as [-> | ->]; auto. }
    rewrite NL. reflexivity.
Qed.

(** C84 refuted parts.  Index values are not compared with the number of
    correspondences: 0 and n + 1 reach the library as -1 and n. *)
Theorem C84_indices_in_range_refuted : forall run1 runN runS junk n l1 l2, (1 <= n)%nat -> (Z.of_nat n < 2147483647)%Z ->
  mexFunction run1 runN runS junk 1 [str "p2p"; matrix 1 1 [0%R]; matrix 3 n l1; matrix 3 n l2] =
    Out [matrix 3 1 (firstn 3 (run1 (MCall L_p2p (Ma MACentralAbs l1 l2 n n v0 mid) (Some [(-1)%Z]))))] /\
  mexFunction run1 runN runS junk 1 [str "p2p"; matrix 1 1 [INR (S n)]; matrix 3 n l1; matrix 3 n l2] =
    Out [matrix 3 1 (firstn 3 (run1 (MCall L_p2p (Ma MACentralAbs l1 l2 n n v0 mid) (Some [Z.of_nat n]))))].
Proof.
  intros run1 runN runS junk n l1 l2 N B.
  assert (X : forall x z, to_index x = Some z ->
    mexFunction run1 runN runS junk 1 [str "p2p"; matrix 1 1 [x]; matrix 3 n l1; matrix 3 n l2] =
    Out [matrix 3 1 (firstn 3 (run1 (MCall L_p2p (Ma MACentralAbs l1 l2 n n v0 mid) (Some [z]))))]).
  { intros x z T. unfold mexFunction, data_ok, indices_ok.
    change (findCase _ _) with (Some 0%nat). cbn [negb in_range List.length Nat.leb andb Nat.eqb mxGetM str dim mx_dims nth matrix two_dims rows36 orb].
    rewrite Nat.eqb_refl. destruct n as [|n]; [lia|]. cbn [andb].
    unfold entry. cbn [matrix dim mx_dims nth firstn as_double mx_data to_indices]. rewrite T. reflexivity. }
  split; apply X; apply to_index_in; try lia; try lra. rewrite S_INR, INR_IZR_INZ. lra.
Qed.
(** A first argument that is no string is not refused: what it selects depends
    on the contents of fresh memory. *)
Theorem C84_method_is_string_refuted : forall run1 runN runS l1 l2, exists junk1 junk2,
  let args := [matrix 1 3 [1; 2; 3]%R; matrix 3 1 l1; matrix 3 1 l2] in
  mexFunction run1 runN runS junk1 1 args = Printed /\ exists o, mexFunction run1 runN runS junk2 1 args = Out o.
Proof.
  intros. exists [], (chars "p2p"). split; [reflexivity|]. eexists. reflexivity.
Qed.

(** p3p_kneip_ransac on four correspondences with indices 2 and 4, a full prior
    and two left-hand sides: the second output is [1 3] *)
Example C84_nonvacuous :
  let w := Row "p3p_kneip_ransac" 3 3 MACentralAbs (L_ransac (absRansac KNEIP) thr 50) (Sac 3 4) in
  let A := M3 0 (-1) 0 1 0 0 0 0 1 in let t := V3 5 6 7 in
  let l1 := map INR (seq 0 12) in let l2 := map INR (seq 12 12) in
  let model := map INR (seq 0 12) in
  let args := [index_row [2; 4]%nat; matrix 3 4 l1; matrix 3 4 l2; matrix 3 4 [0; 1; 0; -1; 0; 0; 0; 0; 1; 5; 6; 7]%R] in
  In w interface /\
  call_form 4 (matrix (r_1 w) 4 l1) (matrix (r_2 w) 4 l2) args (Some [1; 3]%Z) t A /\
  lhs_ok (r_out w) 2 /\
  exists plhs, mexFunction (fun _ => []) (fun _ => []) (fun _ => (model, [0; 2]%Z)) [] 2 (str (r_name w) :: args) = Out plhs /\
    plhs = [matrix 3 4 model; Mx [1; 2]%nat (ClsInt32 [1; 3]%Z)].
Proof.
  intros w A t l1 l2 model args.
  assert (I : In w interface) by (unfold interface; cbn [In]; repeat first [left; reflexivity|right]).
  assert (C : call_form 4 (matrix (r_1 w) 4 l1) (matrix (r_2 w) 4 l2) args (Some [1; 3]%Z) t A).
  { apply (CF_pose 4 _ _ [2; 4]%nat A t). split; cbn; [lia|]. intros i [<-|[<-|[]]]; lia. }
  assert (L : lhs_ok (r_out w) 2) by (right; reflexivity).
  split; [exact I|]. split; [exact C|]. split; [exact L|].
  destruct (C84_dispatch (fun _ => []) (fun _ => []) (fun _ => (model, [0; 2]%Z)) w 4 l1 l2 args _ _ _ [] 2 I ltac:(lia) ltac:(lia) L C)
    as (p & E & O); [discriminate|].
  exists p. split; [exact E|]. cbn [r_out w outputs] in O. destruct O as [[Z _]|[_ O]]; [reflexivity|discriminate|exact O].
Qed.
