(** C31: Gauss-Jordan elimination. *)
From Coq Require Import Reals Lra Psatz List Lia Permutation ZArith.
From Verif Require Import SturmModel SturmProofs GaussModel.
Import ListNotations.
Local Open Scope R_scope.

(** * Specification *)
(** x solves the homogeneous system with rows m *)
Definition solves (m : list (list R)) (x : list R) : Prop := forall r, In r m -> dotlist r x = 0.
Definition shape (m : list (list R)) (cols : nat) : Prop := forall r, In r m -> length r = cols.

(** A value is decided safely if it is exactly zero or above the precision. *)
Definition decided (precision v : R) : Prop := v = 0 \/ big precision v = true.
(** No value the algorithm compares with the precision is tiny but nonzero. *)
Fixpoint clean_down (precision : R) (n k : nat) (rows : list (list R)) : Prop :=
  match n with
  | O => True
  | S n =>
      match swap_first (pivot k rows 0 0 (-1)) rows with
      | [] => True
      | front :: rest =>
          nth k front 0 = 0 \/
          (let front := normalise (1 / nth k front 0) k front in
           Forall (decided precision) front /\ Forall (fun r => decided precision (nth k r 0)) rest /\
           clean_down precision n (S k) (map (eliminate precision k front) rest))
      end
  end.
Fixpoint clean_up (precision : R) (exitc k : nat) (m : list (list R)) : Prop :=
  if Nat.ltb exitc k then
    match k with
    | O => True
    | S k' => Forall (decided precision) (nth k m []) /\ Forall (fun r => decided precision (nth k r 0)) m /\
              clean_up precision exitc k' (step_up precision exitc k m)
    end
  else True.
Definition clean (precision : R) (exitCondition : Z) (m : list (list R)) : Prop :=
  clean_down precision (length m) 0 m /\
  match step_down precision (length m) 0 m with
  | None => True
  | Some m => clean_up precision (Z.to_nat exitCondition) (length m - 1) m
  end.

(** * Lemmas *)
Lemma decided_0 v : decided 0 v.
Proof.
  unfold decided, big. destruct (Rgt_dec (Rabs v) 0) as [|N]; auto. left.
  destruct (Req_dec v 0); auto. exfalso. apply N. now apply Rabs_pos_lt.
Qed.
Lemma clean_down_0 : forall n k rows, clean_down 0 n k rows.
Proof.
  induction n as [|n IH]; intros k rows; cbn [clean_down]; auto.
  destruct (swap_first _ _) as [|front rest]; auto. right. cbv zeta.
  repeat split; auto; apply Forall_forall; intros; apply decided_0.
Qed.
Lemma clean_up_0 exitc : forall k m, clean_up 0 exitc k m.
Proof.
  induction k as [|k IH]; intro m; cbn [clean_up]; destruct (Nat.ltb _ _); auto.
  repeat split; auto; apply Forall_forall; intros; apply decided_0.
Qed.
Lemma clean_0 exitc m : clean 0 exitc m.
Proof. split; [apply clean_down_0|]. destruct (step_down _ _ _ _); auto. apply clean_up_0. Qed.

Definition minus_mult (lead : R) (front row : list R) : list R := map2 (fun r f => r - lead * f) row front.
Lemma minus_mult_length lead front row : length front = length row -> length (minus_mult lead front row) = length row.
Proof. intro H. unfold minus_mult. now apply map2_length. Qed.
Lemma minus_mult_nth lead : forall front row j, length front = length row ->
  nth j (minus_mult lead front row) 0 = nth j row 0 - lead * nth j front 0.
Proof.
  unfold minus_mult. induction front as [|f front IH]; intros [|r row] [|j] H; cbn [map2 nth]; try discriminate; try ring.
  cbn in H. injection H as H. now apply IH.
Qed.
Lemma minus_mult_dot lead x : forall front row, length front = length row ->
  dotlist (minus_mult lead front row) x = dotlist row x - lead * dotlist front x.
Proof.
  unfold minus_mult. revert x. induction x as [|v x IH]; intros [|f front] [|r row] H; cbn [map2 dotlist]; try discriminate; try ring.
  cbn in H. injection H as H. rewrite IH by auto. ring.
Qed.
Lemma subtract_exact prec lead : forall k front row, length front = length row ->
  (forall j, (j < k)%nat -> nth j front 0 = 0) -> Forall (decided prec) front ->
  subtract prec lead k front row = minus_mult lead front row.
Proof.
  intros k front. revert k. induction front as [|f front IH]; intros k [|r row] L Z D; cbn [subtract minus_mult map2]; try discriminate; auto.
  inversion D; subst. cbn in L. injection L as L. destruct k as [|k].
  - unfold minus_mult in IH. rewrite IH by (auto; intros; lia). f_equal.
    destruct (big prec f) eqn:B; auto. destruct H1 as [->|H1]; [ring|congruence].
  - unfold minus_mult in IH. rewrite IH; auto.
    + f_equal. specialize (Z 0%nat ltac:(lia)). cbn in Z. subst. ring.
    + intros j Hj. apply (Z (S j)). lia.
Qed.
Lemma eliminate_exact prec k front row : length front = length row ->
  (forall j, (j < k)%nat -> nth j front 0 = 0) -> Forall (decided prec) front -> decided prec (nth k row 0) ->
  eliminate prec k front row = minus_mult (nth k row 0) front row.
Proof.
  intros L Z D Dk. unfold eliminate. destruct (big prec (nth k row 0)) eqn:B.
  - now apply subtract_exact.
  - destruct Dk as [E|E]; [|congruence]. rewrite E. clear - L. unfold minus_mult. revert row L.
    induction front as [|f front IH]; intros [|r row] L; cbn; try discriminate; auto.
    cbn in L. injection L as L. rewrite <- IH by auto. f_equal. ring.
Qed.

Lemma pivot_spec k : forall rows i best m,
  (pivot k rows i best m = best /\ (forall r, In r rows -> Rabs (nth k r 0) <= m)) \/
  exists q, pivot k rows i best m = (i + q)%nat /\ (q < length rows)%nat /\ m <= Rabs (nth k (nth q rows []) 0) /\
    (forall r, In r rows -> Rabs (nth k r 0) <= Rabs (nth k (nth q rows []) 0)).
Proof.
  induction rows as [|r rows IH]; intros i best m; cbn [pivot].
  - left. split; auto. intros ? [].
  - destruct (Rgt_dec (Rabs (nth k r 0)) m) as [G|G].
    + right. destruct (IH (S i) i (Rabs (nth k r 0))) as [[E A]|(q & E & Hq & Hm & A)].
      * exists 0%nat. rewrite E. cbn. repeat split; try lia; try lra. intros s [<-|Hs]; [lra|auto].
      * exists (S q). rewrite E. cbn. repeat split; try lia; try lra. intros s [<-|Hs]; [lra|auto].
    + destruct (IH (S i) best m) as [[E A]|(q & E & Hq & Hm & A)].
      * left. split; auto. intros s [<-|Hs]; [lra|auto].
      * right. exists (S q). rewrite E. cbn. repeat split; try lia; try lra. intros s [<-|Hs]; [lra|auto].
Qed.
Lemma pivot_first k rows : rows <> [] ->
  (pivot k rows 0 0 (-1) < length rows)%nat /\
  forall r, In r rows -> Rabs (nth k r 0) <= Rabs (nth k (nth (pivot k rows 0 0 (-1)) rows []) 0).
Proof.
  intro N. destruct (pivot_spec k rows 0 0 (-1)) as [[E A]|(q & E & Hq & _ & A)].
  - destruct rows as [|r rows]; [contradiction|]. specialize (A r (or_introl eq_refl)).
    pose proof (Rabs_pos (nth k r 0)). lra.
  - rewrite E. auto.
Qed.

Lemma set_row_perm : forall rest p (r0 : list R), (p < length rest)%nat ->
  Permutation (r0 :: rest) (nth p rest [] :: set_row rest p r0).
Proof.
  intros rest p r0 H. unfold set_row.
  assert (E : rest = firstn p rest ++ nth p rest [] :: skipn (S p) rest).
  { clear r0. revert p H. induction rest as [|r rest IH]; intros [|p] H; cbn in *; try lia; auto. f_equal. apply IH. lia. }
  assert (E' : skipn p rest = nth p rest [] :: skipn (S p) rest).
  { clear E. revert p H. induction rest as [|r rest IH]; intros [|p] H; cbn in *; try lia; auto. apply IH. lia. }
  rewrite E'. rewrite E at 1. 
  apply Permutation_trans with (r0 :: nth p rest [] :: firstn p rest ++ skipn (S p) rest).
  - apply perm_skip. apply Permutation_sym, Permutation_middle.
  - rewrite perm_swap. apply perm_skip. apply Permutation_middle.
Qed.
Lemma swap_perm p rows : (p < length rows)%nat -> Permutation rows (swap_first p rows).
Proof.
  destruct rows as [|r0 rest]; cbn [length]; [lia|]. intro H. cbn [swap_first]. destruct p as [|p]; cbn [nth]; auto.
  apply set_row_perm. lia.
Qed.

Definition zeros_below (k : nat) (r : list R) : Prop := forall j, (j < k)%nat -> nth j r 0 = 0.
Lemma normalise_length inv : forall row k, length (normalise inv k row) = length row.
Proof. induction row as [|v row IH]; intros [|k]; cbn; auto. now rewrite map_length. Qed.
Lemma normalise_nth row : forall k, zeros_below k row -> (k < length row)%nat -> nth k row 0 <> 0 -> forall j,
  nth j (normalise (1 / nth k row 0) k row) 0 = nth j row 0 / nth k row 0.
Proof.
  intros k Z L N j. set (inv := 1 / nth k row 0). assert (I : inv * nth k row 0 = 1) by (unfold inv; field; auto).
  replace (nth j row 0 / nth k row 0) with (nth j row 0 * inv) by (unfold inv; field; auto).
  clearbody inv. revert k Z L N I j. induction row as [|v row IH]; intros [|k] Z L N I j; cbn [length normalise] in *; try lia.
  - cbn in I. destruct j as [|j]; cbn [nth]; [lra|].
    rewrite <- (map_nth (fun v => v * inv) row 0 j). f_equal. ring.
  - destruct j as [|j]; cbn [nth] in *.
    + specialize (Z 0%nat ltac:(lia)). cbn in Z. subst. ring.
    + apply IH; auto; try lia. intros i Hi. apply (Z (S i)). lia.
Qed.
Lemma dot_scale c x : forall a b, length a = length b -> (forall j, nth j a 0 = nth j b 0 * c) -> dotlist a x = dotlist b x * c.
Proof.
  induction x as [|v x IH]; intros [|f a] [|g b] L H; cbn [dotlist]; try discriminate; try ring.
  cbn in L. injection L as L. rewrite (IH a b L (fun j => H (S j))). pose proof (H 0%nat) as H0. cbn in H0. rewrite H0. ring.
Qed.

Lemma solves_perm m m' x : Permutation m m' -> solves m x <-> solves m' x.
Proof.
  intro P. split; intros H r Hr; apply H.
  - eapply Permutation_in; [apply Permutation_sym; exact P|auto].
  - eapply Permutation_in; [exact P|auto].
Qed.
Lemma shape_perm m m' c : Permutation m m' -> shape m c -> shape m' c.
Proof. intros P H r Hr. apply H. eapply Permutation_in; [apply Permutation_sym; exact P|auto]. Qed.
Lemma solves_cons r m x : solves (r :: m) x <-> dotlist r x = 0 /\ solves m x.
Proof. unfold solves. cbn. split; [intro H; split; auto|intros [A B] s [<-|Hs]; auto]. Qed.

(** one step of the first loop *)
Lemma step_facts k rows front rest : swap_first (pivot k rows 0 0 (-1)) rows = front :: rest ->
  rows <> [] /\ Permutation rows (front :: rest) /\ (forall r, In r rows -> Rabs (nth k r 0) <= Rabs (nth k front 0)).
Proof.
  intros E. assert (N : rows <> []) by (intros ->; discriminate). split; auto.
  destruct (pivot_first k rows N) as [L M]. split.
  - rewrite <- E. now apply swap_perm.
  - destruct rows as [|r0 rows]; [contradiction|]. cbn [swap_first] in E.
    assert (F : nth (pivot k (r0 :: rows) 0 0 (-1)) (r0 :: rows) [] = front) by congruence. rewrite F in M. exact M.
Qed.

Record upper (k c : nat) (out : list (list R)) : Prop := {
  up_shape : shape out c;
  up_zero : forall i, (i < length out)%nat -> zeros_below (k + i) (nth i out []);
  up_one : forall i, (i < length out)%nat -> nth (k + i) (nth i out []) 0 = 1 }.

Lemma step_rows prec k c front0 rest : 0 <= prec < 1 ->
  shape (front0 :: rest) c -> (k < c)%nat -> (forall r, In r (front0 :: rest) -> zeros_below k r) ->
  nth k front0 0 <> 0 ->
  let front := normalise (1 / nth k front0 0) k front0 in
  Forall (decided prec) front -> Forall (fun r => decided prec (nth k r 0)) rest ->
  length front = c /\ zeros_below k front /\ nth k front 0 = 1 /\
  shape (map (eliminate prec k front) rest) c /\
  (forall r, In r (map (eliminate prec k front) rest) -> zeros_below (S k) r) /\
  (forall x, solves (front0 :: rest) x <-> solves (front :: map (eliminate prec k front) rest) x).
Proof.
  intros P Sh Hk Z N front D Dr.
  assert (L0 : length front0 = c) by (apply Sh; left; auto).
  assert (L : length front = c) by (unfold front; rewrite normalise_length; auto).
  assert (Z0 : zeros_below k front0) by (apply Z; left; auto).
  assert (Nt : forall j, nth j front 0 = nth j front0 0 / nth k front0 0) by (apply normalise_nth; auto; lia).
  assert (Zf : zeros_below k front) by (intros j Hj; rewrite Nt, Z0 by auto; unfold Rdiv; ring).
  assert (O : nth k front 0 = 1) by (rewrite Nt; field; auto).
  assert (El : forall r, In r rest -> eliminate prec k front r = minus_mult (nth k r 0) front r).
  { intros r Hr. apply eliminate_exact; auto.
    - rewrite L. symmetry. apply Sh. now right.
    - rewrite Forall_forall in Dr. auto. }
  assert (Lr : forall r, In r rest -> length front = length r) by (intros r Hr; rewrite L; symmetry; apply Sh; now right).
  split; [auto|]. split; [auto|]. split; [auto|]. split; [|split].
  - intros r Hr. apply in_map_iff in Hr. destruct Hr as (s & <- & Hs). rewrite El, minus_mult_length; auto. apply Sh. now right.
  - intros r Hr. apply in_map_iff in Hr. destruct Hr as (s & <- & Hs). rewrite El by auto. intros j Hj.
    rewrite minus_mult_nth by auto. destruct (Nat.eq_dec j k) as [->|Nj].
    + rewrite O. ring.
    + rewrite (Z s) by (auto || (now right) || lia). rewrite Zf by lia. ring.
  - intro x. rewrite !solves_cons.
    assert (Df : dotlist front x = dotlist front0 x * / nth k front0 0).
    { apply dot_scale; [lia|]. intro j. apply Nt. }
    assert (E0 : dotlist front0 x = 0 <-> dotlist front x = 0).
    { rewrite Df. split; [intros ->; ring|]. intro H. apply Rmult_integral in H. destruct H as [H|H]; auto.
      exfalso. revert H. now apply Rinv_neq_0_compat. }
    rewrite <- E0. split; intros [A B]; (split; [exact A|]); apply E0 in A.
    + intros r Hr. apply in_map_iff in Hr. destruct Hr as (s & <- & Hs). rewrite El, minus_mult_dot by auto. rewrite A, (B s Hs). ring.
    + intros s Hs. assert (In (eliminate prec k front s) (map (eliminate prec k front) rest)) by (now apply in_map).
      specialize (B _ H). rewrite El, minus_mult_dot, A in B by auto. lra.
Qed.

Lemma down_ok prec c : 0 <= prec < 1 -> forall n k rows out, length rows = n -> shape rows c -> (n + k <= c)%nat ->
  (forall r, In r rows -> zeros_below k r) -> clean_down prec n k rows -> step_down prec n k rows = Some out ->
  length out = n /\ upper k c out /\ forall x, solves rows x <-> solves out x.
Proof.
  intro P. induction n as [|n IH]; intros k rows out L Sh Hc Z C E; cbn [step_down clean_down] in *.
  - injection E as <-. destruct rows; [|discriminate]. repeat split; auto; cbn; try lia; intros r [].
  - destruct (swap_first (pivot k rows 0 0 (-1)) rows) as [|front0 rest] eqn:Es.
    { destruct rows; cbn in *; discriminate. }
    destruct (step_facts _ _ _ _ Es) as (N & Pm & Mx).
    destruct (Req_EM_T (nth k front0 0) 0) as [Q|Q]; [discriminate|].
    destruct C as [C|(D1 & D2 & C)]; [contradiction|].
    assert (Sh' := shape_perm _ _ _ Pm Sh).
    assert (Z' : forall r, In r (front0 :: rest) -> zeros_below k r).
    { intros r Hr. apply Z. eapply Permutation_in; [apply Permutation_sym; exact Pm|auto]. }
    destruct (step_rows prec k c front0 rest P Sh' ltac:(lia) Z' Q D1 D2) as (F1 & F2 & F3 & F4 & F5 & F6).
    set (front := normalise (1 / nth k front0 0) k front0) in *.
    destruct (step_down prec n (S k) (map (eliminate prec k front) rest)) as [out'|] eqn:Ed; [|discriminate].
    injection E as <-.
    assert (Ln : length (front0 :: rest) = S n) by (rewrite <- L; symmetry; now apply Permutation_length). cbn in Ln.
    destruct (IH (S k) (map (eliminate prec k front) rest) out') as (I1 & [U1 U2 U3] & I3); auto; try lia.
    { rewrite map_length. lia. }
    split; [cbn; lia|]. split.
    + constructor.
      * intros r [<-|Hr]; auto.
      * intros [|i] Hi; cbn [nth]; [now rewrite Nat.add_0_r|]. replace (k + S i)%nat with (S k + i)%nat by lia. apply U2. cbn in Hi. lia.
      * intros [|i] Hi; cbn [nth]; [now rewrite Nat.add_0_r|]. replace (k + S i)%nat with (S k + i)%nat by lia. apply U3. cbn in Hi. lia.
    + intro x. rewrite (solves_perm _ _ x Pm), F6, !solves_cons, I3. reflexivity.
Qed.

(** * second loop *)
Lemma imap_length {X Y} (f : nat -> X -> Y) : forall l i, length (imap f i l) = length l.
Proof. induction l; intro i; cbn; auto. Qed.
Lemma imap_nth {X Y} (f : nat -> X -> Y) d d' : forall l i j, (j < length l)%nat -> nth j (imap f i l) d' = f (i + j)%nat (nth j l d).
Proof.
  induction l as [|a l IH]; intros i [|j] H; cbn in *; try lia.
  - now rewrite Nat.add_0_r.
  - rewrite IH by lia. f_equal. lia.
Qed.
Definition cleared (exitc k : nat) (m : list (list R)) : Prop :=
  forall i j, (exitc <= i < length m)%nat -> (k < j < length m)%nat -> j <> i -> nth j (nth i m []) 0 = 0.

Lemma step_up_ok prec exitc c k m : 0 <= prec < 1 -> upper 0 c m -> (length m <= c)%nat -> cleared exitc k m -> (exitc < k < length m)%nat ->
  Forall (decided prec) (nth k m []) -> Forall (fun r => decided prec (nth k r 0)) m ->
  let m' := step_up prec exitc k m in
  length m' = length m /\ upper 0 c m' /\ cleared exitc (k - 1) m' /\ forall x, solves m x <-> solves m' x.
Proof.
  intros P [U1 U2 U3] Lc Cl Hk D1 D2 m'. cbn [Nat.add] in *.
  assert (L : length m' = length m) by (apply imap_length).
  assert (R : forall i, (i < length m)%nat -> nth i m' [] =
     (if (Nat.leb exitc i && Nat.ltb i k)%bool then minus_mult (nth k (nth i m []) 0) (nth k m []) (nth i m []) else nth i m [])).
  { intros i Hi. unfold m', step_up. rewrite (imap_nth _ []) by auto. cbn [Nat.add].
    destruct (Nat.leb exitc i && Nat.ltb i k)%bool eqn:B; auto. apply eliminate_exact; auto.
    - rewrite (U1 (nth k m [])) by (apply nth_In; lia). symmetry. apply U1. now apply nth_In.
    - apply U2. lia.
    - rewrite Forall_forall in D2. apply D2. now apply nth_In. }
  assert (LL : forall i, (i < length m)%nat -> length (nth k m []) = length (nth i m [])).
  { intros i Hi. rewrite (U1 (nth k m [])) by (apply nth_In; lia). symmetry. apply U1. now apply nth_In. }
  assert (NN : forall i j, (i < length m)%nat -> nth j (nth i m' []) 0 =
     (if (Nat.leb exitc i && Nat.ltb i k)%bool then nth j (nth i m []) 0 - nth k (nth i m []) 0 * nth j (nth k m []) 0 else nth j (nth i m []) 0)).
  { intros i j Hi. rewrite R by auto. destruct (_ && _)%bool; auto. now apply minus_mult_nth, LL. }
  split; [auto|]. split; [|split].
  - constructor; rewrite ?L.
    + intros r Hr. apply (In_nth _ _ []) in Hr. destruct Hr as (i & Hi & <-). rewrite L in Hi. rewrite R by auto.
      destruct (_ && _)%bool; [rewrite minus_mult_length by auto|]; apply U1; now apply nth_In.
    + intros i Hi j Hj. cbn in Hj. rewrite NN by auto.
      destruct (Nat.leb exitc i && Nat.ltb i k)%bool eqn:B; [|now apply U2].
      apply andb_prop in B. destruct B as [_ B]. apply Nat.ltb_lt in B.
      rewrite (U2 i) by auto. rewrite (U2 k) by lia. ring.
    + intros i Hi. cbn. rewrite NN by auto.
      destruct (Nat.leb exitc i && Nat.ltb i k)%bool eqn:B; [|now apply U3].
      apply andb_prop in B. destruct B as [_ B]. apply Nat.ltb_lt in B.
      rewrite (U3 i) by auto. rewrite (U2 k) by lia. ring.
  - intros i j Hi Hj Nj. rewrite L in Hi, Hj. rewrite NN by lia.
    destruct (Nat.leb exitc i && Nat.ltb i k)%bool eqn:B.
    + apply andb_prop in B. destruct B as [_ B]. apply Nat.ltb_lt in B.
      destruct (Nat.eq_dec j k) as [->|Njk]; [rewrite (U3 k) by lia; ring|].
      rewrite (Cl i j) by lia. rewrite (Cl k j) by lia. ring.
    + apply Bool.andb_false_iff in B. rewrite Nat.leb_gt, Nat.ltb_ge in B.
      destruct (Nat.eq_dec j k) as [->|Njk]; [apply U2; lia|]. apply Cl; lia.
  - intro x. assert (Nk : nth k m' [] = nth k m []).
    { rewrite R by lia. replace (Nat.ltb k k) with false by (symmetry; apply Nat.ltb_irrefl). now rewrite Bool.andb_false_r. }
    split; intros S r Hr; apply (In_nth _ _ []) in Hr; destruct Hr as (i & Hi & <-).
    + rewrite L in Hi. rewrite R by auto. destruct (_ && _)%bool; [rewrite minus_mult_dot by auto|].
      * rewrite !S by (apply nth_In; lia). ring.
      * apply S. now apply nth_In.
    + assert (Si : dotlist (nth i m' []) x = 0) by (apply S, nth_In; lia).
      assert (Sk : dotlist (nth k m []) x = 0) by (rewrite <- Nk; apply S, nth_In; lia).
      rewrite R in Si by auto. destruct (_ && _)%bool; auto. rewrite minus_mult_dot, Sk in Si by auto. lra.
Qed.
Lemma steps_up_ok prec exitc c : 0 <= prec < 1 -> forall k m, upper 0 c m -> (length m <= c)%nat -> cleared exitc k m -> (k < length m)%nat ->
  clean_up prec exitc k m ->
  let m' := steps_up prec exitc k m in
  length m' = length m /\ upper 0 c m' /\ cleared exitc (Nat.min k exitc) m' /\ forall x, solves m x <-> solves m' x.
Proof.
  intro P. induction k as [|k IH]; intros m U Lc Cl Hk C; cbn [steps_up clean_up] in *.
  - destruct (Nat.ltb exitc 0); cbv zeta; (split; [auto|split; [auto|split; [auto|tauto]]]).
  - destruct (Nat.ltb exitc (S k)) eqn:B; cbv zeta.
    + apply Nat.ltb_lt in B. destruct C as (C1 & C2 & C3).
      destruct (step_up_ok prec exitc c (S k) m P U Lc Cl ltac:(lia) C1 C2) as (L & U' & Cl' & Sv).
      replace (S k - 1)%nat with k in Cl' by lia.
      destruct (IH (step_up prec exitc (S k) m)) as (L2 & U2 & Cl2 & S2); auto; try lia.
      split; [lia|]. split; [auto|]. split; [|intro x; rewrite Sv; auto].
      replace (Nat.min (S k) exitc) with (Nat.min k exitc) by lia. auto.
    + apply Nat.ltb_ge in B. split; [auto|split; [auto|split; [|tauto]]].
      intros i j Hi Hj Nj. rewrite Nat.min_l in Hj by lia. apply Cl; auto.
Qed.

Lemma dot_supp : forall r x i, (forall j, j <> i -> nth j r 0 * nth j x 0 = 0) -> dotlist r x = nth i r 0 * nth i x 0.
Proof.
  induction r as [|a r IH]; intros [|b x] i H; cbn [dotlist]; try (destruct i; cbn; ring).
  destruct i as [|i]; cbn [nth].
  - assert (dotlist r x = 0); [|lra].
    rewrite (IH x (length r)). { rewrite nth_overflow by lia. ring. }
    intros j _. apply (H (S j)). lia.
  - rewrite (IH x i). { pose proof (H 0%nat ltac:(lia)) as H0. cbn in H0. lra. }
    intros j Hj. apply (H (S j)). lia.
Qed.
Fixpoint upd (k : nat) (v : R) (x : list R) : list R :=
  match x, k with [], _ => [] | _ :: x, O => v :: x | a :: x, S k => a :: upd k v x end.
Lemma upd_length v : forall x k, length (upd k v x) = length x.
Proof. induction x as [|a x IH]; intros [|k]; cbn; auto. Qed.
Lemma upd_nth v : forall x k j, (k < length x)%nat -> nth j (upd k v x) 0 = if Nat.eq_dec j k then v else nth j x 0.
Proof.
  induction x as [|a x IH]; intros [|k] [|j] H; cbn [upd nth length] in *; try lia; auto.
  rewrite IH by lia. destruct (Nat.eq_dec j k), (Nat.eq_dec (S j) (S k)); auto; lia.
Qed.
Lemma upd_dot v : forall x r k, (k < length x)%nat -> length r = length x ->
  dotlist r (upd k v x) = dotlist r x + nth k r 0 * (v - nth k x 0).
Proof.
  induction x as [|a x IH]; intros [|b r] [|k] H L; cbn [upd nth length dotlist] in *; try lia; try ring.
  rewrite IH by lia. ring.
Qed.

(** a nonzero vector supported on the columns k .. k+n-1 *)
Record supported (c k n : nat) (x : list R) : Prop := {
  su_len : length x = c;
  su_out : forall j, (j < k \/ k + n <= j)%nat -> nth j x 0 = 0;
  su_nz : exists j, nth j x 0 <> 0 }.

Lemma down_fail prec c : 0 <= prec < 1 -> forall n k rows, length rows = n -> shape rows c -> (n + k <= c)%nat ->
  (forall r, In r rows -> zeros_below k r) -> clean_down prec n k rows -> step_down prec n k rows = None ->
  exists x, supported c k n x /\ solves rows x.
Proof.
  intro P. induction n as [|n IH]; intros k rows L Sh Hc Z C E; cbn [step_down clean_down] in *; [discriminate|].
  destruct (swap_first (pivot k rows 0 0 (-1)) rows) as [|front0 rest] eqn:Es; [discriminate|].
  destruct (step_facts _ _ _ _ Es) as (N & Pm & Mx).
  destruct (Req_EM_T (nth k front0 0) 0) as [Q|Q].
  - exists (upd k 1 (repeat 0 c)). assert (RZ : forall j, nth j (repeat 0 c) 0 = 0).
    { intro j. clear. revert j. induction c; intros [|j]; cbn; auto. }
    assert (Un : forall j, nth j (upd k 1 (repeat 0 c)) 0 = if Nat.eq_dec j k then 1 else 0).
    { intro j. rewrite upd_nth by (rewrite repeat_length; lia). destruct (Nat.eq_dec j k); auto. }
    split.
    + constructor.
      * now rewrite upd_length, repeat_length.
      * intros j Hj. rewrite Un. destruct (Nat.eq_dec j k); auto. lia.
      * exists k. rewrite Un. destruct (Nat.eq_dec k k); [lra|lia].
    + intros r Hr. specialize (Mx r Hr). rewrite Q, Rabs_R0 in Mx.
      assert (nth k r 0 = 0). { destruct (Req_dec (nth k r 0) 0); auto. pose proof (Rabs_pos_lt _ H). lra. }
      rewrite (dot_supp _ _ k). { rewrite H. ring. }
      intros j Hj. rewrite Un. destruct (Nat.eq_dec j k); [lia|ring].
  - destruct C as [C|(D1 & D2 & C)]; [contradiction|].
    assert (Sh' := shape_perm _ _ _ Pm Sh).
    assert (Z' : forall r, In r (front0 :: rest) -> zeros_below k r).
    { intros r Hr. apply Z. eapply Permutation_in; [apply Permutation_sym; exact Pm|auto]. }
    destruct (step_rows prec k c front0 rest P Sh' ltac:(lia) Z' Q D1 D2) as (F1 & F2 & F3 & F4 & F5 & F6).
    set (front := normalise (1 / nth k front0 0) k front0) in *.
    destruct (step_down prec n (S k) (map (eliminate prec k front) rest)) as [out'|] eqn:Ed; [discriminate|].
    assert (Ln : length (front0 :: rest) = S n) by (rewrite <- L; symmetry; now apply Permutation_length). cbn in Ln.
    destruct (IH (S k) (map (eliminate prec k front) rest)) as (x & [X1 X2 X3] & Xs); auto; try lia.
    { rewrite map_length. lia. }
    exists (upd k (- dotlist front x) x).
    assert (Un : forall j, nth j (upd k (- dotlist front x) x) 0 = if Nat.eq_dec j k then - dotlist front x else nth j x 0).
    { intro j. apply upd_nth. lia. }
    split.
    + constructor.
      * now rewrite upd_length.
      * intros j Hj. rewrite Un. destruct (Nat.eq_dec j k); [lia|]. apply X2. lia.
      * destruct X3 as [j X3]. exists j. rewrite Un. destruct (Nat.eq_dec j k) as [->|]; auto.
        exfalso. apply X3. apply X2. lia.
    + apply (solves_perm _ _ _ Pm), F6, solves_cons. split.
      * rewrite upd_dot by lia. rewrite F3, (X2 k) by lia. ring.
      * intros r Hr. rewrite upd_dot by (try lia; rewrite X1; auto). rewrite (Xs r Hr), (F5 r Hr k) by lia. ring.
Qed.

Lemma upper_trivial c m x : upper 0 c m -> (forall j, (length m <= j)%nat -> nth j x 0 = 0) -> solves m x -> forall j, nth j x 0 = 0.
Proof.
  intros [U1 U2 U3] X S. assert (H : forall d j, (length m - d <= j)%nat -> nth j x 0 = 0).
  { induction d as [|d IH]; intros j Hj; [apply X; lia|].
    destruct (le_lt_dec (length m - d) j) as [|Lj]; [now apply IH|].
    assert (Sj : dotlist (nth j m []) x = 0) by (apply S, nth_In; lia).
    rewrite (dot_supp _ _ j) in Sj.
    - pose proof (U3 j ltac:(lia)) as E. cbn in E. rewrite E in Sj. lra.
    - intros i Hi. destruct (lt_dec i j).
      + rewrite (U2 j) by (cbn; lia). ring.
      + rewrite (IH i) by lia. ring. }
  intro j. apply (H (length m)). lia.
Qed.

(** * C31 *)
(** the accesses of the code are in range *)
Definition well_shaped (m : list (list R)) (cols : nat) : Prop := m <> [] /\ shape m cols /\ (length m <= cols)%nat.

Lemma gj_shape prec e m c : well_shaped m c -> gauss_jordan prec e m =
  match step_down prec (length m) 0 m with
  | None => Singular
  | Some m => if Z.ltb e 0 then Undefined else Reduced (steps_up prec (Z.to_nat e) (length m - 1) m)
  end.
Proof.
  intros (N & Sh & Lc). unfold gauss_jordan. destruct m as [|r0 m]; [contradiction|].
  rewrite (Sh r0) by (now left). replace (Nat.leb (length (r0 :: m)) c) with true by (symmetry; now apply Nat.leb_le).
  replace (forallb _ _) with true; auto. symmetry. apply forallb_forall. intros r Hr. apply Nat.eqb_eq. now apply Sh.
Qed.
Lemma zeros_below_0 (m : list (list R)) : forall r, In r m -> zeros_below 0 r.
Proof. intros r _ j Hj. lia. Qed.

Lemma gj_cases prec e m c : 0 <= prec < 1 -> well_shaped m c -> (0 <= e)%Z -> clean prec e m ->
  (gauss_jordan prec e m = Singular /\ exists x, supported c 0 (length m) x /\ solves m x) \/
  (exists m', gauss_jordan prec e m = Reduced m' /\ length m' = length m /\ upper 0 c m' /\
     cleared (Z.to_nat e) (Nat.min (length m - 1) (Z.to_nat e)) m' /\ forall x, solves m x <-> solves m' x).
Proof.
  intros P W He [C1 C2]. rewrite (gj_shape _ _ _ c W). destruct W as (N & Sh & Lc).
  destruct (step_down prec (length m) 0 m) as [out|] eqn:E.
  - right. replace (Z.ltb e 0) with false by (symmetry; now apply Z.ltb_ge).
    destruct (down_ok prec c P (length m) 0 m out eq_refl Sh ltac:(lia) (zeros_below_0 m) C1 E) as (L & U & S).
    assert (0 < length m)%nat by (destruct m; [contradiction|cbn; lia]).
    destruct (steps_up_ok prec (Z.to_nat e) c P (length out - 1) out U ltac:(lia)) as (L' & U' & Cl & S'); auto; try lia.
    { intros i j Hi Hj. lia. }
    eexists. split; [reflexivity|]. split; [lia|]. split; [auto|]. split; [now rewrite <- L|].
    intro x. now rewrite S, S'.
  - left. split; auto. apply (down_fail prec c P); auto; try lia. apply zeros_below_0.
Qed.

(** The output has the same solutions as the input. *)
Theorem C31_solution_set : forall precision exitCondition m cols m', 0 <= precision < 1 -> well_shaped m cols -> (0 <= exitCondition)%Z ->
  clean precision exitCondition m -> gauss_jordan precision exitCondition m = Reduced m' ->
  length m' = length m /\ shape m' cols /\
  forall x, (forall r, In r m -> dotlist r x = 0) <-> (forall r, In r m' -> dotlist r x = 0).
Proof.
  intros prec e m c m' P W He C E. destruct (gj_cases prec e m c P W He C) as [[A _]|(m2 & A & L & [U _ _] & _ & S)].
  - rewrite A in E. discriminate.
  - rewrite A in E. injection E as <-. auto.
Qed.
(** Its leading block is the identity from row exitCondition on, and unit upper
    triangular above. *)
Theorem C31_reduced_form : forall precision exitCondition m cols m', 0 <= precision < 1 -> well_shaped m cols -> (0 <= exitCondition)%Z ->
  clean precision exitCondition m -> gauss_jordan precision exitCondition m = Reduced m' ->
  (forall i j, (i < length m)%nat -> (j < length m)%nat -> (exitCondition <= Z.of_nat i)%Z ->
     nth j (nth i m' []) 0 = if Nat.eq_dec i j then 1 else 0) /\
  (forall i j, (i < length m)%nat -> (j <= i)%nat -> nth j (nth i m' []) 0 = if Nat.eq_dec i j then 1 else 0).
Proof.
  intros prec e m c m' P W He C E. destruct (gj_cases prec e m c P W He C) as [[A _]|(m2 & A & L & [U1 U2 U3] & Cl & S)].
  { rewrite A in E. discriminate. }
  rewrite A in E. injection E as <-. cbn [Nat.add] in *.
  assert (B : forall i j, (i < length m)%nat -> (j <= i)%nat -> nth j (nth i m2 []) 0 = if Nat.eq_dec i j then 1 else 0).
  { intros i j Hi Hj. destruct (Nat.eq_dec i j) as [<-|Nj]; [apply U3; lia|]. apply U2; lia. }
  split; auto. intros i j Hi Hj Hie. destruct (le_lt_dec j i); [auto|].
  destruct (Nat.eq_dec i j) as [|Nj]; [lia|]. apply Cl; lia.
Qed.
(** Singular is reported exactly if the leading square block is singular: some
    nonzero vector supported on the first columns is annihilated. *)
Theorem C31_singular_iff : forall precision exitCondition m cols, 0 <= precision < 1 -> well_shaped m cols -> (0 <= exitCondition)%Z ->
  clean precision exitCondition m ->
  (gauss_jordan precision exitCondition m = Singular <->
   exists x, length x = cols /\ (forall j, (length m <= j)%nat -> nth j x 0 = 0) /\ (exists j, nth j x 0 <> 0) /\ (forall r, In r m -> dotlist r x = 0)).
Proof.
  intros prec e m c P W He C. destruct (gj_cases prec e m c P W He C) as [[A (x & [X1 X2 X3] & S)]|(m2 & A & L & U & Cl & S)].
  - split; auto. intros _. exists x. split; [auto|]. split; [intros; apply X2; lia|auto].
  - split; [rewrite A; discriminate|]. intros (x & X1 & X2 & (j & X3) & X4). exfalso. apply X3.
    apply (upper_trivial c m2); auto; [rewrite L; auto|]. apply S. exact X4.
Qed.
(** In exact arithmetic with precision 0 the condition on tiny values is empty. *)
Theorem C31_exact : forall exitCondition m cols m', well_shaped m cols -> (0 <= exitCondition)%Z ->
  gauss_jordan 0 exitCondition m = Reduced m' ->
  (forall x, (forall r, In r m -> dotlist r x = 0) <-> (forall r, In r m' -> dotlist r x = 0)) /\
  (forall i j, (i < length m)%nat -> (j < length m)%nat -> (exitCondition <= Z.of_nat i)%Z ->
     nth j (nth i m' []) 0 = if Nat.eq_dec i j then 1 else 0).
Proof.
  intros e m c m' W He E. assert (P : 0 <= 0 < 1) by lra. split.
  - apply (C31_solution_set 0 e m c m' P W He (clean_0 e m) E).
  - apply (C31_reduced_form 0 e m c m' P W He (clean_0 e m) E).
Qed.
(** Out-of-range accesses. *)
Theorem C31_undefined : forall precision exitCondition m,
  (m = [] -> gauss_jordan precision exitCondition m = Undefined) /\
  (forall cols, (exists r, In r m /\ length r = cols /\ (cols < length m)%nat) -> shape m cols -> gauss_jordan precision exitCondition m = Undefined) /\
  (forall cols, (exitCondition < 0)%Z -> well_shaped m cols -> gauss_jordan precision exitCondition m = Singular \/ gauss_jordan precision exitCondition m = Undefined) /\
  (forall cols, (0 <= exitCondition)%Z -> well_shaped m cols -> gauss_jordan precision exitCondition m <> Undefined).
Proof.
  intros prec e m. split; [intros ->; auto|]. split; [|split].
  - intros c (r & Hr & Lr & Hc) Sh. destruct m as [|r0 m]; [contradiction|]. cbn [gauss_jordan].
    rewrite (Sh r0) by (now left). replace (Nat.leb _ c) with false; auto. symmetry. now apply Nat.leb_gt.
  - intros c He W. rewrite (gj_shape _ _ _ c W). destruct (step_down _ _ _ _); auto.
    replace (Z.ltb e 0) with true by (symmetry; now apply Z.ltb_lt). auto.
  - intros c He W. rewrite (gj_shape _ _ _ c W). destruct (step_down _ _ _ _); [|discriminate].
    replace (Z.ltb e 0) with false by (symmetry; now apply Z.ltb_ge). discriminate.
Qed.
(** With a positive precision (1e-10 in the code) nonzero entries up to the
    precision are ignored and the solution set changes. *)
Lemma big_true p v : p < Rabs v -> big p v = true.
Proof. intro H. unfold big. destruct (Rgt_dec _ _); auto; lra. Qed.
Lemma big_false p v : Rabs v <= p -> big p v = false.
Proof. intro H. unfold big. destruct (Rgt_dec _ _); auto; lra. Qed.
Lemma pivot_two k r s : 0 <= Rabs (nth k s 0) <= Rabs (nth k r 0) -> pivot k [r; s] 0 0 (-1) = 0%nat.
Proof.
  intro H. cbn [pivot]. destruct (Rgt_dec (Rabs (nth k r 0)) (-1)) as [|N]; [|lra].
  destruct (Rgt_dec _ _); auto; lra.
Qed.
Lemma pivot_one k r : pivot k [r] 0 0 (-1) = 0%nat.
Proof. cbn [pivot]. destruct (Rgt_dec _ _); auto. Qed.
Theorem C31_tiny_refuted : forall precision, 0 < precision < 1 -> exists m m' x,
  well_shaped m 3 /\ length x = 3%nat /\ gauss_jordan precision 0 m = Reduced m' /\
  (forall r, In r m -> dotlist r x = 0) /\ ~ (forall r, In r m' -> dotlist r x = 0).
Proof.
  intros p Hp. exists [[1; p; 0]; [1; 1; 1]], [[1; p; 0]; [0; 1; 1]], [- p; 1; -1 + p].
  assert (W : well_shaped [[1; p; 0]; [1; 1; 1]] 3).
  { split; [discriminate|]. split; [intros r [<-|[<-|[]]]; reflexivity|cbn; lia]. }
  split; auto. split; [reflexivity|]. split; [|split].
  - rewrite (gj_shape _ _ _ 3 W). cbn [length step_down]. rewrite pivot_two by (cbn; rewrite Rabs_R1; lra).
    cbn [swap_first nth]. destruct (Req_EM_T 1 0); [lra|].
    cbn [normalise map eliminate]. unfold eliminate. cbn [nth]. rewrite !(big_true p 1) by (rewrite Rabs_R1; lra).
    cbn [subtract]. rewrite ?(big_true p 1) by (rewrite Rabs_R1; lra).
    assert (E1 : p * (1 / 1) = p) by field. assert (E2 : 0 * (1 / 1) = 0) by ring. rewrite E1, E2.
    rewrite (big_false p p) by (rewrite Rabs_pos_eq; lra). rewrite (big_false p 0) by (rewrite Rabs_R0; lra).
    rewrite pivot_one. cbn [swap_first nth]. destruct (Req_EM_T 1 0); [lra|].
    cbn [normalise map length Nat.sub Z.ltb Z.compare Z.to_nat steps_up Nat.ltb Nat.leb]. unfold step_up. cbn [imap nth Nat.leb Nat.ltb andb].
    unfold eliminate. cbn [nth]. rewrite (big_false p p) by (rewrite Rabs_pos_eq; lra).
    apply f_equal. repeat (apply f_equal2; auto); field.
  - intros r [<-|[<-|[]]]; cbn; ring.
  - intro H. specialize (H [0; 1; 1] (or_intror (or_introl eq_refl))). cbn in H. lra.
Qed.
(** All hypotheses are met by a 2x3 matrix at the precision of the code. *)
Example C31_nonvacuous : exists m m', well_shaped m 3 /\ clean (1 / 10 ^ 10) 0 m /\ gauss_jordan (1 / 10 ^ 10) 0 m = Reduced m' /\ m' = [[1; 0; 2]; [0; 1; 1]].
Proof.
  exists [[1; 1; 3]; [1; 2; 4]]. eexists. assert (W : well_shaped [[1; 1; 3]; [1; 2; 4]] 3).
  { split; [discriminate|]. split; [intros r [<-|[<-|[]]]; reflexivity|cbn; lia]. }
  split; auto. rewrite (gj_shape _ _ _ 3 W). set (p := 1 / 10 ^ 10). assert (Hp : 0 < p < 1) by (unfold p; lra). clearbody p.
  assert (B : forall v, 1 <= v -> big p v = true) by (intros v Hv; apply big_true; rewrite Rabs_pos_eq; lra).
  assert (B0 : big p 0 = false) by (apply big_false; rewrite Rabs_R0; lra).
  assert (D : forall v, 1 <= v -> decided p v) by (intros v Hv; right; auto).
  unfold clean. cbn [length step_down clean_down]. rewrite pivot_two by (cbn; rewrite Rabs_R1; lra).
  cbn [swap_first nth]. destruct (Req_EM_T 1 0); [lra|].
  cbn [normalise map]. unfold eliminate. cbn [nth]. rewrite (B 1) by lra.
  cbn [subtract]. rewrite !B by lra. rewrite !pivot_one. cbn [swap_first nth].
  destruct (Req_EM_T (2 - 1 * (1 * (1 / 1))) 0) as [Q|_]; [lra|].
  cbn [normalise map length Nat.sub Z.ltb Z.compare Z.to_nat steps_up clean_up Nat.ltb Nat.leb].
  assert (E : [[1; 1 * (1 / 1); 3 * (1 / 1)]; [1 - 1 * 1; 1; (4 - 1 * (3 * (1 / 1))) * (1 / (2 - 1 * (1 * (1 / 1))))]] = [[1; 1; 3]; [0; 1; 1]]).
  { repeat (apply f_equal2; auto); lra. }
  assert (E' : 1 - 1 * 1 = 0) by ring. rewrite E' in *. rewrite !E. unfold step_up. cbn [imap nth Nat.leb Nat.ltb andb].
  unfold eliminate. cbn [nth]. rewrite (B 1) by lra. cbn [subtract]. rewrite !B by lra.
  split; [|split].
  - repeat match goal with |- _ /\ _ => split | |- _ \/ (_ /\ _) => right | |- Forall _ (_ :: _) => constructor | |- Forall _ [] => constructor
        | |- True => exact I | |- decided p ?v => cbn [nth]; first [apply D; lra | left; lra] end.
  - reflexivity.
  - repeat (apply f_equal2; auto); lra.
Qed.
