(** The value of a row of M1p of sixpt at a Cayley vector. *)
From Coq Require Import Reals Lra Lia List Arith NArith Bool.
From Verif Require Import Lin GenLin GbProps SixptGen SixptRow2.
Import ListNotations.
Local Open Scope R_scope.

Lemma lsum_app {A} (f : A -> R) l l' : lsum f (l ++ l') = lsum f l + lsum f l'.
Proof. induction l as [|a l IH]; cbn [app lsum]; [ring|]. rewrite IH. ring. Qed.
Lemma lsum_flat {A B} (f : B -> R) (g : A -> list B) l : lsum f (flat_map g l) = lsum (fun a => lsum f (g a)) l.
Proof. induction l as [|a l IH]; cbn [flat_map lsum]; auto. now rewrite lsum_app, IH. Qed.
Lemma lsum_seq f n : lsum f (seq 0 n) = sumn n f.
Proof.
  induction n as [|n IH]; [reflexivity|]. rewrite seq_S, lsum_app, IH. cbn [lsum sumn Nat.add]. ring.
Qed.
Lemma lsum_lsum {A B} (f : A -> B -> R) l l' : lsum (fun a => lsum (f a) l') l = lsum (fun b => lsum (fun a => f a b) l) l'.
Proof.
  induction l as [|a l IH]; cbn [lsum].
  - induction l' as [|b l' IH']; cbn [lsum]; [auto|]. rewrite <- IH'. ring.
  - rewrite IH. clear IH. induction l' as [|b l' IH']; cbn [lsum]; [ring|]. rewrite <- IH'. ring.
Qed.
Lemma lsum_filter {A} (f : A -> R) p l : lsum f (filter p l) = lsum (fun a => if p a then f a else 0) l.
Proof. induction l as [|a l IH]; cbn [filter lsum]; auto. destruct (p a); cbn [lsum]; rewrite IH; ring. Qed.

Definition occurs_once (l : list (N * N * N)) (m : N * N * N) : bool := Nat.eqb (length (filter (neqb m) l)) 1.
Lemma once_sum (w : N * N * N -> R) l m : occurs_once l m = true -> lsum (fun k => if neqb m k then w k else 0) l = w m.
Proof.
  unfold occurs_once. rewrite <- lsum_filter. intro H. apply Nat.eqb_eq in H.
  assert (F : forall k, In k (filter (neqb m) l) -> k = m).
  { intros k Hk. apply filter_In in Hk as [_ E]. symmetry. now apply neqb_eq. }
  destruct (filter (neqb m) l) as [|a [|b r]]; try discriminate. cbn [lsum]. rewrite (F a) by now left. ring.
Qed.
Lemma triples_once : forallb (fun t => occurs_once six_mon1 (tmon t)) triples = true.
Proof. vm_compute. reflexivity. Qed.

(** the value of the polynomial with the coefficients c *)
Definition pval (v : vec3) (c : nat -> R) : R := sumn 10 (fun j => c j * mval v (monat six_mon j)).

Lemma sumn3 (f g h : nat -> R) n : sumn n (fun a => sumn n (fun b => sumn n (fun c => f a * g b * h c))) = sumn n f * sumn n g * sumn n h.
Proof.
  rewrite (sumn_ext n _ (fun a => f a * (sumn n g * sumn n h))).
  - rewrite (sumn_ext n _ (fun a => sumn n g * sumn n h * f a)) by (intros; ring). rewrite sumn_scale. ring.
  - intros a _. rewrite <- Rmult_assoc. transitivity (sumn n (fun b => f a * g b * sumn n h)).
    + apply sumn_ext. intros b _. apply sumn_scale.
    + rewrite (sumn_ext n _ (fun b => f a * sumn n h * g b)) by (intros; ring). rewrite sumn_scale. ring.
Qed.
Theorem fill_row2_det v m0 m1 m2 :
  sumn 84 (fun k => nth k (fill_row2 m0 m1 m2) 0 * mval v (monat six_mon1 k)) =
  det (M3 (pval v (m0 0%nat)) (pval v (m0 1%nat)) (pval v (m0 2%nat)) (pval v (m1 0%nat)) (pval v (m1 1%nat)) (pval v (m1 2%nat))
          (pval v (m2 0%nat)) (pval v (m2 1%nat)) (pval v (m2 2%nat))).
Proof.
  rewrite fill_row2_groups, six_groups_ok.
  transitivity (sumn 84 (fun k => lsum (d3 m0 m1 m2) (group k) * mval v (monat six_mon1 k))).
  { apply sumn_ext. intros k Hk. f_equal. rewrite map_map.
    rewrite nth_indep with (d' := lsum (d3 m0 m1 m2) (group 0)) by (rewrite map_length, seq_length; auto).
    rewrite (map_nth (fun x => lsum (d3 m0 m1 m2) (group x))), seq_nth by auto. reflexivity. }
  transitivity (lsum (fun t => d3 m0 m1 m2 t * mval v (tmon t)) triples).
  { rewrite <- lsum_seq. unfold group.
    rewrite (lsum_ext _ (fun k => lsum (fun t => d3 m0 m1 m2 t * (if neqb (tmon t) (monat six_mon1 k) then mval v (monat six_mon1 k) else 0)) triples)).
    - rewrite lsum_lsum. apply lsum_ext. intros t Ht. rewrite lsum_scale. f_equal.
      pose proof triples_once as O. rewrite forallb_forall in O. specialize (O t Ht).
      rewrite <- (once_sum (mval v) six_mon1 (tmon t) O).
      rewrite <- (lsum_map (fun m => if neqb (tmon t) m then mval v m else 0) (monat six_mon1)). reflexivity.
    - intros k _. rewrite lsum_filter, Rmult_comm, <- lsum_scale. apply lsum_ext. intros t _. destruct (neqb _ _); ring. }
  set (w := fun j => mval v (monat six_mon j)). unfold triples. rewrite lsum_flat.
  transitivity (sumn 10 (fun a => sumn 10 (fun b => sumn 10 (fun c => d3 m0 m1 m2 (a, b, c) * (w a * (w b * w c)))))).
  { rewrite lsum_seq. apply sumn_ext. intros a _. rewrite lsum_flat, lsum_seq. apply sumn_ext. intros b _.
    rewrite lsum_map, lsum_seq. apply sumn_ext. intros c _. unfold tmon. now rewrite !mval_add. }
  set (p0 := fun q j => m0 q j * w j). set (p1 := fun q j => m1 q j * w j). set (p2 := fun q j => m2 q j * w j).
  set (S := fun i j k => sumn 10 (p0 i) * sumn 10 (p1 j) * sumn 10 (p2 k)).
  transitivity (S 0%nat 1%nat 2%nat - S 0%nat 2%nat 1%nat - S 1%nat 0%nat 2%nat + S 1%nat 2%nat 0%nat + S 2%nat 0%nat 1%nat - S 2%nat 1%nat 0%nat).
  - unfold S. rewrite <- !sumn3. rewrite <- !sumn_sub, <- !sumn_add, <- !sumn_sub. apply sumn_ext. intros a _.
    rewrite <- !sumn_sub, <- !sumn_add, <- !sumn_sub. apply sumn_ext. intros b _.
    rewrite <- !sumn_sub, <- !sumn_add, <- !sumn_sub. apply sumn_ext. intros c _. unfold d3, p0, p1, p2. cbv beta. ring.
  - unfold S, pval, p0, p1, p2, w, det; cbn [m00 m01 m02 m10 m11 m12 m20 m21 m22]. ring.
Qed.
