(** A scene with six correspondences: the equations of sixpt and their reduced
    form in integers (examples only). *)
From Coq Require Import Reals Lra Lia List Arith NArith ZArith Bool Znumtheory.
From Verif Require Import Lin GenLin GbMod GbProps RotModel RotProps GeoModel SeventeenProps MacModel MacProps ModElim LinSolve
  SixptGen SixptModel SixptRow2 SixptDet SixptProps SixptData UpnpActEx1 UpnpActEx2.
Import ListNotations.
Local Open Scope R_scope.

(** * The scene *)
Definition zv (p : Z * Z * Z) : vec3 := let '(a, b, c) := p in V3 (IZR a) (IZR b) (IZR c).
Definition zv_at (l : list (Z * Z * Z)) (k : nat) : vec3 := zv (nth k l (0, 0, 0)%Z).
(** every point is seen at distance nine, by a camera of its own *)
Definition s6_A : rel_adapter := RelAdapter
  (fun k => vscale (1 / 3) (zv_at s6_D1 k)) (fun k => vscale (1 / 3) (zv_at s6_D2 k))
  (fun k => vsub (zv_at s6_X1 k) (vscale 3 (zv_at s6_D1 k))) (fun k => vsub (zv_at s6_X2 k) (vscale 3 (zv_at s6_D2 k)))
  (fun _ => mid) (fun _ => mid) (Pose mid (V3 0 0 0)).
Definition s6_idx : list nat := seq 0 6.
Definition s6_v : vec3 := V3 1 1 1.
Definition s6_R : mat3 := mT (cayley2rot s6_v).
Definition s6_t : vec3 := V3 3 (-3) 3.
Lemma s6_R_val : s6_R = M3 0 1 0 0 0 1 1 0 0.
Proof. unfold s6_R, s6_v, cayley2rot. lunf. f_equal; field. Qed.
Lemma s6_exact : six_exact s6_R s6_t s6_A s6_idx.
Proof.
  intros k Hk. unfold s6_idx in Hk. apply in_seq in Hk. rewrite s6_R_val. unfold rays_meet, centre1, centre2, ray1, ray2, s6_A. cbn [ro1 ro2 rr1 rr2 rf1 rf2].
  assert (E : exists p q r s, zv_at s6_D1 k = p /\ zv_at s6_D2 k = q /\ zv_at s6_X1 k = r /\ zv_at s6_X2 k = s /\
    norm2 p = 9 /\ norm2 q = 9 /\ r = vadd (mv (M3 0 1 0 0 0 1 1 0 0) s) s6_t).
  { do 4 eexists. repeat (split; [reflexivity|]).
    do 6 (destruct k as [|k]; [cbn [zv_at zv nth s6_D1 s6_D2 s6_X1 s6_X2 s6_t]; unfold s6_t; lunf; split; [lra|split; [lra|f_equal; lra]]|]). lia. }
  destruct E as (p & q & r & s & -> & -> & -> & -> & Np & Nq & ->). split; [|split].
  - exists 9, 9. destruct p as [p1 p2 p3], q as [q1 q2 q3], s as [s1 s2 s3]. unfold s6_t. lunf. f_equal; field.
  - transitivity (norm2 p / 9); [destruct p as [p1 p2 p3]; lunf; field|rewrite Np; field].
  - transitivity (norm2 q / 9); [destruct q as [q1 q2 q3]; lunf; field|rewrite Nq; field].
Qed.
(** lines with three times the direction *)
Definition zline_of (d x : Z * Z * Z) : zline :=
  let '(a, b, c) := d in let '(x, y, z) := x in ZL a b c ((b * z - c * y) / 3) ((c * x - a * z) / 3) ((a * y - b * x) / 3).
Definition s6_z1 (i : nat) : zline := zline_of (nth i s6_D1 (0, 0, 0)%Z) (nth i s6_X1 (0, 0, 0)%Z).
Definition s6_z2 (i : nat) : zline := zline_of (nth i s6_D2 (0, 0, 0)%Z) (nth i s6_X2 (0, 0, 0)%Z).
Definition rl (l : zline) : line6 := L6 (V3 (IZR (z0 l) / 3) (IZR (z1 l) / 3) (IZR (z2 l) / 3)) (V3 (IZR (z3 l)) (IZR (z4 l)) (IZR (z5 l))).
Lemma s6_lines1 i : (i < 6)%nat -> lines1 s6_A s6_idx i = rl (s6_z1 i).
Proof.
  intro Hi. unfold lines1, s6_idx. rewrite seq_nth by auto. unfold six_l1, s6_A. cbn [ro1 ro2 rr1 rr2 rf1 rf2 Nat.add].
  do 6 (destruct i as [|i]; [match goal with |- context [s6_z1 ?n] => let z := eval vm_compute in (s6_z1 n) in change (s6_z1 n) with z end; unfold rl; cbn [zv_at zv nth s6_D1 s6_X1 z0 z1 z2 z3 z4 z5]; lunf; f_equal; f_equal; lra|]). lia.
Qed.
Lemma s6_lines2 i : (i < 6)%nat -> lines2 s6_A s6_idx i = rl (s6_z2 i).
Proof.
  intro Hi. unfold lines2, s6_idx. rewrite seq_nth by auto. unfold six_l2, s6_A. cbn [ro1 ro2 rr1 rr2 rf1 rf2 Nat.add].
  do 6 (destruct i as [|i]; [match goal with |- context [s6_z2 ?n] => let z := eval vm_compute in (s6_z2 n) in change (s6_z2 n) with z end; unfold rl; cbn [zv_at zv nth s6_D2 s6_X2 z0 z1 z2 z3 z4 z5]; lunf; f_equal; f_equal; lra|]). lia.
Qed.

(** * The equations *)
Definition over (d : Z) (l : list Z) : list R := map (fun z => IZR z / IZR d) l.
Lemma nth_over d l j : nth j (over d l) 0 = IZR (nth j l 0%Z) / IZR d.
Proof. unfold over. replace 0 with (IZR 0 / IZR d) at 1 by (unfold Rdiv; ring). apply (map_nth (fun z => IZR z / IZR d)). Qed.
Ltac coeffs := unfold over; cbn [map]; repeat (apply f_equal2; [unfold rl, e0, e1, e2, e3, e4, e5; cbn [ldir lmom vx vy vz]; repeat (rewrite plus_IZR || rewrite minus_IZR || rewrite mult_IZR || rewrite opp_IZR); field|]); reflexivity.
Lemma zfill0 a b c d : fill_c0 (rl a) (rl b) (rl c) (rl d) = over 27 (zfill_c0 a b c d).
Proof. unfold fill_c0, zfill_c0. coeffs. Qed.
Lemma zfill1 a b c d : fill_c1 (rl a) (rl b) (rl c) (rl d) = over 27 (zfill_c1 a b c d).
Proof. unfold fill_c1, zfill_c1. coeffs. Qed.
Lemma zfill2 a b c d : fill_c2 (rl a) (rl b) (rl c) (rl d) = over 27 (zfill_c2 a b c d).
Proof. unfold fill_c2, zfill_c2. coeffs. Qed.

Definition zm (prim r : nat) : nat -> nat -> Z :=
  let l01 := s6_z1 prim in let l02 := s6_z2 prim in let l11 := s6_z1 (other prim r) in let l12 := s6_z2 (other prim r) in
  let p0 := zfill_c0 l01 l02 l11 l12 in let p1 := zfill_c1 l01 l02 l11 l12 in let p2 := zfill_c2 l01 l02 l11 l12 in
  fun q j => nth j (match q with O => p0 | 1%nat => p1 | _ => p2 end) 0%Z.
Lemma zm_ok prim r q j : (prim < 6)%nat -> (r < 5)%nat -> six_m (lines1 s6_A s6_idx) (lines2 s6_A s6_idx) prim r q j = IZR (zm prim r q j) / 27.
Proof.
  intros Hp Hr. unfold six_m, zm. cbv zeta. assert (Ho := other_lt prim r Hr). rewrite !s6_lines1, !s6_lines2 by auto.
  destruct q as [|[|q]]; [rewrite zfill0|rewrite zfill1|rewrite zfill2]; now rewrite nth_over.
Qed.
Definition zd3 (m0 m1 m2 : nat -> nat -> Z) (t : nat * nat * nat) : Z :=
  (let '(a, b, c) := t in
  m0 0%nat a * (m1 1%nat b * m2 2%nat c - m1 2%nat b * m2 1%nat c) - m0 1%nat a * (m1 0%nat b * m2 2%nat c - m1 2%nat b * m2 0%nat c)
  + m0 2%nat a * (m1 0%nat b * m2 1%nat c - m1 1%nat b * m2 0%nat c))%Z.
Fixpoint zlsum {A} (f : A -> Z) (l : list A) : Z := match l with [] => 0%Z | a :: l => (f a + zlsum f l)%Z end.
Definition zM1p_row (row : nat) : list Z :=
  let '(d, r0, r1, r2) := six_state row in let m0 := zm d r0 in let m1 := zm d r1 in let m2 := zm d r2 in map (zlsum (zd3 m0 m1 m2)) six_groups.
Lemma s6_M1p_rows : map zM1p_row (seq 0 60) = s6_M1p.
Proof. vm_cast_no_check (@eq_refl (list (list Z)) s6_M1p). Qed.
