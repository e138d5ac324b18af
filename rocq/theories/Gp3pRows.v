(** gp3p, the elimination template cut into rows: every row 9..31 is built once, by
    one sPolynomial and reductions by earlier rows
    (src/absolute_pose/modules/gp3p/code.cpp; the operations are those of
    Gp3pData), and the supports of the rows, with the terms that cancel. *)
From Coq Require Import Reals List Arith Bool.
From Verif Require Import GbModel GbProps GpnpGb GbSeg Gp3pData Gp3pInit.
Import ListNotations.

Definition cut (t a n : nat) : grow := (t, nth a gp_compute (GN 0 0), firstn (n - 1) (skipn (a + 1) gp_compute)).
Definition R9 : grow := Eval vm_compute in cut 9 0 1.
Definition R10 : grow := Eval vm_compute in cut 10 1 2.
Definition R11 : grow := Eval vm_compute in cut 11 3 3.
Definition R12 : grow := Eval vm_compute in cut 12 6 4.
Definition R13 : grow := Eval vm_compute in cut 13 10 7.
Definition R14 : grow := Eval vm_compute in cut 14 17 5.
Definition R15 : grow := Eval vm_compute in cut 15 22 6.
Definition R16 : grow := Eval vm_compute in cut 16 28 8.
Definition R17 : grow := Eval vm_compute in cut 17 36 2.
Definition R18 : grow := Eval vm_compute in cut 18 38 4.
Definition R19 : grow := Eval vm_compute in cut 19 42 10.
Definition R20 : grow := Eval vm_compute in cut 20 52 10.
Definition R21 : grow := Eval vm_compute in cut 21 62 5.
Definition R22 : grow := Eval vm_compute in cut 22 67 5.
Definition R23 : grow := Eval vm_compute in cut 23 72 5.
Definition R24 : grow := Eval vm_compute in cut 24 77 14.
Definition R25 : grow := Eval vm_compute in cut 25 91 14.
Definition R26 : grow := Eval vm_compute in cut 26 105 14.
Definition R27 : grow := Eval vm_compute in cut 27 119 19.
Definition R28 : grow := Eval vm_compute in cut 28 138 19.
Definition R29 : grow := Eval vm_compute in cut 29 157 19.
Definition R30 : grow := Eval vm_compute in cut 30 176 7.
Definition R31 : grow := Eval vm_compute in cut 31 183 7.
Definition gp_rowl : list grow := [R9; R10; R11; R12; R13; R14; R15; R16; R17; R18; R19; R20; R21; R22; R23; R24; R25; R26; R27; R28; R29; R30; R31].
Definition gp_rest : list gop := Eval vm_compute in skipn 190 gp_compute.
Lemma gp_split : gp_compute = flat_map row_ops gp_rowl ++ gp_rest.
Proof. vm_compute. reflexivity. Qed.
(** terms of the two rows of an sPolynomial that cancel; entries that vanish after
    the row is built, beyond the leads that were reduced *)
Definition gp_drop (t : nat) : list (nat * nat) :=
  match t with
  | 9 => [(32, 32); (52, 52); (79, 79)]
  | 10 => [(32, 32); (52, 52); (79, 79)]
  | 11 => [(31, 31); (51, 51); (78, 78)]
  | 12 => [(31, 31); (51, 51); (78, 78)]
  | 13 => [(31, 31); (51, 51); (78, 78)]
  | 14 => [(31, 31); (51, 51); (78, 78)]
  | 15 => [(31, 31); (51, 51); (78, 78)]
  | 30 => [(48, 47); (53, 52); (65, 64); (69, 68); (74, 73); (80, 79)]
  | 31 => [(48, 46); (53, 51); (65, 63); (69, 67); (74, 72); (80, 78)]
  | _ => []
  end%nat.
Definition gp_prune (t : nat) : list nat :=
  match t with
  | 10 => [21; 30; 33; 44; 48; 53; 65; 69; 74; 80]
  | 12 => [20; 29; 32; 43; 47; 52; 64; 68; 73; 79]
  | 15 => [21; 30; 33; 44; 48; 53; 65; 69; 74; 80]
  | 18 => [21; 30; 33; 44; 48; 53; 65; 69; 74; 80]
  | 20 => [21; 30; 33; 44; 48; 53; 65; 69; 74; 80]
  | 30 => [56]
  | 31 => [56]
  | _ => []
  end%nat.
Definition gstate : Type := supp * list (nat * nat).
Definition gp_pre (r : grow) (st : gstate) : option gstate := let '(t, s, rs) := r in
  match gcheckd 48 85 6 gp_mon s (gp_drop t) st with Some st => gcheck 48 85 6 gp_mon rs st | None => None end.
Definition gp_post (r : grow) (st : gstate) : gstate := let '(t, _, _) := r in match gp_prune t with [] => st | l => prune 85 t l st end.
Definition st8 : gstate := Eval vm_compute in (supp0 48 85 gp_keys, []).
Definition pre9 : gstate := Eval vm_compute in match gp_pre R9 st8 with Some st => st | None => ([], []) end.
Definition st9 : gstate := Eval vm_compute in gp_post R9 pre9.
Lemma pre9_ok : gp_pre R9 st8 = Some pre9.
Proof. vm_compute. reflexivity. Qed.
Definition pre10 : gstate := Eval vm_compute in match gp_pre R10 st9 with Some st => st | None => ([], []) end.
Definition st10 : gstate := Eval vm_compute in gp_post R10 pre10.
Lemma pre10_ok : gp_pre R10 st9 = Some pre10.
Proof. vm_compute. reflexivity. Qed.
Definition pre11 : gstate := Eval vm_compute in match gp_pre R11 st10 with Some st => st | None => ([], []) end.
Definition st11 : gstate := Eval vm_compute in gp_post R11 pre11.
Lemma pre11_ok : gp_pre R11 st10 = Some pre11.
Proof. vm_compute. reflexivity. Qed.
Definition pre12 : gstate := Eval vm_compute in match gp_pre R12 st11 with Some st => st | None => ([], []) end.
Definition st12 : gstate := Eval vm_compute in gp_post R12 pre12.
Lemma pre12_ok : gp_pre R12 st11 = Some pre12.
Proof. vm_compute. reflexivity. Qed.
Definition pre13 : gstate := Eval vm_compute in match gp_pre R13 st12 with Some st => st | None => ([], []) end.
Definition st13 : gstate := Eval vm_compute in gp_post R13 pre13.
Lemma pre13_ok : gp_pre R13 st12 = Some pre13.
Proof. vm_compute. reflexivity. Qed.
Definition pre14 : gstate := Eval vm_compute in match gp_pre R14 st13 with Some st => st | None => ([], []) end.
Definition st14 : gstate := Eval vm_compute in gp_post R14 pre14.
Lemma pre14_ok : gp_pre R14 st13 = Some pre14.
Proof. vm_compute. reflexivity. Qed.
Definition pre15 : gstate := Eval vm_compute in match gp_pre R15 st14 with Some st => st | None => ([], []) end.
Definition st15 : gstate := Eval vm_compute in gp_post R15 pre15.
Lemma pre15_ok : gp_pre R15 st14 = Some pre15.
Proof. vm_compute. reflexivity. Qed.
Definition pre16 : gstate := Eval vm_compute in match gp_pre R16 st15 with Some st => st | None => ([], []) end.
Definition st16 : gstate := Eval vm_compute in gp_post R16 pre16.
Lemma pre16_ok : gp_pre R16 st15 = Some pre16.
Proof. vm_compute. reflexivity. Qed.
Definition pre17 : gstate := Eval vm_compute in match gp_pre R17 st16 with Some st => st | None => ([], []) end.
Definition st17 : gstate := Eval vm_compute in gp_post R17 pre17.
Lemma pre17_ok : gp_pre R17 st16 = Some pre17.
Proof. vm_compute. reflexivity. Qed.
Definition pre18 : gstate := Eval vm_compute in match gp_pre R18 st17 with Some st => st | None => ([], []) end.
Definition st18 : gstate := Eval vm_compute in gp_post R18 pre18.
Lemma pre18_ok : gp_pre R18 st17 = Some pre18.
Proof. vm_compute. reflexivity. Qed.
Definition pre19 : gstate := Eval vm_compute in match gp_pre R19 st18 with Some st => st | None => ([], []) end.
Definition st19 : gstate := Eval vm_compute in gp_post R19 pre19.
Lemma pre19_ok : gp_pre R19 st18 = Some pre19.
Proof. vm_compute. reflexivity. Qed.
Definition pre20 : gstate := Eval vm_compute in match gp_pre R20 st19 with Some st => st | None => ([], []) end.
Definition st20 : gstate := Eval vm_compute in gp_post R20 pre20.
Lemma pre20_ok : gp_pre R20 st19 = Some pre20.
Proof. vm_compute. reflexivity. Qed.
Definition pre21 : gstate := Eval vm_compute in match gp_pre R21 st20 with Some st => st | None => ([], []) end.
Definition st21 : gstate := Eval vm_compute in gp_post R21 pre21.
Lemma pre21_ok : gp_pre R21 st20 = Some pre21.
Proof. vm_compute. reflexivity. Qed.
Definition pre22 : gstate := Eval vm_compute in match gp_pre R22 st21 with Some st => st | None => ([], []) end.
Definition st22 : gstate := Eval vm_compute in gp_post R22 pre22.
Lemma pre22_ok : gp_pre R22 st21 = Some pre22.
Proof. vm_compute. reflexivity. Qed.
Definition pre23 : gstate := Eval vm_compute in match gp_pre R23 st22 with Some st => st | None => ([], []) end.
Definition st23 : gstate := Eval vm_compute in gp_post R23 pre23.
Lemma pre23_ok : gp_pre R23 st22 = Some pre23.
Proof. vm_compute. reflexivity. Qed.
Definition pre24 : gstate := Eval vm_compute in match gp_pre R24 st23 with Some st => st | None => ([], []) end.
Definition st24 : gstate := Eval vm_compute in gp_post R24 pre24.
Lemma pre24_ok : gp_pre R24 st23 = Some pre24.
Proof. vm_compute. reflexivity. Qed.
Definition pre25 : gstate := Eval vm_compute in match gp_pre R25 st24 with Some st => st | None => ([], []) end.
Definition st25 : gstate := Eval vm_compute in gp_post R25 pre25.
Lemma pre25_ok : gp_pre R25 st24 = Some pre25.
Proof. vm_compute. reflexivity. Qed.
Definition pre26 : gstate := Eval vm_compute in match gp_pre R26 st25 with Some st => st | None => ([], []) end.
Definition st26 : gstate := Eval vm_compute in gp_post R26 pre26.
Lemma pre26_ok : gp_pre R26 st25 = Some pre26.
Proof. vm_compute. reflexivity. Qed.
Definition pre27 : gstate := Eval vm_compute in match gp_pre R27 st26 with Some st => st | None => ([], []) end.
Definition st27 : gstate := Eval vm_compute in gp_post R27 pre27.
Lemma pre27_ok : gp_pre R27 st26 = Some pre27.
Proof. vm_compute. reflexivity. Qed.
Definition pre28 : gstate := Eval vm_compute in match gp_pre R28 st27 with Some st => st | None => ([], []) end.
Definition st28 : gstate := Eval vm_compute in gp_post R28 pre28.
Lemma pre28_ok : gp_pre R28 st27 = Some pre28.
Proof. vm_compute. reflexivity. Qed.
Definition pre29 : gstate := Eval vm_compute in match gp_pre R29 st28 with Some st => st | None => ([], []) end.
Definition st29 : gstate := Eval vm_compute in gp_post R29 pre29.
Lemma pre29_ok : gp_pre R29 st28 = Some pre29.
Proof. vm_compute. reflexivity. Qed.
Definition pre30 : gstate := Eval vm_compute in match gp_pre R30 st29 with Some st => st | None => ([], []) end.
Definition st30 : gstate := Eval vm_compute in gp_post R30 pre30.
Lemma pre30_ok : gp_pre R30 st29 = Some pre30.
Proof. vm_compute. reflexivity. Qed.
Definition pre31 : gstate := Eval vm_compute in match gp_pre R31 st30 with Some st => st | None => ([], []) end.
Definition st31 : gstate := Eval vm_compute in gp_post R31 pre31.
Lemma pre31_ok : gp_pre R31 st30 = Some pre31.
Proof. vm_compute. reflexivity. Qed.
