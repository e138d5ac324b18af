(** Complex numbers as pairs of reals, with ring and field tactics. *)
From Coq Require Import Reals Lra Field.
Local Open Scope R_scope.

Record cx := Cx { re : R; im : R }.
Definition RtoC (x : R) : cx := Cx x 0.
Definition c0 : cx := RtoC 0.
Definition c1 : cx := RtoC 1.
Definition cadd (a b : cx) : cx := Cx (re a + re b) (im a + im b).
Definition copp (a : cx) : cx := Cx (- re a) (- im a).
Definition csub (a b : cx) : cx := cadd a (copp b).
Definition cmul (a b : cx) : cx := Cx (re a * re b - im a * im b) (re a * im b + im a * re b).
Definition cinv (a : cx) : cx := Cx (re a / (re a * re a + im a * im a)) (- im a / (re a * re a + im a * im a)).
Definition cdiv (a b : cx) : cx := cmul a (cinv b).
Definition ceqb (a b : cx) : {a = b} + {a <> b}.
Proof.
  destruct a as [a a'], b as [b b']. destruct (Req_EM_T a b) as [->|N]; [destruct (Req_EM_T a' b') as [->|N]|].
  - now left.
  - right. intro H. injection H as H. contradiction.
  - right. intro H. injection H as H. contradiction.
Defined.

Lemma cx_eq a b : re a = re b -> im a = im b -> a = b.
Proof. destruct a, b. cbn. now intros -> ->. Qed.
Lemma c1_neq_c0 : c1 <> c0.
Proof. intro H. injection H. lra. Qed.
Lemma cnorm_pos a : a <> c0 -> 0 < re a * re a + im a * im a.
Proof.
  intro N. destruct (Req_dec (re a) 0) as [Z|Z].
  - destruct (Req_dec (im a) 0) as [Y|Y]; [exfalso; apply N; now apply cx_eq|].
    assert (0 < im a * im a) by (destruct (Rtotal_order (im a) 0) as [?|[?|?]]; [|contradiction|]; nra).
    pose proof (Rle_0_sqr (re a)). unfold Rsqr in *. lra.
  - assert (0 < re a * re a) by (destruct (Rtotal_order (re a) 0) as [?|[?|?]]; [|contradiction|]; nra).
    pose proof (Rle_0_sqr (im a)). unfold Rsqr in *. lra.
Qed.
Lemma cx_ring : ring_theory c0 c1 cadd cmul csub copp eq.
Proof. constructor; intros; apply cx_eq; cbn; ring. Qed.
Lemma cx_field : field_theory c0 c1 cadd cmul csub copp cdiv cinv eq.
Proof.
  constructor; [apply cx_ring|apply c1_neq_c0|reflexivity|].
  intros p N. apply cnorm_pos in N. apply cx_eq; cbn; field; lra.
Qed.
Add Field cx_field : cx_field.

Declare Scope cx_scope.
Delimit Scope cx_scope with cx.
Infix "+" := cadd : cx_scope.
Infix "-" := csub : cx_scope.
Infix "*" := cmul : cx_scope.
Infix "/" := cdiv : cx_scope.
Notation "- x" := (copp x) : cx_scope.
Bind Scope cx_scope with cx.

Lemma RtoC_add x y : RtoC (x + y) = cadd (RtoC x) (RtoC y). Proof. apply cx_eq; cbn; ring. Qed.
Lemma RtoC_sub x y : RtoC (x - y) = csub (RtoC x) (RtoC y). Proof. apply cx_eq; cbn; ring. Qed.
Lemma RtoC_opp x : RtoC (- x) = copp (RtoC x). Proof. apply cx_eq; cbn; ring. Qed.
Lemma RtoC_mul x y : RtoC (x * y) = cmul (RtoC x) (RtoC y). Proof. apply cx_eq; cbn; ring. Qed.
Lemma RtoC_inv x : x <> 0 -> RtoC (/ x) = cinv (RtoC x). Proof. intro. apply cx_eq; cbn; field; auto. Qed.
Lemma RtoC_div x y : y <> 0 -> RtoC (x / y) = cdiv (RtoC x) (RtoC y).
Proof. intro. unfold Rdiv, cdiv. now rewrite RtoC_mul, RtoC_inv. Qed.
Lemma RtoC_neq x : x <> 0 -> RtoC x <> c0.
Proof. intros N H. injection H as H. contradiction. Qed.
Lemma RtoC_inj x y : RtoC x = RtoC y -> x = y.
Proof. intro H. now injection H. Qed.
Lemma cmul_eq_0 a b : cmul a b = c0 -> a = c0 \/ b = c0.
Proof.
  intro H. destruct (ceqb a c0) as [|N]; auto. right.
  assert (E : b = cmul (cinv a) (cmul a b)) by (field; auto). rewrite E, H. ring.
Qed.
Lemma csub_eq_0 a b : csub a b = c0 -> a = b.
Proof. intro H. assert (E : a = cadd (csub a b) b) by ring. rewrite E, H. ring. Qed.
