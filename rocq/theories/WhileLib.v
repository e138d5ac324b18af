(** Generic reasoning about fuelled while loops. *)
From Coq Require Import ZArith List Bool Lia.
From Verif Require Import SacModel.
Import ListNotations.

Section While.
  Context {X : Type}.
  Variable guard : X -> bool.
  Variable body : X -> outcome (bool * X).   (* false = break *)

  Fixpoint while (fuel : nat) (x : X) : outcome X :=
    if guard x then
      match fuel with
      | O => Diverge
      | S f => match body x with
               | Ret (true, y) => while f y
               | Ret (false, y) => Ret y
               | UB => UB
               | Diverge => Diverge
               end
      end
    else Ret x.

  Lemma while_inv (I J : X -> Prop) :
    (forall x, I x -> guard x = false -> J x) ->
    (forall x y, I x -> guard x = true -> body x = Ret (true, y) -> I y) ->
    (forall x y, I x -> guard x = true -> body x = Ret (false, y) -> J y) ->
    forall fuel x y, I x -> while fuel x = Ret y -> J y.
  Proof.
    intros H1 H2 H3. induction fuel; intros x y Ix; simpl;
      destruct (guard x) eqn:G; try discriminate.
    - intro E; inversion E; subst; auto.
    - destruct (body x) as [[[] z]| |] eqn:B; try discriminate.
      + intro E. eapply IHfuel; [|exact E]. eauto.
      + intro E; inversion E; subst; eauto.
    - intro E; inversion E; subst; auto.
  Qed.

  Lemma while_term (I : X -> Prop) (mu : X -> nat) :
    (forall x, I x -> guard x = true ->
       match body x with
       | Ret (true, y) => I y /\ (mu y < mu x)%nat
       | Diverge => False
       | _ => True
       end) ->
    forall fuel x, I x -> (mu x < fuel)%nat -> while fuel x <> Diverge.
  Proof.
    intro H. induction fuel; intros x Ix L; simpl; [lia|].
    destruct (guard x) eqn:G; try discriminate.
    specialize (H x Ix G).
    destruct (body x) as [[[] z]| |] eqn:B; try discriminate; try contradiction.
    apply IHfuel; [tauto|lia].
  Qed.

  Lemma while_ret (I : X -> Prop) (mu : X -> nat) :
    (forall x, I x -> guard x = true ->
       match body x with
       | Ret (true, y) => I y /\ (mu y < mu x)%nat
       | Ret (false, y) => True
       | _ => False
       end) ->
    forall fuel x, I x -> (mu x < fuel)%nat -> exists y, while fuel x = Ret y.
  Proof.
    intro H. induction fuel; intros x Ix L; simpl; [lia|].
    destruct (guard x) eqn:G; eauto.
    specialize (H x Ix G).
    destruct (body x) as [[[] z]| |] eqn:B; try contradiction; eauto.
    apply IHfuel; [tauto|lia].
  Qed.
End While.

(** Simulation between two while loops. *)
Lemma while_sim {X Y} (g1 : X -> bool) (b1 : X -> outcome (bool * X))
    (g2 : Y -> bool) (b2 : Y -> outcome (bool * Y)) (R : X -> Y -> Prop) :
  (forall x y, R x y -> g1 x = g2 y) ->
  (forall x y, R x y -> g1 x = true ->
     match b1 x, b2 y with
     | Ret (c, x'), Ret (d, y') => c = d /\ R x' y'
     | UB, UB => True
     | Diverge, Diverge => True
     | _, _ => False
     end) ->
  forall fuel x y, R x y ->
    match while g1 b1 fuel x, while g2 b2 fuel y with
    | Ret x', Ret y' => R x' y'
    | UB, UB => True
    | Diverge, Diverge => True
    | _, _ => False
    end.
Proof.
  intros HG HB. induction fuel; intros x y H; simpl; rewrite <- (HG x y H);
    destruct (g1 x) eqn:G; auto.
  specialize (HB x y H G).
  destruct (b1 x) as [[[] x']| |]; destruct (b2 y) as [[[] y']| |];
    try contradiction; auto; destruct HB as [HC HR]; try discriminate HC.
  - apply IHfuel; exact HR.
  - exact HR.
Qed.
