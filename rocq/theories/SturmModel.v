(** Model of src/math/Sturm.cpp over the reals.  Definitions only.
    Polynomials are coefficient lists in descending order, as in the code; row
    i of the matrix _C is represented by its block (i,i,1,dimension-i), the
    part the code uses.  [None] stands for a division by zero. *)
From Coq Require Import Reals List ZArith.
Import ListNotations.
Local Open Scope R_scope.

(** monomials, Sturm.cpp 392-398: x^(n-1), ..., x, 1, computed from the end. *)
Fixpoint monomials (n : nat) (x : R) : list R :=
  match n with
  | O => []
  | S n => match monomials n x with
           | [] => [1]
           | m :: r => m * x :: m :: r
           end
  end.
(** row of _C times the matching monomials, 401-407. *)
Fixpoint dotlist (a b : list R) : R :=
  match a, b with x :: a, y :: b => x * y + dotlist a b | _, _ => 0 end.
Definition row_value (p : list R) (x : R) : R := dotlist p (monomials (length p) x).

(** second row: coefficients of the derivative, 147-149 and 171-173. *)
Fixpoint deriv (p : list R) : list R :=
  match p with
  | [] => []
  | [_] => []
  | c :: r => c * INR (length r) :: deriv r
  end.

Fixpoint map2 {X Y Z} (f : X -> Y -> Z) (a : list X) (b : list Y) : list Z :=
  match a, b with x :: a, y :: b => f x y :: map2 f a b | _, _ => [] end.

(** computeNegatedRemainder, 439-459. *)
Definition negated_remainder (p1 p2 : list R) : option (list R) :=
  match p1, p2 with
  | a0 :: a1 :: _, b0 :: b1 :: _ =>
      if Req_EM_T b0 0 then None else
      let poly1 := map (Rmult (a0 / b0)) p2 ++ [0] in
      let poly2 := 0 :: map (Rmult (a1 / b0)) p2 in
      let poly3 := 0 :: map (Rmult (- b1 * a0 / (b0 ^ 2))) p2 in
      Some (map2 Rplus (map2 Rplus (map2 Rplus (map Ropp p1) poly1) poly2) poly3)
  | _, _ => None
  end.

(** rows 2.. of _C, 151-158 and 175-182: the first two coefficients of the
    remainder are dropped.  [n] counts the rows still to compute. *)
Fixpoint chain_rows (n : nat) (p1 p2 : list R) : option (list (list R)) :=
  match n with
  | O => Some []
  | S n => match negated_remainder p1 p2 with
           | None => None
           | Some r => match chain_rows n p2 (skipn 2 r) with
                       | None => None
                       | Some l => Some (skipn 2 r :: l)
                       end
           end
  end.
(** the constructors, 143-185. *)
Definition sturm_chain (p : list R) : option (list (list R)) :=
  match p with
  | [] => None
  | [_] => Some [p]
  | _ => match chain_rows (length p - 2) p (deriv p) with
         | None => None
         | Some l => Some (p :: deriv p :: l)
         end
  end.

(** sign-change count, 409-433: a first value of zero counts as negative,
    later zeros are skipped. *)
Fixpoint changes (positive : bool) (l : list R) : nat :=
  match l with
  | [] => 0
  | s :: r =>
      if positive then
        if Rlt_dec s 0 then S (changes false r) else changes true r
      else
        if Rgt_dec s 0 then S (changes true r) else changes false r
  end.
(** evaluateChain2, 390-436 (evaluateChain, 347-387, computes the same). *)
Definition evaluate_chain (C : list (list R)) (x : R) : nat :=
  match map (fun row => row_value row x) C with
  | [] => 0
  | s :: r => changes (if Rgt_dec s 0 then true else false) r
  end.

(** pow(x, y) for x >= 0, y > 0. *)
Definition rpow (x y : R) : R := if Req_EM_T x 0 then 0 else Rpower x y.

(** computeLagrangianBound, 462-492.  [None] when the leading coefficient is 0. *)
Fixpoint bound_terms (a0 : R) (i : nat) (l : list R) : list R :=
  match l with
  | [] => []
  | c :: r => rpow (Rabs (c / a0)) (1 / INR (S i)) :: bound_terms a0 (S i) r
  end.
Fixpoint argmax (l : list R) (i j : nat) (m : R) : nat * R :=
  match l with
  | [] => (j, m)
  | c :: r => if Rgt_dec c m then argmax r (S i) i c else argmax r (S i) j m
  end.
Fixpoint maximum (l : list R) (m : R) : R :=
  match l with [] => m | c :: r => if Rgt_dec c m then maximum r c else maximum r m end.
Fixpoint set_nth (l : list R) (j : nat) (v : R) : list R :=
  match l, j with
  | [], _ => []
  | _ :: r, O => v :: r
  | c :: r, S j => c :: set_nth r j v
  end.
Definition lagrangian_bound (p : list R) : option R :=
  match p with
  | [] => None
  | a0 :: r =>
      if Req_EM_T a0 0 then None else
      let coefficients := bound_terms a0 0 r in
      let (j, max1) := argmax coefficients 0 0 (-1) in
      let max2 := maximum (set_nth coefficients j (-1)) (-1) in
      Some (max1 + max2)
  end.

(** class Bracket, 34-140 *)
Record bracket := Bracket { b_lo : R; b_hi : R; b_lo_changes : nat; b_hi_changes : nat }.
(** size_t subtraction *)
Definition number_roots (b : bracket) : Z :=
  ((Z.of_nat (b_lo_changes b) - Z.of_nat (b_hi_changes b)) mod 2 ^ 64)%Z.
Definition center (b : bracket) : R := (b_hi b + b_lo b) / 2.
Definition dividable (eps : R) (b : bracket) : bool :=
  if (Z.eqb (number_roots b) 1 && (if Rlt_dec (b_hi b - b_lo b) eps then true else false))%bool then false
  else if Z.eqb (number_roots b) 0 then false
  else if Req_EM_T (center b) (b_hi b) then false
  else if Req_EM_T (center b) (b_lo b) then false
  else true.
Definition midpoint (b : bracket) : R := 1/2 * (b_lo b + b_hi b).

(** divide plus the bookkeeping of the caller, 78-86 and 327-334. *)
Definition split (C : list (list R)) (b : bracket) : bracket * bracket :=
  let c := center b in
  let changes := evaluate_chain C c in
  (Bracket (b_lo b) c (b_lo_changes b) changes, Bracket c (b_hi b) changes (b_hi_changes b)).

(** the loop of bracketRoots, 321-343; [fuel] bounds the number of iterations,
    [None] = not finished. *)
Fixpoint bracket_loop (C : list (list R)) (eps : R) (fuel : nat) (stack : list bracket) (roots : list R)
    : option (list R) :=
  match stack with
  | [] => Some roots
  | b :: rest =>
      match fuel with
      | O => None
      | S fuel =>
          if dividable eps b then
            let (l, u) := split C b in
            bracket_loop C eps fuel (rest ++ [l; u]) roots
          else if Z.gtb (number_roots b) 0 then
            bracket_loop C eps fuel rest (roots ++ [midpoint b])
          else bracket_loop C eps fuel rest roots
      end
  end.
Definition initial_bracket (C : list (list R)) (bound : R) : bracket :=
  Bracket (- bound) bound (evaluate_chain C (- bound)) (evaluate_chain C bound).
(** localEps, 317-320: a negative eps selects bound / (10 * numberRoots); with
    no roots at all this is infinite or NaN, and is not used. *)
Definition local_eps (eps bound : R) (b : bracket) : R :=
  if Rlt_dec eps 0 then bound / (10 * IZR (number_roots b)) else eps.
Definition bracket_roots (fuel : nat) (p : list R) (eps : R) : option (list R) :=
  match sturm_chain p, lagrangian_bound p with
  | Some C, Some bound =>
      let b := initial_bracket C bound in
      bracket_loop C (local_eps eps bound b) fuel [b] []
  | _, _ => None
  end.

(** One Newton correction of findRoots, 293-303. *)
Definition newton (p : list R) (x : R) : option R :=
  let d := row_value (deriv p) x in
  if Req_EM_T d 0 then None else Some (x - row_value p x / d).

(** findRoots, 279-307: five corrections for every bracketed value; [None] in
    the list = division by zero. *)
Definition newton5 (p : list R) (x : R) : option R :=
  Nat.iter 5 (fun o => match o with Some y => newton p y | None => None end) (Some x).
Definition find_roots (fuel : nat) (p : list R) : option (list (option R)) :=
  match bracket_roots fuel p (-1) with
  | Some l => Some (map (newton5 p) l)
  | None => None
  end.

(** The polishing loop of findRoots2, 222-251.  Doubles are reals or NaN
    ([None]); +-infinity only arises as value/0 with value <> 0 and leaves the
    bracket at once.  A step either stops ([inl None]: break, [inl (Some x)]:
    converged to x) or continues with the next (root, value). *)
Definition polish_step (p : list R) (eps_val lo hi : R) (state : option R * option R)
    : option R + (option R * option R) :=
  let (root, value) := state in
  match root, value with
  | Some x, Some v =>
      let d := row_value (deriv p) x in
      if Req_EM_T d 0 then
        (* division by zero: infinite unless the numerator vanishes too *)
        if Req_EM_T v 0 then inr (None, None)   (* NaN: every comparison is false *)
        else inl None                            (* infinite: outside the bracket *)
      else
        let x' := x - v / d in
        if Rlt_dec x' lo then inl None else
        if Rgt_dec x' hi then inl None else
        let v' := row_value p x' in
        if Rgt_dec (Rabs v') (Rabs v) then inl None else
        if Rlt_dec (Rabs v') eps_val then inl (Some x') else inr (Some x', Some v')
  | _, _ => inr (None, None)
  end.
(** [None]: [fuel] iterations were not enough. *)
Fixpoint polish (p : list R) (eps_val lo hi : R) (fuel : nat) (state : option R * option R)
    : option (option R) :=
  match fuel with
  | O => None
  | S fuel =>
      match polish_step p eps_val lo hi state with
      | inl r => Some r
      | inr state => polish p eps_val lo hi fuel state
      end
  end.
(** findRoots2, 190-276. *)
Fixpoint roots2_loop (p : list R) (C : list (list R)) (eps_x eps_val : R) (fuel : nat) (stack : list bracket) (roots : list R)
    : option (list R) :=
  match stack with
  | [] => Some roots
  | b :: rest =>
      match fuel with
      | O => None
      | S fuel =>
          let divide :=
            let (l, u) := split C b in
            roots2_loop p C eps_x eps_val fuel (rest ++ [l; u]) roots in
          if dividable eps_x b then
            if Z.eqb (number_roots b) 1 then
              match polish p eps_val (b_lo b) (b_hi b) fuel (Some (midpoint b), Some (row_value p (midpoint b))) with
              | None => None
              | Some (Some r) => roots2_loop p C eps_x eps_val fuel rest (roots ++ [r])
              | Some None => divide
              end
            else divide
          else if Z.gtb (number_roots b) 0 then
            roots2_loop p C eps_x eps_val fuel rest (roots ++ [midpoint b])
          else roots2_loop p C eps_x eps_val fuel rest roots
      end
  end.
Definition find_roots2 (fuel : nat) (p : list R) (eps_x eps_val : R) : option (list R) :=
  match sturm_chain p, lagrangian_bound p with
  | Some C, Some bound => roots2_loop p C eps_x eps_val fuel [initial_bracket C bound] []
  | _, _ => None
  end.
