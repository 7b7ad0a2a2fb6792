(** * Model of the search for the coefficient, sage_codes/curve_derivation

    What Sage computes about a candidate is answered by an oracle: whether a field element is
    a square, the orders of the curve v^2 = u^3 + A u^2 + u and of its quadratic twist, and
    whether a number is prime.                                                             *)

From Coq Require Import ZArith List Bool.
From Verif Require Import Machine Spec SageModel.
Open Scope Z_scope.

(** `is_square`, `ec.order`, `twist.order` and `is_prime` of Sage, curve_derivation 19-31; a
    curve is given by its coefficient in 0..q-1. *)
Record oracle : Type := Oracle {
  orc_square : Z -> bool; orc_order : Z -> Z; orc_twist : Z -> Z; orc_prime : Z -> bool }.

(** curve_derivation 24-31: the conditions on the two orders. *)
Definition derivation_test (O : oracle) (A : Z) : bool :=
  let o := orc_order O A in
  if o mod 8 =? 0 then
    if orc_prime O (o / 8) then
      let otwist := orc_twist O A in
      if otwist mod 4 =? 0 then orc_prime O (otwist / 4) else false
    else false
  else false.

(** curve_derivation 14-33: the loop; the result is what is printed.  `EllipticCurve` raises
    for a singular cubic, here A^2 = 4. *)
Fixpoint derivation_loop (fuel : nat) (O : oracle) (q i : Z) : res Z :=
  match fuel with
  | O%nat => NoFuel
  | S fuel' =>
    let A := get_A i in
    skip <- derivation_skips (orc_square O) q A ;;
    if skip then derivation_loop fuel' O q (i + 1)
    else if (A ^ 2 - 4) mod q =? 0 then Panic
    else if derivation_test O (A mod q) then Ok (A mod q)
    else derivation_loop fuel' O q (i + 1)
  end.

(** curve_derivation 1-33 with q of line 1 and i of line 12. *)
Definition derivation (fuel : nat) (O : oracle) : res Z := derivation_loop fuel O p 1.
