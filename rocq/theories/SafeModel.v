(** * Model of the safe-curve verifier

    The number-theoretic part of `verify` and `expand2` in "/repo/sage_codes/Safe Curve
    code" (line numbers refer to it).  The file is a Sage listing; integers are unbounded,
    `%` is the modulus with the sign of the divisor, `/` on divisible integers is exact.
    What is written to files is returned.  Lines 160 and 215 have lost their indentation
    and are read as part of the loop above them.  [fuel] bounds the rounds of each `while`;
    [NoFuel] means that a loop went on. *)

From Coq Require Import ZArith List Bool.
From Verif Require Import Machine.
Import ListNotations.
Open Scope Z_scope.

(** 36-44: a piece of the printed sum, `2^j` or a number, with its sign. *)
Inductive piece : Set := Power (neg : bool) (j : Z) | Number (neg : bool) (m : Z).

(** 28: `while 2**j < abs(n): j += 1`. *)
Fixpoint grow (fuel : nat) (j n : Z) : res Z :=
  match fuel with
  | O => NoFuel
  | S fuel' => if 2 ^ j <? Z.abs n then grow fuel' (j + 1) n else Ok j
  end.

(** 26-44: the loop of `expand2`; [s] are the pieces so far.  The separators between the
    pieces are left out. *)
Fixpoint expand2_loop (fuel : nat) (n : Z) (s : list piece) : res (list piece) :=
  match fuel with
  | O => NoFuel
  | S fuel' =>
    if n =? 0 then Ok s
    else
      j <- grow fuel 16 n ;;
      let j := if Z.abs n - 2 ^ (j - 1) <? 2 ^ j - Z.abs n then j - 1 else j in
      if 2 ^ (j - 10) <? Z.abs (Z.abs n - 2 ^ j) then
        expand2_loop fuel' 0 (s ++ [if 0 <? n then Number false n else Number true (- n)])
      else if 0 <? n then expand2_loop fuel' (n - 2 ^ j) (s ++ [Power false j])
      else expand2_loop fuel' (n + 2 ^ j) (s ++ [Power true j])
  end.

(** 23-46 `expand2`. *)
Definition expand2 (fuel : nat) (n : Z) : res (list piece) := expand2_loop fuel n [].

(** 98: `factor(v)^(n-1).valuation(v)` for m = n - 1, as a number. *)
Fixpoint part (fuel : nat) (v m : Z) : res Z :=
  match fuel with
  | O => NoFuel
  | S fuel' => if m mod v =? 0 then r <- part fuel' v (m / v) ;; Ok (v * r) else Ok 1
  end.

(** 90-98: the loop over the verified primes; `base` lives in Integers(n) and `is_unit`
    means that the greatest common divisor with n is one.  [f] is `f.prod()`. *)
Fixpoint cert_loop (fuel : nat) (n b : Z) (vs : list Z) (f : Z) : res Z :=
  match vs with
  | [] => Ok f
  | v :: vs' =>
    if (f * f <=? n) && (n mod v =? 1) && (Z.gcd ((b ^ ((n - 1) / v) - 1) mod n) n =? 1) then
      g <- part fuel v (n - 1) ;; cert_loop fuel n b vs' (f * g)
    else cert_loop fuel n b vs' f
  end.

(** 84-107: the loop over the bases, [true] if it ends with `break`. *)
Fixpoint base_loop (fuel : nat) (n : Z) (V bases : list Z) : res bool :=
  match bases with
  | [] => Ok false
  | trybase :: bases' =>
    let b := trybase mod n in
    if negb (b ^ (n - 1) mod n =? 1) then base_loop fuel n V bases'
    else
      f <- cert_loop fuel n b (rev V) 1 ;;
      if f * f <=? n then base_loop fuel n V bases'
      else if negb (n mod f =? 1) then base_loop fuel n V bases'
      else Ok true
  end.

(** 82, 106: `if not n in V: V += [n]`. *)
Definition add_new (n : Z) (V : list Z) : list Z := if existsb (Z.eqb n) V then V else V ++ [n].

(** 77-107: the distinct verified primes.  [is_prime] stands for Sage's `is_prime` (a
    recorded oracle), [bases] for `primes(2,10000)`, [lines] for the numbers of the file. *)
Fixpoint verify_primes (fuel : nat) (is_prime : Z -> bool) (bases lines V : list Z) : res (list Z) :=
  match lines with
  | [] => Ok V
  | n :: lines' =>
    if negb (is_prime n) then verify_primes fuel is_prime bases lines' V
    else if n =? 2 then verify_primes fuel is_prime bases lines' (add_new n V)
    else
      ok <- base_loop fuel n V bases ;;
      verify_primes fuel is_prime bases lines' (if ok then add_new n V else V)
  end.

(** 142, 190, 227: `while d % v == 0: d /= v`. *)
Fixpoint divide_out (fuel : nat) (v d : Z) : res Z :=
  match fuel with
  | O => NoFuel
  | S fuel' => if d mod v =? 0 then divide_out fuel' v (d / v) else Ok d
  end.

(** 141-142, 189-190: the loop above for all verified primes. *)
Fixpoint divide_all (fuel : nat) (V : list Z) (d : Z) : res Z :=
  match V with
  | [] => Ok d
  | v :: V' => d <- divide_out fuel v d ;; divide_all fuel V' d
  end.

(** 146-148: the loop that lowers the exponent while the power stays 1. *)
Fixpoint lower (fuel : nat) (l u v d : Z) : res Z :=
  match fuel with
  | O => NoFuel
  | S fuel' =>
    if d mod v =? 0 then
      if negb (u ^ (d / v) mod l =? 1) then Ok d else lower fuel' l u v (d / v)
    else Ok d
  end.

(** 145-148: the loop above for all verified primes. *)
Fixpoint lower_all (fuel : nat) (l u : Z) (V : list Z) (d : Z) : res Z :=
  match V with
  | [] => Ok d
  | v :: V' => d <- lower fuel l u v d ;; lower_all fuel l u V' d
  end.

(** 133-150 and 217-234: the embedding degree, [None] for `Unverified`. *)
Definition embedding (fuel : nat) (is_prime : Z -> bool) (p l : Z) (V : list Z) : res (option Z) :=
  if (Z.gcd l p =? 1) && is_prime l then
    d <- divide_all fuel V (l - 1) ;;
    if d =? 1 then d <- lower_all fuel l (p mod l) V (l - 1) ;; Ok (Some d) else Ok None
  else Ok None.

(** 149, 233: the condition on the embedding degree. *)
Definition mov_safe (l d : Z) : bool := (l - 1) / d <=? 100.

(** 152: `t = p+1-l*round((p+1)/l)`, rounding to the nearest integer, halves up. *)
Definition verify_trace (p l : Z) : Z := p + 1 - l * ((2 * (p + 1) + l) / (2 * l)).

(** 157-160: the factors of [d] in the verified primes, as a list. *)
Fixpoint factors_out (fuel : nat) (v d : Z) (f : list Z) : res (Z * list Z) :=
  match fuel with
  | O => NoFuel
  | S fuel' => if d mod v =? 0 then factors_out fuel' v (d / v) (f ++ [v]) else Ok (d, f)
  end.

(** 155-160 and 211-215: `f` after the loops, for d = (p+1-t)/l. *)
Fixpoint cofactor (fuel : nat) (V : list Z) (d : Z) (f : list Z) : res (list Z) :=
  match V with
  | [] => Ok f
  | v :: V' => '(d, f) <- factors_out fuel v d f ;; cofactor fuel V' d f
  end.

(** 168: `while D % v^2 == 0: D /= v^2` for all verified primes. *)
Fixpoint squares_out (fuel : nat) (V : list Z) (D : Z) : res Z :=
  match V with
  | [] => Ok D
  | v :: V' => D <- divide_out fuel (v * v) D ;; squares_out fuel V' D
  end.

(** 166-180: the discriminant, [None] for `Unverified`. *)
Definition discriminant (fuel : nat) (p t : Z) (V : list Z) : res (option Z) :=
  D <- squares_out fuel V (t * t - 4 * p) ;;
  if negb (fold_right Z.mul 1 (filter (fun v => D mod v =? 0) V) =? - D) then Ok None
  else Ok (Some (if negb (D mod 4 =? 1) then D * 4 else D)).

(** 191-195: the loop over the verified primes; [None] is `Unverified`. *)
Fixpoint largest (V : list Z) (d : Z) (best : option Z) : option Z :=
  match V with
  | [] => best
  | v :: V' =>
    largest V' d
      (if d mod v =? 0 then
         match best with
         | None => Some v
         | Some w => if w <? v then Some v else Some w
         end
       else best)
  end.

(** 187-195 `twistl`. *)
Definition twist_prime (fuel : nat) (p t : Z) (V : list Z) : res (option Z) :=
  d <- divide_all fuel V (p + 1 + t) ;;
  if d =? 1 then Ok (largest V (p + 1 + t) None) else Ok None.
