(** * Model of the Python scripts in /repo/tools

    kalinski_inv.py and tonelli.py, read as Python 2 (tonelli.py uses `xrange`; `/` on
    integers rounds down).  Python integers are unbounded: Z.  `%` takes the sign of the
    divisor, as Z.modulo does; dividing by zero raises an exception ([Panic]).  `while`
    loops take fuel.  Functions that print return what they print, as numbers. *)

From Coq Require Import ZArith List Bool.
From Verif Require Import Machine.
Import ListNotations.
Open Scope Z_scope.

(** Python `a % n`, e.g. kalinski_inv.py 64, tonelli.py 21. *)
Definition pmod (a n : Z) : res Z := if n =? 0 then Panic else Ok (a mod n).
(** Python `pow(a, e, n)`: an exception for n = 0 and for negative exponents. *)
Definition ppow (a e n : Z) : res Z := if (n =? 0) || (e <? 0) then Panic else Ok ((a ^ e) mod n).

(** ** kalinski_inv.py *)

(** kalinski_inv.py 13-24 `fieldElement`: the five numbers put into the text. *)
Definition py_limbs (a : Z) : list Z :=
  let f0 := a mod 2 ^ 52 in
  let a := a / 2 ^ 52 in
  let f1 := a mod 2 ^ 52 in
  let a := a / 2 ^ 52 in
  let f2 := a mod 2 ^ 52 in
  let a := a / 2 ^ 52 in
  let f3 := a mod 2 ^ 52 in
  let a := a / 2 ^ 52 in
  let f4 := a mod 2 ^ 52 in
  [f0; f1; f2; f3; f4].

(** kalinski_inv.py 33-48: the loop of `AlmostMontInv`; returns r and k. *)
Fixpoint almost_loop (fuel : nat) (u v r s k : Z) : res (Z * Z) :=
  match fuel with
  | O => NoFuel
  | S fuel' =>
    if 0 <? v then
      if u mod 2 =? 0 then almost_loop fuel' (Z.shiftr u 1) v r (Z.shiftl s 1) (k + 1)
      else if v mod 2 =? 0 then almost_loop fuel' u (Z.shiftr v 1) (Z.shiftl r 1) s (k + 1)
      else if v <? u then almost_loop fuel' (Z.shiftr (u - v) 1) v (r + s) (Z.shiftl s 1) (k + 1)
      else almost_loop fuel' u (Z.shiftr (v - u) 1) (Z.shiftl r 1) (r + s) (k + 1)
    else Ok (r, k)
  end.

(** kalinski_inv.py 27-58 `AlmostMontInv`. *)
Definition almost_mont_inv (fuel : nat) (x p : Z) : res (Z * Z) :=
  '(r, k) <- almost_loop fuel p x 0 1 0 ;;
  let r := if p <? r then r - p else r in
  Ok (p - r, k).

(** kalinski_inv.py 61-69 `phase2`; [n] is the number of rounds left, the printing is left
    out.  The modulus p is the global variable of the script. *)
Fixpoint py_phase2_loop (n : nat) (p r : Z) : res Z :=
  match n with
  | O => Ok r
  | S n' =>
    if r mod 2 =? 0 then r <- pmod (Z.shiftr r 1) p ;; py_phase2_loop n' p r
    else py_phase2_loop n' p (Z.shiftr (r + p) 1)
  end.
(** kalinski_inv.py 61-69 `phase2`: `range(0, k-253)` is empty for k <= 253. *)
Definition py_phase2 (p r k : Z) : res Z := py_phase2_loop (Z.to_nat (k - 253)) p r.

(** kalinski_inv.py 73. *)
Definition py_p : Z := 7237005577332262213973186563042994240857116359379907606001950938285454250989.
(** kalinski_inv.py 76. *)
Definition py_a : Z := 904625697166532776746648320197686575422163851717637391703244652875051672039.

(** kalinski_inv.py 78-86 for an input [a] and a modulus [p]: the limbs of r, r, k, the limbs
    of p, and the limbs and value of the second `ainv`. *)
Definition py_kalinski (fuel : nat) (a p : Z) : res (list Z * Z * Z * list Z * list Z * Z) :=
  '(ainv, k) <- almost_mont_inv fuel a p ;;
  ainv2 <- py_phase2 p ainv k ;;
  Ok (py_limbs ainv, ainv, k, py_limbs p, py_limbs ainv2, ainv2).

(** ** tonelli.py *)

(** tonelli.py 1-10 `legendre_symbol`. *)
Definition py_legendre (a p : Z) : res Z :=
  ls <- ppow a ((p - 1) / 2) p ;;
  if ls =? p - 1 then Ok (-1) else Ok ls.

(** tonelli.py 40-42: factors of two out of q. *)
Fixpoint py_odd_loop (fuel : nat) (q s : Z) : res (Z * Z) :=
  match fuel with
  | O => NoFuel
  | S fuel' => if q mod 2 =? 0 then py_odd_loop fuel' (q / 2) (s + 1) else Ok (q, s)
  end.

(** tonelli.py 46-47: the first non-residue. *)
Fixpoint py_nonres_loop (fuel : nat) (z p : Z) : res Z :=
  match fuel with
  | O => NoFuel
  | S fuel' =>
    l <- py_legendre z p ;;
    if negb (l =? -1) then py_nonres_loop fuel' (z + 1) p else Ok z
  end.

(** tonelli.py 57-60: `for i in xrange(1, m)`; [n] values are left, the next one is [i];
    the result is the value of `i` afterwards (the previous one if none is left). *)
Fixpoint py_order_loop (n : nat) (t p prev i e : Z) : res Z :=
  match n with
  | O => Ok prev
  | S n' =>
    y <- ppow t e p ;;
    if y =? 1 then Ok i else py_order_loop n' t p i (i + 1) (e * 2)
  end.

(** tonelli.py 54-67; `2**(m - i - 1)` with a negative exponent is a float in Python and an
    exception in `pow`. *)
Fixpoint py_sqrt_loop (fuel : nat) (p x t c m : Z) : res Z :=
  match fuel with
  | O => NoFuel
  | S fuel' =>
    if negb (t =? 1) then
      i <- py_order_loop (Z.to_nat (m - 1)) t p 0 1 2 ;;
      _ <- rassert (0 <=? m - i - 1) ;;
      b <- ppow c (2 ^ (m - i - 1)) p ;;
      x <- pmod (x * b) p ;;
      t <- pmod (t * b * b) p ;;
      c <- pmod (b * b) p ;;
      py_sqrt_loop fuel' p x t c i
    else Ok x
  end.

(** tonelli.py 13-69 `prime_mod_sqrt`. *)
Definition prime_mod_sqrt (fuel : nat) (a p : Z) : res (list Z) :=
  a <- pmod a p ;;
  if a =? 0 then Ok [0]
  else if p =? 2 then Ok [a]
  else
    l <- py_legendre a p ;;
    if negb (l =? 1) then Ok []
    else if p mod 4 =? 3 then
      x <- ppow a ((p + 1) / 4) p ;;
      Ok [x; p - x]
    else
      '(q, s) <- py_odd_loop fuel (p - 1) 0 ;;
      z <- py_nonres_loop fuel 1 p ;;
      c <- ppow z q p ;;
      x <- ppow a ((q + 1) / 2) p ;;
      t <- ppow a q p ;;
      x <- py_sqrt_loop fuel p x t c s ;;
      Ok [x; p - x].

(** tonelli.py 71: the first argument of the call at the end. *)
Definition py_y : Z := 39450438318983875225554878125429420291626370862048309987484807859947766635845.
(** tonelli.py 72. *)
Definition py_l : Z := 7237005577332262213973186563042994240857116359379907606001950938285454250989.
