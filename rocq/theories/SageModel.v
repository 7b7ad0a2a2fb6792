(** * The general programs of sage_codes

    sage_codes/sage_weierstrass_code, sage_codes/curve_derivation and the conversions
    between curve shapes in "sage_codes/Safe Curve code".  Integers of Python are Z with
    floor division; an exception is [Panic].  The conversions run in an arbitrary field. *)

From Coq Require Import ZArith List Bool Field_theory.
From Verif Require Import Machine ScriptModel.
Import ListNotations.
Open Scope Z_scope.

(** ** sage_weierstrass_code *)

(** sage_weierstrass_code 1-6 `egcd`; [fuel] bounds the depth of the recursion. *)
Fixpoint egcd (fuel : nat) (a b : Z) : res (Z * Z * Z) :=
  match fuel with
  | O => NoFuel
  | S fuel' =>
    if a =? 0 then Ok (b, 0, 1)
    else
      '(g, y, x) <- egcd fuel' (b mod a) a ;;
      Ok (g, x - (b / a) * y, y)
  end.

(** sage_weierstrass_code 8-13 `modinv`. *)
Definition modinv (fuel : nat) (a m : Z) : res Z :=
  '(g, x, _) <- egcd fuel a m ;;
  if negb (g =? 1) then Panic else pmod x m.

(** sage_weierstrass_code 54-58: `for m in xrange(r)`; [n] values are left, the next one is
    [i]; the result is `m` afterwards. *)
Fixpoint sage_order_loop (n : nat) (t p prev i : Z) : res Z :=
  match n with
  | O => Ok prev
  | S n' =>
    if t =? 1 then Ok i
    else t <- ppow t 2 p ;; sage_order_loop n' t p i (i + 1)
  end.

(** sage_weierstrass_code 53-68. *)
Fixpoint sage_sqrt_loop (fuel : nat) (p x b g r : Z) : res Z :=
  match fuel with
  | O => NoFuel
  | S fuel' =>
    m <- sage_order_loop (Z.to_nat r) b p 0 0 ;;
    if m =? 0 then Ok x
    else
      gs <- ppow g (2 ^ (r - m - 1)) p ;;
      g <- pmod (gs * gs) p ;;
      x <- pmod (x * gs) p ;;
      b <- pmod (b * g) p ;;
      sage_sqrt_loop fuel' p x b g m
  end.

(** sage_weierstrass_code 17-68: what the transcript shows of `modular_sqrt`; the lines
    before, which end in the case of primes that are three modulo four, were lost.  The
    loops of 21-23 and 31-32 and `legendre_symbol` (71-81) read as in tonelli.py. *)
Definition sage_sqrt (fuel : nat) (a p : Z) : res Z :=
  '(s, e) <- py_odd_loop fuel (p - 1) 0 ;;
  n <- py_nonres_loop fuel 2 p ;;
  x <- ppow a ((s + 1) / 2) p ;;
  b <- ppow a s p ;;
  g <- ppow n s p ;;
  sage_sqrt_loop fuel p x b g e.

(** sage_weierstrass_code 86-99 and 122-138: the coefficients, the abscissa and the square
    of the ordinate; [x] is the abscissa on the Montgomery curve. *)
Definition sage_weierstrass (fuel : nat) (p a_m b_m x : Z) : res (Z * Z * Z * Z) :=
  da <- modinv fuel (3 * b_m ^ 2) p ;;
  a_w <- pmod ((3 - a_m ^ 2) * da) p ;;
  db <- modinv fuel (27 * b_m ^ 3) p ;;
  b_w <- pmod ((2 * a_m ^ 3 - 9 * a_m) * db) p ;;
  i3 <- modinv fuel 3 p ;;
  x <- pmod (x + a_m * i3) p ;;
  y2 <- pmod (x ^ 3 + a_w * x + b_w) p ;;
  Ok (a_w, b_w, x, y2).

(** ** curve_derivation *)

(** curve_derivation 8-9 `get_A`. *)
Definition get_A (n : Z) : Z := n * 4 + 2.

(** curve_derivation 19: the condition of the `continue`, with [is_square] for the method
    of Sage.  (`&&` is read as `and`.) *)
Definition derivation_skips (is_square : Z -> bool) (q A : Z) : res bool :=
  l <- py_legendre (A + 2) q ;;
  Ok (is_square (A ^ 2 - 4) && (l =? 1)).

(** ** Shapes of curves *)

(** The operations of the field `k` of "Safe Curve code" (k = GF(p), line 54); no source
    counterpart of its own. *)
Record fops (K : Type) : Type := FOps {
  f0 : K; f1 : K; fadd : K -> K -> K; fmul : K -> K -> K; fsub : K -> K -> K; fopp : K -> K;
  fdiv : K -> K -> K; finv : K -> K }.
Arguments f0 {K}. Arguments f1 {K}. Arguments fadd {K}. Arguments fmul {K}.
Arguments fsub {K}. Arguments fopp {K}. Arguments fdiv {K}. Arguments finv {K}.
(** The laws of a field (Coq's [field_theory]); no source counterpart. *)
Definition is_field {K : Type} (o : fops K) : Prop :=
  field_theory (f0 o) (f1 o) (fadd o) (fmul o) (fsub o) (fopp o) (fdiv o) (finv o) eq.

Section Shapes.
Context {K : Type} (o : fops K).
Let add := fadd o.
Let mul := fmul o.
Let sub := fsub o.
Let div := fdiv o.
(** Small integers in the field, as Sage coerces them. *)
Definition k2 : K := add (f1 o) (f1 o).
(** As [k2]. *)
Definition k3 : K := add k2 (f1 o).
(** As [k2]. *)
Definition k4 : K := add k2 k2.
(** As [k2]. *)
Definition k9 : K := mul k3 k3.
(** As [k2]. *)
Definition k27 : K := mul k9 k3.
(** Powers `^2` and `^3`. *)
Definition sqr (x : K) : K := mul x x.
(** As [sqr]. *)
Definition cube (x : K) : K := mul x (mul x x).

(** Safe Curve code 270. *)
Definition edwards_elliptic (d : K) : K := mul d (sub (f1 o) d).
(** Safe Curve code 271-272. *)
Definition edwards_level (d x y : K) : K :=
  sub (sub (add (sqr x) (sqr y)) (f1 o)) (mul (mul d (sqr x)) (sqr y)).
(** Safe Curve code 285. *)
Definition mont_elliptic (A B : K) : K := mul B (sub (sqr A) k4).
(** Safe Curve code 286-287. *)
Definition mont_level (A B x y : K) : K :=
  sub (sub (sub (mul B (sqr y)) (cube x)) (mul A (sqr x))) x.
(** Safe Curve code 297. *)
Definition shortw_elliptic (a b : K) : K := add (mul k4 (cube a)) (mul k27 (sqr b)).
(** Safe Curve code 298-299. *)
Definition shortw_level (a b x y : K) : K := sub (sub (sub (sqr y) (cube x)) (mul a x)) b.

(** Safe Curve code 307-308. *)
Definition edwards_A (d : K) : K := div (mul k2 (add (f1 o) d)) (sub (f1 o) d).
(** Safe Curve code 308. *)
Definition edwards_B (d : K) : K := div k4 (sub (f1 o) d).
(** Safe Curve code 309-310. *)
Definition edwards_point (x y : K) : K * K :=
  let u := div (add (f1 o) y) (sub (f1 o) y) in (u, div u x).
(** Safe Curve code 314. *)
Definition mont_a (A B : K) : K := div (sub k3 (sqr A)) (mul k3 (sqr B)).
(** Safe Curve code 315. *)
Definition mont_b (A B : K) : K := div (sub (mul k2 (cube A)) (mul k9 A)) (mul k27 (cube B)).
(** Safe Curve code 316-317. *)
Definition mont_point (A B x y : K) : K * K := (div (add x (div A k3)) B, div y B).

(** Safe Curve code 350-353: some root [r] of the cubic has a square derivative. *)
Definition montladder (a b : K) : Prop :=
  exists r s, add (add (cube r) (mul a r)) b = f0 o /\ add (mul k3 (sqr r)) a = sqr s.
End Shapes.
