(** * Properties proved in SageStmt.v, restated (written by tools/genprops.py) *)

From Coq Require Import ZArith Znumtheory Zpow_facts List Bool Field Field_theory Lia.
From Verif Require Import Machine MachineFacts NumTheory Spec Primes Fp FieldInv ScriptModel Tonelli SageModel.
Import ListNotations.
Open Scope Z_scope.
From Verif Require Import SageStmt.

(** ** C96: The general programs of sage_codes *)

(** [egcd] ends for all integers and returns Bezout coefficients; what it calls the greatest
    common divisor carries the sign of its first argument. *)
Theorem C96_egcd : forall a b, exists g x y,
  (forall fuel, 2 * Z.log2 (Z.abs a) + 3 <= Z.of_nat fuel -> egcd fuel a b = Ok (g, x, y)) /\ a * x + b * y = g /\
  (0 < a -> g = Z.gcd a b) /\ (a < 0 -> g = - Z.gcd a b) /\ (a = 0 -> g = b).
Proof. exact C96_egcd_stmt. Qed.
Print Assumptions C96_egcd.

(** [modinv] inverts every nonnegative unit, raises for every other nonnegative number and
    raises for every negative number. *)
Theorem C96_modinv : forall a m fuel, 0 < m -> 2 * Z.log2 (Z.abs a) + 3 <= Z.of_nat fuel ->
  (0 <= a -> Z.gcd a m = 1 -> exists x, modinv fuel a m = Ok x /\ 0 <= x < m /\ (a * x) mod m = 1 mod m) /\
  (0 <= a -> Z.gcd a m <> 1 -> modinv fuel a m = Panic) /\
  (a < 0 -> modinv fuel a m = Panic).
Proof. exact C96_modinv_stmt. Qed.
Print Assumptions C96_modinv.

(** Not every number with an inverse is inverted. *)
Theorem C96_modinv_refuted : exists a m x, 1 < m /\ (a * x) mod m = 1 /\ forall fuel, 3 <= Z.of_nat fuel -> modinv fuel a m = Panic.
Proof. exact C96_modinv_refuted_stmt. Qed.
Print Assumptions C96_modinv_refuted.

(** The visible part of `modular_sqrt` ends for every odd prime and every number, and the
    result is a root exactly when there is one. *)
Theorem C96_sqrt : forall q a, prime q -> Z.odd q = true -> exists y, 0 <= y < q /\
  ((y * y) mod q = a mod q <-> exists x, (x * x) mod q = a mod q) /\
  forall fuel, q + Z.log2 q < Z.of_nat fuel -> sage_sqrt fuel a q = Ok y.
Proof. exact C96_sqrt_stmt. Qed.
Print Assumptions C96_sqrt.

(** The session that turns a Montgomery curve into a Weierstrass curve: with b_m = 1 the
    square it computes is the right-hand side of the Montgomery equation. *)
Theorem C96_weierstrass : forall q a x fuel, prime q -> 3 < q -> 20 <= Z.of_nat fuel ->
  exists aw bw xw y2, sage_weierstrass fuel q a 1 x = Ok (aw, bw, xw, y2) /\
    (3 * aw) mod q = (3 - a ^ 2) mod q /\ (27 * bw) mod q = (2 * a ^ 3 - 9 * a) mod q /\ (3 * xw) mod q = (3 * x + a) mod q /\
    y2 mod q = (x ^ 3 + a * x ^ 2 + x) mod q.
Proof. exact C96_weierstrass_stmt. Qed.
Print Assumptions C96_weierstrass.

(** With another b_m it ignores the coefficient: a point of the Montgomery curve whose
    abscissa is sent to one that belongs to no point. *)
Theorem C96_weierstrass_refuted : exists q a b x v, prime q /\ 3 < q /\ (b * v ^ 2) mod q = (x ^ 3 + a * x ^ 2 + x) mod q /\
  (b * (a ^ 2 - 4)) mod q <> 0 /\
  exists aw bw xw y2, sage_weierstrass 20 q a b x = Ok (aw, bw, xw, y2) /\ forall y, (y ^ 2) mod q <> y2.
Proof. exact C96_weierstrass_refuted_stmt. Qed.
Print Assumptions C96_weierstrass_refuted.

(** What the search for the coefficient skips: candidates for which A^2 - 4 is a square and
    A + 2 is a nonzero square. *)
Theorem C96_derivation : forall is_square q i, prime q -> Z.odd q = true ->
  (forall x, is_square x = true <-> exists y, (y * y) mod q = x mod q) ->
  exists b, derivation_skips is_square q (get_A i) = Ok b /\
    (b = true <-> (exists y, (y * y) mod q = ((get_A i) ^ 2 - 4) mod q) /\ (get_A i + 2) mod q <> 0 /\ exists y, (y * y) mod q = (get_A i + 2) mod q).
Proof. exact C96_derivation_stmt. Qed.
Print Assumptions C96_derivation.

(** The condition lets coefficients through for which A^2 - 4 is a square, which the comment
    above it excludes: A = 30 over the field of the crate. *)
Theorem C96_derivation_refuted : exists i, (exists y, (y * y) mod p = ((get_A i) ^ 2 - 4) mod p /\ y mod p <> 0) /\
  forall is_square, (forall x, is_square x = true <-> exists y, (y * y) mod p = x mod p) -> derivation_skips is_square p (get_A i) = Ok false.
Proof. exact C96_derivation_refuted_stmt. Qed.
Print Assumptions C96_derivation_refuted.

(** The conversions of the verifier over every field in which two and three are not zero:
    a point of an Edwards curve goes to a point of its Montgomery curve, different points to
    different points, and the Montgomery curve is not singular. *)
Theorem C96_edwards : forall (K : Type) (o : fops K), is_field o -> k2 o <> f0 o ->
  (forall d x y, d <> f1 o -> x <> f0 o -> y <> f1 o -> edwards_level o d x y = f0 o ->
    mont_level o (edwards_A o d) (edwards_B o d) (fst (edwards_point o x y)) (snd (edwards_point o x y)) = f0 o) /\
  (forall d x y x' y', d <> f1 o -> x <> f0 o -> y <> f1 o -> x' <> f0 o -> y' <> f1 o ->
    edwards_level o d x y = f0 o -> edwards_level o d x' y' = f0 o -> edwards_point o x y = edwards_point o x' y' -> x = x' /\ y = y') /\
  (forall d, edwards_elliptic o d <> f0 o <-> d <> f0 o /\ d <> f1 o) /\
  (forall d, edwards_elliptic o d <> f0 o -> edwards_B o d <> f0 o /\ mont_elliptic o (edwards_A o d) (edwards_B o d) <> f0 o).
Proof. exact C96_edwards_stmt. Qed.
Print Assumptions C96_edwards.

(** A Montgomery curve and its short Weierstrass curve: the same points, different points to
    different points, singular together. *)
Theorem C96_montgomery : forall (K : Type) (o : fops K), is_field o -> k3 o <> f0 o -> forall A B, B <> f0 o ->
  (forall x y, shortw_level o (mont_a o A B) (mont_b o A B) (fst (mont_point o A B x y)) (snd (mont_point o A B x y)) = f0 o <-> mont_level o A B x y = f0 o) /\
  (forall x y x' y', mont_point o A B x y = mont_point o A B x' y' -> x = x' /\ y = y') /\
  (shortw_elliptic o (mont_a o A B) (mont_b o A B) <> f0 o <-> mont_elliptic o A B <> f0 o).
Proof. exact C96_montgomery_stmt. Qed.
Print Assumptions C96_montgomery.

(** The ladder condition holds for every Montgomery curve. *)
Theorem C96_ladder : forall (K : Type) (o : fops K), is_field o -> k3 o <> f0 o -> forall A B, B <> f0 o -> montladder o (mont_a o A B) (mont_b o A B).
Proof. exact C96_ladder_stmt. Qed.
Print Assumptions C96_ladder.

Example C96_nonvacuous :
  egcd 12 240 46 = Ok (2, -9, 47) /\ modinv 7 10 7 = Ok 5 /\ modinv 9 6 9 = Panic /\
  prime 17 /\ Z.odd 17 = true /\ sage_sqrt 30 2 17 = Ok 6 /\
  (* What the two sessions print (104-115). *)
  (let q := 2 ^ 255 - 19 in let y := 14781619447589544791020593568409986887264606134616475288964881837755586237401 in
   sage_weierstrass 20 q 486662 1 9 = Ok (19298681539552699237261830834781317975544997444273427339909597334573241639236,
     55751746669818908907645289078257140818241103727901012315294400837956729358436,
     19298681539552699237261830834781317975544997444273427339909597334652188435546, (y * y) mod q)) /\
  prime p /\ 3 < p /\
  sage_weierstrass 20 p 346598 1 17 = Ok (2412335192444087404657728854347664746952372119793302535333983646055108025796,
    1340186218024493002587627141304258192751317844329612519629993998710484804961,
    2412335192444087404657728854347664746952372119793302535333983646095151532546, 100171752) /\
  (* A field, an Edwards curve and a point as the conversions ask for. *)
  (let o := FOps F (toF 0) (toF 1) Fp.fadd Fp.fmul Fp.fsub Fp.fopp Fp.fdiv Fp.finv in
   let d := toF 4824670384888174809315457708695329493904744239586605070667967292190302833993 in
   is_field o /\ k2 o <> f0 o /\ k3 o <> f0 o /\ edwards_elliptic o d <> f0 o /\ d <> f1 o /\
   toF 2 <> f0 o /\ toF 3 <> f1 o /\ edwards_level o d (toF 2) (toF 3) = f0 o).
Proof. exact C96_ex. Qed.
