(** * Properties proved in ScriptStmt.v, restated (written by tools/genprops.py) *)

From Coq Require Import ZArith Znumtheory List Bool Lia.
From Verif Require Import Machine FieldModel Spec MachineFacts NumTheory Primes FieldLimb FieldMul FieldOps FieldBytes Fp FieldF FieldInv ToolsModel ToolsStmt FieldStmt ScriptModel Tonelli.
Import ListNotations.
Open Scope Z_scope.
From Verif Require Import ScriptStmt.

(** ** C88: The Kaliski inversion script for every odd modulus *)

(** For every odd modulus: the almost inverse d of x with its exponent k, which lies between
    the length of the modulus and the length of the product. *)
Theorem C88_almost : forall q x, 0 < q -> Z.odd q = true -> 0 <= x ->
  exists d k, 0 < d <= q /\ 0 <= k /\ (d * x) mod q = (Z.gcd q x * 2 ^ k) mod q /\
    q <= Z.gcd q x * 2 ^ k /\ (0 < x -> 2 ^ k <= 2 * (q * x)) /\
    forall fuel, Z.log2 q + Z.log2 x + 3 <= Z.of_nat fuel -> almost_mont_inv fuel x q = Ok (d, k).
Proof. exact C88_almost_stmt. Qed.
Print Assumptions C88_almost.

Theorem C88_phase2 : forall q r k, 0 < q -> Z.odd q = true -> 0 < r <= q ->
  exists y, py_phase2 q r k = Ok y /\ 0 < y <= q /\ (2 ^ Z.max 0 (k - 253) * y) mod q = r mod q.
Proof. exact C88_phase2_stmt. Qed.
Print Assumptions C88_phase2.

(** Both together, for every odd modulus above 2^252 and every unit: the inverse times
    2^253. *)
Theorem C88_inverse : forall q x, 2 ^ 252 < q -> Z.odd q = true -> 0 < x -> Z.gcd q x = 1 ->
  exists ainv k y, 253 <= k /\ 0 < y < q /\ (y * x) mod q = 2 ^ 253 mod q /\
  forall fuel, Z.log2 q + Z.log2 x + 3 <= Z.of_nat fuel ->
    py_kalinski fuel x q = Ok (py_limbs ainv, ainv, k, py_limbs q, py_limbs y, y).
Proof. exact C88_inverse_stmt. Qed.
Print Assumptions C88_inverse.

(** The modulus in the script is the field modulus; the last line it prints is not the
    inverse. *)
Theorem C88_modulus : py_p = p.
Proof. exact C88_modulus_stmt. Qed.
Print Assumptions C88_modulus.

Theorem C88_ainv_refuted : exists x k ainv y, 0 < x < py_p /\
  (forall fuel, 503 <= Z.of_nat fuel -> py_kalinski fuel x py_p = Ok (py_limbs ainv, ainv, k, py_limbs py_p, py_limbs y, y)) /\
  (y * x) mod py_p <> 1.
Proof. exact C88_ainv_refuted_stmt. Qed.
Print Assumptions C88_ainv_refuted.

(** The printed arrays are the limbs of the field element with that value. *)
Theorem C88_limbs : forall a, flimbs a -> py_limbs (fval a) = [f0 a; f1 a; f2 a; f3 a; f4 a].
Proof. exact C88_limbs_stmt. Qed.
Print Assumptions C88_limbs.

(** [phase1] inside the inversion of field elements returns the numbers of the script. *)
Theorem C88_agree : forall ck a, floadable a -> fval a mod p <> 0 ->
  exists d k, fcanon d /\ fe_phase1 ck a = Ok (d, k) /\
  forall fuel, 510 <= Z.of_nat fuel -> almost_mont_inv fuel (fval a) py_p = Ok (fval d, k).
Proof. exact C88_agree_stmt. Qed.
Print Assumptions C88_agree.

(** Concrete runs: modulo 15 (not prime), a unit and a non-unit; the script's own input is a unit. *)
Example C88_nonvacuous : almost_mont_inv 20 7 15 = Ok (7, 6) /\ (7 * 7) mod 15 = 2 ^ 6 mod 15 /\
  almost_mont_inv 20 6 15 = Ok (13, 4) /\ Z.gcd 15 6 = 3 /\ (13 * 6) mod 15 = (3 * 2 ^ 4) mod 15 /\
  Z.gcd py_p py_a = 1 /\ Z.log2 py_p + Z.log2 py_a + 3 = 503.
Proof. exact C88_ex. Qed.

(** ** C89: The Tonelli-Shanks script for every prime *)

(** For every prime q and every integer a, a square or not: the list returned has
    no repetition and holds exactly the square roots of a modulo q. *)
Theorem C89_sqrt : forall q a, prime q ->
  exists l, (forall fuel, q + Z.log2 q < Z.of_nat fuel -> prime_mod_sqrt fuel a q = Ok l) /\ NoDup l /\
    forall x, In x l <-> 0 <= x < q /\ (x * x) mod q = a mod q.
Proof. exact C89_sqrt_stmt. Qed.
Print Assumptions C89_sqrt.

(** The number of loop rounds is bounded by the logarithm of the modulus and the least
    non-residue. *)
Theorem C89_rounds : forall q a z, prime q -> 0 < z -> z ^ ((q - 1) / 2) mod q = q - 1 -> q <> 2 ->
  forall fuel, Z.log2 q + z < Z.of_nat fuel -> exists l, prime_mod_sqrt fuel a q = Ok l /\
    forall x, In x l <-> 0 <= x < q /\ (x * x) mod q = a mod q.
Proof. exact C89_rounds_stmt. Qed.
Print Assumptions C89_rounds.

Theorem C89_field : py_l = p /\ forall a fuel, 254 < Z.of_nat fuel -> exists l, prime_mod_sqrt fuel a py_l = Ok l /\
    forall x, In x l <-> 0 <= x < py_l /\ (x * x) mod py_l = a mod py_l.
Proof. exact C89_field_stmt. Qed.
Print Assumptions C89_field.

(** [mod_sqrt] of the crate agrees with it: a root it returns is in the list, and it returns
    none when the list is empty. *)
Theorem C89_agree : forall ck a sign fuel, fcanon a -> 254 < Z.of_nat fuel -> exists o l,
  fe_mod_sqrt ck a sign = Ok o /\ prime_mod_sqrt fuel (fval a) py_l = Ok l /\
  match o with Some r => fcanon r /\ In (fval r) l | None => l = [] end.
Proof. exact C89_agree_stmt. Qed.
Print Assumptions C89_agree.

(** For a composite modulus the answer can be wrong: 2 squares to 4 modulo 15. *)
Theorem C89_composite_refuted : exists a n x, 1 < n /\ 0 <= x < n /\ (x * x) mod n = a mod n /\
  forall fuel, prime_mod_sqrt fuel a n = Ok [].
Proof. exact C89_composite_refuted_stmt. Qed.
Print Assumptions C89_composite_refuted.

(** Small primes of both classes, and the call at the end of the script. *)
Example C89_nonvacuous : prime 17 /\ prime_mod_sqrt 25 2 17 = Ok [6; 11] /\ prime_mod_sqrt 25 3 17 = Ok [] /\
  prime 23 /\ prime_mod_sqrt 30 (-5) 23 = Ok [8; 15] /\
  forall fuel, 254 < Z.of_nat fuel -> exists l, prime_mod_sqrt fuel py_y py_l = Ok l /\ In 212143902466533654648692468339010321013769000075938027931554420146734895990 l.
Proof. exact C89_ex. Qed.
