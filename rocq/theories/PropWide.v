(** * Properties proved in WideStmt.v, restated (written by tools/genprops.py) *)

From Coq Require Import ZArith Znumtheory List Bool Lia.
From Verif Require Import Machine FieldModel ScalarModel Spec MachineFacts FieldLimb FieldMul FieldOps FieldBytes
  NumTheory Primes Fp FieldF FieldInv ScalarLimb ScalarOps ScalarBits FieldStmt ScalarStmt WideMul WidthStmt.
Import ListNotations.
Open Scope Z_scope.
From Verif Require Import WideStmt.

(** ** C99: Multiplication outside the reduced range *)

(** Any five limbs of 52 bits, on both sides. *)
Theorem C99_field_mul : forall ck a b, flimbs a -> flimbs b ->
  returns_field (fe_mul ck a b) (fval a * fval b).
Proof. exact C99_field_mul_stmt. Qed.
Print Assumptions C99_field_mul.

Theorem C99_field_square : forall ck a, flimbs a -> returns_field (fe_square ck a) (fval a * fval a).
Proof. exact C99_field_square_stmt. Qed.
Print Assumptions C99_field_square.

Theorem C99_field_half : forall ck a, flimbs a ->
  exists r, fe_half ck a = Ok r /\ fcanon r /\ (fval r + fval r) mod p = fval a mod p.
Proof. exact C99_field_half_stmt. Qed.
Print Assumptions C99_field_half.

Theorem C99_field_pow : forall ck a e, flimbs a -> flimbs e ->
  returns_field (fe_pow ck a e) (fval a ^ fval e).
Proof. exact C99_field_pow_stmt. Qed.
Print Assumptions C99_field_pow.

(** Montgomery multiplication keeps 52-bit limbs and the congruence. *)
Theorem C99_field_montgomery : forall ck a b, flimbs a -> flimbs b ->
  exists r, fe_montgomery_mul ck a b = Ok r /\ flimbs r /\
    (fval r * 2 ^ 260) mod p = (fval a * fval b) mod p.
Proof. exact C99_field_montgomery_stmt. Qed.
Print Assumptions C99_field_montgomery.

(** But its result need not be reduced. *)
Theorem C99_field_reduced_refuted : exists a r, flimbs a /\
  (forall ck, fe_montgomery_mul ck a a = Ok r) /\ p <= fval r.
Proof. exact C99_field_reduced_refuted_stmt. Qed.
Print Assumptions C99_field_reduced_refuted.

(** Limbs of 64 bits are too much: a panic with overflow checks, a wrong product without. *)
Theorem C99_field_limbs_refuted : exists a r,
  0 <= f0 a < 2 ^ 64 /\ f1 a = 0 /\ f2 a = 0 /\ f3 a = 0 /\ 0 <= f4 a < 2 ^ 64 /\
  fe_mul true a a = Panic /\ fe_mul false a a = Ok r /\ fval r mod p <> (fval a * fval a) mod p.
Proof. exact C99_field_limbs_refuted_stmt. Qed.
Print Assumptions C99_field_limbs_refuted.

Theorem C99_scalar_mul : forall ck a b, slimbs a -> slimbs b ->
  returns_scalar (sc_mul ck a b) (sval a * sval b).
Proof. exact C99_scalar_mul_stmt. Qed.
Print Assumptions C99_scalar_mul.

Theorem C99_scalar_square : forall ck a, slimbs a -> returns_scalar (sc_square ck a) (sval a * sval a).
Proof. exact C99_scalar_square_stmt. Qed.
Print Assumptions C99_scalar_square.

(** The base of a power may be any 52-bit limbs, the exponent has to be reduced. *)
Theorem C99_scalar_pow : forall ck a e, slimbs a -> scanon e ->
  returns_scalar (sc_pow ck a e) (sval a ^ sval e).
Proof. exact C99_scalar_pow_stmt. Qed.
Print Assumptions C99_scalar_pow.

(** 2 to the power 2L + 1 is 8, but comes out as 2: the halving of the odd branch takes 2L to 0. *)
Theorem C99_scalar_exponent_refuted : exists a e r, scanon a /\ sval a = 2 /\ slimbs e /\ sval e = 2 * L + 1 /\
  sval e < 2 ^ 256 /\ (forall ck, sc_pow ck a e = Ok r) /\ sval r = 2 /\ (sval a ^ sval e) mod L = 8.
Proof. exact C99_scalar_exponent_refuted_stmt. Qed.
Print Assumptions C99_scalar_exponent_refuted.

Theorem C99_scalar_montgomery : forall ck a b, slimbs a -> slimbs b ->
  exists r, sc_montgomery_mul ck a b = Ok r /\ slimbs r /\
    (sval r * 2 ^ 260) mod L = (sval a * sval b) mod L.
Proof. exact C99_scalar_montgomery_stmt. Qed.
Print Assumptions C99_scalar_montgomery.

Example C99_nonvacuous : let a := FE 4503599627370495 4503599627370495 4503599627370495 4503599627370495 4503599627370495 in
  let b := SC 4503599627370495 4503599627370495 4503599627370495 4503599627370495 4503599627370495 in
  flimbs a /\ fval a = 2 ^ 260 - 1 /\ p < fval a /\ slimbs b /\ sval b = 2 ^ 260 - 1 /\ L < sval b /\ scanon sc_minus_one.
Proof. exact C99_ex. Qed.

(** ** C100: mod_2_pow_k and mods_2_pow_k at every width *)

(** Below 64 the result is the residue modulo 2^min(k, 8). *)
Theorem C100_mod : forall ck a k, slimbs a -> 0 <= k < 64 ->
  sc_mod_2_pow_k ck a k = Ok (sval a mod 2 ^ Z.min k 8).
Proof. exact C100_mod_stmt. Qed.
Print Assumptions C100_mod.

(** From 64 on: a panic with overflow checks; without, the width counts modulo 64. *)
Theorem C100_mod_wide : forall a k, slimbs a -> 64 <= k <= 255 ->
  sc_mod_2_pow_k true a k = Panic /\ sc_mod_2_pow_k false a k = Ok (sval a mod 2 ^ Z.min (k mod 64) 8).
Proof. exact C100_mod_wide_stmt. Qed.
Print Assumptions C100_mod_wide.

(** Width 0: the documented panic happens with overflow checks only. *)
Theorem C100_mods_zero : forall a, slimbs a ->
  sc_mods_2_pow_k true a 0 = Panic /\ sc_mods_2_pow_k false a 0 = Ok (-1).
Proof. exact C100_mods_zero_stmt. Qed.
Print Assumptions C100_mods_zero.

(** Width 7 with overflow checks: right for the nonnegative digits, a panic for the negative ones. *)
Theorem C100_mods_seven : forall a, slimbs a ->
  (sval a mod 128 < 64 -> sc_mods_2_pow_k true a 7 = Ok (sval a mod 128)) /\
  (64 <= sval a mod 128 -> sc_mods_2_pow_k true a 7 = Panic).
Proof. exact C100_mods_seven_stmt. Qed.
Print Assumptions C100_mods_seven.

(** From width 8 on there is always a panic with overflow checks. *)
Theorem C100_mods_checked : forall a w, slimbs a -> 8 <= w <= 255 -> sc_mods_2_pow_k true a w = Panic.
Proof. exact C100_mods_checked_stmt. Qed.
Print Assumptions C100_mods_checked.

(** From width 32 on the assertion fails in both builds. *)
Theorem C100_mods_assert : forall ck a w, 32 <= w <= 255 -> sc_mods_2_pow_k ck a w = Panic.
Proof. exact C100_mods_assert_stmt. Qed.
Print Assumptions C100_mods_assert.

(** Widths 8, 16 and 24 without overflow checks: the signed residue of the predecessor. *)
Theorem C100_mods_eight : forall a w, slimbs a -> w = 8 \/ w = 16 \/ w = 24 ->
  exists r, sc_mods_2_pow_k false a w = Ok r /\ signed_residue 8 (sval a - 1) r.
Proof. exact C100_mods_eight_stmt. Qed.
Print Assumptions C100_mods_eight.

(** The other widths below 32 without overflow checks: the signed residue modulo 256, lowered by
    2^(w mod 8) when it is at least 2^(w mod 8 - 1). *)
Theorem C100_mods_wide : forall a w, slimbs a -> 9 <= w <= 31 -> w mod 8 <> 0 ->
  exists m, signed_residue 8 (sval a) m /\
    (m < 2 ^ (w mod 8 - 1) -> sc_mods_2_pow_k false a w = Ok m) /\
    (2 ^ (w mod 8 - 1) <= m -> sc_mods_2_pow_k false a w = Ok (m - 2 ^ (w mod 8))).
Proof. exact C100_mods_wide_stmt. Qed.
Print Assumptions C100_mods_wide.

(** The documentation of `mod_2_pow_k` promises a panic above 32 bits. *)
Theorem C100_doc_refuted : exists a k, scanon a /\ 32 < k <= 255 /\
  forall ck, sc_mod_2_pow_k ck a k = Ok 5.
Proof. exact C100_doc_refuted_stmt. Qed.
Print Assumptions C100_doc_refuted.

Example C100_nonvacuous : slimbs sc_minus_one /\ sc_mod_2_pow_k false sc_minus_one 70 = Ok 34 /\
  sc_mods_2_pow_k false sc_minus_one 8 = Ok 97 /\ sc_mods_2_pow_k false sc_minus_one 9 = Ok 96 /\ 9 mod 8 <> 0.
Proof. exact C100_ex. Qed.
