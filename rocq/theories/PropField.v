(** * Properties proved in FieldStmt.v, restated (written by tools/genprops.py) *)

From Coq Require Import ZArith Znumtheory List Bool Lia Ring Field.
From Verif Require Import Machine FieldModel ScalarModel Spec MachineFacts FieldLimb FieldMul FieldOps FieldBytes
  NumTheory Primes Fp FieldF FieldInv ScalarOps ScalarBits.
Import ListNotations.
Open Scope Z_scope.
From Verif Require Import FieldStmt.

(** ** C01: Field addition, subtraction and negation are exact *)

Theorem C01_add : forall ck a b, fcanon a -> fcanon b ->
  returns_field (fe_add ck a b) (fval a + fval b).
Proof. exact C01_add_stmt. Qed.
Print Assumptions C01_add.

Theorem C01_sub : forall ck a b, fcanon a -> fcanon b ->
  returns_field (fe_sub ck a b) (fval a - fval b).
Proof. exact C01_sub_stmt. Qed.
Print Assumptions C01_sub.

Theorem C01_neg : forall ck a, fcanon a -> returns_field (fe_neg ck a) (- fval a).
Proof. exact C01_neg_stmt. Qed.
Print Assumptions C01_neg.

Example C01_nonvacuous :
  fcanon EDWARDS_D /\ fcanon fe_minus_one /\
  fe_add true EDWARDS_D fe_minus_one
  = Ok (FE 3304133203739794 2446467598308289 1534112949566882 2032729967918914 2313225441931) /\
  fe_sub true fe_zero fe_one = Ok fe_minus_one /\ fe_neg true fe_zero = Ok fe_zero.
Proof. exact C01_ex. Qed.

(** ** C02: Field multiplication and squaring are exact *)

Theorem C02_mul : forall ck a b, floadable a -> floadable b ->
  returns_field (fe_mul ck a b) (fval a * fval b).
Proof. exact C02_mul_stmt. Qed.
Print Assumptions C02_mul.

Theorem C02_square : forall ck a, floadable a ->
  returns_field (fe_square ck a) (fval a * fval a).
Proof. exact C02_square_stmt. Qed.
Print Assumptions C02_square.

Example C02_nonvacuous : floadable max_loadable /\ fval max_loadable = 2 ^ 256 - 1 /\ ~ fcanon max_loadable.
Proof. exact C02_ex. Qed.

(** ** C03: Field inversion always terminates and is correct *)

Theorem C03_inverse : forall ck a, floadable a -> fval a mod p <> 0 ->
  exists r, fe_inverse ck a = Ok r /\ fcanon r /\ (fval a * fval r) mod p = 1.
Proof. exact C03_inverse_stmt. Qed.
Print Assumptions C03_inverse.

Theorem C03_inverse_zero : forall ck, fe_inverse ck fe_zero = Panic.
Proof. exact C03_inverse_zero_stmt. Qed.
Print Assumptions C03_inverse_zero.

(** The unreduced zero p is not recognised: the call returns 0 instead of panicking. *)
Theorem C03_inverse_p : forall ck, fe_inverse ck FIELD_L = Ok fe_zero.
Proof. exact C03_inverse_p_stmt. Qed.
Print Assumptions C03_inverse_p.

Example C03_nonvacuous : floadable max_loadable /\ fval max_loadable mod p <> 0 /\
  fcanon fe_minus_one /\ fval fe_minus_one mod p <> 0.
Proof. exact C03_ex. Qed.

(** ** C04: Division is multiplication by the inverse and panics exactly on zero divisors *)

Theorem C04_div : forall ck a b, fcanon a -> fcanon b -> fval b <> 0 ->
  exists q, fe_div ck a b = Ok q /\ fe_div_val ck a b = Ok q /\ fcanon q /\
    (fval q * fval b) mod p = fval a.
Proof. exact C04_div_stmt. Qed.
Print Assumptions C04_div.

Theorem C04_div_zero : forall ck a, fe_div ck a fe_zero = Panic /\ fe_div_val ck a fe_zero = Panic.
Proof. exact C04_div_zero_stmt. Qed.
Print Assumptions C04_div_zero.

Example C04_nonvacuous : fcanon fe_one /\ fcanon EDWARDS_D /\ fval EDWARDS_D <> 0.
Proof. exact C04_ex. Qed.

(** ** C05: Halving is exact *)

Theorem C05_half : forall ck a, floadable a ->
  exists r, fe_half ck a = Ok r /\ fcanon r /\ (fval r + fval r) mod p = fval a mod p.
Proof. exact C05_half_stmt. Qed.
Print Assumptions C05_half.

Theorem C05_half_without_mod : forall a, flimbs a ->
  flimbs (fe_half_without_mod a) /\ fval (fe_half_without_mod a) = fval a / 2.
Proof. exact C05_half_without_mod_stmt. Qed.
Print Assumptions C05_half_without_mod.

(** Documentation: "half_without_mod panics on odd elements".  It floors. *)
Theorem C05_odd_panics_refuted :
  exists a, fcanon a /\ Z.odd (fval a) = true /\ fval (fe_half_without_mod a) + fval (fe_half_without_mod a) <> fval a.
Proof. exact C05_odd_panics_refuted_stmt. Qed.
Print Assumptions C05_odd_panics_refuted.

Example C05_nonvacuous : floadable max_loadable /\ flimbs max_loadable /\ floadable (FE 6 0 0 0 0) /\
  fe_half_without_mod (FE 6 0 0 0 1) = FE 3 0 0 2251799813685248 0.
Proof. exact C05_ex. Qed.

(** ** C06: Field exponentiation terminates and is exact *)

Theorem C06_pow : forall ck a e, floadable a -> flimbs e ->
  returns_field (fe_pow ck a e) (fval a ^ fval e).
Proof. exact C06_pow_stmt. Qed.
Print Assumptions C06_pow.

Example C06_nonvacuous : floadable max_loadable /\ flimbs max_loadable /\
  fe_pow true (FE 3 0 0 0 0) (FE 5 0 0 0 0) = Ok (FE 243 0 0 0 0) /\
  fe_pow true (FE 3 0 0 0 0) fe_zero = Ok fe_one.
Proof. exact C06_ex. Qed.

(** ** C07: legendre_symbol decides quadratic residuosity *)

Theorem C07_legendre : forall ck a, floadable a ->
  exists b, fe_legendre_symbol ck a = Ok b /\ (b = true <-> square_mod_p (fval a)).
Proof. exact C07_legendre_stmt. Qed.
Print Assumptions C07_legendre.

Example C07_nonvacuous : floadable (FE 9 0 0 0 0) /\ square_mod_p 9 /\ floadable (FE 6 0 0 0 0) /\ ~ square_mod_p 6.
Proof. exact C07_ex. Qed.

(** ** C08: mod_sqrt finds a root exactly when one exists *)

Theorem C08_mod_sqrt : forall ck a sign, fcanon a ->
  (square_mod_p (fval a) ->
     exists r, fe_mod_sqrt ck a sign = Ok (Some r) /\ fcanon r /\ (fval r * fval r) mod p = fval a) /\
  (~ square_mod_p (fval a) -> fe_mod_sqrt ck a sign = Ok None).
Proof. exact C08_mod_sqrt_stmt. Qed.
Print Assumptions C08_mod_sqrt.

Theorem C08_signs : forall ck a r0 r1, fcanon a ->
  fe_mod_sqrt ck a false = Ok (Some r0) -> fe_mod_sqrt ck a true = Ok (Some r1) ->
  (fval r0 + fval r1) mod p = 0.
Proof. exact C08_signs_stmt. Qed.
Print Assumptions C08_signs.

Example C08_nonvacuous : fcanon (FE 16 0 0 0 0) /\ square_mod_p (fval (FE 16 0 0 0 0)) /\
  fcanon (FE 6 0 0 0 0) /\ ~ square_mod_p (fval (FE 6 0 0 0 0)).
Proof. exact C08_ex. Qed.

(** ** C09: The sign argument of mod_sqrt selects the documented sign *)

(** Choice(1) is documented to give the positive root, Choice(0) the negative
    one.  For 1 it is the other way round, for 16 it is as documented: no fixed
    sign convention holds. *)
Theorem C09_sign_refuted :
  exists a b r s, fcanon a /\ fcanon b /\
    (forall ck, fe_mod_sqrt ck a true = Ok (Some r)) /\ (p - 1) / 2 < fval r < p /\
    (forall ck, fe_mod_sqrt ck b true = Ok (Some s)) /\ 0 < fval s <= (p - 1) / 2.
Proof. exact C09_sign_refuted_stmt. Qed.
Print Assumptions C09_sign_refuted.

(** ** C10: sqrt_ratio_i and inv_sqrt satisfy their four-case contract *)

Theorem C10_sqrt_ratio_i : forall ck u v, fcanon u -> fcanon v ->
  exists s r, fe_sqrt_ratio_i ck u v = Ok (s, r) /\ fnonneg r /\
    (fval u = 0 -> s = true /\ fval r = 0) /\
    (fval u <> 0 -> fval v = 0 -> s = false /\ fval r = 0) /\
    (fval u <> 0 -> fval v <> 0 ->
       (exists w, (fval v * w ^ 2) mod p = fval u) ->
       s = true /\ (fval v * fval r ^ 2) mod p = fval u) /\
    (fval u <> 0 -> fval v <> 0 ->
       ~ (exists w, (fval v * w ^ 2) mod p = fval u) ->
       s = false /\ (fval v * fval r ^ 2) mod p = (fval SQRT_MINUS_ONE * fval u) mod p).
Proof. exact C10_sqrt_ratio_i_stmt. Qed.
Print Assumptions C10_sqrt_ratio_i.

Theorem C10_inv_sqrt : forall ck v, fcanon v ->
  exists s r, fe_inv_sqrt ck v = Ok (s, r) /\ fnonneg r /\
    (fval v = 0 -> s = false /\ fval r = 0) /\
    (fval v <> 0 -> square_mod_p (fval v) -> s = true /\ (fval v * fval r ^ 2) mod p = 1) /\
    (~ square_mod_p (fval v) -> s = false /\ (fval v * fval r ^ 2) mod p = fval SQRT_MINUS_ONE).
Proof. exact C10_inv_sqrt_stmt. Qed.
Print Assumptions C10_inv_sqrt.

Example C10_nonvacuous : fcanon fe_one /\ fcanon (FE 4 0 0 0 0) /\
  (exists w, (4 * w ^ 2) mod p = 1) /\ fcanon (FE 6 0 0 0 0) /\ ~ square_mod_p 6.
Proof. exact C10_ex. Qed.

(** ** C11: Field byte encoding round-trips *)

Theorem C11_from_bytes : forall b, is_bytes 32 b ->
  floadable (fe_from_bytes b) /\ fval (fe_from_bytes b) = le_value b.
Proof. exact C11_from_bytes_stmt. Qed.
Print Assumptions C11_from_bytes.

Theorem C11_to_bytes : forall a, floadable a ->
  is_bytes 32 (fe_to_bytes a) /\ le_value (fe_to_bytes a) = fval a.
Proof. exact C11_to_bytes_stmt. Qed.
Print Assumptions C11_to_bytes.

Theorem C11_roundtrip :
  (forall b, is_bytes 32 b -> fe_to_bytes (fe_from_bytes b) = b) /\
  (forall a, floadable a -> fe_from_bytes (fe_to_bytes a) = a).
Proof. exact C11_roundtrip_stmt. Qed.
Print Assumptions C11_roundtrip.

Example C11_nonvacuous : is_bytes 32 (repeat 255 32) /\ le_value (repeat 255 32) = 2 ^ 256 - 1 /\
  fe_from_bytes (repeat 255 32) = max_loadable.
Proof. exact C11_ex. Qed.

(** ** C12: Ordering and sign of field elements *)

Theorem C12_cmp : forall a b, flimbs a -> flimbs b -> fe_cmp a b = Z.compare (fval a) (fval b).
Proof. exact C12_cmp_stmt. Qed.
Print Assumptions C12_cmp.

Theorem C12_is_positive : forall a, flimbs a ->
  (fe_is_positive a = true <-> fval a <= (p - 1) / 2).
Proof. exact C12_is_positive_stmt. Qed.
Print Assumptions C12_is_positive.

Theorem C12_one_positive : forall ck a n, fcanon a -> fval a <> 0 -> fe_neg ck a = Ok n ->
  fe_is_positive n = negb (fe_is_positive a).
Proof. exact C12_one_positive_stmt. Qed.
Print Assumptions C12_one_positive.

Example C12_nonvacuous : flimbs max_loadable /\ flimbs FIELD_L /\ fe_cmp max_loadable FIELD_L = Gt /\
  fe_is_positive fe_one = true /\ fcanon fe_one /\ fval fe_one <> 0 /\ fe_neg true fe_one = Ok fe_minus_one.
Proof. exact C12_ex. Qed.

(** ** C13: Field equality *)

Theorem C13_eq : forall a b, floadable a -> floadable b ->
  (fe_eqb a b = true <-> fval a = fval b).
Proof. exact C13_eq_stmt. Qed.
Print Assumptions C13_eq.

Theorem C13_eq_mod : forall a b, fcanon a -> fcanon b ->
  (fe_eqb a b = true <-> fval a mod p = fval b mod p).
Proof. exact C13_eq_mod_stmt. Qed.
Print Assumptions C13_eq_mod.

(** Documentation: equality modulo p for all representations. *)
Theorem C13_unreduced_refuted : exists a b, floadable a /\ floadable b /\
  fval a mod p = fval b mod p /\ fe_eqb a b = false.
Proof. exact C13_unreduced_refuted_stmt. Qed.
Print Assumptions C13_unreduced_refuted.

Example C13_nonvacuous : floadable max_loadable /\ floadable fe_one /\ fe_eqb max_loadable fe_one = false /\
  fcanon fe_one /\ fcanon EDWARDS_D.
Proof. exact C13_ex. Qed.

(** ** C14: Integer conversions into the field are exact *)

Theorem C14_from_int :
  (forall x, 0 <= x < 2 ^ 8 -> fcanon (fe_from_u8 x) /\ fval (fe_from_u8 x) = x) /\
  (forall x, 0 <= x < 2 ^ 16 -> fcanon (fe_from_u16 x) /\ fval (fe_from_u16 x) = x) /\
  (forall x, 0 <= x < 2 ^ 32 -> fcanon (fe_from_u32 x) /\ fval (fe_from_u32 x) = x) /\
  (forall x, 0 <= x < 2 ^ 64 -> fcanon (fe_from_u64 x) /\ fval (fe_from_u64 x) = x) /\
  (forall x, 0 <= x < 2 ^ 128 -> fcanon (fe_from_u128 x) /\ fval (fe_from_u128 x) = x).
Proof. exact C14_from_int_stmt. Qed.
Print Assumptions C14_from_int.

Theorem C14_two_pow_k : forall ck k, 0 <= k ->
  (k <= 252 -> exists r, fe_two_pow_k ck k = Ok r /\ fcanon r /\ fval r = 2 ^ k) /\
  (252 < k -> fe_two_pow_k ck k = Panic).
Proof. exact C14_two_pow_k_stmt. Qed.
Print Assumptions C14_two_pow_k.

Example C14_nonvacuous :
  fe_from_u128 (2 ^ 128 - 1) = FE 4503599627370495 4503599627370495 16777215 0 0 /\
  fe_from_u64 (2 ^ 64 - 1) = FE 4503599627370495 4095 0 0 0 /\
  fe_two_pow_k true 252 = Ok (FE 0 0 0 0 17592186044416) /\ fe_two_pow_k false 253 = Panic.
Proof. exact C14_ex. Qed.

(** ** C15: Conversion to and from Ristretto255 scalars is value preserving *)

Theorem C15_from_dalek : forall b, is_bytes 32 b -> le_value b < p ->
  fcanon (fe_from_dalek b) /\ fval (fe_from_dalek b) = le_value b /\
  fe_into_dalek (fe_from_dalek b) = Ok b.
Proof. exact C15_from_dalek_stmt. Qed.
Print Assumptions C15_from_dalek.

Theorem C15_into_dalek : forall a, floadable a ->
  (fval a < p -> exists b, fe_into_dalek a = Ok b /\ is_bytes 32 b /\ le_value b = fval a /\
     fe_from_dalek b = a) /\
  (p <= fval a -> fe_into_dalek a = Panic).
Proof. exact C15_into_dalek_stmt. Qed.
Print Assumptions C15_into_dalek.

Theorem C15_ref_into_dalek : forall a, floadable a ->
  is_bytes 32 (fe_ref_into_dalek a) /\ le_value (fe_ref_into_dalek a) = fval a mod p.
Proof. exact C15_ref_into_dalek_stmt. Qed.
Print Assumptions C15_ref_into_dalek.

Example C15_nonvacuous : is_bytes 32 (fe_to_bytes fe_minus_one) /\ le_value (fe_to_bytes fe_minus_one) < p /\
  floadable fe_minus_one /\ fval fe_minus_one < p /\ floadable max_loadable /\ p <= fval max_loadable.
Proof. exact C15_ex. Qed.

(** ** C16: Random field elements *)

Theorem C16_random : forall draw, is_bytes 32 draw ->
  exists r, fe_random draw = Ok r /\ fcanon r /\ fval r = le_value draw mod 2 ^ 251.
Proof. exact C16_random_stmt. Qed.
Print Assumptions C16_random.

(** Documented as a uniform choice over the field: some elements are never returned. *)
Theorem C16_uniform_refuted : exists a, fcanon a /\
  forall draw, is_bytes 32 draw -> fe_random draw <> Ok a.
Proof. exact C16_uniform_refuted_stmt. Qed.
Print Assumptions C16_uniform_refuted.

Example C16_nonvacuous : is_bytes 32 (repeat 255 32) /\
  fe_random (repeat 255 32)
  = Ok (FE 4503599627370495 4503599627370495 4503599627370495 4503599627370495 8796093022207).
Proof. exact C16_ex. Qed.
