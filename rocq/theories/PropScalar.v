(** * Properties proved in ScalarStmt.v, restated (written by tools/genprops.py) *)

From Coq Require Import ZArith Znumtheory List Bool Lia.
From Verif Require Import Machine FieldModel ScalarModel Spec MachineFacts FieldOps FieldBytes
  ScalarLimb ScalarOps ScalarBits ScalarNaf.
Import ListNotations.
Open Scope Z_scope.
From Verif Require Import ScalarStmt.

(** ** C17: Scalar addition, subtraction and negation are exact *)

Theorem C17_add : forall ck a b, scanon a -> scanon b ->
  returns_scalar (sc_add ck a b) (sval a + sval b).
Proof. exact C17_add_stmt. Qed.
Print Assumptions C17_add.

Theorem C17_sub : forall ck a b, scanon a -> scanon b ->
  returns_scalar (sc_sub ck a b) (sval a - sval b).
Proof. exact C17_sub_stmt. Qed.
Print Assumptions C17_sub.

Theorem C17_neg : forall ck a, scanon a -> returns_scalar (sc_neg ck a) (- sval a).
Proof. exact C17_neg_stmt. Qed.
Print Assumptions C17_neg.

Example C17_nonvacuous : scanon sc_minus_one /\ scanon SC_RR /\
  sc_add true sc_minus_one sc_minus_one
  = Ok (SC 1129677152307297 1363544697812651 714439 0 2199023255552) /\
  sc_sub false sc_zero sc_one = Ok sc_minus_one /\ sc_neg true sc_zero = Ok sc_zero.
Proof. exact C17_ex. Qed.

(** ** C18: Scalar multiplication and squaring are exact *)

Theorem C18_mul : forall ck a b, slimbs a -> scanon b ->
  returns_scalar (sc_mul ck a b) (sval a * sval b).
Proof. exact C18_mul_stmt. Qed.
Print Assumptions C18_mul.

Theorem C18_square : forall ck a, scanon a -> returns_scalar (sc_square ck a) (sval a * sval a).
Proof. exact C18_square_stmt. Qed.
Print Assumptions C18_square.

Example C18_nonvacuous : slimbs sc_minus_one /\ scanon sc_minus_one /\
  sc_mul true sc_minus_one sc_minus_one = Ok sc_one /\ sc_square false sc_minus_one = Ok sc_one.
Proof. exact C18_ex. Qed.

(** ** C19: Scalar halving and right shift *)

Theorem C19_half : forall ck a, slimbs a ->
  exists r, sc_half ck a = Ok r /\ scanon r /\ (sval r + sval r) mod L = sval a mod L.
Proof. exact C19_half_stmt. Qed.
Print Assumptions C19_half.

Theorem C19_half_without_mod : forall a, slimbs a ->
  slimbs (sc_half_without_mod a) /\ sval (sc_half_without_mod a) = sval a / 2.
Proof. exact C19_half_without_mod_stmt. Qed.
Print Assumptions C19_half_without_mod.

Theorem C19_shr : forall a k, slimbs a -> 0 <= k ->
  slimbs (sc_shr a k) /\ sval (sc_shr a k) = sval a / 2 ^ k.
Proof. exact C19_shr_stmt. Qed.
Print Assumptions C19_shr.

Example C19_nonvacuous : slimbs sc_minus_one /\ sc_shr sc_minus_one 249 = sc_one /\
  sc_half true sc_one = Ok SCALAR_INVERSE_MOD_TWO /\
  sc_half_without_mod (SC 6 0 0 0 1) = SC 3 0 0 2251799813685248 0.
Proof. exact C19_ex. Qed.

(** ** C20: Scalar exponentiation terminates and is exact *)

Theorem C20_pow : forall ck a e, scanon a -> scanon e ->
  returns_scalar (sc_pow ck a e) (sval a ^ sval e).
Proof. exact C20_pow_stmt. Qed.
Print Assumptions C20_pow.

Example C20_nonvacuous : scanon sc_minus_one /\ scanon SC_RR /\
  sc_pow true (SC 3 0 0 0 0) (SC 5 0 0 0 0) = Ok (SC 243 0 0 0 0).
Proof. exact C20_ex. Qed.

(** ** C21: Scalar decoding accepts exactly the canonical encodings *)

Theorem C21_from_bytes : forall b, is_bytes 32 b ->
  (le_value b < L -> exists r, sc_from_bytes b = Ok r /\ scanon r /\ sval r = le_value b /\ sc_to_bytes r = b) /\
  (L <= le_value b -> sc_from_bytes b = Panic).
Proof. exact C21_from_bytes_stmt. Qed.
Print Assumptions C21_from_bytes.

Theorem C21_to_bytes : forall a, scanon a ->
  is_bytes 32 (sc_to_bytes a) /\ le_value (sc_to_bytes a) = sval a /\ sc_from_bytes (sc_to_bytes a) = Ok a.
Proof. exact C21_to_bytes_stmt. Qed.
Print Assumptions C21_to_bytes.

Example C21_nonvacuous : is_bytes 32 (sc_to_bytes sc_minus_one) /\ le_value (sc_to_bytes sc_minus_one) < L /\
  is_bytes 32 (sc_to_bytes SC_L) /\ L <= le_value (sc_to_bytes SC_L) /\ scanon sc_minus_one.
Proof. exact C21_ex. Qed.

(** ** C22: Bit decomposition of scalars *)

Theorem C22_into_bits : forall a, sloadable a ->
  length (sc_into_bits a) = 256%nat /\
  (forall i, nth i (sc_into_bits a) 0 = Z.b2z (Z.testbit (sval a) (Z.of_nat i))).
Proof. exact C22_into_bits_stmt. Qed.
Print Assumptions C22_into_bits.

Example C22_nonvacuous : sloadable sc_minus_one /\ nth 249 (sc_into_bits sc_minus_one) 0 = 1 /\
  nth 0 (sc_into_bits sc_minus_one) 0 = 0.
Proof. exact C22_ex. Qed.

(** ** C23: compute_NAF is a correct non-adjacent form *)

Theorem C23_naf : forall ck k, scanon k ->
  exists ds, sc_compute_NAF ck k = Ok ds /\ signed_recoding 2 (sval k) ds.
Proof. exact C23_naf_stmt. Qed.
Print Assumptions C23_naf.

Example C23_nonvacuous : scanon (SC 7 0 0 0 0) /\ sc_compute_NAF true (SC 7 0 0 0 0) = Ok (-1 :: 0 :: 0 :: 1 :: repeat 0 252).
Proof. exact C23_ex. Qed.

(** ** C24: compute_window_NAF is a correct width-w recoding *)

Theorem C24_wnaf : forall ck w k, scanon k -> 2 <= w <= 6 -> (w = 6 -> sval k <> L - 2) ->
  exists ds, sc_compute_window_NAF ck k w = Ok ds /\ signed_recoding w (sval k) ds.
Proof. exact C24_wnaf_stmt. Qed.
Print Assumptions C24_wnaf.

(** Width 6, the one reduced scalar for which the recoding is wrong: the digits sum to -3. *)
Theorem C24_wnaf_six_refuted : exists k ds, scanon k /\ sval k = L - 2 /\
  (forall ck, sc_compute_window_NAF ck k 6 = Ok ds) /\ digits_value ds mod L <> sval k mod L.
Proof. exact C24_wnaf_six_refuted_stmt. Qed.
Print Assumptions C24_wnaf_six_refuted.

(** Width 1 runs off the end of the digit array. *)
Theorem C24_wnaf_one_refuted : exists k, scanon k /\
  forall ck, sc_compute_window_NAF ck k 1 = Panic.
Proof. exact C24_wnaf_one_refuted_stmt. Qed.
Print Assumptions C24_wnaf_one_refuted.

(** Width 7 panics with overflow checks. *)
Theorem C24_wnaf_seven_refuted : exists k, scanon k /\ sc_compute_window_NAF true k 7 = Panic.
Proof. exact C24_wnaf_seven_refuted_stmt. Qed.
Print Assumptions C24_wnaf_seven_refuted.

(** Width 8 panics with them and returns a wrong recoding (all zero digits for 1) without. *)
Theorem C24_wnaf_eight_refuted : exists k, scanon k /\ sc_compute_window_NAF true k 8 = Panic /\
  sc_compute_window_NAF false k 8 = Ok (repeat 0 256) /\ sval k mod L <> 0.
Proof. exact C24_wnaf_eight_refuted_stmt. Qed.
Print Assumptions C24_wnaf_eight_refuted.

Example C24_nonvacuous : scanon sc_minus_one /\ sval sc_minus_one <> L - 2 /\
  sc_compute_window_NAF true (SC 23 0 0 0 0) 4 = Ok (7 :: 0 :: 0 :: 0 :: 1 :: repeat 0 251).
Proof. exact C24_ex. Qed.

(** ** C25: mod_2_pow_k and mods_2_pow_k *)

Theorem C25_mod : forall ck a k, slimbs a -> 0 <= k <= 8 -> sc_mod_2_pow_k ck a k = Ok (sval a mod 2 ^ k).
Proof. exact C25_mod_stmt. Qed.
Print Assumptions C25_mod.

Theorem C25_mods : forall ck a w, slimbs a -> 1 <= w <= 6 \/ (w = 7 /\ ck = false) ->
  exists r, sc_mods_2_pow_k ck a w = Ok r /\ signed_residue w (sval a) r.
Proof. exact C25_mods_stmt. Qed.
Print Assumptions C25_mods.

(** The documented range for k goes up to 32; from 9 on the result is the value
    modulo 256, and beyond 32 there is no panic. *)
Theorem C25_mod_trunc : forall ck a k, slimbs a -> 8 <= k < 52 ->
  sc_mod_2_pow_k ck a k = Ok (sval a mod 256).
Proof. exact C25_mod_trunc_stmt. Qed.
Print Assumptions C25_mod_trunc.

Theorem C25_mod_range_refuted : exists a, scanon a /\
  (forall ck, exists r, sc_mod_2_pow_k ck a 9 = Ok r /\ r <> sval a mod 2 ^ 9) /\
  (forall ck, sc_mod_2_pow_k ck a 40 = Ok 0).
Proof. exact C25_mod_range_refuted_stmt. Qed.
Print Assumptions C25_mod_range_refuted.

Theorem C25_mods_range_refuted : exists a, scanon a /\
  sc_mods_2_pow_k true a 7 = Panic /\
  sc_mods_2_pow_k true a 8 = Panic /\ (exists r, sc_mods_2_pow_k false a 8 = Ok r /\ ~ signed_residue 8 (sval a) r) /\
  sc_mods_2_pow_k true a 9 = Panic /\ sc_mods_2_pow_k true a 0 = Panic.
Proof. exact C25_mods_range_refuted_stmt. Qed.
Print Assumptions C25_mods_range_refuted.

Example C25_nonvacuous : slimbs sc_minus_one /\ sc_mod_2_pow_k true sc_minus_one 8 = Ok 98 /\
  sc_mods_2_pow_k true (SC 23 0 0 0 0) 4 = Ok 7 /\ sc_mods_2_pow_k false (SC 100 0 0 0 0) 7 = Ok (-28).
Proof. exact C25_ex. Qed.

(** ** C26: Signed conversion into scalars *)

Theorem C26_from_i8 : forall ck x, -127 <= x <= 127 -> returns_scalar (sc_from_i8 ck x) x.
Proof. exact C26_from_i8_stmt. Qed.
Print Assumptions C26_from_i8.

Theorem C26_min_refuted : exists x, -128 <= x <= 127 /\
  sc_from_i8 true x = Panic /\
  exists r, sc_from_i8 false x = Ok r /\ sval r mod L <> x mod L.
Proof. exact C26_min_refuted_stmt. Qed.
Print Assumptions C26_min_refuted.

Example C26_nonvacuous : sc_from_i8 true (-1) = Ok sc_minus_one /\ -127 <= -1 <= 127.
Proof. exact C26_ex. Qed.

(** ** C27: Scalar integer conversions, powers of two, ordering and equality *)

Theorem C27_from_int :
  (forall x, 0 <= x < 2 ^ 8 -> scanon (sc_from_u8 x) /\ sval (sc_from_u8 x) = x) /\
  (forall x, 0 <= x < 2 ^ 16 -> scanon (sc_from_u16 x) /\ sval (sc_from_u16 x) = x) /\
  (forall x, 0 <= x < 2 ^ 32 -> scanon (sc_from_u32 x) /\ sval (sc_from_u32 x) = x) /\
  (forall x, 0 <= x < 2 ^ 64 -> scanon (sc_from_u64 x) /\ sval (sc_from_u64 x) = x) /\
  (forall x, 0 <= x < 2 ^ 128 -> scanon (sc_from_u128 x) /\ sval (sc_from_u128 x) = x).
Proof. exact C27_from_int_stmt. Qed.
Print Assumptions C27_from_int.

Theorem C27_two_pow_k : forall ck k, 0 <= k ->
  (k < 250 -> exists r, sc_two_pow_k ck k = Ok r /\ scanon r /\ sval r = 2 ^ k) /\
  (250 <= k -> sc_two_pow_k ck k = Panic).
Proof. exact C27_two_pow_k_stmt. Qed.
Print Assumptions C27_two_pow_k.

Theorem C27_cmp : forall a b, slimbs a -> slimbs b -> sc_cmp a b = Z.compare (sval a) (sval b).
Proof. exact C27_cmp_stmt. Qed.
Print Assumptions C27_cmp.

Theorem C27_eq : forall a b, sloadable a -> sloadable b -> (sc_eqb a b = true <-> sval a = sval b).
Proof. exact C27_eq_stmt. Qed.
Print Assumptions C27_eq.

Theorem C27_is_even : forall a, slimbs a -> sc_is_even a = Z.even (sval a).
Proof. exact C27_is_even_stmt. Qed.
Print Assumptions C27_is_even.

Example C27_nonvacuous : sc_from_u128 (2 ^ 128 - 1) = SC 4503599627370495 4503599627370495 16777215 0 0 /\
  sc_two_pow_k true 249 = Ok (SC 0 0 0 0 2199023255552) /\ sc_two_pow_k false 250 = Panic /\
  slimbs sc_minus_one /\ slimbs SC_RR /\ sloadable sc_minus_one /\ sloadable SC_RR /\
  sc_cmp SC_RR sc_minus_one = Lt /\ sc_eqb SC_RR sc_minus_one = false.
Proof. exact C27_ex. Qed.

(** ** C28: Random scalars *)

Theorem C28_random : forall draw, is_bytes 32 draw ->
  exists r, sc_random draw = Ok r /\ scanon r /\ sval r = le_value draw mod 2 ^ 249.
Proof. exact C28_random_stmt. Qed.
Print Assumptions C28_random.

(** Documented as a uniform choice: some scalars are never returned. *)
Theorem C28_uniform_refuted : exists a, scanon a /\
  forall draw, is_bytes 32 draw -> sc_random draw <> Ok a.
Proof. exact C28_uniform_refuted_stmt. Qed.
Print Assumptions C28_uniform_refuted.

Example C28_nonvacuous : is_bytes 32 (repeat 255 32) /\
  sc_random (repeat 255 32)
  = Ok (SC 4503599627370495 4503599627370495 4503599627370495 4503599627370495 2199023255551).
Proof. exact C28_ex. Qed.
