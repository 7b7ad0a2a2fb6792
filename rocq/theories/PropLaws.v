(** * Properties proved in LawsStmt.v, restated (written by tools/genprops.py) *)

From Coq Require Import ZArith Znumtheory List Bool Lia Ring Field.
From Verif Require Import Machine FieldModel ScalarModel Spec MachineFacts FieldLimb FieldMul FieldOps FieldBytes
  NumTheory Primes Fp FieldF FieldInv FieldStmt ScalarLimb ScalarOps ScalarBits ScalarStmt LimbFull.
Import ListNotations.
Open Scope Z_scope.
From Verif Require Import LawsStmt.

(** ** C65: The Montgomery domain *)

Theorem C65_field_to : forall ck a, floadable a ->
  returns_field (fe_to_montgomery ck a) (fval a * 2 ^ 260).
Proof. exact C65_field_to_stmt. Qed.
Print Assumptions C65_field_to.

Theorem C65_field_from : forall ck a, flimbs a ->
  exists r, fe_from_montgomery ck a = Ok r /\ fcanon r /\ (fval r * 2 ^ 260) mod p = fval a mod p.
Proof. exact C65_field_from_stmt. Qed.
Print Assumptions C65_field_from.

Theorem C65_field_mul : forall ck a b, floadable a -> floadable b ->
  exists r, fe_montgomery_mul ck a b = Ok r /\ fcanon r /\
    (fval r * 2 ^ 260) mod p = (fval a * fval b) mod p.
Proof. exact C65_field_mul_stmt. Qed.
Print Assumptions C65_field_mul.

(** Converting there and back reduces modulo p and changes nothing else. *)
Theorem C65_field_roundtrip : forall ck a, floadable a ->
  exists m r, fe_to_montgomery ck a = Ok m /\ fe_from_montgomery ck m = Ok r /\
    fcanon r /\ fval r = fval a mod p.
Proof. exact C65_field_roundtrip_stmt. Qed.
Print Assumptions C65_field_roundtrip.

(** Montgomery multiplication is multiplication in the Montgomery domain. *)
Theorem C65_field_hom : forall ck a b, floadable a -> floadable b ->
  exists ma mb m r, fe_to_montgomery ck a = Ok ma /\ fe_to_montgomery ck b = Ok mb /\
    fe_montgomery_mul ck ma mb = Ok m /\ fe_from_montgomery ck m = Ok r /\ fe_mul ck a b = Ok r.
Proof. exact C65_field_hom_stmt. Qed.
Print Assumptions C65_field_hom.

Theorem C65_scalar_to : forall ck a, slimbs a ->
  returns_scalar (sc_to_montgomery ck a) (sval a * 2 ^ 260).
Proof. exact C65_scalar_to_stmt. Qed.
Print Assumptions C65_scalar_to.

Theorem C65_scalar_from : forall ck a, slimbs a ->
  exists r, sc_from_montgomery ck a = Ok r /\ scanon r /\ (sval r * 2 ^ 260) mod L = sval a mod L.
Proof. exact C65_scalar_from_stmt. Qed.
Print Assumptions C65_scalar_from.

Theorem C65_scalar_mul : forall ck a b, slimbs a -> scanon b ->
  exists r, sc_montgomery_mul ck a b = Ok r /\ scanon r /\
    (sval r * 2 ^ 260) mod L = (sval a * sval b) mod L.
Proof. exact C65_scalar_mul_stmt. Qed.
Print Assumptions C65_scalar_mul.

Theorem C65_scalar_roundtrip : forall ck a, slimbs a ->
  exists m r, sc_to_montgomery ck a = Ok m /\ sc_from_montgomery ck m = Ok r /\
    scanon r /\ sval r = sval a mod L.
Proof. exact C65_scalar_roundtrip_stmt. Qed.
Print Assumptions C65_scalar_roundtrip.

Example C65_nonvacuous : floadable max_loadable /\ slimbs sc_minus_one /\ scanon sc_minus_one /\
  fe_to_montgomery true fe_zero = Ok fe_zero /\
  fe_montgomery_mul true RR_FIELD fe_one <> Ok fe_one /\
  fe_montgomery_mul false RR_FIELD INV_RR <> Ok fe_zero.
Proof. exact C65_ex. Qed.

(** ** C66: Addition and subtraction outside the reduced range *)

(** Addition of any 52-bit limbs: the sum wraps modulo 2^260 and p is subtracted at most once. *)
Theorem C66_field_add : forall ck a b, flimbs a -> flimbs b ->
  exists r, fe_add ck a b = Ok r /\ flimbs r /\
    let s := (fval a + fval b) mod 2 ^ 260 in fval r = if s <? p then s else s - p.
Proof. exact C66_field_add_stmt. Qed.
Print Assumptions C66_field_add.

Theorem C66_field_sub : forall ck a b, flimbs a -> flimbs b ->
  exists r, fe_sub ck a b = Ok r /\ flimbs r /\
    fval r = if fval a <? fval b then (fval a - fval b + p) mod 2 ^ 260 else fval a - fval b.
Proof. exact C66_field_sub_stmt. Qed.
Print Assumptions C66_field_sub.

(** On anything loadable from 32 bytes the sum is still right modulo p. *)
Theorem C66_field_add_mod : forall ck a b, floadable a -> floadable b ->
  exists r, fe_add ck a b = Ok r /\ fval r mod p = (fval a + fval b) mod p.
Proof. exact C66_field_add_mod_stmt. Qed.
Print Assumptions C66_field_add_mod.

(** The difference and the negative are not. *)
Theorem C66_field_sub_refuted : exists a b r, floadable a /\ floadable b /\
  (forall ck, fe_sub ck a b = Ok r) /\ (forall ck, fe_neg ck b = Ok r) /\
  fval r mod p <> (fval a - fval b) mod p.
Proof. exact C66_field_sub_refuted_stmt. Qed.
Print Assumptions C66_field_sub_refuted.

Theorem C66_scalar_add : forall ck a b, slimbs a -> slimbs b ->
  exists r, sc_add ck a b = Ok r /\ slimbs r /\
    let s := (sval a + sval b) mod 2 ^ 260 in sval r = if s <? L then s else s - L.
Proof. exact C66_scalar_add_stmt. Qed.
Print Assumptions C66_scalar_add.

Theorem C66_scalar_sub : forall ck a b, slimbs a -> slimbs b ->
  exists r, sc_sub ck a b = Ok r /\ slimbs r /\
    sval r = if sval a <? sval b then (sval a - sval b + L) mod 2 ^ 260 else sval a - sval b.
Proof. exact C66_scalar_sub_stmt. Qed.
Print Assumptions C66_scalar_sub.

Example C66_nonvacuous : flimbs max_loadable /\ floadable max_loadable /\ slimbs SC_L /\ ~ fcanon max_loadable.
Proof. exact C66_ex. Qed.

(** ** C67: Inversion, division and square roots of unreduced operands *)

(** Inversion of a nonzero multiple of p returns 0; only the reduced zero panics. *)
Theorem C67_inverse : forall ck a, floadable a -> fval a mod p = 0 -> fval a <> 0 ->
  fe_inverse ck a = Ok fe_zero.
Proof. exact C67_inverse_stmt. Qed.
Print Assumptions C67_inverse.

(** Division of loadable operands. *)
Theorem C67_div : forall ck a b, floadable a -> floadable b -> fval b mod p <> 0 ->
  exists q, fe_div ck a b = Ok q /\ fe_div_val ck a b = Ok q /\ fcanon q /\
    (fval q * fval b) mod p = fval a mod p.
Proof. exact C67_div_stmt. Qed.
Print Assumptions C67_div.

(** Division by a nonzero multiple of p gives 0 instead of panicking. *)
Theorem C67_div_multiple : forall ck a b, floadable a -> floadable b -> fval b mod p = 0 -> fval b <> 0 ->
  fe_div ck a b = Ok fe_zero /\ fe_div_val ck a b = Ok fe_zero.
Proof. exact C67_div_multiple_stmt. Qed.
Print Assumptions C67_div_multiple.

(** On an operand that is not 0 modulo p the square root is that of its reduction. *)
Theorem C67_mod_sqrt : forall ck a sign, floadable a -> fval a mod p <> 0 ->
  (square_mod_p (fval a) ->
     exists r, fe_mod_sqrt ck a sign = Ok (Some r) /\ fcanon r /\ (fval r * fval r) mod p = fval a mod p) /\
  (~ square_mod_p (fval a) -> fe_mod_sqrt ck a sign = Ok None).
Proof. exact C67_mod_sqrt_stmt. Qed.
Print Assumptions C67_mod_sqrt.

Theorem C67_mod_sqrt_diverges : forall ck a sign, floadable a -> fval a mod p = 0 -> fval a <> 0 ->
  forall n, fe_mod_sqrt_fuel n ck a sign = NoFuel.
Proof. exact C67_mod_sqrt_diverges_stmt. Qed.
Print Assumptions C67_mod_sqrt_diverges.

(** sqrt_ratio_i with the denominator a nonzero multiple of p reports success. *)
Theorem C67_sqrt_ratio_multiple : forall ck u v, floadable u -> fval u mod p <> 0 ->
  floadable v -> fval v mod p = 0 -> fval v <> 0 ->
  fe_sqrt_ratio_i ck u v = Ok (true, fe_zero) /\ fe_sqrt_ratio_i ck u fe_zero = Ok (false, fe_zero).
Proof. exact C67_sqrt_ratio_multiple_stmt. Qed.
Print Assumptions C67_sqrt_ratio_multiple.

Example C67_nonvacuous : floadable FIELD_L /\ fval FIELD_L mod p = 0 /\ fval FIELD_L <> 0 /\
  floadable max_loadable /\ fval max_loadable mod p <> 0 /\
  floadable (FE 9 0 0 0 0) /\ square_mod_p 9 /\ fval (FE 9 0 0 0 0) mod p <> 0.
Proof. exact C67_ex. Qed.

(** ** C68: The field API satisfies the field axioms *)

Theorem C68_add : forall ck a b c, fcanon a -> fcanon b -> fcanon c ->
  agree (fe_add ck a b) (fe_add ck b a) /\
  agree (x <- fe_add ck a b ;; fe_add ck x c) (x <- fe_add ck b c ;; fe_add ck a x) /\
  fe_add ck a fe_zero = Ok a /\
  (x <- fe_neg ck a ;; fe_add ck a x) = Ok fe_zero /\
  agree (fe_sub ck a b) (x <- fe_neg ck b ;; fe_add ck a x) /\
  fe_sub ck a a = Ok fe_zero /\ fe_sub ck a fe_zero = Ok a /\
  agree (fe_sub ck fe_zero a) (fe_neg ck a) /\
  (x <- fe_neg ck a ;; fe_neg ck x) = Ok a /\
  (x <- fe_sub ck a b ;; fe_add ck x b) = Ok a.
Proof. exact C68_add_stmt. Qed.
Print Assumptions C68_add.

Theorem C68_mul : forall ck a b c, fcanon a -> fcanon b -> fcanon c ->
  agree (fe_mul ck a b) (fe_mul ck b a) /\
  agree (x <- fe_mul ck a b ;; fe_mul ck x c) (x <- fe_mul ck b c ;; fe_mul ck a x) /\
  fe_mul ck a fe_one = Ok a /\ fe_mul ck a fe_zero = Ok fe_zero /\
  agree (x <- fe_add ck b c ;; fe_mul ck a x) (x <- fe_mul ck a b ;; y <- fe_mul ck a c ;; fe_add ck x y) /\
  agree (x <- fe_neg ck a ;; fe_mul ck x b) (x <- fe_mul ck a b ;; fe_neg ck x) /\
  agree (fe_square ck a) (fe_mul ck a a) /\
  agree (fe_mul ck fe_minus_one a) (fe_neg ck a).
Proof. exact C68_mul_stmt. Qed.
Print Assumptions C68_mul.

Theorem C68_domain : forall ck a b, fcanon a -> fcanon b ->
  fe_mul ck a b = Ok fe_zero -> a = fe_zero \/ b = fe_zero.
Proof. exact C68_domain_stmt. Qed.
Print Assumptions C68_domain.

Theorem C68_field : forall ck a b, fcanon a -> fcanon b -> b <> fe_zero ->
  (q <- fe_div ck a b ;; fe_mul ck q b) = Ok a /\
  (x <- fe_mul ck a b ;; fe_div ck x b) = Ok a /\
  (x <- fe_inverse ck b ;; fe_mul ck b x) = Ok fe_one /\
  (x <- fe_inverse ck b ;; fe_inverse ck x) = Ok b /\
  agree (fe_div ck a b) (x <- fe_inverse ck b ;; fe_mul ck a x) /\
  agree (fe_inverse ck b) (e <- fe_sub ck fe_minus_one fe_one ;; fe_pow ck b e).
Proof. exact C68_field_stmt. Qed.
Print Assumptions C68_field.

Example C68_nonvacuous : fcanon EDWARDS_D /\ fcanon fe_minus_one /\ EDWARDS_D <> fe_zero /\
  fe_mul true EDWARDS_D fe_zero = Ok fe_zero.
Proof. exact C68_ex. Qed.

(** ** C69: The scalar API satisfies the laws of the prime field modulo L *)

Theorem C69_add : forall ck a b c, scanon a -> scanon b -> scanon c ->
  agree (sc_add ck a b) (sc_add ck b a) /\
  agree (x <- sc_add ck a b ;; sc_add ck x c) (x <- sc_add ck b c ;; sc_add ck a x) /\
  sc_add ck a sc_zero = Ok a /\
  (x <- sc_neg ck a ;; sc_add ck a x) = Ok sc_zero /\
  agree (sc_sub ck a b) (x <- sc_neg ck b ;; sc_add ck a x) /\
  sc_sub ck a a = Ok sc_zero /\
  (x <- sc_neg ck a ;; sc_neg ck x) = Ok a /\
  (x <- sc_sub ck a b ;; sc_add ck x b) = Ok a.
Proof. exact C69_add_stmt. Qed.
Print Assumptions C69_add.

Theorem C69_mul : forall ck a b c, scanon a -> scanon b -> scanon c ->
  agree (sc_mul ck a b) (sc_mul ck b a) /\
  agree (x <- sc_mul ck a b ;; sc_mul ck x c) (x <- sc_mul ck b c ;; sc_mul ck a x) /\
  sc_mul ck a sc_one = Ok a /\ sc_mul ck a sc_zero = Ok sc_zero /\
  agree (x <- sc_add ck b c ;; sc_mul ck a x) (x <- sc_mul ck a b ;; y <- sc_mul ck a c ;; sc_add ck x y) /\
  agree (sc_square ck a) (sc_mul ck a a) /\
  agree (sc_mul ck sc_minus_one a) (sc_neg ck a).
Proof. exact C69_mul_stmt. Qed.
Print Assumptions C69_mul.

Theorem C69_domain : forall ck a b, scanon a -> scanon b ->
  sc_mul ck a b = Ok sc_zero -> a = sc_zero \/ b = sc_zero.
Proof. exact C69_domain_stmt. Qed.
Print Assumptions C69_domain.

(** Exponentiation by L - 2 inverts. *)
Theorem C69_inverse : forall ck a, scanon a -> a <> sc_zero ->
  (e <- sc_sub ck sc_minus_one sc_one ;; x <- sc_pow ck a e ;; sc_mul ck a x) = Ok sc_one.
Proof. exact C69_inverse_stmt. Qed.
Print Assumptions C69_inverse.

Example C69_nonvacuous : scanon sc_minus_one /\ scanon SC_RR /\ SC_RR <> sc_zero /\
  sc_mul true SC_RR sc_zero = Ok sc_zero.
Proof. exact C69_ex. Qed.
