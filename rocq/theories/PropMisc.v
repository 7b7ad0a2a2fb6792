(** * Properties proved in MiscStmt.v, restated (written by tools/genprops.py) *)

From Coq Require Import ZArith Znumtheory List Bool Lia Ring Field.
From Verif Require Import Machine FieldModel ScalarModel EdwardsModel TableModel RistrettoModel Spec MachineFacts FieldLimb
  FieldOps FieldBytes NumTheory Primes Fp FieldF FieldInv FieldStmt ScalarOps ScalarBits ScalarNaf ScalarStmt Curve CurveGroup
  EdwardsF PointMul EdwardsY EdwardsStmt RistSpec Rist RistF RistE RistrettoStmt GroupCheck GroupOrder GroupStmt.
Import ListNotations.
Open Scope Z_scope.
From Verif Require Import MiscStmt.

(** ** C59: Montgomery point equality *)

Theorem C59_eq : forall a b, is_bytes 32 a -> is_bytes 32 b -> (mp_eqb a b = true <-> a = b).
Proof. exact C59_eq_stmt. Qed.
Print Assumptions C59_eq.

(** The default point is the one whose encoding has the value 0. *)
Theorem C59_default : is_bytes 32 mp_default /\ forall b, is_bytes 32 b -> (mp_eqb mp_default b = true <-> le_value b = 0).
Proof. exact C59_default_stmt. Qed.
Print Assumptions C59_default.

(** Documented as equality modulo p. *)
Theorem C59_mod_p_refuted : exists a b, is_bytes 32 a /\ is_bytes 32 b /\
  le_value a mod p = le_value b mod p /\ mp_eqb a b = false.
Proof. exact C59_mod_p_refuted_stmt. Qed.
Print Assumptions C59_mod_p_refuted.

Example C59_nonvacuous : is_bytes 32 (9 :: repeat 0 31) /\ is_bytes 32 mp_default /\
  mp_eqb (9 :: repeat 0 31) mp_default = false /\ mp_eqb mp_default (repeat 0 32) = true.
Proof. exact C59_ex. Qed.

(** ** C60: Published constants have their documented values *)

Theorem C60_field :
  Forall fcanon [EDWARDS_A; EDWARDS_D; POS_RANGE; RR_FIELD; INV_RR; INVERSE_MOD_TWO; MINUS_ONE_HALF;
    SQRT_MINUS_ONE; INV_SQRT_A; MINUS_SQRT_A; INV_SQRT_A_MINUS_D; SQRT_AD_MINUS_ONE] /\
  flimbs FIELD_L /\ fval FIELD_L = p /\
  fval EDWARDS_A = p - 1 /\ (fval EDWARDS_D * 126297) mod p = (- 126296) mod p /\
  fval POS_RANGE = (p - 1) / 2 /\
  fval RR_FIELD = (2 ^ 260 * 2 ^ 260) mod p /\ fval INV_RR = (2 ^ 253 * 2 ^ 253) mod p /\
  (p * LFACTOR_FIELD) mod 2 ^ 52 = (- 1) mod 2 ^ 52 /\
  (2 * fval INVERSE_MOD_TWO) mod p = 1 /\ (2 * fval MINUS_ONE_HALF) mod p = (- 1) mod p /\
  (fval SQRT_MINUS_ONE ^ 2) mod p = fval EDWARDS_A /\
  (fval INV_SQRT_A * fval SQRT_MINUS_ONE) mod p = 1 /\
  fval MINUS_SQRT_A = (- fval SQRT_MINUS_ONE) mod p /\
  (fval INV_SQRT_A_MINUS_D ^ 2 * (fval EDWARDS_A - fval EDWARDS_D)) mod p = 1 /\
  (fval SQRT_AD_MINUS_ONE ^ 2) mod p = (fval EDWARDS_A * fval EDWARDS_D - 1) mod p.
Proof. exact C60_field_stmt. Qed.
Print Assumptions C60_field.

Theorem C60_scalar :
  slimbs SC_L /\ sval SC_L = L /\ scanon SC_RR /\ sval SC_RR = (2 ^ 260 * 2 ^ 260) mod L /\
  (L * LFACTOR) mod 2 ^ 52 = (- 1) mod 2 ^ 52 /\
  scanon SCALAR_INVERSE_MOD_TWO /\ (2 * sval SCALAR_INVERSE_MOD_TWO) mod L = 1.
Proof. exact C60_scalar_stmt. Qed.
Print Assumptions C60_scalar.

(** d is not a square, so the addition law has no exceptional points. *)
Theorem C60_d_nonsquare : ~ square_mod_p (fval EDWARDS_D).
Proof. exact C60_d_nonsquare_stmt. Qed.
Print Assumptions C60_d_nonsquare.

(** The basepoint has y = 3/5, and its three published forms agree. *)
Theorem C60_basepoint : forall ck,
  (exists x, ext_rep BASEPOINT (x, toF 3 / toF 5)%F) /\ RISTRETTO_BASEPOINT = BASEPOINT /\
  ept_compress ck BASEPOINT = Ok BASEPOINT_COMPRESSED /\
  cey_decompress ck BASEPOINT_COMPRESSED = Ok (Some BASEPOINT) /\
  rp_compress ck RISTRETTO_BASEPOINT = Ok RISTRETTO_BASEPOINT_COMPRESSED.
Proof. exact C60_basepoint_stmt. Qed.
Print Assumptions C60_basepoint.

(** The comment says that the positive sign was chosen; the x coordinate is not
    positive in the sense of `is_positive`. *)
Theorem C60_sign : (p - 1) / 2 < fval (eX BASEPOINT) < p /\ fe_is_positive (eX BASEPOINT) = false.
Proof. exact C60_sign_stmt. Qed.
Print Assumptions C60_sign.

(** Entry i of the table is (2i-1)B for i = 1..125, entry 0 the identity. *)
Theorem C60_table : length BASEPOINT_ODD_MULTIPLES_TABLE = 126%nat /\
  nth_error BASEPOINT_ODD_MULTIPLES_TABLE 0 = Some ept_identity /\
  forall i, (1 <= i < 126)%nat -> exists P, nth_error BASEPOINT_ODD_MULTIPLES_TABLE i = Some P /\
    ext_rep P (multiple (2 * Z.of_nat i - 1) base).
Proof. exact C60_table_stmt. Qed.
Print Assumptions C60_table.

Example C60_nonvacuous : multiple 1 base = base /\ base <> origin /\ ~ square_mod_p (fval EDWARDS_D).
Proof. exact C60_ex. Qed.

(** ** C61: Byte-slice constructors *)

Theorem C61_slices : forall b,
  (length b = 32%nat -> cey_from_slice b = Ok b /\ cr_copy_from_slice b = Ok b) /\
  (length b <> 32%nat -> cey_from_slice b = Panic /\ cr_copy_from_slice b = Panic).
Proof. exact C61_slices_stmt. Qed.
Print Assumptions C61_slices.

Theorem C61_eq : forall a b, (cey_eqb a b = true <-> a = b) /\ (cr_eqb a b = true <-> a = b).
Proof. exact C61_eq_stmt. Qed.
Print Assumptions C61_eq.

Example C61_nonvacuous : length BASEPOINT_COMPRESSED = 32%nat /\ length (@nil Z) <> 32%nat /\
  cey_eqb BASEPOINT_COMPRESSED RISTRETTO_BASEPOINT_COMPRESSED = false.
Proof. exact C61_ex. Qed.

(** ** C62: Unimplemented entry points always panic *)

Theorem C62_panics : forall b P c s,
  sc_from_bytes_wide b = Panic /\ ept_to_montgomery P = Panic /\ mp_to_edwards c s = Panic.
Proof. exact C62_panics_stmt. Qed.
Print Assumptions C62_panics.

Example C62_nonvacuous : is_bytes 64 (repeat 0 64) /\ valid_ext BASEPOINT /\ is_bytes 32 mp_default.
Proof. exact C62_ex. Qed.

(** ** C63: Debug and release builds agree *)

Theorem C63_field : forall a b s, fcanon a -> fcanon b ->
  agrees (fun ck => fe_add ck a b) /\ agrees (fun ck => fe_sub ck a b) /\ agrees (fun ck => fe_neg ck a) /\
  agrees (fun ck => fe_mul ck a b) /\ agrees (fun ck => fe_square ck a) /\ agrees (fun ck => fe_half ck a) /\
  agrees (fun ck => fe_pow ck a b) /\ agrees (fun ck => fe_inverse ck a) /\
  agrees (fun ck => fe_div ck a b) /\ agrees (fun ck => fe_div_val ck a b) /\
  agrees (fun ck => fe_legendre_symbol ck a) /\ agrees (fun ck => fe_mod_sqrt ck a s) /\
  agrees (fun ck => fe_sqrt_ratio_i ck a b) /\ agrees (fun ck => fe_inv_sqrt ck a) /\
  agrees (fun ck => fe_conditional_negate ck a s).
Proof. exact C63_field_stmt. Qed.
Print Assumptions C63_field.

Theorem C63_field_int : forall k, 0 <= k -> agrees (fun ck => fe_two_pow_k ck k).
Proof. exact C63_field_int_stmt. Qed.
Print Assumptions C63_field_int.

Theorem C63_scalar : forall a b w, scanon a -> scanon b -> 2 <= w <= 6 -> (w = 6 -> sval a <> L - 2) ->
  agrees (fun ck => sc_add ck a b) /\ agrees (fun ck => sc_sub ck a b) /\ agrees (fun ck => sc_neg ck a) /\
  agrees (fun ck => sc_mul ck a b) /\ agrees (fun ck => sc_square ck a) /\ agrees (fun ck => sc_half ck a) /\
  agrees (fun ck => sc_pow ck a b) /\ agrees (fun ck => sc_compute_NAF ck a) /\
  agrees (fun ck => sc_compute_window_NAF ck a w) /\
  agrees (fun ck => sc_mod_2_pow_k ck a w) /\ agrees (fun ck => sc_mods_2_pow_k ck a w).
Proof. exact C63_scalar_stmt. Qed.
Print Assumptions C63_scalar.

Theorem C63_scalar_int : forall k, (0 <= k -> agrees (fun ck => sc_two_pow_k ck k)) /\
  (-127 <= k <= 127 -> agrees (fun ck => sc_from_i8 ck k)).
Proof. exact C63_scalar_int_stmt. Qed.
Print Assumptions C63_scalar_int.

Theorem C63_edwards : forall P Q n, valid_ext P -> valid_ext Q -> sloadable n ->
  agrees (fun ck => ept_add ck P Q) /\ agrees (fun ck => ept_sub ck P Q) /\ agrees (fun ck => ept_neg ck P) /\
  agrees (fun ck => ept_double ck P) /\ agrees (fun ck => ept_mul ck P n) /\
  agrees (fun ck => ept_eqb ck P Q) /\ agrees (fun ck => ept_is_valid ck P) /\
  agrees (fun ck => apt_of_ept ck P) /\ agrees (fun ck => ept_compress ck P) /\
  agrees (fun ck => ltr_bin_mul (ept_add ck) (ept_double ck) ept_identity P n) /\
  (scanon n -> agrees (fun ck => binary_naf_mul ck (ept_add ck) (ept_sub ck) (ept_double ck) ept_identity P n)).
Proof. exact C63_edwards_stmt. Qed.
Print Assumptions C63_edwards.

Theorem C63_projective : forall P Q n, valid_proj P -> valid_proj Q -> sloadable n ->
  agrees (fun ck => ppt_add ck P Q) /\ agrees (fun ck => ppt_sub ck P Q) /\ agrees (fun ck => ppt_neg ck P) /\
  agrees (fun ck => ppt_double ck P) /\ agrees (fun ck => ppt_mul ck P n) /\
  agrees (fun ck => ppt_eqb ck P Q) /\ agrees (fun ck => ppt_is_valid ck P) /\
  agrees (fun ck => apt_of_ppt ck P) /\ agrees (fun ck => ept_of_ppt ck P).
Proof. exact C63_projective_stmt. Qed.
Print Assumptions C63_projective.

Theorem C63_encodings : forall y s b draws, fcanon y -> is_bytes 32 b -> Forall (is_bytes 32) draws ->
  agrees (fun ck => ept_new_from_y_coord ck y s) /\ agrees (fun ck => ppt_new_from_y_coord ck y s) /\
  agrees (fun ck => cey_decompress ck b) /\ agrees (fun ck => cr_decompress ck b) /\
  agrees (fun ck => ept_new_random_point ck draws) /\ agrees (fun ck => ppt_new_random_point ck draws).
Proof. exact C63_encodings_stmt. Qed.
Print Assumptions C63_encodings.

Theorem C63_ristretto : forall P Q n, even_ext P -> even_ext Q -> sloadable n ->
  agrees (fun ck => rp_add ck P Q) /\ agrees (fun ck => rp_sub ck P Q) /\ agrees (fun ck => rp_neg ck P) /\
  agrees (fun ck => rp_double ck P) /\ agrees (fun ck => rp_mul ck P n) /\
  agrees (fun ck => rp_eqb ck P Q) /\ agrees (fun ck => rp_is_valid ck P) /\ agrees (fun ck => rp_compress ck P).
Proof. exact C63_ristretto_stmt. Qed.
Print Assumptions C63_ristretto.

Theorem C63_hash : forall r b, floadable r -> is_bytes 64 b ->
  agrees (fun ck => rp_elligator ck r) /\ agrees (fun ck => rp_from_uniform_bytes ck b).
Proof. exact C63_hash_stmt. Qed.
Print Assumptions C63_hash.

(** Outside the reduced inputs the two builds differ. *)
Example C63_nonvacuous : fcanon fe_minus_one /\ scanon sc_minus_one /\ even_ext RISTRETTO_BASEPOINT /\
  sc_from_i8 true (-128) = Panic /\ sc_from_i8 false (-128) = Ok (SC 128 0 0 0 0).
Proof. exact C63_ex. Qed.
