(** * Properties proved in EdwardsStmt.v, restated (written by tools/genprops.py) *)

From Coq Require Import ZArith List Bool Lia Ring Field.
From Verif Require Import Machine FieldModel ScalarModel EdwardsModel Spec MachineFacts FieldLimb FieldOps FieldBytes
  NumTheory Primes Fp FieldF FieldInv FieldStmt ScalarOps ScalarBits ScalarNaf Curve CurveGroup EdwardsF PointMul EdwardsY.
Import ListNotations.
Open Scope F_scope.
From Verif Require Import EdwardsStmt.

(** ** C29: Edwards addition is complete *)

Theorem C29_add : forall ck P Q A B, ext_rep P A -> ext_rep Q B ->
  returns_ext (ept_add ck P Q) (sum A B).
Proof. exact C29_add_stmt. Qed.
Print Assumptions C29_add.

Theorem C29_double : forall ck P A, ext_rep P A -> returns_ext (ept_double ck P) (sum A A).
Proof. exact C29_double_stmt. Qed.
Print Assumptions C29_double.

(** The denominators of the affine addition formulas never vanish on the curve. *)
Theorem C29_complete : forall x1 y1 x2 y2, on_curve (x1, y1) -> on_curve (x2, y2) ->
  1 + cd * x1 * x2 * y1 * y2 <> 0 /\ 1 - cd * x1 * x2 * y1 * y2 <> 0 /\
  on_curve (sum (x1, y1) (x2, y2)).
Proof. exact C29_complete_stmt. Qed.
Print Assumptions C29_complete.

Example C29_nonvacuous : ext_rep BASEPOINT base /\ base <> origin /\ ext_rep order2_ext order2.
Proof. exact C29_ex. Qed.

(** ** C30: Edwards points form an abelian group under the API *)

Theorem C30_comm : forall ck P Q, valid_ext P -> valid_ext Q ->
  same_ext ck (ept_add ck P Q) (ept_add ck Q P).
Proof. exact C30_comm_stmt. Qed.
Print Assumptions C30_comm.

Theorem C30_assoc : forall ck P Q S, valid_ext P -> valid_ext Q -> valid_ext S ->
  same_ext ck (PQ <- ept_add ck P Q ;; ept_add ck PQ S) (QS <- ept_add ck Q S ;; ept_add ck P QS).
Proof. exact C30_assoc_stmt. Qed.
Print Assumptions C30_assoc.

Theorem C30_identity : forall ck P, valid_ext P ->
  same_ext ck (ept_add ck P ept_identity) (Ok P) /\ same_ext ck (ept_add ck ept_identity P) (Ok P).
Proof. exact C30_identity_stmt. Qed.
Print Assumptions C30_identity.

Theorem C30_inverse : forall ck P, valid_ext P ->
  same_ext ck (N <- ept_neg ck P ;; ept_add ck P N) (Ok ept_identity).
Proof. exact C30_inverse_stmt. Qed.
Print Assumptions C30_inverse.

Theorem C30_sub : forall ck P Q, valid_ext P -> valid_ext Q ->
  same_ext ck (ept_sub ck P Q) (N <- ept_neg ck Q ;; ept_add ck P N).
Proof. exact C30_sub_stmt. Qed.
Print Assumptions C30_sub.

Example C30_nonvacuous : valid_ext BASEPOINT /\ valid_ext order2_ext /\ ept_eqb true BASEPOINT order2_ext = Ok false.
Proof. exact C30_ex. Qed.

(** ** C31: Edwards negation and subtraction *)

Theorem C31_neg : forall ck P A, ext_rep P A -> returns_ext (ept_neg ck P) (opposite A).
Proof. exact C31_neg_stmt. Qed.
Print Assumptions C31_neg.

Theorem C31_sub : forall ck P Q A B, ext_rep P A -> ext_rep Q B ->
  returns_ext (ept_sub ck P Q) (sum A (opposite B)).
Proof. exact C31_sub_stmt. Qed.
Print Assumptions C31_sub.

Theorem C31_neg_affine : forall ck P A, aff_rep P A ->
  exists R, apt_neg ck P = Ok R /\ aff_rep R (opposite A).
Proof. exact C31_neg_affine_stmt. Qed.
Print Assumptions C31_neg_affine.

Example C31_nonvacuous : ext_rep BASEPOINT base /\ opposite base <> base.
Proof. exact C31_ex. Qed.

(** ** C32: Projective arithmetic agrees with the affine law *)

Theorem C32_add : forall ck P Q A B, proj_rep P A -> proj_rep Q B ->
  returns_proj (ppt_add ck P Q) (sum A B).
Proof. exact C32_add_stmt. Qed.
Print Assumptions C32_add.

Theorem C32_sub : forall ck P Q A B, proj_rep P A -> proj_rep Q B ->
  returns_proj (ppt_sub ck P Q) (sum A (opposite B)).
Proof. exact C32_sub_stmt. Qed.
Print Assumptions C32_sub.

Theorem C32_neg : forall ck P A, proj_rep P A -> returns_proj (ppt_neg ck P) (opposite A).
Proof. exact C32_neg_stmt. Qed.
Print Assumptions C32_neg.

Theorem C32_double : forall ck P A, proj_rep P A -> returns_proj (ppt_double ck P) (sum A A).
Proof. exact C32_double_stmt. Qed.
Print Assumptions C32_double.

Theorem C32_identity : proj_rep ppt_identity origin /\ ext_rep ept_identity origin.
Proof. exact C32_identity_stmt. Qed.
Print Assumptions C32_identity.

Example C32_nonvacuous : proj_rep (ppt_of_ept BASEPOINT) base /\ proj_rep (ppt_of_ept order2_ext) order2.
Proof. exact C32_ex. Qed.

(** ** C33: Coordinate conversions preserve the point *)

Theorem C33_ext_to_proj : forall P A, ext_rep P A -> proj_rep (ppt_of_ept P) A.
Proof. exact C33_ext_to_proj_stmt. Qed.
Print Assumptions C33_ext_to_proj.

Theorem C33_aff_to_proj : forall P A, aff_rep P A -> proj_rep (ppt_of_apt P) A.
Proof. exact C33_aff_to_proj_stmt. Qed.
Print Assumptions C33_aff_to_proj.

Theorem C33_aff_to_ext : forall ck P A, aff_rep P A -> returns_ext (ept_of_apt ck P) A.
Proof. exact C33_aff_to_ext_stmt. Qed.
Print Assumptions C33_aff_to_ext.

Theorem C33_proj_to_ext : forall ck P A, proj_rep P A -> returns_ext (ept_of_ppt ck P) A.
Proof. exact C33_proj_to_ext_stmt. Qed.
Print Assumptions C33_proj_to_ext.

Theorem C33_ext_to_aff : forall ck P A, ext_rep P A -> exists R, apt_of_ept ck P = Ok R /\ aff_rep R A.
Proof. exact C33_ext_to_aff_stmt. Qed.
Print Assumptions C33_ext_to_aff.

Theorem C33_proj_to_aff : forall ck P A, proj_rep P A -> exists R, apt_of_ppt ck P = Ok R /\ aff_rep R A.
Proof. exact C33_proj_to_aff_stmt. Qed.
Print Assumptions C33_proj_to_aff.

(** Conversion to affine coordinates divides by Z, and panics exactly when Z = 0. *)
Theorem C33_ext_to_aff_panics : forall ck P, reduced_ext P ->
  (apt_of_ept ck P = Panic <-> fval (eZ P) = 0%Z) /\
  (fval (eZ P) <> 0%Z -> exists R, apt_of_ept ck P = Ok R /\ fcanon (aX R) /\ fcanon (aY R) /\
     residue (aX R) = residue (eX P) / residue (eZ P) /\ residue (aY R) = residue (eY P) / residue (eZ P)).
Proof. exact C33_ext_to_aff_panics_stmt. Qed.
Print Assumptions C33_ext_to_aff_panics.

Theorem C33_proj_to_aff_panics : forall ck P, reduced_proj P ->
  (apt_of_ppt ck P = Panic <-> fval (pZ P) = 0%Z) /\
  (fval (pZ P) <> 0%Z -> exists R, apt_of_ppt ck P = Ok R /\ fcanon (aX R) /\ fcanon (aY R) /\
     residue (aX R) = residue (pX P) / residue (pZ P) /\ residue (aY R) = residue (pY P) / residue (pZ P)).
Proof. exact C33_proj_to_aff_panics_stmt. Qed.
Print Assumptions C33_proj_to_aff_panics.

Example C33_nonvacuous : aff_rep (AP (eX BASEPOINT) (eY BASEPOINT)) base /\ reduced_ext order2_ext /\
  fval (eZ order2_ext) = 7%Z.
Proof. exact C33_ex. Qed.

(** ** C34: Point equality is equality of affine points *)

Theorem C34_ext_eq : forall ck P Q, reduced_ext P -> reduced_ext Q ->
  fval (eZ P) <> 0%Z -> fval (eZ Q) <> 0%Z ->
  exists b, ept_eqb ck P Q = Ok b /\
    (b = true <-> residue (eX P) / residue (eZ P) = residue (eX Q) / residue (eZ Q) /\
                  residue (eY P) / residue (eZ P) = residue (eY Q) / residue (eZ Q)).
Proof. exact C34_ext_eq_stmt. Qed.
Print Assumptions C34_ext_eq.

Theorem C34_proj_eq : forall ck P Q, reduced_proj P -> reduced_proj Q ->
  fval (pZ P) <> 0%Z -> fval (pZ Q) <> 0%Z ->
  exists b, ppt_eqb ck P Q = Ok b /\
    (b = true <-> residue (pX P) / residue (pZ P) = residue (pX Q) / residue (pZ Q) /\
                  residue (pY P) / residue (pZ P) = residue (pY Q) / residue (pZ Q)).
Proof. exact C34_proj_eq_stmt. Qed.
Print Assumptions C34_proj_eq.

Theorem C34_aff_eq : forall P Q, fcanon (aX P) -> fcanon (aY P) -> fcanon (aX Q) -> fcanon (aY Q) ->
  (apt_eqb P Q = true <-> P = Q).
Proof. exact C34_aff_eq_stmt. Qed.
Print Assumptions C34_aff_eq.

(** On valid points: equality of the curve points represented. *)
Theorem C34_valid_eq : forall ck P Q A B, ext_rep P A -> ext_rep Q B ->
  exists b, ept_eqb ck P Q = Ok b /\ (b = true <-> A = B).
Proof. exact C34_valid_eq_stmt. Qed.
Print Assumptions C34_valid_eq.

(** Two representations of the same point, neither with Z = 1 in common. *)
Example C34_nonvacuous : reduced_ext order2_ext /\ fval (eZ order2_ext) = 7%Z /\
  ept_eqb true order2_ext (EP fe_zero fe_minus_one fe_one fe_zero) = Ok true.
Proof. exact C34_ex. Qed.

(** ** C35: is_valid characterises curve membership *)

Theorem C35_aff : forall ck P, fcanon (aX P) -> fcanon (aY P) ->
  exists b, apt_is_valid ck P = Ok b /\ (b = true <-> on_curve (residue (aX P), residue (aY P))).
Proof. exact C35_aff_stmt. Qed.
Print Assumptions C35_aff.

Theorem C35_proj : forall ck P, reduced_proj P -> fval (pZ P) <> 0%Z ->
  exists b, ppt_is_valid ck P = Ok b /\
    (b = true <-> on_curve (residue (pX P) / residue (pZ P), residue (pY P) / residue (pZ P))).
Proof. exact C35_proj_stmt. Qed.
Print Assumptions C35_proj.

Theorem C35_ext_partial : forall ck P, reduced_ext P -> fval (eZ P) <> 0%Z ->
  exists b, ept_is_valid ck P = Ok b /\
    (b = true <-> on_curve (residue (eX P) / residue (eZ P), residue (eY P) / residue (eZ P))).
Proof. exact C35_ext_partial_stmt. Qed.
Print Assumptions C35_ext_partial.

(** Together with the relation XY = ZT the check decides validity. *)
Theorem C35_ext_with_T : forall ck P, reduced_ext P -> fval (eZ P) <> 0%Z ->
  residue (eX P) * residue (eY P) = residue (eZ P) * residue (eT P) ->
  exists b, ept_is_valid ck P = Ok b /\ (b = true <-> valid_ext P).
Proof. exact C35_ext_with_T_stmt. Qed.
Print Assumptions C35_ext_with_T.

(** Accepted with Z = 0, where the point has no affine coordinates. *)
Theorem C35_zero_z_refuted : exists P, reduced_ext P /\ fval (eZ P) = 0%Z /\
  forall ck, ept_is_valid ck P = Ok true /\ apt_of_ept ck P = Panic.
Proof. exact C35_zero_z_refuted_stmt. Qed.
Print Assumptions C35_zero_z_refuted.

(** The T coordinate is not checked: accepted, but adding it to itself goes wrong. *)
Theorem C35_t_refuted : exists P, reduced_ext P /\ fval (eZ P) <> 0%Z /\ ~ valid_ext P /\
  (forall ck, ept_is_valid ck P = Ok true) /\
  (forall ck, exists R, ept_double ck P = Ok R /\ ept_is_valid ck R = Ok false).
Proof. exact C35_t_refuted_stmt. Qed.
Print Assumptions C35_t_refuted.

Example C35_nonvacuous : reduced_ext order2_ext /\ fval (eZ order2_ext) <> 0%Z /\
  residue (eX order2_ext) * residue (eY order2_ext) = residue (eZ order2_ext) * residue (eT order2_ext).
Proof. exact C35_ex. Qed.

(** ** C36: Scalar multiplication by double-and-add *)

Theorem C36_ext_mul : forall ck P A n, ext_rep P A -> sloadable n ->
  returns_ext (ept_mul ck P n) (multiple (sval n) A).
Proof. exact C36_ext_mul_stmt. Qed.
Print Assumptions C36_ext_mul.

Theorem C36_proj_mul : forall ck P A n, proj_rep P A -> sloadable n ->
  returns_proj (ppt_mul ck P n) (multiple (sval n) A).
Proof. exact C36_proj_mul_stmt. Qed.
Print Assumptions C36_proj_mul.

Theorem C36_double_and_add : forall ck P A n, ext_rep P A -> sloadable n ->
  returns_ext (double_and_add (ept_add ck) (ept_double ck) ept_identity P n) (multiple (sval n) A).
Proof. exact C36_double_and_add_stmt. Qed.
Print Assumptions C36_double_and_add.

Example C36_nonvacuous : ext_rep BASEPOINT base /\ sloadable max_scalar /\ sval max_scalar = (2 ^ 256 - 1)%Z.
Proof. exact C36_ex. Qed.

(** ** C37: Left-to-right binary multiplication *)

(** What the code computes for every scalar: bits 249 and up are ignored. *)
Theorem C37_ltr_low_bits : forall ck P A n, ext_rep P A -> sloadable n ->
  returns_ext (ltr_bin_mul (ept_add ck) (ept_double ck) ept_identity P n) (multiple (sval n mod 2 ^ 249) A) /\
  forall P', proj_rep P' A ->
  returns_proj (ltr_bin_mul (ppt_add ck) (ppt_double ck) ppt_identity P' n) (multiple (sval n mod 2 ^ 249) A).
Proof. exact C37_ltr_low_bits_stmt. Qed.
Print Assumptions C37_ltr_low_bits.

(** Full statement: for every reduced scalar.  Missing: scalars from 2^249 to L - 1. *)
Theorem C37_ltr_partial : forall ck P A n, ext_rep P A -> scanon n -> (sval n < 2 ^ 249)%Z ->
  returns_ext (ltr_bin_mul (ept_add ck) (ept_double ck) ept_identity P n) (multiple (sval n) A).
Proof. exact C37_ltr_partial_stmt. Qed.
Print Assumptions C37_ltr_partial.

Example C37_nonvacuous : ext_rep BASEPOINT base /\ scanon (SC 4503599627370495 4503599627370495 4503599627370495 4503599627370495 2199023255551) /\
  sval (SC 4503599627370495 4503599627370495 4503599627370495 4503599627370495 2199023255551) = (2 ^ 249 - 1)%Z.
Proof. exact C37_ex. Qed.

(** ** C38: NAF multiplication *)

Theorem C38_naf_mul : forall ck P A n, ext_rep P A -> scanon n ->
  returns_ext (binary_naf_mul ck (ept_add ck) (ept_sub ck) (ept_double ck) ept_identity P n)
    (multiple (sval n) A).
Proof. exact C38_naf_mul_stmt. Qed.
Print Assumptions C38_naf_mul.

Theorem C38_naf_mul_proj : forall ck P A n, proj_rep P A -> scanon n ->
  returns_proj (binary_naf_mul ck (ppt_add ck) (ppt_sub ck) (ppt_double ck) ppt_identity P n)
    (multiple (sval n) A).
Proof. exact C38_naf_mul_proj_stmt. Qed.
Print Assumptions C38_naf_mul_proj.

Example C38_nonvacuous : ext_rep BASEPOINT base /\ scanon sc_minus_one /\ sval sc_minus_one = (L - 1)%Z.
Proof. exact C38_ex. Qed.

(** ** C39: Scalar multiplication laws *)

Theorem C39_mul_add_points : forall ck P Q n, valid_ext P -> valid_ext Q -> sloadable n ->
  same_ext ck (R <- ept_add ck P Q ;; ept_mul ck R n)
              (nP <- ept_mul ck P n ;; nQ <- ept_mul ck Q n ;; ept_add ck nP nQ).
Proof. exact C39_mul_add_points_stmt. Qed.
Print Assumptions C39_mul_add_points.

Theorem C39_mul_neg : forall ck P n, valid_ext P -> sloadable n ->
  same_ext ck (N <- ept_neg ck P ;; ept_mul ck N n) (nP <- ept_mul ck P n ;; ept_neg ck nP).
Proof. exact C39_mul_neg_stmt. Qed.
Print Assumptions C39_mul_neg.

(** For every valid point, as long as the integers do not exceed the scalar range. *)
Theorem C39_mul_integers : forall ck P a b c, valid_ext P -> sloadable a -> sloadable b -> sloadable c ->
  (sval c = sval a + sval b)%Z ->
  same_ext ck (ept_mul ck P c) (aP <- ept_mul ck P a ;; bP <- ept_mul ck P b ;; ept_add ck aP bP).
Proof. exact C39_mul_integers_stmt. Qed.
Print Assumptions C39_mul_integers.

Example C39_nonvacuous : valid_ext BASEPOINT /\ valid_ext order2_ext /\ sloadable max_scalar.
Proof. exact C39_ex. Qed.

(** ** C40: Cofactor and power-of-two multiplication *)

Theorem C40_cofactor : forall ck P A, ext_rep P A ->
  returns_ext (mul_by_cofactor (ept_mul ck) P) (multiple 8 A).
Proof. exact C40_cofactor_stmt. Qed.
Print Assumptions C40_cofactor.

Theorem C40_cofactor_proj : forall ck P A, proj_rep P A ->
  returns_proj (mul_by_cofactor (ppt_mul ck) P) (multiple 8 A).
Proof. exact C40_cofactor_proj_stmt. Qed.
Print Assumptions C40_cofactor_proj.

Theorem C40_pow2 : forall ck P A k, ext_rep P A -> (0 <= k < 250)%Z ->
  returns_ext (mul_by_pow_2 ck (ept_mul ck) P k) (multiple (2 ^ k) A).
Proof. exact C40_pow2_stmt. Qed.
Print Assumptions C40_pow2.

Theorem C40_pow2_proj : forall ck P A k, proj_rep P A -> (0 <= k < 250)%Z ->
  returns_proj (mul_by_pow_2 ck (ppt_mul ck) P k) (multiple (2 ^ k) A).
Proof. exact C40_pow2_proj_stmt. Qed.
Print Assumptions C40_pow2_proj.

Theorem C40_pow2_panics : forall ck P Q k, (250 <= k)%Z ->
  mul_by_pow_2 ck (ept_mul ck) P k = Panic /\ mul_by_pow_2 ck (ppt_mul ck) Q k = Panic.
Proof. exact C40_pow2_panics_stmt. Qed.
Print Assumptions C40_pow2_panics.

Example C40_nonvacuous : ext_rep BASEPOINT base /\ (0 <= 249 < 250)%Z /\ multiple 8 order2 = origin.
Proof. exact C40_ex. Qed.

(** ** C41: Construction from a y coordinate is sound and complete *)

(** A point is returned exactly when the curve has one with that y coordinate. *)
Theorem C41_ext : forall ck y s, fcanon y -> exists o, ept_new_from_y_coord ck y s = Ok o /\
  match o with
  | Some P => exists x, ext_rep P (x, residue y)
  | None => forall x, ~ on_curve (x, residue y)
  end.
Proof. exact C41_ext_stmt. Qed.
Print Assumptions C41_ext.

Theorem C41_proj : forall ck y s, fcanon y -> exists o, ppt_new_from_y_coord ck y s = Ok o /\
  match o with
  | Some P => exists x, proj_rep P (x, residue y)
  | None => forall x, ~ on_curve (x, residue y)
  end.
Proof. exact C41_proj_stmt. Qed.
Print Assumptions C41_proj.

(** The two signs give opposite points. *)
Theorem C41_signs : forall ck y P Q A, fcanon y ->
  ept_new_from_y_coord ck y false = Ok (Some P) -> ept_new_from_y_coord ck y true = Ok (Some Q) ->
  ext_rep P A -> ext_rep Q (opposite A).
Proof. exact C41_signs_stmt. Qed.
Print Assumptions C41_signs.

(** The divisor d*y^2 + 1 of the code is never zero. *)
Theorem C41_divisor : forall y, cd * (y * y) + 1 <> 0.
Proof. exact C41_divisor_stmt. Qed.
Print Assumptions C41_divisor.

Example C41_nonvacuous : fcanon (eY BASEPOINT) /\ on_curve (toF base_x, residue (eY BASEPOINT)) /\
  fcanon (FE 6 0 0 0 0) /\ forall x, ~ on_curve (x, residue (FE 6 0 0 0 0)).
Proof. exact C41_ex. Qed.

(** ** C42: Edwards compression round trip *)

Theorem C42_compress : forall ck P A, ext_rep P A ->
  exists b, ept_compress ck P = Ok b /\ is_bytes 32 b /\
    (le_value b mod 2 ^ 255 = Fval (snd A))%Z.
Proof. exact C42_compress_stmt. Qed.
Print Assumptions C42_compress.

(** The round trip gives back the point exactly when its y coordinate is below 2^252. *)
Theorem C42_round_trip_partial : forall ck P A b, ext_rep P A -> ept_compress ck P = Ok b ->
  ((Fval (snd A) < 2 ^ 252)%Z <->
   exists Q, cey_decompress ck b = Ok (Some Q) /\ ext_rep Q A).
Proof. exact C42_round_trip_partial_stmt. Qed.
Print Assumptions C42_round_trip_partial.

(** The point (0,-1) does not survive the round trip. *)
Theorem C42_round_trip_refuted : exists P, valid_ext P /\ forall ck b, ept_compress ck P = Ok b ->
  ~ exists Q, cey_decompress ck b = Ok (Some Q) /\ ept_eqb ck Q P = Ok true.
Proof. exact C42_round_trip_refuted_stmt. Qed.
Print Assumptions C42_round_trip_refuted.

Example C42_nonvacuous : ext_rep BASEPOINT base /\ (Fval (snd base) < 2 ^ 252)%Z /\
  ext_rep order2_ext order2 /\ ~ (Fval (snd order2) < 2 ^ 252)%Z.
Proof. exact C42_ex. Qed.

(** ** C43: Edwards decompression is total and sound *)

Theorem C43_decompress : forall ck b, is_bytes 32 b -> exists o, cey_decompress ck b = Ok o /\
  match o with
  | Some P => exists x, ext_rep P (x, toF (le_value b mod 2 ^ 252))
  | None => forall x, ~ on_curve (x, toF (le_value b mod 2 ^ 252))
  end.
Proof. exact C43_decompress_stmt. Qed.
Print Assumptions C43_decompress.

(** Flipping the top bit selects the opposite point. *)
Theorem C43_sign : forall ck b b' P P' A, is_bytes 32 b -> is_bytes 32 b' ->
  (le_value b' = le_value b + 2 ^ 255)%Z ->
  cey_decompress ck b = Ok (Some P) -> cey_decompress ck b' = Ok (Some P') ->
  ext_rep P A -> ext_rep P' (opposite A).
Proof. exact C43_sign_stmt. Qed.
Print Assumptions C43_sign.

(** Encodings are not unique: different strings decode to the same point. *)
Theorem C43_unique_refuted : exists b b', is_bytes 32 b /\ is_bytes 32 b' /\ b <> b' /\
  forall ck, exists P, cey_decompress ck b = Ok (Some P) /\ cey_decompress ck b' = Ok (Some P).
Proof. exact C43_unique_refuted_stmt. Qed.
Print Assumptions C43_unique_refuted.

Example C43_nonvacuous : is_bytes 32 BASEPOINT_COMPRESSED /\ (le_value BASEPOINT_COMPRESSED mod 2 ^ 252 = Fval (snd base))%Z.
Proof. exact C43_ex. Qed.

(** ** C44: Negating a compressed Edwards point *)

Theorem C44_neg : forall ck b P A, is_bytes 32 b -> cey_decompress ck b = Ok (Some P) -> ext_rep P A ->
  exists b' P', cey_neg ck b = Ok b' /\ is_bytes 32 b' /\ (le_value b' mod 2 ^ 255 = le_value b mod 2 ^ 252)%Z /\
    cey_decompress ck b' = Ok (Some P') /\ ext_rep P' (opposite A).
Proof. exact C44_neg_stmt. Qed.
Print Assumptions C44_neg.

Theorem C44_panics : forall ck b, is_bytes 32 b ->
  (cey_neg ck b = Panic <-> forall x, ~ on_curve (x, toF (le_value b mod 2 ^ 252))).
Proof. exact C44_panics_stmt. Qed.
Print Assumptions C44_panics.

Example C44_nonvacuous : is_bytes 32 (6 :: repeat 0 31)%Z /\
  (forall x, ~ on_curve (x, toF (le_value (6 :: repeat 0 31)%Z mod 2 ^ 252))) /\
  is_bytes 32 BASEPOINT_COMPRESSED /\ exists P, cey_decompress true BASEPOINT_COMPRESSED = Ok (Some P).
Proof. exact C44_ex. Qed.

(** ** C45: Random points are valid *)

(** The call returns a valid point unless no draw gives a y coordinate on the
    curve, in which case it consumes the whole stream. *)
Theorem C45_ext : forall ck draws, Forall (is_bytes 32) draws ->
  (exists P, ept_new_random_point ck draws = Ok P /\ valid_ext P) \/
  (ept_new_random_point ck draws = NoFuel /\
   Forall (fun d => forall x, ~ on_curve (x, toF (le_value d mod 2 ^ 251))) draws).
Proof. exact C45_ext_stmt. Qed.
Print Assumptions C45_ext.

Theorem C45_proj : forall ck draws, Forall (is_bytes 32) draws ->
  (exists P, ppt_new_random_point ck draws = Ok P /\ valid_proj P) \/
  (ppt_new_random_point ck draws = NoFuel /\
   Forall (fun d => forall x, ~ on_curve (x, toF (le_value d mod 2 ^ 251))) draws).
Proof. exact C45_proj_stmt. Qed.
Print Assumptions C45_proj.

(** The first draw fails, the second succeeds. *)
Example C45_nonvacuous : Forall (is_bytes 32) [6 :: repeat 0 31; 1 :: repeat 0 31]%Z /\
  (forall x, ~ on_curve (x, toF (le_value (6 :: repeat 0 31)%Z mod 2 ^ 251))) /\
  exists P, ept_new_random_point true [6 :: repeat 0 31; 1 :: repeat 0 31]%Z = Ok P.
Proof. exact C45_ex. Qed.

(** ** C46: coset4 lists the 4-torsion coset of a point *)

(** Three of the four entries are right: P, P + (j,0) and P + (0,-1) for a square
    root j of -1.  Missing: the entry P + (-j,0); in its place (second entry) the
    code returns a tuple that is not a curve point, for every P. *)
Theorem C46_coset4_partial : exists j, j * j = - (1) /\
  forall ck P A, ext_rep P A -> exists S U V, ept_coset4 ck P = Ok [P; S; U; V] /\
    ~ valid_ext S /\ ext_rep U (sum A (j, 0)) /\ ext_rep V (sum A (0, - (1))).
Proof. exact C46_coset4_partial_stmt. Qed.
Print Assumptions C46_coset4_partial.

Theorem C46_coset4_refuted : exists P, valid_ext P /\ forall ck, exists l, ept_coset4 ck P = Ok l /\
  ~ Forall valid_ext l.
Proof. exact C46_coset4_refuted_stmt. Qed.
Print Assumptions C46_coset4_refuted.

Example C46_nonvacuous : ext_rep BASEPOINT base /\ ext_rep order2_ext order2.
Proof. exact C46_ex. Qed.
