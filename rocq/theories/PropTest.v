(** * Properties proved in TestStmt.v, restated (written by tools/genprops.py) *)

From Coq Require Import ZArith Znumtheory List Bool Lia Ring Field.
From Verif Require Import Machine FieldModel ScalarModel EdwardsModel TableModel RistrettoModel DocTestModel TestModel Spec MachineFacts
  FieldLimb FieldOps FieldBytes NumTheory Primes Fp FieldF FieldInv FieldStmt ScalarOps ScalarBits ScalarStmt Curve CurveGroup EdwardsF
  PointMul EdwardsY EdwardsStmt RistSpec CodeSpec Rist RistF RistE RistrettoStmt CodeStmt GroupCheck GroupOrder GroupStmt LawsStmt ProtoStmt DocTestStmt.
Import ListNotations.
Open Scope F_scope.
From Verif Require Import TestStmt.

(** ** C93: The tests of the crate that state laws, for all inputs *)

(** `extended_double_and_add`: the test passes at every point. *)
Theorem C93_eight : forall ck P, valid_ext P -> test_double_and_add ck P = Ok tt.
Proof. exact C93_eight_stmt. Qed.
Print Assumptions C93_eight.

(** `naf_bin_mul`: the two multiplications agree on every point and every reduced scalar. *)
Theorem C93_naf : forall ck P n, valid_ext P -> scanon n -> test_naf ck P n = Ok tt.
Proof. exact C93_naf_stmt. Qed.
Print Assumptions C93_naf.

(** `left_to_right_bin_mul`: the test passes exactly when the multiple by the scalar without
    its bit 249 is the multiple by the scalar. *)
Theorem C93_ltr : forall ck P A n, ext_rep P A -> scanon n ->
  (multiple (sval n mod 2 ^ 249) A = multiple (sval n) A -> test_ltr ck P n = Ok tt) /\
  (multiple (sval n mod 2 ^ 249) A <> multiple (sval n) A -> test_ltr ck P n = Panic).
Proof. exact C93_ltr_stmt. Qed.
Print Assumptions C93_ltr.

(** With `Scalar::two_pow_k(k)` as scalar it passes at every point for k up to 248. *)
Theorem C93_ltr_pow : forall ck P k n, valid_ext P -> (0 <= k < 249)%Z -> sc_two_pow_k ck k = Ok n ->
  test_ltr ck P n = Ok tt.
Proof. exact C93_ltr_pow_stmt. Qed.
Print Assumptions C93_ltr_pow.

(** At k = 249, the largest power the scalars hold, it fails at the base point. *)
Theorem C93_ltr_pow_refuted : exists P k n, valid_ext P /\ (0 <= k < 250)%Z /\
  forall ck, sc_two_pow_k ck k = Ok n /\ test_ltr ck P n = Panic.
Proof. exact C93_ltr_pow_refuted_stmt. Qed.
Print Assumptions C93_ltr_pow_refuted.

(** `unique_basepoint_test`: the test passes exactly when the ordinate belongs to a point
    whose order divides the scalar modulus. *)
Theorem C93_basepoint : forall ck y s, fcanon y ->
  ((exists A, has_y (residue y) s A /\ multiple L A = origin) -> test_unique_basepoint ck y s = Ok tt) /\
  (~ (exists A, has_y (residue y) s A /\ multiple L A = origin) -> test_unique_basepoint ck y s = Panic).
Proof. exact C93_basepoint_stmt. Qed.
Print Assumptions C93_basepoint.

(** `four_coset_eq_basepoint`: the test passes at every point.  What it runs through: the
    point, the point with its coordinates exchanged, and the sums with (j,0) and (0,-1). *)
Theorem C93_coset : forall ck P, valid_ext P -> test_four_coset_eq ck P = Ok tt.
Proof. exact C93_coset_stmt. Qed.
Print Assumptions C93_coset.

Theorem C93_coset_entries : exists j, j * j = - (1) /\
  forall ck P A, ext_rep P A -> exists S U V, rp_coset4 ck P = Ok [P; S; U; V] /\
    residue (eZ S) <> 0 /\ residue (eX S) / residue (eZ S) = snd A /\ residue (eY S) / residue (eZ S) = fst A /\
    ext_rep U (sum A (j, 0)) /\ ext_rep V (sum A (0, - (1))).
Proof. exact C93_coset_entries_stmt. Qed.
Print Assumptions C93_coset_entries.

(** So the assertion does not see that the second entry is no point of the curve. *)
Theorem C93_coset_refuted : exists P, valid_ext P /\ forall ck, test_four_coset_eq ck P = Ok tt /\
  exists l Q, rp_coset4 ck P = Ok l /\ In Q l /\ rp_eqb ck Q P = Ok true /\ ~ valid_ext Q.
Proof. exact C93_coset_refuted_stmt. Qed.
Print Assumptions C93_coset_refuted.

(** Compressing that entry can panic, for an element of the group the library works with. *)
Theorem C93_coset_panic_refuted : exists P, even_ext P /\ forall ck, exists l Q,
  rp_coset4 ck P = Ok l /\ In Q l /\ ept_compress ck Q = Panic.
Proof. exact C93_coset_panic_refuted_stmt. Qed.
Print Assumptions C93_coset_panic_refuted.

(** `decompress_id`: the test passes on the string of zeros and on no other string. *)
Theorem C93_identity : forall ck b, is_bytes 32 b ->
  (b = repeat 0%Z 32 -> test_decompress_id ck b = Ok tt) /\
  (b <> repeat 0%Z 32 -> test_decompress_id ck b = Panic).
Proof. exact C93_identity_stmt. Qed.
Print Assumptions C93_identity.

(** `four_torsion_diff`: four times the difference between a point and what its encoding
    decodes to is the identity, for every even point. *)
Theorem C93_torsion : forall ck P, even_ext P -> test_four_torsion_diff ck P = Ok tt.
Proof. exact C93_torsion_stmt. Qed.
Print Assumptions C93_torsion.

(** `four_torsion_diff_random`: whatever the generator delivers. *)
Theorem C93_torsion_random : forall ck draw, is_bytes 32 draw -> test_four_torsion_diff_random ck draw = Ok tt.
Proof. exact C93_torsion_random_stmt. Qed.
Print Assumptions C93_torsion_random.

(** `random_point_validity`: whatever the generator delivers, any number of rounds. *)
Theorem C93_random_points : forall ck draws, Forall (is_bytes 64) draws -> test_random_points ck draws = Ok tt.
Proof. exact C93_random_points_stmt. Qed.
Print Assumptions C93_random_points.

(** `validity_check`: any number of rounds; the test passes exactly when the ordinate
    belongs to a point whose order does not divide the scalar modulus. *)
Theorem C93_validity : forall ck n y s, fcanon y ->
  ((exists A, has_y (residue y) s A /\ multiple L A <> origin) -> test_validity ck n y s = Ok tt) /\
  (~ (exists A, has_y (residue y) s A /\ multiple L A <> origin) -> test_validity ck n y s = Panic).
Proof. exact C93_validity_stmt. Qed.
Print Assumptions C93_validity.

Example C93_nonvacuous : valid_ext BASEPOINT /\ even_ext BASEPOINT /\ scanon sc_minus_one /\
  (exists y, fcanon y /\ has_y (residue y) false base /\ multiple L base = origin) /\
  fcanon fe_minus_one /\ has_y (residue fe_minus_one) false order2 /\ multiple L order2 <> origin /\
  is_bytes 32 (repeat 0%Z 32) /\ is_bytes 32 RISTRETTO_BASEPOINT_COMPRESSED.
Proof. exact C93_ex. Qed.
