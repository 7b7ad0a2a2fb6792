(** * Properties proved in GroupStmt.v, restated (written by tools/genprops.py) *)

From Coq Require Import ZArith Znumtheory List Bool Lia Ring Field.
From Verif Require Import Machine FieldModel ScalarModel EdwardsModel TableModel RistrettoModel Spec MachineFacts FieldLimb
  FieldOps FieldBytes NumTheory Primes Fp FieldF FieldInv ScalarOps ScalarNaf Curve CurveGroup EdwardsF PointMul EdwardsY
  EdwardsStmt RistSpec Rist RistF RistE RistrettoStmt GroupCheck GroupOrder.
Import ListNotations.
Open Scope Z_scope.
From Verif Require Import GroupStmt.

(** ** C37: Left-to-right binary multiplication *)

(** The scalar 2^249, reduced since 2^249 < L, gives the neutral element instead of 2^249 B. *)
Theorem C37_ltr_refuted : exists P A n, ext_rep P A /\ scanon n /\ sval n = 2 ^ 249 /\
  forall ck, returns_ext (ltr_bin_mul (ept_add ck) (ept_double ck) ept_identity P n) origin /\
    ~ returns_ext (ltr_bin_mul (ept_add ck) (ept_double ck) ept_identity P n) (multiple (sval n) A).
Proof. exact C37_ltr_refuted_stmt. Qed.
Print Assumptions C37_ltr_refuted.

(** ** C39: Scalar multiplication laws *)

Theorem C39_scalar_add : forall ck P m a b, ext_rep P (multiple m base) -> 0 <= m -> scanon a -> scanon b ->
  same_ext ck (s <- sc_add ck a b ;; ept_mul ck P s) (aP <- ept_mul ck P a ;; bP <- ept_mul ck P b ;; ept_add ck aP bP) /\
  same_ext ck (s <- sc_sub ck a b ;; ept_mul ck P s) (aP <- ept_mul ck P a ;; bP <- ept_mul ck P b ;; ept_sub ck aP bP) /\
  same_ext ck (s <- sc_neg ck a ;; ept_mul ck P s) (aP <- ept_mul ck P a ;; ept_neg ck aP).
Proof. exact C39_scalar_add_stmt. Qed.
Print Assumptions C39_scalar_add.

Theorem C39_scalar_mul : forall ck P m a b, ext_rep P (multiple m base) -> 0 <= m -> scanon a -> scanon b ->
  same_ext ck (s <- sc_mul ck a b ;; ept_mul ck P s) (bP <- ept_mul ck P b ;; ept_mul ck bP a).
Proof. exact C39_scalar_mul_stmt. Qed.
Print Assumptions C39_scalar_mul.

(** Not for all valid points: (-1) + 1 = 0 in the scalars, but (L-1)P + P = P for the point (0,-1). *)
Theorem C39_all_points_refuted : exists P a b, valid_ext P /\ scanon a /\ scanon b /\ forall ck,
  ~ same_ext ck (s <- sc_add ck a b ;; ept_mul ck P s) (aP <- ept_mul ck P a ;; bP <- ept_mul ck P b ;; ept_add ck aP bP).
Proof. exact C39_all_points_refuted_stmt. Qed.
Print Assumptions C39_all_points_refuted.

(** A multiple of the basepoint other than itself, and two scalars with a + b > L. *)
Example C39_group_nonvacuous : ext_rep BASEPOINT (multiple (L + 1) base) /\ scanon sc_minus_one /\ scanon (SC 2 0 0 0 0).
Proof. exact C39_group_ex. Qed.

(** ** C55: The basepoint has prime order L *)

Theorem C55_primes : prime p /\ prime L.
Proof. exact C55_primes_stmt. Qed.
Print Assumptions C55_primes.

Theorem C55_order : forall n, 0 <= n -> (multiple n base = origin <-> (L | n)).
Proof. exact C55_order_stmt. Qed.
Print Assumptions C55_order.

(** The same for the code: the product of the basepoint by a scalar equals the identity
    exactly for multiples of L; in particular for L itself. *)
Theorem C55_mul_identity : forall ck n, sloadable n -> exists R r,
  ept_mul ck BASEPOINT n = Ok R /\ ept_eqb ck R ept_identity = Ok r /\ (r = true <-> (L | sval n)).
Proof. exact C55_mul_identity_stmt. Qed.
Print Assumptions C55_mul_identity.

(** Different reduced scalars give different multiples of the basepoint. *)
Theorem C55_faithful : forall ck m n R S, scanon m -> scanon n ->
  ept_mul ck BASEPOINT m = Ok R -> ept_mul ck BASEPOINT n = Ok S -> ept_eqb ck R S = Ok true -> m = n.
Proof. exact C55_faithful_stmt. Qed.
Print Assumptions C55_faithful.

Example C55_nonvacuous : sloadable SC_L /\ sval SC_L = L /\ scanon sc_minus_one /\ scanon sc_one /\ sc_minus_one <> sc_one.
Proof. exact C55_ex. Qed.

(** ** C56: Windowed multiplication of the basepoint *)

(** What the code computes for every reduced scalar and width 2 to 6: the digits of the
    recoding are replaced by 2d-1 (2d+1 for negative digits). *)
Theorem C56_window : forall ck w k, scanon k -> 2 <= w <= 6 -> (w = 6 -> sval k <> L - 2) ->
  exists ds, sc_compute_window_NAF ck k w = Ok ds /\ digits_value ds = sval k /\
    returns_ext (window_naf_mul ck k w) (multiple (digits_value (map table_digit ds) mod L) base).
Proof. exact C56_window_stmt. Qed.
Print Assumptions C56_window.

(** Full statement: for every width 2 to 6.  Holds for width 2 only; see below. *)
Theorem C56_window_partial : forall ck k, scanon k ->
  returns_ext (window_naf_mul ck k 2) (multiple (sval k) base).
Proof. exact C56_window_partial_stmt. Qed.
Print Assumptions C56_window_partial.

(** Every width from 3 to 6 is wrong: 3B comes out as 5B. *)
Theorem C56_window_refuted : forall w, 3 <= w <= 6 -> exists k, scanon k /\ sval k = 3 /\ forall ck,
  returns_ext (window_naf_mul ck k w) (multiple 5 base) /\
  ~ returns_ext (window_naf_mul ck k w) (multiple (sval k) base).
Proof. exact C56_window_refuted_stmt. Qed.
Print Assumptions C56_window_refuted.

Example C56_nonvacuous : scanon sc_minus_one /\ sval sc_minus_one = L - 1 /\ L - 1 <> L - 2.
Proof. exact C56_ex. Qed.

(** ** C57: The curve has 8L points and the Ristretto group has prime order L *)

(** The curve points form a group with one generator of order L and one of order 8. *)
Theorem C57_structure : exists T, on_curve T /\ multiple 8 T = origin /\ multiple 4 T <> origin /\
  forall A, on_curve A -> exists a b, 0 <= a < L /\ 0 <= b < 8 /\ A = sum (multiple a base) (multiple b T) /\
    forall a' b', 0 <= a' < L -> 0 <= b' < 8 -> A = sum (multiple a' base) (multiple b' T) -> a' = a /\ b' = b.
Proof. exact C57_structure_stmt. Qed.
Print Assumptions C57_structure.

(** The number of curve points is 8L. *)
Theorem C57_count : exists l : list xy, NoDup l /\ Z.of_nat (length l) = 8 * L /\ forall A, In A l <-> on_curve A.
Proof. exact C57_count_stmt. Qed.
Print Assumptions C57_count.

(** Even points, the ones RistrettoPoint works with, are the doubles. *)
Theorem C57_even : forall A, on_curve A -> (even_point A <-> exists C, on_curve C /\ A = sum C C).
Proof. exact C57_even_stmt. Qed.
Print Assumptions C57_even.

(** L times any such point is the identity for ==. *)
Theorem C57_order : forall ck P, even_ext P ->
  same_rist ck (rp_mul ck P SC_L) (Ok rp_identity).
Proof. exact C57_order_stmt. Qed.
Print Assumptions C57_order.

(** Every such point is n times the basepoint for exactly one reduced n. *)
Theorem C57_generator : forall ck P, even_ext P -> exists n, scanon n /\
  same_rist ck (rp_mul ck RISTRETTO_BASEPOINT n) (Ok P) /\
  forall m, scanon m -> same_rist ck (rp_mul ck RISTRETTO_BASEPOINT m) (Ok P) -> m = n.
Proof. exact C57_generator_stmt. Qed.
Print Assumptions C57_generator.

Example C57_nonvacuous : on_curve base /\ base <> origin /\ even_ext RISTRETTO_BASEPOINT /\
  even_ext order2_ext /\ order2 <> origin.
Proof. exact C57_ex. Qed.

(** ** C58: Ristretto is_valid *)

(** For every valid point, is_valid tells whether it is a multiple of the basepoint. *)
Theorem C58_is_valid : forall ck P A, ext_rep P A -> exists r, rp_is_valid ck P = Ok r /\
  (r = true <-> multiple L A = origin) /\ (r = true <-> exists n, 0 <= n < L /\ A = multiple n base).
Proof. exact C58_is_valid_stmt. Qed.
Print Assumptions C58_is_valid.

(** An accepted tuple with nonzero Z is on the curve. *)
Theorem C58_on_curve : forall ck P, reduced_ext P -> fval (eZ P) <> 0 -> rp_is_valid ck P = Ok true ->
  on_curve (residue (eX P) / residue (eZ P), residue (eY P) / residue (eZ P))%F.
Proof. exact C58_on_curve_stmt. Qed.
Print Assumptions C58_on_curve.

(** As a validity check of Ristretto points it fails: the point decoded from the compressed
    basepoint equals the basepoint, yet it is rejected while the basepoint is accepted. *)
Theorem C58_reject_refuted : exists P, forall ck,
  cr_decompress ck RISTRETTO_BASEPOINT_COMPRESSED = Ok (Some P) /\ obtainable ck P /\
  rp_eqb ck P RISTRETTO_BASEPOINT = Ok true /\ rp_is_valid ck P = Ok false /\
  rp_is_valid ck RISTRETTO_BASEPOINT = Ok true.
Proof. exact C58_reject_refuted_stmt. Qed.
Print Assumptions C58_reject_refuted.

Example C58_nonvacuous : ext_rep BASEPOINT base /\ ext_rep order2_ext order2 /\ reduced_ext BASEPOINT /\ fval (eZ BASEPOINT) <> 0.
Proof. exact C58_ex. Qed.

(** ** C64: Scalars modulo L act on Ristretto points; the group has prime order *)

(** Scalar arithmetic modulo L is compatible with == of Ristretto points for every point
    of the group, not only for multiples of the basepoint. *)
Theorem C64_scalar_add : forall ck P a b, even_ext P -> scanon a -> scanon b ->
  same_rist ck (s <- sc_add ck a b ;; rp_mul ck P s) (aP <- rp_mul ck P a ;; bP <- rp_mul ck P b ;; rp_add ck aP bP) /\
  same_rist ck (s <- sc_sub ck a b ;; rp_mul ck P s) (aP <- rp_mul ck P a ;; bP <- rp_mul ck P b ;; rp_sub ck aP bP) /\
  same_rist ck (s <- sc_neg ck a ;; rp_mul ck P s) (aP <- rp_mul ck P a ;; rp_neg ck aP).
Proof. exact C64_scalar_add_stmt. Qed.
Print Assumptions C64_scalar_add.

Theorem C64_scalar_mul : forall ck P a b, even_ext P -> scanon a -> scanon b ->
  same_rist ck (s <- sc_mul ck a b ;; rp_mul ck P s) (bP <- rp_mul ck P b ;; rp_mul ck bP a).
Proof. exact C64_scalar_mul_stmt. Qed.
Print Assumptions C64_scalar_mul.

(** Every point other than the identity has order exactly L. *)
Theorem C64_prime_order : forall ck P n, even_ext P -> rp_eqb ck P rp_identity = Ok false -> sloadable n ->
  exists R r, rp_mul ck P n = Ok R /\ rp_eqb ck R rp_identity = Ok r /\ (r = true <-> (L | sval n)).
Proof. exact C64_prime_order_stmt. Qed.
Print Assumptions C64_prime_order.

Example C64_nonvacuous : even_ext RISTRETTO_BASEPOINT /\ (forall ck, rp_eqb ck RISTRETTO_BASEPOINT rp_identity = Ok false) /\
  sloadable SC_L /\ scanon sc_minus_one /\ scanon (SC 2 0 0 0 0).
Proof. exact C64_ex. Qed.
