(** * Properties proved in OverStmt.v, restated (written by tools/genprops.py) *)

From Coq Require Import ZArith Znumtheory List Bool Lia.
From Verif Require Import Machine FieldModel ScalarModel EdwardsModel TableModel RistrettoModel Spec OverSpec MachineFacts
  FieldLimb FieldMul FieldOps FieldBytes ScalarLimb ScalarOps ScalarBits ScalarNaf ScalarStmt Curve CurveGroup EdwardsF
  PointMul EdwardsY EdwardsStmt GroupStmt LawsStmt.
Import ListNotations.
Open Scope Z_scope.
From Verif Require Import OverStmt.

(** ** C107: Recoding scalars that are not reduced *)

(** Scalars of up to 260 bits, as `Scalar([..])` and `IndexMut` let one write them. *)
Theorem C107_naf : forall ck k, slimbs k -> no_trap (sval k) -> 3 * sval k < 2 ^ 257 ->
  exists ds, sc_compute_NAF ck k = Ok ds /\ nonadjacent_form (sval k) ds.
Proof. exact C107_naf_stmt. Qed.
Print Assumptions C107_naf.

(** The form has a 257th digit. *)
Theorem C107_naf_long : forall ck k, slimbs k -> no_trap (sval k) -> 2 ^ 257 <= 3 * sval k ->
  sc_compute_NAF ck k = Panic.
Proof. exact C107_naf_long_stmt. Qed.
Print Assumptions C107_naf_long.

(** Exactly when the digits stand for the scalar modulo L. *)
Theorem C107_naf_exact : forall ck k, slimbs k ->
  ((exists ds, sc_compute_NAF ck k = Ok ds /\ digits_value ds mod L = sval k mod L) <->
   (no_trap (sval k) /\ 3 * sval k < 2 ^ 257)).
Proof. exact C107_naf_exact_stmt. Qed.
Print Assumptions C107_naf_exact.

(** It always ends, with digits or by writing past the array, and alike in both builds. *)
Theorem C107_naf_total : forall k, slimbs k ->
  (exists ds, forall ck, sc_compute_NAF ck k = Ok ds) \/ (forall ck, sc_compute_NAF ck k = Panic).
Proof. exact C107_naf_total_stmt. Qed.
Print Assumptions C107_naf_total.

(** The windowed recoding at every usable width. *)
Theorem C107_window_refuted : exists k, slimbs k /\ sval k = L + 28 /\ forall ck w, 2 <= w <= 6 ->
  exists ds, sc_compute_window_NAF ck k w = Ok ds /\ digits_value ds = 27.
Proof. exact C107_window_refuted_stmt. Qed.
Print Assumptions C107_window_refuted.

(** Multiplication reads 250 digits. *)
Theorem C107_naf_mul : forall ck P A n, ext_rep P A -> slimbs n -> 3 * sval n < 2 ^ 251 ->
  (L <= sval n -> sval n mod 4 <> 3) ->
  returns_ext (binary_naf_mul ck (ept_add ck) (ept_sub ck) (ept_double ck) ept_identity P n) (multiple (sval n) A).
Proof. exact C107_naf_mul_stmt. Qed.
Print Assumptions C107_naf_mul.

Theorem C107_naf_mul_proj : forall ck P A n, proj_rep P A -> slimbs n -> 3 * sval n < 2 ^ 251 ->
  (L <= sval n -> sval n mod 4 <> 3) ->
  returns_proj (binary_naf_mul ck (ppt_add ck) (ppt_sub ck) (ppt_double ck) ppt_identity P n) (multiple (sval n) A).
Proof. exact C107_naf_mul_proj_stmt. Qed.
Print Assumptions C107_naf_mul_proj.

(** `constants::L` itself: its recoding is the single digit -1, so L times a point comes out as its negation. *)
Theorem C107_order : forall ck P A, ext_rep P A ->
  sval SC_L = L /\ sc_compute_NAF ck SC_L = Ok (-1 :: repeat 0 255) /\
  returns_ext (binary_naf_mul ck (ept_add ck) (ept_sub ck) (ept_double ck) ept_identity P SC_L) (opposite A) /\
  returns_ext (ept_mul ck P SC_L) (multiple L A).
Proof. exact C107_order_stmt. Qed.
Print Assumptions C107_order.

(** The two multiplications of the crate disagree at L: one gives the identity, the other not. *)
Theorem C107_order_refuted : exists P n, valid_ext P /\ slimbs n /\ forall ck,
  returns_ext (ept_mul ck P n) origin /\
  ~ returns_ext (binary_naf_mul ck (ept_add ck) (ept_sub ck) (ept_double ck) ept_identity P n) origin.
Proof. exact C107_order_refuted_stmt. Qed.
Print Assumptions C107_order_refuted.

Example C107_nonvacuous : slimbs (past_L 1) /\ sval (past_L 1) = L + 1 /\ (L + 1) mod 4 <> 3 /\ 3 * (L + 1) < 2 ^ 251 /\
  no_trap (L + 1) /\ ~ no_trap L /\
  slimbs (SC 0 0 0 0 263882790666240) /\ sval (SC 0 0 0 0 263882790666240) = 15 * 2 ^ 252 /\
  no_trap (15 * 2 ^ 252) /\ 2 ^ 257 <= 3 * (15 * 2 ^ 252) /\ ext_rep BASEPOINT base.
Proof. exact C107_ex. Qed.
