(** * Properties proved in LeakStmt.v, restated (written by tools/genprops.py) *)

From Coq Require Import ZArith Znumtheory List Bool Lia.
From Verif Require Import Machine FieldModel ScalarModel EdwardsModel TableModel RistrettoModel Spec MachineFacts FieldLimb
  FieldMul FieldOps FieldBytes ScalarLimb ScalarOps ScalarBits ScalarNaf NumTheory Primes Fp FieldF FieldInv FieldStmt Curve CurveGroup
  EdwardsF EdwardsY PointMul RistF GroupCheck GroupStmt BranchModel BranchSpec BranchStmt LeakModel.
Import ListNotations.
Open Scope Z_scope.
From Verif Require Import LeakStmt.

(** ** C97: What the branches of the scalar functions and of the point multiplications reveal *)

(** The logging variants return what the functions of the model return, for all inputs. *)
Theorem C97_result : forall ck a e b w P Q R S z y s,
  result_of (sc_cmp_log a e) = Ok (sc_cmp a e) /\
  result_of (sc_from_i8_log ck z) = sc_from_i8 ck z /\
  result_of (sc_from_bytes_log b) = sc_from_bytes b /\
  result_of (sc_two_pow_k_log ck z) = sc_two_pow_k ck z /\
  result_of (sc_pow_log ck a e) = sc_pow ck a e /\
  result_of (sc_mods_2_pow_k_log ck a w) = sc_mods_2_pow_k ck a w /\
  result_of (sc_compute_NAF_log ck a) = sc_compute_NAF ck a /\
  result_of (sc_compute_window_NAF_log ck a w) = sc_compute_window_NAF ck a w /\
  result_of (ept_mul_log ck P a) = ept_mul ck P a /\
  result_of (ppt_mul_log ck R a) = ppt_mul ck R a /\
  result_of (rp_mul_log ck P a) = rp_mul ck P a /\
  result_of (window_naf_mul_log ck a w) = window_naf_mul ck a w /\
  result_of (ept_eqb_log ck P Q) = ept_eqb ck P Q /\
  result_of (ppt_eqb_log ck R S) = ppt_eqb ck R S /\
  result_of (ept_compress_log ck P) = ept_compress ck P /\
  result_of (ept_new_from_y_coord_log ck y s) = ept_new_from_y_coord ck y s /\
  result_of (cey_decompress_log ck b) = cey_decompress ck b /\
  result_of (rp_compress_log ck P) = rp_compress ck P /\
  result_of (cr_decompress_log ck b) = cr_decompress ck b /\
  result_of (rp_elligator_log ck y) = rp_elligator ck y.
Proof. exact C97_result_stmt. Qed.
Print Assumptions C97_result.

(** The same for the multiplications that are generic in the point type. *)
Theorem C97_generic : forall (T : Type) ck (add sub : T -> T -> res T) (double : T -> res T) (identity P : T) (a : sc),
  result_of (double_and_add_log add double identity P a) = double_and_add add double identity P a /\
  result_of (ltr_bin_mul_log add double identity P a) = ltr_bin_mul add double identity P a /\
  result_of (binary_naf_mul_log ck add sub double identity P a) = binary_naf_mul ck add sub double identity P a.
Proof. exact C97_generic_stmt. Qed.
Print Assumptions C97_generic.

(** The branches of the multiplication used by the operator `*` determine the scalar: two calls
    log the same branches if and only if the scalars are the same, whatever the points (with
    reduced coordinates, on the curve or not) and the build profiles. *)
Theorem C97_mul : forall ck ck' P P' R R' a a', reduced_ext P -> reduced_ext P' -> reduced_proj R -> reduced_proj R' ->
  sloadable a -> sloadable a' ->
  (log_of (ept_mul_log ck P a) = log_of (ept_mul_log ck' P' a') <-> a = a') /\
  (log_of (ppt_mul_log ck R a) = log_of (ppt_mul_log ck' R' a') <-> a = a') /\
  (log_of (rp_mul_log ck P a) = log_of (rp_mul_log ck' P' a') <-> a = a').
Proof. exact C97_mul_stmt. Qed.
Print Assumptions C97_mul.

(** The branches of `ltr_bin_mul` determine the 249 low bits of the scalar and nothing else. *)
Theorem C97_ltr : forall ck ck' P P' R R' a a', reduced_ext P -> reduced_ext P' -> reduced_proj R -> reduced_proj R' ->
  sloadable a -> sloadable a' ->
  (log_of (ltr_bin_mul_log (ept_add ck) (ept_double ck) ept_identity P a) =
   log_of (ltr_bin_mul_log (ept_add ck') (ept_double ck') ept_identity P' a') <-> sval a mod 2 ^ 249 = sval a' mod 2 ^ 249) /\
  (log_of (ltr_bin_mul_log (ppt_add ck) (ppt_double ck) ppt_identity R a) =
   log_of (ltr_bin_mul_log (ppt_add ck') (ppt_double ck') ppt_identity R' a') <-> sval a mod 2 ^ 249 = sval a' mod 2 ^ 249).
Proof. exact C97_ltr_stmt. Qed.
Print Assumptions C97_ltr.

(** The branches of `compute_NAF` determine the scalar. *)
Theorem C97_naf : forall ck ck' a a', scanon a -> scanon a' ->
  (log_of (sc_compute_NAF_log ck a) = log_of (sc_compute_NAF_log ck' a') <-> a = a').
Proof. exact C97_naf_stmt. Qed.
Print Assumptions C97_naf.

(** The branches of `binary_naf_mul` determine the scalar and do not depend on the point. *)
Theorem C97_binary_naf : forall ck ck' P P' R R' a a', reduced_ext P -> reduced_ext P' -> reduced_proj R -> reduced_proj R' ->
  scanon a -> scanon a' ->
  (log_of (binary_naf_mul_log ck (ept_add ck) (ept_sub ck) (ept_double ck) ept_identity P a) =
   log_of (binary_naf_mul_log ck' (ept_add ck') (ept_sub ck') (ept_double ck') ept_identity P' a') <-> a = a') /\
  (log_of (binary_naf_mul_log ck (ppt_add ck) (ppt_sub ck) (ppt_double ck) ppt_identity R a) =
   log_of (binary_naf_mul_log ck' (ppt_add ck') (ppt_sub ck') (ppt_double ck') ppt_identity R' a') <-> a = a').
Proof. exact C97_binary_naf_stmt. Qed.
Print Assumptions C97_binary_naf.

(** The branches of `pow` determine the exponent and do not depend on the base. *)
Theorem C97_pow : forall ck ck' a a' e e', scanon a -> scanon a' -> scanon e -> scanon e' ->
  (log_of (sc_pow_log ck a e) = log_of (sc_pow_log ck' a' e') <-> e = e').
Proof. exact C97_pow_stmt. Qed.
Print Assumptions C97_pow.

(** Equal branches of `window_naf_mul` for the same width: the recodings have their nonzero
    digits at the same positions and with the same signs. *)
Theorem C97_window : forall ck ck' w a a' ds ds', 2 <= w <= 5 -> scanon a -> scanon a' ->
  sc_compute_window_NAF ck a w = Ok ds -> sc_compute_window_NAF ck' a' w = Ok ds' ->
  log_of (window_naf_mul_log ck a w) = log_of (window_naf_mul_log ck' a' w) ->
  forall i, (i < 250)%nat -> Z.sgn (nth i ds 0) = Z.sgn (nth i ds' 0).
Proof. exact C97_window_stmt. Qed.
Print Assumptions C97_window.

(** The scalars need not be the same: 3 and 5 have the same branches for width 4. *)
Theorem C97_window_refuted : exists a a' w, 2 <= w <= 5 /\ scanon a /\ scanon a' /\ a <> a' /\
  forall ck, log_of (window_naf_mul_log ck a w) = log_of (window_naf_mul_log ck a' w).
Proof. exact C97_window_refuted_stmt. Qed.
Print Assumptions C97_window_refuted.

Example C97_nonvacuous : scanon (SC 2 0 0 0 0) /\ scanon (SC 3 0 0 0 0) /\ reduced_ext BASEPOINT /\ reduced_proj ppt_identity /\
  (forall ck, log_of (ept_mul_log ck BASEPOINT (SC 2 0 0 0 0)) =
     [Br 20111 1; Br 20112 0; Br 20111 1; Br 20112 1; Br 20111 0]) /\
  (forall ck, log_of (ept_mul_log ck BASEPOINT (SC 2 0 0 0 0)) <> log_of (ept_mul_log ck BASEPOINT (SC 3 0 0 0 0))) /\
  (forall ck, log_of (sc_pow_log ck (SC 2 0 0 0 0) (SC 2 0 0 0 0)) <> log_of (sc_pow_log ck (SC 2 0 0 0 0) (SC 3 0 0 0 0))) /\
  (forall ck, log_of (sc_compute_NAF_log ck (SC 2 0 0 0 0)) <> log_of (sc_compute_NAF_log ck (SC 3 0 0 0 0))) /\
  (forall ck, log_of (ltr_bin_mul_log (ept_add ck) (ept_double ck) ept_identity BASEPOINT (SC 2 0 0 0 0)) <>
     log_of (ltr_bin_mul_log (ept_add ck) (ept_double ck) ept_identity BASEPOINT (SC 3 0 0 0 0))).
Proof. exact C97_ex. Qed.
