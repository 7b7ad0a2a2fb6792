(** * Properties proved in BuildStmt.v, restated (written by tools/genprops.py) *)

From Coq Require Import ZArith Znumtheory List Bool Lia.
From Verif Require Import Machine FieldModel ScalarModel EdwardsModel TableModel RistrettoModel Spec MachineFacts FieldLimb
  FieldMul FieldOps FieldBytes ScalarLimb ScalarOps ScalarBits ScalarNaf NumTheory Primes Fp FieldF FieldInv FieldStmt Curve CurveGroup
  EdwardsF EdwardsY PointMul RistF GroupCheck GroupStmt MiscStmt ScalarStmt NafStmt RistE LeakStmt.
Import ListNotations.
Open Scope Z_scope.
From Verif Require Import BuildStmt.

(** ** C101: Debug and release builds agree on every point function, on and off the curve *)

(** Affine, projective and extended points whose coordinates are reduced; nothing is asked about the curve. *)
Theorem C101_affine : forall P, reduced_aff P ->
  steady anything (fun ck => apt_is_valid ck P) /\ steady reduced_aff (fun ck => apt_neg ck P) /\
  steady reduced_ext (fun ck => ept_of_apt ck P).
Proof. exact C101_affine_stmt. Qed.
Print Assumptions C101_affine.

Theorem C101_projective : forall P Q n k, reduced_proj P -> reduced_proj Q -> scanon n -> 0 <= k ->
  steady reduced_proj (fun ck => ppt_add ck P Q) /\ steady reduced_proj (fun ck => ppt_sub ck P Q) /\
  steady reduced_proj (fun ck => ppt_neg ck P) /\ steady reduced_proj (fun ck => ppt_double ck P) /\
  steady anything (fun ck => ppt_eqb ck P Q) /\ steady anything (fun ck => ppt_is_valid ck P) /\
  steady reduced_aff (fun ck => apt_of_ppt ck P) /\ steady reduced_ext (fun ck => ept_of_ppt ck P) /\
  steady reduced_proj (fun ck => ppt_mul ck P n) /\
  steady reduced_proj (fun ck => ltr_bin_mul (ppt_add ck) (ppt_double ck) ppt_identity P n) /\
  steady reduced_proj (fun ck => binary_naf_mul ck (ppt_add ck) (ppt_sub ck) (ppt_double ck) ppt_identity P n) /\
  steady reduced_proj (fun ck => mul_by_cofactor (ppt_mul ck) P) /\
  steady reduced_proj (fun ck => mul_by_pow_2 ck (ppt_mul ck) P k).
Proof. exact C101_projective_stmt. Qed.
Print Assumptions C101_projective.

Theorem C101_edwards : forall P Q n k, reduced_ext P -> reduced_ext Q -> scanon n -> 0 <= k ->
  steady reduced_ext (fun ck => ept_add ck P Q) /\ steady reduced_ext (fun ck => ept_sub ck P Q) /\
  steady reduced_ext (fun ck => ept_neg ck P) /\ steady reduced_ext (fun ck => ept_double ck P) /\
  steady anything (fun ck => ept_eqb ck P Q) /\ steady anything (fun ck => ept_is_valid ck P) /\
  steady reduced_aff (fun ck => apt_of_ept ck P) /\ steady anything (fun ck => ept_compress ck P) /\
  steady (Forall reduced_ext) (fun ck => ept_coset4 ck P) /\
  steady reduced_ext (fun ck => ept_mul ck P n) /\
  steady reduced_ext (fun ck => ltr_bin_mul (ept_add ck) (ept_double ck) ept_identity P n) /\
  steady reduced_ext (fun ck => binary_naf_mul ck (ept_add ck) (ept_sub ck) (ept_double ck) ept_identity P n) /\
  steady reduced_ext (fun ck => mul_by_cofactor (ept_mul ck) P) /\
  steady reduced_ext (fun ck => mul_by_pow_2 ck (ept_mul ck) P k).
Proof. exact C101_edwards_stmt. Qed.
Print Assumptions C101_edwards.

Theorem C101_ristretto : forall P Q n, reduced_ext P -> reduced_ext Q -> scanon n ->
  steady reduced_ext (fun ck => rp_add ck P Q) /\ steady reduced_ext (fun ck => rp_sub ck P Q) /\
  steady reduced_ext (fun ck => rp_neg ck P) /\ steady reduced_ext (fun ck => rp_double ck P) /\
  steady anything (fun ck => rp_eqb ck P Q) /\ steady anything (fun ck => rp_is_valid ck P) /\
  steady anything (fun ck => rp_compress ck P) /\ steady (Forall reduced_ext) (fun ck => rp_coset4 ck P) /\
  steady reduced_ext (fun ck => rp_mul ck P n) /\
  steady reduced_ext (fun ck => ltr_bin_mul (rp_add ck) (rp_double ck) rp_identity P n) /\
  steady reduced_ext (fun ck => binary_naf_mul ck (rp_add ck) (rp_sub ck) (rp_double ck) rp_identity P n) /\
  steady reduced_ext (fun ck => mul_by_cofactor (rp_mul ck) P).
Proof. exact C101_ristretto_stmt. Qed.
Print Assumptions C101_ristretto.

(** Everything that makes a point out of bytes, a coordinate or random draws. *)
Theorem C101_decoding : forall b u y s r draws, is_bytes 32 b -> is_bytes 64 u -> fcanon y -> floadable r ->
  Forall (is_bytes 32) draws ->
  steady (some_of reduced_ext) (fun ck => cey_decompress ck b) /\ steady anything (fun ck => cey_neg ck b) /\
  steady (some_of reduced_ext) (fun ck => cr_decompress ck b) /\
  steady (some_of reduced_ext) (fun ck => ept_new_from_y_coord ck y s) /\
  steady (some_of reduced_proj) (fun ck => ppt_new_from_y_coord ck y s) /\
  steady reduced_ext (fun ck => rp_elligator ck r) /\ steady reduced_ext (fun ck => rp_from_uniform_bytes ck u) /\
  steady reduced_ext (fun ck => rp_new_random_point ck u) /\
  steady reduced_ext (fun ck => ept_new_random_point ck draws) /\
  steady reduced_proj (fun ck => ppt_new_random_point ck draws).
Proof. exact C101_decoding_stmt. Qed.
Print Assumptions C101_decoding.

(** Windowed multiplication of the basepoint, widths 2 to 6, every reduced scalar. *)
Theorem C101_window : forall n w, scanon n -> 2 <= w <= 6 ->
  steady anything (fun ck => sc_compute_window_NAF ck n w) /\
  steady reduced_ext (fun ck => window_naf_mul ck n w).
Proof. exact C101_window_stmt. Qed.
Print Assumptions C101_window.

(** The coordinates have to be reduced: with limbs of 64 bits one build panics and the other does not. *)
Theorem C101_unreduced_refuted : exists P R, ept_add true P P = Panic /\ ept_add false P P = Ok R.
Proof. exact C101_unreduced_refuted_stmt. Qed.
Print Assumptions C101_unreduced_refuted.

(** The point (2, 2, 1, 0) is on neither curve; its sum with itself has Z = 1. *)
Example C101_nonvacuous : let P := EP (FE 2 0 0 0 0) (FE 2 0 0 0 0) fe_one fe_zero in
  reduced_ext P /\ reduced_proj (ppt_of_ept P) /\ reduced_aff (AP (FE 2 0 0 0 0) (FE 2 0 0 0 0)) /\
  ept_is_valid true P = Ok false /\ ept_add true P P = Ok (EP (FE 8 0 0 0 0) (FE 8 0 0 0 0) fe_one (FE 64 0 0 0 0)) /\
  apt_of_ept true (EP (FE 2 0 0 0 0) (FE 2 0 0 0 0) fe_zero fe_zero) = Panic /\ scanon sc_minus_one.
Proof. exact C101_ex. Qed.
