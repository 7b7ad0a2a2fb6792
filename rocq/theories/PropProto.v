(** * Properties proved in ProtoStmt.v, restated (written by tools/genprops.py) *)

From Coq Require Import ZArith Znumtheory List Bool Lia Ring Field.
From Verif Require Import Machine FieldModel ScalarModel EdwardsModel TableModel RistrettoModel ExampleModel Spec MachineFacts
  FieldLimb FieldOps FieldBytes NumTheory Primes Fp FieldF FieldInv FieldStmt ScalarOps ScalarBits ScalarNaf ScalarStmt Curve CurveGroup EdwardsF
  PointMul EdwardsY EdwardsStmt RistSpec Rist RistF RistE RistrettoStmt GroupCheck GroupOrder GroupStmt LawsStmt.
Import ListNotations.
Open Scope Z_scope.
From Verif Require Import ProtoStmt.

(** ** C70: Identity, Default and the constant-time selectors *)

Theorem C70_field : forall ck a b c, fcanon a ->
  fe_mul ck a fe_identity = Ok a /\ fe_add ck a fe_default = Ok a /\
  fe_select a b c = (if c then b else a) /\
  fe_conditional_negate ck a c = (if c then fe_neg ck a else Ok a).
Proof. exact C70_field_stmt. Qed.
Print Assumptions C70_field.

Theorem C70_scalar : forall ck a, scanon a -> sc_mul ck a sc_identity = Ok a.
Proof. exact C70_scalar_stmt. Qed.
Print Assumptions C70_scalar.

Theorem C70_points : aff_rep apt_identity origin /\ proj_rep ppt_identity origin /\
  ext_rep ept_identity origin /\ ext_rep rp_identity origin.
Proof. exact C70_points_stmt. Qed.
Print Assumptions C70_points.

Theorem C70_edwards_encoding : forall ck, ept_compress ck ept_identity = Ok cey_identity /\
  exists P, cey_decompress ck cey_identity = Ok (Some P) /\ ext_rep P origin.
Proof. exact C70_edwards_encoding_stmt. Qed.
Print Assumptions C70_edwards_encoding.

Theorem C70_ristretto_encoding : forall ck, rp_compress ck rp_identity = Ok cr_identity /\
  exists P, cr_decompress ck cr_identity = Ok (Some P) /\ rp_eqb ck P rp_identity = Ok true.
Proof. exact C70_ristretto_encoding_stmt. Qed.
Print Assumptions C70_ristretto_encoding.

Example C70_nonvacuous : fcanon fe_minus_one /\ scanon sc_minus_one /\ fe_identity <> fe_default.
Proof. exact C70_ex. Qed.

(** ** C71: Ristretto encodings are in bijection with the scalars *)

(** n -> encoding of n times the basepoint is a bijection from the reduced scalars onto the
    32-byte strings the decoder accepts. *)
Theorem C71_encode : forall ck n, scanon n -> exists b P, encode_multiple ck n = Ok b /\ is_bytes 32 b /\
  cr_decompress ck b = Ok (Some P).
Proof. exact C71_encode_stmt. Qed.
Print Assumptions C71_encode.

Theorem C71_injective : forall ck m n b, scanon m -> scanon n ->
  encode_multiple ck m = Ok b -> encode_multiple ck n = Ok b -> m = n.
Proof. exact C71_injective_stmt. Qed.
Print Assumptions C71_injective.

Theorem C71_surjective : forall ck b P, is_bytes 32 b -> cr_decompress ck b = Ok (Some P) ->
  exists n, scanon n /\ encode_multiple ck n = Ok b.
Proof. exact C71_surjective_stmt. Qed.
Print Assumptions C71_surjective.

(** Exactly L of the 2^256 strings are accepted. *)
Theorem C71_count : forall ck, exists l : list (list Z), NoDup l /\ Z.of_nat (length l) = L /\
  forall b, In b l <-> is_bytes 32 b /\ exists P, cr_decompress ck b = Ok (Some P).
Proof. exact C71_count_stmt. Qed.
Print Assumptions C71_count.

Example C71_nonvacuous : scanon sc_minus_one /\ scanon sc_one /\ is_bytes 32 RISTRETTO_BASEPOINT_COMPRESSED /\
  (exists P, cr_decompress true RISTRETTO_BASEPOINT_COMPRESSED = Ok (Some P)) /\
  cr_decompress true (255 :: repeat 255 31) = Ok None.
Proof. exact C71_ex. Qed.

(** ** C72: Key agreement and Schnorr verification over the public API *)

(** Both sides obtain the same bytes, for every point and every pair of secrets. *)
Theorem C72_diffie_hellman : forall ck P a b, even_ext P -> sloadable a -> sloadable b ->
  exists wa wb k, dh_public ck P a = Ok wa /\ dh_public ck P b = Ok wb /\
    dh_shared ck a wb = Ok k /\ dh_shared ck b wa = Ok k /\ is_bytes 32 k.
Proof. exact C72_diffie_hellman_stmt. Qed.
Print Assumptions C72_diffie_hellman.

(** The shared value is the encoding of (ab mod L) times the point, and with nonzero secrets and a
    point other than the identity it is never the encoding of the identity. *)
Theorem C72_nontrivial : forall ck P a b w k, even_ext P -> rp_eqb ck P rp_identity = Ok false ->
  scanon a -> scanon b -> sval a <> 0 -> sval b <> 0 ->
  dh_public ck P b = Ok w -> dh_shared ck a w = Ok k -> k <> cr_identity.
Proof. exact C72_nontrivial_stmt. Qed.
Print Assumptions C72_nontrivial.

(** The same on Edwards points, for every valid point and every scalar below 2^256. *)
Theorem C72_edwards : forall ck P a b, valid_ext P -> sloadable a -> sloadable b ->
  same_ext ck (Q <- ept_mul ck P b ;; ept_mul ck Q a) (Q <- ept_mul ck P a ;; ept_mul ck Q b).
Proof. exact C72_edwards_stmt. Qed.
Print Assumptions C72_edwards.

(** Schnorr: with s = r + c x modulo L the verification equation s B == R + c X holds. *)
Theorem C72_schnorr : forall ck P r c x, even_ext P -> scanon r -> scanon c -> scanon x ->
  same_rist ck (cx <- sc_mul ck c x ;; s <- sc_add ck r cx ;; rp_mul ck P s)
    (R <- rp_mul ck P r ;; X <- rp_mul ck P x ;; cX <- rp_mul ck X c ;; rp_add ck R cX).
Proof. exact C72_schnorr_stmt. Qed.
Print Assumptions C72_schnorr.

Example C72_nonvacuous : even_ext RISTRETTO_BASEPOINT /\ rp_eqb true RISTRETTO_BASEPOINT rp_identity = Ok false /\
  scanon sc_minus_one /\ sval sc_minus_one <> 0 /\ sloadable max_scalar.
Proof. exact C72_ex. Qed.

(** ** C73: Point operations are total on arbitrary reduced coordinates *)

(** Coordinates that satisfy no equation at all: every operation still returns, with
    reduced coordinates, in both build modes and the same result in both. *)
Theorem C73_ext : forall P Q n, reduced_ext P -> reduced_ext Q -> sloadable n ->
  (exists R, reduced_ext R /\ forall ck, ept_add ck P Q = Ok R) /\
  (exists R, reduced_ext R /\ forall ck, ept_sub ck P Q = Ok R) /\
  (exists R, reduced_ext R /\ forall ck, ept_neg ck P = Ok R) /\
  (exists R, reduced_ext R /\ forall ck, ept_double ck P = Ok R) /\
  (exists R, reduced_ext R /\ forall ck, ept_mul ck P n = Ok R).
Proof. exact C73_ext_stmt. Qed.
Print Assumptions C73_ext.

Theorem C73_proj : forall P Q n, reduced_proj P -> reduced_proj Q -> sloadable n ->
  (exists R, reduced_proj R /\ forall ck, ppt_add ck P Q = Ok R) /\
  (exists R, reduced_proj R /\ forall ck, ppt_sub ck P Q = Ok R) /\
  (exists R, reduced_proj R /\ forall ck, ppt_neg ck P = Ok R) /\
  (exists R, reduced_proj R /\ forall ck, ppt_double ck P = Ok R) /\
  (exists R, reduced_proj R /\ forall ck, ppt_mul ck P n = Ok R).
Proof. exact C73_proj_stmt. Qed.
Print Assumptions C73_proj.

(** Comparing with ==, encoding and conversion to affine coordinates panic when Z = 0. *)
Theorem C73_zero_z : forall ck P Q, reduced_ext P -> fval (eZ P) = 0 ->
  ept_eqb ck P Q = Panic /\ ept_compress ck P = Panic /\ apt_of_ept ck P = Panic.
Proof. exact C73_zero_z_stmt. Qed.
Print Assumptions C73_zero_z.

Example C73_nonvacuous : reduced_ext example_G /\ ~ valid_ext example_G /\ sloadable max_scalar /\
  reduced_ext (EP fe_zero fe_zero fe_zero fe_zero) /\ reduced_proj (PP fe_one fe_zero fe_zero).
Proof. exact C73_ex. Qed.

(** ** C74: The example program basic_ops *)

(** The generator never panics, and returns exactly the scalars below 2^248. *)
Theorem C74_rand : forall b, is_bytes 31 b ->
  exists s, rand_scalar_generation b = Ok s /\ scanon s /\ sval s = le_value b /\ sval s < 2 ^ 248.
Proof. exact C74_rand_stmt. Qed.
Print Assumptions C74_rand.

Theorem C74_rand_range : forall s, scanon s ->
  ((exists b, is_bytes 31 b /\ rand_scalar_generation b = Ok s) <-> sval s < 2 ^ 248).
Proof. exact C74_rand_range_stmt. Qed.
Print Assumptions C74_rand_range.

(** The program always prints a scalar and a point with reduced coordinates. *)
Theorem C74_main : forall b, is_bytes 31 b ->
  exists s R, (forall ck, example_main ck b = Ok (s, R)) /\ sval s = le_value b /\ reduced_ext R.
Proof. exact C74_main_stmt. Qed.
Print Assumptions C74_main.

(** Its point `G` is not on the curve, nor need the printed point be. *)
Theorem C74_point_refuted : exists b, is_bytes 31 b /\ ~ valid_ext example_G /\
  forall ck, ept_is_valid ck example_G = Ok false /\
    exists s R, example_main ck b = Ok (s, R) /\ ~ valid_ext R /\ ept_is_valid ck R = Ok false.
Proof. exact C74_point_refuted_stmt. Qed.
Print Assumptions C74_point_refuted.

Example C74_nonvacuous : is_bytes 31 (repeat 255 31) /\ le_value (repeat 255 31) = 2 ^ 248 - 1 /\
  scanon sc_minus_one /\ ~ sval sc_minus_one < 2 ^ 248.
Proof. exact C74_ex. Qed.
