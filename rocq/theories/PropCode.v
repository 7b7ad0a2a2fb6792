(** * Properties proved in CodeStmt.v, restated (written by tools/genprops.py) *)

From Coq Require Import ZArith Znumtheory List Bool Lia Ring Field.
From Verif Require Import Machine FieldModel ScalarModel EdwardsModel TableModel RistrettoModel Spec MachineFacts
  FieldLimb FieldOps FieldBytes NumTheory Primes Fp FieldF FieldInv FieldStmt ScalarOps Curve CurveGroup EdwardsF
  PointMul EdwardsY EdwardsStmt RistSpec CodeSpec Rist RistF RistE RistrettoStmt.
Import ListNotations.
Open Scope F_scope.
From Verif Require Import CodeStmt.

(** ** C75: Which square root mod_sqrt returns *)

(** Of x and -x exactly one is preferred, unless x = 0. *)
Theorem C75_principal : forall x, (principal x \/ principal (- x)) /\ (principal x -> principal (- x) -> x = 0).
Proof. exact C75_principal_stmt. Qed.
Print Assumptions C75_principal.

(** [mod_sqrt] returns the preferred root for choice 0 and its negative for choice 1. *)
Theorem C75_mod_sqrt : forall ck a sign, fcanon a ->
  (forall x, x * x = residue a -> principal x ->
     exists r, fe_mod_sqrt ck a sign = Ok (Some r) /\ fcanon r /\ residue r = if sign then - x else x) /\
  ((forall x, x * x <> residue a) -> fe_mod_sqrt ck a sign = Ok None).
Proof. exact C75_mod_sqrt_stmt. Qed.
Print Assumptions C75_mod_sqrt.

Example C75_nonvacuous : fcanon (FE 16 0 0 0 0) /\ principal (- toF 4) /\ ~ principal (toF 4) /\
  - toF 4 * - toF 4 = residue (FE 16 0 0 0 0) /\ fcanon (FE 6 0 0 0 0) /\ forall x, x * x <> residue (FE 6 0 0 0 0).
Proof. exact C75_ex. Qed.

(** ** C76: The Edwards encoding against an independent specification *)

(** The specified point is unique. *)
Theorem C76_unique : forall y s A B, has_y y s A -> has_y y s B -> A = B.
Proof. exact C76_unique_stmt. Qed.
Print Assumptions C76_unique.

Theorem C76_from_y : forall ck y s, fcanon y ->
  (forall A, has_y (residue y) s A ->
     (exists P, ept_new_from_y_coord ck y s = Ok (Some P) /\ ext_rep P A) /\
     (exists P, ppt_new_from_y_coord ck y s = Ok (Some P) /\ proj_rep P A)) /\
  ((forall A, ~ has_y (residue y) s A) ->
     ept_new_from_y_coord ck y s = Ok None /\ ppt_new_from_y_coord ck y s = Ok None).
Proof. exact C76_from_y_stmt. Qed.
Print Assumptions C76_from_y.

Theorem C76_decompress : forall ck b, is_bytes 32 b ->
  (forall A, edwards_decoded b A -> exists P, cey_decompress ck b = Ok (Some P) /\ ext_rep P A) /\
  ((forall A, ~ edwards_decoded b A) -> cey_decompress ck b = Ok None).
Proof. exact C76_decompress_stmt. Qed.
Print Assumptions C76_decompress.

Theorem C76_compress : forall ck P A, ext_rep P A -> exists b, ept_compress ck P = Ok b /\ edwards_code A b.
Proof. exact C76_compress_stmt. Qed.
Print Assumptions C76_compress.

(** Different points have different encodings, and a point has one encoding. *)
Theorem C76_code : forall A B b c, on_curve A -> on_curve B -> edwards_code A b -> edwards_code B c ->
  (b = c <-> A = B).
Proof. exact C76_code_stmt. Qed.
Print Assumptions C76_code.

(** Compressed points compare equal exactly when the points are equal. *)
Theorem C76_injective : forall ck P Q b c, valid_ext P -> valid_ext Q ->
  ept_compress ck P = Ok b -> ept_compress ck Q = Ok c -> (cey_eqb b c = true <-> ept_eqb ck P Q = Ok true).
Proof. exact C76_injective_stmt. Qed.
Print Assumptions C76_injective.

Theorem C76_neg : forall ck b A, is_bytes 32 b -> edwards_decoded b A ->
  exists c, cey_neg ck b = Ok c /\ edwards_code (opposite A) c.
Proof. exact C76_neg_stmt. Qed.
Print Assumptions C76_neg.

Example C76_nonvacuous : ext_rep BASEPOINT base /\ is_bytes 32 BASEPOINT_COMPRESSED /\
  edwards_decoded BASEPOINT_COMPRESSED base /\ edwards_code base BASEPOINT_COMPRESSED /\
  has_y (toF 3 / toF 5) false base.
Proof. exact C76_ex. Qed.

(** ** C77: The Ristretto encoding against an independent specification *)

(** Every Ristretto element has exactly one distinguished representative. *)
Theorem C77_representative : forall A, on_curve A -> exists B, canonical B /\ coset4 A B /\
  forall C, canonical C -> coset4 A C -> C = B.
Proof. exact C77_representative_stmt. Qed.
Print Assumptions C77_representative.

(** Distinguished representatives with an encoding are the even ones; encodings are
    unique and different for different elements. *)
Theorem C77_code : forall A, canonical A ->
  ((exists b, canonical_code A b) <-> even_point A) /\
  (forall B b c, canonical B -> canonical_code A b -> canonical_code B c -> (b = c <-> A = B)).
Proof. exact C77_code_stmt. Qed.
Print Assumptions C77_code.

Theorem C77_compress : forall ck P A B, ext_rep P A -> even_point A -> canonical B -> coset4 A B ->
  exists b, rp_compress ck P = Ok b /\ canonical_code B b.
Proof. exact C77_compress_stmt. Qed.
Print Assumptions C77_compress.

Theorem C77_decompress : forall ck b, is_bytes 32 b ->
  (forall A, canonical A -> canonical_code A b ->
     exists P, cr_decompress ck b = Ok (Some P) /\ ext_rep P A /\ fval (eZ P) = 1%Z) /\
  ((forall A, canonical A -> ~ canonical_code A b) -> cr_decompress ck b = Ok None).
Proof. exact C77_decompress_stmt. Qed.
Print Assumptions C77_decompress.

Example C77_nonvacuous : even_point base /\ is_bytes 32 RISTRETTO_BASEPOINT_COMPRESSED /\
  exists B, canonical B /\ coset4 base B /\ canonical_code B RISTRETTO_BASEPOINT_COMPRESSED.
Proof. exact C77_ex. Qed.
