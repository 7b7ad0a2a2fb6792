(** * Properties proved in RistrettoStmt.v, restated (written by tools/genprops.py) *)

From Coq Require Import ZArith List Bool Lia Ring Field.
From Verif Require Import Machine FieldModel ScalarModel EdwardsModel RistrettoModel Spec MachineFacts FieldLimb FieldOps
  FieldBytes NumTheory Primes Fp FieldF FieldInv ScalarOps Curve CurveGroup EdwardsF PointMul EdwardsY EdwardsStmt
  RistSpec Rist RistF RistE.
Import ListNotations.
Open Scope F_scope.
From Verif Require Import RistrettoStmt.

(** ** C47: Ristretto equality is the coset relation *)

Theorem C47_eq : exists j, j * j = - (1) /\ forall ck P Q A B, ext_rep P A -> ext_rep Q B ->
  exists r, rp_eqb ck P Q = Ok r /\ (r = true <-> exists T, In T (torsion4 j) /\ B = sum A T).
Proof. exact C47_eq_stmt. Qed.
Print Assumptions C47_eq.

(** The four points are the curve points killed by 4. *)
Theorem C47_torsion : forall j, j * j = - (1) -> forall T,
  In T (torsion4 j) <-> on_curve T /\ multiple 4 T = origin.
Proof. exact C47_torsion_stmt. Qed.
Print Assumptions C47_torsion.

(** The relation is an equivalence. *)
Theorem C47_equivalence : forall ck P Q R, valid_ext P -> valid_ext Q -> valid_ext R ->
  rp_eqb ck P P = Ok true /\
  (rp_eqb ck P Q = Ok true -> rp_eqb ck Q P = Ok true) /\
  (rp_eqb ck P Q = Ok true -> rp_eqb ck Q R = Ok true -> rp_eqb ck P R = Ok true).
Proof. exact C47_equivalence_stmt. Qed.
Print Assumptions C47_equivalence.

(** Points that are equal as Edwards points are equal as Ristretto points. *)
Theorem C47_edwards : forall ck P Q, valid_ext P -> valid_ext Q -> ept_eqb ck P Q = Ok true ->
  rp_eqb ck P Q = Ok true.
Proof. exact C47_edwards_stmt. Qed.
Print Assumptions C47_edwards.

(** Equal as Ristretto points, different as Edwards points. *)
Example C47_nonvacuous : ext_rep ept_identity origin /\ ext_rep order2_ext order2 /\
  rp_eqb true ept_identity order2_ext = Ok true /\ ept_eqb true ept_identity order2_ext = Ok false /\
  ext_rep BASEPOINT base /\ rp_eqb true ept_identity BASEPOINT = Ok false.
Proof. exact C47_ex. Qed.

(** ** C48: Ristretto operations respect equality *)

Theorem C48_congruence : forall ck P P' Q Q', valid_ext P -> valid_ext P' -> valid_ext Q -> valid_ext Q' ->
  rp_eqb ck P P' = Ok true -> rp_eqb ck Q Q' = Ok true ->
  same_rist ck (rp_add ck P Q) (rp_add ck P' Q') /\
  same_rist ck (rp_sub ck P Q) (rp_sub ck P' Q') /\
  same_rist ck (rp_neg ck P) (rp_neg ck P') /\
  same_rist ck (rp_double ck P) (rp_double ck P') /\
  forall n, sloadable n -> same_rist ck (rp_mul ck P n) (rp_mul ck P' n).
Proof. exact C48_congruence_stmt. Qed.
Print Assumptions C48_congruence.

Example C48_nonvacuous : valid_ext ept_identity /\ valid_ext order2_ext /\ rp_eqb true ept_identity order2_ext = Ok true /\
  ept_identity <> order2_ext.
Proof. exact C48_ex. Qed.

(** ** C49: Ristretto decoding is total, sound and accepts only canonical strings *)

Theorem C49_decode : forall ck b, is_bytes 32 b -> exists o, cr_decompress ck b = Ok o /\
  match o with
  | Some P => even_ext P /\ rp_compress ck P = Ok b /\ (le_value b <= (p - 1) / 2)%Z
  | None => forall P, even_ext P -> rp_compress ck P <> Ok b
  end.
Proof. exact C49_decode_stmt. Qed.
Print Assumptions C49_decode.

(** Values above (p-1)/2, in particular unreduced ones, are rejected. *)
Theorem C49_canonical : forall ck b, is_bytes 32 b -> ((p - 1) / 2 < le_value b)%Z ->
  cr_decompress ck b = Ok None.
Proof. exact C49_canonical_stmt. Qed.
Print Assumptions C49_canonical.

(** Two strings never decode to equal points. *)
Theorem C49_unique : forall ck b c P Q, is_bytes 32 b -> is_bytes 32 c ->
  cr_decompress ck b = Ok (Some P) -> cr_decompress ck c = Ok (Some Q) -> rp_eqb ck P Q = Ok true -> b = c.
Proof. exact C49_unique_stmt. Qed.
Print Assumptions C49_unique.

(** The published encodings of the basepoint and of the identity. *)
Example C49_nonvacuous : is_bytes 32 RISTRETTO_BASEPOINT_COMPRESSED /\
  (exists P, cr_decompress true RISTRETTO_BASEPOINT_COMPRESSED = Ok (Some P) /\
     rp_eqb true P RISTRETTO_BASEPOINT = Ok true) /\
  is_bytes 32 (repeat 255 32)%Z /\ ((p - 1) / 2 < le_value (repeat 255 32))%Z.
Proof. exact C49_ex. Qed.

(** ** C50: Ristretto encoding round trip *)

Theorem C50_round_trip : forall ck P, obtainable ck P ->
  exists b Q, rp_compress ck P = Ok b /\ is_bytes 32 b /\ cr_decompress ck b = Ok (Some Q) /\
    rp_eqb ck Q P = Ok true.
Proof. exact C50_round_trip_stmt. Qed.
Print Assumptions C50_round_trip.

(** The same for every even point, however it was made. *)
Theorem C50_even : forall ck P, even_ext P ->
  exists b Q, rp_compress ck P = Ok b /\ is_bytes 32 b /\ cr_decompress ck b = Ok (Some Q) /\
    rp_eqb ck Q P = Ok true.
Proof. exact C50_even_stmt. Qed.
Print Assumptions C50_even.

(** Obtainable points are even, and every operation on them returns. *)
Theorem C50_closed : forall ck P Q n, obtainable ck P -> obtainable ck Q -> sloadable n ->
  even_ext P /\
  (exists R, rp_add ck P Q = Ok R /\ obtainable ck R) /\
  (exists R, rp_sub ck P Q = Ok R /\ obtainable ck R) /\
  (exists R, rp_neg ck P = Ok R /\ obtainable ck R) /\
  (exists R, rp_double ck P = Ok R /\ obtainable ck R) /\
  (exists R, rp_mul ck P n = Ok R /\ obtainable ck R).
Proof. exact C50_closed_stmt. Qed.
Print Assumptions C50_closed.

Example C50_nonvacuous : obtainable true RISTRETTO_BASEPOINT /\
  exists R, rp_double true RISTRETTO_BASEPOINT = Ok R /\ obtainable true R.
Proof. exact C50_ex. Qed.

(** ** C51: Ristretto encodings are equal exactly for equal points *)

Theorem C51_encodings : forall ck P Q b c, obtainable ck P -> obtainable ck Q ->
  rp_compress ck P = Ok b -> rp_compress ck Q = Ok c -> (b = c <-> rp_eqb ck P Q = Ok true).
Proof. exact C51_encodings_stmt. Qed.
Print Assumptions C51_encodings.

Example C51_nonvacuous : obtainable true RISTRETTO_BASEPOINT /\
  rp_compress true RISTRETTO_BASEPOINT = Ok RISTRETTO_BASEPOINT_COMPRESSED /\
  obtainable true rp_identity /\ rp_compress true rp_identity = Ok cr_identity.
Proof. exact C51_ex. Qed.

(** ** C52: Elligator map is total and lands on the curve *)

Theorem C52_elligator : forall ck r, floadable r ->
  exists P A, rp_elligator ck r = Ok P /\ ext_rep P A /\ even_point A /\ elligator_image (residue r) A.
Proof. exact C52_elligator_stmt. Qed.
Print Assumptions C52_elligator.

(** The specification determines the point. *)
Theorem C52_image_unique : forall r0 A B, elligator_image r0 A -> elligator_image r0 B -> A = B.
Proof. exact C52_image_unique_stmt. Qed.
Print Assumptions C52_image_unique.

(** r and -r give the same point. *)
Theorem C52_opposite : forall ck r r' P P', floadable r -> floadable r' -> residue r' = - residue r ->
  rp_elligator ck r = Ok P -> rp_elligator ck r' = Ok P' -> ept_eqb ck P P' = Ok true.
Proof. exact C52_opposite_stmt. Qed.
Print Assumptions C52_opposite.

Example C52_nonvacuous : floadable (fe_from_bytes (repeat 255 32)%Z) /\ floadable (FE 5 0 0 0 0) /\
  floadable (enc (- toF 5)) /\ residue (enc (- toF 5)) = - residue (FE 5 0 0 0 0).
Proof. exact C52_ex. Qed.

(** ** C53: from_uniform_bytes is total *)

Theorem C53_uniform : forall ck b, is_bytes 64 b -> exists P A B,
  rp_from_uniform_bytes ck b = Ok P /\ ext_rep P (sum A B) /\ even_ext P /\
  elligator_image (toF (le_value (firstn 32 b))) A /\ elligator_image (toF (le_value (skipn 32 b))) B.
Proof. exact C53_uniform_stmt. Qed.
Print Assumptions C53_uniform.

Theorem C53_random : forall ck b, is_bytes 64 b ->
  rp_new_random_point ck b = rp_from_uniform_bytes ck b /\ exists P, rp_new_random_point ck b = Ok P /\ even_ext P.
Proof. exact C53_random_stmt. Qed.
Print Assumptions C53_random.

Example C53_nonvacuous : is_bytes 64 (repeat 255 64)%Z.
Proof. exact C53_ex. Qed.

(** ** C54: Ristretto group laws *)

Theorem C54_group : forall ck P Q R, valid_ext P -> valid_ext Q -> valid_ext R ->
  same_rist ck (S <- rp_add ck P Q ;; rp_add ck S R) (S <- rp_add ck Q R ;; rp_add ck P S) /\
  same_rist ck (rp_add ck P Q) (rp_add ck Q P) /\
  same_rist ck (rp_add ck P rp_identity) (Ok P) /\
  same_rist ck (N <- rp_neg ck P ;; rp_add ck P N) (Ok rp_identity) /\
  same_rist ck (rp_sub ck P Q) (N <- rp_neg ck Q ;; rp_add ck P N) /\
  same_rist ck (rp_double ck P) (rp_add ck P P).
Proof. exact C54_group_stmt. Qed.
Print Assumptions C54_group.

(** Scalar multiplication of Ristretto points. *)
Theorem C54_mul : forall ck P A n, ext_rep P A -> sloadable n ->
  returns_ext (rp_mul ck P n) (multiple (sval n) A).
Proof. exact C54_mul_stmt. Qed.
Print Assumptions C54_mul.

Example C54_nonvacuous : valid_ext BASEPOINT /\ valid_ext order2_ext /\ sloadable max_scalar.
Proof. exact C54_ex. Qed.
