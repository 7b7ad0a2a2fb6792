(** * Properties proved in LeakPtStmt.v, restated (written by tools/genprops.py) *)

From Coq Require Import ZArith Znumtheory List Bool Lia Ring Field.
From Verif Require Import Machine FieldModel ScalarModel EdwardsModel TableModel RistrettoModel Spec MachineFacts FieldLimb
  FieldMul FieldOps FieldBytes NumTheory Primes Fp FieldF FieldInv FieldStmt ScalarOps ScalarBits PointMul Curve CurveGroup
  EdwardsF EdwardsY Rist RistF RistE GroupCheck BranchModel BranchSpec BranchStmt LeakModel LeakStmt.
Import ListNotations.
Open Scope Z_scope.
From Verif Require Import LeakPtStmt.

(** ** C98: What the branches of comparison, encoding and decoding of points reveal *)

(** The branches of `==` on Edwards points are those of two inversions: they determine the
    two Z coordinates, and nothing else. *)
Theorem C98_eq : forall ck ck' P Q P' Q',
  reduced_ext P -> reduced_ext Q -> reduced_ext P' -> reduced_ext Q' ->
  eZ P <> fe_zero -> eZ Q <> fe_zero -> eZ P' <> fe_zero -> eZ Q' <> fe_zero ->
  (log_of (ept_eqb_log ck P Q) = log_of (ept_eqb_log ck' P' Q') <-> eZ P = eZ P' /\ eZ Q = eZ Q').
Proof. exact C98_eq_stmt. Qed.
Print Assumptions C98_eq.

(** So do those of `==` on projective points. *)
Theorem C98_proj_eq : forall ck ck' P Q P' Q',
  reduced_proj P -> reduced_proj Q -> reduced_proj P' -> reduced_proj Q' ->
  pZ P <> fe_zero -> pZ Q <> fe_zero -> pZ P' <> fe_zero -> pZ Q' <> fe_zero ->
  (log_of (ppt_eqb_log ck P Q) = log_of (ppt_eqb_log ck' P' Q') <-> pZ P = pZ P' /\ pZ Q = pZ Q').
Proof. exact C98_proj_eq_stmt. Qed.
Print Assumptions C98_proj_eq.

(** The branches of `EdwardsPoint::compress` determine the Z coordinate, the x coordinate,
    and the y coordinate up to its sign. *)
Theorem C98_compress : forall ck ck' P P' A A', ext_rep P A -> ext_rep P' A' ->
  (log_of (ept_compress_log ck P) = log_of (ept_compress_log ck' P') <->
   eZ P = eZ P' /\ fst A = fst A' /\ (snd A = snd A' \/ snd A = - snd A')).
Proof. exact C98_compress_stmt. Qed.
Print Assumptions C98_compress.

(** The branches of `new_from_y_coord` determine y up to its sign; they do not depend on
    the sign that is asked for. *)
Theorem C98_from_y : forall ck ck' y y' s s', fcanon y -> fcanon y' ->
  (log_of (ept_new_from_y_coord_log ck y s) = log_of (ept_new_from_y_coord_log ck' y' s') <->
   residue y = residue y' \/ residue y = - residue y') /\
  (log_of (ppt_new_from_y_coord_log ck y s) = log_of (ppt_new_from_y_coord_log ck' y' s') <->
   residue y = residue y' \/ residue y = - residue y').
Proof. exact C98_from_y_stmt. Qed.
Print Assumptions C98_from_y.

(** The branches of `CompressedEdwardsY::decompress` determine the number formed by the low
    252 bits up to negation modulo p, and nothing else. *)
Theorem C98_decompress : forall ck ck' b b', is_bytes 32 b -> is_bytes 32 b' ->
  let y := (le_value b mod 2 ^ 252)%Z in let y' := (le_value b' mod 2 ^ 252)%Z in
  (log_of (cey_decompress_log ck b) = log_of (cey_decompress_log ck' b') <-> y = y' \/ (y + y')%Z = p).
Proof. exact C98_decompress_stmt. Qed.
Print Assumptions C98_decompress.

(** The branches of `RistrettoPoint::compress` determine (Z² - Y²) X² Y². *)
Theorem C98_ristretto_compress : forall ck ck' P P', reduced_ext P -> reduced_ext P' ->
  log_of (rp_compress_log ck P) = log_of (rp_compress_log ck' P') ->
  let w := fun Q => (residue (eZ Q) * residue (eZ Q) - residue (eY Q) * residue (eY Q)) *
                    (residue (eX Q) * residue (eX Q) * (residue (eY Q) * residue (eY Q))) in
  w P = w P'.
Proof. exact C98_ristretto_compress_stmt. Qed.
Print Assumptions C98_ristretto_compress.

(** The branches of `CompressedRistretto::decompress` tell whether the number is at most
    (p-1)/2, and if it is they determine the polynomial in it whose inverse root is taken. *)
Theorem C98_ristretto_decompress : forall ck ck' b b', is_bytes 32 b -> is_bytes 32 b' ->
  log_of (cr_decompress_log ck b) = log_of (cr_decompress_log ck' b') ->
  let f := fun s => (- (cd * ((1 - s * s) * (1 - s * s))) - (1 + s * s) * (1 + s * s)) * ((1 + s * s) * (1 + s * s)) in
  ((le_value b <= (p - 1) / 2)%Z <-> (le_value b' <= (p - 1) / 2)%Z) /\
  ((le_value b <= (p - 1) / 2)%Z -> f (toF (le_value b)) = f (toF (le_value b'))).
Proof. exact C98_ristretto_decompress_stmt. Qed.
Print Assumptions C98_ristretto_decompress.

(** The branches of `elligator_ristretto_flavor` determine r0² up to the reflection
    r0² -> -(1 + d²)/(id) - r0². *)
Theorem C98_elligator : forall ck ck' r r', floadable r -> floadable r' ->
  log_of (rp_elligator_log ck r) = log_of (rp_elligator_log ck' r') ->
  let a := residue r * residue r in let a' := residue r' * residue r' in
  a = a' \/ residue SQRT_MINUS_ONE * cd * (a + a') = - (1 + cd * cd).
Proof. exact C98_elligator_stmt. Qed.
Print Assumptions C98_elligator.
