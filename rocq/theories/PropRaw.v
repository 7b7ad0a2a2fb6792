(** * Properties proved in RawStmt.v, restated (written by tools/genprops.py) *)

From Coq Require Import ZArith Znumtheory List Bool Lia Ring Field.
From Verif Require Import Machine FieldModel ScalarModel EdwardsModel TableModel RistrettoModel Spec RawSpec MachineFacts
  FieldLimb FieldOps FieldBytes NumTheory Primes Fp FieldF FieldInv FieldStmt ScalarLimb ScalarOps ScalarBits ScalarStmt Curve CurveGroup EdwardsF
  PointMul EdwardsY EdwardsStmt Rist RistF RistSpec RistrettoStmt LawsStmt MiscStmt ProtoStmt WideStmt.
Import ListNotations.
Open Scope Z_scope.
From Verif Require Import RawStmt.

(** ** C105: Points with unreduced coordinates *)

(** Adding and doubling look only at the residues of the coordinates, and the result is
    reduced.  No curve equation is needed. *)
Theorem C105_add : forall ck P P' Q Q', alike_ext P P' -> alike_ext Q Q' ->
  exists R, ept_add ck P Q = Ok R /\ ept_add ck P' Q' = Ok R /\ reduced_ext R.
Proof. exact C105_add_stmt. Qed.
Print Assumptions C105_add.

Theorem C105_double : forall ck P P', alike_ext P P' ->
  exists R, ept_double ck P = Ok R /\ ept_double ck P' = Ok R /\ reduced_ext R.
Proof. exact C105_double_stmt. Qed.
Print Assumptions C105_double.

Theorem C105_proj_add : forall ck P P' Q Q', alike_proj P P' -> alike_proj Q Q' ->
  exists R, ppt_add ck P Q = Ok R /\ ppt_add ck P' Q' = Ok R /\ reduced_proj R.
Proof. exact C105_proj_add_stmt. Qed.
Print Assumptions C105_proj_add.

Theorem C105_proj_double : forall ck P P', alike_proj P P' ->
  exists R, ppt_double ck P = Ok R /\ ppt_double ck P' = Ok R /\ reduced_proj R.
Proof. exact C105_proj_double_stmt. Qed.
Print Assumptions C105_proj_double.

(** So do the operator for scalar multiplication and the left-to-right multiplication. *)
Theorem C105_mul : forall ck n,
  (forall P P', alike_ext P P' -> ept_mul ck P n = ept_mul ck P' n /\ rp_mul ck P n = rp_mul ck P' n /\
     ltr_bin_mul (ept_add ck) (ept_double ck) ept_identity P n = ltr_bin_mul (ept_add ck) (ept_double ck) ept_identity P' n) /\
  (forall P P', alike_proj P P' -> ppt_mul ck P n = ppt_mul ck P' n /\
     ltr_bin_mul (ppt_add ck) (ppt_double ck) ppt_identity P n = ltr_bin_mul (ppt_add ck) (ppt_double ck) ppt_identity P' n).
Proof. exact C105_mul_stmt. Qed.
Print Assumptions C105_mul.

(** Conversions, equality, curve membership and compression look only at the residues when Z
    is not divisible by p. *)
Theorem C105_convert : forall ck,
  (forall P P', alike_ext P P' -> fval (eZ P) mod p <> 0 -> exists R, apt_of_ept ck P = Ok R /\ apt_of_ept ck P' = Ok R) /\
  (forall P P', alike_proj P P' -> fval (pZ P) mod p <> 0 -> exists R, apt_of_ppt ck P = Ok R /\ apt_of_ppt ck P' = Ok R) /\
  (forall P P', alike_proj P P' -> exists R, ept_of_ppt ck P = Ok R /\ ept_of_ppt ck P' = Ok R /\ reduced_ext R) /\
  (forall P P', alike_aff P P' -> exists R R', ept_of_apt ck P = Ok R /\ ept_of_apt ck P' = Ok R' /\ alike_ext R R').
Proof. exact C105_convert_stmt. Qed.
Print Assumptions C105_convert.

Theorem C105_eq : forall ck,
  (forall P P' Q Q', alike_ext P P' -> alike_ext Q Q' -> rp_eqb ck P Q = rp_eqb ck P' Q' /\
     (fval (eZ P) mod p <> 0 -> fval (eZ Q) mod p <> 0 -> ept_eqb ck P Q = ept_eqb ck P' Q')) /\
  (forall P P' Q Q', alike_proj P P' -> alike_proj Q Q' ->
     fval (pZ P) mod p <> 0 -> fval (pZ Q) mod p <> 0 -> ppt_eqb ck P Q = ppt_eqb ck P' Q').
Proof. exact C105_eq_stmt. Qed.
Print Assumptions C105_eq.

Theorem C105_valid : forall ck,
  (forall P P', alike_ext P P' -> ept_is_valid ck P = ept_is_valid ck P' /\ rp_is_valid ck P = rp_is_valid ck P') /\
  (forall P P', alike_proj P P' -> ppt_is_valid ck P = ppt_is_valid ck P') /\
  (forall P P', alike_aff P P' -> apt_is_valid ck P = apt_is_valid ck P').
Proof. exact C105_valid_stmt. Qed.
Print Assumptions C105_valid.

Theorem C105_compress : forall ck P P', alike_ext P P' -> fval (eZ P) mod p <> 0 -> ept_compress ck P = ept_compress ck P'.
Proof. exact C105_compress_stmt. Qed.
Print Assumptions C105_compress.

(** With the meaning of the points: sums and multiples of points loaded from bytes are right. *)
Theorem C105_meaning : forall ck P P' Q Q' A B n, alike_ext P P' -> ext_rep P' A -> alike_ext Q Q' -> ext_rep Q' B -> sloadable n ->
  returns_ext (ept_add ck P Q) (sum A B) /\ returns_ext (ept_double ck P) (sum A A) /\ returns_ext (ept_mul ck P n) (multiple (sval n) A).
Proof. exact C105_meaning_stmt. Qed.
Print Assumptions C105_meaning.

(** If Z is a nonzero multiple of p the affine point is (0, 0), and such points are all equal. *)
Theorem C105_zero : forall ck P Q,
  flimbs (eX P) -> flimbs (eY P) -> flimbs (eX Q) -> flimbs (eY Q) ->
  floadable (eZ P) -> fval (eZ P) mod p = 0 -> fval (eZ P) <> 0 -> floadable (eZ Q) -> fval (eZ Q) mod p = 0 -> fval (eZ Q) <> 0 ->
  apt_of_ept ck P = Ok (AP fe_zero fe_zero) /\ ept_eqb ck P Q = Ok true.
Proof. exact C105_zero_stmt. Qed.
Print Assumptions C105_zero.

(** Subtraction of loaded elements is right exactly up to one p, negation exactly up to p. *)
Theorem C105_field_sub : forall ck a b, floadable a -> floadable b ->
  (exists r, fe_sub ck a b = Ok r /\ (fval r mod p = (fval a - fval b) mod p <-> fval b <= fval a + p)) /\
  (exists r, fe_neg ck b = Ok r /\ (fval r mod p = (- fval b) mod p <-> fval b <= p)).
Proof. exact C105_field_sub_stmt. Qed.
Print Assumptions C105_field_sub.

(** Negation looks at the representation of the first coordinate and of T, and at nothing else:
    when those are reduced it too respects residues, and so does subtraction. *)
Theorem C105_neg : forall ck P P' Q Q', alike_ext P P' -> alike_ext Q Q' ->
  fcanon (eX Q) -> fcanon (eT Q) -> fcanon (eX Q') -> fcanon (eT Q') ->
  (exists N N', ept_neg ck Q = Ok N /\ ept_neg ck Q' = Ok N' /\ alike_ext N N') /\
  (exists R, rp_sub ck P Q = Ok R /\ rp_sub ck P' Q' = Ok R /\ reduced_ext R) /\
  (exists R, ept_sub ck P Q = Ok R /\ ept_sub ck P' Q' = Ok R /\ reduced_ext R).
Proof. exact C105_neg_stmt. Qed.
Print Assumptions C105_neg.

Theorem C105_proj_neg : forall ck P P' Q Q', alike_proj P P' -> alike_proj Q Q' -> fcanon (pX Q) -> fcanon (pX Q') ->
  (exists N N', ppt_neg ck Q = Ok N /\ ppt_neg ck Q' = Ok N' /\ alike_proj N N') /\
  (exists R, ppt_sub ck P Q = Ok R /\ ppt_sub ck P' Q' = Ok R /\ reduced_proj R).
Proof. exact C105_proj_neg_stmt. Qed.
Print Assumptions C105_proj_neg.

(** Ristretto encoding looks at the representation of the second coordinate only. *)
Theorem C105_rist_compress : forall ck P P', alike_ext P P' -> fcanon (eY P) -> fcanon (eY P') -> rp_compress ck P = rp_compress ck P'.
Proof. exact C105_rist_compress_stmt. Qed.
Print Assumptions C105_rist_compress.

(** Without those restrictions negation and subtraction are wrong: here P - P is not the
    neutral element. *)
Theorem C105_neg_refuted : exists P, alike_ext P BASEPOINT /\ ext_rep BASEPOINT base /\ forall ck,
  ~ returns_ext (ept_neg ck P) (opposite base) /\
  (exists N S, ept_neg ck P = Ok N /\ ept_add ck P N = Ok S /\ fval (eX S) mod p <> 0) /\
  (exists S, ept_sub ck P P = Ok S /\ fval (eX S) mod p <> 0).
Proof. exact C105_neg_refuted_stmt. Qed.
Print Assumptions C105_neg_refuted.

(** The encoding of a Ristretto point: two forms the code itself calls equal, with different bytes. *)
Theorem C105_rist_compress_refuted : exists P, alike_ext P RISTRETTO_BASEPOINT /\ forall ck,
  exists b c, rp_compress ck P = Ok b /\ rp_compress ck RISTRETTO_BASEPOINT = Ok c /\ b <> c /\ rp_eqb ck P RISTRETTO_BASEPOINT = Ok true.
Proof. exact C105_rist_compress_refuted_stmt. Qed.
Print Assumptions C105_rist_compress_refuted.

(** Two loaded forms that are not reduced, and a multiple of p that is not zero. *)
Example C105_nonvacuous : alike_ext raw_x BASEPOINT /\ ~ fcanon (eX raw_x) /\ alike_ext raw_y BASEPOINT /\ ~ fcanon (eY raw_y) /\
  fval (eZ raw_x) mod p <> 0 /\ floadable FIELD_L /\ fval FIELD_L mod p = 0 /\ fval FIELD_L <> 0.
Proof. exact C105_ex. Qed.
