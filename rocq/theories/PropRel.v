(** * Properties proved in RelStmt.v, restated (written by tools/genprops.py) *)

From Coq Require Import ZArith Znumtheory List Bool Lia Ring Field.
From Verif Require Import Machine FieldModel ScalarModel EdwardsModel RistrettoModel Spec OffSpec MachineFacts
  FieldLimb FieldOps FieldBytes NumTheory Primes Fp FieldF FieldInv FieldStmt Curve CurveGroup EdwardsF EdwardsStmt.
Import ListNotations.
Open Scope F_scope.
From Verif Require Import RelStmt.

(** ** C109: Ristretto equality on arbitrary coordinates *)

(** Two points compare equal exactly if X : Y are the same ratio or inverse ratios. Z and T are not looked at. *)
Theorem C109_eq : forall ck P Q, reduced_ext P -> reduced_ext Q ->
  exists r, rp_eqb ck P Q = Ok r /\
    (r = true <-> residue (eX P) * residue (eY Q) = residue (eY P) * residue (eX Q) \/
                  residue (eX P) * residue (eX Q) = residue (eY P) * residue (eY Q)).
Proof. exact C109_eq_stmt. Qed.
Print Assumptions C109_eq.

(** Reflexive and symmetric for all coordinates; transitive through every point with X or Y not zero. *)
Theorem C109_equivalence : forall ck P Q R, reduced_ext P -> reduced_ext Q -> reduced_ext R ->
  rp_eqb ck P P = Ok true /\ rp_eqb ck P Q = rp_eqb ck Q P /\
  (~ (fval (eX Q) = 0%Z /\ fval (eY Q) = 0%Z) ->
   rp_eqb ck P Q = Ok true -> rp_eqb ck Q R = Ok true -> rp_eqb ck P R = Ok true).
Proof. exact C109_equivalence_stmt. Qed.
Print Assumptions C109_equivalence.

(** A value with X = Y = 0 equals every point. *)
Theorem C109_zero : forall ck P Q, reduced_ext P -> reduced_ext Q -> fval (eX P) = 0%Z -> fval (eY P) = 0%Z ->
  rp_eqb ck P Q = Ok true /\ rp_eqb ck Q P = Ok true.
Proof. exact C109_zero_stmt. Qed.
Print Assumptions C109_zero.

Theorem C109_transitive_refuted : exists P Q R, reduced_ext P /\ reduced_ext Q /\ reduced_ext R /\ forall ck,
  rp_eqb ck P Q = Ok true /\ rp_eqb ck Q R = Ok true /\ rp_eqb ck P R = Ok false.
Proof. exact C109_transitive_refuted_stmt. Qed.
Print Assumptions C109_transitive_refuted.

Theorem C109_double_refuted : exists P A, ext_at P A /\ ~ on_curve A /\ valid_ext BASEPOINT /\ forall ck,
  rp_eqb ck P BASEPOINT = Ok true /\
  (R <- rp_double ck P ;; S <- rp_double ck BASEPOINT ;; rp_eqb ck R S) = Ok false.
Proof. exact C109_double_refuted_stmt. Qed.
Print Assumptions C109_double_refuted.

Example C109_nonvacuous : reduced_ext BASEPOINT /\ ~ (fval (eX BASEPOINT) = 0%Z /\ fval (eY BASEPOINT) = 0%Z) /\
  reduced_ext rel_half /\ rp_eqb true BASEPOINT rel_half = Ok true /\ rp_eqb true ept_identity rel_half = Ok false /\
  reduced_ext rel_zero /\ fval (eX rel_zero) = 0%Z /\ fval (eY rel_zero) = 0%Z.
Proof. exact C109_ex. Qed.
