(** * Properties proved in NafStmt.v, restated (written by tools/genprops.py) *)

From Coq Require Import ZArith Znumtheory List Bool Lia.
From Verif Require Import Machine FieldModel ScalarModel Spec MachineFacts FieldOps FieldBytes
  ScalarLimb ScalarOps ScalarBits ScalarNaf ScalarStmt NafSpec.
Import ListNotations.
Open Scope Z_scope.
From Verif Require Import NafStmt.

(** ** C79: The signed-digit recodings are unique and of least weight *)

Theorem C79_naf : forall ck k, scanon k ->
  exists ds, sc_compute_NAF ck k = Ok ds /\ digits_value ds = sval k /\
    (forall es, signed_recoding 2 (sval k) es -> es = ds) /\
    (forall es, Forall (fun d => d = -1 \/ d = 0 \/ d = 1) es -> digits_value es = sval k ->
       weight ds <= weight es) /\
    weight ds <= 125.
Proof. exact C79_naf_stmt. Qed.
Print Assumptions C79_naf.

Theorem C79_wnaf : forall ck w k, scanon k -> 2 <= w <= 6 -> (w = 6 -> sval k <> L - 2) ->
  exists ds, sc_compute_window_NAF ck k w = Ok ds /\ digits_value ds = sval k /\
    (forall es, signed_recoding w (sval k) es -> es = ds) /\
    (forall es, small_digits w es -> digits_value es = sval k -> weight ds <= weight es) /\
    w * weight ds <= 249 + w.
Proof. exact C79_wnaf_stmt. Qed.
Print Assumptions C79_wnaf.

(** The two recodings agree at width two. *)
Theorem C79_width_two : forall ck k, scanon k -> sc_compute_window_NAF ck k 2 = sc_compute_NAF ck k.
Proof. exact C79_width_two_stmt. Qed.
Print Assumptions C79_width_two.

(** The binary expansion of 2^40 - 1 has weight 40, its recoding weight 2. *)
Example C79_nonvacuous : scanon (SC (2 ^ 40 - 1) 0 0 0 0) /\ digits_value (repeat 1 40) = 2 ^ 40 - 1 /\
  weight (repeat 1 40) = 40 /\
  exists ds, sc_compute_NAF true (SC (2 ^ 40 - 1) 0 0 0 0) = Ok ds /\ weight ds = 2.
Proof. exact C79_ex. Qed.
