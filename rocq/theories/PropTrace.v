(** * Properties proved in TraceStmt.v, restated (written by tools/genprops.py) *)

From Coq Require Import ZArith List Bool Lia.
From Verif Require Import Machine FieldModel ScalarModel EdwardsModel TableModel RistrettoModel Spec MachineFacts
  ScalarLimb ScalarOps ScalarBits ScalarNaf NafSpec PointMul ScalarStmt NafStmt TraceModel TraceSpec.
Import ListNotations.
Open Scope Z_scope.
From Verif Require Import TraceStmt.

(** ** C87: Which point operations the scalar multiplications perform *)

(** The logging variants are the functions of the model with a log that depends on the
    scalar alone. *)
Theorem C87_double_and_add : forall (T : Type) (add : T -> T -> res T) double identity P n, sloadable n ->
  double_and_add_log add double identity P n =
  (R <- double_and_add add double identity P n ;; Ok (R, rtl_trace (sval n))).
Proof. exact C87_double_and_add_stmt. Qed.
Print Assumptions C87_double_and_add.

Theorem C87_ltr : forall (T : Type) (add : T -> T -> res T) double identity P n, sloadable n ->
  ltr_bin_mul_log add double identity P n =
  (R <- ltr_bin_mul add double identity P n ;; Ok (R, ltr_trace 249 (sval n))).
Proof. exact C87_ltr_stmt. Qed.
Print Assumptions C87_ltr.

Theorem C87_naf : forall (T : Type) ck (add sub : T -> T -> res T) double identity P n ds,
  sc_compute_NAF ck n = Ok ds -> length ds = 256%nat ->
  binary_naf_mul_log ck add sub double identity P n =
  (R <- binary_naf_mul ck add sub double identity P n ;; Ok (R, digit_trace naf_call 250 ds)).
Proof. exact C87_naf_stmt. Qed.
Print Assumptions C87_naf.

Theorem C87_window : forall ck n w ds,
  sc_compute_window_NAF ck n w = Ok ds -> length ds = 256%nat ->
  window_naf_mul_log ck n w = (R <- window_naf_mul ck n w ;; Ok (R, digit_trace tab_call 250 ds)).
Proof. exact C87_window_stmt. Qed.
Print Assumptions C87_window.

Theorem C87_cost_binary : forall k,
  doublings (rtl_trace k) = Z.of_nat (bit_length k) /\ additions (rtl_trace k) = ones (bit_length k) k /\
  forall n, doublings (ltr_trace n k) = Z.of_nat n /\ additions (ltr_trace n k) = ones n k.
Proof. exact C87_cost_binary_stmt. Qed.
Print Assumptions C87_cost_binary.

(** The signed recodings: 250 doublings and one addition or subtraction per non-zero
    digit, at most 125 for the binary one and (249+w)/w for width w. *)
Theorem C87_cost_naf : forall ck k, scanon k -> exists ds, sc_compute_NAF ck k = Ok ds /\ length ds = 256%nat /\
  doublings (digit_trace naf_call 250 ds) = 250 /\ additions (digit_trace naf_call 250 ds) = weight ds /\
  additions (digit_trace naf_call 250 ds) <= 125.
Proof. exact C87_cost_naf_stmt. Qed.
Print Assumptions C87_cost_naf.

Theorem C87_cost_window : forall ck w k, scanon k -> 2 <= w <= 6 -> (w = 6 -> sval k <> L - 2) ->
  exists ds, sc_compute_window_NAF ck k w = Ok ds /\ length ds = 256%nat /\
  doublings (digit_trace tab_call 250 ds) = 250 /\ additions (digit_trace tab_call 250 ds) = weight ds /\
  w * additions (digit_trace tab_call 250 ds) <= 249 + w.
Proof. exact C87_cost_window_stmt. Qed.
Print Assumptions C87_cost_window.

(** *** The log gives the scalar away *)
Theorem C87_leak_rtl : forall k k', 0 <= k -> 0 <= k' -> rtl_trace k = rtl_trace k' -> k = k'.
Proof. exact C87_leak_rtl_stmt. Qed.
Print Assumptions C87_leak_rtl.

Theorem C87_leak_ltr : forall n k k', ltr_trace n k = ltr_trace n k' <-> k mod 2 ^ Z.of_nat n = k' mod 2 ^ Z.of_nat n.
Proof. exact C87_leak_ltr_stmt. Qed.
Print Assumptions C87_leak_ltr.

Theorem C87_leak_naf : forall ck k k' ds ds', scanon k -> scanon k' ->
  sc_compute_NAF ck k = Ok ds -> sc_compute_NAF ck k' = Ok ds' ->
  digit_trace naf_call 250 ds = digit_trace naf_call 250 ds' -> k = k'.
Proof. exact C87_leak_naf_stmt. Qed.
Print Assumptions C87_leak_naf.

Theorem C87_leak_window : forall ck w k k' ds ds', scanon k -> scanon k' ->
  2 <= w <= 6 -> (w = 6 -> sval k <> L - 2) -> (w = 6 -> sval k' <> L - 2) ->
  sc_compute_window_NAF ck k w = Ok ds -> sc_compute_window_NAF ck k' w = Ok ds' ->
  digit_trace tab_call 250 ds = digit_trace tab_call 250 ds' -> k = k'.
Proof. exact C87_leak_window_stmt. Qed.
Print Assumptions C87_leak_window.

(** None of them runs in constant time: scalars of the same length need different
    numbers of operations. *)
Theorem C87_constant_refuted : exists k k' ds ds', scanon k /\ scanon k' /\ bit_length (sval k) = bit_length (sval k') /\
  length (rtl_trace (sval k)) <> length (rtl_trace (sval k')) /\
  length (ltr_trace 249 (sval k)) <> length (ltr_trace 249 (sval k')) /\
  sc_compute_NAF true k = Ok ds /\ sc_compute_NAF true k' = Ok ds' /\
  length (digit_trace naf_call 250 ds) <> length (digit_trace naf_call 250 ds') /\
  length (digit_trace tab_call 250 ds) <> length (digit_trace tab_call 250 ds').
Proof. exact C87_constant_refuted_stmt. Qed.
Print Assumptions C87_constant_refuted.

Example C87_nonvacuous : sloadable (SC 11 0 0 0 0) /\ rtl_trace 11 = [OAdd; ODbl; OAdd; ODbl; ODbl; OAdd; ODbl] /\
  ltr_trace 4 11 = [ODbl; OAdd; ODbl; ODbl; OAdd; ODbl; OAdd] /\
  (forall ck, sc_compute_NAF ck (SC 11 0 0 0 0) = Ok (-1 :: 0 :: -1 :: 0 :: 1 :: repeat 0 251)) /\
  (forall ck, sc_compute_window_NAF ck (SC 11 0 0 0 0) 4 = Ok (-5 :: 0 :: 0 :: 0 :: 1 :: repeat 0 251)) /\
  digit_trace naf_call 5 [-1; 0; -1; 0; 1] = [ODbl; OAdd; ODbl; ODbl; OSub; ODbl; ODbl; OSub].
Proof. exact C87_ex. Qed.
