(** * Properties proved in WidthStmt.v, restated (written by tools/genprops.py) *)

From Coq Require Import ZArith Znumtheory List Bool Lia.
From Verif Require Import Machine FieldModel ScalarModel Spec MachineFacts FieldOps FieldBytes
  ScalarLimb ScalarOps ScalarBits ScalarNaf ScalarStmt EdwardsModel RistrettoModel NafSpec NafStmt.
Import ListNotations.
Open Scope Z_scope.
From Verif Require Import WidthStmt.

(** ** C80: compute_window_NAF at every width argument *)

(** Zero is recoded as 256 zeros at every width. *)
Theorem C80_zero : forall ck w k, scanon k -> sval k = 0 -> sc_compute_window_NAF ck k w = Ok (repeat 0 256).
Proof. exact C80_zero_stmt. Qed.
Print Assumptions C80_zero.

(** Widths at which every other scalar panics, in a build with ([true]) or without overflow checks. *)
Theorem C80_panic : forall ck w k, scanon k -> sval k <> 0 -> 0 <= w <= 255 ->
  w <= 1 \/ 32 <= w \/ (ck = true /\ 8 <= w) \/ (ck = false /\ (w = 9 \/ w = 17 \/ w = 25)) ->
  sc_compute_window_NAF ck k w = Panic.
Proof. exact C80_panic_stmt. Qed.
Print Assumptions C80_panic.

(** The multiplication built on the recoding panics with it. *)
Theorem C80_mul_panic : forall ck w k, scanon k -> sval k <> 0 -> 0 <= w <= 255 ->
  w <= 1 \/ 32 <= w \/ (ck = true /\ 8 <= w) \/ (ck = false /\ (w = 9 \/ w = 17 \/ w = 25)) ->
  window_naf_mul ck k w = Panic.
Proof. exact C80_mul_panic_stmt. Qed.
Print Assumptions C80_mul_panic.

(** Width 7 with overflow checks: a panic or a correct recoding. *)
Theorem C80_seven_checked : forall k, scanon k ->
  sc_compute_window_NAF true k 7 = Panic \/
  exists ds, sc_compute_window_NAF true k 7 = Ok ds /\ signed_recoding 7 (sval k) ds.
Proof. exact C80_seven_checked_stmt. Qed.
Print Assumptions C80_seven_checked.

(** Width 7 without: correct for all but the odd scalars from L - 34 on. *)
Theorem C80_seven_unchecked : forall k, scanon k -> sval k < L - 34 \/ Z.even (sval k) = true ->
  exists ds, sc_compute_window_NAF false k 7 = Ok ds /\ signed_recoding 7 (sval k) ds.
Proof. exact C80_seven_unchecked_stmt. Qed.
Print Assumptions C80_seven_unchecked.

(** Widths 10 to 15, 18 to 23 and 26 to 31 without overflow checks: the digits are
    those of the width modulo 8 up to a multiple of 256: their sum is right, they
    are spaced by the width modulo 8, and they need up to eight bits. *)
Theorem C80_wide_unchecked : forall w k, scanon k -> 9 <= w <= 31 -> 2 <= w mod 8 ->
  w mod 8 <= 6 \/ sval k < L - 34 \/ Z.even (sval k) = true ->
  exists ds, sc_compute_window_NAF false k w = Ok ds /\ length ds = 256%nat /\ digits_value ds = sval k /\
    Forall (fun d => d = 0 \/ (Z.odd d = true /\ -127 <= d <= 127)) ds /\
    (forall i l, (i < l)%nat -> Z.of_nat l < Z.of_nat i + w mod 8 -> nth i ds 0 = 0 \/ nth l ds 0 = 0).
Proof. exact C80_wide_unchecked_stmt. Qed.
Print Assumptions C80_wide_unchecked.

(** Widths 7, 15, 23 and 31 on the excluded scalars L - 2t: the digits sum to -1 - 2t. *)
Theorem C80_wrap : forall w t k, w = 7 \/ w = 15 \/ w = 23 \/ w = 31 -> 1 <= t <= 17 -> scanon k -> sval k = L - 2 * t ->
  exists ds, sc_compute_window_NAF false k w = Ok ds /\ digits_value ds = - 1 - 2 * t /\
    digits_value ds mod L <> sval k mod L.
Proof. exact C80_wrap_stmt. Qed.
Print Assumptions C80_wrap.

(** Widths 8, 16 and 24 without overflow checks: never right, except on zero. *)
Theorem C80_eight_unchecked : forall w k ds, w = 8 \/ w = 16 \/ w = 24 -> scanon k -> sval k <> 0 ->
  sc_compute_window_NAF false k w = Ok ds -> digits_value ds <> sval k.
Proof. exact C80_eight_unchecked_stmt. Qed.
Print Assumptions C80_eight_unchecked.

(** 63 is recoded, 127 panics (checked) or is recoded (unchecked), at width 7; L - 2
    is one of the excluded scalars; width 8 loses the value of 1, width 15 keeps that of 127. *)
Example C80_nonvacuous : scanon (SC 127 0 0 0 0) /\ sval (SC 127 0 0 0 0) < L - 34 /\
  sc_compute_window_NAF true (SC 63 0 0 0 0) 7 = Ok (pad256 [63]) /\
  sc_compute_window_NAF true (SC 127 0 0 0 0) 7 = Panic /\
  sc_compute_window_NAF false (SC 127 0 0 0 0) 7 = Ok (pad256 [-1; 0; 0; 0; 0; 0; 0; 1]) /\
  sc_compute_window_NAF false (SC 127 0 0 0 0) 15 = Ok (pad256 [-1; 0; 0; 0; 0; 0; 0; 1]) /\
  sc_compute_window_NAF false (SC 1 0 0 0 0) 8 = Ok (repeat 0 256) /\
  scanon (SC 1129677152307297 1363544697812651 714439 0 2199023255552) /\
  sval (SC 1129677152307297 1363544697812651 714439 0 2199023255552) = L - 2 * 1.
Proof. exact C80_ex. Qed.
