(** * Properties proved in RandStmt.v, restated (written by tools/genprops.py) *)

From Coq Require Import ZArith List Bool Lia Ring.
From Verif Require Import Machine FieldModel ScalarModel EdwardsModel Spec MachineFacts FieldLimb FieldOps FieldBytes
  Primes Fp FieldF FieldStmt ScalarOps ScalarBits ScalarNaf ScalarStmt Curve CurveGroup EdwardsF PointMul EdwardsY
  EdwardsStmt RistrettoStmt ApiStmt RandSpec.
Import ListNotations.
Open Scope Z_scope.
From Verif Require Import RandStmt.

(** ** C82: How often each value is drawn at random *)

(** Every reduced element below 2^251 is returned for exactly 32 of the 2^256 outputs. *)
Theorem C82_field : forall a, fcanon a -> fval a < 2 ^ 251 ->
  exactly 32 (fun d => is_bytes 32 d /\ fe_random d = Ok a).
Proof. exact C82_field_stmt. Qed.
Print Assumptions C82_field.

(** The others are never returned. *)
Theorem C82_field_above : forall a, fcanon a -> 2 ^ 251 <= fval a ->
  exactly 0 (fun d => is_bytes 32 d /\ fe_random d = Ok a).
Proof. exact C82_field_above_stmt. Qed.
Print Assumptions C82_field_above.

(** Every reduced scalar below 2^249 is returned for exactly 128 of the 2^256 outputs. *)
Theorem C82_scalar : forall a, scanon a -> sval a < 2 ^ 249 ->
  exactly 128 (fun d => is_bytes 32 d /\ sc_random d = Ok a).
Proof. exact C82_scalar_stmt. Qed.
Print Assumptions C82_scalar.

Theorem C82_scalar_above : forall a, scanon a -> 2 ^ 249 <= sval a ->
  exactly 0 (fun d => is_bytes 32 d /\ sc_random d = Ok a).
Proof. exact C82_scalar_above_stmt. Qed.
Print Assumptions C82_scalar_above.

(** A single draw: of the points above one y below 2^251 exactly one can come out, and it
    does so for exactly 32 draws; no draw leads to a point with a larger y. *)
Theorem C82_point_draw : forall ck x y, on_curve (x, y) ->
  (Fval y < 2 ^ 251 -> exists x', on_curve (x', y) /\
     exactly 32 (fun d => is_bytes 32 d /\ returns_ext (ept_new_random_point ck [d]) (x', y)) /\
     exactly 32 (fun d => is_bytes 32 d /\ returns_proj (ppt_new_random_point ck [d]) (x', y)) /\
     forall z, z <> x' -> exactly 0 (fun d => is_bytes 32 d /\ returns_ext (ept_new_random_point ck [d]) (z, y)) /\
       exactly 0 (fun d => is_bytes 32 d /\ returns_proj (ppt_new_random_point ck [d]) (z, y))) /\
  (2 ^ 251 <= Fval y -> exactly 0 (fun d => is_bytes 32 d /\ returns_ext (ept_new_random_point ck [d]) (x, y)) /\
     exactly 0 (fun d => is_bytes 32 d /\ returns_proj (ppt_new_random_point ck [d]) (x, y))).
Proof. exact C82_point_draw_stmt. Qed.
Print Assumptions C82_point_draw.

(** Streams of n draws: however many retries happen, all points that can come out come out
    for the same number of streams. *)
Theorem C82_point_stream : forall n, exists m, (n <> 0%nat -> (0 < m)%nat) /\
  forall ck A, (exists d, is_bytes 32 d /\ returns_ext (ept_new_random_point ck [d]) A) ->
    exactly m (fun ds => (length ds = n /\ Forall (is_bytes 32) ds) /\ returns_ext (ept_new_random_point ck ds) A) /\
    exactly m (fun ds => (length ds = n /\ Forall (is_bytes 32) ds) /\ returns_proj (ppt_new_random_point ck ds) A).
Proof. exact C82_point_stream_stmt. Qed.
Print Assumptions C82_point_stream.

(** Both sides of each bound are inhabited, and some draw leads to a point. *)
Example C82_nonvacuous : (fcanon (FE 7 0 0 0 0) /\ fval (FE 7 0 0 0 0) < 2 ^ 251) /\
  (fcanon fe_minus_one /\ 2 ^ 251 <= fval fe_minus_one) /\
  (scanon (SC 7 0 0 0 0) /\ sval (SC 7 0 0 0 0) < 2 ^ 249) /\
  (scanon sc_minus_one /\ 2 ^ 249 <= sval sc_minus_one) /\
  (on_curve (0, 1)%F /\ Fval 1 < 2 ^ 251) /\ (on_curve (0, - (1))%F /\ 2 ^ 251 <= Fval (- (1))) /\
  exists d A, is_bytes 32 d /\ returns_ext (ept_new_random_point true [d]) A.
Proof. exact C82_ex. Qed.
