(** * Properties proved in LogStmt.v, restated (written by tools/genprops.py) *)

From Coq Require Import ZArith Znumtheory List Bool Lia Ring Field.
From Verif Require Import Machine FieldModel ScalarModel EdwardsModel TableModel RistrettoModel Spec MachineFacts FieldLimb
  FieldMul FieldOps FieldBytes ScalarLimb ScalarOps ScalarBits ScalarNaf NumTheory Primes Fp FieldF FieldInv FieldStmt PointMul Curve
  CurveGroup EdwardsF EdwardsY Rist RistF RistE RistSpec RistrettoStmt GroupCheck GroupStmt MiscStmt ScalarStmt NafStmt
  BranchModel BranchSpec BranchStmt LeakModel LeakStmt LeakPtStmt BuildStmt.
Import ListNotations.
Open Scope Z_scope.
From Verif Require Import LogStmt.

(** ** C102: The branches taken are the same in debug and release builds *)

(** Field functions. *)
Theorem C102_field : forall a b e s k, fcanon a -> fcanon b -> flimbs e -> 0 <= k ->
  fe_pow_log true a e = fe_pow_log false a e /\
  fe_legendre_symbol_log true a = fe_legendre_symbol_log false a /\
  fe_inner_two_pow_k_log true k = fe_inner_two_pow_k_log false k /\
  fe_inverse_log true a = fe_inverse_log false a /\
  fe_div_log true a b = fe_div_log false a b /\
  fe_div_val_log true a b = fe_div_val_log false a b /\
  fe_mod_sqrt_log true a s = fe_mod_sqrt_log false a s /\
  fe_sqrt_ratio_i_log true a b = fe_sqrt_ratio_i_log false a b /\
  fe_inv_sqrt_log true a = fe_inv_sqrt_log false a.
Proof. exact C102_field_stmt. Qed.
Print Assumptions C102_field.

(** Scalar functions. *)
Theorem C102_scalar : forall a e k z w, scanon a -> scanon e -> 0 <= k -> -127 <= z <= 127 -> 2 <= w <= 6 ->
  sc_two_pow_k_log true k = sc_two_pow_k_log false k /\
  sc_from_i8_log true z = sc_from_i8_log false z /\
  sc_pow_log true a e = sc_pow_log false a e /\
  sc_mods_2_pow_k_log true a w = sc_mods_2_pow_k_log false a w /\
  sc_compute_NAF_log true a = sc_compute_NAF_log false a /\
  sc_compute_window_NAF_log true a w = sc_compute_window_NAF_log false a w.
Proof. exact C102_scalar_stmt. Qed.
Print Assumptions C102_scalar.

(** Multiplication of points, for any scalar where no recoding is involved. *)
Theorem C102_mul : forall P R n k w, reduced_ext P -> reduced_proj R -> scanon k -> 2 <= w <= 6 ->
  ept_mul_log true P n = ept_mul_log false P n /\
  ppt_mul_log true R n = ppt_mul_log false R n /\
  rp_mul_log true P n = rp_mul_log false P n /\
  ltr_bin_mul_log (ept_add true) (ept_double true) ept_identity P n =
    ltr_bin_mul_log (ept_add false) (ept_double false) ept_identity P n /\
  ltr_bin_mul_log (ppt_add true) (ppt_double true) ppt_identity R n =
    ltr_bin_mul_log (ppt_add false) (ppt_double false) ppt_identity R n /\
  binary_naf_mul_log true (ept_add true) (ept_sub true) (ept_double true) ept_identity P k =
    binary_naf_mul_log false (ept_add false) (ept_sub false) (ept_double false) ept_identity P k /\
  binary_naf_mul_log true (ppt_add true) (ppt_sub true) (ppt_double true) ppt_identity R k =
    binary_naf_mul_log false (ppt_add false) (ppt_sub false) (ppt_double false) ppt_identity R k /\
  window_naf_mul_log true k w = window_naf_mul_log false k w.
Proof. exact C102_mul_stmt. Qed.
Print Assumptions C102_mul.

(** Conversion, comparison, encoding and decoding. *)
Theorem C102_points : forall P Q R S y s b r, reduced_ext P -> reduced_ext Q -> reduced_proj R -> reduced_proj S ->
  fcanon y -> is_bytes 32 b -> floadable r ->
  apt_of_ept_log true P = apt_of_ept_log false P /\
  apt_of_ppt_log true R = apt_of_ppt_log false R /\
  ept_eqb_log true P Q = ept_eqb_log false P Q /\
  ppt_eqb_log true R S = ppt_eqb_log false R S /\
  find_xx_log true y = find_xx_log false y /\
  ppt_new_from_y_coord_log true y s = ppt_new_from_y_coord_log false y s /\
  ept_new_from_y_coord_log true y s = ept_new_from_y_coord_log false y s /\
  ept_compress_log true P = ept_compress_log false P /\
  cey_decompress_log true b = cey_decompress_log false b /\
  rp_compress_log true P = rp_compress_log false P /\
  cr_decompress_log true b = cr_decompress_log false b /\
  rp_elligator_log true r = rp_elligator_log false r.
Proof. exact C102_points_stmt. Qed.
Print Assumptions C102_points.

(** For coordinates that are not reduced the logs can differ. *)
Theorem C102_unreduced_refuted : exists P n, scanon n /\ log_of (ept_mul_log true P n) <> log_of (ept_mul_log false P n).
Proof. exact C102_unreduced_refuted_stmt. Qed.
Print Assumptions C102_unreduced_refuted.

Example C102_nonvacuous : fcanon fe_minus_one /\ scanon sc_minus_one /\ reduced_ext BASEPOINT /\ reduced_proj ppt_identity /\
  is_bytes 32 (repeat 0 32) /\ floadable fe_minus_one /\
  at_line 10402 (log_of (sc_compute_window_NAF_log true (SC 3 0 0 0 0) 4)) = [1; 0].
Proof. exact C102_ex. Qed.

(** ** C103: What single decisions say *)

(** The loop runs up to the last nonzero digit; its parity tests tell the zero digits from
    the others and the arms give the signs of the others. *)
Theorem C103_window : forall ck w a ds, 2 <= w <= 6 -> scanon a -> sc_compute_window_NAF ck a w = Ok ds ->
  let l := log_of (sc_compute_window_NAF_log ck a w) in
  exists es, ds = es ++ repeat 0 (256 - length es) /\ (es <> [] -> last es 0 <> 0) /\
    at_line 10402 l = repeat 1 (length es) ++ [0] /\
    at_line 10403 l = map (fun d => if d =? 0 then 0 else 1) es /\
    at_line 10438 l = map (fun d => if d <? 0 then 1 else 0) (filter (fun d => negb (d =? 0)) es) /\
    at_line 10073 l = map (fun d => if d <? 0 then 1 else 0) (filter (fun d => negb (d =? 0)) es).
Proof. exact C103_window_stmt. Qed.
Print Assumptions C103_window.

Theorem C103_naf : forall ck a ds, scanon a -> sc_compute_NAF ck a = Ok ds ->
  let l := log_of (sc_compute_NAF_log ck a) in
  exists es, ds = es ++ repeat 0 (256 - length es) /\ (es <> [] -> last es 0 <> 0) /\
    at_line 10376 l = repeat 1 (length es) ++ [0] /\
    at_line 10377 l = map (fun d => if d =? 0 then 0 else 1) es /\
    at_line 10073 l = map (fun d => if d <? 0 then 1 else 0) (filter (fun d => negb (d =? 0)) es).
Proof. exact C103_naf_stmt. Qed.
Print Assumptions C103_naf.

(** Decoding a scalar: the assertion at the end. *)
Theorem C103_from_bytes : forall b, is_bytes 32 b ->
  at_line 10465 (log_of (sc_from_bytes_log b)) = [if le_value b <? L then 1 else 0].
Proof. exact C103_from_bytes_stmt. Qed.
Print Assumptions C103_from_bytes.

(** Powers of two: the assertion, and the arm is the index of the limb that is set. *)
Theorem C103_two_pow_k : forall ck k, 0 <= k ->
  log_of (sc_two_pow_k_log ck k) = (if k <? 250 then [Br 10531 1; Br 10534 (k / 52)] else [Br 10531 0]) /\
  log_of (fe_inner_two_pow_k_log ck k) = (if k <? 260 then [Br 717 1; Br 720 (k / 52)] else [Br 717 0]).
Proof. exact C103_two_pow_k_stmt. Qed.
Print Assumptions C103_two_pow_k.

Theorem C103_ristretto_compress : forall ck P A, ext_rep P A -> even_point A ->
  at_line 30407 (log_of (rp_compress_log ck P)) = [if Fval (fst A * snd A)%F <=? (p - 1) / 2 then 0 else 1].
Proof. exact C103_ristretto_compress_stmt. Qed.
Print Assumptions C103_ristretto_compress.

Theorem C103_ristretto_decompress : forall ck b, is_bytes 32 b ->
  let l := log_of (cr_decompress_log ck b) in let s := toF (le_value b) in
  let f := ((- (cd * ((1 - s * s) * (1 - s * s))) - (1 + s * s) * (1 + s * s)) * ((1 + s * s) * (1 + s * s)))%F in
  at_line 30112 l = (if le_value b <=? (p - 1) / 2 then [0; 0] else [1]) /\
  (le_value b <= (p - 1) / 2 ->
    (at_line 30128 l = [0] \/ at_line 30128 l = [1]) /\
    (at_line 30128 l = [0] <-> exists t, t <> 0%F /\ (t * t)%F = f) /\
    ((exists P, result_of (cr_decompress_log ck b) = Ok (Some P)) <-> at_line 30144 l = [0; 0]) /\
    (le_value b = 1 <-> at_line 30144 l = [0; 1])).
Proof. exact C103_ristretto_decompress_stmt. Qed.
Print Assumptions C103_ristretto_decompress.

(** The map to Ristretto points: the last sign test is the one of s·r0, where s is the root
    of N/D or of i·N/D that was taken. *)
Theorem C103_elligator : forall ck r, floadable r ->
  let r0 := residue r in let t := (residue SQRT_MINUS_ONE * (r0 * r0))%F in
  let N := ((t + 1) * (1 - cd * cd))%F in let D := ((- (1) - cd * t) * (t + cd))%F in
  exists s pre, (D <> 0%F -> (s * s * D)%F = N \/ (s * s * D)%F = (residue SQRT_MINUS_ONE * N)%F) /\ (D = 0%F -> s = 0%F) /\
    Fval s <= (p - 1) / 2 /\
    at_line 553 (log_of (rp_elligator_log ck r)) = pre ++ [1; if Fval (s * r0)%F <=? (p - 1) / 2 then 1 else 0].
Proof. exact C103_elligator_stmt. Qed.
Print Assumptions C103_elligator.

Example C103_nonvacuous : scanon (SC 7 0 0 0 0) /\ reduced_ext BASEPOINT /\ is_bytes 32 (repeat 255 32) /\ floadable fe_minus_one /\
  (exists ds, sc_compute_window_NAF true (SC 7 0 0 0 0) 4 = Ok (7 :: ds)) /\
  (exists ds, sc_compute_NAF true (SC 7 0 0 0 0) = Ok (-1 :: 0 :: 0 :: 1 :: ds)) /\
  at_line 10377 (log_of (sc_compute_NAF_log true (SC 7 0 0 0 0))) = [1; 0; 0; 1] /\
  at_line 10073 (log_of (sc_compute_NAF_log true (SC 7 0 0 0 0))) = [1; 0] /\
  at_line 10465 (log_of (sc_from_bytes_log (repeat 255 32))) = [0].
Proof. exact C103_ex. Qed.
