(** * The unit tests of the repository, run on the model

    The `#[test]`s of /repo/src that draw no randomness are transcribed as boolean computations
    of the model in debug mode ([ck = true], the mode `cargo test` builds in), and evaluated.
    These are tests on literals, not proofs about all inputs: they validate the hand translation
    from Rust to the model against answers the authors of the code computed independently.  The
    constants are copied by tools/genvectors.py into VectorData.v.  The tests that take long
    (inversions, square roots, scalar products, encodings) are in tools/heavy_vectors.txt, whose
    header says how to run them.

    A comparison `a[i] == b[i]` for every limb is [feq] or [seq5]; on field elements it is
    stricter than `==`, which compares encodings. *)
From Coq Require Import ZArith List Bool.
From Verif Require Import Machine FieldModel ScalarModel EdwardsModel RistrettoModel VectorData.
Import ListNotations.
Local Open Scope Z_scope.

(** `for i in 0..5 { assert!(a[i] == b[i]) }` on field elements. *)
Definition feq (a b : fe) : bool :=
  (f0 a =? f0 b) && (f1 a =? f1 b) && (f2 a =? f2 b) && (f3 a =? f3 b) && (f4 a =? f4 b).

(** The same on scalars. *)
Definition seq5 (a b : sc) : bool :=
  (s0 a =? s0 b) && (s1 a =? s1 b) && (s2 a =? s2 b) && (s3 a =? s3 b) && (s4 a =? s4 b).

(** ** src/backend/u64/field.rs *)

(** 1137-1142 `addition_with_modulo`, 1153-1158 `addition_mod_0`. *)
Example addition_with_modulo :
  (r <- fe_add true fe_minus_one fe_one ;; Ok (feq r fe_zero)) = Ok true.
Proof. vm_cast_no_check (eq_refl (Ok true)). Qed.

(** 1145-1150 `addition_without_modulo`. *)
Example addition_without_modulo :
  (r <- fe_add true tf_A tf_B ;; Ok (feq r tf_A_PLUS_B)) = Ok true.
Proof. vm_cast_no_check (eq_refl (Ok true)). Qed.

(** 1161-1167 `add_field_l`. *)
Example add_field_l :
  (r <- fe_add true (FE 2 0 0 0 0) FIELD_L ;; Ok (feq r (FE 2 0 0 0 0))) = Ok true.
Proof. vm_cast_no_check (eq_refl (Ok true)). Qed.

(** 1170-1175 `subtraction_with_mod`. *)
Example subtraction_with_mod :
  (r <- fe_sub true tf_A tf_B ;; Ok (feq r tf_A_MINUS_B)) = Ok true.
Proof. vm_cast_no_check (eq_refl (Ok true)). Qed.

(** 1178-1183 `subtraction_without_mod`. *)
Example subtraction_without_mod :
  (r <- fe_sub true tf_B tf_A ;; Ok (feq r tf_B_MINUS_A)) = Ok true.
Proof. vm_cast_no_check (eq_refl (Ok true)). Qed.

(** 1186-1191 `subtract_equals`. *)
Example subtract_equals :
  (r <- fe_sub true tf_B tf_B ;; Ok (feq r fe_zero)) = Ok true.
Proof. vm_cast_no_check (eq_refl (Ok true)). Qed.

(** 1194-1200 `subtract_field_l`. *)
Example subtract_field_l :
  (r <- fe_sub true (FE 2 0 0 0 0) FIELD_L ;; Ok (feq r (FE 2 0 0 0 0))) = Ok true.
Proof. vm_cast_no_check (eq_refl (Ok true)). Qed.

(** 1203-1208 `mul_with_modulo`. *)
Example mul_with_modulo :
  (r <- fe_mul true tf_A tf_B ;; Ok (feq r tf_A_TIMES_B)) = Ok true.
Proof. vm_cast_no_check (eq_refl (Ok true)). Qed.

(** 1211-1216 `mul_without_modulo`. *)
Example mul_without_modulo :
  (r <- fe_mul true tf_A tf_C ;; Ok (feq r tf_A_TIMES_C)) = Ok true.
Proof. vm_cast_no_check (eq_refl (Ok true)). Qed.

(** 1219-1229 `square`. *)
Example field_square :
  (r <- fe_square true tf_A ;; r' <- fe_square true tf_B ;;
   Ok (feq r tf_A_SQUARE && feq r' tf_B_SQUARE)) = Ok true.
Proof. vm_cast_no_check (eq_refl (Ok true)). Qed.

(** 1232-1240 `square_zero_and_identity`. *)
Example field_square_zero_and_identity :
  (r <- fe_square true fe_zero ;; r' <- fe_square true fe_identity ;;
   Ok (feq r fe_zero && feq r' fe_one)) = Ok true.
Proof. vm_cast_no_check (eq_refl (Ok true)). Qed.

(** 1314-1319 `from_bytes_conversion`. *)
Example from_bytes_conversion : feq (fe_from_bytes tf_MINUS_ONE_BYTES) fe_minus_one = true.
Proof. vm_cast_no_check (eq_refl true). Qed.

(** 1322-1327 `to_bytes_conversion`. *)
Example to_bytes_conversion : fe_to_bytes fe_minus_one = tf_MINUS_ONE_BYTES.
Proof. vm_cast_no_check (eq_refl tf_MINUS_ONE_BYTES). Qed.

(** 1330-1376 `from_u8`, `from_u16`, `from_u32`, `from_u64`, `from_u128`. *)
Example from_unsigned :
  feq (fe_from_u8 2) (FE 2 0 0 0 0)
  && feq (fe_from_u16 32768) (FE 32768 0 0 0 0)
  && feq (fe_from_u32 2147483648) (FE 2147483648 0 0 0 0)
  && feq (fe_from_u64 18446744073709551615) (FE 4503599627370495 4095 0 0 0)
  && feq (fe_from_u128 170141183460469231731687303715884105727)
         (FE 4503599627370495 4503599627370495 8388607 0 0) = true.
Proof. vm_cast_no_check (eq_refl true). Qed.

(** 1379-1399 `from_ristretto255scalar`. *)
Example from_ristretto255scalar :
  (a <- unwrap (dalek_from_canonical_bytes tf_dalek_bytes) ;;
   Ok (feq (fe_from_dalek a)
           (FE 2330265455450702 481909309544512 146945097235906 1298816433963441
               5441077225716))) = Ok true.
Proof. vm_cast_no_check (eq_refl (Ok true)). Qed.

(** 1402-1422 `into_ristretto255scalar`. *)
Example into_ristretto255scalar :
  (a <- unwrap (dalek_from_canonical_bytes tf_dalek_bytes) ;;
   r <- fe_into_dalek (FE 2330265455450702 481909309544512 146945097235906 1298816433963441
                          5441077225716) ;;
   Ok (bytes_eqb a r)) = Ok true.
Proof. vm_cast_no_check (eq_refl (Ok true)). Qed.

(** 1425-1449 `two_pow_k`. *)
Example field_two_pow_k :
  (a <- fe_two_pow_k true 0 ;; b <- fe_two_pow_k true 252 ;;
   c <- fe_two_pow_k true 197 ;; d <- fe_two_pow_k true 104 ;;
   Ok (feq a fe_one && feq b tf_TWO_POW_252 && feq c tf_TWO_POW_197 && feq d tf_TWO_POW_104))
  = Ok true.
Proof. vm_cast_no_check (eq_refl (Ok true)). Qed.

(** 1452-1458 `ord_impl`. *)
Example ord_impl :
  is_lt (fe_cmp (FE 2 0 0 0 0) (FE 0 2 0 0 0))
  && is_gt (fe_cmp (FE 0 0 0 0 1) (FE 0 2498436546 6587652167965486 0 0))
  && fe_eqb (FE 0 1 2 3 4) (FE 0 1 2 3 4) = true.
Proof. vm_cast_no_check (eq_refl true). Qed.

(** 1461-1474 `half`. *)
Example field_half :
  feq (fe_half_without_mod (FE 0 1 0 0 0)) (FE 2251799813685248 0 0 0 0)
  && feq (fe_half_without_mod tf_A_MINUS_B) tf_A_MINUS_B_HALF = true.
Proof. vm_cast_no_check (eq_refl true). Qed.

(** 1477-1482 `to_montgomery_conv`. *)
Example to_montgomery_conv :
  (r <- fe_to_montgomery true tf_A ;; Ok (feq r tf_INV_MONT_A)) = Ok true.
Proof. vm_cast_no_check (eq_refl (Ok true)). Qed.

(** 1485-1490 `from_montgomery_conv`. *)
Example from_montgomery_conv :
  (r <- fe_from_montgomery true tf_INV_MONT_A ;; Ok (feq r tf_A)) = Ok true.
Proof. vm_cast_no_check (eq_refl (Ok true)). Qed.

(** 1493-1501 `negation`. *)
Example negation :
  (a <- fe_neg true tf_A ;; b <- fe_neg true tf_B ;;
   Ok (feq a tf_MINUS_A && feq b tf_MINUS_B)) = Ok true.
Proof. vm_cast_no_check (eq_refl (Ok true)). Qed.

(** 1504-1514 `negate_one`, 1517-1522 `negate_zero`. *)
Example negate_one :
  (a <- fe_neg true fe_one ;; b <- fe_neg true fe_minus_one ;; c <- fe_neg true fe_zero ;;
   Ok (feq a fe_minus_one && feq b fe_one && feq c fe_zero)) = Ok true.
Proof. vm_cast_no_check (eq_refl (Ok true)). Qed.

(** 1525-1529 `l_field_high_bit`. *)
Example l_field_high_bit : nth 31 (fe_to_bytes FIELD_L) 0 <? shl W8 1 7 = true.
Proof. vm_cast_no_check (eq_refl true). Qed.

(** 1550-1555 `evenness`. *)
Example evenness : fe_is_even tf_A && negb (fe_is_even tf_B) = true.
Proof. vm_cast_no_check (eq_refl true). Qed.

(** ** src/backend/u64/scalar.rs *)

(** 789-798 `partial_ord_and_eq`, 937-941 `even_scalar`, 944-948 `ct_eq`. *)
Example partial_ord_and_eq :
  sc_is_even ts_Y && negb (sc_is_even ts_X) && sc_is_even sc_zero
  && is_lt (sc_cmp ts_A_MONT ts_Y) && is_lt (sc_cmp ts_Y ts_X)
  && is_ge (sc_cmp ts_Y ts_Y) && sc_eqb ts_X ts_X
  && sc_eqb ts_A ts_A && negb (sc_eqb ts_A ts_B) = true.
Proof. vm_cast_no_check (eq_refl (true)). Qed.

(** 801-808 `add_with_modulo`. *)
Example add_with_modulo :
  (r <- sc_add true ts_AB ts_BA ;; Ok (seq5 r sc_zero)) = Ok true.
Proof. vm_cast_no_check (eq_refl (Ok true)). Qed.

(** 811-817 `add_without_modulo`. *)
Example add_without_modulo :
  (r <- sc_add true ts_BA ts_A ;; Ok (seq5 r ts_B)) = Ok true.
Proof. vm_cast_no_check (eq_refl (Ok true)). Qed.

(** 820-825 `sub_with_modulo`. *)
Example sub_with_modulo :
  (r <- sc_sub true ts_A ts_B ;; Ok (seq5 r ts_AB)) = Ok true.
Proof. vm_cast_no_check (eq_refl (Ok true)). Qed.

(** 828-833 `sub_without_modulo`. *)
Example sub_without_modulo :
  (r <- sc_sub true ts_B ts_A ;; Ok (seq5 r ts_BA)) = Ok true.
Proof. vm_cast_no_check (eq_refl (Ok true)). Qed.

(** 836-842 `square_internal` (all nine words, the test looks at five). *)
Example square_internal :
  (r <- sc_square_internal true ts_A ;;
   Ok ((w0 r =? 0) && (w1 r =? 0) && (w2 r =? 0) && (w3 r =? 0) && (w4 r =? 0)
       && (w5 r =? 0) && (w6 r =? 4) && (w7 r =? 0) && (w8 r =? 0))) = Ok true.
Proof. vm_cast_no_check (eq_refl (Ok true)). Qed.

(** 845-850 `to_montgomery_conversion`. *)
Example to_montgomery_conversion :
  (r <- sc_to_montgomery true ts_A ;; Ok (seq5 r ts_A_MONT)) = Ok true.
Proof. vm_cast_no_check (eq_refl (Ok true)). Qed.

(** 853-858 `from_montgomery_conversion`. *)
Example from_montgomery_conversion :
  (r <- sc_from_montgomery true ts_Y_MONT ;; Ok (seq5 r ts_Y)) = Ok true.
Proof. vm_cast_no_check (eq_refl (Ok true)). Qed.

(** 861-866 `scalar_mul`. *)
Example scalar_mul :
  (r <- sc_mul true ts_X ts_Y ;; Ok (seq5 r ts_X_TIMES_Y)) = Ok true.
Proof. vm_cast_no_check (eq_refl (Ok true)). Qed.

(** 869-875 `mul_by_identity`. *)
Example mul_by_identity :
  (r <- sc_mul true ts_Y sc_identity ;; Ok (seq5 r ts_Y)) = Ok true.
Proof. vm_cast_no_check (eq_refl (Ok true)). Qed.

(** 878-883 `mul_by_zero`. *)
Example mul_by_zero :
  (r <- sc_mul true ts_Y sc_zero ;; Ok (seq5 r sc_zero)) = Ok true.
Proof. vm_cast_no_check (eq_refl (Ok true)). Qed.

(** 886-891 `montgomery_mul`. *)
Example montgomery_mul :
  (r <- sc_montgomery_mul true ts_X ts_Y ;; Ok (seq5 r ts_X_TIMES_Y_MONT)) = Ok true.
Proof. vm_cast_no_check (eq_refl (Ok true)). Qed.

(** 894-900 `square`. *)
Example scalar_square :
  (r <- sc_square true ts_Y ;; Ok (seq5 r ts_Y_SQ)) = Ok true.
Proof. vm_cast_no_check (eq_refl (Ok true)). Qed.

(** 903-911 `square_zero_and_identity`. *)
Example scalar_square_zero_and_identity :
  (z <- sc_square true sc_zero ;; o <- sc_square true sc_identity ;; Ok (seq5 z sc_zero && seq5 o sc_one)) = Ok true.
Proof. vm_cast_no_check (eq_refl (Ok true)). Qed.

(** 914-927 `half`. *)
Example scalar_half :
  (h <- sc_half true ts_Y ;; a <- sc_half true ts_A ;; aa <- sc_half true a ;;
   Ok (seq5 h ts_Y_HALF && seq5 (SC 0 0 0 1 0) a && seq5 (SC 0 0 2251799813685248 0 0) aa)) = Ok true.
Proof. vm_cast_no_check (eq_refl (Ok true)). Qed.

(** 952-960 `two_pow_k`. *)
Example scalar_two_pow_k :
  (a <- sc_two_pow_k true 0 ;; b <- sc_two_pow_k true 1 ;;
   c <- sc_two_pow_k true 249 ;; d <- sc_two_pow_k true 248 ;;
   Ok (sc_eqb a sc_one && sc_eqb b (sc_from_u8 2)
       && sc_eqb c (SC 0 0 0 0 2199023255552) && sc_eqb d (SC 0 0 0 0 1099511627776))) = Ok true.
Proof. vm_cast_no_check (eq_refl (Ok true)). Qed.

(** 963-977 `shr`. *)
Example scalar_shr :
  (p <- sc_two_pow_k true 249 ;;
   Ok (sc_eqb (sc_shr ts_A 1) (SC 0 0 0 1 0)
       && sc_eqb (sc_shr (SC 0 0 0 1 0) 1) (SC 0 0 2251799813685248 0 0)
       && sc_eqb (sc_shr sc_one 1) (SC 0 0 0 0 0)
       && sc_eqb (sc_shr sc_zero 1) sc_zero
       && sc_eqb (sc_shr sc_minus_one 250) sc_zero
       && sc_eqb (sc_shr p 248) (sc_from_u8 2)
       && sc_eqb (sc_shr p 249) sc_one)) = Ok true.
Proof. vm_cast_no_check (eq_refl (Ok true)). Qed.

(** 980-1010 `into_bits`. *)
Example into_bits :
  (p <- sc_two_pow_k true 249 ;;
   Ok (bytes_eqb (sc_into_bits sc_zero) (repeat 0 256)
       && bytes_eqb (sc_into_bits sc_one) (1 :: repeat 0 255)
       && bytes_eqb (sc_into_bits (sc_from_u8 9)) (1 :: 0 :: 0 :: 1 :: repeat 0 252)
       && bytes_eqb (sc_into_bits p) (repeat 0 249 ++ 1 :: repeat 0 6)
       && bytes_eqb (sc_into_bits sc_minus_one) ts_minus_one_bits)) = Ok true.
Proof. vm_cast_no_check (eq_refl (Ok true)). Qed.

(** 1013-1021 `mod_four`. *)
Example mod_four :
  (a <- sc_mod_2_pow_k true (sc_from_u8 4) 2 ;; b <- sc_mod_2_pow_k true (sc_from_u8 3) 2 ;;
   c <- sc_mod_2_pow_k true (sc_from_u16 557) 2 ;;
   d <- sc_mod_2_pow_k true (sc_from_u128 42535295865117307932887201356513780707) 2 ;;
   Ok ((a =? 0) && (b =? 3) && (c =? 1) && (d =? 3))) = Ok true.
Proof. vm_cast_no_check (eq_refl (Ok true)). Qed.

(** 1024-1027 `naf` (all 256 digits, the test looks at four). *)
Example naf :
  (d <- sc_compute_NAF true (sc_from_u8 7) ;;
   Ok (bytes_eqb d (-1 :: 0 :: 0 :: 1 :: repeat 0 252))) = Ok true.
Proof. vm_cast_no_check (eq_refl (Ok true)). Qed.

(** 1030-1052 `window_naf`. *)
Example window_naf :
  (n2 <- sc_compute_window_NAF true (sc_from_u64 1122334455) 2 ;;
   n3 <- sc_compute_window_NAF true (sc_from_u64 1122334455) 3 ;;
   n4 <- sc_compute_window_NAF true (sc_from_u64 1122334455) 4 ;;
   n5 <- sc_compute_window_NAF true (sc_from_u64 1122334455) 5 ;;
   n6 <- sc_compute_window_NAF true (sc_from_u64 1122334455) 6 ;;
   Ok (bytes_eqb ts_naf2 (firstn 31 n2) && bytes_eqb ts_naf3 (firstn 31 n3)
       && bytes_eqb ts_naf4 (firstn 31 n4) && bytes_eqb ts_naf5 (firstn 32 n5)
       && bytes_eqb ts_naf6 (firstn 31 n6))) = Ok true.
Proof. vm_cast_no_check (eq_refl (Ok true)). Qed.
